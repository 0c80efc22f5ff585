(** Proofs about the designspace document of a VFB *)
From Coq Require Import String ZifyBool ZifyNat.
From Verif Require Import Base Lib M_Py M_Text M_Table M_Options M_Groups M_Tth M_Designspace M_Build S_Designspace S_Build S_Document P_Build P_Designspace.
Local Open Scope list_scope.

Lemma design_part_is : forall k v, design_part (k, v) =
  if k =? 1513 then match v with DInt n => [XCount n] | _ => [] end else
  if k =? 1514 then match v with DStr x => [XAxis x] | _ => [] end else
  if k =? 1515 then match v with DInts x => [XMapCounts x] | _ => [] end else
  if k =? 1516 then match v with DDoublePairs x => [XMappings x] | _ => [] end else
  if k =? 1523 then match v with DAxes x => [XAniso x] | _ => [] end else
  if k =? 1505 then match v with DMasterLocation x => [XLocation (fst x) (snd x)] | _ => [] end else
  if k =? 1254 then match v with DInstances x => [XInstances x] | _ => [] end else
  if k =? 1503 then match v with DInt n => [XMasters n] | _ => [] end else [].
Proof.
  intros k v.
  repeat match goal with |- context [k =? ?n] => destruct (Z.eqb_spec k n) as [->|?]; [destruct v; try reflexivity; destruct x; reflexivity|] end.
  unfold design_part. destruct k as [|p|p]; try reflexivity.
  repeat (match goal with |- context [match ?p with xH => _ | xO _ => _ | xI _ => _ end] => destruct p end; try reflexivity; try congruence).
Qed.
Definition shape (a : axis num) : pystr * pystr * list (pystr * num) := (ax_name a, ax_tag a, ax_labels a).
Definition new_shape (upper : pystr -> pystr) (n : pystr) : pystr * pystr * list (pystr * num) := (n, axis_tag upper n, []).
Lemma update_shape : forall axes i (f : axis num -> axis num) axes', py_update axes i f = Ok axes' ->
  (forall a, py_index axes i = Ok a -> shape (f a) = shape a) -> map shape axes' = map shape axes.
Proof.
  intros axes i f axes' U H. unfold py_update in U. unfold py_index in H. cbv zeta in *. set (j := if i <? 0 then i + Z.of_nat (List.length axes) else i) in *.
  destruct (in_range 0 (Z.of_nat (List.length axes)) j) eqn:R; [|discriminate]. apply Ok_inj in U. subst axes'. unfold in_range in R.
  destruct (nth_error axes (Z.to_nat j)) as [a|] eqn:N; [|apply nth_error_None in N; lia].
  destruct (nth_error_split _ _ N) as (l1 & l2 & E & L). rewrite <- L, E.
  assert (K : skipn (S (List.length l1)) (l1 ++ a :: l2) = l2) by (clear; induction l1; [reflexivity|exact IHl1]). rewrite K.
  assert (K' : skipn (List.length l1) (l1 ++ a :: l2) = a :: l2) by (clear; induction l1; [reflexivity|exact IHl1]). rewrite K'.
  rewrite firstn_app, Nat.sub_diag, firstn_all, firstn_O, app_nil_r. cbn [firstn map app].
  rewrite !map_app. cbn [map]. f_equal. f_equal.
  apply H. replace ((j <? 0) || (Z.of_nat (List.length axes) <=? j)) with false by lia. reflexivity.
Qed.
Lemma mappings_shape : forall (o : num_ops num) n counts axes data axes', add_axis_mappings o n counts axes data = Ok axes' ->
  map shape axes' = map shape axes.
Proof.
  intros o n counts axes data axes' H. unfold add_axis_mappings in H. destruct counts as [[|k counts]|]; try discriminate.
  set (cs := k :: counts) in *. destruct (res_fold (mapping_turn o cs) (axes, data) (zrange n)) as [[r d]|] eqn:E; [|discriminate].
  cbn [rmap fst] in H. apply Ok_inj in H. subst r. revert axes data E. generalize (zrange n). 
  induction l as [|i l IH]; intros axes data E; cbn [res_fold] in E; [congruence|].
  destruct (mapping_turn o cs (axes, data) i) as [[r d']|] eqn:T; [|discriminate]. cbn [rthen] in E. rewrite (IH _ _ E). clear IH E.
  unfold mapping_turn in T. destruct (py_index cs i) as [m|]; [|discriminate]. cbn [rthen] in T.
  destruct (0 <? m); [|cbn [rmap] in T; congruence].
  destruct (py_index axes i) as [a|] eqn:A; [|discriminate]. cbn [rthen] in T.
  destruct (set_mapping o _ a) as [a'|] eqn:M; [|discriminate]. cbn [rthen] in T.
  destruct (py_update axes i (fun _ => a')) as [r'|] eqn:U; [|discriminate]. cbn [rmap] in T. apply Ok_inj in T. injection T as -> _.
  eapply update_shape; [exact U|]. intros b B. rewrite A in B. apply Ok_inj in B. subst b.
  unfold set_mapping in M. destruct (res_map _ _); [|discriminate]. cbn [rmap] in M. apply Ok_inj in M. subst a'. reflexivity.
Qed.
Definition instance_data (p : M_Options.instance) : pystr * list num := (M_Options.in_name p, map NNum (M_Options.in_values p)).
Definition locations_at (l : list (Z * value)) (i : Z) : list (list Z) := flat_map (fun e =>
    if fst e =? 1505 then match snd e with DMasterLocation x => if fst x =? i then [snd x] else [] | _ => [] end else []) l.
Definition instance_lists (l : list (Z * value)) : list (list M_Options.instance) :=
  flat_map (fun e => if fst e =? 1254 then match snd e with DInstances x => [x] | _ => [] end else []) l.
Definition count_lists (l : list (Z * value)) : list (list Z) :=
  flat_map (fun e => if fst e =? 1515 then match snd e with DInts x => [x] | _ => [] end else []) l.
Record design_from (c : settings) (d : design) (l : list (Z * value)) (d' : design) : Prop := DesignFrom {
  df_count : de_count d' = last_or (de_count d) (flat_map (int_part 1513) l);
  df_masters : de_masters d' = last_or (de_masters d) (map Some (flat_map (int_part 1503) l));
  df_instances : de_instances d' = last_or (de_instances d) (map (map instance_data) (instance_lists l));
  df_counts : de_mappings d' = last_or (de_mappings d) (map Some (count_lists l));
  df_locations : forall i, aget Z.eqb i (de_locations d') = last_or (aget Z.eqb i (de_locations d)) (map (fun x => Some (map NBits x)) (locations_at l i));
  df_shapes : map shape (de_axes d') = map shape (de_axes d) ++ map (new_shape (st_upper c)) (axis_names l);
  df_axes : mapping_entries l = [] -> de_axes d' = de_axes d ++ map (new_axis (st_upper c)) (axis_names l) }.
Lemma last_cons : forall A (a : list A) x d, last_or d (x :: a) = last_or x a.
Proof. intros A a x d. change (x :: a) with ([x] ++ a). now rewrite last_or_app. Qed.
Lemma design_fold : forall c l d d', res_fold (design_step c) d (flat_map design_part l) = Ok d' -> design_from c d l d'.
Proof.
  intros c. induction l as [|[k v] l IH]; intros d d' H.
  - cbn in H. apply Ok_inj in H. subst d'. constructor; try reflexivity; unfold axis_names, texts_said; cbn; now rewrite app_nil_r.
  - cbn [flat_map] in H. rewrite res_fold_app in H. destruct (res_fold (design_step c) d (design_part (k, v))) as [d1|] eqn:S; [|discriminate].
    cbn [rthen] in H. apply IH in H. clear IH.
    assert (X : design_from c d [(k, v)] d1).
    { rewrite design_part_is in S.
      assert (Same : d1 = d -> design_from c d [(k, v)] d -> design_from c d [(k, v)] d1) by (intros ->; auto).
      destruct (Z.eqb_spec k 1513) as [->|N1].
      { destruct v; cbn in S; apply Ok_inj in S; subst d1; constructor; cbn; rewrite ?app_nil_r; reflexivity. }
      destruct (Z.eqb_spec k 1514) as [->|N2].
      { destruct v; cbn in S; apply Ok_inj in S; subst d1; constructor; cbn; rewrite ?app_nil_r, ?map_app; reflexivity. }
      destruct (Z.eqb_spec k 1515) as [->|N3].
      { destruct v; cbn in S; apply Ok_inj in S; subst d1; constructor; cbn; rewrite ?app_nil_r, ?map_app; reflexivity. }
      destruct (Z.eqb_spec k 1516) as [->|N4].
      { destruct v; cbn [res_fold] in S; try (apply Ok_inj in S; subst d1; constructor; cbn; rewrite ?app_nil_r; reflexivity).
        cbn [design_step rthen] in S. unfold set_mappings in S.
        destruct (add_axis_mappings _ _ _ _ _) as [axes|] eqn:A; [|discriminate]. cbn in S. apply Ok_inj in S. subst d1.
        apply mappings_shape in A. constructor; cbn; rewrite ?app_nil_r; try reflexivity; [exact A|discriminate]. }
      destruct (Z.eqb_spec k 1523) as [->|N5].
      { destruct v; cbn [res_fold] in S; try (apply Ok_inj in S; subst d1; constructor; cbn; rewrite ?app_nil_r; reflexivity).
        cbn [design_step rthen] in S. unfold check_anisotropic in S. 
        assert (E : d1 = d). { destruct (existsb _ _); [destruct (res_map _ _); [|discriminate]|]; cbn in S; congruence. }
        subst d1. constructor; cbn; rewrite ?app_nil_r; reflexivity. }
      destruct (Z.eqb_spec k 1505) as [->|N6].
      { destruct v; cbn in S; apply Ok_inj in S; subst d1; constructor; cbn; rewrite ?app_nil_r, ?map_app; try reflexivity.
        intros i. rewrite (aget_aset Z.eqb Z.eqb_eq). destruct x as [j x]. cbn [fst snd]. rewrite Z.eqb_sym. destruct (j =? i); reflexivity. }
      destruct (Z.eqb_spec k 1254) as [->|N7].
      { destruct v; cbn in S; apply Ok_inj in S; subst d1; constructor; cbn; rewrite ?app_nil_r, ?map_app; reflexivity. }
      destruct (Z.eqb_spec k 1503) as [->|N8].
      { destruct v; cbn in S; apply Ok_inj in S; subst d1; constructor; cbn; rewrite ?app_nil_r, ?map_app; reflexivity. }
      apply Z.eqb_neq in N1, N2, N3, N4, N5, N6, N7, N8. cbn in S. apply Ok_inj in S. subst d1.
      constructor; unfold int_part, instance_lists, count_lists, locations_at, axis_names, texts_said, mapping_entries; cbn [flat_map fst snd];
        rewrite ?N1, ?N2, ?N3, ?N4, ?N5, ?N6, ?N7, ?N8; cbn; rewrite ?app_nil_r; reflexivity. }
    destruct X, H. constructor.
    + rewrite df_count1, df_count0, <- last_or_app. cbn [flat_map]. now rewrite app_nil_r.
    + rewrite df_masters1, df_masters0, <- last_or_app. cbn [flat_map]. now rewrite app_nil_r, map_app.
    + rewrite df_instances1, df_instances0, <- last_or_app. unfold instance_lists. cbn [flat_map]. now rewrite app_nil_r, map_app.
    + rewrite df_counts1, df_counts0, <- last_or_app. unfold count_lists. cbn [flat_map]. now rewrite app_nil_r, map_app.
    + intros i. rewrite df_locations1, df_locations0, <- last_or_app. unfold locations_at. cbn [flat_map]. now rewrite app_nil_r, map_app.
    + rewrite df_shapes1, df_shapes0, <- app_assoc. f_equal. unfold axis_names, texts_said. cbn [flat_map]. now rewrite app_nil_r, map_app.
    + intros M. unfold mapping_entries in M. cbn [flat_map] in M. apply app_eq_nil in M. destruct M as [M1 M2].
      rewrite (df_axes1 M2), df_axes0, <- app_assoc. 2:{ unfold mapping_entries. cbn [flat_map]. now rewrite M1. }
      f_equal. unfold axis_names, texts_said. cbn [flat_map]. now rewrite app_nil_r, map_app.
Qed.
