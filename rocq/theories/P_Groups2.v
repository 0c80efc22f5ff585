(** Proofs about the transformed classes (C46) and the kerning (C47). *)
From Coq Require Import String ZifyBool.
From Verif Require Import Base M_Py M_Text M_Groups S_Groups Lib P_Groups.
Local Open Scope list_scope.

(** ** Key glyphs *)
Lemma lstrip_id : forall f s, (forall c t, s = c :: t -> f c = false) -> lstrip f s = s.
Proof. intros f [|c s] H; [reflexivity|]. cbn. now rewrite (H c s eq_refl). Qed.

Lemma unquoted_lstrip : forall g, unquoted g -> lstrip (Z.eqb quote) g = g.
Proof.
  intros g (N & B & E). apply lstrip_id. intros c t ->. unfold quote. destruct (39 =? c) eqn:Q; [|reflexivity].
  apply Z.eqb_eq in Q. subst. now elim (B t).
Qed.
Lemma unquoted_rev : forall g, unquoted g -> lstrip (Z.eqb quote) (rev g) = rev g.
Proof.
  intros g (N & B & E). apply lstrip_id. intros c t R. unfold quote. destruct (39 =? c) eqn:Q; [|reflexivity].
  apply Z.eqb_eq in Q. subst. elim (E (rev t)). rewrite <- (rev_involutive g), R. reflexivity.
Qed.
Lemma strip_quoted : forall g, unquoted g -> strip_quotes (g ++ [39]) = g.
Proof.
  intros g U. unfold strip_quotes, strip.
  assert (lstrip (Z.eqb quote) (g ++ [39]) = g ++ [39]) as ->.
  { apply lstrip_id. destruct U as (N & B & E). intros c t R. destruct g as [|c' g]; [congruence|].
    cbn in R. injection R as -> _. unfold quote. destruct (39 =? c) eqn:Q; [|reflexivity].
    apply Z.eqb_eq in Q. subst. now elim (B g). }
  rewrite rev_app_distr. cbn [rev app lstrip]. unfold quote at 1. rewrite Z.eqb_refl.
  rewrite unquoted_rev by assumption. apply rev_involutive.
Qed.
Lemma is_key_quoted : forall g, is_key_glyph (g ++ [39]) = true.
Proof. intros. unfold is_key_glyph, ends. rewrite rev_app_distr. apply starts_spec. now exists (rev g). Qed.
Lemma is_key_unquoted : forall g, unquoted g -> is_key_glyph g = false.
Proof.
  intros g (N & B & E). unfold is_key_glyph, ends. apply starts_neg. intros [t R]. cbn in R.
  elim (E (rev t)). rewrite <- (rev_involutive g), R. reflexivity.
Qed.

Lemma class_keys : forall ms, Forall (fun p => unquoted (fst p)) ms ->
  map strip_quotes (filter is_key_glyph (map member_text ms)) = map fst (filter snd ms) /\
  filter (fun g => negb (is_key_glyph g)) (map member_text ms) = map fst (filter (fun p => negb (snd p)) ms).
Proof.
  induction ms as [|[g k] ms IH]; intros F; [split; reflexivity|].
  apply Forall_cons_iff in F. destruct F as [U F]. cbn [fst] in U. destruct (IH F) as [E1 E2].
  destruct k; cbn [map filter snd negb].
  - change (member_text (g, true)) with (g ++ [39]). rewrite is_key_quoted. cbn [negb map fst]. rewrite strip_quoted by assumption. rewrite E1.
    split; [reflexivity|exact E2].
  - change (member_text (g, false)) with g. rewrite is_key_unquoted by assumption. cbn [negb map fst]. rewrite E2. split; [exact E1|reflexivity].
Qed.

(** ** Missing glyphs *)
Definition missing_of (order l : list pystr) : list pystr := filter (fun n => negb (mem n order)) l.

Lemma filter_split : forall order l,
  (List.length (existing order l) + List.length (missing_of order l) = List.length l)%nat.
Proof.
  induction l as [|g l IH]; [reflexivity|]. cbn [existing missing_of filter].
  fold (existing order l). fold (missing_of order l). destruct (mem g order); cbn [negb List.length]; lia.
Qed.
Lemma missing_filter : forall order l,
  filter (fun g => negb (mem g (missing_of order l))) l = existing order l.
Proof.
  intros. apply filter_ext_in. intros g H. destruct (mem g order) eqn:M.
  - assert (mem g (missing_of order l) = false) as ->; [|reflexivity]. apply mem_notin. intro K.
    apply filter_In in K. rewrite M in K. now destruct K.
  - assert (mem g (missing_of order l) = true) as ->; [|reflexivity]. apply mem_In. apply filter_In.
    now rewrite M.
Qed.
Lemma check_missing : forall order skip c,
  check_for_missing_glyphs (glyphs_of c) order skip =
  (exported_glyphs order skip c, missing_of order (glyphs_of c)).
Proof.
  intros. unfold check_for_missing_glyphs, exported_glyphs.
  pose proof (missing_filter order (glyphs_of c)) as MF.
  fold (missing_of order (glyphs_of c)). destruct (missing_of order (glyphs_of c)) as [|m ms] eqn:M.
  - f_equal. pose proof (filter_split order (glyphs_of c)) as L. rewrite M in L. cbn in L.
    assert (E : existing order (glyphs_of c) = glyphs_of c).
    { clear M MF. revert L. generalize (glyphs_of c). induction l as [|g l IH]; [reflexivity|].
      pose proof (filter_split order l) as L. unfold existing in *. cbn [filter].
      destruct (mem g order) eqn:G; cbn [List.length]; intros H.
      - f_equal. apply IH. lia.
      - lia. }
    rewrite E. destruct skip; [|reflexivity]. destruct (glyphs_of c); reflexivity.
  - rewrite MF. destruct skip; [|reflexivity].
    destruct (existing order (glyphs_of c)); reflexivity.
Qed.

Lemma find_filter : forall A (f : A -> bool) l, find f l = hd_error (filter f l).
Proof. induction l as [|x l IH]; [reflexivity|]. cbn. destruct (f x); [reflexivity|exact IH]. Qed.

Lemma choose_exported : forall order c,
  choose_key (key_glyphs_of c) (missing_of order (glyphs_of c)) (Z.of_nat (List.length (glyphs_of c)))
  = exported_key order c.
Proof.
  intros. unfold choose_key, exported_key. rewrite find_filter.
  pose proof (filter_split order (glyphs_of c)) as L.
  destruct (existing order (glyphs_of c)) as [|e es] eqn:E.
  - cbn in L. rewrite L, Z.eqb_refl. f_equal. clear.
    induction (key_glyphs_of c) as [|g l IH]; [reflexivity|]. cbn [filter]. now rewrite andb_false_r, IH.
  - cbn in L. f_equal. unfold existing. apply filter_ext_in. intros g H.
    assert (Z.of_nat (List.length (missing_of order (glyphs_of c))) =? Z.of_nat (List.length (glyphs_of c)) = false)
      as -> by lia.
    cbn [negb]. rewrite andb_true_r.
    assert (I : In g (glyphs_of c)) by (apply in_or_app; now left).
    destruct (mem g order) eqn:M.
    + assert (mem g (missing_of order (glyphs_of c)) = false) as ->; [|reflexivity]. apply mem_notin.
      intro K. apply filter_In in K. rewrite M in K. now destruct K.
    + assert (mem g (missing_of order (glyphs_of c)) = true) as ->; [|reflexivity]. apply mem_In.
      apply filter_In. now rewrite M.
Qed.

(** ** One class *)
Definition add_groups (ns : list pystr) (gl : list pystr) (key : option pystr) (st : tg_state) : tg_state :=
  mkTG (tg_groups st ++ map (fun n => (n, gl)) ns) (tg_order st ++ ns)
       (tg_keys st ++ match key with Some k => map (fun n => (n, k)) ns | None => [] end).

Definition fresh (n : pystr) (st : tg_state) : Prop :=
  ~ In n (map fst (tg_groups st)) /\ ~ In n (map fst (tg_keys st)).

Lemma set_key_fresh : forall n key st, fresh n st ->
  set_key n key (tg_keys st) = tg_keys st ++ match key with Some k => [(n, k)] | None => [] end.
Proof.
  intros n key st [_ F]. unfold set_key. rewrite (proj2 (aget_None str_eqb str_eqb_eq _ _) F).
  destruct key; [|now rewrite app_nil_r]. now apply (aset_notin str_eqb str_eqb_eq).
Qed.

Lemma land_bit : forall f k, 0 <= k -> (Z.land f (2 ^ k) =? 0) = negb (Z.testbit f k).
Proof.
  intros f k H. destruct (Z.testbit f k) eqn:T; cbn [negb].
  - apply Z.eqb_neq. intro E. apply (f_equal (fun x => Z.testbit x k)) in E.
    rewrite Z.land_spec, T, Z.pow2_bits_true, Z.bits_0 in E by assumption. discriminate.
  - apply Z.eqb_eq. apply Z.bits_inj'. intros n Hn. rewrite Z.land_spec, Z.bits_0, Z.pow2_bits_eqb by assumption.
    destruct (k =? n) eqn:E; [apply Z.eqb_eq in E; subst; now rewrite T|apply andb_false_r].
Qed.

Lemma add_side_fresh : forall f k sidename name gl key st, 0 <= k ->
  fresh (kern_name sidename name) st ->
  add_side f (2 ^ k) sidename name gl key st =
  add_groups (if Z.testbit f k then [kern_name sidename name] else []) gl key st.
Proof.
  intros f k sn name gl key st Hk F. unfold add_side, add_groups. rewrite land_bit by assumption.
  destruct (Z.testbit f k); cbn [negb map].
  - destruct F as [F1 F2]. rewrite (proj2 (aget_None str_eqb str_eqb_eq _ _) F1).
    rewrite (aset_notin str_eqb str_eqb_eq) by assumption. rewrite set_key_fresh by (now split).
    reflexivity.
  - destruct st; cbn. destruct key; now rewrite !app_nil_r.
Qed.

Lemma add_groups_app : forall a b gl key st,
  add_groups b gl key (add_groups a gl key st) = add_groups (a ++ b) gl key st.
Proof.
  intros. unfold add_groups. cbn. rewrite !map_app, <- !app_assoc. destruct key; [|reflexivity].
  now rewrite map_app.
Qed.

Lemma kern_name_inj : forall s t a b, (s = 1 \/ s = 2) -> (t = 1 \/ t = 2) ->
  kern_name s a = kern_name t b -> s = t /\ a = b.
Proof.
  intros s t a b [->| ->] [->| ->] E; unfold kern_name in E; cbn in E; injection E as E; auto; discriminate.
Qed.

Lemma transform_class : forall flags order skip c st,
  wf_class c -> Forall (fun p => snd p <> []) flags ->
  (forall n, In n (kern_name 1 (cl_name c) :: kern_name 2 (cl_name c) :: group_names flags c) -> fresh n st) ->
  transform_group flags order skip (cl_name c) (map member_text (cl_members c)) st =
  Ok (add_groups (group_names flags c) (exported_glyphs order skip c) (exported_key order c) st).
Proof.
  intros flags order skip c st [U K] FL F. unfold transform_group.
  destruct (class_keys _ U) as [-> ->]. fold (key_glyphs_of c). fold (glyphs_of c).
  rewrite check_missing, choose_exported.
  destruct (starts (py "_") (cl_name c)) eqn:S.
  - apply starts_spec in S. destruct S as [t S]. change (py "_") with [95] in S. cbn [app] in S.
    assert (G : group_names flags c = match aget str_eqb (cl_name c) flags with
      | Some (f :: _) => (if Z.testbit f 10 then [kern_name 1 (cl_name c)] else []) ++
                         (if Z.testbit f 11 then [kern_name 2 (cl_name c)] else [])
      | _ => [] end).
    { unfold group_names. rewrite S. reflexivity. }
    rewrite G. destruct (aget str_eqb (cl_name c) flags) as [fl|] eqn:A.
    + destruct fl as [|f fl].
      { exfalso. apply (aget_In str_eqb str_eqb_eq) in A. rewrite Forall_forall in FL. now apply FL in A. }
      assert (py_index (f :: fl) 0 = Ok f) as ->.
      { unfold py_index. cbn [List.length]. change (0 <? 0) with false. cbn iota.
        rewrite (proj2 (Z.leb_gt (Z.of_nat (Datatypes.S (List.length fl))) 0)) by lia. reflexivity. }
      cbn [rmap].
      unfold FIRST, SECOND. rewrite add_side_fresh; [|lia|].
      * rewrite add_side_fresh; [|lia|apply F; now left]. rewrite add_groups_app. reflexivity.
      * rewrite add_side_fresh; [|lia|apply F; now left].
        destruct (F (kern_name 2 (cl_name c)) (or_intror (or_introl eq_refl))) as [F1 F2].
        assert (D : kern_name 1 (cl_name c) <> kern_name 2 (cl_name c)).
        { intro E. apply kern_name_inj in E; auto. destruct E. discriminate. }
        unfold add_groups. split; cbn [tg_groups tg_keys]; rewrite map_app, in_app_iff;
          destruct (Z.testbit f 10); cbn [map fst In]; destruct (exported_key order c); cbn [map fst In]; tauto.
    + f_equal. unfold add_groups. destruct st; cbn. destruct (exported_key order c); now rewrite !app_nil_r.
  - assert (G : group_names flags c = [cl_name c]).
    { apply starts_neg in S. unfold group_names. destruct (cl_name c) as [|x n] eqn:N; [reflexivity|].
      cbn [hd]. destruct (Z.eqb_spec x 95) as [->|D]; [elim S; now exists n|reflexivity]. }
    rewrite G. destruct (F (cl_name c)) as [F1 F2]; [rewrite G; cbn; tauto|].
    f_equal. unfold add_groups. rewrite (aset_notin str_eqb str_eqb_eq) by assumption.
    rewrite set_key_fresh by (now split). reflexivity.
Qed.

(** ** All classes *)
Lemma group_names_name : forall flags c n, In n (group_names flags c) ->
  n = cl_name c \/ n = kern_name 1 (cl_name c) \/ n = kern_name 2 (cl_name c).
Proof.
  intros flags c n H.
  destruct (starts (py "_") (cl_name c)) eqn:S.
  - apply starts_spec in S. destruct S as [t S]. change (py "_") with [95] in S. cbn [app] in S. unfold group_names in H.
    replace (hd 0 (cl_name c) =? 95) with true in H by now rewrite S. destruct (aget str_eqb (cl_name c) flags) as [[|f fl]|]; [destruct H| |destruct H].
    apply in_app_or in H. destruct (Z.testbit f 10), (Z.testbit f 11); cbn [In] in H;
      repeat match goal with H : _ \/ _ |- _ => destruct H end; subst; try contradiction; auto.
  - apply starts_neg in S. unfold group_names in H. destruct (cl_name c) as [|x m] eqn:N; [cbn in H; intuition|].
    left. cbn [hd] in H. destruct (Z.eqb_spec x 95) as [->|D]; [elim S; now exists m|].
    cbn in H. intuition.
Qed.

Lemma kern_name_kerning : forall s n, kerning_name (kern_name s n).
Proof. intros. unfold kerning_name, kern_name. eauto. Qed.

Definition all_names (cs : list glyph_class) : list pystr :=
  flat_map (fun c => [cl_name c; kern_name 1 (cl_name c); kern_name 2 (cl_name c)]) cs.

Lemma all_names_In : forall cs n, In n (all_names cs) -> exists c, In c cs /\
  (n = cl_name c \/ n = kern_name 1 (cl_name c) \/ n = kern_name 2 (cl_name c)).
Proof.
  intros. apply in_flat_map in H. destruct H as (c & H & K). exists c. split; [assumption|].
  cbn in K. intuition.
Qed.

Lemma all_names_disjoint : forall c cs n, Forall wf_class (c :: cs) ->
  ~ In (cl_name c) (map cl_name cs) ->
  (n = cl_name c \/ n = kern_name 1 (cl_name c) \/ n = kern_name 2 (cl_name c)) -> ~ In n (all_names cs).
Proof.
  intros c cs n W N H I. apply all_names_In in I. destruct I as (d & Id & E).
  assert (Wc : ~ kerning_name (cl_name c)) by (apply Forall_inv in W; apply W).
  assert (Wd : ~ kerning_name (cl_name d)).
  { rewrite Forall_forall in W. apply (W d). now right. }
  apply N. apply in_map_iff. exists d. split; [|assumption].
  destruct H as [H|[H|H]], E as [E|[E|E]]; rewrite E in H; clear E.
  - exact H.
  - elim Wc. rewrite <- H. apply kern_name_kerning.
  - elim Wc. rewrite <- H. apply kern_name_kerning.
  - elim Wd. rewrite H. apply kern_name_kerning.
  - apply kern_name_inj in H; auto. apply H.
  - apply kern_name_inj in H; auto. now destruct H.
  - elim Wd. rewrite H. apply kern_name_kerning.
  - apply kern_name_inj in H; auto. now destruct H.
  - apply kern_name_inj in H; auto. apply H.
Qed.

Lemma transform_all : forall flags order skip cs st,
  Forall wf_class cs -> NoDup (map cl_name cs) -> Forall (fun p => snd p <> []) flags ->
  (forall n, In n (all_names cs) -> fresh n st) ->
  transform_groups_from flags order skip (map class_entry cs) st =
  Ok (mkTG (tg_groups st ++ exported_groups flags order skip cs)
           (tg_order st ++ map fst (exported_groups flags order skip cs))
           (tg_keys st ++ exported_keys flags order cs)).
Proof.
  induction cs as [|c cs IH]; intros st W ND FL F.
  - cbn. rewrite !app_nil_r. now destruct st.
  - cbn [map class_entry transform_groups_from]. cbn [map] in ND. apply NoDup_cons_iff in ND. destruct ND as [N ND].
    rewrite transform_class; [|now apply Forall_inv in W|assumption|].
    + cbn [rthen]. rewrite IH; [|now apply Forall_inv_tail in W|assumption|assumption|].
      * f_equal. unfold exported_groups, exported_keys. cbn [flat_map]. unfold add_groups. cbn [tg_groups tg_order tg_keys].
        rewrite map_app, <- !app_assoc. f_equal. f_equal. f_equal. rewrite map_map. cbn [fst]. now rewrite map_id.
      * intros n I.
        assert (A : ~ In n (group_names flags c)).
        { intro G. apply group_names_name in G. eapply all_names_disjoint; eauto. }
        destruct (F n) as [F1 F2]; [cbn; auto|].
        assert (M : forall A (v : A), map fst (map (fun m : pystr => (m, v)) (group_names flags c)) = group_names flags c)
          by (intros; rewrite map_map; cbn [fst]; apply map_id).
        unfold add_groups. split; cbn [tg_groups tg_keys]; rewrite map_app, in_app_iff.
        -- rewrite M. tauto.
        -- destruct (exported_key order c); [rewrite M|cbn]; tauto.
    + intros n I. apply F. cbn [all_names flat_map].
      assert (n = cl_name c \/ n = kern_name 1 (cl_name c) \/ n = kern_name 2 (cl_name c)) as D.
      { destruct I as [<-|[<-|I]]; auto. eapply group_names_name; eauto. }
      apply in_or_app. left. cbn. intuition.
Qed.

(** the names of the groups that [transform_groups] returns are distinct, whatever the classes *)
Lemma transform_groups_nodup : forall flags order skip gs st st',
  transform_groups_from flags order skip gs st = Ok st' ->
  NoDup (map fst (tg_groups st)) -> NoDup (map fst (tg_groups st')).
Proof.
  assert (A : forall f s n name gl key st, NoDup (map fst (tg_groups st)) ->
    NoDup (map fst (tg_groups (add_side f s n name gl key st)))).
  { intros. unfold add_side. destruct (_ =? 0); [assumption|].
    destruct (aget _ _ _); [assumption|]. cbn. now apply (aset_nodup str_eqb str_eqb_eq). }
  induction gs as [|[n gl] gs IH]; intros st st' E ND; cbn [transform_groups_from] in E.
  - injection E as <-. exact ND.
  - destruct (transform_group flags order skip n gl st) as [st1|e] eqn:T; [|discriminate].
    cbn [rthen] in E. eapply IH; [exact E|]. clear E IH. unfold transform_group in T.
    destruct (check_for_missing_glyphs _ _ _) as [gl' ms]. destruct (starts _ n).
    + destruct (aget str_eqb n flags) as [fl|]; [|injection T as <-; exact ND].
      destruct (py_index fl 0); [|discriminate]. cbn in T. injection T as <-. apply A, A, ND.
    + injection T as <-. cbn. now apply (aset_nodup str_eqb str_eqb_eq).
Qed.
