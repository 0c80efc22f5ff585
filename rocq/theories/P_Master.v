(** Proofs about one master of glyphs and of the font info (M_Master). *)
From Coq Require Import String ZifyBool.
From Verif Require Import Base M_Py M_Text M_Simple M_Glyph M_Tth M_Info M_Master S_Glyph S_Master Lib P_Glyph P_Tth P_Guides.
Local Open Scope list_scope.

Lemma last_snoc : forall A (l : list A) x d, last (l ++ [x]) d = x.
Proof. intros A l x d. apply last_last. Qed.

(** what the entries give *)
Lemma extras_spec : forall es,
  let e := fold_left add_extra es no_extras in
  ge_unicodes e = unicodes_of es /\ ge_anchors e = anchors_of es /\
  (match ge_mm_anchors e with Some l => l | None => [] end) = mm_anchors_of es /\
  ge_mask_metrics e = mask_of es.
Proof.
  intros es. induction es as [|x es IH] using rev_ind; [repeat split|].
  cbv zeta in *. rewrite fold_left_app. cbn [fold_left]. destruct IH as (I1 & I2 & I3 & I4).
  unfold unicodes_of, anchors_of, mm_anchors_of, mask_of in *. rewrite !flat_map_app. cbn [flat_map].
  destruct x as [l|l|d|l|w h|l]; cbn [add_extra];
    try destruct (gd_anchors d) as [l|]; cbn [ge_unicodes ge_anchors ge_mm_anchors ge_mask_metrics];
    rewrite ?app_nil_r, ?last_snoc; rewrite ?I1, ?I2, ?I3, ?I4; auto.
Qed.

Lemma py_update_some : forall A (l : list A) j (f : A -> A) x, nth_error l j = Some x ->
  py_update l (Z.of_nat j) f = Ok (firstn j l ++ f x :: skipn (S j) l).
Proof.
  intros A l j f x E. pose proof (nth_error_split l j E) as (l1 & l2 & -> & Lj).
  subst j. rewrite py_update_mid. rewrite firstn_app, firstn_all, Nat.sub_diag. cbn [firstn]. rewrite app_nil_r.
  f_equal. f_equal. f_equal. change (S (List.length l1)) with (1 + List.length l1)%nat.
  rewrite Nat.add_comm, skipn_app. rewrite skipn_all2 by lia.
  replace (List.length l1 + 1 - List.length l1)%nat with 1%nat by lia. reflexivity.
Qed.

(** anchors *)
Lemma anchors_ok : forall m mm pre anchors,
  0 <= m ->
  Forall (fun p => (Z.to_nat m < List.length (an_x p))%nat /\ (Z.to_nat m < List.length (an_y p))%nat) mm ->
  (List.length mm <= List.length anchors)%nat ->
  exists r, res_fold (apply_anchor m) (pre ++ anchors) (enumerate_from (Z.of_nat (List.length pre)) mm) = Ok (pre ++ r) /\
    List.length r = List.length anchors /\
    forall j a', nth_error r j = Some a' -> exists a, nth_error anchors j = Some a /\ ga_name a' = ga_name a /\
      match nth_error mm j with
      | Some p => nth_error (an_x p) (Z.to_nat m) = Some (ga_x a') /\ nth_error (an_y p) (Z.to_nat m) = Some (ga_y a')
      | None => ga_x a' = ga_x a /\ ga_y a' = ga_y a
      end.
Proof.
  intros m mm. induction mm as [|p mm IH]; intros pre anchors Hm F L.
  - exists anchors. cbn. split; [reflexivity|]. split; [reflexivity|].
    intros j a' E. exists a'. split; [assumption|]. split; [reflexivity|]. destruct j; split; reflexivity.
  - destruct anchors as [|a anchors]; [cbn in L; lia|]. inversion F as [|? ? [Fx Fy] F']; subst.
    cbn [enumerate_from res_fold]. unfold apply_anchor at 1.
    destruct (nth_error (an_x p) (Z.to_nat m)) as [x|] eqn:Ex; [|apply nth_error_None in Ex; lia].
    destruct (nth_error (an_y p) (Z.to_nat m)) as [y|] eqn:Ey; [|apply nth_error_None in Ey; lia].
    rewrite (py_index_some _ _ _ _ Hm Ex). cbn [rthen]. rewrite py_update_mid. cbn [rthen].
    rewrite (py_index_some _ _ _ _ Hm Ey). cbn [rthen]. rewrite py_update_mid. cbn [rthen ga_name ga_x ga_y].
    replace (Z.of_nat (List.length pre) + 1) with (Z.of_nat (List.length (pre ++ [GdefAnchor (ga_name a) x y])))
      by (rewrite app_length; cbn; lia).
    destruct (IH (pre ++ [GdefAnchor (ga_name a) x y]) anchors Hm F') as (r & E & Lr & H); [cbn in L; lia|].
    exists (GdefAnchor (ga_name a) x y :: r). rewrite <- !app_assoc in E. cbn [app] in E. rewrite E.
    split; [reflexivity|]. split; [cbn; congruence|].
    intros [|j] a' Ea; cbn [nth_error] in *.
    + injection Ea as <-. exists a. cbn. auto.
    + apply H. assumption.
Qed.

Lemma extract_anchors_ok : forall m anchors mm,
  0 <= m ->
  Forall (fun p => (Z.to_nat m < List.length (an_x p))%nat /\ (Z.to_nat m < List.length (an_y p))%nat)
    (match mm with Some l => l | None => [] end) ->
  (List.length (match mm with Some l => l | None => [] end) <= List.length anchors)%nat ->
  exists r, extract_anchors m anchors mm = Ok r /\
    List.length r = List.length anchors /\
    forall j a', nth_error r j = Some a' -> exists a, nth_error anchors j = Some a /\ ga_name a' = ga_name a /\
      match nth_error (match mm with Some l => l | None => [] end) j with
      | Some p => nth_error (an_x p) (Z.to_nat m) = Some (ga_x a') /\ nth_error (an_y p) (Z.to_nat m) = Some (ga_y a')
      | None => ga_x a' = ga_x a /\ ga_y a' = ga_y a
      end.
Proof.
  intros m anchors [mm|] Hm F L.
  - exact (anchors_ok m mm [] anchors Hm F L).
  - exists anchors. cbn [extract_anchors]. split; [reflexivity|]. split; [reflexivity|].
    intros j a' E. exists a'. split; [assumption|]. split; [reflexivity|]. destruct j; split; reflexivity.
Qed.

(** attributes *)
Lemma attr_set_same : forall k v i, attr (setattr k v i) k = Some v.
Proof. intros. unfold attr, setattr. cbn. rewrite (aget_aset str_eqb str_eqb_eq). now rewrite str_eqb_refl. Qed.
Lemma attr_set_other : forall k v i k', k' <> k -> attr (setattr k v i) k' = attr i k'.
Proof.
  intros k v i k' N. unfold attr, setattr. cbn. rewrite (aget_aset str_eqb str_eqb_eq).
  apply str_eqb_neq in N. now rewrite N.
Qed.
Lemma clipped_is : forall k n l i, 0 <= n ->
  set_clipped k n l i = fold_left (fun i x => setattr (fst x) (snd x) i)
    (if n =? 0 then [] else [(k, IList (firstn (Z.to_nat n) l))]) i.
Proof.
  intros k n l i H. unfold set_clipped, slice_to. destruct (n =? 0) eqn:E; [reflexivity|].
  assert (X : (0 <=? n) = true) by lia. rewrite X. reflexivity.
Qed.
Lemma set_all_attr : forall l i, NoDup (map fst l) ->
  (forall k v, In (k, v) l -> attr (fold_left (fun i x => setattr (fst x) (snd x) i) l i) k = Some v) /\
  (forall k, ~ In k (map fst l) -> attr (fold_left (fun i x => setattr (fst x) (snd x) i) l i) k = attr i k) /\
  if_lib (fold_left (fun i x => setattr (fst x) (snd x) i) l i) = if_lib i.
Proof.
  induction l as [|[k v] l IH]; intros i ND.
  - split; [intros ? ? []|]. split; reflexivity.
  - inversion ND as [|? ? Nk ND']; subst. cbn [fold_left fst snd].
    destruct (IH (setattr k v i) ND') as (H1 & H2 & H3). split; [|split].
    + intros k' v' [E|H]; [|now apply H1]. injection E as <- <-. rewrite H2 by exact Nk. apply attr_set_same.
    + intros k' N. rewrite H2 by (intros H; apply N; now right).
      apply attr_set_other. intros ->. apply N. now left.
    + rewrite H3. reflexivity.
Qed.

Definition kept (x : pystr * (bool * info_val)) : list (pystr * info_val) :=
  if fst (snd x) then [(fst x, snd (snd x))] else [].
Lemma nodup_keep : forall (l : list (pystr * (bool * info_val))), NoDup (map fst l) ->
  NoDup (map fst (flat_map kept l)) /\
  forall k, In k (map fst (flat_map kept l)) -> In k (map fst l).
Proof.
  induction l as [|[k [b v]] l IH]; intros ND.
  - split; [constructor|intros k []].
  - inversion ND as [|? ? Nk ND']; subst. destruct (IH ND') as [I1 I2]. cbn [flat_map fst snd map kept]. unfold kept at 1 3. cbn [fst snd]. destruct b; cbn [app map fst].
    + split; [constructor; [intros H; apply Nk; now apply I2|assumption]|]. intros k' [<-|H]; [now left|right; now apply I2].
    + split; [assumption|]. intros k' H. right. now apply I2.
Qed.

Lemma master_values_keep : forall hints n p, master_values hints n p =
  flat_map kept
    (map (fun x => (fst x, (true, snd x))) (vertical_metrics p) ++
     map (fun x => (fst x, (hints, snd x))) (hint_values p) ++
     map (fun x => (fst x, (hints && negb (fst (snd x) =? 0), IList (firstn (Z.to_nat (fst (snd x))) (snd (snd x))))))
         (hint_lists n p)).
Proof.
  intros hints n p. rewrite !flat_map_app. unfold master_values. f_equal.
  destruct hints; [|reflexivity]. f_equal. unfold used_lists.
  generalize (hint_lists n p). intros l. induction l as [|[k [c v]] l IH]; [reflexivity|].
  cbn [flat_map map fst snd]. rewrite IH. unfold kept at 2. cbn [fst snd]. destruct (c =? 0); reflexivity.
Qed.
Lemma master_values_nodup : forall hints n p, NoDup (map fst (master_values hints n p)).
Proof.
  intros hints n p. rewrite master_values_keep. apply nodup_keep.
  rewrite !map_app, !map_map. cbn [vertical_metrics hint_values hint_lists map fst snd app].
  repeat (apply NoDup_cons; [intros H; repeat (destruct H as [H|H]; [discriminate H|]); exact H|]). constructor.
Qed.
Lemma master_info_is : forall hints n infos m p i, counts_ok n -> 0 <= m -> nth_error infos (Z.to_nat m) = Some p ->
  get_master_info hints n infos m i = Ok (fold_left (fun i x => setattr (fst x) (snd x) i) (master_values hints n p) i).
Proof.
  intros hints n infos m p i C Hm E. unfold get_master_info. rewrite (py_index_some _ _ _ _ Hm E). cbn [rmap].
  f_equal. unfold master_values. rewrite fold_left_app. destruct hints; [|reflexivity].
  rewrite fold_left_app. unfold used_lists, hint_lists. cbn [flat_map]. rewrite app_nil_r.
  unfold counts_ok in C. repeat (apply Forall_cons_iff in C; destruct C as [? C]).
  rewrite !fold_left_app. rewrite <- !clipped_is by assumption. reflexivity.
Qed.
