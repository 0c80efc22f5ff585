(** Proofs about PostScript hints. *)
From Coq Require Import String ZifyBool ZifyNat Sorted.
From Verif Require Import Base M_Py M_Text M_Glyph M_Labels M_PsHints S_Labels S_PsHints Lib P_Glyph P_Labels.
Local Open Scope list_scope.

Lemma hint_ltb_lt : forall a b, hint_ltb a b = true <-> hint_lt a b.
Proof. intros [va pa wa] [vb pb wb]. unfold hint_ltb, hint_lt. cbn. destruct va, vb; lia. Qed.
Lemma hint_lt_trans : forall a b c, hint_lt a b -> hint_lt b c -> hint_lt a c.
Proof. intros [va pa wa] [vb pb wb] [vc pc wc]. unfold hint_lt. cbn. destruct va, vb, vc; lia. Qed.
Lemma hint_tri : forall a b, hint_ltb a b = false -> hint_ltb b a = false -> a = b.
Proof.
  intros [va pa wa] [vb pb wb]. unfold hint_ltb. cbn. destruct va, vb; intros; try discriminate; f_equal; lia.
Qed.
Lemma insert_In : forall h l x, In x (insert_hint h l) <-> x = h \/ In x l.
Proof.
  induction l as [|y l IH]; intros x; cbn [insert_hint].
  - cbn. intuition.
  - destruct (hint_ltb h y) eqn:E1; [cbn; intuition|]. destruct (hint_ltb y h) eqn:E2.
    + cbn [In]. rewrite IH. intuition.
    + rewrite (hint_tri _ _ E1 E2) in *. cbn. intuition.
Qed.
Lemma insert_sorted : forall h l, StronglySorted hint_lt l -> StronglySorted hint_lt (insert_hint h l).
Proof.
  induction l as [|y l IH]; intros S; cbn [insert_hint].
  - constructor; constructor.
  - inversion S as [|? ? S1 F]; subst. destruct (hint_ltb h y) eqn:E1.
    + apply hint_ltb_lt in E1. constructor; [assumption|]. constructor; [assumption|].
      eapply Forall_impl; [|exact F]. intros z. now apply hint_lt_trans.
    + destruct (hint_ltb y h) eqn:E2; [|assumption]. apply hint_ltb_lt in E2. constructor; [now apply IH|].
      rewrite Forall_forall in *. intros z Hz. apply insert_In in Hz. destruct Hz as [->|Hz]; [assumption|auto].
Qed.
Lemma sorted_set_ok : forall l, sorted_version l (sorted_set l).
Proof.
  induction l as [|h l [S I]]; cbn [sorted_set fold_right].
  - split; [constructor|reflexivity].
  - fold (sorted_set l). split; [now apply insert_sorted|]. intros x. rewrite insert_In, I. cbn. intuition.
Qed.

(** ** Sets *)
Fixpoint seg_stems (h v : list hint) (node : Z) (acc : list hint) (masks : list (pystr * Z)) : list (Z * list hint) :=
  match masks with
  | [] => [(node, acc)]
  | mask :: masks =>
      if str_eqb (fst mask) (py "r") then (node, acc) :: seg_stems h v (replaced_node (snd mask)) [] masks
      else seg_stems h v node (acc ++ choice h v mask) masks
  end.
Lemma plain_not_r : forall mask, plain mask -> str_eqb (fst mask) (py "r") = false.
Proof. intros mask [->| ->]; reflexivity. Qed.
Lemma seg_stems_app : forall h v masks node acc rest, Forall plain masks ->
  seg_stems h v node acc (masks ++ rest) = seg_stems h v node (acc ++ chosen h v masks) rest.
Proof.
  induction masks as [|mask masks IH]; intros node acc rest F; cbn [app].
  - unfold chosen. cbn. now rewrite app_nil_r.
  - inversion F; subst. cbn [seg_stems]. rewrite plain_not_r by assumption. rewrite IH by assumption.
    unfold chosen. cbn [map concat]. now rewrite app_assoc.
Qed.
Lemma seg_stems_spec : forall h v node masks sets, hint_sets_of node masks sets ->
  seg_stems h v node [] masks = map (fun s => (fst s, chosen h v (snd s))) sets.
Proof.
  intros h v node masks sets H. induction H as [node masks F|node masks i rest sets F H IH].
  - rewrite <- (app_nil_r masks) at 1. rewrite seg_stems_app by assumption. reflexivity.
  - rewrite seg_stems_app by assumption. cbn [seg_stems fst snd str_eqb map app]. rewrite str_eqb_refl, IH. reflexivity.
Qed.

Definition full {A} (s : A * list hint) : bool := match snd s with [] => false | _ => true end.
Definition mask_ok (mask : pystr * Z) : Prop := fst mask = py "r" \/ (plain mask /\ 0 <= snd mask).
Lemma mask_stems_ok : forall h v mask, plain mask -> 0 <= snd mask -> mask_stems h v mask = Ok (choice h v mask).
Proof.
  intros h v [k i] P R. cbn [snd] in R.
  assert (X : forall l : list hint, (if i <? Z.of_nat (List.length l) then rmap (fun x => [x]) (py_index l i) else Ok []) =
                                    Ok (match nth_error l (Z.to_nat i) with Some x => [x] | None => [] end)).
  { intros l. destruct (i <? Z.of_nat (List.length l)) eqn:E.
    - destruct (nth_error l (Z.to_nat i)) as [x|] eqn:En; [|apply nth_error_None in En; lia].
      replace i with (Z.of_nat (Z.to_nat i)) at 1 by lia. rewrite (py_index_nth _ _ _ x) by lia. cbn [rmap]. do 2 f_equal.
      now apply nth_error_nth.
    - destruct (nth_error l (Z.to_nat i)) as [x|] eqn:En; [|reflexivity]. assert (nth_error l (Z.to_nat i) <> None) by congruence.
      apply nth_error_Some in H. lia. }
  unfold mask_stems, choice. cbn [fst snd]. destruct P as [P|P]; cbn [fst] in P; subst k.
  - rewrite str_eqb_refl. apply X.
  - change (str_eqb (py "v") (py "h")) with false. rewrite str_eqb_refl. apply X.
Qed.
Lemma mask_loop_ok : forall f order name h v masks s st, store_ok st -> Forall mask_ok masks ->
  Forall (fun x => good_request st order (Request name (fst x) (py "PSHintReplacement") 0))
         (seg_stems h v (hs_node s) (hs_stems s) masks) ->
  exists sets st', rthen (mask_loop (S (S f)) order name h v s st masks) (fun r => last_set (S (S f)) order name (fst r) (snd r))
                   = Ok (hs_sets s ++ sets, st') /\ store_ok st' /\ extends st st' /\
    Forall2 (fun a b => labelled st' order name (fst a) (fst b) /\ snd a = snd b)
            (filter full (seg_stems h v (hs_node s) (hs_stems s) masks)) (filter full sets).
Proof.
  intros f order name h v. set (ff := S (S f)). induction masks as [|mask masks IH]; intros s st OK M G.
  - cbn [mask_loop rthen fst snd seg_stems filter] in *. unfold last_set. inversion G as [|? ? G1 _]; subst. cbn [fst] in G1.
    destruct (hs_stems s) as [|x l] eqn:E.
    + exists [], st. cbn. rewrite app_nil_r. auto using extends_refl.
    + destruct (get_point_label_ok f order st _ OK G1) as (lb & st' & El & O & X & L). cbn [rq_glyph rq_index rq_code rq_start] in El, L.
      unfold hint_label, ff. rewrite El. cbn [rmap fst snd]. exists [(lb, x :: l)], st'. split; [reflexivity|]. split; [assumption|]. split; [assumption|].
      cbn. constructor; [cbn; auto|constructor].
  - inversion M as [|? ? M1 M2]; subst. cbn [seg_stems] in G. cbn [mask_loop seg_stems].
    destruct M1 as [R|[P R]].
    + destruct mask as [k i]. cbn [fst snd] in *. subst k. rewrite str_eqb_refl in *. inversion G as [|? ? G1 G2]; subst. cbn [fst] in G1.
      destruct (get_point_label_ok f order st _ OK G1) as (lb & st1 & El & O1 & X1 & L1). cbn [rq_glyph rq_index rq_code rq_start] in El, L1.
      unfold mask_turn. change (mask_stems h v (py "r", i)) with (Ok (@nil hint)). cbn [rthen fst snd]. rewrite str_eqb_refl, app_nil_r.
      unfold hint_label. fold ff in El. rewrite El. cbn [rmap rthen fst snd].
      assert (En : (if i <? 0 then Z.abs i - 1 else i) = replaced_node i) by (unfold replaced_node; destruct (i <? 0) eqn:?; lia).
      rewrite En.
      destruct (IH (HsState (replaced_node i) [] (hs_sets s ++ [(lb, hs_stems s)])) st1 O1 M2) as (sets & st' & E & O & X & F).
      { cbn [hs_node hs_stems]. eapply Forall_impl; [|exact G2]. intros x. now apply good_ext. }
      cbn [hs_node hs_stems hs_sets] in *.
      exists ((lb, hs_stems s) :: sets), st'. rewrite <- app_assoc in E. cbn [app] in E.
      split; [exact E|]. split; [assumption|]. split; [eapply extends_trans; eauto|].
      cbn [filter full snd]. destruct (hs_stems s); [assumption|]. constructor; [|assumption]. cbn [fst snd]. split; [|reflexivity].
      eapply labelled_ext; eauto.
    + rewrite plain_not_r in * by assumption. unfold mask_turn. rewrite mask_stems_ok by assumption. cbn [rthen]. rewrite plain_not_r by assumption.
      cbn [rthen fst snd].
      destruct (IH (HsState (hs_node s) (hs_stems s ++ choice h v mask) (hs_sets s)) st OK M2) as (sets & st' & E & O & X & F).
      { exact G. }
      exists sets, st'. auto.
Qed.

(** a dict that is filled: the last value of each key *)
Lemma fill_spec : forall A K V (eqb : K -> K -> bool) (eqb_eq : forall a b, eqb a b = true <-> a = b) (key : A -> K) (val : A -> V) (l : list A),
  let d := fold_left (fun d x => aset eqb (key x) (val x) d) l [] in
  NoDup (map fst d) /\ forall k v, In (k, v) d <-> exists a x b, l = a ++ x :: b /\ key x = k /\ val x = v /\ Forall (fun y => key y <> k) b.
Proof.
  intros A K V eqb eqb_eq key val l. cbv zeta. induction l as [|x l IH] using rev_ind.
  - cbn. split; [constructor|]. intros k v. split; [intros []|]. intros (a & x & b & E & _). now destruct a.
  - rewrite fold_left_app. cbn [fold_left]. destruct IH as [N I].
    assert (N' : NoDup (map fst (aset eqb (key x) (val x) (fold_left (fun d x => aset eqb (key x) (val x) d) l [])))) by (now apply aset_nodup).
    split; [exact N'|]. intros k v.
    assert (Q : In (k, v) (aset eqb (key x) (val x) (fold_left (fun d x => aset eqb (key x) (val x) d) l [])) <->
                (k = key x /\ v = val x) \/ (k <> key x /\ In (k, v) (fold_left (fun d x => aset eqb (key x) (val x) d) l []))).
    { assert (Y : forall e : list (K * V), NoDup (map fst e) -> (In (k, v) e <-> aget eqb k e = Some v)).
      { intros e Ne. split; [now apply In_aget|now apply aget_In]. }
      rewrite (Y _ N'), (Y _ N), aget_aset by assumption. destruct (eqb k (key x)) eqn:E.
      - apply eqb_eq in E. split; [intros [= ->]; auto|]. intros [[_ ->]|[H _]]; [reflexivity|contradiction].
      - assert (k <> key x) by (intros H; apply eqb_eq in H; congruence). split; [auto|]. intros [[H1 _]|[_ H1]]; [contradiction|assumption]. }
    rewrite Q, I. split.
    + intros [[-> ->]|[Nk (a & y & b & -> & K1 & V1 & F)]].
      * exists l, x, []. auto.
      * exists a, y, (b ++ [x]). rewrite <- app_assoc. split; [reflexivity|]. split; [assumption|]. split; [assumption|].
        apply Forall_app. split; [assumption|]. constructor; [congruence|constructor].
    + intros (a & y & b & E & K1 & V1 & F). destruct b as [|z b] using rev_ind.
      * apply app_inj_tail in E. destruct E as [-> ->]. left. auto.
      * clear IHb. rewrite app_comm_cons, app_assoc in E. apply app_inj_tail in E. destruct E as [-> ->].
        apply Forall_app in F. destruct F as [F F1]. inversion F1; subst. right. split; [congruence|]. exists a, y, b. auto.
Qed.
Lemma fold_filter : forall (sets : list (pystr * list hint)) d,
  fold_left (fun d s => match snd s with [] => d | _ => aset str_eqb (fst s) (map hint_text (sorted_set (snd s))) d end) sets d =
  fold_left (fun d s => aset str_eqb (fst s) (map hint_text (sorted_set (snd s))) d) (filter full sets) d.
Proof.
  induction sets as [|[t l] sets IH]; intros d; cbn [fold_left filter]; [reflexivity|]. unfold full at 1. cbn [fst snd].
  destruct l; cbn [fold_left fst snd]; apply IH.
Qed.

Lemma Forall2_split_l : forall A B (R : A -> B -> Prop) l m a x b, Forall2 R l m -> l = a ++ x :: b ->
  exists a' y b', m = a' ++ y :: b' /\ R x y /\ Forall2 R b b'.
Proof.
  intros A B R l m a x b F ->. apply Forall2_app_inv_l in F. destruct F as (a' & m' & _ & F & ->). inversion F; subst. eauto 8.
Qed.
Lemma Forall2_split_r : forall A B (R : A -> B -> Prop) l m a y b, Forall2 R l m -> m = a ++ y :: b ->
  exists a' x b', l = a' ++ x :: b' /\ R x y /\ Forall2 R b' b.
Proof.
  intros A B R l m a y b F ->. apply Forall2_app_inv_r in F. destruct F as (a' & l' & _ & F & ->). inversion F; subst. eauto 8.
Qed.
Lemma filter_split : forall A (f : A -> bool) l a x b, filter f l = a ++ x :: b -> exists a' b', l = a' ++ x :: b' /\ filter f b' = b /\ f x = true.
Proof.
  induction l as [|y l IH]; intros a x b E; cbn [filter] in E; [now destruct a|]. destruct (f y) eqn:Ef.
  - destruct a as [|z a].
    + injection E as -> <-. exists [], l. auto.
    + injection E as -> E. destruct (IH a x b E) as (a' & b' & -> & H). exists (z :: a'), b'. auto.
  - destruct (IH a x b E) as (a' & b' & -> & H). exists (y :: a'), b'. auto.
Qed.

Section Sets.
  Variables (order : list pystr) (name : pystr) (h v : list hint) (st' : store).
  Hypothesis OK : store_ok st'.
  Variable segs : list (Z * list hint).
  Variable sets : list (pystr * list hint).
  Hypothesis F : Forall2 (fun a b => labelled st' order name (fst a) (fst b) /\ snd a = snd b) (filter full segs) (filter full sets).
  Lemma sets_spec : NoDup (map fst (ufo_hint_sets sets)) /\ forall tag texts, In (tag, texts) (ufo_hint_sets sets) <->
    exists node a stems b, segs = a ++ (node, stems) :: b /\ stems <> [] /\ labelled st' order name node tag /\
      (forall s, In (node, s) b -> s = []) /\ texts = map hint_text (sorted_set stems).
  Proof.
    unfold ufo_hint_sets. rewrite fold_filter.
    pose proof (fill_spec (pystr * list hint) pystr (list pystr) str_eqb str_eqb_eq fst (fun s => map hint_text (sorted_set (snd s))) (filter full sets)) as [N I].
    split; [exact N|]. intros tag texts. rewrite I. split.
    - intros (a & [t l] & b & E & K & V & Fb). cbn [fst snd] in *. subst t.
      destruct (Forall2_split_r _ _ _ _ _ _ _ _ F E) as (a' & [node stems] & b' & E' & [L El] & F'). cbn [fst snd] in *. subst l.
      destruct (filter_split _ _ _ _ _ _ E') as (a2 & b2 & Es & Eb & Ef). exists node, a2, stems, b2.
      split; [assumption|]. split; [intros ->; discriminate Ef|]. split; [assumption|]. split; [|congruence].
      intros s Hs. destruct s as [|y s]; [reflexivity|]. exfalso.
      assert (Hin : In (node, y :: s) b') by (rewrite <- Eb; apply filter_In; auto).
      apply in_split in Hin. destruct Hin as (c1 & c2 & Hc). destruct (Forall2_split_l _ _ _ _ _ _ _ _ F' Hc) as (d1 & [t2 l2] & d2 & Ed & [L2 _] & _).
      cbn [fst] in L2. assert (t2 = tag) by (eapply labelled_fun; eauto). subst t2. rewrite Ed in Fb. apply Forall_app in Fb. destruct Fb as [_ Fb].
      inversion Fb; subst. cbn in *. congruence.
    - intros (node & a & stems & b & Es & Ne & L & Fb & ->).
      assert (E : filter full segs = filter full a ++ (node, stems) :: filter full b).
      { rewrite Es, filter_app. cbn [filter]. unfold full at 2. cbn [snd]. destruct stems; [congruence|reflexivity]. }
      destruct (Forall2_split_l _ _ _ _ _ _ _ _ F E) as (a' & [t l] & b' & E' & [L2 El] & F'). cbn [fst snd] in *. subst l.
      assert (t = tag) by (eapply labelled_fun; eauto). subst t.
      exists a', (tag, stems), b'. split; [assumption|]. split; [reflexivity|]. split; [reflexivity|].
      rewrite Forall_forall. intros [t2 l2] H2 Et. cbn [fst] in Et. subst t2. apply in_split in H2. destruct H2 as (c1 & c2 & Hc).
      destruct (Forall2_split_r _ _ _ _ _ _ _ _ F' Hc) as (d1 & [node2 l3] & d2 & Ed & [L3 El] & _). cbn [fst snd] in *. subst l3.
      assert (node2 = node) by (eapply labelled_inj; eauto). subst node2.
      assert (Hin : In (node, l2) (filter full b)) by (rewrite Ed; apply in_or_app; right; now left).
      apply filter_In in Hin. destruct Hin as [Hin Ef]. rewrite (Fb _ Hin) in Ef. discriminate Ef.
  Qed.
End Sets.

(** ** Sorted versions and texts *)
Lemma hint_lt_irr : forall a, ~ hint_lt a a.
Proof. intros [a p w]. unfold hint_lt. cbn. destruct a; lia. Qed.
Lemma sorted_unique : forall l m, StronglySorted hint_lt l -> StronglySorted hint_lt m -> (forall x, In x l <-> In x m) -> l = m.
Proof.
  induction l as [|a l IH]; intros m Sl Sm I.
  - destruct m as [|b m]; [reflexivity|]. destruct (proj2 (I b)); now left.
  - destruct m as [|b m]; [destruct (proj1 (I a)); now left|].
    inversion Sl as [|? ? Sl1 Fl]; subst. inversion Sm as [|? ? Sm1 Fm]; subst. rewrite Forall_forall in Fl, Fm.
    assert (E : a = b).
    { destruct (proj1 (I a) (or_introl eq_refl)) as [H|H]; [congruence|]. destruct (proj2 (I b) (or_introl eq_refl)) as [K|K]; [congruence|].
      exfalso. exact (hint_lt_irr a (hint_lt_trans _ _ _ (Fl _ K) (Fm _ H))). }
    subst b. f_equal. apply IH; try assumption. intros x. split; intros H.
    + destruct (proj1 (I x) (or_intror H)) as [E|K]; [|assumption]. subst x. exfalso. exact (hint_lt_irr a (Fl _ H)).
    + destruct (proj2 (I x) (or_intror H)) as [E|K]; [|assumption]. subst x. exfalso. exact (hint_lt_irr a (Fm _ H)).
Qed.
Lemma sorted_version_set : forall s l, sorted_version s l <-> l = sorted_set s.
Proof.
  intros s l. split; [|intros ->; apply sorted_set_ok]. intros [S I]. destruct (sorted_set_ok s) as [S' I'].
  apply sorted_unique; try assumption. intros x. rewrite I, I'. reflexivity.
Qed.
Lemma hint_text_stem : forall h, hint_text h = stem_text h.
Proof. intros [v p w]. unfold hint_text, stem_text, hint_name. cbn [hi_v hi_pos hi_width]. destruct v; reflexivity. Qed.
Lemma dec_str_no_space : forall n, Forall (fun c => c <> 32) (dec_str n).
Proof.
  intros n. unfold dec_str. destruct (n <? 0) eqn:E.
  - constructor; [lia|]. eapply Forall_impl; [|apply P_Dec.dec_nat_digits; lia]. cbn. lia.
  - eapply Forall_impl; [|apply P_Dec.dec_nat_digits; lia]. cbn. lia.
Qed.
Lemma split_space : forall a b c d, Forall (fun x => x <> 32) a -> Forall (fun x => x <> 32) b -> a ++ 32 :: c = b ++ 32 :: d -> a = b /\ c = d.
Proof.
  induction a as [|x a IH]; intros [|y b] c d Fa Fb E; cbn in E; inversion Fa; inversion Fb; subst.
  - injection E as ->. auto.
  - injection E as <- _. lia.
  - injection E as -> _. lia.
  - injection E as -> E. destruct (IH b c d) as [-> ->]; auto.
Qed.
Lemma stem_text_inj : forall a b, stem_text a = stem_text b -> a = b.
Proof.
  intros [va pa wa] [vb pb wb]. unfold stem_text. cbn [hi_v hi_pos hi_width]. intros E.
  assert (va = vb) by (apply (f_equal (fun l => hd 0 l)) in E; destruct va, vb; cbn in E; try reflexivity; discriminate E). subst vb.
  destruct va; apply app_inv_head in E; (apply split_space in E; [|apply dec_str_no_space|apply dec_str_no_space]); destruct E as [E1 E2];
    apply P_Dec.dec_str_inj in E1, E2; congruence.
Qed.

(** ** Sets of the glyph API *)
Lemma choice_single : forall h v k i x, (k = py "h" /\ nth_error h (Z.to_nat i) = Some x) \/ (k = py "v" /\ nth_error v (Z.to_nat i) = Some x) ->
  0 <= i -> choice h v (k, i) = [x] /\ (if str_eqb k (py "h") then py_index h i else if str_eqb k (py "v") then py_index v i else Err KeyError) = Ok x.
Proof.
  intros h v k i x H R.
  assert (X : forall l : list hint, nth_error l (Z.to_nat i) = Some x -> py_index l i = Ok x).
  { intros l E. assert ((Z.to_nat i < List.length l)%nat) by (apply nth_error_Some; congruence).
    replace i with (Z.of_nat (Z.to_nat i)) at 1 by lia. rewrite (py_index_nth _ _ _ x) by assumption. f_equal. now apply nth_error_nth. }
  unfold choice. cbn [fst snd]. destruct H as [[-> E]|[-> E]].
  - rewrite str_eqb_refl, E. auto.
  - change (str_eqb (py "v") (py "h")) with false. rewrite str_eqb_refl, E. auto.
Qed.
Definition api_mask (h v : list hint) (mask : pystr * Z) : Prop :=
  0 <= snd mask /\ (fst mask = py "r" \/ exists x, (fst mask = py "h" /\ nth_error h (Z.to_nat (snd mask)) = Some x) \/
                                        (fst mask = py "v" /\ nth_error v (Z.to_nat (snd mask)) = Some x)).
Lemma resolve_sets_loop_ok : forall h v masks d node stems, Forall (api_mask h v) masks ->
  resolve_sets_loop h v d node stems masks =
  Ok (fold_left (fun d x => aset Z.eqb (fst x) (snd x) d) (filter full (seg_stems h v node stems masks)) d).
Proof.
  induction masks as [|[k i] masks IH]; intros d node stems F.
  - cbn [resolve_sets_loop seg_stems filter]. unfold full. cbn [snd]. destruct stems; reflexivity.
  - inversion F as [|? ? [R H] F2]; subst. cbn [fst snd] in *. cbn [resolve_sets_loop seg_stems fst snd]. destruct H as [->|[x H]].
    + rewrite str_eqb_refl, IH by assumption. unfold replaced_node. destruct (i <? 0) eqn:E; [lia|].
      cbn [filter]. unfold full at 2. cbn [snd]. destruct stems; reflexivity.
    + destruct (choice_single h v k i x H R) as [C P]. rewrite C.
      assert (Nr : str_eqb k (py "r") = false) by (destruct H as [[-> _]|[-> _]]; reflexivity). rewrite Nr, P. cbn [rthen]. now apply IH.
Qed.
