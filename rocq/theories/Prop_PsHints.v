(** C52: PostScript hints. *)
From Coq Require Import String ZifyBool ZifyNat Sorted.
From Verif Require Import Base M_Py M_Text M_Glyph M_Labels M_PsHints S_Labels S_PsHints Lib P_Glyph P_Labels P_PsHints.
Local Open Scope list_scope.

(** Normalisation: the edges stay, ghost hints stay as they are, other widths are not negative; twice is
    once. *)
Theorem C52_normalize : forall h,
  hi_v (normalize_hint h) = hi_v h /\
  low (normalize_hint h) = low h /\ high (normalize_hint h) = high h /\
  (ghost h -> normalize_hint h = h) /\
  (~ ghost h -> 0 <= hi_width (normalize_hint h) /\ hi_pos (normalize_hint h) = low h) /\
  normalize_hint (normalize_hint h) = normalize_hint h.
Proof.
  intros [v p w]. unfold normalize_hint, low, high, ghost, bottom_ghost, top_ghost. cbn [hi_v hi_pos hi_width].
  destruct (w <? 0) eqn:E; [destruct ((w =? -21) || (w =? -20)) eqn:G|]; cbn [hi_v hi_pos hi_width].
  - rewrite E, G. repeat split; try reflexivity; lia.
  - assert (W : (Z.abs w <? 0) = false) by lia. rewrite W. repeat split; try reflexivity; lia.
  - rewrite E. repeat split; try reflexivity; lia.
Qed.

Lemma coord_ok : forall m x nodes i c, coordinate m x nodes i c -> node_coord (Z.of_nat m) x nodes i = Ok c.
Proof.
  intros m x nodes i c (R & n & px & py & rest & E1 & E2 & ->). unfold node_coord.
  assert ((Z.to_nat i < List.length nodes)%nat) by (apply nth_error_Some; congruence).
  assert ((m < List.length (nd_points n))%nat) by (apply nth_error_Some; congruence).
  replace i with (Z.of_nat (Z.to_nat i)) at 1 by lia. rewrite (py_index_nth _ _ _ n) by assumption.
  rewrite (nth_error_nth _ _ _ E1). cbn [rthen]. rewrite (py_index_nth _ _ _ []) by assumption.
  rewrite (nth_error_nth _ _ _ E2). cbn [rthen]. change 0 with (Z.of_nat 0). rewrite (py_index_nth _ _ _ (px, py)) by (cbn; lia). reflexivity.
Qed.
Lemma coord_nonneg : forall m x nodes i c, coordinate m x nodes i c -> 0 <= i.
Proof. intros m x nodes i c [H _]. exact H. Qed.
Lemma link_hint_ok : forall m x nodes l, link_ok m x nodes l -> exists h, link_hint (Z.of_nat m) x nodes l = Ok h /\ link_stem m x nodes l h.
Proof.
  intros m x nodes [a b] ([s Hs] & H). cbn [fst snd] in *. unfold link_hint, link_stem, bottom_ghost, top_ghost, low, high. cbn [fst snd].
  rewrite (coord_ok _ _ _ _ _ Hs). cbn [rthen].
  destruct H as [->|[->|[t Ht]]].
  - eexists. split; [reflexivity|]. cbn [hi_v hi_pos hi_width]. split; [reflexivity|]. exists s. split; [assumption|]. cbn. lia.
  - eexists. split; [reflexivity|]. cbn [hi_v hi_pos hi_width]. split; [reflexivity|]. exists s. split; [assumption|]. cbn. auto.
  - pose proof (coord_nonneg _ _ _ _ _ Ht).
    destruct (b =? -1) eqn:E1; [lia|]. destruct (b =? -2) eqn:E2; [lia|]. rewrite (coord_ok _ _ _ _ _ Ht). cbn [rmap].
    eexists. split; [reflexivity|]. cbn [hi_v hi_pos hi_width]. split; [reflexivity|]. exists s. split; [assumption|].
    exists t. split; [assumption|]. lia.
Qed.
Lemma res_map_rel : forall A B (f : A -> res B) (P : A -> Prop) (R : A -> B -> Prop) l,
  (forall a, P a -> exists b, f a = Ok b /\ R a b) -> Forall P l -> exists m, res_map f l = Ok m /\ Forall2 R l m.
Proof.
  intros A B f P R l H F. induction F as [|a l Ha F (m & E & IH)].
  - exists []. split; [reflexivity|constructor].
  - destruct (H a Ha) as (b & Eb & Rb). exists (b :: m). cbn [res_map]. rewrite Eb. cbn [rthen]. rewrite E. cbn [rmap]. split; [reflexivity|]. now constructor.
Qed.
Lemma master_hints_ok : forall m x hs, Forall (fun mm => (m < List.length mm)%nat) hs ->
  exists out, master_hints (Z.of_nat m) x hs = Ok out /\
    Forall2 (fun mm h => exists src, nth_error mm m = Some src /\ same_stem x src h) hs out.
Proof.
  intros m x hs F. unfold master_hints. eapply res_map_rel; [|exact F]. intros mm H. cbn beta in H.
  rewrite (py_index_nth _ _ _ (0, 0)) by assumption. cbn [rmap]. eexists. split; [reflexivity|].
  destruct (nth_error mm m) as [[p w]|] eqn:E; [|apply nth_error_None in E; lia]. exists (p, w). split; [reflexivity|].
  rewrite (nth_error_nth _ _ _ E). cbn [fst snd]. unfold same_stem, low, high, normalize_hint. cbn [fst snd hi_v hi_pos hi_width].
  destruct (w <? 0) eqn:W; [destruct ((w =? -21) || (w =? -20)) eqn:G|destruct ((w =? -21) || (w =? -20)) eqn:G]; cbn [hi_v hi_pos hi_width];
    (split; [reflexivity|]); lia.
Qed.

(** The hints of a master, as the exporter takes them: one stem for each hint of the file, in order, with
    the same edges; then one for each link, whose edges are the nodes of the link. Links along y are
    horizontal stems. *)
Theorem C52_master : forall m h v lk nodes,
  Forall (fun mm => (m < List.length mm)%nat) h -> Forall (fun mm => (m < List.length mm)%nat) v ->
  Forall (link_ok m true nodes) (lk_x lk) -> Forall (link_ok m false nodes) (lk_y lk) ->
  exists hh ly vv lx, get_master_hints (Z.of_nat m) h v lk nodes = Ok (hh ++ ly, vv ++ lx) /\
    Forall2 (fun mm a => exists src, nth_error mm m = Some src /\ same_stem false src a) h hh /\
    Forall2 (link_stem m false nodes) (lk_y lk) ly /\
    Forall2 (fun mm a => exists src, nth_error mm m = Some src /\ same_stem true src a) v vv /\
    Forall2 (link_stem m true nodes) (lk_x lk) lx.
Proof.
  intros m h v lk nodes Fh Fv Fx Fy.
  destruct (master_hints_ok m false h Fh) as (hh & E1 & R1). destruct (master_hints_ok m true v Fv) as (vv & E2 & R2).
  destruct (res_map_rel _ _ (link_hint (Z.of_nat m) true nodes) _ (link_stem m true nodes) _ (link_hint_ok m true nodes) Fx) as (lx & E3 & R3).
  destruct (res_map_rel _ _ (link_hint (Z.of_nat m) false nodes) _ (link_stem m false nodes) _ (link_hint_ok m false nodes) Fy) as (ly & E4 & R4).
  exists hh, ly, vv, lx. unfold get_master_hints. rewrite E1, E2, E3, E4. cbn [rthen rmap]. auto.
Qed.

(** The glyph API gives the same stems as the exporter, in the same order, and the same errors. *)
Theorem C52_agree : forall m h v lk nodes,
  resolve_hints m h v (Some lk) nodes = get_master_hints m h v lk nodes /\
  resolve_hints m h v None nodes = get_master_hints m h v (Links [] []) nodes.
Proof.
  intros m h v [x y] nodes. unfold resolve_hints, get_master_hints, resolve_links. cbn [lk_x lk_y].
  destruct (master_hints m false h) as [hh|e]; cbn [rthen]; [|auto]. destruct (master_hints m true v) as [vv|e]; cbn [rthen]; [|auto].
  split; [|reflexivity]. destruct x as [|x0 x], y as [|y0 y].
  - reflexivity.
  - cbn [res_map rthen]. destruct (rthen (link_hint m false nodes y0) _); reflexivity.
  - destruct (res_map (link_hint m true nodes) (x0 :: x)); reflexivity.
  - destruct (res_map (link_hint m true nodes) (x0 :: x)); cbn [rthen rmap]; [|reflexivity].
    destruct (res_map (link_hint m false nodes) (y0 :: y)); reflexivity.
Qed.

(** Links are not normalised: a link from an edge down to one 20 below gives just what a top ghost gives,
    and other links downwards get a negative width. *)
Theorem C52_ghost_refuted : exists m nodes l g,
  link_ok m false nodes l /\ link_ok m false nodes g /\ snd l <> -1 /\ snd l <> -2 /\ snd g = -2 /\
  link_hint (Z.of_nat m) false nodes l = link_hint (Z.of_nat m) false nodes g.
Proof.
  exists 0%nat, [MMNode Move 0 [[(0, 100)]]; MMNode Line 0 [[(0, 80)]]], (0, 1), (0, -2).
  assert (X : forall t, snd t = -2 \/ snd t = 1 -> fst t = 0 -> link_ok 0 false [MMNode Move 0 [[(0, 100)]]; MMNode Line 0 [[(0, 80)]]] t).
  { intros [a b] H E. cbn [fst snd] in H, E. subst a. split; [exists 100; split; [cbn; lia|]; eexists _, 0, 100, []; cbn; auto|].
    destruct H as [->| ->]; [auto|]. right. right. exists 80. split; [cbn; lia|]. eexists _, 0, 80, []. repeat split; reflexivity. }
  split; [apply X; cbn; auto|]. split; [apply X; cbn; auto|]. cbn. repeat split; try lia.
Qed.
Theorem C52_negative_refuted : exists m nodes l h,
  link_ok m false nodes l /\ link_hint (Z.of_nat m) false nodes l = Ok h /\ hi_width h < 0 /\ ~ ghost h.
Proof.
  exists 0%nat, [MMNode Move 0 [[(0, 100)]]; MMNode Line 0 [[(0, 30)]]], (0, 1), (Hint false 100 (-70)).
  split; [|split; [reflexivity|unfold ghost, bottom_ghost, top_ghost; cbn; lia]]. split.
  - exists 100. split; [cbn; lia|]. eexists _, 0, 100, []. repeat split; reflexivity.
  - right. right. exists 30. split; [cbn; lia|]. eexists _, 0, 30, []. repeat split; reflexivity.
Qed.

(** ** Hint sets *)
Lemma sets_forall : forall node masks sets, hint_sets_of node masks sets -> forall P Q : pystr * Z -> Prop,
  (forall x, plain x -> P x -> Q x) -> (forall i, P (py "r", i) -> Q (py "r", i)) -> Forall P masks -> Forall Q masks.
Proof.
  intros node masks sets HS P Q H1 H2. induction HS as [node masks Pl|node masks i rest sets Pl HS IH]; intros F.
  - rewrite Forall_forall in *. auto.
  - apply Forall_app in F. destruct F as [F1 F2]. inversion F2; subst. apply Forall_app. split.
    + rewrite Forall_forall in *. auto.
    + constructor; auto.
Qed.
Lemma effective_segs : forall h v sets node stems,
  effective h v sets node stems <->
  exists a b, map (fun s => (fst s, chosen h v (snd s))) sets = a ++ (node, stems) :: b /\ stems <> [] /\ forall s, In (node, s) b -> s = [].
Proof.
  intros h v sets node stems. split.
  - intros (a & ms & b & -> & -> & N & L). rewrite map_app. cbn [map fst snd]. eexists _, _. split; [reflexivity|]. split; [assumption|].
    intros s Hs. apply in_map_iff in Hs. destruct Hs as ([n2 m2] & E & Hs). cbn [fst snd] in E. injection E as -> <-. now apply L.
  - intros (a & b & E & N & L). apply map_eq_app in E. destruct E as (a' & b' & -> & <- & E). destruct b' as [|[n ms] b']; [discriminate|].
    cbn [map fst snd] in E. injection E as -> <- <-. exists a', ms, b'. split; [reflexivity|]. split; [reflexivity|]. split; [assumption|].
    intros m2 H. apply L. apply in_map_iff. exists (node, m2). auto.
Qed.

Lemma sets_from : forall f order st name masks sets h v, store_ok st ->
  masks <> [] -> hint_sets_of 0 masks sets -> Forall (fun mask => plain mask -> 0 <= snd mask) masks ->
  Forall (fun s => good_request st order (Request name (fst s) (py "PSHintReplacement") 0)) sets ->
  exists out st', build_ps_glyph_hints (S (S f)) order name masks h v st = Ok (out, st') /\ store_ok st' /\ NoDup (map fst out) /\
    (forall node stems, effective h v sets node stems -> exists tag, labelled st' order name node tag) /\
    forall tag texts, In (tag, texts) out <->
      exists node stems l, effective h v sets node stems /\ labelled st' order name node tag /\
        sorted_version stems l /\ texts = map stem_text l.
Proof.
  intros f order st name masks sets h v OK Nm HS F GS. pose proof (seg_stems_spec h v 0 masks sets HS) as SS.
  assert (MO : Forall mask_ok masks).
  { refine (sets_forall _ _ _ HS _ _ _ _ F); cbn beta; [intros x P K; right; auto|intros i _; now left]. }
  destruct (mask_loop_ok f order name h v masks (HsState 0 [] []) st OK MO) as (ss & st' & E & O & X' & R).
  { cbn [hs_node hs_stems]. rewrite SS. apply Forall_map. cbn [fst]. exact GS. }
  cbn [hs_node hs_stems hs_sets app] in *. rewrite SS in R.
  destruct (sets_spec order name st' O _ ss R) as [N I].
  exists (ufo_hint_sets ss), st'. split.
  { unfold build_ps_glyph_hints. destruct masks as [|m0 masks]; [congruence|]. rewrite E. reflexivity. }
  split; [exact O|]. split; [exact N|]. split.
  { intros node stems E2. apply effective_segs in E2. destruct E2 as (a & b & Es & Ne & _). rewrite Es in R. clear - R Ne.
    assert (In (node, stems) (filter full (a ++ (node, stems) :: b))) as J.
    { apply filter_In. split; [apply in_or_app; right; now left|]. unfold full. cbn [snd]. destruct stems; [congruence|reflexivity]. }
    induction R as [|x y xs ys Q R IH]; [destruct J|]. destruct J as [->|J]; [|auto]. exists (fst y). exact (proj1 Q). }
  intros tag texts. rewrite I. split.
  - intros (node & a & stems & b & Es & Ne & L & Fb & ->). exists node, stems, (sorted_set stems). split; [apply effective_segs; eauto|].
    split; [assumption|]. split; [apply sorted_set_ok|]. apply map_ext. apply hint_text_stem.
  - intros (node & stems & l & Ef & L & Sv & ->). apply sorted_version_set in Sv. subst l. apply effective_segs in Ef. destruct Ef as (a & b & Es & Ne & Fb).
    exists node, a, stems, b. repeat split; try assumption. apply map_ext. intros x. symmetry. apply hint_text_stem.
Qed.
Lemma no_masks_from : forall f order st name h v, store_ok st ->
  good_request st order (Request name 0 (py "PSHintReplacement") 0) ->
  exists out st', build_ps_glyph_hints (S (S f)) order name [] h v st = Ok (out, st') /\ store_ok st' /\ NoDup (map fst out) /\
    (h ++ v <> [] -> exists tag, labelled st' order name 0 tag) /\
    forall tag texts, In (tag, texts) out <->
      h ++ v <> [] /\ labelled st' order name 0 tag /\ exists l, sorted_version (h ++ v) l /\ texts = map stem_text l.
Proof.
  intros f order st name h v OK GS. unfold build_ps_glyph_hints, last_set. cbn [hs_stems hs_sets hs_node app].
  destruct (h ++ v) as [|x s] eqn:E.
  - exists [], st. split; [reflexivity|]. split; [exact OK|]. split; [constructor|]. split; [congruence|]. intros tag texts. cbn. intuition.
  - destruct (get_point_label_ok f order st _ OK GS) as (lb & st' & El & O & X' & L). cbn [rq_glyph rq_index rq_code rq_start] in El, L.
    unfold hint_label. rewrite El. cbn [rmap fst snd ufo_hint_sets fold_left aset]. eexists _, st'. split; [reflexivity|].
    split; [exact O|]. split; [repeat constructor; intros []|]. split; [intros _; exists lb; exact L|]. intros tag texts. cbn [In]. split.
    + intros [H|[]]. injection H as <- <-. split; [discriminate|]. split; [assumption|]. exists (sorted_set (x :: s)).
      split; [apply sorted_set_ok|]. apply map_ext. apply hint_text_stem.
    + intros (_ & Lt & l & Sv & ->). left. apply sorted_version_set in Sv. subst l. f_equal; [eapply labelled_fun; eauto|]. apply map_ext. apply hint_text_stem.
Qed.
Section Sets.
  Variables (fuel : nat) (order : list pystr) (st0 st : store) (hist : list request) (labels : list pystr).
  Hypothesis Fr : fresh_store st0.
  Hypothesis G : Forall (good_request st0 order) hist.
  Hypothesis Hf : (2 <= fuel)%nat.
  Hypothesis Run : run_requests fuel order st0 hist = Ok (labels, st).
  Lemma reached : store_ok st /\ extends st0 st.
  Proof.
    destruct fuel as [|[|f]]; [lia|lia|]. destruct (run_requests_ok f order hist st0 (fresh_ok st0 Fr) G) as (ls & st2 & E & O & X & _).
    rewrite Run in E. injection E as _ <-. auto.
  Qed.
  (** After any history of labels, for masks that replace hints at points of the glyph: the export lists,
      once for each node with hints, the label of the node and the stems of its last set that has any, each
      stem once and in order. *)
  Theorem C52_sets : forall name masks sets h v,
    masks <> [] -> hint_sets_of 0 masks sets -> Forall (fun mask => plain mask -> 0 <= snd mask) masks ->
    Forall (fun s => good_request st0 order (Request name (fst s) (py "PSHintReplacement") 0)) sets ->
    exists out st', build_ps_glyph_hints fuel order name masks h v st = Ok (out, st') /\ NoDup (map fst out) /\
      (forall node stems, effective h v sets node stems -> exists tag, labelled st' order name node tag) /\
      forall tag texts, In (tag, texts) out <->
        exists node stems l, effective h v sets node stems /\ labelled st' order name node tag /\
          sorted_version stems l /\ texts = map stem_text l.
  Proof.
    intros name masks sets h v Nm HS F GS. destruct reached as [OK X]. destruct fuel as [|[|f]]; [lia|lia|].
    destruct (sets_from f order st name masks sets h v OK Nm HS F) as (out & st' & E & _ & R); [|now exists out, st'].
    eapply Forall_impl; [|exact GS]. intros x. now apply good_ext.
  Qed.

  (** Without masks: all stems at the first node. *)
  Theorem C52_no_masks : forall name h v,
    good_request st0 order (Request name 0 (py "PSHintReplacement") 0) ->
    exists out st', build_ps_glyph_hints fuel order name [] h v st = Ok (out, st') /\
      (h ++ v <> [] -> exists tag, labelled st' order name 0 tag) /\
      forall tag texts, In (tag, texts) out <->
        h ++ v <> [] /\ labelled st' order name 0 tag /\ exists l, sorted_version (h ++ v) l /\ texts = map stem_text l.
  Proof.
    intros name h v GS. destruct reached as [OK X]. apply (good_ext _ _ _ _ X) in GS. destruct fuel as [|[|f]]; [lia|lia|].
    destruct (no_masks_from f order st name h v OK GS) as (out & st' & E & _ & _ & R). now exists out, st'.
  Qed.
End Sets.

(** The texts name the stems. *)
Theorem C52_text : forall a b, stem_text a = stem_text b -> a = b.
Proof. exact stem_text_inj. Qed.

(** The glyph API, for masks that name hints and nodes that are there: the same sets, by node. *)
Theorem C52_api_sets : forall masks sets h v,
  masks <> [] -> hint_sets_of 0 masks sets ->
  Forall (fun mask => 0 <= snd mask /\ (plain mask -> choice h v mask <> [])) masks ->
  exists out, resolve_hint_sets h v masks = Ok out /\ NoDup (map fst out) /\
    forall node stems, In (node, stems) out <-> effective h v sets node stems.
Proof.
  intros masks sets h v Nm HS F. pose proof (seg_stems_spec h v 0 masks sets HS) as SS.
  assert (MO : Forall (api_mask h v) masks).
  { assert (X : forall x, plain x -> choice h v x <> [] -> exists y, (fst x = py "h" /\ nth_error h (Z.to_nat (snd x)) = Some y) \/
                                                             (fst x = py "v" /\ nth_error v (Z.to_nat (snd x)) = Some y)).
    { intros [k i] P C. unfold choice in C. cbn [fst snd] in *. destruct P as [P|P]; cbn [fst] in P; subst k.
      - rewrite str_eqb_refl in C. destruct (nth_error h (Z.to_nat i)) as [y|]; [exists y; auto|congruence].
      - change (str_eqb (py "v") (py "h")) with false in C. destruct (nth_error v (Z.to_nat i)) as [y|]; [exists y; auto|congruence]. }
    refine (sets_forall _ _ _ HS _ _ _ _ F); cbn beta.
    - intros x P [R C]. split; [assumption|]. right. auto.
    - intros i [R _]. split; [assumption|]. now left. }
  assert (E : resolve_hint_sets h v masks = resolve_sets_loop h v [] 0 [] masks) by (destruct masks; [congruence|reflexivity]).
  rewrite E, resolve_sets_loop_ok by assumption. rewrite SS.
  pose proof (fill_spec (Z * list hint) Z (list hint) Z.eqb Z.eqb_eq fst snd (filter full (map (fun s => (fst s, chosen h v (snd s))) sets))) as [N I].
  eexists. split; [reflexivity|]. split; [exact N|]. intros node stems. rewrite I, effective_segs. split.
  - intros (a & [n s] & b & Ef & K & V & Fb). cbn [fst snd] in *. subst n s.
    destruct (filter_split _ _ _ _ _ _ Ef) as (a2 & b2 & Es & Eb & Hf). exists a2, b2. split; [assumption|]. split; [intros ->; discriminate Hf|].
    intros s Hs. destruct s as [|y s]; [reflexivity|]. exfalso. rewrite Forall_forall in Fb. apply (Fb (node, y :: s)); [|reflexivity].
    rewrite <- Eb. apply filter_In. auto.
  - intros (a & b & Es & Ne & L). rewrite Es, filter_app. cbn [filter]. unfold full at 2. cbn [snd]. destruct stems as [|y s]; [congruence|].
    exists (filter full a), (node, y :: s), (filter full b). repeat split.
    rewrite Forall_forall. intros [n2 s2] Hs En. cbn [fst] in En. subst n2. apply filter_In in Hs. destruct Hs as [Hs Hf2]. rewrite (L _ Hs) in Hf2. discriminate Hf2.
Qed.

(** Cases that meet the hypotheses: three nodes, one replacement at node 2. *)
Example C52_example :
  let nodes := [MMNode Move 0 [[(0, 0)]; [(0, 5)]]; MMNode Line 0 [[(40, 0)]; [(60, 5)]]; MMNode Line 0 [[(40, 700)]; [(60, 710)]]] in
  get_master_hints 1 [[(0, 80); (85, -80)]; [(700, -20); (710, -20)]] [[(40, 10); (60, 12)]] (Links [(0, 1)] [(0, -1); (0, 2)]) nodes =
    Ok ([Hint false 5 80; Hint false 710 (-20); Hint false 26 (-21); Hint false 5 705], [Hint true 60 12; Hint true 0 60]) /\
  link_ok 1 true nodes (0, 1) /\ link_ok 1 false nodes (0, -1).
Proof.
  cbv zeta. split; [reflexivity|]. split; (split; [eexists; split; [cbn; lia|]; eexists _, _, _, []; repeat split; reflexivity|]).
  - right. right. eexists; split; [cbn; lia|]; eexists _, _, _, []; repeat split; reflexivity.
  - now left.
Qed.
Example C52_sets_example : exists st',
  let st := [(py "a", LGlyph [] 3 [] [])] in
  let masks := [(py "h", 0); (py "v", 0); (py "r", 2); (py "h", 1); (py "h", 0); (py "h", 7)] in
  let h := [Hint false 50 80; Hint false 5 80] in let v := [Hint true 60 12] in
  fresh_store st /\ hint_sets_of 0 masks [(0, [(py "h", 0); (py "v", 0)]); (2, [(py "h", 1); (py "h", 0); (py "h", 7)])] /\
  good_request st [py "a"] (Request (py "a") 2 (py "PSHintReplacement") 0) /\
  build_ps_glyph_hints 2 [py "a"] (py "a") masks h v st =
    Ok ([(py "hr00", [py "hstem 50 80"; py "vstem 60 12"]); (py "hr01", [py "hstem 5 80"; py "hstem 50 80"])], st').
Proof.
  eexists. cbv zeta. split.
  { split; [|apply Forall_cons; [|apply Forall_nil]; split; [reflexivity|]; split; [reflexivity|]; vm_compute; discriminate].
    apply NoDup_cons; [intros []|apply NoDup_nil]. }
  split.
  { change [(py "h", 0); (py "v", 0); (py "r", 2); (py "h", 1); (py "h", 0); (py "h", 7)]
      with ([(py "h", 0); (py "v", 0)] ++ (py "r", 2) :: [(py "h", 1); (py "h", 0); (py "h", 7)]).
    apply next_set; [repeat apply Forall_cons; try apply Forall_nil; unfold plain; cbn [fst]; auto|].
    apply one_set. repeat apply Forall_cons; try apply Forall_nil; unfold plain; cbn [fst]; auto. }
  split.
  { split; [|split; [vm_compute; tauto|vm_compute; discriminate]]. exists 3. split; [left; eexists; split; [now left|]; auto|cbn; lia]. }
  vm_compute. reflexivity.
Qed.

Print Assumptions C52_normalize.
Print Assumptions C52_master.
Print Assumptions C52_agree.
Print Assumptions C52_ghost_refuted.
Print Assumptions C52_negative_refuted.
Print Assumptions C52_sets.
Print Assumptions C52_no_masks.
Print Assumptions C52_text.
Print Assumptions C52_api_sets.
