(** C119, the whole export: glyphs that share no component do not influence each other in the UFOs. *)
From Coq Require Import String ZifyBool QArith Sorting.Sorted.
From Verif Require Import Base M_Py M_Helpers M_Simple M_Text M_TrueType M_Glyph M_Options M_Container M_Table M_Groups M_Info M_FontInfo M_Tth M_Programs.
From Verif Require Import M_Builder M_Master M_Features M_Designspace M_Build M_Labels M_PsHints M_Paths M_Guides M_Export M_Ufo.
From Verif Require Import Lib Prop_Indep.
Local Open Scope list_scope.
Local Open Scope Z_scope.

(** ** Specification *)
(** the glyphs of the builder: a component is in the family exactly if the glyph that uses it is *)
Definition glyph_family (s : M_Build.font) (fam : pystr -> bool) : Prop :=
  forall name g x z k c, In (name, g) (bs_glyphs (fo_glyphs s)) -> bg_data g = VGlyph x z -> In k (mg_components x) ->
    py_index (bs_order (fo_glyphs s)) (M_Glyph.co_gid k) = Ok c -> fam c = fam name.
(** the components of the family are the same glyphs in both fonts; all other glyphs may be added, removed, renamed *)
Definition same_components (s s' : M_Build.font) (fam : pystr -> bool) : Prop :=
  forall name g x z k, In (name, g) (bs_glyphs (fo_glyphs s)) -> fam name = true -> bg_data g = VGlyph x z -> In k (mg_components x) ->
    py_index (bs_order (fo_glyphs s')) (M_Glyph.co_gid k) = py_index (bs_order (fo_glyphs s)) (M_Glyph.co_gid k).

(** ** Sorting *)
Lemma str_ltb_neg : forall a b c, str_ltb a b = false -> str_ltb b c = false -> str_ltb a c = false.
Proof.
  intros a. induction a as [|x a IH]; intros [|y b] [|z c]; cbn [str_ltb]; try reflexivity; try discriminate.
  intros H1 H2. apply orb_false_iff in H1, H2. destruct H1 as (H1 & K1), H2 as (H2 & K2).
  apply orb_false_iff. split; [lia|]. destruct (x =? z) eqn:E; [|reflexivity]. cbn [andb].
  assert (x =? y = true) as X by lia. assert (y =? z = true) as Y by lia. rewrite X in K1. rewrite Y in K2. cbn [andb] in K1, K2.
  exact (IH _ _ K1 K2).
Qed.
Lemma str_ltb_asym : forall a b, str_ltb a b = true -> str_ltb b a = false.
Proof.
  intros a. induction a as [|x a IH]; intros [|y b]; cbn [str_ltb]; try reflexivity; try discriminate.
  intros H. apply orb_true_iff in H. apply orb_false_iff. destruct H as [H|H].
  - split; [lia|]. assert (y =? x = false) as -> by lia. reflexivity.
  - apply andb_true_iff in H. destruct H as (E & H). split; [lia|]. rewrite (IH _ H). apply andb_false_r.
Qed.
Lemma glyph_ltb_neg : forall a b c, glyph_ltb a b = false -> glyph_ltb b c = false -> glyph_ltb a c = false.
Proof.
  intros a b c. unfold glyph_ltb. cbv zeta. intros H1 H2. apply orb_false_iff in H1, H2. destruct H1 as (H1 & K1), H2 as (H2 & K2).
  apply orb_false_iff. split; [lia|]. destruct (components_count (snd a) =? components_count (snd c)) eqn:E; [|reflexivity]. cbn [andb].
  assert (components_count (snd a) =? components_count (snd b) = true) as X by lia.
  assert (components_count (snd b) =? components_count (snd c) = true) as Y by lia.
  rewrite X in K1. rewrite Y in K2. cbn [andb] in K1, K2. exact (str_ltb_neg _ _ _ K1 K2).
Qed.
Lemma glyph_ltb_asym : forall a b, glyph_ltb a b = true -> glyph_ltb b a = false.
Proof.
  intros a b. unfold glyph_ltb. cbv zeta. intros H. apply orb_true_iff in H. apply orb_false_iff. destruct H as [H|H].
  - split; [lia|]. assert (components_count (snd b) =? components_count (snd a) = false) as -> by lia. reflexivity.
  - apply andb_true_iff in H. destruct H as (E & H). split; [lia|]. rewrite (str_ltb_asym _ _ H). apply andb_false_r.
Qed.
Notation upwards := (StronglySorted (fun a b => glyph_ltb b a = false)).
Lemma insert_forall : forall (P : pystr * bglyph gvalue -> Prop) x l, P x -> Forall P l -> Forall P (insert_glyph x l).
Proof.
  intros P x l Px F. induction F as [|y l Py F IH]; cbn [insert_glyph]; [repeat constructor; exact Px|].
  destruct (glyph_ltb y x); repeat constructor; assumption.
Qed.
Lemma insert_up : forall x l, upwards l -> upwards (insert_glyph x l).
Proof.
  intros x l S. induction S as [|y l S IH F]; cbn [insert_glyph]; [repeat constructor|]. destruct (glyph_ltb y x) eqn:E.
  - constructor; [exact IH|]. apply insert_forall; [exact (glyph_ltb_asym _ _ E)|exact F].
  - constructor; [constructor; assumption|]. constructor; [exact E|].
    apply (Forall_impl _ (fun z (H : glyph_ltb z y = false) => glyph_ltb_neg _ _ _ H E) F).
Qed.
Lemma insert_head : forall x l, Forall (fun z => glyph_ltb z x = false) l -> insert_glyph x l = x :: l.
Proof. intros x l [|y l' H F]; cbn [insert_glyph]; [reflexivity|]. now rewrite H. Qed.
Lemma only_forall : forall A (P : pystr * A -> Prop) fam l, Forall P l -> Forall P (only fam l).
Proof.
  intros A P fam l F. induction F as [|x l H F IH]; cbn [only filter]; [constructor|]. fold (only fam l).
  destruct (fam (fst x)); [constructor; assumption|exact IH].
Qed.
Lemma insert_only : forall fam x l, upwards l ->
  only fam (insert_glyph x l) = if fam (fst x) then insert_glyph x (only fam l) else only fam l.
Proof.
  intros fam x l S. induction S as [|y l S IH F].
  - cbn [insert_glyph only filter]. destruct (fam (fst x)); reflexivity.
  - cbn [insert_glyph]. destruct (glyph_ltb y x) eqn:E.
    + cbn [only filter]. fold (only fam l). fold (only fam (insert_glyph x l)). rewrite IH. destruct (fam (fst y)), (fam (fst x)); try reflexivity.
      cbn [insert_glyph]. now rewrite E.
    + change (only fam (x :: y :: l)) with (if fam (fst x) then x :: only fam (y :: l) else only fam (y :: l)).
      destruct (fam (fst x)); [|reflexivity]. symmetry. apply insert_head. apply only_forall. constructor; [exact E|].
      apply (Forall_impl _ (fun z (H : glyph_ltb z y = false) => glyph_ltb_neg _ _ _ H E) F).
Qed.
Lemma sorted_only : forall fam l, only fam (sorted_glyphs l) = sorted_glyphs (only fam l).
Proof.
  intros fam l. unfold sorted_glyphs.
  assert (U : forall l, upwards (fold_right insert_glyph [] l)) by (intros k; induction k; cbn [fold_right]; [constructor|now apply insert_up]).
  induction l as [|x l IH]; [reflexivity|]. cbn [fold_right]. rewrite (insert_only fam x _ (U l)), IH. cbn [only filter].
  fold (only fam l). destruct (fam (fst x)); reflexivity.
Qed.

(** ** The passes *)
Section Passes.
  Variables order order2 : list pystr.
  Variable fam : pystr -> bool.
  Notation keeps := (keeps order order2 fam).
  Notation sep := (sep order order2 fam).
  Notation agree := (agree fam).

  Lemma keeps_order : forall A B name (r : list pystr -> res A) (g : A -> list pystr -> store -> res (B * store)),
    (fam name = true -> r order2 = r order) -> (forall x, keeps name (g x)) ->
    keeps name (fun od st => rthen (r od) (fun x => g x od st)).
  Proof.
    intros A B name r g H K a y a' P E. destruct (r order) as [x|e] eqn:R; cbn [rthen] in E; [|discriminate].
    destruct (K x _ _ _ P E) as (H1 & H2 & H3). split; [exact H1|]. split; [exact H2|]. intros F b A1.
    rewrite (H F). cbn [rthen]. exact (H3 F b A1).
  Qed.

  (** TrueType commands *)
  Section Tt.
    Variable fuel : nat.
    Variable name : pystr.
    Variable zone : bool -> Z -> res pystr.
    Variable stems : bool -> list pystr.
    Lemma keeps_point : forall i attr param d, keeps name (fun od st => add_point store (builder_label fuel od name) i attr param (d, st)).
    Proof.
      intros i attr param d. unfold add_point. cbn [fst snd].
      apply (keeps_pure order order2 fam _ _ name (aget_res str_eqb param (in_params i))
        (fun p od st => rmap (fun r => (aset str_eqb attr (fst r) d, snd r)) (builder_label fuel od name st p (in_cmd i)))).
      intros p. apply (keeps_map order order2 fam _ _ name (fun od st => builder_label fuel od name st p (in_cmd i))).
      - unfold builder_label. apply (keeps_map order order2 fam _ _ name (fun od st => get_point_label fuel od st name p (in_cmd i) 1)).
        + apply keeps_request.
        + intros x. eexists. intros st. cbn [fst snd]. reflexivity.
      - intros x. eexists. intros st. cbn [fst snd]. reflexivity.
    Qed.
    Lemma keeps_command : forall i, keeps name (fun od st => export_command store (builder_label fuel od name) zone stems st i).
    Proof.
      intros i. unfold export_command. cbv zeta.
      destruct (aget_res str_eqb (in_cmd i) command_codes) as [c|e]; cbn [rthen]; [|intros a y a' _ [=]].
      destruct (is_one _ _).
      { apply (keeps_bind order order2 fam _ _ name _ (fun _ r => rthen (aget_res str_eqb (py "zone") (in_params i)) (fun z =>
          rmap (fun s => (aset str_eqb (py "zone") (TStr s) (fst r), snd r)) (zone (negb (str_eqb (in_cmd i) (py "AlignBottom"))) z))) (keeps_point _ _ _ _)).
        intros x. cbn [fst snd]. apply (keeps_pure order order2 fam _ _ name (aget_res str_eqb (py "zone") (in_params i)) (fun z _ st =>
          rmap (fun s => (aset str_eqb (py "zone") (TStr s) x, st)) (zone (negb (str_eqb (in_cmd i) (py "AlignBottom"))) z))).
        intros z. apply keeps_pure_map. }
      destruct (is_one _ _).
      { apply (keeps_map order order2 fam _ _ name _ _ (keeps_point _ _ _ _)). intros x. eexists. intros st. cbn [fst snd]. reflexivity. }
      destruct (is_one _ _).
      { apply (keeps_bind order order2 fam _ _ name _ (fun od r => rthen (add_point store (builder_label fuel od name) i (py "point2") (py "pt2") r) (fun r =>
          rmap (fun d => (add_align i d, snd r)) (add_stem stems (is_one (in_cmd i) [py "SingleLinkH"; py "DoubleLinkH"]) i (fst r)))) (keeps_point _ _ _ _)).
        intros x. apply (keeps_bind order order2 fam _ _ name _ (fun _ r =>
          rmap (fun d => (add_align i d, snd r)) (add_stem stems (is_one (in_cmd i) [py "SingleLinkH"; py "DoubleLinkH"]) i (fst r))) (keeps_point _ _ _ _)).
        intros y. cbn [fst snd]. apply keeps_pure_map. }
      destruct (is_one _ _).
      { apply (keeps_bind order order2 fam _ _ name _ (fun od r => rthen (add_point store (builder_label fuel od name) i (py "point1") (py "pt1") r) (fun r =>
          rmap (fun r => (add_align i (fst r), snd r)) (add_point store (builder_label fuel od name) i (py "point2") (py "pt2") r))) (keeps_point _ _ _ _)).
        intros x. apply (keeps_bind order order2 fam _ _ name _ (fun od r =>
          rmap (fun r => (add_align i (fst r), snd r)) (add_point store (builder_label fuel od name) i (py "point2") (py "pt2") r)) (keeps_point _ _ _ _)).
        intros y. apply (keeps_map order order2 fam _ _ name _ _ (keeps_point _ _ _ _)). intros z. eexists. intros st. cbn [fst snd]. reflexivity. }
      destruct (is_one _ _); [|intros a y a' _ [=]].
      apply (keeps_bind order order2 fam _ _ name _ (fun _ r => rthen (add_param i (py "delta") (py "shift") (fst r)) (fun d =>
          rthen (add_param i (py "ppm1") (py "ppm1") d) (fun d => rmap (fun d => (d, snd r)) (add_param i (py "ppm2") (py "ppm2") d)))) (keeps_point _ _ _ _)).
      intros x. cbn [fst snd]. apply (keeps_pure order order2 fam _ _ name (add_param i (py "delta") (py "shift") x) (fun d _ st =>
          rthen (add_param i (py "ppm1") (py "ppm1") d) (fun d => rmap (fun d => (d, st)) (add_param i (py "ppm2") (py "ppm2") d)))).
      intros d. apply (keeps_pure order order2 fam _ _ name (add_param i (py "ppm1") (py "ppm1") d) (fun d _ st => rmap (fun d => (d, st)) (add_param i (py "ppm2") (py "ppm2") d))).
      intros d'. apply (keeps_pure_map order order2 fam _ _ name (add_param i (py "ppm2") (py "ppm2") d') (fun d => d)).
    Qed.
    Lemma keeps_commands : forall l, keeps name (fun od st => export_commands store (builder_label fuel od name) zone stems st l).
    Proof.
      intros l. induction l as [|i l IH]; cbn [export_commands]; [apply keeps_ret|].
      apply (keeps_bind order order2 fam _ _ name _ (fun od r => rmap (fun rs => (fst r :: fst rs, snd rs))
               (export_commands store (builder_label fuel od name) zone stems (snd r) l)) (keeps_command i)).
      intros x. cbn [fst snd]. apply (keeps_map order order2 fam _ _ name _ _ IH). intros y. eexists. intros st. cbn [fst snd]. reflexivity.
    Qed.
  End Tt.
  Lemma tt_only : forall o t l a b cs a', sep a -> agree a b -> tt_glyph_lib o order t l a = Ok (cs, a') ->
    sep a' /\ exists b', tt_glyph_lib o order2 t (only fam l) b = Ok (only fam cs, b') /\ agree a' b'.
  Proof.
    intros o t l. induction l as [|[name g] l IH]; intros a b cs a' P A; cbn [tt_glyph_lib].
    - intros [= <- <-]. split; [exact P|]. exists b. split; [reflexivity|exact A].
    - cbn [only filter fst]. fold (only fam l).
      destruct (bg_data g) as [x z|v] eqn:D; [destruct (mg_tth x) as [cmds|] eqn:T|].
      1:{ destruct (export_commands _ _ _ _ a cmds) as [[x1 a1]|e] eqn:E; cbn [rthen fst snd]; [|discriminate].
          destruct (tt_glyph_lib o order t l a1) as [[xs a2]|e] eqn:R; cbn [rmap fst snd]; [|discriminate]. intros [= <- <-].
          destruct (keeps_commands _ name _ _ cmds _ _ _ P E) as (P1 & O & I). cbn [only filter fst]. fold (only fam xs). destruct (fam name) eqn:F.
          - destruct (I eq_refl b A) as (b1 & E1 & A1). destruct (IH _ b1 _ _ P1 A1 R) as (P2 & b2 & E2 & A2).
            split; [exact P2|]. exists b2. split; [|exact A2]. cbn [tt_glyph_lib]. rewrite D, T, E1. cbn [rthen fst snd]. rewrite E2. reflexivity.
          - apply (IH a1 b); [exact P1| |exact R]. intros n Fn. rewrite <- (O eq_refl n Fn). exact (A n Fn). }
      all: intros H; destruct (IH _ b _ _ P A H) as (P2 & b2 & E2 & A2); split; [exact P2|]; exists b2; split; [|exact A2].
      all: destruct (fam name); [|exact E2]; cbn [tt_glyph_lib]; rewrite D; try rewrite T; exact E2.
  Qed.

  (** the glyphs of a master *)
  Variable c : settings.
  Variable o : options.
  Definition parts_same (p : pystr * bglyph gvalue) : Prop :=
    forall x z k, fam (fst p) = true -> bg_data (snd p) = VGlyph x z -> In k (mg_components x) ->
      py_index order2 (M_Glyph.co_gid k) = py_index order (M_Glyph.co_gid k).
  Lemma components_same : forall (round : Z -> Z) m l, (forall k, In k l -> py_index order2 (M_Glyph.co_gid k) = py_index order (M_Glyph.co_gid k)) ->
    extract_components round order2 m (map component_of l) = extract_components round order m (map component_of l).
  Proof.
    intros round m l H. unfold extract_components. induction l as [|k l IH]; [reflexivity|]. cbn [map res_map].
    rewrite IH by (intros x I; apply H; now right).
    assert (extract_component round order2 m (component_of k) = extract_component round order m (component_of k)) as ->; [|reflexivity].
    unfold extract_component. unfold component_of at 5 10. cbn [M_Paths.co_gid]. rewrite (H k (or_introl eq_refl)). reflexivity.
  Qed.
  Lemma keeps_one : forall m name g cmds, parts_same (name, g) -> keeps name (fun od st => export_one c o od m name g cmds st).
  Proof.
    intros m name g cmds S. unfold export_one. destruct (bg_data g) as [x z|v] eqn:D; [|intros a y a' _ [=]].
    apply (keeps_bind order order2 fam _ _ name _ (fun od r => _) (keeps_glyph order order2 fam _ _ m name (eglyph_of x g))).
    intros ex. cbn [fst snd].
    destruct (tth_lib cmds) as [tth|e]; cbn [rthen]; [|intros a y a' _ [=]].
    destruct (if st_minimal c then _ else _) as [mask|e]; cbn [rthen]; [|intros a y a' _ [=]].
    apply (keeps_order _ _ name (fun od => extract_components (op_round15 o) od m (map component_of (mg_components x))) (fun comps od st => _)).
    - intros F. apply components_same. intros k I. exact (S x z k F D I).
    - intros comps. destruct (build_master _ _ _ _) as [d|e]; cbn [rthen]; [|intros a y a' _ [=]].
      destruct (if st_minimal c then _ else _) as [gs|e]; cbn [rthen]; [|intros a y a' _ [=]].
      apply keeps_pure_map.
  Qed.
  Lemma all_only : forall m cmds glyphs a b gs ks a', Forall parts_same glyphs -> sep a -> agree a b ->
    export_all c o order m glyphs cmds a = Ok (gs, ks, a') ->
    sep a' /\ exists b', export_all c o order2 m (only fam glyphs) (only fam cmds) b = Ok (only fam gs, only fam ks, b') /\ agree a' b'.
  Proof.
    intros m cmds glyphs. induction glyphs as [|[name g] glyphs IH]; intros a b gs ks a' S P A; cbn [export_all].
    - intros [= <- <- <-]. split; [exact P|]. exists b. split; [reflexivity|exact A].
    - apply Forall_cons_iff in S. destruct S as (S1 & S).
      destruct (export_one c o order m name g _ a) as [[[u k] a1]|e] eqn:E; cbn [rthen fst snd]; [|discriminate].
      destruct (export_all c o order m glyphs cmds a1) as [[[us ks1] a2]|e] eqn:R; cbn [rmap fst snd]; [|discriminate].
      intros [= <- <- <-]. destruct (keeps_one m name g _ S1 _ _ _ P E) as (P1 & O & I).
      cbn [only filter fst]. fold (only fam glyphs). fold (only fam us).
      destruct (fam name) eqn:F.
      + destruct (I eq_refl b A) as (b1 & E1 & A1). destruct (IH _ b1 _ _ _ S P1 A1 R) as (P2 & b2 & E2 & A2).
        split; [exact P2|]. exists b2. split; [|exact A2]. cbn [export_all]. rewrite (aget_only fam _ name cmds F), E1. cbn [rthen fst snd]. rewrite E2.
        cbn [rmap fst snd]. do 2 f_equal. f_equal. destruct k as [k|]; [|reflexivity]. destruct (ok_contours k); [reflexivity|].
        cbn [only filter fst]. rewrite F. reflexivity.
      + assert (agree a1 b) as A1 by (intros n Fn; rewrite <- (O eq_refl n Fn); exact (A n Fn)).
        destruct (IH _ b _ _ _ S P1 A1 R) as (P2 & b2 & E2 & A2). split; [exact P2|]. exists b2. split; [|exact A2]. rewrite E2.
        do 2 f_equal. f_equal. destruct k as [k|]; [|reflexivity]. destruct (ok_contours k); [reflexivity|].
        cbn [only filter fst]. rewrite F. reflexivity.
  Qed.
End Passes.

Lemma masters_both : forall fam c o s1 s2 sh1 sh2 lib1 lib2 cmds1 cmds2,
  let o1 := bs_order (fo_glyphs s1) in let o2 := bs_order (fo_glyphs s2) in
  let g1 := bs_glyphs (fo_glyphs s1) in let g2 := bs_glyphs (fo_glyphs s2) in
  only fam g1 = only fam g2 -> only fam cmds1 = only fam cmds2 ->
  Forall (parts_same o1 o1 fam) g1 -> Forall (parts_same o2 o1 fam) g2 ->
  forall k m n1 n2 st1 st2 b us1 us2 u1 u2,
  sep o1 o1 fam st1 -> sep o2 o1 fam st2 -> agree fam st1 b -> agree fam st2 b ->
  ufo_masters c o s1 sh1 lib1 cmds1 m n1 st1 = Ok us1 -> ufo_masters c o s2 sh2 lib2 cmds2 m n2 st2 = Ok us2 ->
  nth_error us1 k = Some u1 -> nth_error us2 k = Some u2 ->
  only fam (uf_glyphs u1) = only fam (uf_glyphs u2) /\ only fam (uf_background u1) = only fam (uf_background u2).
Proof.
  intros fam c o s1 s2 sh1 sh2 lib1 lib2 cmds1 cmds2 o1 o2 g1 g2 G C S1 S2 k.
  assert (Step : forall m st1 st2 b v1 v2 t1 t2, sep o1 o1 fam st1 -> sep o2 o1 fam st2 -> agree fam st1 b -> agree fam st2 b ->
    get_ufo_master c o s1 sh1 lib1 cmds1 m st1 = Ok (v1, t1) -> get_ufo_master c o s2 sh2 lib2 cmds2 m st2 = Ok (v2, t2) ->
    (only fam (uf_glyphs v1) = only fam (uf_glyphs v2) /\ only fam (uf_background v1) = only fam (uf_background v2)) /\
    sep o1 o1 fam t1 /\ sep o2 o1 fam t2 /\ exists b', agree fam t1 b' /\ agree fam t2 b').
  { intros m st1 st2 b v1 v2 t1 t2 P1 P2 A1 A2. unfold get_ufo_master. fold o1 o2 g1 g2.
    destruct (get_master_kerning (us_kerning sh1) m); cbn [rthen]; [|discriminate].
    destruct (get_master_info _ (fo_counts s1) _ _ _); cbn [rthen]; [|discriminate].
    destruct (font_guides c o s1 m); cbn [rthen]; [|discriminate].
    destruct (export_all c o o1 m g1 cmds1 st1) as [[[gs1 ks1] x1]|] eqn:E1; cbn [rmap fst snd]; [|discriminate]. intros [= <- <-].
    destruct (get_master_kerning (us_kerning sh2) m); cbn [rthen]; [|discriminate].
    destruct (get_master_info _ (fo_counts s2) _ _ _); cbn [rthen]; [|discriminate].
    destruct (font_guides c o s2 m); cbn [rthen]; [|discriminate].
    destruct (export_all c o o2 m g2 cmds2 st2) as [[[gs2 ks2] x2]|] eqn:E2; cbn [rmap fst snd]; [|discriminate]. intros [= <- <-].
    cbn [uf_glyphs uf_background].
    destruct (all_only _ _ _ _ _ _ _ _ _ _ _ _ _ S1 P1 A1 E1) as (Q1 & b1 & R1 & B1).
    destruct (all_only _ _ _ _ _ _ _ _ _ _ _ _ _ S2 P2 A2 E2) as (Q2 & b2 & R2 & B2).
    rewrite G, C, R2 in R1. apply Ok_inj in R1. injection R1 as X1 X2 X3. subst b2.
    split; [split; [now symmetry|now symmetry]|]. split; [exact Q1|]. split; [exact Q2|]. exists b1. split; assumption. }
  induction k as [|k IH]; intros m n1 n2 st1 st2 b us1 us2 u1 u2 P1 P2 A1 A2 E1 E2 N1 N2;
    (destruct n1 as [|n1]; cbn [ufo_masters] in E1; [apply Ok_inj in E1; subst us1; discriminate|]);
    (destruct n2 as [|n2]; cbn [ufo_masters] in E2; [apply Ok_inj in E2; subst us2; discriminate|]);
    (destruct (get_ufo_master c o s1 _ _ _ _ _) as [[v1 t1]|] eqn:M1; [|discriminate]); cbn [rthen fst snd] in E1;
    (destruct (get_ufo_master c o s2 _ _ _ _ _) as [[v2 t2]|] eqn:M2; [|discriminate]); cbn [rthen fst snd] in E2;
    (destruct (ufo_masters c o s1 _ _ _ _ _ _) as [w1|] eqn:W1; [|discriminate]); cbn [rmap] in E1;
    (destruct (ufo_masters c o s2 _ _ _ _ _ _) as [w2|] eqn:W2; [|discriminate]); cbn [rmap] in E2;
    apply Ok_inj in E1; apply Ok_inj in E2; subst us1 us2; cbn [nth_error] in N1, N2;
    destruct (Step _ _ _ _ _ _ _ _ P1 P2 A1 A2 M1 M2) as (H & Q1 & Q2 & b' & B1 & B2).
  - injection N1 as <-. injection N2 as <-. exact H.
  - exact (IH _ _ _ _ _ _ _ _ _ _ Q1 Q2 B1 B2 W1 W2 N1 N2).
Qed.

Lemma first_only : forall fam glyphs, only fam (first_store glyphs) = first_store (only fam glyphs).
Proof.
  intros fam glyphs. induction glyphs as [|[n g] l IH]; [reflexivity|]. cbn [only filter first_store map fst snd].
  fold (only fam l). fold (first_store l). fold (only fam (first_store l)). rewrite IH. destruct (fam n); reflexivity.
Qed.
Lemma first_agree : forall fam glyphs, agree fam (first_store glyphs) (first_store (only fam glyphs)).
Proof. intros fam glyphs n F. rewrite <- first_only. symmetry. now apply aget_only. Qed.
Lemma first_sep : forall s s' fam, glyph_family s fam -> same_components s s' fam ->
  sep (bs_order (fo_glyphs s)) (bs_order (fo_glyphs s')) fam (first_store (bs_glyphs (fo_glyphs s))).
Proof.
  intros s s' fam H S. split.
  - intros name lg gid x A I X. apply (aget_In str_eqb str_eqb_eq) in A. unfold first_store in A. apply in_map_iff in A. destruct A as ((n & g) & E & J).
    cbn [fst snd] in E. injection E as -> <-. destruct (bg_data g) as [y z|v] eqn:D; [|destruct I]. cbn [lg_components] in I.
    apply in_map_iff in I. destruct I as (k & <- & K). exact (H _ _ _ _ _ _ J D K X).
  - intros name lg gid A I F. apply (aget_In str_eqb str_eqb_eq) in A. unfold first_store in A. apply in_map_iff in A. destruct A as ((n & g) & E & J).
    cbn [fst snd] in E. injection E as -> <-. destruct (bg_data g) as [y z|v] eqn:D; [|destruct I]. cbn [lg_components] in I.
    apply in_map_iff in I. destruct I as (k & <- & K). exact (S _ _ _ _ _ J F D K).
Qed.

(** ** The property *)
(** C119: two fonts with the same TrueType stems that have a family in common, with any other glyphs, names, groups,
    kerning, features, guides and font info: the glyphs of the family and their masks are the same in the UFOs of
    every master that both have *)
Theorem C119_ufos : forall c o s1 s2 fam us1 us2 k u1 u2,
  glyph_family s1 fam -> glyph_family s2 fam -> same_components s2 s1 fam ->
  only fam (bs_glyphs (fo_glyphs s1)) = only fam (bs_glyphs (fo_glyphs s2)) -> fo_tt s1 = fo_tt s2 ->
  get_ufo_masters c o s1 = Ok us1 -> get_ufo_masters c o s2 = Ok us2 ->
  nth_error us1 k = Some u1 -> nth_error us2 k = Some u2 ->
  only fam (uf_glyphs u1) = only fam (uf_glyphs u2) /\ only fam (uf_background u1) = only fam (uf_background u2).
Proof.
  intros c o s1 s2 fam us1 us2 k u1 u2 F1 F2 S G T E1 E2 N1 N2. unfold get_ufo_masters in E1, E2. rewrite <- T in E2.
  assert (S1 : same_components s1 s1 fam) by (intros name g x z kk _ _ _ _; reflexivity).
  pose proof (first_sep s1 s1 fam F1 S1) as P1. pose proof (first_sep s2 s1 fam F2 S) as P2.
  pose proof (first_agree fam (bs_glyphs (fo_glyphs s1))) as A1. pose proof (first_agree fam (bs_glyphs (fo_glyphs s2))) as A2.
  destruct (tt_glyph_lib o _ _ _ _) as [[cs1 st1]|] eqn:T1 in E1; [|discriminate].
  destruct (tt_glyph_lib o _ _ _ _) as [[cs2 st2]|] eqn:T2 in E2; [|discriminate].
  cbn [rthen fst snd] in E1, E2.
  destruct (transform_groups _ _ _ _) as [tg1|] in E1; [|discriminate]. destruct (transform_groups _ _ _ _) as [tg2|] in E2; [|discriminate].
  cbn [rthen] in E1, E2.
  destruct (export_shared _ _ _ _ _ _ _ _) as [sh1|] in E1; [|discriminate]. destruct (export_shared _ _ _ _ _ _ _ _) as [sh2|] in E2; [|discriminate].
  cbn [rthen] in E1, E2.
  destruct (tt_only _ _ _ _ _ _ _ _ _ _ P1 A1 T1) as (Q1 & b1 & R1 & B1).
  destruct (tt_only _ _ _ _ _ _ _ _ _ _ P2 A2 T2) as (Q2 & b2 & R2 & B2).
  rewrite sorted_only in R1, R2. rewrite G, R2 in R1. apply Ok_inj in R1. injection R1 as C X. subst b2.
  eapply (masters_both fam c o s1 s2 sh1 sh2 _ _ cs1 cs2 G (eq_sym C)); try eassumption.
  - apply Forall_forall. intros p I x z kk _ _ _. reflexivity.
  - apply Forall_forall. intros [n g] I x z kk F D K. exact (S _ _ _ _ _ I F D K).
Qed.
Print Assumptions C119_ufos.

(** ** Entries: "A", and "Aacute" that uses it; then another glyph "B" is added, with a stem and an anchor *)
From Verif Require Import Prop_Ufo.
Definition each_component (s : M_Build.font) (P : pystr -> Z -> bool) : bool :=
  forallb (fun p => match bg_data (snd p) with
                    | VGlyph x _ => forallb (fun k => P (fst p) (M_Glyph.co_gid k)) (mg_components x)
                    | VData _ => true
                    end) (bs_glyphs (fo_glyphs s)).
Lemma each_ok : forall s P, each_component s P = true ->
  forall name g x z k, In (name, g) (bs_glyphs (fo_glyphs s)) -> bg_data g = VGlyph x z -> In k (mg_components x) -> P name (M_Glyph.co_gid k) = true.
Proof.
  intros s P H name g x z k I D K. unfold each_component in H. rewrite forallb_forall in H. specialize (H _ I). cbn [fst snd] in H. rewrite D in H.
  rewrite forallb_forall in H. exact (H _ K).
Qed.
Definition resolves_to (order : list pystr) (gid : Z) (name : pystr) : bool :=
  match py_index order gid with Ok c => str_eqb c name | Err _ => false end.
Definition c119_fam (n : pystr) : bool := str_eqb n (py "A") || str_eqb n (py "Aacute").
Definition c119_more : list (Z * option value) :=
  c86_entries ++ [(2001, Some (DGlyph (Glyph (Some (py "B")) (Some 2) (Some c86_outline) (Some [(500, 0); (540, 0)]) None None None (Some [(0, [-5; -5])]) None None)));
                  (1250, Some (DInts [66])); (2012, Some (DInt 30))].
Definition c119_font (c : settings) (es : list (Z * option value)) : M_Build.font :=
  match build_font c es with Ok s => s | Err _ => new_font end.
Lemma c119_built : forall c es, match build_font c es with Ok _ => true | Err _ => false end = true -> build_font c es = Ok (c119_font c es).
Proof. intros c es. unfold c119_font. destruct (build_font c es); [reflexivity|discriminate]. Qed.
Example C119_ufos_meets : forall ops up asm number,
  let c := Settings false false false ops up asm in let s1 := c119_font c c86_entries in let s2 := c119_font c c119_more in
  build_font c c86_entries = Ok s1 /\ build_font c c119_more = Ok s2 /\
  glyph_family s1 c119_fam /\ glyph_family s2 c119_fam /\ same_components s2 s1 c119_fam /\
  only c119_fam (bs_glyphs (fo_glyphs s1)) = only c119_fam (bs_glyphs (fo_glyphs s2)) /\ fo_tt s1 = fo_tt s2 /\
  rmap (map (fun u => map fst (uf_glyphs u))) (get_ufo_masters c (c86_options number) s1) = Ok [[py "A"; py "Aacute"]; [py "A"; py "Aacute"]] /\
  rmap (map (fun u => map fst (uf_glyphs u))) (get_ufo_masters c (c86_options number) s2)
    = Ok [[py "A"; py "Aacute"; py "B"]; [py "A"; py "Aacute"; py "B"]].
Proof.
  intros ops up asm number c s1 s2.
  assert (B1 : build_font c c86_entries = Ok s1) by (exact (c119_built c c86_entries ltac:(vm_compute; reflexivity))).
  assert (B2 : build_font c c119_more = Ok s2) by (exact (c119_built c c119_more ltac:(vm_compute; reflexivity))).
  assert (R1 : each_component s1 (fun n gid => resolves_to (bs_order (fo_glyphs s1)) gid (py "A") && c119_fam n) = true) by (vm_compute; reflexivity).
  assert (R2 : each_component s2 (fun n gid => resolves_to (bs_order (fo_glyphs s2)) gid (py "A") && resolves_to (bs_order (fo_glyphs s1)) gid (py "A") && c119_fam n) = true)
    by (vm_compute; reflexivity).
  assert (G : only c119_fam (bs_glyphs (fo_glyphs s1)) = only c119_fam (bs_glyphs (fo_glyphs s2))) by (vm_compute; reflexivity).
  assert (T : fo_tt s1 = fo_tt s2) by (vm_compute; reflexivity).
  assert (U1 : rmap (map (fun u => map fst (uf_glyphs u))) (get_ufo_masters c (c86_options number) s1) = Ok [[py "A"; py "Aacute"]; [py "A"; py "Aacute"]])
    by (vm_compute; reflexivity).
  assert (U2 : rmap (map (fun u => map fst (uf_glyphs u))) (get_ufo_masters c (c86_options number) s2)
    = Ok [[py "A"; py "Aacute"; py "B"]; [py "A"; py "Aacute"; py "B"]]) by (vm_compute; reflexivity).
  clearbody s1 s2.
  assert (Rs : forall od gid n, resolves_to od gid n = true -> py_index od gid = Ok n).
  { intros od gid n. unfold resolves_to. destruct (py_index od gid); [|discriminate]. intros E. apply str_eqb_eq in E. now subst. }
  split; [exact B1|]. split; [exact B2|]. split; [|split; [|split]].
  - intros name g x z k a I D K X. pose proof (each_ok _ _ R1 _ _ _ _ _ I D K) as H. apply andb_true_iff in H. destruct H as (H & ->).
    rewrite (Rs _ _ _ H) in X. apply Ok_inj in X. subst a. reflexivity.
  - intros name g x z k a I D K X. pose proof (each_ok _ _ R2 _ _ _ _ _ I D K) as H. apply andb_true_iff in H. destruct H as (H & ->).
    apply andb_true_iff in H. destruct H as (H & _). rewrite (Rs _ _ _ H) in X. apply Ok_inj in X. subst a. reflexivity.
  - intros name g x z k I _ D K. pose proof (each_ok _ _ R2 _ _ _ _ _ I D K) as H. apply andb_true_iff in H. destruct H as (H & _).
    apply andb_true_iff in H. destruct H as (H & H'). now rewrite (Rs _ _ _ H), (Rs _ _ _ H').
  - split; [exact G|]. split; [exact T|]. split; [exact U1|exact U2].
Qed.
