(** Proofs about hinting in the UFOs: from the entries of a file to the labels of points. *)
From Coq Require Import String QArith Lia ZifyBool ZifyNat.
From Verif Require Import S_Tth.
From Verif Require Import Base Lib M_Py M_Helpers M_Simple M_Text M_TrueType M_Bitmap M_Glyph M_Options M_Container M_Table M_Groups.
From Verif Require Import M_Info M_FontInfo M_Tth M_Programs M_Builder M_Master M_Features M_Designspace M_Build M_Labels M_PsHints.
From Verif Require Import M_Paths M_Guides M_Export M_Ufo S_Build S_Paths S_Guides S_Ufo S_Builder S_Labels S_PsHints S_Export S_Hinting.
From Verif Require Import P_Glyph P_Guides P_Build P_Labels P_Paths P_Export P_Tth P_Names P_Ufo P_Ufo2 Prop_Tth Prop_Build Prop_Ufo Prop_Ufo2.
Local Open Scope list_scope.
Local Open Scope Z_scope.

(** ** Stems *)
Lemma stem_fold : forall hor ds ppms stems i r, res_fold (stem_turn hor) (ppms, stems, i) ds = Ok r ->
  map us_name (snd (fst r)) = map us_name stems ++ flat_map (fun s => match ts_name s with Some n => [n] | None => [] end) ds.
Proof.
  intros hor. induction ds as [|d ds IH]; intros ppms stems i r H; cbn [res_fold] in H.
  - apply Ok_inj in H. subst r. cbn [fst snd flat_map]. now rewrite app_nil_r.
  - unfold stem_turn in H at 1. destruct (ts_round d) as [|[rk rv] ?]; [discriminate|]. destruct (py_index ppms i) as [p|]; [|discriminate]. cbn [rthen] in H.
    destruct (i =? fst p); [|discriminate]. destruct (opt_res (ts_value d)) as [v|]; [|discriminate]. cbn [rthen] in H.
    destruct (ts_name d) as [n|] eqn:En; [|discriminate]. cbn [opt_res rthen] in H. destruct (py_update _ _ _) as [ppms'|]; [|discriminate]. cbn [rmap rthen] in H.
    apply IH in H. rewrite H, map_app, <- app_assoc. cbn [map us_name flat_map]. rewrite En. reflexivity.
Qed.
Lemma stems_said : forall l s t, res_fold tt_add s (flat_map tt_part l) = Ok t -> forall hor, builder_stems t hor = builder_stems s hor ++ stem_names l hor.
Proof.
  induction l as [|[k d] l IH]; intros s t H hor.
  - cbn in H. apply Ok_inj in H. subst t. cbn. now rewrite app_nil_r.
  - cbn [flat_map] in H. rewrite res_fold_app in H. destruct (res_fold tt_add s (tt_part (k, d))) as [s1|] eqn:E; [|discriminate]. cbn [rthen] in H.
    rewrite (IH _ _ H hor). unfold stem_names at 2. cbn [flat_map]. fold (stem_names l hor). rewrite app_assoc. f_equal. clear H IH.
    destruct (Z.eqb_spec k 1269) as [->|N].
    + destruct d; try (cbn in E; apply Ok_inj in E; subst s1; now rewrite app_nil_r). cbn [tt_part res_fold tt_add] in E. unfold set_tt_stems in E.
      destruct (res_fold (stem_turn false) _ _) as [rh|] eqn:Eh in E; [|discriminate]. cbn [rthen] in E.
      destruct (res_fold (stem_turn true) _ _) as [rv|] eqn:Ev in E; [|discriminate]. cbn [rmap rthen] in E. apply Ok_inj in E. subst s1.
      apply stem_fold in Eh, Ev. unfold builder_stems. destruct hor; cbn [ex_stems_h ex_stems_v]; assumption.
    + assert (X : forall (a : tt_stems -> list pystr), match k with 1269 => match d with DStems x => a x | _ => [] end | _ => [] end = []).
      { intros a. destruct k as [|p|p]; try reflexivity; by_keys. }
      rewrite (X (fun d => flat_map _ _)). rewrite app_nil_r. clear X.
      assert (B : forall e, tt_part (k, d) = [e] \/ tt_part (k, d) = [] -> (forall x, e <> EStems x) -> builder_stems s1 hor = builder_stems s hor).
      { intros e [He|He] Ne; rewrite He in E; cbn [res_fold] in E; [|apply Ok_inj in E; now subst].
        destruct (tt_add s e) as [s2|] eqn:A; [|discriminate]. cbn [rthen] in E. apply Ok_inj in E. subst s2.
        destruct e; cbn [tt_add] in A; [..|].
        - unfold set_tt_stem_ppms in A. destruct (ppms_of _); [|discriminate]. cbn [rthen] in A. destruct (ppms_of _); [|discriminate]. apply Ok_inj in A. now subst.
        - unfold set_tt_stem_ppms_1 in A. destruct (res_fold _ _ _); [|discriminate]. cbn [rthen] in A. destruct (res_fold _ _ _); [|discriminate]. apply Ok_inj in A. now subst.
        - elim (Ne d0). reflexivity.
        - unfold set_tt_zones in A. destruct (opt_res _); [|discriminate]. cbn [rthen] in A. destruct (opt_res _); [|discriminate]. apply Ok_inj in A. now subst.
        - unfold set_tt_zone_deltas in A. destruct (res_fold _ _ _); [|discriminate]. cbn [rmap] in A. apply Ok_inj in A. now subst. }
      destruct (tt_part (k, d)) as [|e [|e' es]] eqn:P.
      * apply (B (EDeltas [])); [now right|discriminate].
      * apply (B e); [now left|]. intros x ->. clear - P N. unfold tt_part in P. destruct k as [|p|p]; try discriminate P.
        repeat (match type of P with context [match ?p with xH => _ | xO _ => _ | xI _ => _ end] => destruct p end; try discriminate P; try congruence); destruct d; discriminate P.
      * exfalso. clear - P. unfold tt_part in P. destruct k as [|p|p]; try discriminate P.
        repeat (match type of P with context [match ?p with xH => _ | xO _ => _ | xI _ => _ end] => destruct p end; try discriminate P; try congruence); destruct d; discriminate P.
Qed.

(** ** The glyphs of the builder, with the entries and zones they come from *)
Notation bz := ((glyph * list (Z * value)) * option (list pystr * list pystr))%type.
Definition built (c : settings) (b : bz) (p : pystr * bglyph gvalue) : Prop :=
  g_name (fst (fst b)) = Some (fst p) /\
  exists x, bg_data (snd p) = VGlyph x (snd b) /\ mg_nodes x = nodes_of (fst (fst b)) /\
    mg_components x = components_of (fst (fst b)) /\ mg_tth x = g_tth (fst (fst b)) /\
    (if st_ps_hints c then eglyph_of x (snd p) else EGlyph (mg_nodes x) [] [] [] (Links [] [])) = hinted_entry (st_ps_hints c) (fst b).
Lemma built_one : forall c b z p, g_name (fst b) = Some (fst p) -> glyph_data c b (snd p) -> (exists m, bg_data (snd p) = VGlyph m z) -> built c (b, z) p.
Proof.
  intros c b z p N [(x & y & z' & R & D) Hf _ _ _] (x' & D'). rewrite D in D'. injection D' as <- <-. split; [exact N|]. exists x. cbn [fst snd].
  assert (L : glyph_links (snd p) = said_links (snd b)) by (unfold glyph_links, said_links; now rewrite (Hf FLinks 2008 eq_refl)).
  unfold build_mm_glyph in R. rewrite N in R. cbn [get_key rthen] in R. destruct (g_metrics (fst b)); [|discriminate]. cbn [get_key rthen] in R.
  destruct (g_nodes (fst b)) as [nodes|] eqn:En; [|discriminate]. cbn [get_key rmap] in R. apply Ok_inj in R. injection R as R _. split; [exact D|].
  unfold hinted_entry, nodes_of. rewrite En. subst x. cbn [mg_nodes mg_components mg_tth]. split; [reflexivity|]. split; [reflexivity|]. split; [reflexivity|].
  destruct (st_ps_hints c); [|reflexivity]. unfold eglyph_of. cbn [mg_nodes mg_masks mg_h mg_v]. rewrite L. reflexivity.
Qed.
Lemma built_all : forall c blocks zones glyphs, flat_map name_of (map fst blocks) = map fst glyphs ->
  Forall2 (glyph_data c) blocks (map snd glyphs) -> Forall2 (fun z g => exists m, bg_data g = VGlyph m z) zones (map snd glyphs) ->
  List.length zones = List.length blocks /\ Forall2 (built c) (combine blocks zones) glyphs.
Proof.
  intros c blocks zones glyphs. revert blocks zones. induction glyphs as [|p glyphs IH]; intros blocks zones N F Z; cbn [map] in *; inversion F as [|b ? bs ? F1 F2]; inversion Z as [|z ? zs ? Z1 Z2]; subst.
  - split; [reflexivity|constructor].
  - cbn [map flat_map] in N. unfold name_of in N at 1.
    assert (Nb : exists n, g_name (fst b) = Some n).
    { destruct F1 as [(x & y & z' & R & _) _ _ _ _]. unfold build_mm_glyph in R. destruct (g_name (fst b)); [eauto|discriminate]. }
    destruct Nb as (n & Nb). rewrite Nb in N. cbn [app] in N. injection N as N1 N2. destruct (IH bs zs N2 F2 Z2) as [L B].
    split; [cbn; lia|]. cbn [combine]. constructor; [|exact B]. apply built_one; [congruence|assumption|assumption].
Qed.
Definition font_of (c : settings) (bs : list bz) : list (pystr * eglyph) :=
  map (fun b => (match g_name (fst (fst b)) with Some n => n | None => [] end, hinted_entry (st_ps_hints c) (fst b))) bs.

(** ** The export is that of the model of outlines and hints *)
Definition same_out (o : options) (commands : list (pystr * list command)) (q : pystr * ufo_glyph) (w : pystr * exported) : Prop :=
  fst q = fst w /\ og_contours (snd q) = ex_contours (snd w) /\
  gl_hints (og_lib (snd q)) = match ex_hints (snd w) with [] => None | l => Some l end /\
  exists t, tth_lib (match aget str_eqb (fst q) commands with Some l => l | None => [] end) = Ok t /\
    finalize_tth (op_base64 o) t = Ok (gl_tth (og_lib (snd q))).
Lemma bare_export : forall fuel order ps m name e st,
  export_glyph fuel order ps m name e st = export_glyph fuel order ps m name (if ps then e else EGlyph (eg_nodes e) [] [] [] (Links [] [])) st.
Proof. intros fuel order [|] m name e st; reflexivity. Qed.
Lemma all_export : forall c o order m commands bs glyphs st gs ks st', Forall2 (built c) bs glyphs ->
  export_all c o order m glyphs commands st = Ok (gs, ks, st') ->
  exists outs, export_master (op_fuel o) order (st_ps_hints c) m (font_of c bs) st = Ok (outs, st') /\ Forall2 (same_out o commands) gs outs.
Proof.
  intros c o order m commands bs glyphs st gs ks st' B. revert st gs ks st'. induction B as [|b [name g] bs glyphs (N & x & D & Nd & _ & _ & E) B IH]; intros st gs ks st' H; cbn [export_all] in H.
  - apply Ok_inj in H. injection H as <- _ <-. exists []. split; [reflexivity|constructor].
  - cbn [fst snd] in *. destruct (export_one _ _ _ _ _ _ _ _) as [[[u k] st1]|] eqn:E1; [|discriminate]. cbn [rthen fst snd] in H.
    destruct (export_all _ _ _ _ _ _ _) as [[[gs1 ks1] st2]|] eqn:E2; [|discriminate]. cbn [rmap fst snd] in H. apply Ok_inj in H. injection H as <- _ <-.
    destruct (IH _ _ _ _ E2) as (outs & Eo & F). clear IH E2. unfold export_one in E1. rewrite D in E1.
    destruct (export_glyph _ _ _ _ _ _ _) as [[ex st3]|] eqn:A1; [|discriminate]. cbn [rthen fst snd] in E1.
    destruct (tth_lib _) as [tth|] eqn:A2; [|discriminate]. cbn [rthen] in E1.
    destruct (if st_minimal c then _ else _) as [mask|] eqn:A3 in E1; [|discriminate]. cbn [rthen] in E1.
    destruct (extract_components _ _ _ _) as [comps|] eqn:A4; [|discriminate]. cbn [rthen] in E1.
    destruct (build_master _ _ _ _) as [d|] eqn:A5; [|discriminate]. cbn [rthen] in E1.
    destruct (if st_minimal c then _ else _) as [gd|] eqn:A6 in E1; [|discriminate]. cbn [rthen] in E1.
    destruct (finalize_tth _ _) as [tt|] eqn:A7; [|discriminate]. cbn [rmap] in E1. apply Ok_inj in E1. injection E1 as Eu _ Es.
    exists ((name, ex) :: outs). split.
    + cbn [font_of map export_master]. fold (font_of c bs). rewrite N. rewrite bare_export in A1.
      replace (if st_ps_hints c then eglyph_of x g else EGlyph (eg_nodes (eglyph_of x g)) [] [] [] (Links [] [])) with (hinted_entry (st_ps_hints c) (fst b)) in A1
        by (rewrite <- E; destruct (st_ps_hints c); reflexivity).
      rewrite A1. cbn [rthen fst snd]. rewrite Es, Eo. reflexivity.
    + constructor; [|exact F]. subst u. unfold same_out. cbn [fst snd og_contours og_lib gl_hints gl_tth]. repeat (split; [reflexivity|]). exists tth. split; assumption.
Qed.
Lemma masters_export : forall c o s sh lib commands bs n m st us, Forall2 (built c) bs (bs_glyphs (fo_glyphs s)) ->
  ufo_masters c o s sh lib commands m n st = Ok us ->
  exists outs st', export_masters (op_fuel o) (bs_order (fo_glyphs s)) (st_ps_hints c) m n (font_of c bs) st = Ok (outs, st') /\
    Forall2 (fun u out => Forall2 (same_out o commands) (uf_glyphs u) out) us outs.
Proof.
  intros c o s sh lib commands bs. induction n as [|n IH]; intros m st us B H; cbn [ufo_masters] in H.
  - apply Ok_inj in H. subst us. exists [], st. split; [reflexivity|constructor].
  - destruct (get_ufo_master _ _ _ _ _ _ _ _) as [[u st1]|] eqn:E; [|discriminate]. cbn [rthen fst snd] in H.
    destruct (ufo_masters _ _ _ _ _ _ _ _ _) as [us1|] eqn:E2; [|discriminate]. cbn [rmap] in H. apply Ok_inj in H. subst us.
    destruct (IH _ _ _ B E2) as (outs & st' & Eo & F). unfold get_ufo_master in E. destruct (get_master_kerning _ _) as [k|]; [|discriminate]. cbn [rthen] in E.
    destruct (get_master_info _ _ _ _ _) as [i|]; [|discriminate]. cbn [rthen] in E. destruct (font_guides _ _ _ _) as [gd|]; [|discriminate]. cbn [rthen] in E.
    destruct (export_all _ _ _ _ _ _ _) as [[[gs ks] st3]|] eqn:Ee; [|discriminate]. cbn [rmap fst snd] in E. apply Ok_inj in E. injection E as <- <-.
    destruct (all_export _ _ _ _ _ _ _ _ _ _ _ B Ee) as (out & Ea & Fa). exists (out :: outs), st'. split; [|constructor; assumption].
    cbn [export_masters]. rewrite Ea. cbn [rthen fst snd]. rewrite Eo. reflexivity.
Qed.

(** ** The commands *)
Lemma exported_mono : forall (P Q : Z -> tval -> Prop) zone stems i d, (forall n t, P n t -> Q n t) ->
  exported_command P zone stems i d -> exported_command Q zone stems i d.
Proof.
  intros P Q zone stems i d H (code & attrs & A & N & C & F & K). exists code, attrs. repeat (split; [assumption|]). split; [|assumption].
  eapply Forall_impl; [|exact F]. intros [k a]. cbn [fst snd]. destruct a; cbn [S_Tth.value]; auto. intros (n & l & X & Y & Z). exists n, l. auto.
Qed.
Lemma exported_stems : forall P zone (s s' : bool -> list pystr) i d, (forall h, s h = s' h) ->
  exported_command P zone s i d -> exported_command P zone s' i d.
Proof.
  intros P zone s s' i d H (code & attrs & A & N & C & F & K). exists code, attrs. repeat (split; [assumption|]). split; [|assumption].
  eapply Forall_impl; [|exact F]. intros [k a]. cbn [fst snd]. destruct a; cbn [S_Tth.value]; auto. now rewrite H.
Qed.
Definition is_label (order : list pystr) (name : pystr) (st : store) (i : Z) (t : tval) : Prop := exists label, t = TStr label /\ labelled st order name i label.
Lemma one_commands : forall f order t stems st0 st name z n is, (forall h, builder_stems t h = stems h) -> store_ok st -> extends st0 st ->
  points_of st0 order name n -> Forall (instruction_fine stems n z) is ->
  exists ds st', export_commands store (builder_label (S (S f)) order name) (own_zone z) (builder_stems t) st is = Ok (ds, st') /\
    store_ok st' /\ extends st st' /\ Forall2 (exported_command (is_label order name st') (zone_at z) stems) is ds.
Proof.
  intros f order t stems st0 st name z n is Es O X Pts Fi.
  destruct (export_commands_ok store (builder_label (S (S f)) order name) (own_zone z) (builder_stems t)
    (fun st => store_ok st /\ extends st0 st) extends (fun st i t => exists label, t = TStr label /\ labelled st order name i label)
    (fun k => 0 <= k < n + 2) (zone_at z) (fun a => extends_refl a) extends_trans) with (l := is) (st := st) as (ds & st' & Ed & [O' _] & X' & F).
  - intros a b k u _ _ Y (label & -> & H). exists label. split; [reflexivity|]. eapply labelled_ext; eauto.
  - intros a k code (Oa & Xa) R C.
    assert (G : good_request a order (Request name k code 1)).
    { split; [|split; [exact C|cbn; lia]]. exists n. split; [|exact R]. eapply points_ext; eauto. }
    destruct (get_point_label_ok f order a _ Oa G) as (lab & a' & Ea & Oa' & Xa' & La). cbn [rq_glyph rq_index rq_code rq_start] in *.
    exists (TStr lab), a'. unfold builder_label. rewrite Ea. split; [reflexivity|]. split; [split; [assumption|eapply extends_trans; eauto]|]. split; [assumption|eauto].
  - split; assumption.
  - eapply Forall_impl; [|exact Fi]. intros i H. exact (proj1 H).
  - eapply Forall_impl; [|exact Fi]. intros i (Oi & Rp & Rz & Rs). split; [exact Rp|]. split.
    + intros k top Pk Et. destruct (Rz k top Pk Et) as (nm & Hz). exists nm. split; [|exact Hz]. destruct Hz as (K0 & tp & bt & -> & Hn). unfold own_zone.
      replace k with (Z.of_nat (Z.to_nat k)) by lia. rewrite (P_Glyph.py_index_nth _ _ _ []) by (apply nth_error_Some; congruence). f_equal. now apply nth_error_nth.
    + intros k Pk K0. rewrite Es. exact (Rs k (is_one (in_cmd i) [py "SingleLinkH"; py "DoubleLinkH"]) Pk K0 (stem_command _ _ Oi Pk)).
  - exists ds, st'. split; [exact Ed|]. split; [exact O'|]. split; [exact X'|].
    eapply Prop_Tth.Forall2_mono; [|exact F]. intros i d H. eapply exported_stems; [exact Es|exact H].
Qed.
Lemma lib_commands : forall o f order t stems st0 l st commands st', op_fuel o = S (S f) -> (forall h, builder_stems t h = stems h) -> store_ok st -> extends st0 st ->
  (forall name g x z is, In (name, g) l -> bg_data g = VGlyph x z -> mg_tth x = Some is -> exists n, points_of st0 order name n /\ Forall (instruction_fine stems n z) is) ->
  tt_glyph_lib o order t l st = Ok (commands, st') ->
  store_ok st' /\ extends st st' /\
  (forall name ds, aget str_eqb name commands = Some ds -> exists g x z is, In (name, g) l /\ bg_data g = VGlyph x z /\ mg_tth x = Some is /\
     Forall2 (exported_command (is_label order name st') (zone_at z) stems) is ds) /\
  (forall name g x z is, In (name, g) l -> bg_data g = VGlyph x z -> mg_tth x = Some is -> aget str_eqb name commands <> None).
Proof.
  intros o f order t stems st0 l. induction l as [|[name g] l IH]; intros st commands st' Ef Es O X W H; cbn [tt_glyph_lib] in H.
  - apply Ok_inj in H. injection H as <- <-. split; [exact O|]. split; [apply extends_refl|]. split; [discriminate|]. intros name g x z is [].
  - assert (W' : forall name g x z is, In (name, g) l -> bg_data g = VGlyph x z -> mg_tth x = Some is -> exists n, points_of st0 order name n /\ Forall (instruction_fine stems n z) is).
    { intros ? ? ? ? ? I. eapply W. right. exact I. }
    assert (Skip : forall st1, store_ok st1 -> extends st0 st1 -> (forall x z, bg_data g = VGlyph x z -> mg_tth x = None) -> tt_glyph_lib o order t l st1 = Ok (commands, st') ->
      store_ok st' /\ extends st1 st' /\
      (forall name' ds, aget str_eqb name' commands = Some ds -> exists g' x z is, In (name', g') ((name, g) :: l) /\ bg_data g' = VGlyph x z /\ mg_tth x = Some is /\
         Forall2 (exported_command (is_label order name' st') (zone_at z) stems) is ds) /\
      (forall name' g' x z is, In (name', g') ((name, g) :: l) -> bg_data g' = VGlyph x z -> mg_tth x = Some is -> aget str_eqb name' commands <> None)).
    { intros st1 O1 X1 No R. destruct (IH _ _ _ Ef Es O1 X1 W' R) as (A & B & C & D). split; [exact A|]. split; [exact B|]. split.
      - intros name' ds K. destruct (C name' ds K) as (g' & x & z & is & I & Y). exists g', x, z, is. split; [now right|exact Y].
      - intros name' g' x z is [I|I] E1 E2; [injection I as <- <-; rewrite (No _ _ E1) in E2; discriminate|]. eapply D; eauto. }
    destruct (bg_data g) as [x z|d] eqn:Ed; [|apply Skip; [exact O|exact X|discriminate|exact H]].
    destruct (mg_tth x) as [is|] eqn:Et; [|apply Skip; [exact O|exact X|intros ? ? E; injection E as <- _; exact Et|exact H]]. clear Skip.
    destruct (W name g x z is (or_introl eq_refl) Ed Et) as (n & Pn & Fi). rewrite Ef in H.
    destruct (one_commands f order t stems st0 st name z n is Es O X Pn Fi) as (ds & st1 & E1 & O1 & X1 & F1). rewrite E1 in H. cbn [rthen fst snd] in H.
    destruct (tt_glyph_lib o order t l st1) as [[cs st2]|] eqn:E2; [|discriminate]. cbn [rmap fst snd] in H. apply Ok_inj in H. injection H as <- <-.
    destruct (IH _ _ _ Ef Es O1 (extends_trans _ _ _ X X1) W' E2) as (A & B & C & D). split; [exact A|]. split; [eapply extends_trans; eauto|]. split.
    + intros name' ds' K. cbn [aget] in K. destruct (str_eqb name' name) eqn:En.
      * apply str_eqb_eq in En. subst name'. injection K as <-. exists g, x, z, is. split; [now left|]. split; [exact Ed|]. split; [exact Et|].
        eapply Prop_Tth.Forall2_mono; [|exact F1]. intros i d. apply exported_mono. intros k u (lb & -> & L). exists lb. split; [reflexivity|]. eapply labelled_ext; eauto.
      * destruct (C name' ds' K) as (g' & x' & z' & is' & I & Y). exists g', x', z', is'. split; [now right|exact Y].
    + intros name' g' x' z' is' [I|I] E3 E4; cbn [aget]; destruct (str_eqb name' name) eqn:En; try discriminate.
      * injection I as <- <-. rewrite str_eqb_refl in En. discriminate.
      * eapply D; eauto.
Qed.

(** ** The store of labels *)
Definition entry_of (b : bz) : glyph := fst (fst b).
Lemma forall2_nth : forall A B (R : A -> B -> Prop) l l', Forall2 R l l' -> forall k a, nth_error l k = Some a -> exists b, nth_error l' k = Some b /\ R a b.
Proof.
  intros A B R l l' F. induction F as [|a b l l' H F IH]; intros [|k] x Hx; cbn [nth_error] in *; try discriminate; [|eauto].
  injection Hx as <-. eauto.
Qed.
Lemma forall2_in : forall A B (R : A -> B -> Prop) l l', Forall2 R l l' -> forall b, In b l' -> exists k a, nth_error l k = Some a /\ nth_error l' k = Some b /\ R a b.
Proof.
  intros A B R l l' F. induction F as [|a b l l' H F IH]; intros x []; [subst|]; [exists 0%nat, a; auto|].
  destruct (IH x H0) as (k & a' & K). exists (S k), a'. exact K.
Qed.
Lemma nth_map_inv : forall A B (f : A -> B) l k b, nth_error (map f l) k = Some b -> exists a, nth_error l k = Some a /\ f a = b.
Proof. intros A B f l k b H. rewrite nth_error_map in H. destruct (nth_error l k); [|discriminate]. injection H as <-. eauto. Qed.
Section Store.
  Variables (c : settings) (l : list (Z * value)) (bs : list bz) (glyphs : list (pystr * bglyph gvalue)).
  Hypothesis B : Forall2 (built c) bs glyphs.
  Hypothesis E : map entry_of bs = glyph_entries l.
  Hypothesis N : map fst glyphs = names_of l.
  Hypothesis Nd : NoDup (names_of l).
  Lemma store_fresh : fresh_store (first_store glyphs).
  Proof.
    split.
    - unfold first_store. rewrite map_map, (map_ext _ fst) by reflexivity. rewrite N. exact Nd.
    - unfold first_store. apply Forall_forall. intros p I. apply in_map_iff in I. destruct I as ([n g] & <- & _). cbn [snd].
      destruct (bg_data g); cbn [lg_labels lg_points lg_nodes]; repeat split; lia.
  Qed.
  Definition fits (st : store) (name : pystr) (y : glyph) : Prop :=
    exists x, In (name, x) st /\ lg_components x = map M_Glyph.co_gid (components_of y) /\ lg_nodes x = Z.of_nat (List.length (nodes_of y)).
  Lemma fits_ext : forall st st' name y, extends st st' -> fits st name y -> fits st' name y.
  Proof. intros st st' name y X (x & I & C & L). destruct (X _ _ I) as (x' & I' & C' & L' & _). exists x'. split; [exact I'|]. split; congruence. Qed.
  Lemma built_fits : forall b p, In p glyphs -> built c b p -> fits (first_store glyphs) (fst p) (entry_of b).
  Proof.
    intros b [name g] I (_ & x & D & Hn & Hc & _). cbn [fst snd] in *. eexists. split; [unfold first_store; apply in_map_iff; exists (name, g); split; [reflexivity|exact I]|].
    cbn [fst snd]. rewrite D. cbn [lg_components lg_nodes]. unfold entry_of. rewrite Hn, Hc. split; reflexivity.
  Qed.
  Lemma entry_there : forall k y, nth_error (glyph_entries l) k = Some y ->
    exists name, nth_error (names_of l) k = Some name /\ g_name y = Some name /\ fits (first_store glyphs) name y.
  Proof.
    intros k y H. rewrite <- E in H. apply nth_map_inv in H. destruct H as (b & Hb & <-). destruct (forall2_nth _ _ _ _ _ B _ _ Hb) as (p & Hp & Bp).
    exists (fst p). split; [rewrite <- N; rewrite nth_error_map, Hp; reflexivity|]. split; [exact (proj1 Bp)|]. apply built_fits; [eapply nth_error_In; eauto|exact Bp].
  Qed.
  Variable st : store.
  Hypothesis Ok_st : store_ok st.
  Hypothesis X : extends (first_store glyphs) st.
  Lemma part_simple : forall k y, part l k y -> exists name, g_name y = Some name /\ py_index (names_of l) (M_Glyph.co_gid k) = Ok name /\
    fits st name y /\ simple_glyph st name (Z.of_nat (List.length (nodes_of y))).
  Proof.
    intros k y (K0 & K & C). destruct (entry_there _ _ K) as (name & A1 & A2 & A3). exists name. split; [exact A2|]. split; [now apply P_Guides.py_index_some|].
    apply (fits_ext _ _ _ _ X) in A3. split; [exact A3|]. destruct A3 as (x & I & Cx & L). exists x. rewrite C in Cx. split; [exact I|]. split; [exact Cx|exact L].
  Qed.
  Definition named_part (y : glyph) (q : pystr * Z) : Prop := g_name y = Some (fst q) /\ snd q = Z.of_nat (List.length (nodes_of y)) /\ components_of y = [].
  Lemma parts_there : forall ks ys, Forall2 (part l) ks ys -> exists qs, Forall2 named_part ys qs /\ total qs = count_nodes ys /\
    Forall2 (fun gid q => py_index (names_of l) gid = Ok (fst q) /\ simple_glyph st (fst q) (snd q)) (map M_Glyph.co_gid ks) qs.
  Proof.
    intros ks ys F. induction F as [|k y ks ys H F (qs & I1 & I2 & I3)]; [exists []; repeat split; constructor|].
    destruct (part_simple k y H) as (name & A1 & A2 & A3 & A4). exists ((name, Z.of_nat (List.length (nodes_of y))) :: qs).
    split; [constructor; [|exact I1]; split; [exact A1|]; split; [reflexivity|exact (proj2 (proj2 H))]|].
    split; [rewrite total_cons; unfold count_nodes in *; cbn [fold_right snd]; lia|]. cbn [map]. constructor; [|exact I3]. split; assumption.
  Qed.
  Lemma points_there : forall name y n, fits st name y -> point_count l y n -> points_of st (names_of l) name n.
  Proof.
    intros name y n (x & I & C & L) P. unfold point_count in P. destruct (components_of y) as [|k ks] eqn:Ec.
    - left. exists x. split; [exact I|]. split; [exact C|congruence].
    - right. destruct P as (ys & F & ->). destruct (parts_there _ _ F) as (qs & F1 & T & F2). exists qs. split; [|congruence]. split.
      + intros ->. inversion F2.
      + exists x. split; [exact I|]. rewrite C. exact F2.
  Qed.

  (** what a label names *)
  Definition shows (m : nat) (u : ufo) : Prop :=
    forall k y name g, nth_error (glyph_entries l) k = Some y -> nth_error (uf_glyphs u) k = Some (name, g) -> g_name y = Some name /\
      forall x gs, In (name, x) st -> contours_of (nodes_of y) gs -> Forall (node_ok m) (nodes_of y) /\ og_contours g = fst (flush_all m (labels_of x) 0 gs []).
  Lemma own_shown : forall m u k y name g i label, shows m u -> nth_error (glyph_entries l) k = Some y -> nth_error (uf_glyphs u) k = Some (name, g) ->
    stored st name i label -> 0 <= i < Z.of_nat (List.length (nodes_of y)) -> own_point m (nodes_of y) (og_contours g) i label.
  Proof.
    intros m u k y name g i label S Hy Hg (x & I & J) R. split; [exact R|]. intros gs C. destruct (S _ _ _ _ Hy Hg) as (_ & Sx).
    destruct (Sx x gs I C) as (No & ->). apply (node_point m (labels_of x) (nodes_of y) gs i label No C R).
    unfold labels_of. apply (In_aget Z.eqb zeqb_eq); [|exact J]. destruct Ok_st as [_ O]. now destruct (O _ _ I) as (_ & _ & K & _).
  Qed.
  Lemma named_split : forall ys qs before q after, Forall2 named_part ys qs -> qs = before ++ q :: after ->
    exists yb y ya, ys = yb ++ y :: ya /\ count_nodes yb = total before /\ List.length yb = List.length before /\ named_part y q.
  Proof.
    intros ys qs before q after F Eq. subst qs. revert ys F. induction before as [|p before IH]; intros ys F; cbn [app] in F; inversion F as [|y ? ys' ? H1 H2]; subst.
    - exists [], y, ys'. repeat split; try reflexivity; apply H1.
    - destruct (IH ys' H2) as (yb & y' & ya & -> & T & L & P). exists (y :: yb), y', ya. split; [reflexivity|]. split.
      + rewrite total_cons. unfold count_nodes in *. cbn [fold_right]. destruct H1 as (_ & H1 & _). lia.
      + split; [cbn; lia|exact P].
  Qed.
  Lemma label_shown : forall m u k x name g n i t, shows m u -> List.length (uf_glyphs u) = List.length (glyph_entries l) ->
    nth_error (glyph_entries l) k = Some x -> nth_error (uf_glyphs u) k = Some (name, g) -> point_count l x n ->
    is_label (names_of l) name st i t -> point_shown l m u x g i t.
  Proof.
    intros m u k x name g n i t S Lu Hx Hg P (label & -> & L). exists label. split; [reflexivity|].
    assert (Ft : fits st name x).
    { destruct (entry_there _ _ Hx) as (nm & _ & A & F). destruct (S _ _ _ _ Hx Hg) as (A' & _). apply (fits_ext _ _ _ _ X).
      assert (nm = name) by congruence. subst nm. exact F. }
    pose proof (points_there name x n Ft P) as Pt.
    inversion L as [n' ? ? G R St|before q n' after j lb K R St|n' P'|n' P']; subst.
    - left. destruct Ft as (y & I & C & Ln). destruct G as (y' & I' & C' & Ln'). assert (y' = y) by (eapply glyph_unique; eauto). subst y'.
      split; [rewrite C' in C; destruct (components_of x); [reflexivity|discriminate]|]. eapply own_shown; eauto. lia.
    - right. left. unfold point_count in P. destruct (components_of x) as [|k0 ks] eqn:Ec.
      { exfalso. destruct Ft as (y & I & C & Ln). rewrite Ec in C. apply (simple_not_composite st (names_of l) Ok_st name (lg_nodes y) _ ) in K; [exact K|].
        exists y. split; [exact I|]. split; [exact C|reflexivity]. }
      destruct P as (ys & F & ->). destruct (parts_there _ _ F) as (qs & F1 & T & F2).
      assert (Eq : qs = before ++ (q, n') :: after).
      { apply (parts_unique st (names_of l) Ok_st name); [|exact K]. split; [intros ->; inversion F2|]. destruct Ft as (y & I & C & Ln). exists y. split; [exact I|].
        rewrite C, Ec. exact F2. }
      destruct (named_split _ _ _ _ _ F1 Eq) as (yb & y & ya & -> & T' & L' & (Ny & Ly & Cy)). cbn [fst snd] in *.
      assert (Hp : exists k', nth_error (glyph_entries l) k' = Some y).
      { apply Forall2_app_inv_r in F. destruct F as (k1 & k2 & _ & F & _). inversion F as [|a ? ? ? (_ & H & _) _]; subst. eauto. }
      destruct Hp as (k' & Hy). destruct (nth_error (uf_glyphs u) k') as [[name' gy]|] eqn:Hgy.
      2:{ apply nth_error_None in Hgy. assert (k' < List.length (glyph_entries l))%nat by (apply nth_error_Some; congruence). lia. }
      destruct (S _ _ _ _ Hy Hgy) as (Ny' & _). rewrite Ny in Ny'. injection Ny' as <-.
      exists yb, y, ya, j, q, gy, lb. split; [exact F|]. split; [congruence|]. split; [exact Ny|]. split; [eapply nth_error_In; eauto|]. split; [|now rewrite L'].
      eapply own_shown; eauto. lia.
    - right. right. exists n. split; [exact P|]. left. split; [|reflexivity]. eapply points_unique; eauto.
    - right. right. exists n. split; [exact P|]. right. split; [|reflexivity]. f_equal. eapply points_unique; eauto.
  Qed.
End Store.
