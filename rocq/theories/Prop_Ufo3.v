(** C89 and C90: hinting in the UFOs, from the entries of a VFB. *)
From Coq Require Import String QArith Lia ZifyBool ZifyNat.
From Verif Require Import S_Tth.
From Verif Require Import Base Lib M_Py M_Helpers M_Simple M_Text M_TrueType M_Bitmap M_Glyph M_Options M_Container M_Table M_Groups.
From Verif Require Import M_Info M_FontInfo M_Tth M_Programs M_Builder M_Master M_Features M_Designspace M_Build M_Labels M_PsHints.
From Verif Require Import M_Paths M_Guides M_Export M_Ufo S_Build S_Paths S_Guides S_Ufo S_Builder S_Labels S_PsHints S_Export S_Hinting.
From Verif Require Import P_Glyph P_Build P_Labels P_Paths P_Export P_Tth P_Names P_Ufo P_Ufo2 P_Ufo3 P_Base64.
From Verif Require Import Prop_Tth Prop_Build Prop_Export Prop_Ufo Prop_Ufo2.
Local Open Scope list_scope.
Local Open Scope Z_scope.

Lemma finalize_some : forall b t r, finalize_tth b (Some t) = Ok r -> exists d, r = Some d /\ encoded b t d.
Proof.
  intros b t r H. cbn [finalize_tth] in H. unfold encoded. destruct b; [|apply Ok_inj in H; subst; eauto].
  destruct (forallb _ t) eqn:A; [|discriminate]. apply Ok_inj in H. subst. eexists. split; [reflexivity|].
  assert (F : Forall (fun c => c < 128) t). { apply Forall_forall. intros x I. rewrite forallb_forall in A. specialize (A x I). lia. }
  split; [exact F|]. eexists. split; [reflexivity|]. intros G. apply b64encode_ok. rewrite Forall_forall in *. intros x I. specialize (F x I). specialize (G x I). cbv beta in *. lia.
Qed.
Lemma combine_nth : forall A B (a : list A) (b : list B) k x y, nth_error a k = Some x -> nth_error b k = Some y -> nth_error (combine a b) k = Some (x, y).
Proof.
  intros A B. induction a as [|a0 a IH]; intros [|b0 b] [|k] x y Hx Hy; cbn [nth_error combine] in *; try discriminate; [|eauto]. congruence.
Qed.
Lemma hinting : forall c o es ufos, Forall typed es -> vfb_to_ufos c o es = Ok ufos ->
  let l := used (st_vfb_minimal c) es in good_glyphs l -> (2 <= op_fuel o)%nat ->
  hints_fine (st_ps_hints c) l -> commands_fine l ->
  exists st, store_ok st /\ forall m u, nth_error ufos m = Some u ->
    shows l st m u /\ List.length (uf_glyphs u) = List.length (glyph_entries l) /\
    forall k b z name g, nth_error (glyph_blocks l) k = Some b -> nth_error (glyph_zones None l) k = Some z -> nth_error (uf_glyphs u) k = Some (name, g) ->
      commands_shown o l m u (fst b) z g /\ (exists x, In (name, x) st) /\
      exists hs, gl_hints (og_lib g) = match hs with [] => None | _ => Some hs end /\
        hinted (st_ps_hints c) st m name (hinted_entry (st_ps_hints c) b) hs.
Proof.
  intros c o es ufos T H l (G1 & G2 & G3 & G4 & G5) Hf HF CF. pose proof (C86_masters c o es ufos T H) as Cm. fold l in Cm.
  unfold vfb_to_ufos in H. destruct (build_font c es) as [s|] eqn:Bu; [|discriminate]. cbn [rthen] in H.
  destruct (glyphs_of_file c es s T Bu G1 G2 G3 G4 G5) as (N & O & F & Z). fold l in N, O, F, Z. fold (names_of l) in N, O.
  assert (Ne : flat_map name_of (map fst (glyph_blocks l)) = map fst (bs_glyphs (fo_glyphs s))) by (rewrite blocks_entries; symmetry; exact N).
  destruct (built_all c _ _ _ Ne F Z) as [Lz B]. set (bs := combine (glyph_blocks l) (glyph_zones None l)) in B. clear F Z Ne.
  assert (Eb : map entry_of bs = glyph_entries l).
  { unfold bs. rewrite <- blocks_entries. transitivity (map fst (map fst (combine (glyph_blocks l) (glyph_zones None l)))); [now rewrite map_map|]. now rewrite map_fst_combine. }
  unfold get_ufo_masters in H. destruct (tt_glyph_lib _ _ _ _ _) as [[commands st1]|] eqn:Et; [|discriminate]. cbn [rthen fst snd] in H.
  destruct (transform_groups _ _ _ _) as [tg|]; [|discriminate]. cbn [rthen] in H. destruct (export_shared _ _ _ _ _ _ _ _) as [sh|]; [|discriminate]. cbn [rthen] in H.
  set (glyphs := bs_glyphs (fo_glyphs s)) in *. rewrite O in Et.
  pose proof (store_fresh l glyphs N G3) as Fr. pose proof (fresh_ok _ Fr) as Ok0.
  assert (Es : forall h, builder_stems (fo_tt s) h = stem_names l h).
  { intros h. pose proof (C85_parts c es s T Bu) as M. fold l in M. pose proof (from_hinting _ _ _ M) as K. unfold tt_build in K.
    rewrite (stems_said _ _ _ K h). destruct h; reflexivity. }
  destruct (op_fuel o) as [|[|f]] eqn:Ef; [lia|lia|].
  destruct (lib_commands o f (names_of l) (fo_tt s) (stem_names l) (first_store glyphs) (sorted_glyphs glyphs) (first_store glyphs) commands st1 Ef Es Ok0 (extends_refl _)) as (O1 & X1 & C1 & D1).
  { intros name g x z is I D Ht. apply (proj1 (sorted_in _ _)) in I. destruct (forall2_in _ _ _ _ _ B _ I) as (k & b & Kb & Kp & Bp). pose proof Bp as (Nb & x' & D' & Hn & Hc & Hh & _).
    cbn [fst snd] in *. rewrite D in D'. injection D' as <- Ez.
    assert (Ky : nth_error (glyph_entries l) k = Some (entry_of b)) by (rewrite <- Eb, nth_error_map, Kb; reflexivity).
    assert (Kz : nth_error (glyph_zones None l) k = Some (snd b)).
    { rewrite <- (map_snd_combine _ _ (glyph_blocks l) (glyph_zones None l)) by congruence. fold bs. rewrite nth_error_map, Kb. reflexivity. }
    destruct (forall2_nth _ _ _ _ _ CF _ _ Ky) as (z' & Kz' & W). rewrite Kz in Kz'. injection Kz' as <-.
    rewrite Ht in Hh. symmetry in Hh. destruct (W is Hh) as (n & P & Fi). exists n. split; [|now rewrite Ez].
    apply (points_there c l bs glyphs B Eb N (first_store glyphs) (extends_refl _) name (entry_of b)); [|exact P].
    apply (built_fits c glyphs b (name, g)); [eapply nth_error_In; eauto|exact Bp]. }
  { exact Et. }
  assert (SF : simple_font st1 (List.length (bs_masters (fo_glyphs s))) (font_of c bs)).
  { assert (Nf : map fst (font_of c bs) = names_of l).
    { unfold font_of. rewrite map_map. cbn [fst]. unfold names_of. rewrite <- Eb. clear - B. induction B as [|b p bs0 gs0 B1 B2 IH]; [reflexivity|].
      cbn [map flat_map]. rewrite IH. unfold entry_of at 2, name_of at 2. destruct B1 as (-> & _). reflexivity. }
    split; [rewrite Nf; exact G3|]. unfold font_of. rewrite Forall_map. cbn [fst snd]. apply Forall_forall. intros b Ib.
    apply In_nth_error in Ib. destruct Ib as (k & Kb). destruct (forall2_nth _ _ _ _ _ B _ _ Kb) as (p & Kp & Bp).
    assert (Ft : fits st1 (fst p) (entry_of b)) by (eapply fits_ext; [exact X1|eapply built_fits; [eapply nth_error_In; eauto|exact Bp]]).
    destruct Bp as (Nb & x & _). rewrite Nb.
    assert (Kbl : nth_error (glyph_blocks l) k = Some (fst b)).
    { rewrite <- (map_fst_combine _ _ (glyph_blocks l) (glyph_zones None l)) by congruence. fold bs. rewrite nth_error_map, Kb. reflexivity. }
    unfold hints_fine in HF. rewrite Forall_forall in HF. destruct (HF _ (nth_error_In _ _ Kbl)) as (Hg & Hm & Hk).
    assert (Hn : eg_nodes (hinted_entry (st_ps_hints c) (fst b)) = nodes_of (fst (fst b))) by (unfold hinted_entry; destruct (st_ps_hints c); reflexivity).
    split; [destruct Ft as (y & I & _); eauto|]. rewrite Hn. split; [exact Hg|]. split.
    - destruct Hm as [Hm|(Hc & Hm)]; [now left|right]. split; [|exact Hm]. destruct Ft as (y & I & C & L). exists y. unfold entry_of in C, L. rewrite Hc in C. auto.
    - intros m Lm. apply Hk. apply masters_nth with (m := 0%nat) in H. destruct H as [H _]. lia. }
  assert (Lu : List.length ufos = List.length (bs_masters (fo_glyphs s))) by (apply masters_nth with (m := 0%nat) in H; exact (proj1 H)).
  destruct (masters_export _ _ _ _ _ _ _ _ _ _ _ B H) as (outs & st & Eo & Fo). rewrite Ef, O in Eo.
  destruct (masters_ok f (names_of l) (st_ps_hints c) (font_of c bs) _ st1 O1 SF) as (outs' & st' & Eo' & Lo & Ok_st & X2 & R). rewrite Eo in Eo'. apply Ok_inj in Eo'. injection Eo' as <- <-.
  exists st. split; [exact Ok_st|]. intros m u Hu. destruct (forall2_nth _ _ _ _ _ Fo _ _ Hu) as (out & Ho & Fq). pose proof (R m out Ho) as Fs.
  assert (Lm : (m < List.length (bs_masters (fo_glyphs s)))%nat) by (rewrite <- Lu; apply nth_error_Some; congruence).
  assert (Pos : forall k b name g, nth_error bs k = Some b -> nth_error (uf_glyphs u) k = Some (name, g) ->
    exists w, same_out o commands (name, g) w /\ g_name (entry_of b) = Some name /\ shown (st_ps_hints c) st m (name, hinted_entry (st_ps_hints c) (fst b)) w).
  { intros k b name g Kb Kg. destruct (forall2_nth _ _ _ _ _ Fq _ _ Kg) as (w & Kw & Sw). exists w. split; [exact Sw|].
    destruct (forall2_nth _ _ _ _ _ Fs k (match g_name (fst (fst b)) with Some n => n | None => [] end, hinted_entry (st_ps_hints c) (fst b))) as (w' & Kw' & Sh).
    { unfold font_of. rewrite nth_error_map, Kb. reflexivity. }
    rewrite Kw in Kw'. injection Kw' as <-. destruct (forall2_nth _ _ _ _ _ B _ _ Kb) as (p & _ & (Nb & _)). unfold entry_of. rewrite Nb in Sh |- *.
    assert (fst p = name) by (destruct Sw as (S1 & _); destruct Sh as (S2 & _); cbn [fst] in *; congruence). subst name. split; [reflexivity|exact Sh]. }
  assert (Len : List.length (uf_glyphs u) = List.length (glyph_entries l)).
  { rewrite <- Eb, map_length. rewrite (forall2_len _ _ _ _ _ Fq), <- (forall2_len _ _ _ _ _ Fs). unfold font_of. now rewrite map_length. }
  assert (Sh : shows l st m u).
  { intros k y name g Hy Hg. rewrite <- Eb in Hy. destruct (nth_map_inv _ _ _ _ _ _ Hy) as (b & Kb & <-). destruct (Pos k b name g Kb Hg) as (w & (S1 & S2 & _) & Nb & (T1 & T2 & _)).
    split; [exact Nb|]. cbn [fst snd] in *. intros x gs I C.
    assert (Hn : eg_nodes (hinted_entry (st_ps_hints c) (fst b)) = nodes_of (entry_of b)) by (unfold hinted_entry; destruct (st_ps_hints c); reflexivity).
    rewrite Hn in T2. rewrite S2. split; [|exact (proj1 (T2 x gs I C))].
    destruct SF as [_ SF]. rewrite Forall_forall in SF. assert (Ifo : In (match g_name (fst (fst b)) with Some n => n | None => [] end, hinted_entry (st_ps_hints c) (fst b)) (font_of c bs)).
    { unfold font_of. apply in_map_iff. exists b. split; [reflexivity|eapply nth_error_In; eauto]. }
    destruct (SF _ Ifo) as (_ & _ & _ & K). destruct (K m Lm) as (K1 & _). cbn [snd] in K1. now rewrite Hn in K1. }
  split; [exact Sh|]. split; [exact Len|]. intros k b z name g Hb Hz Hg. pose proof (combine_nth _ _ _ _ _ _ _ Hb Hz) as Kb. fold bs in Kb.
  destruct (Pos k _ name g Kb Hg) as (w & (S1 & S2 & S3 & tt & S4 & S5) & Nb & (T1 & T2 & _ & T3)). cbn [fst snd] in *.
  destruct (forall2_nth _ _ _ _ _ B _ _ Kb) as (p & Kp & Bp). pose proof Bp as (Np & x & D & _ & _ & Ht & _). cbn [fst snd] in *.
  unfold entry_of in Nb. cbn [fst] in Nb. rewrite Nb in Np. injection Np as Np.
  assert (Hy : nth_error (glyph_entries l) k = Some (fst b)) by (rewrite <- Eb, nth_error_map, Kb; reflexivity).
  assert (Ip : In (name, snd p) glyphs) by (rewrite Np; destruct p; eapply nth_error_In; exact Kp).
  assert (Cmd : forall ds, aget str_eqb name commands = Some ds -> exists is, g_tth (fst b) = Some is /\
    Forall2 (exported_command (point_shown l m u (fst b) g) (zone_at z) (stem_names l)) is ds).
  { intros ds A. destruct (C1 name ds A) as (g' & x' & z' & is & I & D' & Ht' & Fd). apply (proj1 (sorted_in _ _)) in I.
    assert (g' = snd p) by (eapply key_unique; [|exact I|exact Ip]; rewrite N; exact G3). subst g'. rewrite D in D'. injection D' as <- <-.
    exists is. rewrite Ht in Ht'. split; [exact Ht'|]. destruct (forall2_nth _ _ _ _ _ CF _ _ Hy) as (z' & Kz' & W). rewrite Hz in Kz'. injection Kz' as <-.
    destruct (W is Ht') as (n & P & _). eapply Prop_Tth.Forall2_mono; [|exact Fd]. intros i d. apply exported_mono. intros j t Lb.
    assert (Lb' : is_label (names_of l) name st j t).
    { destruct Lb as (lb & -> & Lb). exists lb. split; [reflexivity|]. eapply labelled_ext; eauto. }
    eapply (label_shown c l bs glyphs B Eb N st Ok_st (extends_trans _ _ _ X1 X2)); eauto. }
  assert (There : exists y, In (name, y) st).
  { assert (Ft : fits st (fst p) (fst b)).
    { eapply fits_ext; [eapply extends_trans; [exact X1|exact X2]|]. apply (built_fits c glyphs (b, z) p); [eapply nth_error_In; exact Kp|exact Bp]. }
    destruct Ft as (y & I & _). rewrite Np. eauto. }
  split; [|split; [exact There|]].
  - unfold commands_shown. destruct (aget str_eqb name commands) as [ds|] eqn:A.
    + destruct (Cmd ds eq_refl) as (is & -> & Fd). destruct is as [|i is].
      * inversion Fd; subst. cbn in S4. apply Ok_inj in S4. subst tt. cbn in S5. apply Ok_inj in S5. congruence.
      * assert (Hc : Forall has_code ds).
        { clear - Fd. induction Fd; constructor; auto. eapply C63_codes; eauto. }
        destruct (C63_exists ds Hc) as [(-> & _)|(_ & text & Ex)]; [inversion Fd|]. rewrite S4 in Ex. apply Ok_inj in Ex. subst tt. apply finalize_some in S5. destruct S5 as (dt & S5 & En).
        exists ds, text. split; [exact Fd|]. split; [exact S4|]. exists dt. split; [congruence|exact En].
    + assert (Hnone : g_tth (fst b) = None).
      { destruct (g_tth (fst b)) as [is|] eqn:Hh; [|reflexivity]. exfalso. apply (D1 name (snd p) x z is); [apply (proj2 (sorted_in _ _)); exact Ip|exact D|congruence|exact A]. }
      rewrite Hnone. cbn in S4. apply Ok_inj in S4. subst tt. cbn in S5. apply Ok_inj in S5. congruence.
  - exists (ex_hints (snd w)). split; [rewrite S3; now destruct (ex_hints (snd w))|exact T3].
Qed.

Section Hinting.
  Variables (c : settings) (o : options) (es : list (Z * option value)) (ufos : list ufo).
  Hypothesis typed_es : Forall typed es.
  Hypothesis exported_es : vfb_to_ufos c o es = Ok ufos.
  Let l := used (st_vfb_minimal c) es.
  Hypothesis glyphs_good : good_glyphs l.
  Hypothesis fuel_enough : (2 <= op_fuel o)%nat.
  Hypothesis hints_good : hints_fine (st_ps_hints c) l.
  Hypothesis commands_good : commands_fine l.

  Lemma same_places : List.length (glyph_blocks l) = List.length (glyph_entries l) /\ List.length (glyph_zones None l) = List.length (glyph_entries l).
  Proof.
    split; [rewrite <- blocks_entries; now rewrite map_length|]. unfold commands_fine in commands_good. symmetry. exact (forall2_len _ _ _ _ _ commands_good).
  Qed.
  Lemma place : forall k x, nth_error (glyph_entries l) k = Some x -> exists details z, nth_error (glyph_blocks l) k = Some (x, details) /\ nth_error (glyph_zones None l) k = Some z.
  Proof.
    intros k x H. assert (Lk : (k < List.length (glyph_entries l))%nat) by (apply nth_error_Some; congruence). destruct same_places as [L1 L2].
    pose proof H as H'. rewrite <- blocks_entries in H'. destruct (nth_map_inv _ _ _ _ _ _ H') as ([x' D] & Hb & E). cbn [fst] in E. subst x'.
    destruct (nth_error (glyph_zones None l) k) as [z|] eqn:Hz; [|apply nth_error_None in Hz; lia]. exists D, z. auto.
  Qed.

  (** C89. In every UFO the TrueType commands of a glyph are those of the file. What they call a point is the name of
      that point in the UFO, or of a point of a component, with the number of the component; they have the names of the
      zones in force at the glyph and of the stems of the font. *)
  Theorem C89_commands : forall m u k x z name g, nth_error ufos m = Some u ->
    nth_error (glyph_entries l) k = Some x -> nth_error (glyph_zones None l) k = Some z -> nth_error (uf_glyphs u) k = Some (name, g) ->
    commands_shown o l m u x z g.
  Proof.
    intros m u k x z name g Hu Hx Hz Hg. destruct (hinting c o es ufos typed_es exported_es glyphs_good fuel_enough hints_good commands_good) as (st & _ & R).
    destruct (R m u Hu) as (_ & _ & R'). destruct (place k x Hx) as (D & z' & Hb & _). exact (proj1 (R' k (x, D) z name g Hb Hz Hg)).
  Qed.
  (** Different points of a glyph have different names. *)
  Theorem C89_names : forall u name g, In u ufos -> In (name, g) (uf_glyphs u) -> NoDup (point_names g).
  Proof.
    intros u name g Iu Ig. apply In_nth_error in Iu, Ig. destruct Iu as (m & Hu), Ig as (k & Hg).
    destruct (hinting c o es ufos typed_es exported_es glyphs_good fuel_enough hints_good commands_good) as (st & [Nd Ok_st] & R).
    destruct (R m u Hu) as (Sh & Len & R'). fold l in Len, Sh, R'.
    destruct (nth_error (glyph_entries l) k) as [x|] eqn:Hx.
    2:{ apply nth_error_None in Hx. assert (k < List.length (uf_glyphs u))%nat by (apply nth_error_Some; congruence). lia. }
    destruct (place k x Hx) as (D & z & Hb & Hz). destruct (R' k (x, D) z name g Hb Hz Hg) as (_ & (y & Iy) & _).
    unfold hints_fine in hints_good. rewrite Forall_forall in hints_good. destruct (hints_good _ (nth_error_In _ _ Hb)) as ((gs & C) & _). cbn [fst] in C.
    destruct (Sh k x name g Hx Hg) as (_ & Sx). destruct (Sx y gs Iy C) as (_ & E). unfold point_names. rewrite E.
    apply (names_distinct m (labels_of y) gs 0 []); [exact (proj2 C)|]. intros i j n Hi Hj. unfold labels_of in *.
    apply (aget_In Z.eqb zeqb_eq) in Hi, Hj. destruct (Ok_st _ _ Iy) as (_ & N & _ & P & _). apply P in Hi, Hj. eapply key_unique; eauto.
  Qed.

  (** C90. A glyph has the same number of contours in all UFOs, and a contour is compatible in two UFOs, points with
      types, flags and names, if and only if it ends at its start in both masters or in none. Else even the numbers of
      points differ. *)
  Theorem C90_compatible : forall m m' u u' k x gs name g name' g', nth_error ufos m = Some u -> nth_error ufos m' = Some u' ->
    nth_error (glyph_entries l) k = Some x -> contours_of (nodes_of x) gs ->
    nth_error (uf_glyphs u) k = Some (name, g) -> nth_error (uf_glyphs u') k = Some (name', g') ->
    name = name' /\ List.length (og_contours g) = List.length gs /\ List.length (og_contours g') = List.length gs /\
    forall q nodes a b, nth_error gs q = Some nodes -> nth_error (og_contours g) q = Some a -> nth_error (og_contours g') q = Some b ->
      (compatible a b <-> (joined m nodes <-> joined m' nodes)) /\
      (List.length a = List.length b <-> (joined m nodes <-> joined m' nodes)).
  Proof.
    intros m m' u u' k x gs name g name' g' Hu Hu' Hx C Hg Hg'.
    destruct (hinting c o es ufos typed_es exported_es glyphs_good fuel_enough hints_good commands_good) as (st & _ & R).
    destruct (R m u Hu) as (Sh & _ & R1). destruct (R m' u' Hu') as (Sh' & _ & _). fold l in Sh, Sh', R1.
    destruct (place k x Hx) as (D & z & Hb & Hz). destruct (R1 k (x, D) z name g Hb Hz Hg) as (_ & (y & Iy) & _).
    destruct (Sh k x name g Hx Hg) as (N & Sx). destruct (Sh' k x name' g' Hx Hg') as (N' & Sx'). assert (name' = name) by congruence. subst name'.
    destruct (Sx y gs Iy C) as (No & E). destruct (Sx' y gs Iy C) as (No' & E'). destruct C as [Ec C]. rewrite <- Ec in No, No'. split; [reflexivity|].
    destruct (flush_all_nth m (labels_of y) gs 0 []) as [La Na]. destruct (flush_all_nth m' (labels_of y) gs 0 []) as [Lb Nb].
    rewrite E, E'. split; [exact La|]. split; [exact Lb|].
    intros q nodes a b Hq Ha Hb'. rewrite (Na q nodes Hq) in Ha. rewrite (Nb q nodes Hq) in Hb'. injection Ha as <-. injection Hb' as <-.
    apply group_compatible.
    - rewrite Forall_forall in C. apply C. eapply nth_error_In; eauto.
    - eapply forall_group; eauto.
    - eapply forall_group; eauto.
  Qed.
  (** The hint sets of a glyph are those of its hints, links and masks in that master. The point tag of every hint set is
      the name of a point of the glyph, unless this is the start of a contour that ends there. *)
  Theorem C90_hints : forall m u k b name g, nth_error ufos m = Some u -> nth_error (glyph_blocks l) k = Some b ->
    nth_error (uf_glyphs u) k = Some (name, g) ->
    if st_ps_hints c then
      exists sets, gl_hints (og_lib g) = match sets with [] => None | _ => Some sets end /\
        hints_said m (hinted_entry true b) (og_contours g) sets
    else gl_hints (og_lib g) = None.
  Proof.
    intros m u k b name g Hu Hb Hg.
    destruct (hinting c o es ufos typed_es exported_es glyphs_good fuel_enough hints_good commands_good) as (st & Ok_st & R).
    destruct (R m u Hu) as (Sh & _ & R1). fold l in Sh, R1.
    assert (Hx : nth_error (glyph_entries l) k = Some (fst b)) by (rewrite <- blocks_entries, nth_error_map, Hb; reflexivity).
    destruct (place k _ Hx) as (D & z & Hb' & Hz). clear D Hb'.
    destruct (R1 k b z name g Hb Hz Hg) as (_ & _ & hs & Eh & Hd). destruct (st_ps_hints c); [|cbn [hinted] in Hd; subst hs; exact Eh].
    exists hs. split; [exact Eh|]. destruct Hd as (h & v & MS & N & A & B). exists h, v. split; [exact MS|]. split; [exact N|].
    assert (P : forall node tag, 0 <= node < Z.of_nat (List.length (nodes_of (fst b))) -> stored st name node tag ->
      own_point m (nodes_of (fst b)) (og_contours g) node tag) by (intros node tag Rn St; eapply (own_shown l st Ok_st); eauto).
    split.
    - intros tag texts Ht. destruct (A _ _ Ht) as (node & stems & s & Hs & Rn & St & V). exists node, stems, s. split; [exact Hs|]. split; [now apply P|exact V].
    - intros node stems Hs. destruct (B _ _ Hs) as (Rn & tag & s & St & V). exists tag, s. split; [now apply P|exact V].
  Qed.
End Hinting.

(** A file with two masters: a glyph with hints and commands, whose contour ends at its start in the first master only,
    and a composite with commands. *)
Definition c89_nodes : list mm_node :=
  [c86_node Move 0 0 0 0; c86_node Line 300 700 320 700; c86_node Line 600 0 640 0;
   MMNode Curve 0 [[(0, 0); (400, -50); (200, -50)]; [(10, 0); (430, -60); (220, -60)]]].
Definition c89_zones : tt_zones := TTZones (Some [TTZone 700 10 (py "cap")]) (Some [TTZone 0 (-10) (py "base")]).
Definition c89_stem (r : list (Z * Z)) (first : bool) : tt_stem :=
  if first then TTStem None None (Some 0) r else TTStem (Some 80) (Some (py "stem")) None r.
Definition c89_entries : list (Z * option value) :=
  [(1024, Some (DStr (py "Test"))); (1255, Some (DZones c89_zones));
   (1268, Some (DStems (TTStems [c89_stem [(2, 20); (3, 30); (4, 40); (5, 50)] true] [])));
   (1269, Some (DStems (TTStems [c89_stem [(6, 60)] false] [])));
   (1503, Some (DInt 2)); (1513, Some (DInt 1));
   (1504, Some (DStr (py "Light"))); (1504, Some (DStr (py "Bold"))); (1536, Some (DPSInfo (c86_psinfo 750))); (1536, Some (DPSInfo (c86_psinfo 760)));
   (2001, Some (DGlyph (Glyph (Some (py "A")) (Some 2) (Some c89_nodes) (Some [(600, 0); (640, 0)])
      (Some (MMHints [[(0, 20); (0, 22)]; [(680, 20); (678, 22)]] [] (Some [(py "h", 0); (py "r", 1); (py "h", 1)]))) None None None None
      (Some [Instruction (py "AlignTop") [(py "pt", 1); (py "zone", 0)]; Instruction (py "AlignBottom") [(py "pt", 0); (py "zone", 0)];
             Instruction (py "SingleLinkV") [(py "pt1", 1); (py "pt2", 2); (py "stem", 0); (py "align", -1)];
             Instruction (py "AlignH") [(py "pt", 3); (py "align", 1)]]))));
   (1250, Some (DInts [65]));
   (2001, Some (DGlyph (Glyph (Some (py "Aacute")) (Some 2) (Some []) (Some [(600, 0); (640, 0)]) None None
      (Some [M_Glyph.Component 0 [0; 0] [0; 0] [0x3FF0000000000000; 0x3FF0000000000000] [0x3FF0000000000000; 0x3FF0000000000000]]) None None
      (Some [Instruction (py "MDeltaV") [(py "pt", 2); (py "shift", 8); (py "ppm1", 9); (py "ppm2", 12)];
             Instruction (py "AlignV") [(py "pt", 4); (py "align", 0)]]))));
   (1253, Some (DInts [193]))].
Example c89_typed : Forall typed c89_entries.
Proof.
  unfold c89_entries, typed. repeat constructor; cbn [fst snd]; intros I; exfalso; cbn [In] in I;
    repeat (destruct I as [I|I]; [discriminate I|]); exact I.
Qed.
Example c89_good : good_glyphs (used false c89_entries).
Proof.
  unfold good_glyphs. split; [|split; [vm_compute; discriminate|split; [|split]]].
  - vm_compute. repeat first [left; reflexivity | right; split; [intros I; repeat (destruct I as [I|I]; [discriminate I|]); exact I|]].
  - vm_compute. repeat constructor; cbn [In]; intuition discriminate.
  - vm_compute. repeat constructor.
  - vm_compute. repeat constructor; cbn [In]; tauto.
Qed.
Lemma c89_contours : contours_of c89_nodes [c89_nodes].
Proof. split; [reflexivity|]. constructor; [|constructor]. eexists _, _. split; [reflexivity|]. split; [reflexivity|]. repeat (constructor; [discriminate|]). constructor. Qed.
Example c89_hints : hints_fine true (used false c89_entries).
Proof.
  unfold hints_fine. cbn [used glyph_blocks].
  assert (E : exists a b, glyph_blocks (used false c89_entries) = [a; b] /\ nodes_of (fst a) = c89_nodes /\ nodes_of (fst b) = [] /\ components_of (fst a) = [] /\
     hinted_entry true a = EGlyph c89_nodes [(py "h", 0); (py "r", 1); (py "h", 1)] [[(0, 20); (0, 22)]; [(680, 20); (678, 22)]] [] (Links [] []) /\
     hinted_entry true b = EGlyph [] [] [] [] (Links [] [])) by (do 2 eexists; repeat split).
  destruct E as (a & b & -> & Na & Nb & Ca & Ea & Eb). assert (Cm : count_of_masters (used false c89_entries) = 2) by reflexivity.
  constructor; [|constructor; [|constructor]]; cbv zeta; rewrite ?Na, ?Nb, ?Ea, ?Eb, Cm; (split; [eexists|split]).
  - exact c89_contours.
  - right. split; [exact Ca|]. exists [(0, [(py "h", 0)]); (1, [(py "h", 1)])]. cbn [eg_masks eg_nodes]. split; [|split].
    + apply (next_set 0 [(py "h", 0)] 1 [(py "h", 1)]); [constructor; [now left|constructor]|]. apply one_set. constructor; [now left|constructor].
    + repeat (constructor; [cbn; lia|]). constructor.
    + repeat (constructor; [cbn; lia|]). constructor.
  - intros m Hm. assert (Km : m = 0%nat \/ m = 1%nat) by lia. unfold master_ok. cbn [eg_nodes eg_h eg_v eg_links lk_x lk_y].
    split; [|split; [|split; [|split]]]; try constructor; try (cbn; lia).
    + destruct Km as [->| ->]; eexists; split; reflexivity.
    + destruct Km as [->| ->]; repeat (constructor; [eexists; split; reflexivity|]); constructor.
    + constructor; [cbn; lia|constructor].
  - instantiate (1 := []). split; [reflexivity|constructor].
  - left. repeat split.
  - intros m _. repeat split; constructor.
Qed.
Ltac c89_pts := intros p n Ip Hp; unfold param in Hp; cbn [in_params In] in Hp;
  repeat (destruct Hp as [Hp|Hp]; [injection Hp as Hp <-; first [lia | exfalso; subst p; cbn [In] in Ip; repeat (destruct Ip as [Ip|Ip]; [discriminate Ip|]); exact Ip]|]); destruct Hp.
Ltac c89_zone := intros n t Hp Hc; unfold param in Hp; cbn [in_params In] in Hp; destruct t; try discriminate Hc;
  repeat (destruct Hp as [Hp|Hp]; [try discriminate Hp; injection Hp as <-; eexists; (split; [lia|]); eexists _, _; split; reflexivity|]); destruct Hp.
Ltac c89_stems Es := intros n hor Hp N0 I; destruct hor; try (exfalso; cbn [in_cmd In] in I; repeat (destruct I as [I|I]; [discriminate I|]); exact I); rewrite Es; discriminate.
Ltac c89_fine k Es := split; [eexists; split; [apply (nth_error_In _ k); reflexivity|split; reflexivity]|split; [c89_pts|split; [c89_zone|c89_stems Es]]].
Example c89_commands : commands_fine (used false c89_entries).
Proof.
  assert (E : exists a b, glyph_entries (used false c89_entries) = [a; b] /\
    g_tth a = Some [Instruction (py "AlignTop") [(py "pt", 1); (py "zone", 0)]; Instruction (py "AlignBottom") [(py "pt", 0); (py "zone", 0)];
             Instruction (py "SingleLinkV") [(py "pt1", 1); (py "pt2", 2); (py "stem", 0); (py "align", -1)];
             Instruction (py "AlignH") [(py "pt", 3); (py "align", 1)]] /\
    g_tth b = Some [Instruction (py "MDeltaV") [(py "pt", 2); (py "shift", 8); (py "ppm1", 9); (py "ppm2", 12)];
             Instruction (py "AlignV") [(py "pt", 4); (py "align", 0)]] /\
    nodes_of a = c89_nodes /\ components_of a = [] /\ exists k, components_of b = [k] /\ M_Glyph.co_gid k = 0) by (do 2 eexists; repeat split; eexists; split; reflexivity).
  destruct E as (a & b & Ee & Ta & Tb & Na & Ca & k & Cb & Kb).
  assert (Ez : glyph_zones None (used false c89_entries) = [Some ([py "cap"], [py "base"]); Some ([py "cap"], [py "base"])]) by reflexivity.
  assert (Es : forall h, stem_names (used false c89_entries) h = if h then [] else [py "stem"]) by (intros []; reflexivity).
  unfold commands_fine. rewrite Ez.
  assert (Go : Forall2 (fun x z => forall is, g_tth x = Some is -> exists n, point_count (used false c89_entries) x n /\ Forall (instruction_fine (stem_names (used false c89_entries)) n z) is)
                       [a; b] [Some ([py "cap"], [py "base"]); Some ([py "cap"], [py "base"])]); [|rewrite <- Ee in Go; exact Go].
  constructor; [|constructor; [|constructor]].
  - intros is H. rewrite Ta in H. injection H as <-. exists 4. split; [unfold point_count; rewrite Ca, Na; reflexivity|].
    repeat (apply Forall_cons; [|]); [c89_fine 0%nat Es|c89_fine 1%nat Es|c89_fine 3%nat Es|c89_fine 6%nat Es|apply Forall_nil].
  - intros is H. rewrite Tb in H. injection H as <-. exists 4. split.
    { unfold point_count. rewrite Cb. exists [a]. split; [|unfold count_nodes; cbn [fold_right]; rewrite Na; reflexivity].
      constructor; [|constructor]. split; [lia|]. rewrite Kb, Ee. split; [reflexivity|exact Ca]. }
    repeat (apply Forall_cons; [|]); [c89_fine 11%nat Es|c89_fine 7%nat Es|apply Forall_nil].
Qed.
(** the hypotheses of [C88_hinting] for this file *)
Example c88_hinting_ex : let parts := flat_map tt_part (used false c89_entries) in
  stem_history [Stem (py "stem") 80 (fun px => 10 * px)] [] 2 (filter stem_part parts) /\
  zone_history [TTZone 700 10 (py "cap")] [TTZone 0 (-10) (py "base")] [] (filter zone_part parts) /\
  deltas_ok [TTZone 700 10 (py "cap")] [TTZone 0 (-10) (py "base")] [].
Proof. cbv zeta. split; [exact (no_one _ _)|]. split; [exact (no_deltas _ _)|]. split; constructor. Qed.
(** two bytes, then three *)
Example base64_ex : b64encode (py "<a") = py "PGE=" /\ b64encode [251; 240; 0] = py "+/AA".
Proof. split; reflexivity. Qed.
Example c89_exported : forall ops up asm number, exists a b,
  vfb_to_ufos (Settings false false true ops up asm) (c86_options number) c89_entries = Ok [a; b] /\
  map (fun q => (point_names (snd q), map (@List.length upoint) (og_contours (snd q)))) (uf_glyphs a)
    = [([py "ah01"; py "at01"; py "sv01"], [5%nat]); ([], [])] /\
  map (fun q => (point_names (snd q), map (@List.length upoint) (og_contours (snd q)))) (uf_glyphs b)
    = [([py "ab01"; py "at01"; py "sv01"; py "ah01"], [6%nat]); ([], [])] /\
  map (fun q => gl_hints (og_lib (snd q))) (uf_glyphs a) = [Some [(py "ab01", [py "hstem 0 20"]); (py "at01", [py "hstem 680 20"])]; None] /\
  exists x y, map (fun q => gl_tth (og_lib (snd q))) (uf_glyphs a) = [Some (TtText x); Some (TtText y)].
Proof.
  intros. do 2 eexists. split; [vm_compute; reflexivity|]. split; [vm_compute; reflexivity|]. split; [vm_compute; reflexivity|].
  split; [vm_compute; reflexivity|]. do 2 eexists. vm_compute. reflexivity.
Qed.

(** So a command or a hint set may name a point that the UFO does not have, and a glyph may have different numbers of
    points in the UFOs of two masters. *)
Theorem C89_refuted : forall ops up asm number, exists es a b k x z name g ds text d point,
  let c := Settings false false true ops up asm in let l := used false es in
  Forall typed es /\ good_glyphs l /\ hints_fine true l /\ commands_fine l /\ vfb_to_ufos c (c86_options number) es = Ok [a; b] /\
  nth_error (glyph_entries l) k = Some x /\ nth_error (glyph_zones None l) k = Some z /\ nth_error (uf_glyphs a) k = Some (name, g) /\
  gl_tth (og_lib g) = Some (TtText text) /\ tth_lib ds = Ok (Some text) /\ In d ds /\ aget str_eqb (py "point") d = Some (TStr point) /\
  components_of x = [] /\ point <> py "lsb" /\ point <> py "rsb" /\ ~ In point (point_names g).
Proof.
  intros. exists c89_entries. do 2 eexists. exists 0%nat. do 4 eexists.
  exists [[(py "code", TStr (py "alignt")); (py "point", TStr (py "at01")); (py "zone", TStr (py "cap"))];
          [(py "code", TStr (py "alignb")); (py "point", TStr (py "ab01")); (py "zone", TStr (py "base"))];
          [(py "code", TStr (py "singlev")); (py "point1", TStr (py "at01")); (py "point2", TStr (py "sv01")); (py "stem", TStr (py "stem"))];
          [(py "code", TStr (py "alignh")); (py "point", TStr (py "ah01")); (py "align", TStr (py "left"))]]. do 2 eexists. exists (py "ab01"). cbv zeta.
  split; [exact c89_typed|]. split; [exact c89_good|]. split; [exact c89_hints|]. split; [exact c89_commands|]. split; [vm_compute; reflexivity|].
  split; [reflexivity|]. split; [reflexivity|]. split; [reflexivity|]. split; [reflexivity|]. split; [vm_compute; reflexivity|]. split; [right; left; reflexivity|].
  split; [reflexivity|]. split; [reflexivity|]. split; [discriminate|]. split; [discriminate|]. vm_compute. intuition discriminate.
Qed.
Theorem C90_refuted : forall ops up asm number, exists es a b name name' g g' q c d sets tag,
  let s := Settings false false true ops up asm in let l := used false es in
  Forall typed es /\ good_glyphs l /\ hints_fine true l /\ commands_fine l /\ vfb_to_ufos s (c86_options number) es = Ok [a; b] /\
  nth_error (uf_glyphs a) 0 = Some (name, g) /\ nth_error (uf_glyphs b) 0 = Some (name', g') /\
  nth_error (og_contours g) q = Some c /\ nth_error (og_contours g') q = Some d /\ List.length c <> List.length d /\
  gl_hints (og_lib g) = Some sets /\ In tag (map fst sets) /\ ~ In tag (point_names g).
Proof.
  intros. exists c89_entries. do 6 eexists. exists 0%nat. do 4 eexists. cbv zeta.
  split; [exact c89_typed|]. split; [exact c89_good|]. split; [exact c89_hints|]. split; [exact c89_commands|]. split; [vm_compute; reflexivity|].
  do 4 (split; [reflexivity|]). split; [discriminate|]. split; [reflexivity|]. split; [left; reflexivity|]. vm_compute. intuition discriminate.
Qed.
Print Assumptions C89_commands.
Print Assumptions C89_names.
Print Assumptions C89_refuted.
Print Assumptions C90_compatible.
Print Assumptions C90_hints.
Print Assumptions C90_refuted.
