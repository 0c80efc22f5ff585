(** C91: a VFB whose entries fit together is exported. *)
From Coq Require Import String QArith Lia ZifyBool ZifyNat.
From Verif Require Import S_Tth.
From Verif Require Import Base Lib M_Py M_Helpers M_Simple M_Text M_TrueType M_Bitmap M_Glyph M_Options M_Container M_Table M_Groups.
From Verif Require Import M_Info M_FontInfo M_Tth M_Programs M_Builder M_Master M_Features M_Designspace M_Build M_Classes M_Labels M_PsHints.
From Verif Require Import M_Paths M_Guides M_Export M_Ufo S_FontInfo S_Programs S_Build S_Paths S_Guides S_Ufo S_Builder S_Labels S_PsHints S_Export S_Hinting S_Fine.
From Verif Require Import P_Helpers P_Glyph P_Guides P_Master P_Build P_Builder P_Labels P_Paths P_Export P_Tth P_Names P_Ufo P_Ufo2 P_Ufo3 P_Fine.
From Verif Require Import Prop_Tth Prop_Classes Prop_FontInfo Prop_Programs Prop_Builder Prop_Build Prop_Ufo Prop_Ufo2 Prop_Ufo3.
Local Open Scope list_scope.
Local Open Scope Z_scope.

Lemma masters_counted : forall c es s, Forall typed es -> build_font c es = Ok s ->
  Z.of_nat (List.length (bs_masters (fo_glyphs s))) = count_of_masters (used (st_vfb_minimal c) es).
Proof.
  intros c es s T B. destruct (C85_parts c es s T B) as [_ _ M _ _ _ _ _ _ _ _ _ _]. destruct (C53_completed _ _ _ M) as (_ & E & _). cbv zeta in E. rewrite E.
  unfold count_of_masters. cbv zeta. unfold axes_of. rewrite axes_fold.
  assert (Tl : Forall (fun e => type_of_key (fst e) (snd e) = true) (used (st_vfb_minimal c) es)).
  { eapply Forall_impl; [|apply used_typed; exact T]. intros e X. exact (proj1 X). }
  destruct (parts_names c _ None Tl) as [P1 P2]. rewrite P1, P2. reflexivity.
Qed.

(** If every reference of an entry to a glyph, master, stem, zone or point is to one that is there, the VFB is exported:
    one UFO for every master. *)
Theorem C91_succeeds : forall c o es, Forall typed es -> (2 <= op_fuel o)%nat ->
  let l := used (st_vfb_minimal c) es in exportable c o l ->
  exists ufos, vfb_to_ufos c o es = Ok ufos /\ Z.of_nat (List.length ufos) = count_of_masters l.
Proof.
  intros c o es T Hf l (FF & G & (MI & MB & MFl & MG & MA) & HF & CF). destruct (font_made c es T FF G) as (s & Bu). fold l in Bu.
  pose proof (masters_counted c es s T Bu) as Cm. fold l in Cm. pose proof G as (G1 & G2 & G3 & G4 & G5). unfold vfb_to_ufos. rewrite Bu. cbn [rthen].
  destruct (glyphs_of_file c es s T Bu G1 G2 G3 G4 G5) as (N & O & F & Z). fold l in N, O, F, Z. fold (names_of l) in N, O.
  assert (Ne : flat_map name_of (map fst (glyph_blocks l)) = map fst (bs_glyphs (fo_glyphs s))) by (rewrite blocks_entries; symmetry; exact N).
  destruct (built_all c _ _ _ Ne F Z) as [Lz B]. set (bs := combine (glyph_blocks l) (glyph_zones None l)) in B.
  assert (Eb : map entry_of bs = glyph_entries l).
  { unfold bs. rewrite <- blocks_entries. transitivity (map fst (map fst (combine (glyph_blocks l) (glyph_zones None l)))); [now rewrite map_map|]. now rewrite map_fst_combine. }
  assert (Ln : List.length (names_of l) = List.length (glyph_entries l)).
  { rewrite <- Eb, map_length, (forall2_len _ _ _ _ _ B), <- N, map_length. reflexivity. }
  pose proof (C85_parts c es s T Bu) as M. fold l in M.
  destruct (C85_glyphs c es s T Bu G1 G2 G3 G4 G5) as (_ & _ & _ & Kg). fold l in Kg.
  set (glyphs := bs_glyphs (fo_glyphs s)) in *.
  pose proof (store_fresh l glyphs N G3) as Fr. pose proof (fresh_ok _ Fr) as Ok0.
  assert (Es : forall h, builder_stems (fo_tt s) h = stem_names l h).
  { intros h. pose proof (from_hinting _ _ _ M) as K. unfold tt_build in K. rewrite (stems_said _ _ _ K h). destruct h; reflexivity. }
  destruct (op_fuel o) as [|[|f]] eqn:Ef; [lia|lia|].
  assert (W : forall name g x z is, In (name, g) (sorted_glyphs glyphs) -> bg_data g = VGlyph x z -> mg_tth x = Some is ->
    In z (glyph_zones None l) /\ exists n, points_of (first_store glyphs) (names_of l) name n /\ Forall (instruction_fine (stem_names l) n z) is).
  { intros name g x z is I D Ht. apply (proj1 (sorted_in _ _)) in I. destruct (forall2_in _ _ _ _ _ B _ I) as (k & b & Kb & Kp & Bp). pose proof Bp as (Nb & x' & D' & Hn & Hc & Hh & _).
    cbn [fst snd] in *. rewrite D in D'. injection D' as <- Ez.
    assert (Ky : nth_error (glyph_entries l) k = Some (entry_of b)) by (rewrite <- Eb, nth_error_map, Kb; reflexivity).
    assert (Kz : nth_error (glyph_zones None l) k = Some (snd b)).
    { rewrite <- (map_snd_combine _ _ (glyph_blocks l) (glyph_zones None l)) by congruence. fold bs. rewrite nth_error_map, Kb. reflexivity. }
    destruct (forall2_nth _ _ _ _ _ CF _ _ Ky) as (z' & Kz' & W). rewrite Kz in Kz'. injection Kz' as <-.
    rewrite Ht in Hh. symmetry in Hh. destruct (W is Hh) as (n & P & Fi). rewrite Ez. split; [eapply nth_error_In; exact Kz|]. exists n. split; [|exact Fi].
    apply (points_there c l bs glyphs B Eb N (first_store glyphs) (extends_refl _) name (entry_of b)); [|exact P].
    apply (built_fits c glyphs b (name, g)); [eapply nth_error_In; eauto|exact Bp]. }
  assert (W' : forall name g x z is, In (name, g) (sorted_glyphs glyphs) -> bg_data g = VGlyph x z -> mg_tth x = Some is ->
    exists n, points_of (first_store glyphs) (names_of l) name n /\ Forall (instruction_fine (stem_names l) n z) is) by (intros; eapply W; eauto).
  destruct (lib_made o f (names_of l) (fo_tt s) (stem_names l) (first_store glyphs) (sorted_glyphs glyphs) (first_store glyphs) Ef Es Ok0 (extends_refl _) W') as ([commands st1] & Et).
  destruct (lib_commands o f (names_of l) (fo_tt s) (stem_names l) (first_store glyphs) (sorted_glyphs glyphs) (first_store glyphs) commands st1 Ef Es Ok0 (extends_refl _) W' Et) as (O1 & X1 & C1 & D1).
  assert (Tx : forall name, text_made o commands name).
  { intros name. unfold text_made. destruct (aget str_eqb name commands) as [ds|] eqn:A; [|exists None, None; split; reflexivity].
    destruct (C1 name ds A) as (g & x & z & is & I & D & Ht & Fd). destruct (W name g x z is I D Ht) as [Iz _].
    assert (Hc : Forall has_code ds) by (clear - Fd; induction Fd; constructor; auto; eapply C63_codes; eauto).
    destruct (C63_exists ds Hc) as [(-> & E)|(_ & text & E)]; [exists None, None; split; [exact E|reflexivity]|]. exists (Some text). rewrite E.
    destruct (finalize_ok (op_base64 o) text) as (r & Er); [|exists r; split; [reflexivity|exact Er]]. intros Eb6. destruct (MA Eb6) as [A1 A2].
    eapply text_ascii; [| | |exact Fd|exact E].
    - intros n t (label & -> & Lb). cbn. eapply label_ascii; eauto.
    - intros top n name' (_ & t & b & -> & Hn). specialize (A2 t b Iz). apply Forall_app in A2. destruct A2 as [A2 A3]. apply nth_error_In in Hn.
      rewrite Forall_forall in A2, A3. destruct top; auto.
    - exact A1. }
  assert (SF : simple_font st1 (List.length (bs_masters (fo_glyphs s))) (font_of c bs)).
  { assert (Nf : map fst (font_of c bs) = names_of l).
    { unfold font_of. rewrite map_map. cbn [fst]. unfold names_of. rewrite <- Eb. clear - B. induction B as [|b p bs0 gs0 B1 B2 IH]; [reflexivity|].
      cbn [map flat_map]. rewrite IH. unfold entry_of at 2, name_of at 2. destruct B1 as (-> & _). reflexivity. }
    split; [rewrite Nf; exact G3|]. unfold font_of. rewrite Forall_map. cbn [fst snd]. apply Forall_forall. intros b Ib.
    apply In_nth_error in Ib. destruct Ib as (k & Kb). destruct (forall2_nth _ _ _ _ _ B _ _ Kb) as (p & Kp & Bp).
    assert (Ft : fits st1 (fst p) (entry_of b)) by (eapply fits_ext; [exact X1|eapply built_fits; [eapply nth_error_In; eauto|exact Bp]]).
    destruct Bp as (Nb & x & _). rewrite Nb.
    assert (Kbl : nth_error (glyph_blocks l) k = Some (fst b)).
    { rewrite <- (map_fst_combine _ _ (glyph_blocks l) (glyph_zones None l)) by congruence. fold bs. rewrite nth_error_map, Kb. reflexivity. }
    unfold hints_fine in HF. rewrite Forall_forall in HF. destruct (HF _ (nth_error_In _ _ Kbl)) as (Hg & Hm & Hk).
    assert (Hn : eg_nodes (hinted_entry (st_ps_hints c) (fst b)) = nodes_of (fst (fst b))) by (unfold hinted_entry; destruct (st_ps_hints c); reflexivity).
    split; [destruct Ft as (y & I & _); eauto|]. rewrite Hn. split; [exact Hg|]. split.
    - destruct Hm as [Hm|(Hc & Hm)]; [now left|right]. split; [|exact Hm]. destruct Ft as (y & I & C & L). exists y. unfold entry_of in C, L. rewrite Hc in C. auto.
    - intros m Lm. apply Hk. lia. }
  destruct (masters_ok f (names_of l) (st_ps_hints c) (font_of c bs) _ st1 O1 SF) as (outs & st' & Eo & _).
  assert (Kf : Forall (fun p => 0 <= snd (fst p) < Z.of_nat (List.length (names_of l)) /\ covers (count_of_masters l) (snd p)) (bs_kerning (fo_glyphs s))).
  { apply Forall_forall. intros [[L rid] values] I. apply Kg in I. destruct I as (x & I1 & I2 & I3). cbn [fst snd].
    rewrite <- blocks_entries in I1. apply in_map_iff in I1. destruct I1 as ([x' details] & E & Ib). cbn [fst] in E. subst x'.
    rewrite Forall_forall in MB. destruct (MB _ Ib) as (_ & _ & _ & _ & K & _). rewrite Forall_forall in K. specialize (K _ I3). cbn [fst snd] in K. rewrite Ln. exact K. }
  assert (Ff : Forall (fun p => snd p <> []) (fo_flags s)) by (rewrite (from_flags _ _ _ M); exact MFl).
  destruct (shared_ok (count_of_masters l) (fo_groups s) (fo_flags s) (names_of l) (st_minimal c) (op_kerning_fea o) (op_move_fea o) _ (fo_features s) Ff Kf) as ((tg & Etg) & sh & Esh & Ksh).
  unfold get_ufo_masters. fold glyphs. rewrite O, Et. cbn [rthen fst snd]. rewrite Etg. cbn [rthen]. rewrite Esh. cbn [rthen].
  rewrite <- O in Eo. rewrite <- Ef in Eo.
  edestruct (masters_made c o s sh) as (us & Eu & Lu); [exact B| | | |exact Eo|].
  - lia.
  - rewrite Z.add_0_l. rewrite Cm. apply Z.le_refl.
  - intros i Hi. split; [now apply Ksh|]. split; [|split].
    + assert (Tl : Forall (fun e => type_of_key (fst e) (snd e) = true) l).
      { eapply Forall_impl; [|apply used_typed; exact T]. intros e X. exact (proj1 X). }
      assert (Pi : ps_infos s = infos_said l).
      { unfold ps_infos. destruct (build_masters _ _ _ (from_glyphs _ _ _ M)) as (_ & ->). now apply infos_parts. }
      unfold get_master_info. rewrite Pi. destruct (index_ok _ _ _ i MI Hi) as (p & -> & _). eexists. reflexivity.
    + unfold font_guides. destruct (st_minimal c) eqn:Ec; [eauto|]. rewrite (from_guides _ _ _ M), (from_props _ _ _ M).
      destruct (last_or None _) as [d|] eqn:Ed; [|eauto]. eapply guides_ok; [apply MG; reflexivity|exact Hi].
    + fold glyphs. apply Forall_forall. intros [name g] I. split; [|apply Tx]. cbn [snd].
      apply (in_map snd) in I. cbn [snd] in I. destruct (forall2_in _ _ _ _ _ F _ I) as (k & b & Kb & _ & D).
      apply nth_error_In in Kb. rewrite Forall_forall in MB. specialize (MB _ Kb). rewrite O. eapply rest_ok; [exact Hi| |exact D]. rewrite Ln. exact MB.
  - exists us. split; [exact Eu|]. rewrite Lu. exact Cm.
Qed.
Print Assumptions C91_succeeds.

(** A VFB is exported only if there is a PostScript info for every master. *)
Theorem C91_infos : forall c o es ufos, Forall typed es -> vfb_to_ufos c o es = Ok ufos ->
  let l := used (st_vfb_minimal c) es in covers (count_of_masters l) (infos_said l).
Proof.
  intros c o es ufos T H l. pose proof (C86_masters c o es ufos T H) as Cm. fold l in Cm. unfold covers.
  destruct (export_inv c o es ufos H) as (s & commands & st0 & tg & sh & B & _ & _ & _ & R). cbv zeta in R.
  destruct (C85_parts c es s T B) as [_ _ M _ _ _ _ _ _ _ _ _ _]. fold l in M.
  assert (Tl : Forall (fun e => type_of_key (fst e) (snd e) = true) l).
  { eapply Forall_impl; [|apply used_typed; exact T]. intros e X. exact (proj1 X). }
  assert (Pi : ps_infos s = infos_said l).
  { unfold ps_infos. destruct (build_masters _ _ _ M) as (_ & ->). now apply infos_parts. }
  destruct ufos as [|u0 ufos]; [rewrite <- Cm; cbn [List.length]; lia|].
  destruct (nth_error (u0 :: ufos) (List.length ufos)) as [u|] eqn:Hu; [|apply nth_error_None in Hu; cbn in Hu; lia].
  destruct (R _ u Hu) as (st1 & st2 & g & K & info & gd & _ & Ei & _). unfold get_master_info in Ei. rewrite Pi in Ei.
  destruct (py_index (infos_said l) _) as [p|] eqn:Ep; [|discriminate]. cbn [List.length] in Cm.
  destruct (Z.ltb_spec (Z.of_nat (List.length ufos)) (Z.of_nat (List.length (infos_said l)))) as [Lt|Ge]; [lia|].
  exfalso. unfold py_index in Ep. cbv zeta in Ep. rewrite (proj2 (Z.ltb_ge (Z.of_nat (List.length ufos)) 0)) in Ep by lia.
  rewrite (proj2 (Z.leb_le _ _) Ge), Bool.orb_true_r in Ep. discriminate Ep.
Qed.
(** A font with three axes has 2 ^ 3 = 8 masters. With the infos of 8 masters it cannot be exported: the builder expects 3 ^ 2 = 9. *)
Theorem C92_refuted : forall c o es, Forall typed es ->
  let l := used (st_vfb_minimal c) es in last_or 0 (flat_map (int_part 1513) l) = 3 ->
  Z.of_nat (List.length (infos_said l)) = 2 ^ 3 -> forall ufos, vfb_to_ufos c o es <> Ok ufos.
Proof.
  intros c o es T l A L ufos H. pose proof (C91_infos c o es ufos T H) as X. fold l in X. unfold covers, count_of_masters in X. cbv zeta in X.
  rewrite A in X. change (if 3 =? 0 then 1 else 3 ^ 2) with 9 in X. change (2 ^ 3) with 8 in L. lia.
Qed.
Print Assumptions C91_infos.
Lemma square_le : forall n, 4 <= n -> n ^ 2 <= 2 ^ n.
Proof.
  intros n H. replace n with (4 + Z.of_nat (Z.to_nat (n - 4))) by lia. generalize (Z.to_nat (n - 4)). clear. induction n as [|n IH]; [vm_compute; discriminate|].
  replace (4 + Z.of_nat (S n)) with (Z.succ (4 + Z.of_nat n)) by lia. rewrite (Z.pow_succ_r 2) by lia. nia.
Qed.
(** Three axes are the only number for which the builder does not expect the 2 ^ n masters that a font with [n] axes has
    and names. *)
Theorem C92_masters : forall l axes, 0 <= axes -> last_or 0 (flat_map (int_part 1513) l) = axes ->
  Z.of_nat (List.length (flat_map (data_part 1504) l)) = 2 ^ axes -> (count_of_masters l = 2 ^ axes <-> axes <> 3).
Proof.
  intros l axes H A N. unfold count_of_masters. cbv zeta. rewrite A, N. split.
  - intros E ->. vm_compute in E. discriminate E.
  - intros Ne. assert (C : axes = 0 \/ axes = 1 \/ axes = 2 \/ 4 <= axes) by lia. destruct C as [-> |[-> |[-> |C]]]; try reflexivity.
    rewrite (proj2 (Z.eqb_neq axes 0)) by lia. pose proof (square_le axes C). lia.
Qed.
(** So a font with another number of axes, a name and a PostScript info for each of its 2 ^ n masters, and whose entries
    fit together, is exported with 2 ^ n UFOs. *)
Theorem C92_succeeds : forall c o es axes, Forall typed es -> (2 <= op_fuel o)%nat ->
  let l := used (st_vfb_minimal c) es in 0 <= axes -> axes <> 3 -> last_or 0 (flat_map (int_part 1513) l) = axes ->
  Z.of_nat (List.length (flat_map (data_part 1504) l)) = 2 ^ axes -> exportable c o l ->
  exists ufos, vfb_to_ufos c o es = Ok ufos /\ Z.of_nat (List.length ufos) = 2 ^ axes.
Proof.
  intros c o es axes T F l H Ne A N X. destruct (C91_succeeds c o es T F X) as (ufos & E & L). exists ufos. split; [exact E|]. rewrite L. now apply C92_masters.
Qed.
Print Assumptions C92_refuted.
Print Assumptions C92_masters.
Print Assumptions C92_succeeds.

(** ** Examples *)
(** The file of C89 with classes, flags, guides, kerning, anchors and a mask; the programs are encoded *)
Definition c91_guides : guides := Guides [[GuideMaster 500 0; GuideMaster 510 0]] [[GuideMaster 50 0; GuideMaster 60 0]].
Definition c91_props : guide_props := GuideProps [GuideProp 1 (guide_color (vfb_color 255 128 0)) (Some (py "x"))] [GuideProp 1 None (Some (py "left"))].
Definition c91_mask : list mm_node := [c86_node Move 0 0 0 0; c86_node Line 100 100 110 100].
Definition c91_entries : list (Z * option value) :=
  [(1024, Some (DStr (py "Test"))); (1277, Some (DStr (py "_A: A' Aacute"))); (2026, Some (DFlags [(py "_A", [1024; 0])]));
   (1294, Some (DGuides c91_guides)); (1296, Some (DGuideProps c91_props)); (1255, Some (DZones c89_zones));
   (1268, Some (DStems (TTStems [c89_stem [(2, 20); (3, 30); (4, 40); (5, 50)] true] [])));
   (1269, Some (DStems (TTStems [c89_stem [(6, 60)] false] [])));
   (1503, Some (DInt 2)); (1513, Some (DInt 1)); (1514, Some (DStr (py "Weight")));
   (1504, Some (DStr (py "Light"))); (1504, Some (DStr (py "Bold"))); (1536, Some (DPSInfo (c86_psinfo 750))); (1536, Some (DPSInfo (c86_psinfo 760)));
   (2001, Some (DGlyph (Glyph (Some (py "A")) (Some 2) (Some c89_nodes) (Some [(600, 0); (640, 0)])
      (Some (MMHints [[(0, 20); (0, 22)]; [(680, 20); (678, 22)]] [] (Some [(py "h", 0); (py "r", 1); (py "h", 1)]))) (Some c91_guides) None (Some [(1, [-10; -20])]) None
      (Some [Instruction (py "AlignTop") [(py "pt", 1); (py "zone", 0)]; Instruction (py "AlignBottom") [(py "pt", 0); (py "zone", 0)];
             Instruction (py "SingleLinkV") [(py "pt1", 1); (py "pt2", 2); (py "stem", 0); (py "align", -1)];
             Instruction (py "AlignH") [(py "pt", 3); (py "align", 1)]]))));
   (1250, Some (DInts [65])); (2018, Some (DGdef (Gdef None (Some [GdefAnchor (Some (py "top")) 300 700]) None None)));
   (2029, Some (DAnchors [MMAnchor [300; 320] [700; 710]])); (2031, Some (DGuideProps c91_props));
   (2009, Some (DMask (Mask [] (MaskOutlines 2 (Some c91_mask))))); (2011, Some (DPair (600, 0))); (2028, Some (DPairs [(640, 0)]));
   (2001, Some (DGlyph (Glyph (Some (py "Aacute")) (Some 2) (Some []) (Some [(600, 0); (640, 0)]) None None
      (Some [M_Glyph.Component 0 [0; 0] [0; 0] [0x3FF0000000000000; 0x3FF0000000000000] [0x3FF0000000000000; 0x3FF0000000000000]]) None None
      (Some [Instruction (py "MDeltaV") [(py "pt", 2); (py "shift", 8); (py "ppm1", 9); (py "ppm2", 12)];
             Instruction (py "AlignV") [(py "pt", 4); (py "align", 0)]]))));
   (1253, Some (DInts [193]))].
Example c91_typed : Forall typed c91_entries.
Proof.
  unfold c91_entries, typed. repeat constructor; cbn [fst snd]; intros I; exfalso; cbn [In] in I;
    repeat (destruct I as [I|I]; [discriminate I|]); exact I.
Qed.
Example c91_good : good_glyphs (used false c91_entries).
Proof.
  unfold good_glyphs. split; [|split; [vm_compute; discriminate|split; [|split]]].
  - vm_compute. repeat first [left; reflexivity | right; split; [intros I; repeat (destruct I as [I|I]; [discriminate I|]); exact I|]].
  - vm_compute. repeat constructor; cbn [In]; intuition discriminate.
  - vm_compute. repeat constructor.
  - vm_compute. repeat constructor; cbn [In]; tauto.
Qed.
Example c91_hints : hints_fine true (used false c91_entries).
Proof.
  unfold hints_fine. cbn [used glyph_blocks].
  assert (E : exists a b, glyph_blocks (used false c91_entries) = [a; b] /\ nodes_of (fst a) = c89_nodes /\ nodes_of (fst b) = [] /\ components_of (fst a) = [] /\
     hinted_entry true a = EGlyph c89_nodes [(py "h", 0); (py "r", 1); (py "h", 1)] [[(0, 20); (0, 22)]; [(680, 20); (678, 22)]] [] (Links [] []) /\
     hinted_entry true b = EGlyph [] [] [] [] (Links [] [])) by (do 2 eexists; repeat split).
  destruct E as (a & b & -> & Na & Nb & Ca & Ea & Eb). assert (Cm : count_of_masters (used false c91_entries) = 2) by reflexivity.
  constructor; [|constructor; [|constructor]]; cbv zeta; rewrite ?Na, ?Nb, ?Ea, ?Eb, Cm; (split; [eexists|split]).
  - exact c89_contours.
  - right. split; [exact Ca|]. exists [(0, [(py "h", 0)]); (1, [(py "h", 1)])]. cbn [eg_masks eg_nodes]. split; [|split].
    + apply (next_set 0 [(py "h", 0)] 1 [(py "h", 1)]); [constructor; [now left|constructor]|]. apply one_set. constructor; [now left|constructor].
    + repeat (constructor; [cbn; lia|]). constructor.
    + repeat (constructor; [cbn; lia|]). constructor.
  - intros m Hm. assert (Km : m = 0%nat \/ m = 1%nat) by lia. unfold master_ok. cbn [eg_nodes eg_h eg_v eg_links lk_x lk_y].
    split; [|split; [|split; [|split]]]; try constructor; try (cbn; lia).
    + destruct Km as [->| ->]; eexists; split; reflexivity.
    + destruct Km as [->| ->]; repeat (constructor; [eexists; split; reflexivity|]); constructor.
    + constructor; [cbn; lia|constructor].
  - instantiate (1 := []). split; [reflexivity|constructor].
  - left. repeat split.
  - intros m _. repeat split; constructor.
Qed.
Example c91_commands : commands_fine (used false c91_entries).
Proof.
  assert (E : exists a b, glyph_entries (used false c91_entries) = [a; b] /\
    g_tth a = Some [Instruction (py "AlignTop") [(py "pt", 1); (py "zone", 0)]; Instruction (py "AlignBottom") [(py "pt", 0); (py "zone", 0)];
             Instruction (py "SingleLinkV") [(py "pt1", 1); (py "pt2", 2); (py "stem", 0); (py "align", -1)];
             Instruction (py "AlignH") [(py "pt", 3); (py "align", 1)]] /\
    g_tth b = Some [Instruction (py "MDeltaV") [(py "pt", 2); (py "shift", 8); (py "ppm1", 9); (py "ppm2", 12)];
             Instruction (py "AlignV") [(py "pt", 4); (py "align", 0)]] /\
    nodes_of a = c89_nodes /\ components_of a = [] /\ exists k, components_of b = [k] /\ M_Glyph.co_gid k = 0) by (do 2 eexists; repeat split; eexists; split; reflexivity).
  destruct E as (a & b & Ee & Ta & Tb & Na & Ca & k & Cb & Kb).
  assert (Ez : glyph_zones None (used false c91_entries) = [Some ([py "cap"], [py "base"]); Some ([py "cap"], [py "base"])]) by reflexivity.
  assert (Es : forall h, stem_names (used false c91_entries) h = if h then [] else [py "stem"]) by (intros []; reflexivity).
  unfold commands_fine. rewrite Ez.
  assert (Go : Forall2 (fun x z => forall is, g_tth x = Some is -> exists n, point_count (used false c91_entries) x n /\ Forall (instruction_fine (stem_names (used false c91_entries)) n z) is)
                       [a; b] [Some ([py "cap"], [py "base"]); Some ([py "cap"], [py "base"])]); [|rewrite <- Ee in Go; exact Go].
  constructor; [|constructor; [|constructor]].
  - intros is H. rewrite Ta in H. injection H as <-. exists 4. split; [unfold point_count; rewrite Ca, Na; reflexivity|].
    repeat (apply Forall_cons; [|]); [c89_fine 0%nat Es|c89_fine 1%nat Es|c89_fine 3%nat Es|c89_fine 6%nat Es|apply Forall_nil].
  - intros is H. rewrite Tb in H. injection H as <-. exists 4. split.
    { unfold point_count. rewrite Cb. exists [a]. split; [|unfold count_nodes; cbn [fold_right]; rewrite Na; reflexivity].
      constructor; [|constructor]. split; [lia|]. rewrite Kb, Ee. split; [reflexivity|exact Ca]. }
    repeat (apply Forall_cons; [|]); [c89_fine 11%nat Es|c89_fine 7%nat Es|apply Forall_nil].
Qed.


Fixpoint each_from {A} (P : list A -> A -> Prop) (before l : list A) : Prop :=
  match l with [] => True | e :: l => P before e /\ each_from P (before ++ [e]) l end.
Lemma each_list : forall A (P : list A -> A -> Prop) l, each_from P [] l -> each P l.
Proof.
  intros A P l H before e after E. change before with ([] ++ before). revert H E. generalize (@nil A). revert l. induction before as [|x before IH]; intros l b H E; subst l; cbn [each_from app] in H.
  - rewrite app_nil_r. exact (proj1 H).
  - replace (b ++ x :: before) with ((b ++ [x]) ++ before) by (rewrite <- app_assoc; reflexivity). eapply IH; [exact (proj2 H)|reflexivity].
Qed.
Ltac no_entry H := cbn [used c91_entries In] in H; repeat (destruct H as [H|H]; [first [discriminate H | injection H as H; discriminate H]|]); exact H.
Ltac two n := assert (n = 0%nat \/ n = 1%nat) as [-> | ->] by lia.
(** the entries fit together, with hints and encoded programs *)
Example c91_fine : forall ops up asm number, exportable (Settings false false true ops up asm) (Options true false false number (fun x => x) 2) (used false c91_entries).
Proof.
  intros ops up asm number. split; [|split; [exact c91_good|split; [|split; [exact c91_hints|exact c91_commands]]]].
  - split; [|split; [|split; [|split; [|split]]]].
    + intros x I. cbn [used c91_entries In] in I. repeat (destruct I as [I|I]; [first [discriminate I | injection I as <-; repeat split; discriminate]|]). destruct I.
    + change (flat_map info_part (used false c91_entries)) with [(1024, Some (DVal (IStr (py "Test"))))]. constructor; [|constructor]. intros d E. cbn [fst snd] in *. injection E as <-.
      split; [intros; eexists; reflexivity|]. repeat split; intros E; try discriminate E. destruct E; discriminate.
    + split; [intros b _ I|intros k b _ [-> | ->] I]; exfalso; no_entry I.
    + intros text x y z I E. cbn [used c91_entries In] in I. repeat (destruct I as [I|I]; [first [discriminate I | injection I as <-]|]); [|destruct I].
      apply (f_equal (fun s => List.length (filter (Z.eqb 58) s))) in E. cbv beta in E. rewrite !filter_app, !app_length in E.
      change (List.length (filter (Z.eqb 58) (py ":"))) with 1%nat in E.
      match type of E with ?a = _ => let b := eval vm_compute in a in change a with b in E end. lia.
    + apply each_list. change (flat_map tt_part (used false c91_entries)) with
        [EZones c89_zones; EPpms (TTStems [c89_stem [(2, 20); (3, 30); (4, 40); (5, 50)] true] []); EStems (TTStems [c89_stem [(6, 60)] false] [])].
      cbn [each_from tt_fine]. split; [split; discriminate|]. split; [intros []; repeat constructor; discriminate|]. split; [|exact Coq.Init.Logic.I].
      intros [] [|i] s E; cbn in E; try (destruct i; discriminate E); try discriminate E. injection E as <-. repeat split; discriminate.
    + apply each_list. vm_compute. auto 20.
  - assert (Cm : count_of_masters (used false c91_entries) = 2) by reflexivity. unfold masters_fine. cbv zeta. rewrite Cm.
    assert (Gf : guides_fine 2 c91_guides c91_props).
    { split; [repeat (constructor; [vm_compute; discriminate|]); constructor|]. constructor; [|constructor; [|constructor]]; (split; [cbn; lia|]).
      - right. exists 255, 128, 0. unfold byte_range. repeat split; lia.
      - left. reflexivity. }
    split; [vm_compute; discriminate|split; [|split; [|split]]].
    + change (Z.of_nat (List.length (glyph_entries (used false c91_entries)))) with 2.
      assert (E : exists a b da db, glyph_blocks (used false c91_entries) = [(a, da); (b, db)] /\ g_metrics a = Some [(600, 0); (640, 0)] /\ g_metrics b = Some [(600, 0); (640, 0)] /\
         components_of a = [] /\ components_of b = [M_Glyph.Component 0 [0; 0] [0; 0] [0x3FF0000000000000; 0x3FF0000000000000] [0x3FF0000000000000; 0x3FF0000000000000]] /\
         said_anchors da = [GdefAnchor (Some (py "top")) 300 700] /\ said_anchors db = [] /\ said_positions da = [MMAnchor [300; 320] [700; 710]] /\ said_positions db = [] /\
         kerning_of a = [(1, [-10; -20])] /\ kerning_of b = [] /\ said_mask da = c91_mask /\ said_mask db = [] /\ mask_sizes da = [(600, 0); (640, 0)] /\ mask_sizes db = [] /\
         g_guides a = Some c91_guides /\ g_guides b = None /\ said_props da = c91_props) by (do 4 eexists; repeat split).
      destruct E as (a & b & da & db & -> & Ma & Mb & Ca & Cb & Aa & Ab & Pa & Pb & Ka & Kb & Sa & Sb & Za & Zb & Ga & Gb & Pra). constructor; [|constructor; [|constructor]].
      * unfold block_fine. rewrite Ma, Ca, Aa, Pa, Ka, Sa, Za, Ga, Pra. unfold covers. split; [eexists; split; [reflexivity|cbn; lia]|]. split; [constructor|]. split; [cbn; lia|].
        split; [constructor; [cbn; lia|constructor]|]. split; [constructor; [cbn; lia|constructor]|]. intros _. split; [|split; [|split]].
        -- exists [c91_mask]. split; [reflexivity|]. constructor; [|constructor]. eexists _, _. split; [reflexivity|]. split; [reflexivity|]. repeat (constructor; [discriminate|]). constructor.
        -- intros m Hm. assert (m = 0%nat \/ m = 1%nat) as [-> | ->] by lia; repeat (constructor; [eexists; split; reflexivity|]); constructor.
        -- right. cbn. lia.
        -- intros d E. injection E as <-. exact Gf.
      * unfold block_fine. rewrite Mb, Cb, Ab, Pb, Kb, Sb, Zb, Gb. unfold covers. split; [eexists; split; [reflexivity|cbn; lia]|].
        split; [constructor; [unfold component_fine, covers; cbn; lia|constructor]|]. split; [cbn; lia|]. split; [constructor|]. split; [constructor|]. intros _. split; [|split; [|split]].
        -- exists []. split; [reflexivity|constructor].
        -- intros m _. constructor.
        -- left. reflexivity.
        -- intros d E. discriminate E.
    + repeat (constructor; [discriminate|]). constructor.
    + intros _ d E. change (Some c91_guides = Some d) in E. injection E as <-. exact Gf.
    + intros _. split; [intros []; vm_compute; repeat constructor|]. intros t b I. vm_compute in I. repeat (destruct I as [I|I]; [injection I as <- <-; vm_compute; repeat constructor|]). destruct I.
Qed.
(** it is exported, with all of this *)
Example c91_exported : forall ops up asm, exists a b,
  vfb_to_ufos (Settings false false true ops up asm) (Options true false false (fun _ => 0 # 1)%Q (fun x => x) 2) c91_entries = Ok [a; b] /\
  uf_kerning a = [((py "public.kern1._A", py "Aacute"), -10)] /\ map fst (uf_background b) = [py "A"] /\ List.length (uf_guidelines b) = 2%nat /\
  exists x y, map (fun q => gl_tth (og_lib (snd q))) (uf_glyphs a) = [Some (TtBytes x); Some (TtBytes y)].
Proof.
  intros. do 2 eexists. split; [vm_compute; reflexivity|]. split; [vm_compute; reflexivity|]. split; [vm_compute; reflexivity|]. split; [vm_compute; reflexivity|]. do 2 eexists. vm_compute. reflexivity.
Qed.
(** three axes, eight masters with a name and an info each *)
Definition c91_axes : list (Z * option value) :=
  [(1024, Some (DStr (py "Test"))); (1513, Some (DInt 3))] ++ map (fun n => (1504, Some (DStr (dec_str n)))) [1; 2; 3; 4; 5; 6; 7; 8] ++
  map (fun n => (1536, Some (DPSInfo (c86_psinfo n)))) [1; 2; 3; 4; 5; 6; 7; 8] ++
  [(2001, Some (DGlyph (Glyph (Some (py "A")) (Some 8) (Some []) (Some (repeat (600, 0) 8)) None None None None None None)))].
Example c91_axes_fails : forall ops up asm number, Forall typed c91_axes /\
  last_or 0 (flat_map (int_part 1513) (used false c91_axes)) = 3 /\ Z.of_nat (List.length (infos_said (used false c91_axes))) = 2 ^ 3 /\
  vfb_to_ufos (Settings false false true ops up asm) (c86_options number) c91_axes = Err IndexError.
Proof.
  intros. split; [|split; [reflexivity|split; reflexivity]]. unfold c91_axes, typed. cbn [map app]. repeat constructor; cbn [fst snd]; intros I; exfalso; cbn [In] in I;
    repeat (destruct I as [I|I]; [discriminate I|]); exact I.
Qed.
