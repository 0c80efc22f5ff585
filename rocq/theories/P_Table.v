(** Proofs about the table of entry types (M_Table.v): each row is written back, under the
    conditions of S_Table.v. *)
From Coq Require Import ZifyBool ZifyNat String Permutation.
From Verif Require Import Base M_Stream M_Helpers M_Text M_Py M_Simple M_Bitmap M_TrueType M_Glyph
  M_Float M_Options M_Container M_Table S_Text S_Entry S_Bitmap S_TrueType S_Glyph S_Options S_File
  S_Table Lib P_Stream P_Text P_Text2 P_Loop P_Simple P_Simple2 P_Simple3 P_Bitmap P_TrueType
  P_TrueType2 P_Glyph P_Glyph2 P_Glyph5 P_Options Prop_Text Prop_Simple Prop_Bitmap Prop_TrueType Prop_Glyph
  Prop_Options.
Local Open Scope list_scope.
Open Scope rd_scope.
Ltac Zify.zify_post_hook ::= Z.div_mod_to_equations.

(** ** One row *)
Definition stable (P : ctx -> value -> Prop) (p : parser) (k : compiler) : Prop :=
  forall c data x, wf_ctx c -> entry_data data -> run_parser (p c) data = Ok x -> P c x ->
    exists bs x', on_value k c x = Ok bs /\ bytes_ok bs /\ run_parser (p c) bs = Ok x' /\ same_value x x'.
Definition always (c : ctx) (x : value) : Prop := True.

Lemma run_plain : forall A (inj : A -> value) r data,
  run_parser (plain inj r) data = rmap inj (run_parser r data).
Proof.
  intros A inj r data. unfold run_parser, plain, rbind, ret.
  destruct (r data) as [a s|e s]; [destruct s; reflexivity|reflexivity].
Qed.
Lemma same_value_refl : forall x, (forall d, x <> DGlyph d) -> same_value x x.
Proof.
  intros x N. destruct x; cbn [same_value]; try reflexivity.
  - intros z. destruct (aget Z.eqb z x) as [m|]; [reflexivity|exact I].
  - destruct (N x eq_refl).
Qed.
Lemma stable_plain : forall A (inj : A -> value) (r : ctx -> rd A) (co : ctx -> A -> wr) (P : ctx -> value -> Prop) k,
  (forall a d, inj a <> DGlyph d) -> (forall c a, on_value k c (inj a) = co c a) ->
  (forall c data a, wf_ctx c -> entry_data data -> run_parser (r c) data = Ok a -> P c (inj a) ->
     survives (co c) (r c) a) ->
  stable P (fun c => plain inj (r c)) k.
Proof.
  intros A inj r co P k HN HK H c data x Hc Hd E HP. rewrite run_plain in E.
  destruct (run_parser (r c) data) as [a|e] eqn:Ea; cbn [rmap] in E; [|discriminate].
  apply Ok_inj in E. subst x. destruct (H c data a Hc Hd Ea HP) as (bs & E1 & B & E2).
  exists bs, (inj a). split; [rewrite HK; exact E1|]. split; [exact B|]. split.
  - rewrite run_plain, E2. reflexivity.
  - apply same_value_refl. intros d. apply HN.
Qed.
Ltac row_plain f := apply stable_plain with (co := f);
  [discriminate|reflexivity|intros c data a Hc Hd E HP].
Ltac row_reparses f := apply stable_plain with (co := f);
  [discriminate|reflexivity|intros c data a Hc Hd E _].

Lemma stable_hex : stable always BaseParser HexStringCompiler.
Proof. row_reparses (fun c : ctx => compile_hex). eapply (proj1 C40_simple); eauto. Qed.

Lemma string_reparses : reparses compile_string parse_string.
Proof.
  intros data s [Hb _] E. destruct (C35_string_bytes_kept data s E) as (i & j & core & Ed & Ec & _ & Ep).
  exists core. split; [exact Ec|]. split; [|exact Ep]. subst data. apply Forall_app in Hb.
  destruct Hb as [_ Hb]. apply Forall_app in Hb. apply Hb.
Qed.
Lemma stable_string : stable always StringParser StringCompiler.
Proof. row_reparses (fun c : ctx => compile_string). eapply string_reparses; eauto. Qed.
Lemma stable_vendor : stable always StringParser VendorIdCompiler.
Proof.
  row_reparses (fun c : ctx => compile_vendor_id).
  destruct (C35_string_bytes_kept data a E) as (i & j & core & _ & Ec & Hn & _).
  destruct (C35_vendor_id a) as (bs & E1 & B & _ & E2); [|exact Hn|exists bs; auto].
  apply encodable_encode. unfold compile_string, write_str, write_str_pad in Ec.
  destruct (cp1252_encode a) as [b|e]; [eauto|discriminate].
Qed.
Lemma write_str_bytes_ok : forall s bs, write_str s = Ok bs -> bytes_ok bs.
Proof.
  intros s bs E. destruct (cp1252_encode s) as [b|e] eqn:B.
  - rewrite (write_str_ok _ _ B) in E. apply Ok_inj in E. subst. eapply encode_bytes_ok; eauto.
  - unfold write_str, write_str_pad in E. rewrite B in E. discriminate.
Qed.
Lemma stable_lines : stable always OpenTypeStringParser OpenTypeStringCompiler.
Proof.
  row_reparses (fun c : ctx => compile_opentype_string).
  destruct (C34_normalised_once data a (proj1 Hd) E) as (bs & E1 & E2). exists bs.
  split; [exact E1|]. split; [|exact E2]. unfold compile_opentype_string in E1.
  eapply write_str_bytes_ok; eauto.
Qed.

Lemma stable_fl_version : stable always FLVersionParser FLVersionCompiler.
Proof. row_reparses (fun c : ctx => compile_fl_version). decompose [and] C40_simple; eauto. Qed.
Lemma stable_encoding : stable always GlyphEncodingParser GlyphEncodingCompiler.
Proof. row_reparses (fun c : ctx => compile_encoding). decompose [and] C40_simple; eauto. Qed.
Lemma stable_int16 : stable always Int16Parser Int16Compiler.
Proof. row_reparses (fun c : ctx => compile_int16). decompose [and] C40_simple; eauto. Qed.
Lemma stable_sint16 : stable always SignedInt16Parser SignedInt16Compiler.
Proof. row_reparses (fun c : ctx => compile_sint16). decompose [and] C40_simple; eauto. Qed.
Lemma stable_sint32 : stable always SignedInt32Parser SignedInt32Compiler.
Proof. row_reparses (fun c : ctx => compile_sint32). decompose [and] C40_simple; eauto. Qed.
Lemma stable_double : stable always DoubleParser DoubleCompiler.
Proof. row_reparses (fun c : ctx => compile_double). decompose [and] C40_simple; eauto. Qed.
Lemma stable_doubles : stable always DoubleListParser DoubleListCompiler.
Proof. row_reparses (fun c : ctx => compile_doubles). decompose [and] C40_simple; eauto. Qed.
Lemma stable_int_list : stable always IntListParser IntListCompiler.
Proof. row_reparses (fun c : ctx => compile_int_list). decompose [and] C40_simple; eauto. Qed.
Lemma stable_panose : stable always PanoseParser PanoseCompiler.
Proof. row_reparses (fun c : ctx => compile_panose). decompose [and] C40_simple; eauto. Qed.
Lemma stable_values : stable always EncodedValueListParser EncodedValueListCompiler.
Proof. row_reparses (fun c : ctx => compile_values). decompose [and] C40_simple; eauto. Qed.
Lemma stable_counted : stable always EncodedValueListWithCountParser EncodedValueListWithCountCompiler.
Proof. row_reparses (fun c : ctx => compile_counted). decompose [and] C40_simple; eauto. Qed.
Lemma stable_binary_table : stable always BinaryTableParser BinaryTableCompiler.
Proof. row_reparses (fun c : ctx => compile_binary_table). decompose [and] C40_simple; eauto. Qed.
Lemma stable_cmaps : stable always CustomCmapParser CustomCmapCompiler.
Proof. row_reparses (fun c : ctx => compile_custom_cmaps). decompose [and] C40_simple; eauto. Qed.
Lemma stable_anisotropic : stable always AnisotropicInterpolationsParser AnisotropicInterpolationsCompiler.
Proof. row_reparses (fun c : ctx => compile_anisotropic). decompose [and] C40_simple; eauto. Qed.
Lemma stable_axis_counts : stable always AxisMappingsCountParser AxisMappingsCountCompiler.
Proof. row_reparses (fun c : ctx => compile_axis_counts). decompose [and] C40_simple; eauto. Qed.
Lemma stable_axis_mappings : stable always AxisMappingsParser AxisMappingsCompiler.
Proof. row_reparses (fun c : ctx => compile_axis_mappings). decompose [and] C40_simple; eauto. Qed.
Lemma stable_master_location : stable always MasterLocationParser MasterLocationCompiler.
Proof. row_reparses (fun c : ctx => compile_master_location). decompose [and] C40_simple; eauto. Qed.
Lemma stable_ps_global : stable always PostScriptGlobalHintingOptionsParser PostScriptGlobalHintingOptionsCompiler.
Proof. row_reparses (fun c : ctx => compile_ps_global). decompose [and] C40_simple; eauto. Qed.
Lemma stable_ps_glyph : stable always PostScriptGlyphHintingOptionsParser PostScriptGlyphHintingOptionsCompiler.
Proof. row_reparses (fun c : ctx => compile_ps_glyph). decompose [and] C40_simple; eauto. Qed.
Lemma stable_ps_info : stable always PostScriptInfoParser PostScriptInfoCompiler.
Proof. row_reparses (fun c : ctx => compile_ps_info). decompose [and] C40_simple; eauto. Qed.
Lemma stable_gasp : stable always GaspParser GaspCompiler.
Proof. row_reparses (fun c : ctx => compile_gasp). pose proof C20_gasp as T. decompose [and] T; eauto. Qed.
Lemma stable_vdmx : stable always VdmxParser VdmxCompiler.
Proof. row_reparses (fun c : ctx => compile_vdmx). pose proof C19_vdmx as T. decompose [and] T; eauto. Qed.
Lemma stable_stem_ppems23 : stable always TrueTypeStemPpems23Parser TrueTypeStemPpems23Compiler.
Proof. row_reparses (fun c : ctx => compile_stem_ppems23). pose proof C29_reparse as T. decompose [and] T; eauto. Qed.
Lemma stable_stem_ppems : stable always TrueTypeStemPpemsParser TrueTypeStemPpemsCompiler.
Proof. row_reparses (fun c : ctx => compile_stem_ppems). pose proof C29_reparse as T. decompose [and] T; eauto. Qed.
Lemma stable_stems : stable always TrueTypeStemsParser TrueTypeStemsCompiler.
Proof. row_reparses (fun c : ctx => compile_tt_stems). pose proof C29_reparse as T. decompose [and] T; eauto. Qed.
Lemma stable_zones : stable always TrueTypeZonesParser TrueTypeZonesCompiler.
Proof. row_reparses (fun c : ctx => compile_tt_zones). pose proof C29_reparse as T. decompose [and] T; eauto. Qed.
Lemma stable_gdef : stable always GlyphGDEFParser GlyphGDEFCompiler.
Proof. row_reparses (fun c : ctx => compile_gdef). pose proof C41_reparse as T. decompose [and] T; eauto. Qed.
Lemma stable_origin : stable always GlyphOriginParser GlyphOriginCompiler.
Proof. row_reparses (fun c : ctx => compile_int16_pair). pose proof C40_origin as T. decompose [and] T; eauto. Qed.
Lemma stable_mask_metrics : stable always MaskMetricsParser MaskMetricsCompiler.
Proof. row_reparses (fun c : ctx => compile_int16_pair). pose proof C40_origin as T. decompose [and] T; eauto. Qed.
Lemma stable_sketch : stable always GlyphSketchParser GlyphSketchCompiler.
Proof. row_reparses (fun c : ctx => compile_sketch). pose proof C19_sketch as T. decompose [and] T; eauto. Qed.
Lemma stable_links : stable always LinkParser LinksCompiler.
Proof. row_reparses (fun c : ctx => compile_links). pose proof C19_links as T. decompose [and] T; eauto. Qed.

Lemma rps_unicodes : rps parse_unicodes (Forall uint16).
Proof.
  intros s a s' Hs E. unfold parse_unicodes in E.
  destruct (rps_range _ _ _ _ rps_uint16 s a s' Hs E) as [[_ F] Hs']. auto.
Qed.
Lemma rps_unicodes_supp : rps parse_unicodes_supp (Forall uint32).
Proof.
  intros s a s' Hs E. unfold parse_unicodes_supp in E.
  destruct (rps_range _ _ _ _ rps_uint32 s a s' Hs E) as [[_ F] Hs']. auto.
Qed.
Lemma stable_unicodes : stable always GlyphUnicodeParser GlyphUnicodesCompiler.
Proof.
  row_reparses (fun c : ctx => compile_unicodes). apply C20_unicodes. exact (rps_run _ _ _ _ _ rps_unicodes Hd E).
Qed.
Lemma stable_unicodes_supp : stable always GlyphUnicodeSuppParser GlyphUnicodesSuppCompiler.
Proof.
  row_reparses (fun c : ctx => compile_unicodes_supp). apply C20_unicodes_non_bmp.
  exact (rps_run _ _ _ _ _ rps_unicodes_supp Hd E).
Qed.
Lemma stable_mask_metrics_mm : stable always MaskMetricsMMParser MaskMetricsMMCompiler.
Proof.
  row_reparses (fun c : ctx => compile_mask_metrics_mm).
  destruct (rps_run _ _ _ _ _ (rps_mask_metrics_mm _) Hd E) as [L F].
  destruct (Z_le_gt_dec 1 (num_masters c)) as [H1|H1]; [apply C19_mask_metrics_mm; [lia|exact F]|].
  replace (Z.to_nat (num_masters c - 1)) with 0%nat in L by lia. destruct a; [|discriminate].
  exists []. split; [reflexivity|]. split; [constructor|]. unfold run_parser, parse_mask_metrics_mm, rrange.
  replace (Z.to_nat (num_masters c - 1)) with 0%nat by lia. reflexivity.
Qed.
Lemma stable_ppems1 : stable always TrueTypeStemPpems1Parser TrueTypeStemPpems1Compiler.
Proof.
  row_reparses (fun c : ctx => compile_stem_ppems1). destruct Hc as (_ & Hv & Hh).
  assert (N : NoDup [1]) by (repeat constructor; cbn; tauto).
  assert (R : rps (parse_stem_ppems1 (Some (ttStemsV_count c)) (Some (ttStemsH_count c)))
    (fun d => wf_ppems [1] d /\ Z.of_nat (length (tts_v d)) = ttStemsV_count c /\
              Z.of_nat (length (tts_h d)) = ttStemsH_count c)).
  { cbn [parse_stem_ppems1].
    eapply rps_bind; [apply rps_ppems_dir_len; auto; unfold i32; lia|]. intros v [Wv Lv].
    eapply rps_bind; [apply rps_ppems_dir_len; auto; unfold i32; lia|]. intros h [Wh Lh].
    apply rps_ret. split; [split; assumption|]. cbn [tts_v tts_h]. lia. }
  destruct (rps_run _ _ _ _ _ R Hd E) as (W & Lv & Lh).
  pose proof (wrt_ppems1 a W) as X. rewrite Lv, Lh in X. apply wrt_survives. exact X.
Qed.
Lemma stable_deltas : stable always TrueTypeZoneDeltasParser TrueTypeZoneDeltasCompiler.
Proof.
  intros c data x Hc Hd E _. unfold TrueTypeZoneDeltasParser in *. rewrite run_plain in E.
  destruct (run_parser parse_zone_deltas data) as [d|e] eqn:Ed; cbn [rmap] in E; [|discriminate].
  apply Ok_inj in E. subst x. destruct (rps_run _ _ _ data d rps_deltas Hd Ed) as [W N].
  destruct (C29_zone_deltas d W) as (bs & d' & E1 & B & E2 & _ & S). exists bs, (DDeltas d').
  split; [exact E1|]. split; [exact B|]. rewrite run_plain, E2. split; [reflexivity|].
  cbn [same_value]. apply S. intros z H. apply zget_in in H.
  apply (Forall_In _ _ _ _ N H). reflexivity.
Qed.

(** ** The rows that need a condition *)
Definition dom (o : oracles) (i : Z) (c : ctx) (x : value) : Prop := in_domain o c i x.
Lemma dom_marker : forall o i, stable (dom o i) StringParser HexStringCompiler.
Proof.
  intros o i. row_plain (fun c : ctx => compile_hex). cbn in HP. subst a. exists [].
  split; [reflexivity|]. split; [constructor|reflexivity].
Qed.
Lemma dom_tt_info : forall o i, stable (dom o i) TrueTypeInfoParser TrueTypeInfoCompiler.
Proof.
  intros o i c data x Hc Hd E HP. unfold TrueTypeInfoParser in *. rewrite run_plain in E.
  destruct (run_parser parse_tt_info data) as [d|e] eqn:Ed; cbn [rmap] in E; [|discriminate].
  apply Ok_inj in E. subst x. destruct (C30_tt_info d HP) as (bs & d' & E1 & B & E2 & S).
  exists bs, (DTTInfo d'). split; [exact E1|]. split; [exact B|]. rewrite run_plain, E2. split; [reflexivity|exact S].
Qed.
Lemma dom_unicode_ranges : forall o i, stable (dom o i) UnicodeRangesParser UnicodeRangesCompiler.
Proof. intros o i. row_plain (fun c : ctx => compile_unicode_ranges). 
  destruct (rps_run _ _ _ _ _ rps_unicode_ranges Hd E) as [S F]. apply C21_unicode_ranges.
  split; [exact S|]. eapply Forall_impl; [|apply (Forall_and _ _ _ _ F HP)]. cbn beta. intros b Hb. lia.
Qed.
Lemma dom_names : forall o i, stable (dom o i) NameRecordsParser NameRecordsCompiler.
Proof.
  intros o i. row_plain (fun c : ctx => compile_name_records). cbn in HP.
  destruct (rpost_run _ _ _ _ _ rpost_names (proj1 Hd) E) as [W L].
  destruct (C33_name_records_unchanged a W L HP) as (bs & E1 & E2). exists bs.
  split; [exact E1|]. split; [|exact E2].
  destruct (wrt_run _ _ _ _ (wrt_names a W L)) as (bs' & E1' & B & _). rewrite E1 in E1'.
  apply Ok_inj in E1'. subst. exact B.
Qed.
Lemma dom_pclt : forall o i, stable (dom o i) PcltParser PcltCompiler.
Proof. intros o i. row_plain (fun c : ctx => compile_pclt). apply C38_pclt. exact HP. Qed.
Lemma dom_kerning_flags : forall o, stable (dom o 2026) OpenTypeKerningClassFlagsParser OpenTypeKerningClassFlagsCompiler.
Proof. intros o. row_plain (fun c : ctx => compile_class_flags 2). apply C19_class_flags. exact HP. Qed.
Lemma dom_metrics_flags : forall o, stable (dom o 2024) OpenTypeMetricsClassFlagsParser OpenTypeMetricsClassFlagsCompiler.
Proof. intros o. row_plain (fun c : ctx => compile_class_flags 3). apply C19_class_flags. exact HP. Qed.
Lemma wrt_instance_exact : forall name vs, text name -> length vs = 4%nat ->
  Forall (fun v => exists n, int32 n /\ v = NFloat (int_div n 10000) /\ num_int_mul v 10000 = Ok n) vs ->
  wrt (compile_instance (Instance name vs)) parse_instance (Instance name vs).
Proof.
  intros name vs Ht L K. unfold compile_instance, parse_instance. cbn [in_name in_values].
  eapply wrt_bind; [apply wrt_str_text; exact Ht|].
  eapply wrt_bind_ret with (a := vs); [|reflexivity].
  rewrite <- L. rewrite <- (map_id vs) at 3. apply wrt_repeat. intros v Hv.
  destruct (Forall_In _ _ _ _ K Hv) as (n & Hn & -> & E). rewrite E. cbn [wlet].
  eapply wrt_bind_ret; [apply wrt_value; exact Hn|reflexivity].
Qed.
Lemma dom_instances : forall o i, stable (dom o i) PrimaryInstancesParser PrimaryInstancesCompiler.
Proof.
  intros o i. row_plain (fun c : ctx => compile_instances). cbn in HP.
  destruct (rps_run _ _ _ _ _ rps_instances Hd E) as (il & -> & C & F).
  apply wrt_survives. unfold compile_instances, parse_instances. rewrite map_length.
  eapply wrt_bind; [apply wrt_value, count_i32; exact C|].
  rewrite <- (map_length inst il). unfold rrange. rewrite Nat2Z.id. rewrite <- (map_id (map inst il)) at 3.
  apply wrt_repeat. intros p Hp. pose proof (Forall_In _ _ _ _ HP Hp) as K.
  apply in_map_iff in Hp. destruct Hp as ([name vs] & <- & Hin).
  destruct (Forall_In _ _ _ _ F Hin) as [Ht [L _]].
  apply wrt_instance_exact; [exact Ht|rewrite map_length; exact L|exact K].
Qed.
Lemma stored_guides_exact : forall o d, exact_guides o d ->
  Forall (Forall (fun g => exists s, o_slope o (gm_angle g) = Ok s /\ int32 s)) (gs_h d ++ gs_v d) ->
  stored_guides o d = d.
Proof.
  intros o [h v] [H1 H2] S. cbn [gs_h gs_v] in *. apply Forall_app in S. unfold stored_guides. cbn [gs_h gs_v].
  assert (K : forall l, Forall (Forall (exact_angle o)) l -> map (map (stored_angle o)) l = l).
  { clear. intros l H. rewrite <- (map_id l) at 2. apply map_ext_in. intros x Hx.
    rewrite <- (map_id x) at 2. apply map_ext_in. intros g Hg.
    pose proof (Forall_In _ _ _ _ (Forall_In _ _ _ _ H Hx) Hg) as X. unfold stored_angle.
    destruct (o_slope o (gm_angle g)) as [s|e] eqn:Es; [|reflexivity]. rewrite (X s Es). destruct g; reflexivity. }
  rewrite !K by assumption. reflexivity.
Qed.
Lemma dom_guides : forall o i, stable (dom o i) (GlobalGuidesParser o) (GuidesCompiler o).
Proof.
  intros o i. row_plain (fun c : ctx => compile_guides o (Some (num_masters c))). destruct HP as [S X].
  destruct (C40_guides o (num_masters c) data a Hd) as (bs & E1 & B & E2); [apply Hc|exact E|exact S|].
  exists bs. split; [exact E1|]. split; [exact B|]. rewrite E2. f_equal. apply stored_guides_exact; assumption.
Qed.
Lemma dom_guide_props : forall o i, stable (dom o i) GuidePropertiesParser GuidePropertiesCompiler.
Proof. intros o i. row_plain (fun c : ctx => compile_guide_props). eapply C40_guide_props; eauto. Qed.
Lemma dom_global_mask : forall o i, stable (dom o i) GlobalMaskParser GlobalMaskCompiler.
Proof.
  intros o i. row_plain (fun c : ctx => compile_global_mask). destruct HP as [Hn HV].
  unfold run_parser, parse_global_mask, rbind, ret in E. 
  destruct (parse_outlines data) as [[n nodes] s|e s] eqn:Eo; [|discriminate].
  destruct s; [|discriminate]. apply Ok_inj in E. subst a. cbn [fst snd mo_num_masters mo_nodes or_nil] in *.
  assert (Er : run_parser parse_outlines data = Ok (n, nodes)) by (unfold run_parser; rewrite Eo; reflexivity).
  destruct (C40_outlines data n nodes Hd Er Hn HV) as (bs & E1 & B & E2). exists bs.
  split; [exact E1|]. split; [exact B|]. unfold run_parser, parse_global_mask, rbind, ret in *.
  destruct (parse_outlines bs) as [p s|e s]; [|discriminate]. destruct s; [|discriminate].
  apply Ok_inj in E2. subst p. reflexivity.
Qed.
Lemma dom_glyph : forall o i, stable (dom o i) (GlyphParser o) (GlyphCompiler o).
Proof.
  intros o i c data x Hc Hd E HP. unfold GlyphParser in *. rewrite run_plain in E.
  destruct (run_parser (parse_glyph o) data) as [g|e] eqn:Eg; cbn [rmap] in E; [|discriminate].
  apply Ok_inj in E. subst x. destruct HP as [(n & R) X].
  assert (W : wf_glyph o (Some (num_masters c)) n g).
  { apply regular_wf; [|exact R]. eapply (rps_run _ _ _ _ _ (rps_glyph o)); eauto. }
  destruct (C26_glyph_exact o _ n g W X) as (bs & g' & E1 & B & E2 & S).
  exists bs, (DGlyph g'). split; [exact E1|]. split; [exact B|]. rewrite run_plain, E2. split; [reflexivity|exact S].
Qed.
Lemma dom_background : forall o i, stable (dom o i) BackgroundBitmapParser BackgroundBitmapCompiler.
Proof.
  intros o i. row_plain (fun c : ctx => compile_background (on_windows c)). destruct HP as [M S].
  unfold on_windows in *. rewrite M in *. eapply C23_background_macos; eauto.
Qed.
Lemma dom_bitmaps : forall o i, stable (dom o i) GlyphBitmapsParser GlyphBitmapsCompiler.
Proof.
  intros o i. row_plain (fun c : ctx => compile_glyph_bitmaps (on_windows c)). destruct HP as [M S].
  unfold on_windows in *. rewrite M in *. eapply C23_glyph_bitmaps_macos; eauto.
Qed.
Lemma dom_mask : forall o i, stable (dom o i) MaskParser MaskCompiler.
Proof. intros o i. row_plain (fun c : ctx => compile_mask). destruct HP. eapply C58_reparse; eauto. Qed.
Lemma dom_anchor_props : forall o i, stable (dom o i) GlyphAnchorsSuppParser GlyphAnchorsSuppCompiler.
Proof. intros o i. row_plain (fun c : ctx => compile_anchor_props). apply C19_anchor_props; apply HP. Qed.
Lemma dom_anchors : forall o i, stable (dom o i) GlyphAnchorsParser GlyphAnchorsCompiler.
Proof.
  intros o i. row_plain (fun c : ctx => compile_anchors (Some (num_masters c))).
  destruct (rps_run _ _ _ _ _ rps_anchors Hd E) as (C & _). apply C19_anchors; [apply Hc|exact C|exact HP].
Qed.
Lemma dom_font_options : forall o i, stable (dom o i) FontOptionsParser FontOptionsCompiler.
Proof. intros o i. row_plain (fun c : ctx => compile_font_options). eapply C40_font_options; eauto. Qed.
Lemma dom_export_options : forall o i, stable (dom o i) ExportOptionsParser ExportOptionsCompiler.
Proof.
  intros o i. row_plain (fun c : ctx => compile_export_options). destruct HP as (chosen & ->).
  apply C21_export_options_survive.
Qed.
Lemma dom_mapping_mode : forall o i, stable (dom o i) MappingModeParser MappingModeCompiler.
Proof. intros o i. row_plain (fun c : ctx => compile_mapping_mode). apply C38_mapping_mode. exact HP. Qed.
Lemma dom_kern_pair : forall o i, stable (dom o i) MMKernPairParser MMKernPairCompiler.
Proof. intros o i. row_plain (fun c : ctx => compile_kern_pair). destruct HP. Qed.

(** ** All rows *)
Definition zmem (i : Z) (l : list Z) : bool := existsb (Z.eqb i) l.
Lemma zmem_in : forall i l, zmem i l = true <-> In i l.
Proof.
  intros i l. unfold zmem. rewrite existsb_exists. split.
  - intros (x & Hx & E). apply Z.eqb_eq in E. subst. exact Hx.
  - intros H. exists i. split; [exact H|apply Z.eqb_refl].
Qed.
Create HintDb rows.
Global Hint Resolve stable_hex stable_string stable_vendor stable_lines stable_fl_version stable_encoding
  stable_int16 stable_sint16 stable_sint32 stable_double stable_doubles stable_int_list stable_panose
  stable_values stable_counted stable_binary_table stable_cmaps stable_anisotropic stable_axis_counts
  stable_axis_mappings stable_master_location stable_ps_global stable_ps_glyph stable_ps_info
  stable_gasp stable_vdmx stable_stem_ppems23 stable_stem_ppems stable_stems stable_zones stable_gdef
  stable_origin stable_mask_metrics stable_sketch stable_links stable_unicodes stable_unicodes_supp
  stable_mask_metrics_mm stable_ppems1 stable_deltas : rows.
Global Hint Resolve dom_marker dom_tt_info dom_unicode_ranges dom_names dom_pclt dom_kerning_flags
  dom_metrics_flags dom_instances dom_guides dom_guide_props dom_global_mask dom_glyph dom_background
  dom_bitmaps dom_mask dom_anchor_props dom_anchors dom_font_options dom_export_options
  dom_mapping_mode dom_kern_pair : rows.
Definition row_ok (o : oracles) (r : Z * (pystr * parser * compiler)) : Prop :=
  stable (if zmem (fst r) faithful_ids then always else dom o (fst r)) (snd (fst (snd r))) (snd (snd r)).
Lemma rows_ok : forall o, Forall (row_ok o) (parser_classes o).
Proof.
  intros o. unfold parser_classes.
  repeat (apply Forall_cons; [unfold row_ok; cbn [fst snd];
    match goal with |- stable (if ?b then _ else _) _ _ => let v := eval vm_compute in b in change b with v end;
    cbn match; solve [auto with rows nocore]|]).
  apply Forall_nil.
Qed.

Lemma row_of_in : forall o i n p k, row o i = Some (n, p, k) -> In (i, (n, p, k)) (parser_classes o).
Proof.
  intros o i n p k. unfold row. induction (parser_classes o) as [|[j r] l IH]; [discriminate|].
  cbn [aget]. destruct (i =? j) eqn:E; [intros H; inversion H; left; f_equal; lia|right; auto].
Qed.
Lemma row_some : forall o i, In i (map fst (parser_classes o)) -> exists r, row o i = Some r.
Proof.
  intros o i. unfold row. induction (parser_classes o) as [|[j r] l IH]; intros H; [destruct H|].
  cbn [aget]. destruct (i =? j) eqn:E; [eauto|]. apply IH. destruct H as [H|H]; [cbn in H; lia|exact H].
Qed.
Lemma faithful_in_table : forall o i, In i faithful_ids -> In i (map fst (parser_classes o)).
Proof.
  intros o i H. assert (G : forallb (fun i => zmem i (map fst (parser_classes o))) faithful_ids = true)
    by (vm_compute; reflexivity).
  rewrite forallb_forall in G. apply zmem_in, G, H.
Qed.
Lemma table_written : forall o c i data x, wf_ctx c -> entry_data data ->
  cd_parse (table o) i c data = Ok x -> can_be_written o c i x -> written_back o c i x.
Proof.
  intros o c i data x Hc Hd E HW.
  assert (Hin : In i (map fst (parser_classes o))).
  { destruct HW as [H|[H _]]; [apply faithful_in_table|]; exact H. }
  destruct (row_some o i Hin) as [[[n p] k] R]. unfold written_back, table in *. cbn [cd_parse cd_compile] in *.
  unfold parser_of, compiler_of in *. rewrite R in *.
  pose proof (Forall_In _ _ _ _ (rows_ok o) (row_of_in _ _ _ _ _ R)) as S. unfold row_ok in S. cbn [fst snd] in S.
  destruct (S c data x Hc Hd E) as (bs & x' & E1 & B & E2 & Sv).
  - destruct (zmem i faithful_ids) eqn:Z; [exact I|]. destruct HW as [H|[_ H]]; [|exact H].
    apply zmem_in in H. congruence.
  - exists (on_value k), bs, x'. auto.
Qed.

(** ** Termination *)
Definition total (p : parser) : Prop := forall c, tot (p c).
Lemma tot_plain : forall A (inj : A -> value) r, tot r -> tot (plain inj r).
Proof. intros A inj r H. unfold plain. apply tot_bind; [exact H|]. intros a. apply tot_ret. Qed.
Lemma tot_string : tot parse_string.
Proof. unfold parse_string. tot_auto. Qed.
Lemma tot_opentype_string : tot parse_opentype_string.
Proof.
  unfold parse_opentype_string. apply tot_bind; [apply tot_str_all|]. intros s. apply tot_lift.
  intros E. apply C34_only_error in E. discriminate.
Qed.
Lemma name_chars_total : forall p e l, res_map (name_char p e) l <> Err Diverge.
Proof.
  intros p e. induction l as [|x l IH]; [discriminate|]. cbn [res_map].
  assert (H : name_char p e x <> Err Diverge).
  { unfold name_char. repeat match goal with |- context [if ?b then _ else _] => destruct b end; try discriminate.
    destruct (macroman_dec1 x); discriminate. }
  destruct (name_char p e x) as [y|y]; cbn [rthen]; [|congruence].
  destruct (res_map (name_char p e) l) as [m|m]; cbn [rmap] in *; congruence.
Qed.
Lemma tot_names : tot parse_name_records.
Proof.
  unfold parse_name_records, parse_name_record. tot_auto. apply tot_lift, name_chars_total.
Qed.
Lemma tot_ps_global : tot parse_ps_global.
Proof.
  apply tot_ps_options; [apply tot_uint16|]. eapply rpost_weaken; [apply rpost_uint16|]. unfold u16, w32; cbn beta. intros v Hv. lia.
Qed.
Lemma tot_ps_glyph : tot parse_ps_glyph.
Proof.
  apply tot_ps_options; [apply tot_uint32|]. eapply rpost_weaken; [apply rpost_uint32|]. unfold u16, w32; cbn beta. intros v Hv. lia.
Qed.
Lemma tot_axis_counts : tot parse_axis_counts.
Proof. unfold parse_axis_counts. tot_auto. Qed.
Lemma tot_axis_mappings : tot parse_axis_mappings.
Proof. intros s Hs. unfold parse_axis_mappings. apply (tot_range _ _ _); [unfold read_double_pair; tot_auto|exact Hs]. Qed.
Lemma tot_master_location : tot parse_master_location.
Proof. unfold parse_master_location. tot_auto. Qed.
Lemma tot_parse_doubles : tot parse_doubles.
Proof. intros s Hs. unfold parse_doubles. apply (tot_range _ _ _ tot_double s Hs). Qed.
Lemma rows_total : forall o, asm_total o ->
  Forall (fun r => fst r <> 1264 -> total (snd (fst (snd r)))) (parser_classes o).
Proof.
  intros o Ho. unfold parser_classes.
  repeat (apply Forall_cons; [cbn [fst snd]; intros N; try (destruct (N eq_refl)); clear N;
    intros c; apply tot_plain|]).
  all: try apply Forall_nil.
  all: first [apply tot_hex|apply tot_string|apply tot_fl_version|apply tot_encoding|apply tot_uint16
             |apply tot_int16|apply tot_int32|apply tot_double|apply tot_doubles|apply tot_panose|apply tot_values
             |apply tot_counted|apply tot_class_flags|apply tot_mapping_mode|apply tot_binary_table
             |apply tot_background|apply tot_glyph_bitmaps|apply tot_cmaps|apply tot_kern_pair|apply tot_global_mask
             |apply tot_anchors|apply tot_anchor_props|apply tot_gdef|apply tot_int16_pair|apply tot_glyph; exact Ho
             |apply tot_sketch|apply tot_unicodes|apply tot_unicodes_supp|apply tot_links|apply tot_mask
             |apply tot_mask_metrics_mm|apply tot_global_guides|apply tot_guide_props|apply tot_anisotropic
             |apply tot_axis_counts|apply tot_axis_mappings|apply tot_master_location|apply tot_instances
             |apply tot_export_options|apply tot_font_options|apply tot_pclt|apply tot_ps_global|apply tot_ps_glyph
             |apply tot_ps_info|apply tot_names|apply tot_opentype_string|apply tot_gasp|apply tot_ppems1
             |apply tot_ppems|apply tot_stems|apply tot_deltas|apply tot_zones|apply tot_vdmx
             |apply tot_unicode_ranges|apply tot_filling; first [apply tot_uint32|apply tot_double]|apply tot_parse_doubles].
Qed.

(** ** Counterexamples *)
Fixpoint zdup (l : list Z) : bool := match l with [] => false | x :: l' => zmem x l' || zdup l' end.
Lemma zdup_ok : forall l, zdup l = false -> NoDup l.
Proof.
  induction l as [|x l IH]; intros H; [constructor|]. cbn [zdup] in H. apply Bool.orb_false_iff in H.
  destruct H as [H1 H2]. constructor; [|auto]. intros K. apply zmem_in in K. congruence.
Qed.
Lemma not_written : forall o c i x n p k, row o i = Some (n, p, k) ->
  (forall bs x', on_value k c x = Ok bs -> run_parser (p c) bs = Ok x' -> same_value x x' -> False) ->
  ~ written_back o c i x.
Proof.
  intros o c i x n p k R H (comp & bs & x' & E1 & E2 & _ & E3 & S). unfold table, parser_of, compiler_of in *.
  cbn [cd_parse cd_compile] in *. rewrite R in *. injection E1 as <-. eapply H; eauto.
Qed.
