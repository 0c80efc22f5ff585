(** Proofs for C108: the table. *)
From Coq Require Import ZifyBool ZifyNat String.
From Verif Require Import Base M_Stream M_Helpers M_Text M_Py M_Simple M_Bitmap M_TrueType M_Glyph
  M_Float M_Options M_Container M_Table S_Raises S_CompileRaises Lib P_CompileRaises.
Local Open Scope list_scope.

Definition allowed (F : list exn) (i : Z) (x : exn) : Prop := In x (compile_raises i) \/ (In i [1294; 2001] /\ In x F).
Definition row_raises (F : list exn) (r : Z * (pystr * parser * compiler)) : Prop :=
  forall c' data v0 c v, run_parser (snd (fst (snd r)) c') data = Ok v0 -> form v = form v0 -> sound (fst r) v ->
    wex (allowed F (fst r)) (on_value (snd (snd r)) c v).

Lemma allowed_is : forall F i L, compile_raises i = L -> forall x, (In x L \/ In i [1294; 2001] /\ In x F) -> allowed F i x.
Proof. intros F i L <- x H. exact H. Qed.

Ltac rows_start :=
  intros c' data v0 c v Hp Hf Hs; cbn [fst snd] in Hp, Hs |- *;
  apply plain_form in Hp; destruct Hp as (a0 & ->);
  destruct v; try discriminate Hf; clear Hf; cbn [sound] in Hs; cbn [on_value];
  match goal with |- wex (allowed ?F ?i) _ =>
    let L := eval vm_compute in (compile_raises i) in
    let E := fresh in assert (E : compile_raises i = L) by (vm_compute; reflexivity);
    let P := fresh "P" in let HP := fresh "HP" in
    pose proof (allowed_is F i L E) as HP; clear E
  end.
Ltac opened :=
  unfold HexStringCompiler, StringCompiler, VendorIdCompiler, FLVersionCompiler, GlyphEncodingCompiler, Int16Compiler, SignedInt16Compiler,
    SignedInt32Compiler, DoubleCompiler, DoubleListCompiler, IntListCompiler, PanoseCompiler, UnicodeRangesCompiler, EncodedValueListCompiler,
    EncodedValueListWithCountCompiler, OpenTypeKerningClassFlagsCompiler, OpenTypeMetricsClassFlagsCompiler, MappingModeCompiler,
    BinaryTableCompiler, BackgroundBitmapCompiler, GlyphBitmapsCompiler, CustomCmapCompiler, MMKernPairCompiler, GlobalMaskCompiler,
    GlyphAnchorsCompiler, GlyphAnchorsSuppCompiler, GlyphGDEFCompiler, GlyphOriginCompiler, GlyphCompiler, GlyphSketchCompiler,
    GlyphUnicodesCompiler, GlyphUnicodesSuppCompiler, LinksCompiler, MaskCompiler, MaskMetricsCompiler, MaskMetricsMMCompiler,
    GuidesCompiler, GuidePropertiesCompiler, AnisotropicInterpolationsCompiler, AxisMappingsCountCompiler, AxisMappingsCompiler,
    MasterLocationCompiler, PrimaryInstancesCompiler, ExportOptionsCompiler, FontOptionsCompiler, PcltCompiler,
    PostScriptGlobalHintingOptionsCompiler, PostScriptGlyphHintingOptionsCompiler, PostScriptInfoCompiler, NameRecordsCompiler,
    OpenTypeStringCompiler, GaspCompiler, TrueTypeInfoCompiler, TrueTypeStemPpems1Compiler, TrueTypeStemPpems23Compiler,
    TrueTypeStemPpemsCompiler, TrueTypeStemsCompiler, TrueTypeZoneDeltasCompiler, TrueTypeZonesCompiler, VdmxCompiler;
  cbn [on_value];
  unfold compile_hex, compile_string, compile_vendor_id, compile_fl_version, compile_encoding, compile_int16, compile_sint16, compile_sint32,
    compile_double, compile_doubles, write_doubles, compile_int_list, compile_panose, compile_values, compile_counted,
    compile_class_flags, compile_mapping_mode, compile_binary_table, compile_background, compile_glyph_bitmaps, compile_glyph_bitmap,
    compile_bitmap_data, compile_custom_cmaps, compile_custom_cmap, compile_kern_pair, compile_global_mask, compile_anchors, with_vfb,
    compile_anchor_props, compile_gdef, compile_gdef_anchor, compile_int16_pair, compile_sketch, compile_unicodes, compile_unicodes_supp,
    compile_links, compile_mask, compile_mask_metrics_mm, compile_guide_props, compile_guide_prop, color_value, compile_anisotropic,
    compile_axis_counts, compile_axis_mappings, compile_master_location, compile_instances, compile_instance, num_int_mul, num_round_mul,
    compile_font_options, compile_option, option_int, compile_pclt, compile_ps_info, write_exactly,
    compile_name_records, compile_name_record, compile_opentype_string, compile_gasp, compile_stem_ppems1, compile_stem_ppems23,
    compile_stem_ppems, compile_ppems, write_rounds, compile_tt_stems, compile_tt_stem, compile_zone_deltas, compile_tt_zones,
    compile_side, compile_tt_zone, compile_vdmx, M_Glyph.write_pair, M_Simple.write_pair.
Ltac excs HP := apply HP; cbn [In]; tauto.

Lemma named_nonneg : forall opts d, Forall (fun p => 0 <= snd p) opts -> Forall (Z.le 0) (named_bits opts d).
Proof.
  induction opts as [|[k b] opts IH]; intros d H; cbn [named_bits]; [constructor|]. inversion H; subst.
  destruct (aget str_eqb k d) as [v|]; [destruct (v =? 0); [|constructor; [assumption|]]|]; apply IH; assumption.
Qed.

Section Rows.
  Variable o : oracles.
  Variable F : list exn.
  Hypothesis Hslope : forall a e, o_slope o a = Err e -> In e F.
  Hypothesis Hcode : forall l e, o_bytecode o l = Err e -> In e F.

  Ltac row0 :=
    rows_start;
    match goal with HP : forall x, _ -> allowed _ _ x |- _ => opened; repeat wstep; try (excs HP) end.
  Lemma rows_compile : Forall (row_raises F) (parser_classes o).
  Proof.
    unfold parser_classes.
    repeat first [apply Forall_nil | apply Forall_cons; [first [solve [row0] | shelve]|]].
    Unshelve.
    all: rows_start.
    all: match goal with
         | |- wex _ (on_value DoubleListCompiler _ _) =>
             opened; apply wex_list; intros d Hd; apply wex_real; rewrite Forall_forall in Hs; apply Hs; exact Hd
         | |- wex _ (on_value DoubleCompiler _ _) => opened; apply wex_real; exact Hs
         | |- wex _ (on_value PanoseCompiler _ _) =>
             opened; apply wex_if; [apply wex_list; intros d _; unfold pack_le_s; apply wex_if|]; repeat wstep; excs HP
         | |- wex _ (on_value PostScriptGlobalHintingOptionsCompiler _ _) =>
             cbn [on_value PostScriptGlobalHintingOptionsCompiler]; unfold compile_ps_global, compile_ps_options; repeat wstep; [|excs HP];
             apply Forall_app; (split; [apply named_nonneg; repeat constructor; cbn; lia|exact Hs])
         | |- wex _ (on_value PostScriptGlyphHintingOptionsCompiler _ _) =>
             cbn [on_value PostScriptGlyphHintingOptionsCompiler]; unfold compile_ps_glyph, compile_ps_options; repeat wstep; [|excs HP];
             apply Forall_app; (split; [apply named_nonneg; repeat constructor; cbn; lia|exact Hs])
         | |- wex _ (on_value TrueTypeInfoCompiler _ _) => cbn [on_value TrueTypeInfoCompiler]; apply wex_tt; [excs HP|excs HP|excs HP|excs HP|exact Hs]
         | |- wex _ (on_value UnicodeRangesCompiler _ _) =>
             cbn [on_value UnicodeRangesCompiler]; unfold compile_unicode_ranges; repeat wstep; [apply Hs; reflexivity|excs HP]
         | |- wex _ (on_value AxisMappingsCompiler _ _) =>
             opened; apply wex_list; intros d Hd; rewrite Forall_forall in Hs; destruct (Hs d Hd); apply wex_seq; apply wex_real; assumption
         | |- wex _ (on_value MasterLocationCompiler _ _) =>
             opened; apply wex_seq; [apply wex_u; excs HP|]; apply wex_list; intros d Hd; apply wex_real; rewrite Forall_forall in Hs; apply Hs; exact Hd
         | |- wex _ (on_value PostScriptInfoCompiler _ _) =>
             destruct Hs as [Hm Hb]; opened; repeat wstep; try (excs HP); [rewrite Forall_forall in Hm; apply Hm; assumption|exact Hb]
         | |- wex _ (on_value (GuidesCompiler o) _ _) =>
             cbn [on_value GuidesCompiler]; apply wex_guides; [excs HP|excs HP|intros u e E; apply HP; right; split; [cbn; tauto|eapply Hslope; exact E]]
         | |- wex _ (on_value GlobalMaskCompiler _ _) => cbn [on_value GlobalMaskCompiler]; unfold compile_global_mask; apply wex_outlines; excs HP
         | |- wex _ (on_value MaskCompiler _ _) =>
             cbn [on_value MaskCompiler]; unfold compile_mask, num_round_mul; apply wex_seq; [|apply wex_seq; [|apply wex_outlines]]; repeat wstep; excs HP
         | |- wex _ (on_value (GlyphCompiler o) _ _) =>
             cbn [on_value GlyphCompiler]; apply wex_glyph;
               [excs HP|excs HP|intros u e E; apply HP; right; split; [cbn; tauto|eapply Hslope; exact E]
               |intros u e E; apply HP; right; split; [cbn; tauto|eapply Hcode; exact E]|excs HP|excs HP|excs HP]
         | |- wex _ (on_value ExportOptionsCompiler _ _) =>
             cbn [on_value ExportOptionsCompiler]; unfold compile_export_options; apply wex_let
         end.
    - apply rex_resmap. intros [s|n]; cbn [export_bit]; wx; excs HP.
    - intros bits E. apply wex_let; [apply rex_bits|intros ? _; apply wex_u; excs HP]. clear - E.
      revert bits E. induction x as [|e x IH]; intros bits E; cbn [res_map] in E; [injection E as <-; constructor|].
      destruct (export_bit e) as [b|] eqn:B; [|discriminate]. cbn [rthen] in E. destruct (res_map export_bit x) as [bs|]; [|discriminate].
      injection E as <-. constructor; [|apply IH; reflexivity]. destruct e as [s|n]; [|discriminate]. cbn [export_bit] in B. unfold aget_res in B.
      destruct (aget str_eqb s (rev_table export_options)) as [z|] eqn:G; [|discriminate]. injection B as <-. apply aget_in in G. cbn in G.
      repeat (destruct G as [[= _ <-]|G]; [lia|]). destruct G.
  Qed.
End Rows.
