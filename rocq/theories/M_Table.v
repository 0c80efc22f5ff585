(** Model of the table of entry types, constants.py 142-324 [parser_classes]: which parser and
    which compiler belong to which entry id. The parsers and compilers themselves are modelled in
    M_Simple.v, M_Text.v, M_Bitmap.v, M_TrueType.v, M_Glyph.v and M_Options.v; here they get a common
    type, and the table fills the [codecs] record of M_Container.v. *)
From Coq Require Import String.
From Verif Require Import Base M_Stream M_Helpers M_Text M_Py M_Simple M_Bitmap M_TrueType M_Glyph
  M_Float M_Options M_Container.
Local Open Scope list_scope.
Open Scope rd_scope.

(** typing.py: the values that [VfbEntry.data] can hold once decompiled, one constructor per type
    of data. *)
Inductive value :=
| DStr (x : pystr)
| DInt (x : Z)
| DDouble (x : Z)
| DInts (x : list Z)
| DDoubles (x : list Z)
| DEncoding (x : Z * pystr)
| DFlags (x : flags_dict)
| DMappingMode (x : mapping_mode)
| DOptionList (x : list str_or_int)
| DCmaps (x : list custom_cmap)
| DAxes (x : list (list (Z * Z)))
| DDoublePairs (x : list (Z * Z))
| DMasterLocation (x : Z * list Z)
| DKernPair (x : kern_pair)
| DFLVersion (x : fl_version)
| DBinaryTable (x : binary_table)
| DPclt (x : pclt)
| DPSInfo (x : ps_info)
| DPSOptions (x : ps_options)
| DGasp (x : list gasp_rec)
| DTTInfo (x : tt_info)
| DStems (x : tt_stems)
| DZones (x : tt_zones)
| DDeltas (x : zone_deltas)
| DVdmx (x : list vdmx_rec)
| DNames (x : list name_record)
| DLines (x : list pystr)
| DBackground (x : background)
| DBitmaps (x : list glyph_bitmap)
| DAnchors (x : list mm_anchor)
| DAnchorProps (x : list anchor_props)
| DGdef (x : gdef)
| DPair (x : Z * Z)
| DOrigin (x : Z * Z)
| DSketch (x : list (Z * Z * Z))
| DLinks (x : links)
| DPairs (x : list (Z * Z))
| DGuides (x : guides)
| DGuideProps (x : guide_props)
| DGlyph (x : glyph)
| DGlobalMask (x : mask_outlines)
| DMask (x : mask)
| DFontOptions (x : font_options_dict)
| DInstances (x : list instance).

(** A parser of the table may look at the Vfb ([ctx]); a compiler as well. [on_none] is what the
    compiler does with None in place of data. *)
Definition parser := ctx -> rd value.
Record compiler := Compiler { on_value : ctx -> value -> wr; on_none : wr }.

Definition plain {A} (inj : A -> value) (r : rd A) : rd value := x <- r ;; ret (inj x).

(** [self.vfb.writer_platform == "windows"] (parsers/bitmap.py 65, compilers/bitmap.py 71) *)
Definition on_windows (c : ctx) : bool :=
  match writer_platform c with Windows => true | MacOS => false end.

(** ** The parsers. The [o : oracles] are those of M_Glyph.v. *)

(** parsers/base.py 177-238 *)
Definition BaseParser : parser := fun c => plain DStr parse_hex.
(** parsers/text.py 110-116 *)
Definition StringParser : parser := fun c => plain DStr parse_string.
(** parsers/flversion.py 28-54 *)
Definition FLVersionParser : parser := fun c => plain DFLVersion parse_fl_version.
(** parsers/base.py 329-333 *)
Definition GlyphEncodingParser : parser := fun c => plain DEncoding parse_encoding.
(** parsers/numeric.py 41-65 *)
Definition Int16Parser : parser := fun c => plain DInt parse_int16.
(** parsers/numeric.py 97-103 *)
Definition SignedInt16Parser : parser := fun c => plain DInt parse_sint16.
(** parsers/numeric.py 106-113 *)
Definition SignedInt32Parser : parser := fun c => plain DInt parse_sint32.
(** parsers/numeric.py 7-13 *)
Definition DoubleParser : parser := fun c => plain DDouble parse_double.
(** parsers/numeric.py 32-38 *)
Definition DoubleListParser : parser := fun c => plain DDoubles parse_doubles.
(** parsers/numeric.py 68-85 *)
Definition IntListParser : parser := fun c => plain DInts parse_int_list.
(** parsers/numeric.py 88-94 *)
Definition PanoseParser : parser := fun c => plain DInts parse_panose.
(** parsers/numeric.py 116-123 *)
Definition UnicodeRangesParser : parser := fun c => plain DInts parse_unicode_ranges.
(** parsers/base.py 298-311 *)
Definition EncodedValueListParser : parser := fun c => plain DInts parse_values.
(** parsers/base.py 314-326 *)
Definition EncodedValueListWithCountParser : parser := fun c => plain DInts parse_counted.
(** parsers/base.py 336-345 *)
Definition OpenTypeKerningClassFlagsParser : parser := fun c => plain DFlags (parse_class_flags 2).
(** parsers/base.py 348-358 *)
Definition OpenTypeMetricsClassFlagsParser : parser := fun c => plain DFlags (parse_class_flags 3).
(** parsers/base.py 262-295 *)
Definition MappingModeParser : parser := fun c => plain DMappingMode parse_mapping_mode.
(** parsers/binary.py 9-13 *)
Definition BinaryTableParser : parser := fun c => plain DBinaryTable parse_binary_table.
(** parsers/bitmap.py 104-124 *)
Definition BackgroundBitmapParser : parser := fun c => plain DBackground (parse_background (on_windows c)).
(** parsers/bitmap.py 127-151 *)
Definition GlyphBitmapsParser : parser := fun c => plain DBitmaps (parse_glyph_bitmaps (on_windows c)).
(** parsers/cmap.py 5-23 *)
Definition CustomCmapParser : parser := fun c => plain DCmaps parse_custom_cmaps.
(** parsers/fl3.py 8-23 *)
Definition MMKernPairParser : parser := fun c => plain DKernPair (parse_kern_pair (num_masters c)).
(** parsers/glyph.py 478-482 *)
Definition GlobalMaskParser : parser := fun c => plain DGlobalMask parse_global_mask.
(** parsers/glyph.py 63-74 *)
Definition GlyphAnchorsParser : parser := fun c => plain DAnchors parse_anchors.
(** parsers/glyph.py 77-85 *)
Definition GlyphAnchorsSuppParser : parser := fun c => plain DAnchorProps parse_anchor_props.
(** parsers/glyph.py 88-125 *)
Definition GlyphGDEFParser : parser := fun c => plain DGdef parse_gdef.
(** parsers/glyph.py 128-132 *)
Definition GlyphOriginParser : parser := fun c => plain DOrigin parse_int16_pair.
(** parsers/glyph.py 135-423 *)
Definition GlyphParser (o : oracles) : parser := fun c => plain DGlyph (parse_glyph o).
(** parsers/glyph.py 426-432 *)
Definition GlyphSketchParser : parser := fun c => plain DSketch parse_sketch.
(** parsers/glyph.py 435-441 *)
Definition GlyphUnicodeParser : parser := fun c => plain DInts parse_unicodes.
(** parsers/glyph.py 444-450 *)
Definition GlyphUnicodeSuppParser : parser := fun c => plain DInts parse_unicodes_supp.
(** parsers/glyph.py 453-462 *)
Definition LinkParser : parser := fun c => plain DLinks parse_links.
(** parsers/glyph.py 465-475 *)
Definition MaskParser : parser := fun c => plain DMask parse_mask.
(** parsers/glyph.py 485-494 *)
Definition MaskMetricsParser : parser := fun c => plain DPair parse_int16_pair.
(** parsers/glyph.py 497-506 *)
Definition MaskMetricsMMParser : parser := fun c => plain DPairs (parse_mask_metrics_mm (Some (num_masters c))).
(** parsers/guides.py 56-61 *)
Definition GlobalGuidesParser (o : oracles) : parser := fun c => plain DGuides (parse_global_guides o (Some (num_masters c))).
(** parsers/guides.py 64-86 *)
Definition GuidePropertiesParser : parser := fun c => plain DGuideProps parse_guide_props.
(** parsers/mm.py 5-16 *)
Definition AnisotropicInterpolationsParser : parser := fun c => plain DAxes parse_anisotropic.
(** parsers/mm.py 19-25 *)
Definition AxisMappingsCountParser : parser := fun c => plain DInts parse_axis_counts.
(** parsers/mm.py 28-40 *)
Definition AxisMappingsParser : parser := fun c => plain DDoublePairs parse_axis_mappings.
(** parsers/mm.py 43-51 *)
Definition MasterLocationParser : parser := fun c => plain DMasterLocation parse_master_location.
(** parsers/mm.py 54-63 *)
Definition PrimaryInstancesParser : parser := fun c => plain DInstances parse_instances.
(** parsers/options.py 7-16 *)
Definition ExportOptionsParser : parser := fun c => plain DOptionList parse_export_options.
(** parsers/options.py 19-83 *)
Definition FontOptionsParser : parser := fun c => plain DFontOptions parse_font_options.
(** parsers/pclt.py 5-52 *)
Definition PcltParser : parser := fun c => plain DPclt parse_pclt.
(** parsers/ps.py 50-65 *)
Definition PostScriptGlobalHintingOptionsParser : parser := fun c => plain DPSOptions parse_ps_global.
(** parsers/ps.py 68-83 *)
Definition PostScriptGlyphHintingOptionsParser : parser := fun c => plain DPSOptions parse_ps_glyph.
(** parsers/ps.py 16-47 *)
Definition PostScriptInfoParser : parser := fun c => plain DPSInfo parse_ps_info.
(** parsers/text.py 7-31 *)
Definition NameRecordsParser : parser := fun c => plain DNames parse_name_records.
(** parsers/text.py 34-107 *)
Definition OpenTypeStringParser : parser := fun c => plain DLines parse_opentype_string.
(** parsers/truetype.py 32-47 *)
Definition GaspParser : parser := fun c => plain DGasp parse_gasp.
(** parsers/truetype.py 50-155 *)
Definition TrueTypeInfoParser : parser := fun c => plain DTTInfo parse_tt_info.
(** parsers/truetype.py 200-218 *)
Definition TrueTypeStemPpems1Parser : parser := fun c => plain DStems (parse_stem_ppems1 (Some (ttStemsV_count c)) (Some (ttStemsH_count c))).
(** parsers/truetype.py 221-239 *)
Definition TrueTypeStemPpems23Parser : parser := fun c => plain DStems parse_stem_ppems23.
(** parsers/truetype.py 180-197 *)
Definition TrueTypeStemPpemsParser : parser := fun c => plain DStems parse_stem_ppems.
(** parsers/truetype.py 158-177 *)
Definition TrueTypeStemsParser : parser := fun c => plain DStems parse_tt_stems.
(** parsers/truetype.py 242-256 *)
Definition TrueTypeZoneDeltasParser : parser := fun c => plain DDeltas parse_zone_deltas.
(** parsers/truetype.py 259-275 *)
Definition TrueTypeZonesParser : parser := fun c => plain DZones parse_tt_zones.
(** parsers/truetype.py 278-290 *)
Definition VdmxParser : parser := fun c => plain DVdmx parse_vdmx.

(** ** The compilers. Data of another type than the parser of the same row returns raises; which
    exception that is depends on the value, [TypeError] stands for all of them (simplification). *)

(** compilers/base.py 246-260 *)
Definition HexStringCompiler : compiler :=
  Compiler (fun c v => match v with DStr x => compile_hex x | _ => Err TypeError end) (wnil).
(** compilers/text.py 35-41 *)
Definition StringCompiler : compiler :=
  Compiler (fun c v => match v with DStr x => compile_string x | _ => Err TypeError end) (compile_string []).
(** compilers/text.py 44-50 *)
Definition VendorIdCompiler : compiler :=
  Compiler (fun c v => match v with DStr x => compile_vendor_id x | _ => Err TypeError end) (compile_vendor_id []).
(** compilers/flversion.py 13-28 *)
Definition FLVersionCompiler : compiler :=
  Compiler (fun c v => match v with DFLVersion x => compile_fl_version x | _ => Err TypeError end) (Err TypeError).
(** compilers/base.py 233-243 *)
Definition GlyphEncodingCompiler : compiler :=
  Compiler (fun c v => match v with DEncoding x => compile_encoding x | _ => Err TypeError end) (Err TypeError).
(** compilers/numeric.py 25-31 *)
Definition Int16Compiler : compiler :=
  Compiler (fun c v => match v with DInt x => compile_int16 x | _ => Err TypeError end) (Err AttributeError).
(** compilers/numeric.py 58-64 *)
Definition SignedInt16Compiler : compiler :=
  Compiler (fun c v => match v with DInt x => compile_sint16 x | _ => Err TypeError end) (Err AttributeError).
(** compilers/numeric.py 67-73 *)
Definition SignedInt32Compiler : compiler :=
  Compiler (fun c v => match v with DInt x => compile_sint32 x | _ => Err TypeError end) (Err AttributeError).
(** compilers/numeric.py 7-13 *)
Definition DoubleCompiler : compiler :=
  Compiler (fun c v => match v with DDouble x => compile_double x | _ => Err TypeError end) (Err StructError).
(** compilers/numeric.py 16-22 *)
Definition DoubleListCompiler : compiler :=
  Compiler (fun c v => match v with DDoubles x => compile_doubles x | _ => Err TypeError end) (Err TypeError).
(** compilers/numeric.py 34-45 *)
Definition IntListCompiler : compiler :=
  Compiler (fun c v => match v with DInts x => compile_int_list x | _ => Err TypeError end) (Err TypeError).
(** compilers/numeric.py 48-55 *)
Definition PanoseCompiler : compiler :=
  Compiler (fun c v => match v with DInts x => compile_panose x | _ => Err TypeError end) (Err TypeError).
(** compilers/numeric.py 76-85 *)
Definition UnicodeRangesCompiler : compiler :=
  Compiler (fun c v => match v with DInts x => compile_unicode_ranges x | _ => Err TypeError end) (Err TypeError).
(** compilers/base.py 220-223 *)
Definition EncodedValueListCompiler : compiler :=
  Compiler (fun c v => match v with DInts x => compile_values x | _ => Err TypeError end) (Err TypeError).
(** compilers/base.py 226-230 *)
Definition EncodedValueListWithCountCompiler : compiler :=
  Compiler (fun c v => match v with DInts x => compile_counted x | _ => Err TypeError end) (Err TypeError).
(** compilers/base.py 284-291 *)
Definition OpenTypeKerningClassFlagsCompiler : compiler :=
  Compiler (fun c v => match v with DFlags x => (compile_class_flags 2) x | _ => Err TypeError end) (Err TypeError).
(** compilers/base.py 294-302 *)
Definition OpenTypeMetricsClassFlagsCompiler : compiler :=
  Compiler (fun c v => match v with DFlags x => (compile_class_flags 3) x | _ => Err TypeError end) (Err TypeError).
(** compilers/base.py 270-281 *)
Definition MappingModeCompiler : compiler :=
  Compiler (fun c v => match v with DMappingMode x => compile_mapping_mode x | _ => Err TypeError end) (Err TypeError).
(** compilers/binary.py 7-14 *)
Definition BinaryTableCompiler : compiler :=
  Compiler (fun c v => match v with DBinaryTable x => compile_binary_table x | _ => Err TypeError end) (Err TypeError).
(** compilers/bitmap.py 84-99 *)
Definition BackgroundBitmapCompiler : compiler :=
  Compiler (fun c v => match v with DBackground x => (compile_background (on_windows c)) x | _ => Err TypeError end) (Err TypeError).
(** compilers/bitmap.py 102-120 *)
Definition GlyphBitmapsCompiler : compiler :=
  Compiler (fun c v => match v with DBitmaps x => (compile_glyph_bitmaps (on_windows c)) x | _ => Err TypeError end) (Err TypeError).
(** compilers/cmap.py 9-15 *)
Definition CustomCmapCompiler : compiler :=
  Compiler (fun c v => match v with DCmaps x => compile_custom_cmaps x | _ => Err TypeError end) (Err TypeError).
(** compilers/fl3.py 8-11 *)
Definition MMKernPairCompiler : compiler :=
  Compiler (fun c v => match v with DKernPair x => compile_kern_pair x | _ => Err TypeError end) (Err TypeError).
(** compilers/glyph.py 405-408 *)
Definition GlobalMaskCompiler : compiler :=
  Compiler (fun c v => match v with DGlobalMask x => compile_global_mask x | _ => Err TypeError end) (Err TypeError).
(** compilers/glyph.py 28-36 *)
Definition GlyphAnchorsCompiler : compiler :=
  Compiler (fun c v => match v with DAnchors x => (compile_anchors (Some (num_masters c))) x | _ => Err TypeError end) (Err TypeError).
(** compilers/glyph.py 39-44 *)
Definition GlyphAnchorsSuppCompiler : compiler :=
  Compiler (fun c v => match v with DAnchorProps x => compile_anchor_props x | _ => Err TypeError end) (Err TypeError).
(** compilers/glyph.py 47-74 *)
Definition GlyphGDEFCompiler : compiler :=
  Compiler (fun c v => match v with DGdef x => compile_gdef x | _ => Err TypeError end) (Err AttributeError).
(** compilers/glyph.py 316-319 *)
Definition GlyphOriginCompiler : compiler :=
  Compiler (fun c v => match v with DOrigin x => compile_int16_pair x | _ => Err TypeError end) (Err TypeError).
(** compilers/glyph.py 77-313 *)
Definition GlyphCompiler (o : oracles) : compiler :=
  Compiler (fun c v => match v with DGlyph x => (compile_glyph o (Some (num_masters c))) x | _ => Err TypeError end) (Err TypeError).
(** compilers/glyph.py 322-328 *)
Definition GlyphSketchCompiler : compiler :=
  Compiler (fun c v => match v with DSketch x => compile_sketch x | _ => Err TypeError end) (Err TypeError).
(** compilers/glyph.py 331-334 *)
Definition GlyphUnicodesCompiler : compiler :=
  Compiler (fun c v => match v with DInts x => compile_unicodes x | _ => Err TypeError end) (Err TypeError).
(** compilers/glyph.py 337-340 *)
Definition GlyphUnicodesSuppCompiler : compiler :=
  Compiler (fun c v => match v with DInts x => compile_unicodes_supp x | _ => Err TypeError end) (Err TypeError).
(** compilers/glyph.py 384-391 *)
Definition LinksCompiler : compiler :=
  Compiler (fun c v => match v with DLinks x => compile_links x | _ => Err TypeError end) (Err TypeError).
(** compilers/glyph.py 394-402 *)
Definition MaskCompiler : compiler :=
  Compiler (fun c v => match v with DMask x => compile_mask x | _ => Err TypeError end) (Err TypeError).
(** compilers/glyph.py 411-415 *)
Definition MaskMetricsCompiler : compiler :=
  Compiler (fun c v => match v with DPair x => compile_int16_pair x | _ => Err TypeError end) (Err TypeError).
(** compilers/glyph.py 418-423 *)
Definition MaskMetricsMMCompiler : compiler :=
  Compiler (fun c v => match v with DPairs x => compile_mask_metrics_mm x | _ => Err TypeError end) (Err TypeError).
(** compilers/guides.py 11-21 *)
Definition GuidesCompiler (o : oracles) : compiler :=
  Compiler (fun c v => match v with DGuides x => (compile_guides o (Some (num_masters c))) x | _ => Err TypeError end) (Err TypeError).
(** compilers/guides.py 24-38 *)
Definition GuidePropertiesCompiler : compiler :=
  Compiler (fun c v => match v with DGuideProps x => compile_guide_props x | _ => Err TypeError end) (Err TypeError).
(** compilers/mm.py 9-15 *)
Definition AnisotropicInterpolationsCompiler : compiler :=
  Compiler (fun c v => match v with DAxes x => compile_anisotropic x | _ => Err TypeError end) (Err TypeError).
(** compilers/mm.py 18-21 *)
Definition AxisMappingsCountCompiler : compiler :=
  Compiler (fun c v => match v with DInts x => compile_axis_counts x | _ => Err TypeError end) (Err TypeError).
(** compilers/mm.py 24-28 *)
Definition AxisMappingsCompiler : compiler :=
  Compiler (fun c v => match v with DDoublePairs x => compile_axis_mappings x | _ => Err TypeError end) (Err TypeError).
(** compilers/mm.py 31-35 *)
Definition MasterLocationCompiler : compiler :=
  Compiler (fun c v => match v with DMasterLocation x => compile_master_location x | _ => Err TypeError end) (Err TypeError).
(** compilers/mm.py 38-45 *)
Definition PrimaryInstancesCompiler : compiler :=
  Compiler (fun c v => match v with DInstances x => compile_instances x | _ => Err TypeError end) (Err TypeError).
(** compilers/options.py 11-15 *)
Definition ExportOptionsCompiler : compiler :=
  Compiler (fun c v => match v with DOptionList x => compile_export_options x | _ => Err TypeError end) (Err TypeError).
(** compilers/options.py 18-60 *)
Definition FontOptionsCompiler : compiler :=
  Compiler (fun c v => match v with DFontOptions x => compile_font_options x | _ => Err TypeError end) (Err AttributeError).
(** compilers/pclt.py 9-27 *)
Definition PcltCompiler : compiler :=
  Compiler (fun c v => match v with DPclt x => compile_pclt x | _ => Err TypeError end) (Err TypeError).
(** compilers/ps.py 60-68 *)
Definition PostScriptGlobalHintingOptionsCompiler : compiler :=
  Compiler (fun c v => match v with DPSOptions x => compile_ps_global x | _ => Err TypeError end) (Err AttributeError).
(** compilers/ps.py 71-79 *)
Definition PostScriptGlyphHintingOptionsCompiler : compiler :=
  Compiler (fun c v => match v with DPSOptions x => compile_ps_glyph x | _ => Err TypeError end) (Err AttributeError).
(** compilers/ps.py 8-57 *)
Definition PostScriptInfoCompiler : compiler :=
  Compiler (fun c v => match v with DPSInfo x => compile_ps_info x | _ => Err TypeError end) (Err TypeError).
(** compilers/text.py 6-23 *)
Definition NameRecordsCompiler : compiler :=
  Compiler (fun c v => match v with DNames x => compile_name_records x | _ => Err TypeError end) (Err TypeError).
(** compilers/text.py 26-32 *)
Definition OpenTypeStringCompiler : compiler :=
  Compiler (fun c v => match v with DLines x => compile_opentype_string x | _ => Err TypeError end) (Err TypeError).
(** compilers/truetype.py 34-38 *)
Definition GaspCompiler : compiler :=
  Compiler (fun c v => match v with DGasp x => compile_gasp x | _ => Err TypeError end) (Err TypeError).
(** compilers/truetype.py 41-116 *)
Definition TrueTypeInfoCompiler : compiler :=
  Compiler (fun c v => match v with DTTInfo x => compile_tt_info x | _ => Err TypeError end) (Err TypeError).
(** compilers/truetype.py 119-124 *)
Definition TrueTypeStemPpems1Compiler : compiler :=
  Compiler (fun c v => match v with DStems x => compile_stem_ppems1 x | _ => Err TypeError end) (Err TypeError).
(** compilers/truetype.py 127-134 *)
Definition TrueTypeStemPpems23Compiler : compiler :=
  Compiler (fun c v => match v with DStems x => compile_stem_ppems23 x | _ => Err TypeError end) (Err TypeError).
(** compilers/truetype.py 137-144 *)
Definition TrueTypeStemPpemsCompiler : compiler :=
  Compiler (fun c v => match v with DStems x => compile_stem_ppems x | _ => Err TypeError end) (Err TypeError).
(** compilers/truetype.py 147-157 *)
Definition TrueTypeStemsCompiler : compiler :=
  Compiler (fun c v => match v with DStems x => compile_tt_stems x | _ => Err TypeError end) (Err TypeError).
(** compilers/truetype.py 180-195 *)
Definition TrueTypeZoneDeltasCompiler : compiler :=
  Compiler (fun c v => match v with DDeltas x => compile_zone_deltas x | _ => Err TypeError end) (Err AttributeError).
(** compilers/truetype.py 160-177 *)
Definition TrueTypeZonesCompiler : compiler :=
  Compiler (fun c v => match v with DZones x => compile_tt_zones x | _ => Err TypeError end) (Err TypeError).
(** compilers/truetype.py 198-204 *)
Definition VdmxCompiler : compiler :=
  Compiler (fun c v => match v with DVdmx x => compile_vdmx x | _ => Err TypeError end) (Err TypeError).

(** ** constants.py 142-324 [parser_classes], ids from enum.py *)
Definition parser_classes (o : oracles) : list (Z * (pystr * parser * compiler)) :=
  [
   (1, (py "Block File Data Start", BaseParser, HexStringCompiler));
   (4, (py "Block Font Start", BaseParser, HexStringCompiler));
   (10, (py "FL Version", FLVersionParser, FLVersionCompiler));
   (262, (py "Block Names Start", BaseParser, HexStringCompiler));
   (1501, (py "Encoding Default", GlyphEncodingParser, GlyphEncodingCompiler));
   (1500, (py "Encoding", GlyphEncodingParser, GlyphEncodingCompiler));
   (1502, (py "MM Encoding Type", Int16Parser, Int16Compiler));
   (518, (py "Block Names End", StringParser, HexStringCompiler));
   (257, (py "Block Font Info Start", StringParser, HexStringCompiler));
   (1026, (py "font_name", StringParser, StringCompiler));
   (1503, (py "Master Count", Int16Parser, Int16Compiler));
   (1517, (py "weight_vector", DoubleListParser, DoubleListCompiler));
   (1044, (py "unique_id", SignedInt32Parser, SignedInt32Compiler));
   (1046, (py "version", StringParser, StringCompiler));
   (1038, (py "notice", StringParser, StringCompiler));
   (1025, (py "full_name", StringParser, StringCompiler));
   (1027, (py "family_name", StringParser, StringCompiler));
   (1024, (py "pref_family_name", StringParser, StringCompiler));
   (1056, (py "menu_name", StringParser, StringCompiler));
   (1092, (py "apple_name", StringParser, StringCompiler));
   (1028, (py "weight", StringParser, StringCompiler));
   (1065, (py "width", StringParser, StringCompiler));
   (1069, (py "License", StringParser, StringCompiler));
   (1070, (py "License URL", StringParser, StringCompiler));
   (1037, (py "copyright", StringParser, StringCompiler));
   (1061, (py "trademark", StringParser, StringCompiler));
   (1062, (py "designer", StringParser, StringCompiler));
   (1063, (py "designer_url", StringParser, StringCompiler));
   (1064, (py "vendor_url", StringParser, StringCompiler));
   (1039, (py "source", StringParser, StringCompiler));
   (1034, (py "is_fixed_pitch", Int16Parser, Int16Compiler));
   (1048, (py "weight_code", SignedInt16Parser, SignedInt16Compiler));
   (1029, (py "italic_angle", DoubleParser, DoubleCompiler));
   (1047, (py "slant_angle", DoubleParser, DoubleCompiler));
   (1030, (py "underline_position", SignedInt16Parser, SignedInt16Compiler));
   (1031, (py "underline_thickness", Int16Parser, Int16Compiler));
   (1054, (py "ms_charset", Int16Parser, Int16Compiler));
   (1118, (py "panose", PanoseParser, PanoseCompiler));
   (1128, (py "tt_version", StringParser, StringCompiler));
   (1129, (py "tt_u_id", StringParser, StringCompiler));
   (1127, (py "style_name", StringParser, StringCompiler));
   (1137, (py "pref_style_name", StringParser, StringCompiler));
   (1139, (py "mac_compatible", StringParser, StringCompiler));
   (1140, (py "Sample Text", StringParser, StringCompiler));
   (1121, (py "vendor", StringParser, VendorIdCompiler));
   (1133, (py "xuid", IntListParser, IntListCompiler));
   (1134, (py "xuid_num", Int16Parser, Int16Compiler));
   (1132, (py "year", Int16Parser, Int16Compiler));
   (1130, (py "version_major", Int16Parser, Int16Compiler));
   (1131, (py "version_minor", Int16Parser, Int16Compiler));
   (1135, (py "upm", Int16Parser, Int16Compiler));
   (1090, (py "fond_id", Int16Parser, Int16Compiler));
   (1093, (py "PostScript Hinting Options", PostScriptGlobalHintingOptionsParser, PostScriptGlobalHintingOptionsCompiler));
   (1068, (py "Collection", EncodedValueListWithCountParser, EncodedValueListWithCountCompiler));
   (1530, (py "blue_values_num", Int16Parser, Int16Compiler));
   (1531, (py "other_blues_num", Int16Parser, Int16Compiler));
   (1532, (py "family_blues_num", Int16Parser, Int16Compiler));
   (1533, (py "family_other_blues_num", Int16Parser, Int16Compiler));
   (1534, (py "stem_snap_h_num", Int16Parser, Int16Compiler));
   (1535, (py "stem_snap_v_num", Int16Parser, Int16Compiler));
   (1267, (py "font_style", Int16Parser, Int16Compiler));
   (1057, (py "pcl_id", Int16Parser, Int16Compiler));
   (1058, (py "vp_id", Int16Parser, Int16Compiler));
   (1060, (py "ms_id", Int16Parser, Int16Compiler));
   (1059, (py "pcl_chars_set", StringParser, StringCompiler));
   (1261, (py "cvt", BaseParser, HexStringCompiler));
   (1262, (py "prep", BaseParser, HexStringCompiler));
   (1263, (py "fpgm", BaseParser, HexStringCompiler));
   (1265, (py "gasp", GaspParser, GaspCompiler));
   (1264, (py "ttinfo", TrueTypeInfoParser, TrueTypeInfoCompiler));
   (1271, (py "vdmx", VdmxParser, VdmxCompiler));
   (1270, (py "hhea_line_gap", Int16Parser, Int16Compiler));
   (1278, (py "hhea_ascender", SignedInt16Parser, SignedInt16Compiler));
   (1279, (py "hhea_descender", SignedInt16Parser, SignedInt16Compiler));
   (1266, (py "TrueType Stem PPEMs 2 And 3", TrueTypeStemPpems23Parser, TrueTypeStemPpems23Compiler));
   (1268, (py "TrueType Stem PPEMs", TrueTypeStemPpemsParser, TrueTypeStemPpemsCompiler));
   (1269, (py "TrueType Stems", TrueTypeStemsParser, TrueTypeStemsCompiler));
   (1524, (py "TrueType Stem PPEMs 1", TrueTypeStemPpems1Parser, TrueTypeStemPpems1Compiler));
   (1255, (py "TrueType Zones", TrueTypeZonesParser, TrueTypeZonesCompiler));
   (2021, (py "unicoderanges", UnicodeRangesParser, UnicodeRangesCompiler));
   (1272, (py "stemsnaplimit", Int16Parser, Int16Compiler));
   (1274, (py "zoneppm", Int16Parser, Int16Compiler));
   (1275, (py "codeppm", Int16Parser, Int16Compiler));
   (1604, (py "dropoutppm", Int16Parser, Int16Compiler));
   (2032, (py "Measurement Line", SignedInt16Parser, SignedInt16Compiler));
   (1273, (py "TrueType Zone Deltas", TrueTypeZoneDeltasParser, TrueTypeZoneDeltasCompiler));
   (1138, (py "fontnames", NameRecordsParser, NameRecordsCompiler));
   (1141, (py "Custom CMAPs", CustomCmapParser, CustomCmapCompiler));
   (1136, (py "PCLT Table", PcltParser, PcltCompiler));
   (2022, (py "Export PCLT Table", Int16Parser, Int16Compiler));
   (2025, (py "note", StringParser, StringCompiler));
   (2030, (py "Font Flags", BaseParser, HexStringCompiler));
   (2016, (py "customdata", StringParser, StringCompiler));
   (2024, (py "OpenType Metrics Class Flags", OpenTypeMetricsClassFlagsParser, OpenTypeMetricsClassFlagsCompiler));
   (2026, (py "OpenType Kerning Class Flags", OpenTypeKerningClassFlagsParser, OpenTypeKerningClassFlagsCompiler));
   (2014, (py "TrueTypeTable", BinaryTableParser, BinaryTableCompiler));
   (1276, (py "features", OpenTypeStringParser, OpenTypeStringCompiler));
   (1277, (py "OpenType Class", StringParser, StringCompiler));
   (513, (py "Block Font Info End", BaseParser, HexStringCompiler));
   (271, (py "Block MM Font Info Start", BaseParser, HexStringCompiler));
   (1513, (py "Axis Count", Int16Parser, Int16Compiler));
   (1514, (py "Axis Name", StringParser, StringCompiler));
   (1523, (py "Anisotropic Interpolation Mappings", AnisotropicInterpolationsParser, AnisotropicInterpolationsCompiler));
   (1515, (py "Axis Mappings Count", AxisMappingsCountParser, AxisMappingsCountCompiler));
   (1516, (py "Axis Mappings", AxisMappingsParser, AxisMappingsCompiler));
   (1504, (py "Master Name", StringParser, StringCompiler));
   (1505, (py "Master Location", MasterLocationParser, MasterLocationCompiler));
   (1247, (py "Primary Instance Locations", DoubleListParser, DoubleListCompiler));
   (1254, (py "Primary Instances", PrimaryInstancesParser, PrimaryInstancesCompiler));
   (1536, (py "PostScript Info", PostScriptInfoParser, PostScriptInfoCompiler));
   (527, (py "Block MM Font Info End", BaseParser, HexStringCompiler));
   (1294, (py "Global Guides", GlobalGuidesParser o, GuidesCompiler o));
   (1296, (py "Global Guide Properties", GuidePropertiesParser, GuidePropertiesCompiler));
   (1295, (py "Global Mask", GlobalMaskParser, GlobalMaskCompiler));
   (1066, (py "default_character", StringParser, StringCompiler));
   (2001, (py "Glyph", GlyphParser o, GlyphCompiler o));
   (2008, (py "Links", LinkParser, LinksCompiler));
   (2007, (py "image", BackgroundBitmapParser, BackgroundBitmapCompiler));
   (2013, (py "Glyph Bitmaps", GlyphBitmapsParser, GlyphBitmapsCompiler));
   (2023, (py "VSB", EncodedValueListParser, EncodedValueListCompiler));
   (2019, (py "Glyph Sketch", GlyphSketchParser, GlyphSketchCompiler));
   (2010, (py "Glyph Hinting Options", PostScriptGlyphHintingOptionsParser, PostScriptGlyphHintingOptionsCompiler));
   (2009, (py "mask", MaskParser, MaskCompiler));
   (2011, (py "mask.metrics", MaskMetricsParser, MaskMetricsCompiler));
   (2028, (py "mask.metrics_mm", MaskMetricsMMParser, MaskMetricsMMCompiler));
   (2027, (py "Glyph Origin", GlyphOriginParser, GlyphOriginCompiler));
   (1250, (py "unicodes", GlyphUnicodeParser, GlyphUnicodesCompiler));
   (2034, (py "Custom Dict", StringParser, StringCompiler));
   (1253, (py "Glyph Unicode Non-BMP", GlyphUnicodeSuppParser, GlyphUnicodesSuppCompiler));
   (2012, (py "mark", Int16Parser, Int16Compiler));
   (2015, (py "glyph.customdata", StringParser, StringCompiler));
   (2017, (py "glyph.note", StringParser, StringCompiler));
   (2018, (py "Glyph GDEF Data", GlyphGDEFParser, GlyphGDEFCompiler));
   (2020, (py "Glyph Anchors Supplemental", GlyphAnchorsSuppParser, GlyphAnchorsSuppCompiler));
   (2029, (py "Glyph Anchors MM", GlyphAnchorsParser, GlyphAnchorsCompiler));
   (2031, (py "Glyph Guide Properties", GuidePropertiesParser, GuidePropertiesCompiler));
   (1743, (py "Font Options", FontOptionsParser, FontOptionsCompiler));
   (1744, (py "Export Options", ExportOptionsParser, ExportOptionsCompiler));
   (1742, (py "Mapping Mode", MappingModeParser, MappingModeCompiler));
   (272, (py "Block MM Kerning Start", BaseParser, HexStringCompiler));
   (1410, (py "MMKernPair", MMKernPairParser, MMKernPairCompiler));
   (528, (py "Block MM Kerning End", BaseParser, HexStringCompiler));
   (5, (py "Block Font End", BaseParser, HexStringCompiler));
   (2, (py "Block File Data End", BaseParser, HexStringCompiler))
  ].

(** vfb/entry.py 131-149: [parser_classes.get(id)]; an unknown id gets [FALLBACK_PARSER] =
    [BaseParser] (vfb/entry.py 24) and no compiler. *)
Definition row (o : oracles) (i : Z) : option (pystr * parser * compiler) :=
  aget Z.eqb i (parser_classes o).
Definition parser_of (o : oracles) (i : Z) : parser :=
  match row o i with Some (_, p, _) => p | None => BaseParser end.
Definition compiler_of (o : oracles) (i : Z) : option compiler :=
  match row o i with Some (_, _, k) => Some k | None => None end.
(** vfb/entry.py 133, 148: [VfbEntry.key] *)
Definition key_of (o : oracles) (i : Z) : pystr :=
  match row o i with Some (k, _, _) => k | None => dec_str i end.

(** constants.py 328-340 *)
Definition ignore_minimal : list pystr :=
  [py "Global Guides"; py "Global Mask"; py "Glyph Bitmaps"; py "Glyph Guide Properties";
   py "glyph.note"; py "image"; py "mark"; py "mask"; py "note"].
(** constants.py 342-354 *)
Definition ignore_minimal_keys : list Z :=
  [1294; 1295; 2025; 2013; 2031; 2007; 2012; 2009; 2017].

(** vfb/vfb.py 257, 271, 278-279: what is remembered of the data decompiled while reading. The
    parsers of these three entries return a [DFLVersion], a [DInt] and a [DStems]. *)
Definition value_platform (v : value) : platform :=
  match v with
  | DFLVersion d => if str_eqb (fv_platform d) (py "windows") then Windows else MacOS
  | _ => MacOS
  end.
Definition value_int (v : value) : Z := match v with DInt n => n | _ => 0 end.
Definition value_stems (v : value) : Z * Z :=
  match v with
  | DStems d => (Z.of_nat (length (tts_v d)), Z.of_nat (length (tts_h d)))
  | _ => (0, 0)
  end.

Definition table (o : oracles) : codecs value :=
  mkCodecs value
    (fun i c data => run_parser (parser_of o i c) data)
    (fun i => match compiler_of o i with Some k => Some (on_value k) | None => None end)
    (fun i => match compiler_of o i with Some k => on_none k | None => Err RuntimeError end)
    value_platform value_int value_stems.
