(** Model of the loop over all entries of a VFB: ufo/builder.py 50-118, 416-680. What the single cases do is in
    the models of the parts: M_FontInfo, M_Programs, M_Builder, M_Master, M_Tth, M_Classes, M_Features,
    M_Designspace. The TrueType commands of the glyphs, which are exported after the loop, are in M_Tth. *)
From Coq Require Import String.
From Verif Require Import Base M_Py M_Simple M_Text M_TrueType M_Bitmap M_Glyph M_Options M_Container M_Table M_Groups.
From Verif Require Import M_Info M_FontInfo M_Tth M_Programs M_Builder M_Master M_Features M_Designspace.
Local Open Scope list_scope.

(** numbers of the designspace: a double by its bits, or a number of a text *)
Inductive num := NBits (x : Z) | NNum (x : M_Float.pynum).
(** [vfb.minimal], and the arguments of the builder that its loop looks at; the rest is what the code takes from
    libraries *)
Record settings := Settings {
  st_vfb_minimal : bool; st_minimal : bool; st_ps_hints : bool;
  st_ops : num_ops num; st_upper : pystr -> pystr; st_asm : asm_oracle }.

(** what is kept with a glyph: the data of its entry with [self.zone_names] at that time (builder.py 207), or the
    data of one of the entries after it *)
Inductive gvalue := VGlyph (g : mm_glyph) (zones : option (list pystr * list pystr)) | VData (d : value).

(** what concerns the designspace *)
Record design := Design {
  de_count : Z; de_axes : list (axis num); de_mappings : option (list Z); de_locations : list (Z * list num);
  de_instances : list (pystr * list num); de_masters : option Z }.
(** [VfbToUfoBuilder]. [fo_glyphs] has the glyphs, the kerning, the names and PostScript infos of the masters;
    [axis_count] is there and in [fo_design]. [fo_options] is [lib[TT_LIB_KEY]], [fo_lib] the rest of the lib. *)
Record font := Font {
  fo_info : info; fo_glyphs : bstate gvalue; fo_tt : tt_state; fo_options : option (list (pystr * Z));
  fo_features : pystr; fo_groups : groups; fo_flags : flags_dict;
  fo_guides : option guides; fo_props : guide_props; fo_counts : ps_counts; fo_design : design;
  fo_lib : list (pystr * value) }.
(** builder.py 79-117 *)
Definition new_font : font :=
  Font new_info b_start tt_start None [] [] [] None (GuideProps [] []) (PsCounts 0 0 0 0 0 0)
       (Design 0 [] None [] [] None) [].

(** assignments to the parts *)
Definition on_info (f : info -> res info) (s : font) : res font :=
  rmap (fun x => Font x (fo_glyphs s) (fo_tt s) (fo_options s) (fo_features s) (fo_groups s) (fo_flags s)
                      (fo_guides s) (fo_props s) (fo_counts s) (fo_design s) (fo_lib s)) (f (fo_info s)).
Definition on_glyphs (f : bstate gvalue -> res (bstate gvalue)) (s : font) : res font :=
  rmap (fun x => Font (fo_info s) x (fo_tt s) (fo_options s) (fo_features s) (fo_groups s) (fo_flags s)
                      (fo_guides s) (fo_props s) (fo_counts s) (fo_design s) (fo_lib s)) (f (fo_glyphs s)).
Definition on_tt (f : tt_state -> res tt_state) (s : font) : res font :=
  rmap (fun x => Font (fo_info s) (fo_glyphs s) x (fo_options s) (fo_features s) (fo_groups s) (fo_flags s)
                      (fo_guides s) (fo_props s) (fo_counts s) (fo_design s) (fo_lib s)) (f (fo_tt s)).
Definition on_option (e : opt_entry) (s : font) : res font :=
  Ok (Font (fo_info s) (fo_glyphs s) (fo_tt s) (opt_step (fo_options s) e) (fo_features s) (fo_groups s) (fo_flags s)
           (fo_guides s) (fo_props s) (fo_counts s) (fo_design s) (fo_lib s)).
Definition on_features (x : pystr) (s : font) : res font :=
  Ok (Font (fo_info s) (fo_glyphs s) (fo_tt s) (fo_options s) x (fo_groups s) (fo_flags s)
           (fo_guides s) (fo_props s) (fo_counts s) (fo_design s) (fo_lib s)).
Definition on_groups (f : groups -> res groups) (s : font) : res font :=
  rmap (fun x => Font (fo_info s) (fo_glyphs s) (fo_tt s) (fo_options s) (fo_features s) x (fo_flags s)
                      (fo_guides s) (fo_props s) (fo_counts s) (fo_design s) (fo_lib s)) (f (fo_groups s)).
Definition on_flags (x : flags_dict) (s : font) : res font :=
  Ok (Font (fo_info s) (fo_glyphs s) (fo_tt s) (fo_options s) (fo_features s) (fo_groups s) x
           (fo_guides s) (fo_props s) (fo_counts s) (fo_design s) (fo_lib s)).
Definition on_guides (x : guides) (s : font) : res font :=
  Ok (Font (fo_info s) (fo_glyphs s) (fo_tt s) (fo_options s) (fo_features s) (fo_groups s) (fo_flags s)
           (Some x) (fo_props s) (fo_counts s) (fo_design s) (fo_lib s)).
Definition on_props (x : guide_props) (s : font) : res font :=
  Ok (Font (fo_info s) (fo_glyphs s) (fo_tt s) (fo_options s) (fo_features s) (fo_groups s) (fo_flags s)
           (fo_guides s) x (fo_counts s) (fo_design s) (fo_lib s)).
Definition on_counts (f : ps_counts -> ps_counts) (s : font) : res font :=
  Ok (Font (fo_info s) (fo_glyphs s) (fo_tt s) (fo_options s) (fo_features s) (fo_groups s) (fo_flags s)
           (fo_guides s) (fo_props s) (f (fo_counts s)) (fo_design s) (fo_lib s)).
Definition on_design (f : design -> res design) (s : font) : res font :=
  rmap (fun x => Font (fo_info s) (fo_glyphs s) (fo_tt s) (fo_options s) (fo_features s) (fo_groups s) (fo_flags s)
                      (fo_guides s) (fo_props s) (fo_counts s) x (fo_lib s)) (f (fo_design s)).
Definition on_lib (k : pystr) (v : value) (s : font) : res font :=
  Ok (Font (fo_info s) (fo_glyphs s) (fo_tt s) (fo_options s) (fo_features s) (fo_groups s) (fo_flags s)
           (fo_guides s) (fo_props s) (fo_counts s) (fo_design s) (aset str_eqb k v (fo_lib s))).

(** data for the font info: texts, numbers and lists are kept as they are *)
Definition info_data (d : value) : fi_data :=
  match d with
  | DStr x => DVal (IStr x) | DInt x => DVal (IInt x) | DDouble x => DVal (IDouble x) | DInts x => DVal (IList x)
  | DTTInfo x => DTT x | M_Table.DGasp x => M_FontInfo.DGasp x | M_Table.DNames x => M_FontInfo.DNames x
  | _ => M_FontInfo.DNames []
  end.

(** builder.py 450-475, 178-212: a glyph entry *)
Definition glyph_entry (c : settings) (x : glyph) (s : font) : res font :=
  rthen (build_mm_glyph (st_minimal c) (st_ps_hints c) x) (fun r =>
  on_glyphs (fun b => b_add b (BGlyphE (mg_name (fst r)) (match g_kerning x with Some k => k | None => [] end)
                                       (VGlyph (fst r) (ex_side_names (fo_tt s))))) s).
(** entries after a glyph entry *)
Definition glyph_field (f : field) (d : value) (s : font) : res font := on_glyphs (fun b => b_add b (BField f (VData d))) s.
(** builder.py 577-590 *)
Definition add_axis (c : settings) (name : pystr) (d : design) : res design :=
  Ok (Design (de_count d) (de_axes d ++ [new_axis (st_upper c) name]) (de_mappings d) (de_locations d)
             (de_instances d) (de_masters d)).
Definition set_axis_count (n : Z) (d : design) : res design :=
  Ok (Design n (de_axes d) (de_mappings d) (de_locations d) (de_instances d) (de_masters d)).
Definition set_mapping_counts (l : list Z) (d : design) : res design :=
  Ok (Design (de_count d) (de_axes d) (Some l) (de_locations d) (de_instances d) (de_masters d)).
Definition set_mappings (c : settings) (l : list (Z * Z)) (d : design) : res design :=
  rmap (fun axes => Design (de_count d) axes (de_mappings d) (de_locations d) (de_instances d) (de_masters d))
       (add_axis_mappings (st_ops c) (de_count d) (de_mappings d) (de_axes d)
          (map (fun x => (NBits (fst x), NBits (snd x))) l)).
(** builder.py 532-533, 567-573 *)
Definition set_location (i : Z) (l : list Z) (d : design) : res design :=
  Ok (Design (de_count d) (de_axes d) (de_mappings d) (aset Z.eqb i (map NBits l) (de_locations d))
             (de_instances d) (de_masters d)).
Definition set_instances (l : list M_Options.instance) (d : design) : res design :=
  Ok (Design (de_count d) (de_axes d) (de_mappings d) (de_locations d)
             (map (fun i => (M_Options.in_name i, map NNum (M_Options.in_values i))) l) (de_masters d)).
Definition set_master_count (n : Z) (d : design) : res design :=
  Ok (Design (de_count d) (de_axes d) (de_mappings d) (de_locations d) (de_instances d) (Some n)).
(** builder.py 591-606: nothing but warnings; they need the names of all axes and one mapping for each *)
Definition check_anisotropic (l : list (list (Z * Z))) (d : design) : res design :=
  if existsb (existsb (fun st => negb (fst st =? snd st))) l then
    rmap (fun _ => d) (res_map (fun i => rthen (py_index (de_axes d) i) (fun _ => py_index l i)) (zrange (de_count d)))
  else Ok d.

(** data of another type than the one its parser makes *)
Definition bad : res font := Err TypeError.
(** builder.py 449-659: the cases, by the number of the entry. The entries that the loop ignores are not here.
    Simplification: the two numbers of [check_anisotropic] are compared as bits, so 0.0 and -0.0 differ. *)
Definition cases (c : settings) : list (Z * (value -> font -> res font)) :=
  [(2001, fun d s => match d with DGlyph x => glyph_entry c x s | _ => bad end);
   (2023, fun d s => on_glyphs (fun b => b_add b BVsb) s);
   (1250, fun d s => match d with DInts l => on_glyphs (fun b => b_add b (BUnicodes l)) s | _ => bad end);
   (1253, fun d s => match d with DInts l => on_glyphs (fun b => b_add b (BUnicodes l)) s | _ => bad end);
   (2008, glyph_field FLinks);
   (2012, glyph_field FMark);
   (2015, glyph_field FUserData);
   (2017, glyph_field FNote);
   (2018, fun d s => match d with
                     | DGdef x => match gd_anchors x with Some _ => glyph_field FAnchors d s | None => Ok s end
                     | _ => bad
                     end);
   (2029, glyph_field FMMAnchors);
   (2031, glyph_field FGuides);
   (2007, glyph_field FBackground);
   (2013, glyph_field FBitmaps);
   (2009, glyph_field FMask);
   (2011, fun d s => match d with DPair wh => on_glyphs (fun b => b_add b (BMask [wh])) s | _ => bad end);
   (2028, fun d s => match d with DPairs l => on_glyphs (fun b => b_add b (BMask l)) s | _ => bad end);
   (1024, fun d => on_info (info_case 1024 (info_data d)));
   (1034, fun d => on_info (info_case 1034 (info_data d)));
   (1048, fun d => on_info (info_case 1048 (info_data d)));
   (1127, fun d => on_info (info_case 1127 (info_data d)));
   (1137, fun d => on_info (info_case 1137 (info_data d)));
   (1138, fun d => on_info (info_case 1138 (info_data d)));
   (1254, fun d s => match d with DInstances l => on_design (set_instances l) s | _ => bad end);
   (1255, fun d s => match d with DZones x => on_tt (set_tt_zones x) s | _ => bad end);
   (1264, fun d => on_info (info_case 1264 (info_data d)));
   (1265, fun d => on_info (info_case 1265 (info_data d)));
   (1267, fun d => on_info (info_case 1267 (info_data d)));
   (1268, fun d s => match d with DStems x => on_tt (set_tt_stem_ppms x) s | _ => bad end);
   (1269, fun d s => match d with DStems x => on_tt (set_tt_stems x) s | _ => bad end);
   (1272, fun d s => match d with DInt n => on_option (OPixelSnap n) s | _ => bad end);
   (1273, fun d s => match d with DDeltas x => on_tt (set_tt_zone_deltas x) s | _ => bad end);
   (1274, fun d s => match d with DInt n => on_option (OZoneStop n) s | _ => bad end);
   (1275, fun d s => match d with DInt n => on_option (OCodeStop n) s | _ => bad end);
   (1604, fun d s => match d with DInt n => on_option (ODropoutStop n) s | _ => bad end);
   (1276, fun d s => match d with DLines l => on_features (set_feature_code l) s | _ => bad end);
   (1277, fun d s => match d with DStr x => on_groups (add_ot_class x) s | _ => bad end);
   (1294, fun d s => match d with DGuides x => on_guides x s | _ => bad end);
   (1296, fun d s => match d with DGuideProps x => on_props x s | _ => bad end);
   (1503, fun d s => match d with DInt n => on_design (set_master_count n) s | _ => bad end);
   (1504, fun d s => match d with DStr x => on_glyphs (fun b => b_add b (BMasterName x)) s | _ => bad end);
   (1505, fun d s => match d with DMasterLocation x => on_design (set_location (fst x) (snd x)) s | _ => bad end);
   (1513, fun d s => match d with
                     | DInt n => rthen (on_design (set_axis_count n) s) (on_glyphs (fun b => b_add b (BAxisCount n)))
                     | _ => bad
                     end);
   (1514, fun d s => match d with DStr x => on_design (add_axis c x) s | _ => bad end);
   (1515, fun d s => match d with DInts l => on_design (set_mapping_counts l) s | _ => bad end);
   (1516, fun d s => match d with DDoublePairs l => on_design (set_mappings c l) s | _ => bad end);
   (1523, fun d s => match d with DAxes l => on_design (check_anisotropic l) s | _ => bad end);
   (1524, fun d s => match d with DStems x => on_tt (set_tt_stem_ppms_1 x) s | _ => bad end);
   (1530, fun d s => match d with DInt n => on_counts (fun p => PsCounts n (pn_other_blues p) (pn_family_blues p) (pn_family_other_blues p) (pn_stem_snap_h p) (pn_stem_snap_v p)) s | _ => bad end);
   (1531, fun d s => match d with DInt n => on_counts (fun p => PsCounts (pn_blue_values p) n (pn_family_blues p) (pn_family_other_blues p) (pn_stem_snap_h p) (pn_stem_snap_v p)) s | _ => bad end);
   (1532, fun d s => match d with DInt n => on_counts (fun p => PsCounts (pn_blue_values p) (pn_other_blues p) n (pn_family_other_blues p) (pn_stem_snap_h p) (pn_stem_snap_v p)) s | _ => bad end);
   (1533, fun d s => match d with DInt n => on_counts (fun p => PsCounts (pn_blue_values p) (pn_other_blues p) (pn_family_blues p) n (pn_stem_snap_h p) (pn_stem_snap_v p)) s | _ => bad end);
   (1534, fun d s => match d with DInt n => on_counts (fun p => PsCounts (pn_blue_values p) (pn_other_blues p) (pn_family_blues p) (pn_family_other_blues p) n (pn_stem_snap_v p)) s | _ => bad end);
   (1535, fun d s => match d with DInt n => on_counts (fun p => PsCounts (pn_blue_values p) (pn_other_blues p) (pn_family_blues p) (pn_family_other_blues p) (pn_stem_snap_h p) n) s | _ => bad end);
   (1536, fun d => on_glyphs (fun b => b_add b (BPsInfo (VData d))));
   (2016, on_lib (py "com.fontlab.v5.userData"));
   (2021, fun d => on_info (info_case 2021 (info_data d)));
   (2024, on_lib (py "com.fontlab.v5.metricsClassFlags"));
   (2026, fun d s => match d with DFlags x => on_flags x s | _ => bad end);
   (1261, fun d s => match d with DStr x => on_info (set_tt_cvt x) s | _ => bad end);
   (1262, fun d s => match d with DStr x => on_info (set_tt_program (st_asm c) (py "controlValueProgram") x) s | _ => bad end);
   (1263, fun d s => match d with DStr x => on_info (set_tt_program (st_asm c) (py "fontProgram") x) s | _ => bad end)].

(** builder.py 418-430 *)
Definition skip_keys (c : settings) : list Z :=
  [1500; 1501; 1046; 1133; 2020; 2010; 2027] ++ (if st_vfb_minimal c then ignore_minimal_keys else []).
(** builder.py 432-659: one entry, by its number, with its data *)
Definition build_step (c : settings) (s : font) (e : Z * option value) : res font :=
  let '(key, data) := e in
  if existsb (Z.eqb key) (skip_keys c) then Ok s
  else match data with
       | None => Ok s
       | Some d =>
           match aget Z.eqb key info_mapping with
           | Some attr => match as_val (info_data d) with
                          | Some v => on_info (fun i => Ok (setattr attr v i)) s
                          | None => bad
                          end
           | None => match aget Z.eqb key (cases c) with Some f => f d s | None => Ok s end
           end
       end.
(** builder.py 661-680: after the loop. Not here: [build_tt_glyph_lib] (668), which M_Tth models per glyph, and
    the stems and zones, which [build_tt_stems_lib] and [build_tt_zones_lib] take from [fo_tt]; [fo_options] is the
    lib of TrueType hinting before they are added and before it is deleted when it is empty (672-673). *)
Definition finish (s : font) : res font :=
  on_info (fun i => fix_underline_position (drop_default i))
    (Font (fo_info s) (fix_masters_count (store_last (fo_glyphs s))) (fo_tt s) (fo_options s) (fo_features s)
          (fo_groups s) (fo_flags s) (fo_guides s) (fo_props s) (fo_counts s) (fo_design s) (fo_lib s)).
Definition build_font (c : settings) (es : list (Z * option value)) : res font :=
  rthen (res_fold (build_step c) new_font es) finish.
