(** Specification of the whole export (C85): which entries of a VFB each part of the UFO comes from. *)
From Coq Require Import String.
From Verif Require Import Base M_Py M_Helpers M_Simple M_Text M_TrueType M_Bitmap M_Glyph M_Options M_Container M_Table M_Groups.
From Verif Require Import M_Info M_FontInfo M_Tth M_Programs M_Builder M_Master M_Features M_Designspace M_Classes M_Build S_Info.
Local Open Scope list_scope.

(** ** The entries that count *)
(** Encodings, the version text, xuid, and what the UFO has no place for; in a minimal VFB, also guides, masks,
    notes, bitmaps, images and colours *)
Definition left_out : list Z := [1046; 1133; 1500; 1501; 2010; 2020; 2027].
Definition left_out_minimal : list Z := [1294; 1295; 2007; 2009; 2012; 2013; 2017; 2025; 2031].
Definition counts (minimal : bool) (k : Z) : bool :=
  negb (existsb (Z.eqb k) left_out) && negb (minimal && existsb (Z.eqb k) left_out_minimal).
(** the entries with data, in the order of the file *)
Definition used (minimal : bool) (es : list (Z * option value)) : list (Z * value) :=
  flat_map (fun e => match snd e with
                     | Some d => if counts minimal (fst e) then [(fst e, d)] else []
                     | None => []
                     end) es.

(** ** What they say, part by part *)
Definition info_keys : list Z :=
  [1024; 1025; 1026; 1027; 1028; 1029; 1030; 1031; 1034; 1037; 1038; 1039; 1044; 1048; 1061; 1062; 1063; 1064;
   1065; 1066; 1069; 1070; 1090; 1092; 1118; 1121; 1127; 1128; 1129; 1130; 1131; 1132; 1135; 1137; 1138; 1140;
   1264; 1265; 1267; 1270; 1278; 1279; 2021; 2025].
Definition info_part (e : Z * value) : list fi_entry :=
  if existsb (Z.eqb (fst e)) info_keys then [(fst e, Some (info_data (snd e)))] else [].
(** the TrueType programs and the maxima that belong to them *)
Definition max_part (kv : pystr * tt_value) : list M_Programs.tt_entry :=
  match aget str_eqb (fst kv) tt_lib_keys, snd kv with Some k, VInt n => [TMax k n] | _, _ => [] end.
Definition program_part (e : Z * value) : list M_Programs.tt_entry :=
  match e with
  | (1264, DTTInfo l) => flat_map max_part l
  | (1261, DStr x) => match deHexStr x with Ok b => [TCvt b] | Err _ => [] end
  | (1262, DStr x) => match deHexStr x with Ok b => [TPrep b] | Err _ => [] end
  | (1263, DStr x) => match deHexStr x with Ok b => [TFpgm b] | Err _ => [] end
  | _ => []
  end.
Definition tt_part (e : Z * value) : list M_Tth.tt_entry :=
  match e with
  | (1268, DStems x) => [EPpms x] | (1524, DStems x) => [EPpms1 x] | (1269, DStems x) => [EStems x]
  | (1255, DZones x) => [EZones x] | (1273, DDeltas x) => [EDeltas x]
  | _ => []
  end.
Definition option_part (e : Z * value) : list opt_entry :=
  match e with
  | (1272, DInt n) => [OPixelSnap n] | (1274, DInt n) => [OZoneStop n] | (1275, DInt n) => [OCodeStop n]
  | (1604, DInt n) => [ODropoutStop n]
  | _ => []
  end.
Definition class_part (e : Z * value) : list pystr := match e with (1277, DStr x) => [x] | _ => [] end.
Definition feature_part (e : Z * value) : list (list pystr) := match e with (1276, DLines l) => [l] | _ => [] end.
Definition flags_part (e : Z * value) : list flags_dict := match e with (2026, DFlags x) => [x] | _ => [] end.
Definition guides_part (e : Z * value) : list guides := match e with (1294, DGuides x) => [x] | _ => [] end.
Definition props_part (e : Z * value) : list guide_props := match e with (1296, DGuideProps x) => [x] | _ => [] end.
Definition int_part (k : Z) (e : Z * value) : list Z := 
  if fst e =? k then match snd e with DInt n => [n] | _ => [] end else [].
Definition data_part (k : Z) (e : Z * value) : list value := if fst e =? k then [snd e] else [].

(** [last_or d l]: the last of [l], [d] if there is none *)
Definition last_or {A} (d : A) (l : list A) : A := last l d.

(** the entries of the glyphs and masters. A glyph is kept with the names of the alignment zones, top and bottom,
    that the last entry with zones before it has. *)
Definition zones_of (e : Z * value) (z : option (list pystr * list pystr)) : option (list pystr * list pystr) :=
  match e with
  | (1255, DZones (TTZones (Some t) (Some b))) => Some (map tz_name t, map tz_name b)
  | _ => z
  end.
Definition glyph_part (c : settings) (z : option (list pystr * list pystr)) (e : Z * value) : list (b_entry gvalue) :=
  match e with
  | (2001, DGlyph x) =>
      match build_mm_glyph (st_minimal c) (st_ps_hints c) x with
      | Ok (g, _) => [BGlyphE (mg_name g) (match g_kerning x with Some k => k | None => [] end) (VGlyph g z)]
      | Err _ => []
      end
  | (2023, _) => [BVsb]
  | (1250, DInts l) | (1253, DInts l) => [BUnicodes l]
  | (2008, d) => [BField FLinks (VData d)] | (2012, d) => [BField FMark (VData d)]
  | (2015, d) => [BField FUserData (VData d)] | (2017, d) => [BField FNote (VData d)]
  | (2018, DGdef x) => match gd_anchors x with Some _ => [BField FAnchors (VData (DGdef x))] | None => [] end
  | (2029, d) => [BField FMMAnchors (VData d)] | (2031, d) => [BField FGuides (VData d)]
  | (2007, d) => [BField FBackground (VData d)] | (2013, d) => [BField FBitmaps (VData d)]
  | (2009, d) => [BField FMask (VData d)]
  | (2011, DPair wh) => [BMask [wh]] | (2028, DPairs l) => [BMask l]
  | (1504, DStr x) => [BMasterName x] | (1513, DInt n) => [BAxisCount n] | (1536, d) => [BPsInfo (VData d)]
  | _ => []
  end.
Fixpoint glyph_parts (c : settings) (z : option (list pystr * list pystr)) (l : list (Z * value)) : list (b_entry gvalue) :=
  match l with [] => [] | e :: l' => glyph_part c z e ++ glyph_parts c (zones_of e z) l' end.

(** the entries of the designspace *)
Inductive design_entry :=
| XCount (n : Z) | XAxis (name : pystr) | XMapCounts (l : list Z) | XMappings (l : list (Z * Z))
| XAniso (l : list (list (Z * Z))) | XLocation (i : Z) (l : list Z) | XInstances (l : list M_Options.instance)
| XMasters (n : Z).
Definition design_part (e : Z * value) : list design_entry :=
  match e with
  | (1513, DInt n) => [XCount n] | (1514, DStr x) => [XAxis x] | (1515, DInts l) => [XMapCounts l]
  | (1516, DDoublePairs l) => [XMappings l] | (1523, DAxes l) => [XAniso l]
  | (1505, DMasterLocation (i, l)) => [XLocation i l] | (1254, DInstances l) => [XInstances l]
  | (1503, DInt n) => [XMasters n]
  | _ => []
  end.
Definition design_step (c : settings) (d : design) (e : design_entry) : res design :=
  match e with
  | XCount n => set_axis_count n d | XAxis x => add_axis c x d | XMapCounts l => set_mapping_counts l d
  | XMappings l => set_mappings c l d | XAniso l => check_anisotropic l d | XLocation i l => set_location i l d
  | XInstances l => set_instances l d | XMasters n => set_master_count n d
  end.

(** ** Data of the types that the parsers make *)
Definition is_val (d : value) : bool := match d with DStr _ | DInt _ | DDouble _ | DInts _ => true | _ => false end.
Definition is_str (d : value) : bool := match d with DStr _ => true | _ => false end.
Definition is_int (d : value) : bool := match d with DInt _ => true | _ => false end.
Definition is_ints (d : value) : bool := match d with DInts _ => true | _ => false end.
Definition is_stems (d : value) : bool := match d with DStems _ => true | _ => false end.
Definition type_of_key (k : Z) (d : value) : bool :=
  if existsb (Z.eqb k) [1034; 1048; 1267; 1272; 1274; 1275; 1604; 1503; 1513; 1530; 1531; 1532; 1533; 1534; 1535; 1030; 1031; 2012]
  then is_int d
  else if existsb (Z.eqb k) [1261; 1262; 1263; 1277; 1504; 1514; 2015; 2017] then is_str d
  else if existsb (Z.eqb k) [1250; 1253; 1515] then is_ints d
  else if existsb (Z.eqb k) [1268; 1269; 1524] then is_stems d
  else if k =? 2001 then match d with DGlyph _ => true | _ => false end
  else if k =? 2018 then match d with DGdef _ => true | _ => false end
  else if k =? 2011 then match d with DPair _ => true | _ => false end
  else if k =? 2028 then match d with DPairs _ => true | _ => false end
  else if k =? 1138 then match d with M_Table.DNames _ => true | _ => false end
  else if k =? 1254 then match d with DInstances _ => true | _ => false end
  else if k =? 1255 then match d with DZones (TTZones (Some _) (Some _)) => true | _ => false end
  else if k =? 1264 then match d with DTTInfo _ => true | _ => false end
  else if k =? 1265 then match d with M_Table.DGasp _ => true | _ => false end
  else if k =? 1273 then match d with DDeltas _ => true | _ => false end
  else if k =? 1276 then match d with DLines _ => true | _ => false end
  else if k =? 1294 then match d with DGuides _ => true | _ => false end
  else if k =? 1296 then match d with DGuideProps _ => true | _ => false end
  else if k =? 1505 then match d with DMasterLocation _ => true | _ => false end
  else if k =? 1516 then match d with DDoublePairs _ => true | _ => false end
  else if k =? 1523 then match d with DAxes _ => true | _ => false end
  else if k =? 1536 then match d with DPSInfo _ => true | _ => false end
  else if k =? 2007 then match d with DBackground _ => true | _ => false end
  else if k =? 2008 then match d with DLinks _ => true | _ => false end
  else if k =? 2009 then match d with DMask _ => true | _ => false end
  else if k =? 2013 then match d with DBitmaps _ => true | _ => false end
  else if k =? 2029 then match d with DAnchors _ => true | _ => false end
  else if k =? 2031 then match d with DGuideProps _ => true | _ => false end
  else if k =? 2026 then match d with DFlags _ => true | _ => false end
  else if existsb (Z.eqb k) info_keys then is_val d
  else true.
Definition typed (e : Z * option value) : Prop :=
  match snd e with
  | Some d => type_of_key (fst e) d = true /\
      (In (fst e) [1261; 1262; 1263] -> exists b, bytes_ok b /\ d = DStr (hexStr b))
  | None => True
  end.

(** ** The font that is built *)
(** a glyph entry with all that a glyph needs *)
Definition complete (x : glyph) : Prop := g_name x <> None /\ g_metrics x <> None /\ g_nodes x <> None.
Definition glyphs_complete (l : list (Z * value)) : Prop := forall x, In (2001, DGlyph x) l -> complete x.
(** every part of the font is what its own entries make, and only they *)
Record made_of (c : settings) (l : list (Z * value)) (s : font) : Prop := MadeOf {
  from_info : exists i, build_info false (flat_map info_part l) = Ok i /\ if_attrs (fo_info s) = if_attrs i;
  from_programs : exists i, M_Programs.tt_build (st_asm c) (flat_map program_part l) = Ok i /\ if_lib (fo_info s) = if_lib i;
  from_glyphs : build (glyph_parts c None l) = Ok (fo_glyphs s);
  from_hinting : M_Tth.tt_build (flat_map tt_part l) = Ok (fo_tt s);
  from_options : fo_options s = fold_left opt_step (flat_map option_part l) None;
  from_features : fo_features s = last_or [] (map set_feature_code (flat_map feature_part l));
  from_classes : class_entries (flat_map class_part l) = Ok (fo_groups s);
  from_flags : fo_flags s = last_or [] (flat_map flags_part l);
  from_guides : fo_guides s = last_or None (map Some (flat_map guides_part l));
  from_props : fo_props s = last_or (GuideProps [] []) (flat_map props_part l);
  from_counts : fo_counts s = PsCounts (last_or 0 (flat_map (int_part 1530) l)) (last_or 0 (flat_map (int_part 1531) l))
    (last_or 0 (flat_map (int_part 1532) l)) (last_or 0 (flat_map (int_part 1533) l))
    (last_or 0 (flat_map (int_part 1534) l)) (last_or 0 (flat_map (int_part 1535) l));
  from_design : res_fold (design_step c) (Design 0 [] None [] [] None) (flat_map design_part l) = Ok (fo_design s);
  from_lib : forall key, aget str_eqb key (fo_lib s) =
    if str_eqb key (py "com.fontlab.v5.userData") then last_or None (map Some (flat_map (data_part 2016) l))
    else if str_eqb key (py "com.fontlab.v5.metricsClassFlags") then last_or None (map Some (flat_map (data_part 2024) l))
    else None }.
(** the parts can be made *)
Definition can_be_made (c : settings) (l : list (Z * value)) : Prop :=
  glyphs_complete l /\
  (exists i, build_info false (flat_map info_part l) = Ok i) /\
  (exists i, M_Programs.tt_build (st_asm c) (flat_map program_part l) = Ok i) /\
  (exists g, build (glyph_parts c None l) = Ok g) /\
  (exists t, M_Tth.tt_build (flat_map tt_part l) = Ok t) /\
  (exists g, class_entries (flat_map class_part l) = Ok g) /\
  (exists d, res_fold (design_step c) (Design 0 [] None [] [] None) (flat_map design_part l) = Ok d).

(** ** The glyphs of a file *)
(** the glyph entries in the order of the file *)
Definition glyph_entries (l : list (Z * value)) : list glyph :=
  flat_map (fun e => if fst e =? 2001 then match snd e with DGlyph x => [x] | _ => [] end else []) l.
Definition name_of (x : glyph) : list pystr := match g_name x with Some n => [n] | None => [] end.
Definition kerning_of (x : glyph) : list (Z * list Z) := match g_kerning x with Some k => k | None => [] end.
(** the entries that belong to the glyph entry before them: code points, links, colour, notes, anchors, guides,
    bitmaps, background, masks, metrics of the mask, vertical metrics *)
Definition glyph_details : list Z :=
  [1250; 1253; 2007; 2008; 2009; 2011; 2012; 2013; 2015; 2017; 2018; 2023; 2028; 2029; 2031].
(** no such entry comes before the first glyph entry *)
Fixpoint details_follow (l : list (Z * value)) : Prop :=
  match l with
  | [] => True
  | e :: l' => fst e = 2001 \/ (~ In (fst e) glyph_details /\ details_follow l')
  end.
(** the glyph in the font has the outline and the metrics of the entry *)
Definition glyph_from (x : glyph) (g : bglyph gvalue) : Prop :=
  exists m z, bg_data g = VGlyph m z /\ g_name x = Some (bg_name g) /\ g_name x = Some (mg_name m) /\
    g_nodes x = Some (mg_nodes m) /\ g_metrics x = Some (mg_metrics m) /\
    match g_components x with Some k => k | None => [] end = mg_components m.

(** the entries of a [Vfb] as the export sees them *)
Definition entries_of (v : list (entry value)) : list (Z * option value) :=
  flat_map (fun e => match e_id e with
                     | Some i => [(i, match e_data e with Dec d => Some d | _ => None end)]
                     | None => []
                     end) v.
