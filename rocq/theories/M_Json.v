(** Model of what vfb2json writes: json.py 8-44, and the Python values that the parsers make of entries
    (parsers/*.py), as [orjson.dumps] gets them. *)
From Coq Require Import String Permutation.
From Verif Require Import Base M_Stream M_Py M_Helpers M_Text M_Simple M_Bitmap M_TrueType M_Glyph M_Float M_Options
  M_Container M_Table M_Tools S_Encoding.
Local Open Scope list_scope.

(** ** Python values, as far as entries hold them. A tuple is a [PList], as orjson makes no difference. A key of
    a dict is a text: with OPT_NON_STR_KEYS, orjson writes an integer key as its decimal digits. *)
(** a float: the 64 bits of a double, or the result of a division of integers *)
Inductive fval := Bits (b : Z) | Num (x : pyfloat).
Inductive pyval :=
| PNone
| PBool (b : bool)
| PInt (n : Z)
| PFloat (x : fval)
| PStr (s : pystr)
| PList (l : list pyval)
| PDict (d : list (pystr * pyval)).

(** ** [orjson.dumps(v, option=OPT_INDENT_2 | OPT_NON_STR_KEYS)], a library function *)
Definition hex_char (n : Z) : Z := if n <? 10 then 48 + n else 87 + n.
Definition escape (c : Z) : pystr :=
  if c =? 34 then [92; 34]
  else if c =? 92 then [92; 92]
  else if c =? 8 then [92; 98]
  else if c =? 9 then [92; 116]
  else if c =? 10 then [92; 110]
  else if c =? 12 then [92; 102]
  else if c =? 13 then [92; 114]
  else if c <? 32 then [92; 117; 48; 48; hex_char (c / 16); hex_char (c mod 16)]
  else [c].
Definition quoted (s : pystr) : pystr := 34 :: concat (map escape s) ++ [34].
Definition newline (n : nat) : pystr := 10 :: repeat 32 (2 * n).
Fixpoint commas (l : list pystr) : pystr :=
  match l with
  | [] => []
  | [x] => x
  | x :: l' => x ++ 44 :: commas l'
  end.
(** [number] gives the text of a float; where there is none (infinities and NaN), orjson writes null. *)
Fixpoint dump (number : fval -> option pystr) (n : nat) (v : pyval) : pystr :=
  match v with
  | PNone => py "null"
  | PBool b => if b then py "true" else py "false"
  | PInt z => dec_str z
  | PFloat x => match number x with Some t => t | None => py "null" end
  | PStr s => quoted s
  | PList [] => py "[]"
  | PList l => py "[" ++ commas (map (fun x => newline (S n) ++ dump number (S n) x) l) ++ newline n ++ py "]"
  | PDict [] => py "{}"
  | PDict d => py "{" ++ commas (map (fun p => newline (S n) ++ quoted (fst p) ++ py ": " ++ dump number (S n) (snd p)) d)
                 ++ newline n ++ py "}"
  end.
(** orjson raises [JSONEncodeError], a [TypeError], at an integer that has more than 64 bits and at a string
    that UTF-8 has no form of, that is, with a surrogate in it. (A Python string has no characters outside
    0..0x10FFFF, but a list of integers can have some.) *)
Definition char_text_ok (c : Z) : bool := in_range 0 0x110000 c && negb ((0xD800 <=? c) && (c <=? 0xDFFF)).
Definition text_ok (s : pystr) : bool := forallb char_text_ok s.
Fixpoint dumpable (v : pyval) : bool :=
  match v with
  | PNone | PBool _ | PFloat _ => true
  | PInt z => (- 2 ^ 63 <=? z) && (z <? 2 ^ 64)
  | PStr s => text_ok s
  | PList l => forallb dumpable l
  | PDict d => forallb (fun p => text_ok (fst p) && dumpable (snd p)) d
  end.
Definition dumps (number : fval -> option pystr) (v : pyval) : res bytes := if dumpable v then Ok (utf8 (dump number 0 v)) else Err TypeError.

(** ** The Python values of decompiled data *)
Definition pd (d : list (string * pyval)) : pyval := PDict (map (fun p => (py (fst p), snd p)) d).
Definition plist {A} (f : A -> pyval) (l : list A) : pyval := PList (map f l).
Definition pints (l : list Z) : pyval := plist PInt l.
Definition pdouble (b : Z) : pyval := PFloat (Bits b).
Definition pdoubles (l : list Z) : pyval := plist pdouble l.
Definition pstrs (l : list pystr) : pyval := plist PStr l.
Definition ppair (p : Z * Z) : pyval := PList [PInt (fst p); PInt (snd p)].
Definition ppairs (l : list (Z * Z)) : pyval := plist ppair l.
(** a dict whose keys are integers *)
Definition pint_dict {A} (f : A -> pyval) (d : list (Z * A)) : pyval := PDict (map (fun p => (dec_str (fst p), f (snd p))) d).
Definition pstr_dict {A} (f : A -> pyval) (d : list (pystr * A)) : pyval := PDict (map (fun p => (fst p, f (snd p))) d).
(** a key that may be missing *)
Definition opt {A} (k : string) (f : A -> pyval) (x : option A) : list (pystr * pyval) :=
  match x with Some a => [(py k, f a)] | None => [] end.
Definition pnum (x : pynum) : pyval := match x with NInt z => PInt z | NFloat f => PFloat (Num f) end.

(** parsers/base.py 293-295 *)
Definition mapping_mode_py (m : mapping_mode) : pyval :=
  pd [("mapping_mode", PStr (mm_mode m)); ("m2", PInt (mm_m2 m)); ("m3", PInt (mm_m3 m)); ("mapping_id", PInt (mm_id m))]%string.
(** parsers/options.py 15 *)
Definition option_py (x : str_or_int) : pyval := match x with SStr s => PStr s | SInt n => PInt n end.
(** parsers/cmap.py 14-21 *)
Definition cmap_py (c : custom_cmap) : pyval :=
  pd [("language_id", PInt (cc_language_id c)); ("platform_id", PInt (cc_platform_id c)); ("encoding_id", PInt (cc_encoding_id c));
      ("format", PInt (cc_format c)); ("option", PInt (cc_option c)); ("page_name", PStr (cc_page_name c))]%string.
(** parsers/fl3.py 18-22 *)
Definition kern_pair_py (k : kern_pair) : pyval :=
  pd [("l", PInt (kp_l k)); ("r", PInt (kp_r k)); ("values", pints (kp_values k))]%string.
(** parsers/flversion.py 34-36 *)
Definition fl_version_py (v : fl_version) : pyval :=
  pd [("platform", PStr (fv_platform v)); ("version", pints (fv_version v)); ("owner", PInt (fv_owner v))]%string.
(** parsers/binary.py 13 *)
Definition binary_table_py (t : binary_table) : pyval := pd [("tag", PStr (bt_tag t)); ("data", PStr (bt_data t))]%string.
(** parsers/pclt.py 13-50 *)
Definition pclt_py (p : pclt) : pyval :=
  pd [("font_number", PInt (pc_font_number p)); ("pitch", PInt (pc_pitch p)); ("x_height", PInt (pc_x_height p));
      ("style", PInt (pc_style p)); ("type_family", PInt (pc_type_family p)); ("cap_height", PInt (pc_cap_height p));
      ("symbol_set", PInt (pc_symbol_set p)); ("typeface", PStr (pc_typeface p));
      ("character_complement", pints (pc_complement p)); ("file_name", PStr (pc_file_name p));
      ("stroke_weight", PInt (pc_stroke_weight p)); ("width_type", PInt (pc_width_type p));
      ("serif_style", PInt (pc_serif_style p))]%string.
(** parsers/ps.py 22-47 *)
Definition ps_info_py (i : ps_info) : pyval :=
  pd [("font_matrix", pdoubles (ps_font_matrix i)); ("force_bold", PInt (ps_force_bold i));
      ("blue_values", pints (ps_blue_values i)); ("other_blues", pints (ps_other_blues i));
      ("family_blues", pints (ps_family_blues i)); ("family_other_blues", pints (ps_family_other_blues i));
      ("blue_scale", pdouble (ps_blue_scale i)); ("blue_shift", PInt (ps_blue_shift i)); ("blue_fuzz", PInt (ps_blue_fuzz i));
      ("std_hw", PInt (ps_std_hw i)); ("std_vw", PInt (ps_std_vw i));
      ("stem_snap_h", pints (ps_stem_snap_h i)); ("stem_snap_v", pints (ps_stem_snap_v i));
      ("bounding_box", pd [("xMin", PInt (ps_xMin i)); ("yMin", PInt (ps_yMin i)); ("xMax", PInt (ps_xMax i)); ("yMax", PInt (ps_yMax i))]);
      ("adv_width_min", PInt (ps_adv_width_min i)); ("adv_width_max", PInt (ps_adv_width_max i));
      ("adv_width_avg", PInt (ps_adv_width_avg i)); ("ascender", PInt (ps_ascender i)); ("descender", PInt (ps_descender i));
      ("x_height", PInt (ps_x_height i)); ("cap_height", PInt (ps_cap_height i))]%string.
(** parsers/ps.py 57-65, 75-83 *)
Definition ps_options_py (o : ps_options) : pyval :=
  PDict (map (fun p => (fst p, PInt (snd p))) (po_named o) ++ [(py "other", pints (po_other o))]).
(** parsers/truetype.py 40-46 *)
Definition gasp_py (g : gasp_rec) : pyval := pd [("maxPpem", PInt (gr_ppem g)); ("flags", PInt (gr_flags g))]%string.
(** parsers/truetype.py 23-29, 72-152 *)
Definition tt_value_py (v : tt_value) : pyval :=
  match v with
  | VInt n => PInt n
  | VFlags f o => pd [("flags", pints f); ("options", pstrs o)]%string
  | VList l => pints l
  | VPages a b => pd [("os2_ul_code_page_range1", PInt a); ("os2_ul_code_page_range2", PInt b)]%string
  end.
(** parsers/truetype.py 170-172, 193, 216, 237 *)
Definition tt_stem_py (s : tt_stem) : pyval :=
  PDict (opt "value" PInt (ts_value s) ++ opt "name" PStr (ts_name s) ++ opt "stem" PInt (ts_stem s) ++
         [(py "round", pint_dict PInt (ts_round s))]).
(** parsers/truetype.py 161, 174 *)
Definition tt_stems_py (s : tt_stems) : pyval :=
  pd [("ttStemsV", plist tt_stem_py (tts_v s)); ("ttStemsH", plist tt_stem_py (tts_h s))]%string.
(** parsers/truetype.py 270 *)
Definition tt_zone_py (z : tt_zone) : pyval :=
  pd [("position", PInt (tz_position z)); ("value", PInt (tz_value z)); ("name", PStr (tz_name z))]%string.
(** parsers/truetype.py 261, 272 *)
Definition tt_zones_py (z : tt_zones) : pyval :=
  PDict (opt "ttZonesT" (plist tt_zone_py) (tz_top z) ++ opt "ttZonesB" (plist tt_zone_py) (tz_bottom z)).
(** parsers/truetype.py 282-286 *)
Definition vdmx_py (v : vdmx_rec) : pyval :=
  pd [("pelHeight", PInt (vx_height v)); ("max", PInt (vx_max v)); ("min", PInt (vx_min v))]%string.
(** parsers/text.py 31 *)
Definition name_record_py (n : name_record) : pyval :=
  PList [PInt (nr_name n); PInt (nr_plat n); PInt (nr_enc n); PInt (nr_lang n); PStr (nr_text n)].
(** parsers/bitmap.py 77-85 *)
Definition bitmap_py (b : bitmap_data) : pyval :=
  PDict ((py "data", plist pints (bm_data b)) :: opt "preview" pstrs (bm_preview b)).
(** parsers/bitmap.py 106-123 *)
Definition background_py (b : background) : pyval :=
  pd [("origin", ppair (bg_origin b)); ("size_units", ppair (bg_size_units b)); ("size_pixels", ppair (bg_size_pixels b));
      ("bitmap", bitmap_py (bg_bitmap b))]%string.
(** parsers/bitmap.py 132-149 *)
Definition glyph_bitmap_py (b : glyph_bitmap) : pyval :=
  pd [("ppm", PInt (gb_ppm b)); ("origin", ppair (gb_origin b)); ("adv", ppair (gb_adv b)); ("size_pixels", ppair (gb_size_pixels b));
      ("bitmap", bitmap_py (gb_bitmap b))]%string.
(** parsers/glyph.py 69-73 *)
Definition anchor_py (a : mm_anchor) : pyval := pd [("x", pints (an_x a)); ("y", pints (an_y a))]%string.
(** parsers/glyph.py 84 *)
Definition anchor_props_py (a : anchor_props) : pyval := PDict (opt "hue" PInt (ap_hue a) ++ opt "data" PInt (ap_data a)).
(** parsers/glyph.py 104-106 *)
Definition gdef_anchor_py (a : gdef_anchor) : pyval :=
  PDict ((py "x", PInt (ga_x a)) :: (py "y", PInt (ga_y a)) :: opt "name" PStr (ga_name a)).
(** parsers/glyph.py 90-123 *)
Definition gdef_py (g : gdef) : pyval :=
  PDict (opt "glyph_class" PStr (gd_class g) ++ opt "anchors" (plist gdef_anchor_py) (gd_anchors g) ++
         opt "carets" ppairs (gd_carets g) ++ opt "ot_classes" pints (gd_ot_classes g)).
(** parsers/glyph.py 132 *)
Definition origin_py (p : Z * Z) : pyval := pd [("x", PInt (fst p)); ("y", PInt (snd p))]%string.
(** parsers/glyph.py 427-430 *)
Definition sketch_py (p : Z * Z * Z) : pyval := let '(a, b, c) := p in PList [PInt a; PInt b; PInt c].
(** parsers/glyph.py 453-460 *)
Definition links_py (l : links) : pyval := pd [("x", ppairs (lk_x l)); ("y", ppairs (lk_y l))]%string.
(** parsers/guides.py 36-49 *)
Definition guide_py (g : guide_master) : pyval := pd [("pos", PInt (gm_pos g)); ("angle", pdouble (gm_angle g))]%string.
Definition guides_py (g : guides) : pyval :=
  pd [("h", plist (plist guide_py) (gs_h g)); ("v", plist (plist guide_py) (gs_v g))]%string.
(** parsers/guides.py 66-84 *)
Definition guide_prop_py (g : guide_prop) : pyval :=
  PDict ((py "index", PInt (gp_index g)) :: opt "color" PStr (gp_color g) ++ opt "name" PStr (gp_name g)).
Definition guide_props_py (g : guide_props) : pyval :=
  pd [("h", plist guide_prop_py (gps_h g)); ("v", plist guide_prop_py (gps_v g))]%string.
(** parsers/glyph.py 36-41 [PathCommand(...).name] *)
Definition path_cmd_py (c : path_cmd) : pyval :=
  PStr (match c with Move => py "move" | Line => py "line" | Curve => py "curve" | QCurve => py "qcurve" end).
(** parsers/glyph.py 403 *)
Definition node_py (n : mm_node) : pyval :=
  pd [("type", path_cmd_py (nd_type n)); ("flags", PInt (nd_flags n)); ("points", plist ppairs (nd_points n))]%string.
(** parsers/glyph.py 318-341 *)
Definition hint_py (h : Z * Z) : pyval := pd [("pos", PInt (fst h)); ("width", PInt (snd h))]%string.
Definition hintmask_py (m : pystr * Z) : pyval := PList [PStr (fst m); PInt (snd m)].
Definition hints_py (h : mm_hints) : pyval :=
  PDict ((py "v", plist (plist hint_py) (mh_v h)) :: (py "h", plist (plist hint_py) (mh_h h)) ::
         opt "hintmasks" (plist hintmask_py) (mh_masks h)).
(** parsers/glyph.py 304-314 *)
Definition component_py (c : component) : pyval :=
  pd [("gid", PInt (co_gid c)); ("offsetX", pints (co_x c)); ("offsetY", pints (co_y c)); ("scaleX", pdoubles (co_sx c));
      ("scaleY", pdoubles (co_sy c))]%string.
(** parsers/glyph.py 266-276 *)
Definition binary_node_py (n : binary_node) : pyval :=
  pd [("flags", PInt (bn_flags n)); ("on", PInt (bn_on n)); ("point", ppair (bn_point n))]%string.
(** parsers/glyph.py 228-296: the keys of the dict. Their order is that of the parts in the file, which the
    model of the parser does not keep. *)
Definition imported_items (i : imported) : list (pystr * pyval) :=
  match im_metrics i with
  | Some m => [(py "width", PInt (ib_width m)); (py "lsb", PInt (ib_lsb m)); (py "unknown1", PInt (ib_unknown1 m));
               (py "unknown2", PInt (ib_unknown2 m)); (py "unknown3", PInt (ib_unknown3 m)); (py "bbox", pints (ib_bbox m))]
  | None => []
  end ++
  match im_contours i with
  | Some (n, l) => [(py "num_contours", PInt n); (py "endpoints", pints l)]
  | None => []
  end ++
  opt "nodes" (plist binary_node_py) (im_nodes i) ++ opt "instructions" pstrs (im_instructions i) ++
  opt "hdmx" pints (im_hdmx i).
(** parsers/glyph.py 357-362 *)
Definition instruction_py (i : instruction) : pyval :=
  pd [("cmd", PStr (in_cmd i)); ("params", pstr_dict PInt (in_params i))]%string.
(** parsers/glyph.py 137-224, 298, 376, 405, 418: the keys of the dict of a glyph, again in the order of the file.
    [imp] is the value of "imported". *)
Definition glyph_items (g : glyph) (imp : option pyval) : list (pystr * pyval) :=
  opt "name" PStr (g_name g) ++ opt "num_masters" PInt (g_num_masters g) ++ opt "nodes" (plist node_py) (g_nodes g) ++
  opt "metrics" ppairs (g_metrics g) ++ opt "hints" hints_py (g_hints g) ++ opt "guides" guides_py (g_guides g) ++
  opt "components" (plist component_py) (g_components g) ++ opt "kerning" (pint_dict pints) (g_kerning g) ++
  opt "imported" (fun x => x) imp ++ opt "tth" (plist instruction_py) (g_tth g).
Definition glyph_py (g : glyph) (v : pyval) : Prop :=
  exists imp d, v = PDict d /\ Permutation d (glyph_items g imp) /\
    match g_imported g, imp with
    | Some i, Some x => exists l, x = PDict l /\ Permutation l (imported_items i)
    | None, None => True
    | _, _ => False
    end.
(** parsers/glyph.py 376-405, 477-482 *)
Definition outlines_py (m : mask_outlines) : list (pystr * pyval) :=
  (py "num_masters", PInt (mo_num_masters m)) :: opt "nodes" (plist node_py) (mo_nodes m).
(** parsers/glyph.py 465-475 *)
Definition mask_py (m : mask) : pyval :=
  PDict ((py "weight_vector", plist pnum (mk_weight_vector m)) :: outlines_py (mk_outlines m)).
(** parsers/options.py 19-86 *)
Definition opt_val_py (v : opt_val) : pyval :=
  match v with OInt z => PInt z | OFloat x => PFloat (Num x) | ODict d => pstr_dict PInt d end.
(** parsers/mm.py 54-63 *)
Definition instance_py (i : instance) : pyval :=
  pd [("name", PStr (in_name i)); ("values", plist pnum (in_values i))]%string.

(** all that is not a glyph *)
Definition plain_py (v : value) : pyval :=
  match v with
  | DStr x => PStr x
  | DInt x => PInt x
  | DDouble x => pdouble x
  | DInts x => pints x
  | DDoubles x => pdoubles x
  | DEncoding x => PList [PInt (fst x); PStr (snd x)]
  | DFlags x => pstr_dict pints x
  | DMappingMode x => mapping_mode_py x
  | DOptionList x => plist option_py x
  | DCmaps x => plist cmap_py x
  | DAxes x => plist ppairs x
  | DDoublePairs x => plist (fun p => PList [pdouble (fst p); pdouble (snd p)]) x
  | DMasterLocation x => PList [PInt (fst x); pdoubles (snd x)]
  | DKernPair x => kern_pair_py x
  | DFLVersion x => fl_version_py x
  | DBinaryTable x => binary_table_py x
  | DPclt x => pclt_py x
  | DPSInfo x => ps_info_py x
  | DPSOptions x => ps_options_py x
  | DGasp x => plist gasp_py x
  | DTTInfo x => pstr_dict tt_value_py x
  | DStems x => tt_stems_py x
  | DZones x => tt_zones_py x
  | DDeltas x => pint_dict (pint_dict PInt) x
  | DVdmx x => plist vdmx_py x
  | DNames x => plist name_record_py x
  | DLines x => pstrs x
  | DBackground x => background_py x
  | DBitmaps x => plist glyph_bitmap_py x
  | DAnchors x => plist anchor_py x
  | DAnchorProps x => plist anchor_props_py x
  | DGdef x => gdef_py x
  | DPair x => ppair x
  | DOrigin x => origin_py x
  | DSketch x => plist sketch_py x
  | DLinks x => links_py x
  | DPairs x => ppairs x
  | DGuides x => guides_py x
  | DGuideProps x => guide_props_py x
  | DGlyph x => PNone
  | DGlobalMask x => PDict (outlines_py x)
  | DMask x => mask_py x
  | DFontOptions x => pstr_dict opt_val_py x
  | DInstances x => plist instance_py x
  end.
(** the data of an entry as a Python value *)
Definition value_py (v : value) (t : pyval) : Prop :=
  match v with DGlyph g => glyph_py g t | _ => t = plain_py v end.

(** ** The dict of a Vfb: vfb/vfb.py 123-133, vfb/entry.py 167-179, vfb/header.py 27-30 *)
(** parsers/header.py 36-42 *)
Definition header_py (h : hdr) : pyval :=
  pd [("signature", PInt (signature h)); ("app_version", PInt (app_version h)); ("file_version", PInt (file_version h));
      ("version_major", PInt (version_major h)); ("version_minor", PInt (version_minor h))]%string.
Definition json_py (j : json value) (t : pyval) : Prop :=
  match j with
  | JNull => t = PNone
  | JStr s => t = PStr s
  | JHeader h => t = header_py h
  | JData v => value_py v t
  end.
Definition entry_py (e : pystr * option Z * json value) (t : pyval) : Prop :=
  let '(k, size, j) := e in
  exists x, json_py j x /\ t = PDict ((py "key", PStr k) :: opt "size" PInt size ++ [(py "decompiled", x)]).
(** [as_dict] of M_Tools.v as a Python value *)
Definition vfb_py (o : oracles) (v : vfb value) (t : pyval) : Prop :=
  let '(h, es) := as_dict (key_of o) JData v in
  exists x l, json_py h x /\ Forall2 entry_py es l /\
    t = pd [("header", pd [("decompiled", x)]); ("entries", PList l)]%string.

(** json.py 8-29, the first part of [save_vfb_json]: the Vfb whose dict is written by [write_vfb_json], or the
    exception. [minimal] is kept in the Vfb (vfb/vfb.py 81), but only the export to UFO looks at it. *)
Definition save_vfb (o : oracles) (fuel : nat) (only_header minimal uni no_decompile roundtrip : bool) (file : bytes)
  : vfb value * res unit :=
  match vfb_read_bytes (table o) fuel (new_vfb [] only_header uni) file with
  | (v, RErr x _) => (v, Err x)
  | (v, ROk _ _) =>
      let '(v, r) := if roundtrip then
                       match vfb_decompile (table o) v with
                       | (v, Ok _) => vfb_compile (table o) v
                       | (v, Err x) => (v, Err x)
                       end
                     else (v, Ok tt) in
      match r with
      | Err x => (v, Err x)
      | Ok _ => if no_decompile then (v, Ok tt) else vfb_decompile (table o) v
      end
  end.
