(** Model of parsers/glyph.py, compilers/glyph.py, parsers/guides.py, compilers/guides.py and
    truetype.py. The two mask entries with weights are in M_Options.v. *)
From Coq Require Import String.
From Verif Require Import Base M_Stream M_Helpers M_Text M_Py.
Local Open Scope list_scope.
Open Scope rd_scope.

(** What the glyph codec takes from outside vfbLib. The theorems hold for every choice of these
    functions; where one needs a property of them, it is in its statement. *)
Record oracles := Oracles
  { (** [degrees(atan2(v, 10000))]: a double *)
    o_angle : Z -> Z;
    (** [int(tan(radians(a)) * 10000)]; [int] may raise on infinities and NaN *)
    o_slope : Z -> res Z;
    (** [p = Program(); p.fromBytecode(b); p.getAssembly()] of fontTools *)
    o_asm : bytes -> res (list pystr);
    (** [p = Program(); p.fromAssembly(l); p.getBytecode()] of fontTools *)
    o_bytecode : list pystr -> res bytes }.

(** ** Small glyph entries *)

(** typing.py 245-247 [MMAnchorDict] *)
Record mm_anchor := MMAnchor { an_x : list Z; an_y : list Z }.
(** parsers/glyph.py 63-74 *)
Definition read_pair : rd (Z * Z) := x <- read_value ;; y <- read_value ;; ret (x, y).
Definition parse_anchors : rd (list mm_anchor) :=
  num_anchors <- read_value ;;
  num_masters <- read_value ;;
  rrange num_anchors
    (l <- rrange num_masters read_pair ;; ret (MMAnchor (map fst l) (map snd l))).
(** [for i in range(n)] in a writer *)
Definition zseq (n : Z) : list Z := map Z.of_nat (seq 0 (Z.to_nat n)).
(** compilers/glyph.py 28-36; [vfb_masters] is [self.vfb.num_masters], [None] when there is no vfb *)
Definition with_vfb {A} (vfb_masters : option Z) (k : Z -> res A) : res A :=
  match vfb_masters with Some n => k n | None => Err AssertionError end.
Definition compile_anchors (vfb_masters : option Z) (data : list mm_anchor) : wr :=
  with_vfb vfb_masters (fun n =>
    write_uvalue (Z.of_nat (length data)) +++ write_uvalue n +++
    wlist (fun a => wlist (fun i => wlet (py_index (an_x a) i) write_value +++
                                    wlet (py_index (an_y a) i) write_value) (zseq n)) data).

(** typing.py 12-14 [AnchorPropertiesDict]; the keys are optional for the compiler *)
Record anchor_props := AnchorProps { ap_hue : option Z; ap_data : option Z }.
(** parsers/glyph.py 77-85 *)
Definition parse_anchor_props : rd (list anchor_props) :=
  num_anchors <- read_value ;;
  rrange num_anchors
    (hue <- read_value ;; data <- read_value ;; ret (AnchorProps (Some hue) (Some data))).
(** compilers/glyph.py 39-44 *)
Definition or_zero (o : option Z) : Z := match o with Some v => v | None => 0 end.
Definition compile_anchor_props (data : list anchor_props) : wr :=
  write_uvalue (Z.of_nat (length data)) +++
  wlist (fun a => write_uvalue (or_zero (ap_hue a)) +++ write_uvalue (or_zero (ap_data a))) data.

(** __init__.py 16-22 *)
Definition gdef_class_names : list pystr :=
  [py "unassigned"; py "base"; py "ligature"; py "mark"; py "component"].
(** typing.py 6-9 [AnchorDict], 174-178 [GdefDict]. Simplification: a [glyph_class] key whose value
    is [None] (which the compiler takes for 0) is not distinguished from a missing key. *)
Record gdef_anchor := GdefAnchor { ga_name : option pystr; ga_x : Z; ga_y : Z }.
Record gdef := Gdef
  { gd_class : option pystr; gd_anchors : option (list gdef_anchor);
    gd_carets : option (list (Z * Z)); gd_ot_classes : option (list Z) }.
Definition some_if_any {A} (l : list A) : option (list A) :=
  match l with [] => None | _ => Some l end.
Definition some_if_text (s : pystr) : option pystr := match s with [] => None | _ => Some s end.
(** parsers/glyph.py 88-125 *)
Definition parse_gdef_anchor : rd gdef_anchor :=
  name <- read_str_with_len ;;
  x <- read_value ;; _ <- read_value ;; y <- read_value ;; _ <- read_value ;;
  ret (GdefAnchor (some_if_text name) x y).
Definition parse_gdef : rd gdef :=
  glyph_class <- read_value ;;
  glyph_class_name <- rlift (py_index gdef_class_names glyph_class) ;;
  num_anchors <- read_value ;;
  anchors <- rrange num_anchors parse_gdef_anchor ;;
  num_carets <- read_value ;;
  carets <- rrange num_carets read_pair ;;
  num_ot_classes <- read_value ;;
  ot_classes <- rrange num_ot_classes read_value ;;
  ret (Gdef (if str_eqb glyph_class_name (py "unassigned") then None else Some glyph_class_name)
            (some_if_any anchors) (some_if_any carets) (some_if_any ot_classes)).
(** [tuple.index] *)
Fixpoint py_find (x : pystr) (l : list pystr) (i : Z) : res Z :=
  match l with
  | [] => Err ValueError
  | y :: l' => if str_eqb x y then Ok i else py_find x l' (i + 1)
  end.
Definition or_nil {A} (o : option (list A)) : list A := match o with Some l => l | None => [] end.
(** compilers/glyph.py 47-74 *)
Definition compile_gdef_anchor (a : gdef_anchor) : wr :=
  write_str_with_len (or_empty (ga_name a)) +++ write_value (ga_x a) +++ write_value (-1) +++
  write_value (ga_y a) +++ write_value (-1).
Definition compile_gdef (d : gdef) : wr :=
  wlet (py_find (match gd_class d with Some c => c | None => py "unassigned" end)
                gdef_class_names 0) write_uvalue +++
  write_uvalue (Z.of_nat (length (or_nil (gd_anchors d)))) +++
  wlist compile_gdef_anchor (or_nil (gd_anchors d)) +++
  write_uvalue (Z.of_nat (length (or_nil (gd_carets d)))) +++
  wlist (fun p => write_value (fst p) +++ write_value (snd p)) (or_nil (gd_carets d)) +++
  write_uvalue (Z.of_nat (length (or_nil (gd_ot_classes d)))) +++
  wlist write_value (or_nil (gd_ot_classes d)).

(** parsers/glyph.py 128-132 and compilers/glyph.py 316-319 (origin); parsers/glyph.py 485-494 and
    compilers/glyph.py 411-415 (mask metrics) *)
Definition parse_int16_pair : rd (Z * Z) := x <- read_int16 ;; y <- read_int16 ;; ret (x, y).
Definition compile_int16_pair (d : Z * Z) : wr := write_int16 (fst d) +++ write_int16 (snd d).

(** parsers/glyph.py 426-432, compilers/glyph.py 322-328 *)
Definition read_triple : rd (Z * Z * Z) :=
  a <- read_value ;; b <- read_value ;; c <- read_value ;; ret (a, b, c).
Definition parse_sketch : rd (list (Z * Z * Z)) := num <- read_uvalue ;; rrange num read_triple.
Definition compile_sketch (data : list (Z * Z * Z)) : wr :=
  write_uvalue (Z.of_nat (length data)) +++
  wlist (fun t => let '(a, b, c) := t in write_value a +++ write_value b +++ write_value c) data.

(** parsers/glyph.py 435-450, compilers/glyph.py 331-340. [self.stream.getbuffer().nbytes] is the
    size of the entry, all of which is unread at this point. *)
Definition parse_unicodes : rd (list Z) :=
  fun s => rrange (Z.of_nat (length s) / 2) read_uint16 s.
Definition parse_unicodes_supp : rd (list Z) :=
  fun s => rrange (Z.of_nat (length s) / 4) read_uint32 s.
Definition compile_unicodes (data : list Z) : wr := wlist write_uint16 data.
Definition compile_unicodes_supp (data : list Z) : wr := wlist write_uint32 data.

(** typing.py 233-235 [LinkDict]; parsers/glyph.py 453-462, compilers/glyph.py 384-391 *)
Record links := Links { lk_x : list (Z * Z); lk_y : list (Z * Z) }.
Definition parse_links : rd links :=
  ny <- read_value ;; y <- rrange ny read_pair ;;
  nx <- read_value ;; x <- rrange nx read_pair ;;
  ret (Links x y).
Definition write_pair (p : Z * Z) : wr := write_value (fst p) +++ write_value (snd p).
Definition compile_links (d : links) : wr :=
  write_value (Z.of_nat (length (lk_y d))) +++ wlist write_pair (lk_y d) +++
  write_value (Z.of_nat (length (lk_x d))) +++ wlist write_pair (lk_x d).

(** parsers/glyph.py 497-506, compilers/glyph.py 418-423 *)
Definition parse_mask_metrics_mm (vfb_masters : option Z) : rd (list (Z * Z)) :=
  match vfb_masters with
  | None => rraise AssertionError
  | Some n => rrange (n - 1) read_pair
  end.
Definition compile_mask_metrics_mm (data : list (Z * Z)) : wr := wlist write_pair data.

(** ** Guides *)
(** typing.py 196-206; a guide is the list of its masters, [angle] a double *)
Record guide_master := GuideMaster { gm_pos : Z; gm_angle : Z }.
Record guides := Guides { gs_h : list (list guide_master); gs_v : list (list guide_master) }.
(** parsers/guides.py 19-53. The [except ValueError] clause logs and raises again. *)
Definition read_guide_master (o : oracles) : rd guide_master :=
  pos <- read_value ;; v <- read_value ;; ret (GuideMaster pos (o_angle o v)).
Definition parse_guides (o : oracles) (num_masters : Z) : rd guides :=
  nh <- read_value ;; h <- rrange nh (rrange num_masters (read_guide_master o)) ;;
  nv <- read_value ;; v <- rrange nv (rrange num_masters (read_guide_master o)) ;;
  ret (Guides h v).
(** parsers/guides.py 56-61; the [assert] that everything has been read *)
Definition parse_global_guides (o : oracles) (vfb_masters : option Z) : rd guides :=
  match vfb_masters with
  | None => rraise AssertionError
  | Some n => g <- parse_guides o n ;; b <- read_all ;; rassert (Nat.eqb (length b) 0) ;;; ret g
  end.
(** compilers/guides.py 11-21 *)
Definition compile_guide (o : oracles) (n : Z) (g : list guide_master) : wr :=
  wlist (fun i => wlet (py_index g i) (fun gm =>
    write_value (gm_pos gm) +++ wlet (o_slope o (gm_angle gm)) write_value)) (zseq n).
Definition compile_guides (o : oracles) (vfb_masters : option Z) (d : guides) : wr :=
  with_vfb vfb_masters (fun n =>
    write_value (Z.of_nat (length (gs_h d))) +++ wlist (compile_guide o n) (gs_h d) +++
    write_value (Z.of_nat (length (gs_v d))) +++ wlist (compile_guide o n) (gs_v d)).

(** typing.py 209-217 *)
Record guide_prop := GuideProp { gp_index : Z; gp_color : option pystr; gp_name : option pystr }.
Record guide_props := GuideProps { gps_h : list guide_prop; gps_v : list guide_prop }.
(** parsers/guides.py 77-78: [f"#{color_bgr[4:]}{color_bgr[2:4]}{color_bgr[:2]}"] *)
Definition swap_color (s : pystr) : pystr := slice_from 4 s ++ slice 2 4 s ++ slice 0 2 s.
Definition guide_color (color_raw : Z) : option pystr :=
  if -1 <? color_raw then Some (py "#" ++ swap_color (hex06 color_raw)) else None.
(** parsers/guides.py 68-84, one turn *)
Definition guide_props_turn (guides : list guide_prop) : rd (list guide_prop + list guide_prop) :=
  index <- read_value ;;
  if index =? 0 then ret (inr guides)
  else
    color_raw <- read_value ;;
    name <- read_str_with_len ;;
    ret (inl (guides ++ [GuideProp index (guide_color color_raw) (some_if_text name)])).
Definition parse_guide_props : rd guide_props :=
  h <- rloop guide_props_turn [] ;; v <- rloop guide_props_turn [] ;; ret (GuideProps h v).
(** compilers/guides.py 24-38. [color_rgb[5:]], [[3:5]], [[1:3]]. *)
Definition color_value (color_rgb : pystr) : res Z :=
  int_base16 (slice_from 5 color_rgb ++ slice 3 5 color_rgb ++ slice 1 3 color_rgb).
Definition compile_guide_prop (g : guide_prop) : wr :=
  write_value (gp_index g) +++
  (match gp_color g with
   | Some (c :: s) => wlet (color_value (c :: s)) (write_value_long false)
   | _ => write_value (-1)
   end) +++
  write_str_with_len (or_empty (gp_name g)).
Definition compile_guide_props (d : guide_props) : wr :=
  wlist compile_guide_prop (gps_h d) +++ write_value 0 +++
  wlist compile_guide_prop (gps_v d) +++ write_value 0.

(** ** Outlines *)
(** parsers/glyph.py 37-41 [PathCommand]. Simplification: the type of a node is one of the four
    (typing.py 259), where the dict has their names. *)
Inductive path_cmd := Move | Line | Curve | QCurve.
Definition path_value (c : path_cmd) : Z :=
  match c with Move => 0 | Line => 1 | Curve => 3 | QCurve => 4 end.
Definition path_command (v : Z) : res path_cmd :=
  if v =? 0 then Ok Move else if v =? 1 then Ok Line else if v =? 3 then Ok Curve
  else if v =? 4 then Ok QCurve else Err ValueError.
(** typing.py 256-259 [MMNode]; the points by master. Simplification: [flags] is always there (the
    compiler takes 0 when it is missing). *)
Record mm_node := MMNode { nd_type : path_cmd; nd_flags : Z; nd_points : list (list (Z * Z)) }.

Fixpoint map2 {A B C} (f : A -> B -> C) (l : list A) (m : list B) : list C :=
  match l, m with
  | x :: l', y :: m' => f x y :: map2 f l' m'
  | _, _ => []
  end.
Definition padd (p q : Z * Z) : Z * Z := (fst p + fst q, snd p + snd q).
Definition psub (p q : Z * Z) : Z * Z := (fst p - fst q, snd p - snd q).
(** parsers/glyph.py 44-60 [read_absolute_point]: one point in each master, relative to the last
    one in that master. [ref] is [x_masters], [y_masters]. *)
Definition read_row (num_masters : Z) (ref : list (Z * Z)) : rd (list (Z * Z)) :=
  rel <- rrange num_masters read_pair ;; ret (map2 padd ref rel).
Definition add_row (points : list (list (Z * Z))) (row : list (Z * Z)) : list (list (Z * Z)) :=
  map2 (fun ps p => ps ++ [p]) points row.
(** parsers/glyph.py 392-408 *)
Definition outlines_turn (num_masters : Z) (st : list mm_node * list (Z * Z))
  : rd (list mm_node * list (Z * Z)) :=
  let '(segments, ref) := st in
  byte <- read_uint8 ;;
  cmd <- rlift (path_command (Z.land byte 0x0F)) ;;
  let points0 := repeat [] (Z.to_nat num_masters) in
  row1 <- read_row num_masters ref ;;
  match cmd with
  | Curve =>
      row2 <- read_row num_masters row1 ;;
      row3 <- read_row num_masters row2 ;;
      ret (segments ++ [MMNode cmd (Z.shiftr byte 4) (add_row (add_row (add_row points0 row1) row2) row3)],
           row3)
  | _ => ret (segments ++ [MMNode cmd (Z.shiftr byte 4) (add_row points0 row1)], row1)
  end.
(** parsers/glyph.py 378-410 [parse_outlines]: the number of masters and the nodes *)
Definition parse_outlines : rd (Z * list mm_node) :=
  num_masters <- read_uvalue ;;
  _ <- read_value ;;
  num_nodes <- read_value ;;
  st <- rtimes (Z.to_nat num_nodes) (outlines_turn num_masters)
               ([], repeat (0, 0) (Z.to_nat num_masters)) ;;
  ret (num_masters, fst st).

(** compilers/glyph.py 356-381 [OutlinesCompiler]. [node["points"][i][j]] for all masters [i];
    simplification: the rows are collected before they are written, which only matters for how much
    of the stream that is thrown away has been written when [IndexError] is raised, and for which
    exception comes first when a node has both a missing point and a number that cannot be written. *)
Definition node_row (num_masters : Z) (points : list (list (Z * Z))) (j : Z) : res (list (Z * Z)) :=
  res_map (fun i => rthen (py_index points i) (fun ps => py_index ps j)) (zseq num_masters).
Definition write_row (ref row : list (Z * Z)) : wr := wlist write_pair (map2 psub row ref).
Fixpoint write_rows (ref : list (Z * Z)) (rows : list (list (Z * Z))) : wr :=
  match rows with
  | [] => wnil
  | row :: rows' => write_row ref row +++ write_rows row rows'
  end.
Definition node_rows (num_masters : Z) (n : mm_node) : res (list (list (Z * Z))) :=
  rthen (py_index (nd_points n) 0) (fun p0 =>
    res_map (node_row num_masters (nd_points n)) (zseq (Z.of_nat (length p0)))).
Fixpoint write_nodes (num_masters : Z) (ref : list (Z * Z)) (nodes : list mm_node) : wr :=
  match nodes with
  | [] => wnil
  | n :: nodes' =>
      write_uint8 (nd_flags n * 16 + path_value (nd_type n)) +++
      wlet (node_rows num_masters n) (fun rows =>
        write_rows ref rows +++ write_nodes num_masters (last rows ref) nodes')
  end.
(** the number of values: one per node, two per point and master *)
Definition node_values (num_masters : Z) (n : mm_node) : Z :=
  1 + 2 * Z.of_nat (length (nth 0 (nd_points n) [])) * Z.max 0 num_masters.
Definition outlines_values (num_masters : Z) (nodes : list mm_node) : Z :=
  fold_right (fun n acc => node_values num_masters n + acc) 0 nodes.
(** compilers/glyph.py 298-313 [compile_outlines] without the key *)
Definition compile_outlines (num_masters : Z) (nodes : option (list mm_node)) : wr :=
  write_value num_masters +++
  match nodes with
  | None | Some [] => write_value 0 +++ write_value 0
  | Some l =>
      write_value (2 * outlines_values num_masters l) +++
      write_value (Z.of_nat (length l)) +++
      write_nodes num_masters (repeat (0, 0) (Z.to_nat num_masters)) l
  end.

(** ** TrueType hinting *)
(** truetype.py 3-48 [TT_COMMANDS] *)
Definition tt_commands : list (Z * (pystr * list pystr)) :=
  [(0x01, (py "AlignTop", [py "pt"; py "zone"]));
   (0x02, (py "AlignBottom", [py "pt"; py "zone"]));
   (0x03, (py "SingleLinkH", [py "pt1"; py "pt2"; py "stem"; py "align"]));
   (0x04, (py "SingleLinkV", [py "pt1"; py "pt2"; py "stem"; py "align"]));
   (0x05, (py "DoubleLinkH", [py "pt1"; py "pt2"; py "stem"]));
   (0x06, (py "DoubleLinkV", [py "pt1"; py "pt2"; py "stem"]));
   (0x07, (py "AlignH", [py "pt"; py "align"]));
   (0x08, (py "AlignV", [py "pt"; py "align"]));
   (0x0D, (py "InterpolateH", [py "pti"; py "pt1"; py "pt2"; py "align"]));
   (0x0E, (py "InterpolateV", [py "pti"; py "pt1"; py "pt2"; py "align"]));
   (0x14, (py "MDeltaH", [py "pt"; py "shift"; py "ppm1"; py "ppm2"]));
   (0x15, (py "MDeltaV", [py "pt"; py "shift"; py "ppm1"; py "ppm2"]));
   (0x16, (py "FDeltaH", [py "pt"; py "shift"; py "ppm1"; py "ppm2"]));
   (0x17, (py "FDeltaV", [py "pt"; py "shift"; py "ppm1"; py "ppm2"]))].
(** truetype.py 51 [TT_COMMAND_CONSTANTS] *)
Definition tt_command_constants : list (pystr * Z) :=
  map (fun p => (fst (snd p), fst p)) tt_commands.
(** typing.py 228-230 [Instruction] *)
Record instruction := Instruction { in_cmd : pystr; in_params : list (pystr * Z) }.
(** parsers/glyph.py 346-366 *)
Definition parse_instruction : rd instruction :=
  cmd <- read_uint8 ;;
  c <- rlift (aget_res Z.eqb cmd tt_commands) ;;
  params <- rrange (Z.of_nat (length (snd c))) read_value ;;
  ret (Instruction (fst c) (combine (snd c) params)).
Definition parse_instructions : rd (list instruction) :=
  _ <- read_value ;;
  num_commands <- read_value ;;
  commands <- rrange num_commands parse_instruction ;;
  _ <- rrepeat 3 read_value ;;
  ret commands.
(** compilers/glyph.py 343-353 *)
Definition compile_instruction (i : instruction) : wr :=
  wlet (aget_res str_eqb (in_cmd i) tt_command_constants) (fun command_id =>
  write_uint8 command_id +++
  wlet (aget_res Z.eqb command_id tt_commands) (fun c =>
    wlist (fun name => wlet (aget_res str_eqb name (in_params i)) write_value) (snd c))).
Definition compile_instructions (data : list instruction) : wr :=
  write_value (Z.of_nat (length data)) +++ wlist compile_instruction data +++
  wlist write_value [0; 0; 0].

(** ** The other parts of a glyph *)
(** typing.py 250-253 [MMHintsDict]; a hint is the list of its masters, [(pos, width)]. The keys of
    the hint masks are strings. Simplification: both directions are always there. *)
Record mm_hints := MMHints
  { mh_h : list (list (Z * Z)); mh_v : list (list (Z * Z)); mh_masks : option (list (pystr * Z)) }.
(** typing.py 41-46 [Component]; the scales are doubles *)
Record component := Component
  { co_gid : Z; co_x : list Z; co_y : list Z; co_sx : list Z; co_sy : list Z }.
(** parsers/glyph.py 266-276; [on] is a separate key of the dict *)
Record binary_node := BinaryNode { bn_flags : Z; bn_on : Z; bn_point : Z * Z }.
(** parsers/glyph.py 228-301. The keys that the parser sets together are one field here: width, lsb,
    unknown1-3, bbox; num_contours and endpoints. *)
Record imported_metrics := ImportedMetrics
  { ib_width : Z; ib_lsb : Z; ib_unknown1 : Z; ib_unknown2 : Z; ib_unknown3 : Z; ib_bbox : list Z }.
Record imported := Imported
  { im_metrics : option imported_metrics; im_contours : option (Z * list Z);
    im_nodes : option (list binary_node); im_instructions : option (list pystr);
    im_hdmx : option (list Z) }.
(** typing.py [GlyphData]: a dict with optional keys. The order of the keys is not modelled. *)
Record glyph := Glyph
  { g_name : option pystr; g_num_masters : option Z; g_nodes : option (list mm_node);
    g_metrics : option (list (Z * Z)); g_hints : option mm_hints; g_guides : option guides;
    g_components : option (list component); g_kerning : option (list (Z * list Z));
    g_imported : option imported; g_tth : option (list instruction) }.
Definition empty_glyph_data : glyph := Glyph None None None None None None None None None None.
Definition empty_imported : imported := Imported None None None None None.

(** updates of one key *)
Definition set_name (v : pystr) (g : glyph) :=
  Glyph (Some v) (g_num_masters g) (g_nodes g) (g_metrics g) (g_hints g) (g_guides g) (g_components g) (g_kerning g) (g_imported g) (g_tth g).
Definition set_outlines (n : Z) (v : list mm_node) (g : glyph) :=
  Glyph (g_name g) (Some n) (Some v) (g_metrics g) (g_hints g) (g_guides g) (g_components g) (g_kerning g) (g_imported g) (g_tth g).
Definition set_metrics (v : list (Z * Z)) (g : glyph) :=
  Glyph (g_name g) (g_num_masters g) (g_nodes g) (Some v) (g_hints g) (g_guides g) (g_components g) (g_kerning g) (g_imported g) (g_tth g).
Definition set_hints (v : mm_hints) (g : glyph) :=
  Glyph (g_name g) (g_num_masters g) (g_nodes g) (g_metrics g) (Some v) (g_guides g) (g_components g) (g_kerning g) (g_imported g) (g_tth g).
Definition set_guides (v : guides) (g : glyph) :=
  Glyph (g_name g) (g_num_masters g) (g_nodes g) (g_metrics g) (g_hints g) (Some v) (g_components g) (g_kerning g) (g_imported g) (g_tth g).
Definition set_components (v : list component) (g : glyph) :=
  Glyph (g_name g) (g_num_masters g) (g_nodes g) (g_metrics g) (g_hints g) (g_guides g) (Some v) (g_kerning g) (g_imported g) (g_tth g).
Definition set_kerning (v : list (Z * list Z)) (g : glyph) :=
  Glyph (g_name g) (g_num_masters g) (g_nodes g) (g_metrics g) (g_hints g) (g_guides g) (g_components g) (Some v) (g_imported g) (g_tth g).
Definition set_imported (v : imported) (g : glyph) :=
  Glyph (g_name g) (g_num_masters g) (g_nodes g) (g_metrics g) (g_hints g) (g_guides g) (g_components g) (g_kerning g) (Some v) (g_tth g).
Definition set_tth (v : list instruction) (g : glyph) :=
  Glyph (g_name g) (g_num_masters g) (g_nodes g) (g_metrics g) (g_hints g) (g_guides g) (g_components g) (g_kerning g) (g_imported g) (Some v).

(** [for _ in range(self.num_masters)]: the attribute is set by the outlines section *)
Definition per_master {A} (num_masters : option Z) (r : rd A) : rd (list A) :=
  match num_masters with Some n => rrange n r | None => rraise AttributeError end.

(** __init__.py 24-30 [replace_types] *)
Definition replace_types : list (Z * pystr) := [(0x01, py "h"); (0x02, py "v"); (0xFF, py "r")].
(** parsers/glyph.py 320-344 *)
Definition read_hintmask : rd (pystr * Z) :=
  k <- read_uint8 ;; val <- read_value ;; key <- rlift (aget_res Z.eqb k replace_types) ;;
  ret (key, val).
Definition parse_hints (nm : option Z) : rd mm_hints :=
  nh <- read_value ;; h <- rrange nh (per_master nm read_pair) ;;
  nv <- read_value ;; v <- rrange nv (per_master nm read_pair) ;;
  num_hintmasks <- read_value ;;
  masks <- rrange num_hintmasks read_hintmask ;;
  ret (MMHints h v (some_if_any masks)).
Definition store_hints (h : mm_hints) (g : glyph) : glyph :=
  match mh_v h, mh_h h, mh_masks h with
  | [], [], None => g
  | _, _, _ => set_hints h g
  end.
(** parsers/glyph.py 303-318 *)
Definition read_offset_scale : rd (Z * Z * Z * Z) :=
  x <- read_value ;; y <- read_value ;;
  s <- read_doubles 2 ;;
  match s with
  | [sx; sy] => ret (x, y, sx, sy)
  | _ => rraise ValueError  (* [scaleX, scaleY = ...]: two doubles were asked for *)
  end.
Definition parse_component (nm : option Z) : rd component :=
  gid <- read_value ;;
  l <- per_master nm read_offset_scale ;;
  ret (Component gid (map (fun t => fst (fst (fst t))) l) (map (fun t => snd (fst (fst t))) l)
                 (map (fun t => snd (fst t)) l) (map snd l)).
Definition parse_components (nm : option Z) : rd (list component) :=
  num <- read_value ;; rrange num (parse_component nm).
(** parsers/glyph.py 412-423 *)
Definition kerning_turn (nm : option Z) (kerning : list (Z * list Z)) : rd (list (Z * list Z)) :=
  gid <- read_value ;; values <- per_master nm read_value ;;
  ret (aset Z.eqb gid values kerning).
Definition parse_kerning (nm : option Z) : rd (list (Z * list Z)) :=
  num <- read_value ;; rtimes (Z.to_nat num) (kerning_turn nm) [].
(** parsers/glyph.py 255-277 *)
Definition binary_nodes_turn (st : list binary_node * (Z * Z)) : rd (list binary_node * (Z * Z)) :=
  let '(nodes, p) := st in
  d <- read_pair ;; flags <- read_uint8 ;;
  let p' := padd p d in
  ret (nodes ++ [BinaryNode flags (Z.land flags 1) p'], p').
(** parsers/glyph.py 228-301, one turn of the loop *)
Definition binary_turn (o : oracles) (i : imported) : rd (imported + imported) :=
  key <- read_uint8 ;;
  if key =? 0x28 then ret (inr i)
  else if key =? 0x29 then
    width <- read_uvalue ;; lsb <- read_value ;; u1 <- read_value ;; u2 <- read_value ;;
    u3 <- read_value ;; bbox <- rrepeat 4 read_value ;;
    ret (inl (Imported (Some (ImportedMetrics width lsb u1 u2 u3 bbox)) (im_contours i) (im_nodes i)
                       (im_instructions i) (im_hdmx i)))
  else if key =? 0x2A then
    num_contours <- read_value ;;
    endpoints <- rrange num_contours read_uvalue ;;
    num_nodes <- read_uvalue ;;
    st <- rtimes (Z.to_nat num_nodes) binary_nodes_turn ([], (0, 0)) ;;
    ret (inl (Imported (im_metrics i) (Some (num_contours, endpoints))
                (match fst st with [] => im_nodes i | l => Some l end)
                (im_instructions i) (im_hdmx i)))
  else if key =? 0x2B then
    num_bytes <- read_uvalue ;;
    instructions <- read_bytes num_bytes ;;
    l <- rlift (o_asm o instructions) ;;
    ret (inl (Imported (im_metrics i) (im_contours i) (im_nodes i) (Some l) (im_hdmx i)))
  else if key =? 0x2C then
    num <- read_value ;;
    hdmx <- rrange num read_uint8 ;;
    ret (inl (Imported (im_metrics i) (im_contours i) (im_nodes i) (im_instructions i) (Some hdmx)))
  else rraise ValueError.
Definition parse_binary (o : oracles) : rd imported := rloop (binary_turn o) empty_imported.

(** parsers/glyph.py 164-218, one turn of the loop. [self.name] and [self.num_masters] are set
    together with the keys of the dict, so the dict tells whether they exist. *)
Definition glyph_turn (o : oracles) (g : glyph) : rd (glyph + glyph) :=
  let nm := g_num_masters g in
  v <- read_uint8 ;;
  if v =? 0x01 then name <- read_str_with_len ;; ret (inl (set_name name g))
  else if v =? 0x02 then m <- per_master nm read_pair ;; ret (inl (set_metrics m g))
  else if v =? 0x03 then h <- parse_hints nm ;; ret (inl (store_hints h g))
  else if v =? 0x04 then
    match nm, g_name g with
    | Some n, Some _ => gs <- parse_guides o n ;; ret (inl (set_guides gs g))
    | _, _ => rraise AttributeError
    end
  else if v =? 0x05 then c <- parse_components nm ;; ret (inl (set_components c g))
  else if v =? 0x06 then k <- parse_kerning nm ;; ret (inl (set_kerning k g))
  else if v =? 0x07 then ret (inl g)
  else if v =? 0x08 then ol <- parse_outlines ;; ret (inl (set_outlines (fst ol) (snd ol) g))
  else if v =? 0x09 then i <- parse_binary o ;; ret (inl (set_imported i g))
  else if v =? 0x0A then
    l <- parse_instructions ;;
    ret (inl (match l with [] => g | _ => set_tth l g end))
  else if v =? 0x0F then ret (inr g)
  else read_all ;;; rraise ValueError.
(** parsers/glyph.py 160-220 [GlyphParser._parse]; other constants than 1, 9, 7, 1 are logged *)
Definition parse_glyph (o : oracles) : rd glyph :=
  start <- read_bytes 4 ;;
  (if Nat.eqb (length start) 4 then ret tt else rraise StructError) ;;;
  rloop (glyph_turn o) empty_glyph_data.

(** *** The compiler *)
(** compilers/glyph.py 201-211 *)
Definition compile_glyph_name (g : glyph) : wr :=
  match g_name g with
  | None | Some [] => wnil
  | Some name =>
      wlet (cp1252_encode name) (fun b =>
        write_uint8 1 +++ write_value (Z.of_nat (length b)) +++ write_bytes b)
  end.
(** compilers/glyph.py 287-296 *)
Definition compile_metrics (n : Z) (g : glyph) : wr :=
  match g_metrics g with
  | None | Some [] => wnil
  | Some metrics =>
      write_uint8 2 +++ wlist (fun i => wlet (py_index metrics i) write_pair) (zseq n)
  end.
(** compilers/glyph.py 229-261 *)
Definition compile_hint_dir (n : Z) (l : list (list (Z * Z))) : wr :=
  write_value (Z.of_nat (length l)) +++
  wlist (fun h => wlist (fun i => wlet (py_index h i) write_pair) (zseq n)) l.
Definition hintmask_keys : list (pystr * Z) := [(py "h", 0x01); (py "v", 0x02); (py "r", 0xFF)].
Definition compile_hintmask (kv : pystr * Z) : wr :=
  wlet (aget_res str_eqb (fst kv) hintmask_keys) write_uint8 +++ write_value (snd kv).
Definition compile_hints (n : Z) (g : glyph) : wr :=
  match g_hints g with
  | None => wnil
  | Some h =>
      write_uint8 3 +++ compile_hint_dir n (mh_h h) +++ compile_hint_dir n (mh_v h) +++
      write_value (Z.of_nat (length (or_nil (mh_masks h)))) +++
      wlist compile_hintmask (or_nil (mh_masks h))
  end.
(** compilers/glyph.py 213-227 *)
Definition compile_glyph_guides (o : oracles) (vfb_masters : option Z) (g : glyph) : wr :=
  match g_guides g with
  | None => wnil
  | Some gs => write_uint8 4 +++ compile_guides o vfb_masters gs
  end.
(** compilers/glyph.py 186-199 *)
Definition compile_component (n : Z) (c : component) : wr :=
  write_value (co_gid c) +++
  wlist (fun i => wlet (py_index (co_x c) i) write_value +++ wlet (py_index (co_y c) i) write_value +++
                  wlet (py_index (co_sx c) i) write_double +++ wlet (py_index (co_sy c) i) write_double)
        (zseq n).
Definition compile_components (n : Z) (g : glyph) : wr :=
  match g_components g with
  | None | Some [] => wnil
  | Some l => write_uint8 5 +++ write_value (Z.of_nat (length l)) +++ wlist (compile_component n) l
  end.
(** compilers/glyph.py 275-285 *)
Definition compile_kerning (g : glyph) : wr :=
  match g_kerning g with
  | None | Some [] => wnil
  | Some l =>
      write_uint8 6 +++ write_value (Z.of_nat (length l)) +++
      wlist (fun kv => write_value (fst kv) +++ wlist write_value (snd kv)) l
  end.
(** compilers/glyph.py 122-184 *)
Fixpoint write_binary_nodes (p0 : Z * Z) (l : list binary_node) : wr :=
  match l with
  | [] => wnil
  | n :: l' => write_pair (psub (bn_point n) p0) +++ write_uint8 (bn_flags n) +++
               write_binary_nodes (bn_point n) l'
  end.
Definition compile_imported (o : oracles) (i : imported) : wr :=
  write_uint8 9 +++ write_uint8 0x29 +++
  match im_metrics i with
  | None => Err KeyError
  | Some m =>
      write_uvalue (ib_width m) +++ write_value (ib_lsb m) +++ write_value (ib_unknown1 m) +++
      write_value (ib_unknown2 m) +++ write_value (ib_unknown3 m) +++ wlist write_value (ib_bbox m)
  end +++
  write_uint8 0x2A +++
  match im_contours i with
  | None => Err KeyError
  | Some (num_contours, endpoints) => write_value num_contours +++ wlist write_uvalue endpoints
  end +++
  write_uvalue (Z.of_nat (length (or_nil (im_nodes i)))) +++
  write_binary_nodes (0, 0) (or_nil (im_nodes i)) +++
  write_uint8 0x2B +++
  match or_nil (im_instructions i) with
  | [] => write_uvalue 0
  | l => wlet (o_bytecode o l) (fun bytecode =>
           write_uvalue (Z.of_nat (length bytecode)) +++ write_bytes bytecode)
  end +++
  write_uint8 0x2C +++ write_uvalue (Z.of_nat (length (or_nil (im_hdmx i)))) +++
  wlist write_uint8 (or_nil (im_hdmx i)) +++
  write_uint8 0x28.
(** [if not imported]: an empty dict is false *)
Definition compile_binary (o : oracles) (g : glyph) : wr :=
  match g_imported g with
  | None | Some (Imported None None None None None) => wnil
  | Some i => compile_imported o i
  end.
(** compilers/glyph.py 263-273 *)
Definition compile_tth (g : glyph) : wr :=
  match g_tth g with
  | None | Some [] => wnil
  | Some l => write_uint8 0x0A +++ wlet (compile_instructions l) (fun b =>
                write_value (Z.of_nat (length b)) +++ write_bytes b)
  end.
(** compilers/glyph.py 106-120 [GlyphCompiler._compile] *)
Definition compile_glyph (o : oracles) (vfb_masters : option Z) (g : glyph) : wr :=
  write_bytes [1; 9; 7; 1] +++
  match g_num_masters g with
  | None => Err KeyError
  | Some n =>
      compile_glyph_name g +++
      (write_uint8 8 +++ compile_outlines n (g_nodes g)) +++
      compile_metrics n g +++
      compile_hints n g +++
      compile_glyph_guides o vfb_masters g +++
      compile_components n g +++
      compile_kerning g +++
      compile_binary o g +++
      compile_tth g +++
      write_uint8 15
  end.

(** ** The global mask: parsers/glyph.py 478-482, compilers/glyph.py 405-408 *)
Record mask_outlines := MaskOutlines { mo_num_masters : Z; mo_nodes : option (list mm_node) }.
Definition parse_global_mask : rd mask_outlines :=
  ol <- parse_outlines ;; ret (MaskOutlines (fst ol) (Some (snd ol))).
Definition compile_global_mask (m : mask_outlines) : wr :=
  compile_outlines (mo_num_masters m) (mo_nodes m).
