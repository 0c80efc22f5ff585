(** What the numbers of a file stand for (C105): the options, bits, classes and commands that the
    decompiled data has names for. *)
From Coq Require Import String.
From Verif Require Import Base M_Stream M_Py M_Float M_Simple M_Options M_Glyph S_Entry.
Local Open Scope list_scope.

(** ** Bits *)
Definition stored_bit (v k : Z) : Z := if Z.testbit v k then 1 else 0.
(** the number that two or four bytes stand for *)
Definition number2 (a b : Z) : Z := a + 256 * b.
Definition number4 (a b c d : Z) : Z := a + 256 * b + 65536 * c + 16777216 * d.

(** ** Export options: bits with names, the others are numbers *)
Definition export_option (k : Z) : str_or_int :=
  if k =? 0 then SStr (py "use_custom_opentype_export_options")
  else if k =? 1 then SStr (py "use_default_opentype_export_options")
  else if k =? 2 then SStr (py "use_custom_cmap_encoding")
  else SInt k.

(** ** PostScript hinting options: the bits with a name are keys with the value 1, the numbers of the
    others are in a list *)
Definition hinting_bits (v : Z) (bits : list (Z * pystr)) (named : list (pystr * Z)) (other : list Z) : Prop :=
  (forall name, In name (map fst named) <-> exists k, In (k, name) bits /\ Z.testbit v k = true) /\
  (forall p, In p named -> snd p = 1) /\
  (forall k, In k other <-> 0 <= k /\ Z.testbit v k = true /\ ~ In k (map fst bits)).
Definition global_hinting_bits : list (Z * pystr) := [(0, py "generate_flex")].
Definition glyph_hinting_bits : list (Z * pystr) :=
  [(29, py "hint_replacement"); (30, py "horizontal_3_stem"); (31, py "vertical_3_stem")].

(** ** Font options *)
Definition option_numbers : list (Z * pystr) :=
  [(1, py "fit_ascender"); (2, py "fit_descender"); (3, py "auto_metrics_left");
   (4, py "auto_metrics_right"); (5, py "auto_metrics_close"); (6, py "auto_hinting_min_h_len");
   (7, py "auto_hinting_min_v_len"); (8, py "auto_hinting_min_h_width");
   (9, py "auto_hinting_min_v_width"); (10, py "auto_hinting_max_h_width");
   (11, py "auto_hinting_max_v_width"); (12, py "auto_hinting_h_ratio"); (13, py "auto_hinting_v_ratio");
   (14, py "duplicate_place_x"); (15, py "paste_place_x"); (16, py "opentype_name_records");
   (17, py "codepage_for_cmap_1_0"); (18, py "dont_ignore_unicode_indexes"); (19, py "head_bbox_savings");
   (20, py "autohinting_options"); (21, py "export_hinted_truetype_font");
   (22, py "autohint_unhinted_glyphs"); (23, py "keep_existing_truetype_instructions");
   (24, py "export_visual_truetype_hints"); (25, py "apply_bbox_savings"); (26, py "auto_win_asc_desc");
   (27, py "add_characters"); (28, py "export_embedded_bitmaps");
   (29, py "copy_hdmx_data_from_base_to_composite_glyph"); (30, py "dont_automatically_reorder_glyphs");
   (31, py "export_ot"); (32, py "export_volt"); (33, py "write_kern_feature"); (34, py "t1_terminal");
   (35, py "t1_pfm"); (36, py "t1_afm"); (37, py "t1_autohint"); (38, py "t1_unicode");
   (39, py "optimize_align"); (40, py "optimize_reduce"); (41, py "t1_encoding"); (42, py "ot_write_gdef");
   (43, py "t1_use_os2"); (44, py "subrize"); (45, py "t1_sort"); (46, py "export_kern_table");
   (47, py "t1_fs_type"); (48, py "expand_kern_flags"); (49, py "expand_kern_codepage");
   (50, py "expand_kern_count"); (51, py "decompose"); (114, py "duplicate_place_y");
   (115, py "paste_place_y")].
Definition option_name (k : Z) : pystr :=
  match aget Z.eqb k option_numbers with Some n => n | None => [] end.
(** ratios are stored times 10000, two options are sets of bits *)
Definition option_meaning (k v : Z) : opt_val :=
  if (k =? 12) || (k =? 13) then OFloat (int_div v 10000)
  else if k =? 20 then
    ODict [(py "single_link_attachment_precision", v mod 8); (py "generate_triple_hints", stored_bit v 8);
           (py "generate_delta_instructions", stored_bit v 9);
           (py "direct_links_to_center_of_the_glyph_where_possible", stored_bit v 10);
           (py "interpolate_positions_of_cusp_points", stored_bit v 11);
           (py "interpolate_positions_of_double_links", stored_bit v 12);
           (py "add_link_to_rsb", stored_bit v 13)]
  else if k =? 48 then
    ODict [(py "limit_action", stored_bit v 0); (py "limit_codepage", stored_bit v 1);
           (py "limit_cmap_10", stored_bit v 2); (py "limit_font_window", stored_bit v 3);
           (py "limit_count", stored_bit v 4); (py "limit_keep", stored_bit v 5);
           (py "apply_to_assistance", stored_bit v 12)]
  else OInt v.
(** pairs of an option number and an encoded value, ended by 100 *)
Inductive stored_options : list (Z * Z) -> bytes -> Prop :=
| stored_end : stored_options [] [100]
| stored_option : forall k v e l bs, write_value v = Ok e -> int32 v -> stored_options l bs ->
    stored_options ((k, v) :: l) (k :: e ++ bs).

(** ** Mapping mode *)
Definition mapping_mode_name (v : Z) : pystr :=
  if v =? 0 then py "names_or_index" else if v =? 1 then py "unicode_ranges"
  else if v =? 3 then py "codepages" else dec_str v.

(** ** Hint masks, GDEF classes, TrueType commands *)
Definition hintmask_names : list (Z * pystr) := [(1, py "h"); (2, py "v"); (255, py "r")].
Definition gdef_classes : list (Z * pystr) :=
  [(1, py "base"); (2, py "ligature"); (3, py "mark"); (4, py "component")].
Definition command_numbers : list (Z * (pystr * list pystr)) :=
  let align := [py "pt"; py "align"] in
  let zone := [py "pt"; py "zone"] in
  let link := [py "pt1"; py "pt2"; py "stem"; py "align"] in
  let double_link := [py "pt1"; py "pt2"; py "stem"] in
  let interpolate := [py "pti"; py "pt1"; py "pt2"; py "align"] in
  let delta := [py "pt"; py "shift"; py "ppm1"; py "ppm2"] in
  [(1, (py "AlignTop", zone)); (2, (py "AlignBottom", zone));
   (3, (py "SingleLinkH", link)); (4, (py "SingleLinkV", link));
   (5, (py "DoubleLinkH", double_link)); (6, (py "DoubleLinkV", double_link));
   (7, (py "AlignH", align)); (8, (py "AlignV", align));
   (13, (py "InterpolateH", interpolate)); (14, (py "InterpolateV", interpolate));
   (20, (py "MDeltaH", delta)); (21, (py "MDeltaV", delta)); (22, (py "FDeltaH", delta)); (23, (py "FDeltaV", delta))].
(** encoded values one after the other *)
Inductive stored_values : list Z -> bytes -> Prop :=
| values_end : stored_values [] []
| values_next : forall v e l bs, write_value v = Ok e -> int32 v -> stored_values l bs ->
    stored_values (v :: l) (e ++ bs).
(** hint masks: a kind and an encoded value *)
Inductive stored_masks : list (Z * Z) -> bytes -> Prop :=
| masks_end : stored_masks [] []
| masks_next : forall k v e l bs, write_value v = Ok e -> int32 v -> stored_masks l bs ->
    stored_masks ((k, v) :: l) (k :: e ++ bs).
(** commands: a number and as many encoded values as it has parameters *)
Inductive stored_commands : list (Z * list Z) -> bytes -> Prop :=
| commands_end : stored_commands [] []
| commands_next : forall k name params vs e l bs, In (k, (name, params)) command_numbers ->
    length vs = length params -> stored_values vs e -> stored_commands l bs ->
    stored_commands ((k, vs) :: l) (k :: e ++ bs).
(** the command that a number and its values stand for *)
Definition command_meaning (c : Z * list Z) (i : instruction) : Prop :=
  exists name params, In (fst c, (name, params)) command_numbers /\
    i = Instruction name (combine params (snd c)).
