(** Model of the entries with scaled numbers: font options (parsers/options.py 19-83,
    compilers/options.py 18-60), primary instances (parsers/mm.py 54-63, compilers/mm.py 38-45) and
    glyph masks (parsers/glyph.py 465-475, compilers/glyph.py 394-402). *)
From Coq Require Import String.
From Verif Require Import Base M_Stream M_Helpers M_Text M_Py M_Simple M_Float M_Glyph.
Local Open Scope list_scope.
Open Scope rd_scope.

(** ** Font options *)
(** __init__.py 38-103 [font_options] *)
Definition font_options : list (Z * pystr) :=
  [(1, py "fit_ascender"); (2, py "fit_descender"); (3, py "auto_metrics_left");
   (4, py "auto_metrics_right"); (5, py "auto_metrics_close"); (6, py "auto_hinting_min_h_len");
   (7, py "auto_hinting_min_v_len"); (8, py "auto_hinting_min_h_width");
   (9, py "auto_hinting_min_v_width"); (10, py "auto_hinting_max_h_width");
   (11, py "auto_hinting_max_v_width"); (12, py "auto_hinting_h_ratio");
   (13, py "auto_hinting_v_ratio"); (14, py "duplicate_place_x"); (15, py "paste_place_x");
   (16, py "opentype_name_records"); (17, py "codepage_for_cmap_1_0");
   (18, py "dont_ignore_unicode_indexes"); (19, py "head_bbox_savings");
   (20, py "autohinting_options"); (21, py "export_hinted_truetype_font");
   (22, py "autohint_unhinted_glyphs"); (23, py "keep_existing_truetype_instructions");
   (24, py "export_visual_truetype_hints"); (25, py "apply_bbox_savings");
   (26, py "auto_win_asc_desc"); (27, py "add_characters"); (28, py "export_embedded_bitmaps");
   (29, py "copy_hdmx_data_from_base_to_composite_glyph");
   (30, py "dont_automatically_reorder_glyphs"); (31, py "export_ot"); (32, py "export_volt");
   (33, py "write_kern_feature"); (34, py "t1_terminal"); (35, py "t1_pfm"); (36, py "t1_afm");
   (37, py "t1_autohint"); (38, py "t1_unicode"); (39, py "optimize_align");
   (40, py "optimize_reduce"); (41, py "t1_encoding"); (42, py "ot_write_gdef");
   (43, py "t1_use_os2"); (44, py "subrize"); (45, py "t1_sort"); (46, py "export_kern_table");
   (47, py "t1_fs_type"); (48, py "expand_kern_flags"); (49, py "expand_kern_codepage");
   (50, py "expand_kern_count"); (51, py "decompose"); (114, py "duplicate_place_y");
   (115, py "paste_place_y")].

(** __init__.py 107-114 [TTAutoHintOptions] without the precision, in the order of
    compilers/options.py 31-38 *)
Definition autohint_flags : list (pystr * Z) :=
  [(py "generate_triple_hints", 0x100); (py "generate_delta_instructions", 0x200);
   (py "direct_links_to_center_of_the_glyph_where_possible", 0x400);
   (py "interpolate_positions_of_cusp_points", 0x800);
   (py "interpolate_positions_of_double_links", 0x1000); (py "add_link_to_rsb", 0x2000)].
Definition precision_key : pystr := py "single_link_attachment_precision".
(** __init__.py 117-124 [ExpandKernOptions] *)
Definition expand_kern_table : list (pystr * Z) :=
  [(py "limit_action", 0x1); (py "limit_codepage", 0x2); (py "limit_cmap_10", 0x4);
   (py "limit_font_window", 0x8); (py "limit_count", 0x10); (py "limit_keep", 0x20);
   (py "apply_to_assistance", 0x1000)].

(** the value of an option; the nested dicts have integer values *)
Inductive opt_val := OInt (v : Z) | OFloat (x : pyfloat) | ODict (d : list (pystr * Z)).
Definition font_options_dict := list (pystr * opt_val).

(** [int(bool(val & mask))] *)
Definition flag_of (val mask : Z) : Z := if Z.land val mask =? 0 then 0 else 1.
Definition unpack_flags (table : list (pystr * Z)) (val : Z) : list (pystr * Z) :=
  map (fun p => (fst p, flag_of val (snd p))) table.
(** parsers/options.py 33-64 *)
Definition unpack_autohint (val : Z) : list (pystr * Z) :=
  (precision_key, Z.land val 7) :: unpack_flags autohint_flags val.

(** [if key in options: options[key] = f(options[key])] *)
Definition update_option (key : pystr) (f : opt_val -> opt_val) (d : font_options_dict)
  : font_options_dict :=
  match aget str_eqb key d with Some v => aset str_eqb key (f v) d | None => d end.
(** [options[key] /= 10_000]: the value is the integer just read *)
Definition to_ratio (v : opt_val) : opt_val :=
  match v with OInt n => OFloat (int_div n 10000) | v => v end.
Definition to_autohint (v : opt_val) : opt_val :=
  match v with OInt n => ODict (unpack_autohint n) | v => v end.
Definition to_expand_kern (v : opt_val) : opt_val :=
  match v with OInt n => ODict (unpack_flags expand_kern_table n) | v => v end.

(** parsers/options.py 19-83 [FontOptionsParser._parse] *)
Definition post_process (d : font_options_dict) : font_options_dict :=
  update_option (py "expand_kern_flags") to_expand_kern
    (update_option (py "autohinting_options") to_autohint
       (update_option (py "auto_hinting_v_ratio") to_ratio
          (update_option (py "auto_hinting_h_ratio") to_ratio d))).
Definition collect_options (l : list (Z * Z)) : font_options_dict :=
  fold_left (fun d kv => aset str_eqb (get_or_str font_options (fst kv)) (OInt (snd kv)) d) l [].
Definition parse_font_options : rd font_options_dict :=
  l <- parse_key_values ;; ret (post_process (collect_options l)).

(** [v.get(subkey, default)] *)
Definition dget (d : list (pystr * Z)) (k : pystr) (default : Z) : Z :=
  match aget str_eqb k d with Some v => v | None => default end.
(** [packed += v.get(subkey, 0) * getattr(..., subkey)] for each subkey *)
Definition pack_flags (table : list (pystr * Z)) (d : list (pystr * Z)) (start : Z) : Z :=
  fold_left (fun acc p => acc + dget d (fst p) 0 * snd p) table start.
(** compilers/options.py 23-58: the integer to be written for the value of key [k];
    [AssertionError] if the value is of the wrong type *)
Definition option_int (k : pystr) (v : opt_val) : res Z :=
  if str_eqb k (py "auto_hinting_h_ratio") || str_eqb k (py "auto_hinting_v_ratio") then
    match v with OFloat x => py_round (float_mul x 10000) | _ => Err AssertionError end
  else if str_eqb k (py "autohinting_options") then
    match v with
    | ODict d => Ok (pack_flags autohint_flags d (dget d precision_key 7))
    | _ => Err AssertionError
    end
  else if str_eqb k (py "expand_kern_flags") then
    match v with ODict d => Ok (pack_flags expand_kern_table d 0) | _ => Err AssertionError end
  else match v with OInt n => Ok n | _ => Err AssertionError end.
(** compilers/options.py 18-60 [FontOptionsCompiler._compile] *)
Definition compile_option (p : pystr * opt_val) : wr :=
  match aget str_eqb (fst p) (rev_table font_options) with
  | None => Err AssertionError
  | Some raw_key =>
      wlet (option_int (fst p) (snd p)) (fun v => write_uint8 raw_key +++ write_value v)
  end.
Definition compile_font_options (d : font_options_dict) : wr :=
  wlist compile_option d +++ write_uint8 0x64.

(** ** Primary instances *)
Record instance := Instance { in_name : pystr; in_values : list pynum }.
(** parsers/mm.py 54-63 [PrimaryInstancesParser]; a value read is below 2^32, so that the division
    is one of exactly representable numbers *)
Definition parse_instance : rd instance :=
  name <- read_str_with_len ;;
  values <- rrepeat 4 (v <- read_value ;; ret (NFloat (int_div v 10000))) ;;
  ret (Instance name values).
Definition parse_instances : rd (list instance) :=
  num_instances <- read_value ;; rrange num_instances parse_instance.
(** compilers/mm.py 38-45 [PrimaryInstancesCompiler] *)
Definition compile_instance (i : instance) : wr :=
  write_str_with_len (in_name i) +++
  wlist (fun v => wlet (num_int_mul v 10000) write_value) (in_values i).
Definition compile_instances (l : list instance) : wr :=
  write_value (Z.of_nat (length l)) +++ wlist compile_instance l.

(** ** Glyph masks *)
Record mask := Mask { mk_weight_vector : list pynum; mk_outlines : mask_outlines }.
(** parsers/glyph.py 465-475 [MaskParser] *)
Definition parse_mask : rd mask :=
  num_values <- read_value ;;
  weight_vector <- rrange num_values (v <- read_value ;; ret (NFloat (int_div v 100000000))) ;;
  ol <- parse_outlines ;;
  ret (Mask weight_vector (MaskOutlines (fst ol) (Some (snd ol)))).
(** compilers/glyph.py 394-402 [MaskCompiler] *)
Definition compile_mask (m : mask) : wr :=
  write_value (Z.of_nat (length (mk_weight_vector m))) +++
  wlist (fun v => wlet (num_round_mul v 100000000) write_value) (mk_weight_vector m) +++
  compile_outlines (mo_num_masters (mk_outlines m)) (mo_nodes (mk_outlines m)).
