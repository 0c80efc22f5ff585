(** Model of the small entry codecs: parsers/base.py 230-358, compilers/base.py 220-302,
    parsers/numeric.py, compilers/numeric.py, parsers/cmap.py, compilers/cmap.py, parsers/mm.py 1-51,
    compilers/mm.py 1-35, parsers/fl3.py, compilers/fl3.py, parsers/flversion.py,
    compilers/flversion.py, parsers/binary.py, compilers/binary.py, parsers/pclt.py,
    compilers/pclt.py, parsers/ps.py, compilers/ps.py, parsers/options.py 7-16,
    compilers/options.py 11-15.

    A parser is the reader its [_parse] is; a compiler maps the data to the bytes its [_compile]
    writes. A [TypedDict] is a record; its optional keys are [option] fields. *)
From Coq Require Import String.
From Verif Require Import Base M_Stream M_Helpers M_Text M_Py.
Local Open Scope list_scope.
Open Scope rd_scope.

(** ** Hex strings *)
(** parsers/base.py 230-238 [BaseParser._parse] *)
Definition parse_hex : rd pystr := b <- read_all ;; ret (hexStr b).
(** compilers/base.py 246-260 [HexStringCompiler]; [None] is an entry without data *)
Definition compile_hex (s : pystr) : wr :=
  match s with [] => wnil | _ => wlet (deHexStr s) write_bytes end.

(** ** Lists of encoded values *)
(** parsers/base.py 303-311 [EncodedValueListParser] *)
Definition parse_values : rd (list Z) :=
  rloop (fun values =>
           rtry (v <- read_value ;; ret (inl (values ++ [v])))
                (on_eof (ret (inr values)))) [].
(** compilers/base.py 220-223 *)
Definition compile_values (l : list Z) : wr := wlist write_value l.

(** parsers/base.py 320-326 [EncodedValueListWithCountParser] *)
Definition parse_counted : rd (list Z) := count <- read_value ;; rrange count read_value.
(** compilers/base.py 226-230 *)
Definition compile_counted (l : list Z) : wr :=
  write_value (Z.of_nat (length l)) +++ wlist write_value l.

(** ** Glyph encoding: parsers/base.py 329-333, compilers/base.py 233-243 *)
Definition parse_encoding : rd (Z * pystr) :=
  gid <- read_uint16 ;; nam <- read_str_all ;; ret (gid, nam).
Definition compile_encoding (d : Z * pystr) : wr :=
  write_uint16 (fst d) +++ write_str (snd d).

(** ** Class flags: a dict from class names to tuples of 2 or 3 flags *)
Definition flags_dict := list (pystr * list Z).
(** parsers/base.py 336-345 (n = 2), 348-358 (n = 3) *)
Definition parse_class_flags (n : nat) : rd flags_dict :=
  num_classes <- read_value ;;
  rtimes (Z.to_nat num_classes)
    (fun d => name <- read_str_with_len ;; fl <- rrepeat n read_value ;;
              ret (aset str_eqb name fl d)) [].
(** compilers/base.py 284-291 (n = 2), 294-302 (n = 3); unpacking a tuple of another length raises
    [ValueError]. The name is written before; that does not matter as everything written is thrown
    away. *)
Definition compile_class_flags (n : nat) (d : flags_dict) : wr :=
  write_uvalue (Z.of_nat (length d)) +++
  wlist (fun p => write_str_with_len (fst p) +++
                  (if Nat.eqb (length (snd p)) n then wlist write_uvalue (snd p)
                   else Err ValueError)) d.

(** ** Key-value lists: parsers/base.py 244-259 [EncodedKeyValuesParser]; one pair per dict *)
Definition parse_key_values : rd (list (Z * Z)) :=
  rloop (fun values =>
           key <- read_uint8 ;;
           if key =? 0x64 then ret (inr values)
           else val <- read_value ;; ret (inl (values ++ [(key, val)]))) [].

(** ** Mapping mode *)
Record mapping_mode := MappingMode
  { mm_mode : pystr; mm_m2 : Z; mm_m3 : Z; mm_id : Z }.
(** __init__.py 32-36, repeated in compilers/base.py 263-267 *)
Definition mapping_modes : list (Z * pystr) :=
  [(0, py "names_or_index"); (1, py "unicode_ranges"); (3, py "codepages")].
(** [{v: k for k, v in d.items()}]; the values are distinct in all the tables it is used on *)
Definition rev_table (t : list (Z * pystr)) : list (pystr * Z) :=
  map (fun p => (snd p, fst p)) t.
(** [d.get(k, str(k))] *)
Definition get_or_str (t : list (Z * pystr)) (k : Z) : pystr :=
  match aget Z.eqb k t with Some s => s | None => dec_str k end.

(** the local variables of [MappingModeParser._parse] that have been assigned *)
Record mm_vars := MMVars
  { v_mode : option pystr; v_m2 : option Z; v_m3 : option Z; v_id : option Z }.
(** parsers/base.py 262-295 [MappingModeParser] *)
Definition parse_mapping_mode : rd mapping_mode :=
  rloop (fun st =>
    key <- read_uint8 ;;
    if key =? 0 then
      match v_mode st, v_m2 st, v_m3 st, v_id st with
      | Some a, Some b, Some c, Some d => ret (inr (MappingMode a b c d))
      | _, _, _, _ => rraise UnboundLocalError
      end
    else
      v <- read_value ;;
      if key =? 1 then
        ret (inl (MMVars (Some (get_or_str mapping_modes v)) (v_m2 st) (v_m3 st) (v_id st)))
      else if key =? 2 then ret (inl (MMVars (v_mode st) (Some v) (v_m3 st) (v_id st)))
      else if key =? 3 then ret (inl (MMVars (v_mode st) (v_m2 st) (Some v) (v_id st)))
      else if key =? 4 then ret (inl (MMVars (v_mode st) (v_m2 st) (v_m3 st) (Some v)))
      else rraise KeyError) (MMVars None None None None).
(** compilers/base.py 270-281 [MappingModeCompiler] *)
Definition compile_mapping_mode (d : mapping_mode) : wr :=
  write_uint8 1 +++
  wlet (aget_res str_eqb (mm_mode d) (rev_table mapping_modes)) write_value +++
  write_uint8 2 +++ write_value (mm_m2 d) +++
  write_uint8 3 +++ write_value (mm_m3 d) +++
  write_uint8 4 +++ write_value (mm_id d) +++ write_uint8 0.

(** ** Fixed width numbers *)
(** parsers/numeric.py 12-13, compilers/numeric.py 12-13 *)
Definition parse_double : rd Z := read_double.
Definition compile_double (v : Z) : wr := write_double v.
(** parsers/numeric.py 24-29 with [__size__ = 8], [__fmt__ = "d"]; [getbuffer().nbytes] is the
    length of the whole entry, and nothing has been read before *)
Definition parse_doubles : rd (list Z) :=
  fun s => rrange (Z.of_nat (length s) / 8) read_double s.
Definition compile_doubles (l : list Z) : wr := write_doubles l.
(** parsers/numeric.py 41-47 [Int16Parser] (unsigned), compilers/numeric.py 30-31 *)
Definition parse_int16 : rd Z := read_uint16.
Definition compile_int16 (v : Z) : wr := write_uint16 v.
(** parsers/numeric.py 75-85 [IntListParser], compilers/numeric.py 41-45 *)
Definition parse_int_list : rd (list Z) :=
  fun s => rrange (Z.of_nat (length s) / 4) read_uint32 s.
Definition compile_int_list (l : list Z) : wr := wlist write_uint32 l.
(** parsers/numeric.py 93-94 [PanoseParser]: [unpack("<10b")] of all data *)
Definition parse_panose : rd (list Z) :=
  b <- read_all ;;
  if Nat.eqb (length b) 10 then ret (map (fun x => le_dec_s [x]) b) else rraise StructError.
(** compilers/numeric.py 53-55: [pack("<10b", *data)] *)
Definition compile_panose (l : list Z) : wr :=
  if Nat.eqb (length l) 10 then wlist (pack_le_s 1) l else Err StructError.
(** parsers/numeric.py 102-103, 111-113, compilers/numeric.py 63-64, 72-73 *)
Definition parse_sint16 : rd Z := read_int16.
Definition compile_sint16 (v : Z) : wr := write_int16 v.
Definition parse_sint32 : rd Z := read_int32.
Definition compile_sint32 (v : Z) : wr := write_int32 v.
(** parsers/numeric.py 121-123 [UnicodeRangesParser]: up to 64 bytes *)
Definition parse_unicode_ranges : rd (list Z) :=
  b <- read_bytes 64 ;; rlift (binaryToIntList (le_dec b) 0).
(** compilers/numeric.py 81-85; a negative bit makes the sum a float, see
    [M_Helpers.intListToBinary] *)
Definition compile_unicode_ranges (l : list Z) : wr :=
  wlet (intListToBinary l) (to_bytes_u 16).

(** ** Export options: parsers/options.py 12-16, compilers/options.py 11-15 *)
Inductive str_or_int := SStr (s : pystr) | SInt (n : Z).
(** __init__.py 10-14 *)
Definition export_options : list (Z * pystr) :=
  [(0, py "use_custom_opentype_export_options"); (1, py "use_default_opentype_export_options");
   (2, py "use_custom_cmap_encoding")].
Definition export_name (i : Z) : str_or_int :=
  match aget Z.eqb i export_options with Some s => SStr s | None => SInt i end.
Definition parse_export_options : rd (list str_or_int) :=
  val <- read_uint16 ;; bits <- rlift (binaryToIntList val 0) ;; ret (map export_name bits).
(** [rev[k]]: all keys of [rev] are strings *)
Definition export_bit (x : str_or_int) : res Z :=
  match x with
  | SStr s => aget_res str_eqb s (rev_table export_options)
  | SInt _ => Err KeyError
  end.
Definition compile_export_options (l : list str_or_int) : wr :=
  wlet (res_map export_bit l) (fun bits => wlet (intListToBinary bits) write_uint16).

(** ** Custom cmaps: parsers/cmap.py 10-23, compilers/cmap.py 9-15 *)
Record custom_cmap := CustomCmap
  { cc_language_id : Z; cc_platform_id : Z; cc_encoding_id : Z; cc_format : Z; cc_option : Z;
    cc_page_name : pystr }.
Definition parse_custom_cmap : rd custom_cmap :=
  a <- read_value ;; b <- read_value ;; c <- read_value ;; d <- read_value ;;
  e <- read_value ;; n <- read_str_with_len ;; ret (CustomCmap a b c d e n).
Definition parse_custom_cmaps : rd (list custom_cmap) :=
  count <- read_value ;; rrange count parse_custom_cmap.
Definition compile_custom_cmap (c : custom_cmap) : wr :=
  write_value (cc_language_id c) +++ write_value (cc_platform_id c) +++
  write_value (cc_encoding_id c) +++ write_value (cc_format c) +++ write_value (cc_option c) +++
  write_str_with_len (cc_page_name c).
Definition compile_custom_cmaps (l : list custom_cmap) : wr :=
  write_value (Z.of_nat (length l)) +++ wlist compile_custom_cmap l.

(** ** Multiple master entries *)
Definition read_pair : rd (Z * Z) := a <- read_value ;; b <- read_value ;; ret (a, b).
Definition write_pair (p : Z * Z) : wr := write_value (fst p) +++ write_value (snd p).
(** parsers/mm.py 5-16 [AnisotropicInterpolationsParser]: the [try] covers a whole axis *)
Definition parse_anisotropic : rd (list (list (Z * Z))) :=
  rloop (fun values =>
           rtry (n <- read_value ;; axis_values <- rrange n read_pair ;;
                 ret (inl (values ++ [axis_values])))
                (on_eof (ret (inr values)))) [].
(** compilers/mm.py 9-15 *)
Definition compile_anisotropic (l : list (list (Z * Z))) : wr :=
  wlist (fun ax => write_value (Z.of_nat (length ax)) +++ wlist write_pair ax) l.
(** parsers/mm.py 19-25, compilers/mm.py 18-21 *)
Definition parse_axis_counts : rd (list Z) := rrepeat 4 read_uint32.
Definition compile_axis_counts (l : list Z) : wr := wlist write_uint32 l.
(** parsers/mm.py 28-40, compilers/mm.py 24-28 *)
Definition read_double_pair : rd (Z * Z) := a <- read_double ;; b <- read_double ;; ret (a, b).
Definition parse_axis_mappings : rd (list (Z * Z)) :=
  fun s => rrange (Z.of_nat (length s) / 16) read_double_pair s.
Definition compile_axis_mappings (l : list (Z * Z)) : wr :=
  wlist (fun p => write_double (fst p) +++ write_double (snd p)) l.
(** parsers/mm.py 43-51, compilers/mm.py 31-35; the location is a tuple of any length for the
    compiler *)
Definition parse_master_location : rd (Z * list Z) :=
  i <- read_uint32 ;; l <- rrepeat 4 read_double ;; ret (i, l).
Definition compile_master_location (d : Z * list Z) : wr :=
  write_uint32 (fst d) +++ write_doubles (snd d).

(** ** MM Kern Pair: parsers/fl3.py 8-23 and compilers/fl3.py 8-11 *)
Record kern_pair := KernPair { kp_l : Z; kp_r : Z; kp_values : list Z }.
Definition parse_kern_pair (num_masters : Z) : rd kern_pair :=
  l <- read_uint32 ;; r <- read_uint32 ;; vs <- rrange num_masters read_int16 ;;
  ret (KernPair l r vs).
(** [for value in data] over the dict yields its keys, which are strings: the first
    [value.to_bytes] raises [AttributeError] *)
Definition compile_kern_pair (d : kern_pair) : wr := Err AttributeError.

(** ** FL Version *)
Record fl_version := FLVersion { fv_platform : pystr; fv_version : list Z; fv_owner : Z }.
(** parsers/flversion.py 17-25 *)
Definition platform_names : list (Z * pystr) := [(0, py "windows"); (1, py "macos")].
Definition platform_ids : list (pystr * Z) := [(py "macos", 1); (py "windows", 0)].
(** parsers/flversion.py 33-54 *)
Definition parse_fl_version : rd fl_version :=
  rloop (fun st =>
    key <- read_uint8 ;;
    if key =? 0 then ret (inr st)
    else
      value <- read_value ;;
      if key =? 1 then
        p <- rlift (aget_res Z.eqb value platform_names) ;;
        ret (inl (FLVersion p (fv_version st) (fv_owner st)))
      else if key =? 2 then
        ret (inl (FLVersion (fv_platform st)
                   (map (fun i => Z.land (Z.shiftr value i) 0xFF) [24; 16; 8; 0])
                   (fv_owner st)))
      else if key =? 3 then ret (inl (FLVersion (fv_platform st) (fv_version st) value))
      else ret (inl st)) (FLVersion (py "macos") [5; 2; 2; 128] 0).
(** compilers/flversion.py 14-28 *)
Definition compile_fl_version (d : fl_version) : wr :=
  write_uint8 1 +++ wlet (aget_res str_eqb (fv_platform d) platform_ids) write_value +++
  write_uint8 2 +++ wassert (Nat.eqb (length (fv_version d)) 4) +++
  write_uint8 0xFF +++ wlist write_uint8 (fv_version d) +++
  write_uint8 3 +++ write_value (fv_owner d) +++ write_uint8 0.

(** ** Binary tables: parsers/binary.py 9-13, compilers/binary.py 12-14 *)
Record binary_table := BinaryTable { bt_tag : pystr; bt_data : pystr }.
Definition parse_binary_table : rd binary_table :=
  tag <- read_str 4 ;; b <- read_all ;; ret (BinaryTable tag (hexStr b)).
Definition compile_binary_table (d : binary_table) : wr :=
  write_str (bt_tag d) +++ wlet (deHexStr (bt_data d)) write_bytes.

(** ** PCLT: parsers/pclt.py 10-52, compilers/pclt.py 10-27 *)
Record pclt := Pclt
  { pc_font_number : Z; pc_pitch : Z; pc_x_height : Z; pc_style : Z; pc_type_family : Z;
    pc_cap_height : Z; pc_symbol_set : Z; pc_typeface : pystr; pc_complement : list Z;
    pc_file_name : pystr; pc_stroke_weight : Z; pc_width_type : Z; pc_serif_style : Z }.
Definition parse_pclt : rd pclt :=
  a <- read_uvalue ;; b <- read_value ;; c <- read_value ;; d <- read_value ;;
  e <- read_value ;; f <- read_value ;; g <- read_value ;;
  tf <- read_str 16 ;; cc <- rrepeat 8 read_uint8 ;; fn <- read_str 6 ;;
  sw <- read_int8 ;; wt <- read_int8 ;; ss <- read_uint8 ;;
  ret (Pclt a b c d e f g tf cc fn sw wt ss).
Definition compile_pclt (p : pclt) : wr :=
  write_uvalue (pc_font_number p) +++ write_value (pc_pitch p) +++ write_value (pc_x_height p) +++
  write_value (pc_style p) +++ write_value (pc_type_family p) +++
  write_value (pc_cap_height p) +++ write_value (pc_symbol_set p) +++
  write_str_pad 16 (pc_typeface p) +++ wlist write_uint8 (pc_complement p) +++
  write_str_pad 6 (pc_file_name p) +++
  write_uint8 (pc_stroke_weight p) +++ write_uint8 (pc_width_type p) +++
  write_uint8 (pc_serif_style p).

(** ** PostScript info: parsers/ps.py 16-47, compilers/ps.py 8-57 *)
Record ps_info := PSInfo
  { ps_font_matrix : list Z; ps_force_bold : Z;
    ps_blue_values : list Z; ps_other_blues : list Z;
    ps_family_blues : list Z; ps_family_other_blues : list Z;
    ps_blue_scale : Z; ps_blue_shift : Z; ps_blue_fuzz : Z; ps_std_hw : Z; ps_std_vw : Z;
    ps_stem_snap_h : list Z; ps_stem_snap_v : list Z;
    ps_xMin : Z; ps_yMin : Z; ps_xMax : Z; ps_yMax : Z;
    ps_adv_width_min : Z; ps_adv_width_max : Z; ps_adv_width_avg : Z;
    ps_ascender : Z; ps_descender : Z; ps_x_height : Z; ps_cap_height : Z }.
Definition parse_ps_info : rd ps_info :=
  fm <- read_doubles 6 ;; fb <- read_int32 ;;
  bv <- rrepeat 14 read_int32 ;; ob <- rrepeat 10 read_int32 ;;
  fbl <- rrepeat 14 read_int32 ;; fob <- rrepeat 10 read_int32 ;;
  bs <- read_double ;; bsh <- read_uint32 ;; bf <- read_uint32 ;;
  hw <- read_uint32 ;; vw <- read_uint32 ;;
  sh <- rrepeat 12 read_uint32 ;; sv <- rrepeat 12 read_uint32 ;;
  x0 <- read_int16 ;; y0 <- read_int16 ;; x1 <- read_int16 ;; y1 <- read_int16 ;;
  wmin <- read_int32 ;; wmax <- read_int32 ;; wavg <- read_int32 ;;
  asc <- read_int32 ;; desc <- read_int32 ;; xh <- read_int32 ;; ch <- read_int32 ;;
  ret (PSInfo fm fb bv ob fbl fob bs bsh bf hw vw sh sv x0 y0 x1 y1 wmin wmax wavg
              asc desc xh ch).
(** a list of exactly [n] values: [AssertionError] otherwise *)
Definition write_exactly (n : nat) (w : Z -> wr) (l : list Z) : wr :=
  wassert (Nat.eqb (length l) n) +++ wlist w l.
Definition compile_ps_info (d : ps_info) : wr :=
  write_exactly 6 write_double (ps_font_matrix d) +++ write_int32 (ps_force_bold d) +++
  write_exactly 14 write_int32 (ps_blue_values d) +++
  write_exactly 10 write_int32 (ps_other_blues d) +++
  write_exactly 14 write_int32 (ps_family_blues d) +++
  write_exactly 10 write_int32 (ps_family_other_blues d) +++
  write_double (ps_blue_scale d) +++ write_uint32 (ps_blue_shift d) +++
  write_uint32 (ps_blue_fuzz d) +++ write_uint32 (ps_std_hw d) +++ write_uint32 (ps_std_vw d) +++
  write_exactly 12 write_uint32 (ps_stem_snap_h d) +++
  write_exactly 12 write_uint32 (ps_stem_snap_v d) +++
  write_int16 (ps_xMin d) +++ write_int16 (ps_yMin d) +++
  write_int16 (ps_xMax d) +++ write_int16 (ps_yMax d) +++
  write_int32 (ps_adv_width_min d) +++ write_int32 (ps_adv_width_max d) +++
  write_int32 (ps_adv_width_avg d) +++ write_int32 (ps_ascender d) +++
  write_int32 (ps_descender d) +++ write_int32 (ps_x_height d) +++ write_int32 (ps_cap_height d).

(** ** PostScript hinting options: parsers/ps.py 5-13, 50-83, compilers/ps.py 60-79.
    The dict has the named options (absent or a number) and the list "other"; for the compiler a
    missing list is the empty list. *)
Record ps_options := PSOptions { po_named : list (pystr * Z); po_other : list Z }.
Definition ps_global_options : list (pystr * Z) := [(py "generate_flex", 0)].
Definition ps_glyph_options : list (pystr * Z) :=
  [(py "hint_replacement", 29); (py "horizontal_3_stem", 30); (py "vertical_3_stem", 31)].
(** the loops of parsers/ps.py 59-62 and 77-80 over the table; [bits] is a set in the code, a sorted list
    without repetitions here, so that [sorted(bits)] is the list itself *)
Fixpoint take_named (opts : list (pystr * Z)) (bits : list Z) : list (pystr * Z) * list Z :=
  match opts with
  | [] => ([], bits)
  | (k, bit) :: opts' =>
      if existsb (Z.eqb bit) bits then
        let (d, r) := take_named opts' (filter (fun b => negb (b =? bit)) bits) in
        ((k, 1) :: d, r)
      else take_named opts' bits
  end.
Definition parse_ps_options (opts : list (pystr * Z)) (r : rd Z) : rd ps_options :=
  v <- r ;; bits <- rlift (binaryToIntList v 0) ;;
  let (d, other) := take_named opts bits in ret (PSOptions d other).
(** compilers/ps.py 61-68, 72-79: [if data.get(k, 0)] *)
Fixpoint named_bits (opts : list (pystr * Z)) (d : list (pystr * Z)) : list Z :=
  match opts with
  | [] => []
  | (k, bit) :: opts' =>
      match aget str_eqb k d with
      | Some v => if v =? 0 then named_bits opts' d else bit :: named_bits opts' d
      | None => named_bits opts' d
      end
  end.
Definition compile_ps_options (opts : list (pystr * Z)) (w : Z -> wr) (d : ps_options) : wr :=
  wlet (intListToBinary (named_bits opts (po_named d) ++ po_other d)) w.
Definition parse_ps_global : rd ps_options := parse_ps_options ps_global_options read_uint16.
Definition compile_ps_global (d : ps_options) : wr :=
  compile_ps_options ps_global_options write_uint16 d.
Definition parse_ps_glyph : rd ps_options := parse_ps_options ps_glyph_options read_uint32.
Definition compile_ps_glyph (d : ps_options) : wr :=
  compile_ps_options ps_glyph_options write_uint32 d.
