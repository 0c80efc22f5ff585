(** Model of parsers/truetype.py and compilers/truetype.py. *)
From Coq Require Import String.
From Verif Require Import Base M_Stream M_Helpers M_Text M_Py.
Local Open Scope list_scope.
Open Scope rd_scope.

(** ** gasp: parsers/truetype.py 32-47, compilers/truetype.py 34-38 *)
Record gasp_rec := Gasp { gr_ppem : Z; gr_flags : Z }.
(** [unpack(f"<{len(data) // 2}H", data)]: wants an even number of bytes *)
Fixpoint unpack_H (b : bytes) : res (list Z) :=
  match b with
  | [] => Ok []
  | [_] => Err StructError
  | x :: y :: b' => rmap (cons (le_dec [x; y])) (unpack_H b')
  end.
(** [zip(it, it)]: pairs of neighbours, a last odd one is dropped *)
Fixpoint pairs (l : list Z) : list gasp_rec :=
  match l with
  | a :: b :: l' => Gasp a b :: pairs l'
  | _ => []
  end.
Definition parse_gasp : rd (list gasp_rec) :=
  data <- read_all ;; gasp <- rlift (unpack_H data) ;; ret (pairs gasp).
Definition compile_gasp (l : list gasp_rec) : wr :=
  wlist (fun r => write_uint16 (gr_ppem r) +++ write_uint16 (gr_flags r)) l.

(** ** TrueType info *)
(** __init__.py 127-172 [ttinfo_names] *)
Definition ttinfo_names : list (Z * pystr) :=
  [(0x33, py "max_zones"); (0x34, py "max_twilight_points"); (0x35, py "max_storage");
   (0x36, py "max_function_defs"); (0x37, py "max_instruction_defs");
   (0x38, py "max_stack_elements"); (0x39, py "head_flags"); (0x3A, py "head_units_per_em");
   (0x3B, py "head_mac_style"); (0x3C, py "head_lowest_rec_ppem"); (0x56, py "head_creation");
   (0x57, py "head_creation2"); (0x3D, py "head_font_direction_hint");
   (0x3E, py "os2_us_weight_class"); (0x3F, py "os2_us_width_class"); (0x40, py "os2_fs_type");
   (0x41, py "os2_y_subscript_x_size"); (0x42, py "os2_y_subscript_y_size");
   (0x43, py "os2_y_subscript_x_offset"); (0x44, py "os2_y_subscript_y_offset");
   (0x45, py "os2_y_superscript_x_size"); (0x46, py "os2_y_superscript_y_size");
   (0x47, py "os2_y_superscript_x_offset"); (0x48, py "os2_y_superscript_y_offset");
   (0x49, py "os2_y_strikeout_size"); (0x4A, py "os2_y_strikeout_position");
   (0x4B, py "os2_s_family_class"); (0x4C, py "OpenTypeOS2Panose");
   (0x4D, py "os2_s_typo_ascender"); (0x4E, py "os2_s_typo_descender");
   (0x4F, py "os2_s_typo_line_gap"); (0x50, py "os2_fs_selection");
   (0x51, py "os2_us_win_ascent"); (0x52, py "os2_us_win_descent"); (0x5C, py "Average Width");
   (0x53, py "Hdmx PPMs 1"); (0x58, py "Hdmx PPMs 2"); (0x54, py "Codepages");
   (0x59, py "hhea_line_gap"); (0x5A, py "hhea_ascender"); (0x5B, py "hhea_descender")].
(** __init__.py 174-178 [tt_settings] *)
Definition tt_settings : list (Z * pystr) :=
  [(0, py "use_custom_tt_values"); (1, py "create_vdmx"); (2, py "add_null_cr_space")].

(** the values of the dict; the parser always gives [VPages] both keys *)
Inductive tt_value :=
| VInt (v : Z)
| VFlags (flags : list Z) (options : list pystr)
| VList (l : list Z)
| VPages (range1 range2 : Z).
Definition tt_info := list (pystr * tt_value).

(** parsers/truetype.py 23-29 [convert_int_to_flags_options] *)
Definition tt_option_name (i : Z) : pystr :=
  match aget Z.eqb i tt_settings with Some s => s | None => dec_str i end.
Definition convert_int_to_flags_options (value : Z) : res tt_value :=
  rthen (binaryToIntList (Z.land value 0xFFFF) 0) (fun flags =>
  rthen (binaryToIntList (Z.shiftr value 16) 0) (fun options =>
  Ok (VFlags flags (map tt_option_name options)))).

(** the cases of the [match] statement, lines 69-155 *)
Definition tt_plain (k : Z) : bool :=
  in_range 0x33 0x39 k || in_range 0x3A 0x4C k || in_range 0x4D 0x53 k || (k =? 0x56)
  || (k =? 0x57) || (k =? 0x5C).
Definition tt_hdmx (k : Z) : bool := (k =? 0x53) || (k =? 0x58).
(** [ttinfo_names.get(k, ...)]: the three defaults are never used, all keys of the cases that
    store something are in the table ([P_TrueType.tt_named]) *)
Definition tt_key (k : Z) : pystr :=
  match aget Z.eqb k ttinfo_names with Some s => s | None => dec_str k end.
(** lines 55-58 [assert_unique] *)
Definition assert_unique (info : tt_info) (key : pystr) : rd unit :=
  match aget str_eqb key info with Some _ => rraise KeyError | None => ret tt end.
(** parsers/truetype.py 60-155, one turn of the loop *)
Definition tt_info_turn (info : tt_info) : rd (tt_info + tt_info) :=
  k <- read_uint8 ;;
  let store v := ret (inl (aset str_eqb (tt_key k) v info)) in
  if k =? 0x32 then ret (inr info)
  else if tt_plain k then
    assert_unique info (tt_key k) ;;; v <- read_value ;; store (VInt v)
  else if k =? 0x39 then
    assert_unique info (tt_key k) ;;;
    v <- read_value ;; fo <- rlift (convert_int_to_flags_options v) ;; store fo
  else if k =? 0x4C then
    assert_unique info (tt_key k) ;;; l <- rrepeat 10 read_uint8 ;; store (VList l)
  else if tt_hdmx k then
    assert_unique info (tt_key k) ;;;
    num_values <- read_value ;; l <- rrange num_values read_uint8 ;; store (VList l)
  else if k =? 0x54 then
    assert_unique info (tt_key k) ;;;
    range1 <- read_uvalue ;; range2 <- read_uvalue ;; store (VPages range1 range2)
  else ret (inl info).
Definition parse_tt_info : rd tt_info := rloop tt_info_turn [].

(** compilers/truetype.py 17-31 [convert_flags_options_to_int] *)
Definition convert_flags_options_to_int (data : tt_info) : res Z :=
  rthen (aget_res str_eqb (py "head_flags") data) (fun h =>
  match h with
  | VFlags flags options =>
      rthen (intListToBinary flags) (fun value =>
      match options with
      | [] => Ok value
      | _ =>
          let option_bits :=
            map fst (filter (fun kv => existsb (str_eqb (snd kv)) options) tt_settings) in
          rmap (fun b => value + Z.shiftl b 16) (intListToBinary option_bits)
      end)
  | _ => Err AssertionError
  end).
(** [self.write_value(data[...])]; writing something that is not an int raises [TypeError] *)
Definition tt_write_int (v : tt_value) : wr :=
  match v with VInt n => write_value n | _ => Err TypeError end.
(** [for value in values: self.write_uint8(value)] *)
Definition tt_list (v : tt_value) : res (list Z) :=
  match v with VList l => Ok l | _ => Err TypeError end.
(** compilers/truetype.py 42-48 [_write_if_exists] *)
Definition write_if_exists (data : tt_info) (numkey : Z) : wr :=
  match aget str_eqb (tt_key numkey) data with
  | Some v => write_uint8 numkey +++ tt_write_int v
  | None => wnil
  end.
(** compilers/truetype.py 51-53 *)
Definition tt_write_required (data : tt_info) (k : Z) : wr :=
  write_uint8 k +++ wlet (aget_res str_eqb (tt_key k) data) tt_write_int.
(** compilers/truetype.py 100-107 *)
Definition tt_write_hdmx (data : tt_info) (k : Z) : wr :=
  match aget str_eqb (tt_key k) data with
  | Some v => wlet (tt_list v) (fun values =>
                write_uint8 k +++ write_value (Z.of_nat (length values)) +++
                wlist write_uint8 values)
  | None => wnil
  end.
(** compilers/truetype.py 50-116 [TrueTypeInfoCompiler._compile] *)
Definition compile_tt_info (data : tt_info) : wr :=
  wlist (tt_write_required data) [0x33; 0x34; 0x35; 0x36; 0x37; 0x38] +++
  wlet (convert_flags_options_to_int data) (fun v => write_uint8 0x39 +++ write_value v) +++
  wlist (write_if_exists data) [0x3A; 0x3B; 0x3C] +++
  wlist (write_if_exists data) [0x56; 0x57] +++
  wlist (write_if_exists data)
    [0x3D; 0x3E; 0x3F; 0x40; 0x41; 0x42; 0x43; 0x44; 0x45; 0x46; 0x47; 0x48; 0x49; 0x4A; 0x4B] +++
  wlet (aget_res str_eqb (tt_key 0x4C) data) (fun v =>
    wlet (tt_list v) (fun values =>
      wassert (Nat.eqb (length values) 10) +++ write_uint8 0x4C +++ wlist write_uint8 values)) +++
  wlist (write_if_exists data) [0x4D; 0x4E; 0x4F; 0x50; 0x51; 0x52; 0x5C] +++
  wlist (tt_write_hdmx data) [0x53; 0x58] +++
  wlet (aget_res str_eqb (tt_key 0x54) data) (fun v =>
    match v with
    | VPages range1 range2 => write_uint8 0x54 +++ write_uvalue range1 +++ write_uvalue range2
    | _ => Err TypeError
    end) +++
  write_uint8 0x32.

(** ** Stems *)
(** typing.py 361-365 [TTStemDict] *)
Record tt_stem := TTStem
  { ts_value : option Z; ts_name : option pystr; ts_stem : option Z; ts_round : list (Z * Z) }.
Record tt_stems := TTStems { tts_v : list tt_stem; tts_h : list tt_stem }.
Definition opt_res {A} (x : option A) : res A :=
  match x with Some a => Ok a | None => Err KeyError end.

(** parsers/truetype.py 158-177 *)
Definition parse_tt_stem : rd tt_stem :=
  width <- read_value ;;
  stem_name_length <- read_uint8 ;;
  b <- read_bytes stem_name_length ;; stem_name <- rlift (cp1252_decode b) ;;
  ppm6 <- read_value ;;
  ret (TTStem (Some width) (Some stem_name) None [(6, ppm6)]).
Definition parse_tt_stems : rd tt_stems :=
  nv <- read_value ;; v <- rrange nv parse_tt_stem ;;
  nh <- read_value ;; h <- rrange nh parse_tt_stem ;;
  ret (TTStems v h).
(** compilers/truetype.py 147-157 *)
Definition compile_tt_stem (s : tt_stem) : wr :=
  wlet (opt_res (ts_value s)) write_value +++
  wlet (rthen (opt_res (ts_name s)) cp1252_encode) (fun b =>
    write_uint8 (Z.of_nat (length b)) +++ write_bytes b) +++
  wlet (aget_res Z.eqb 6 (ts_round s)) write_value.
Definition compile_tt_stems (d : tt_stems) : wr :=
  write_value (Z.of_nat (length (tts_v d))) +++ wlist compile_tt_stem (tts_v d) +++
  write_value (Z.of_nat (length (tts_h d))) +++ wlist compile_tt_stem (tts_h d).

(** parsers/truetype.py 180-197, one direction: [d] is shared by the turns and copied into each
    stem *)
Definition ppems_turn (ks : list Z) (st : list tt_stem * list (Z * Z)) : rd (list tt_stem * list (Z * Z)) :=
  let '(direction, d) := st in
  d' <- rfoldM (fun d k => ppm <- read_value ;; ret (aset Z.eqb k ppm d)) d ks ;;
  ret (direction ++ [TTStem None None (Some (Z.of_nat (length direction))) d'], d').
Definition parse_ppems_dir (ks : list Z) (num_stems : Z) : rd (list tt_stem) :=
  st <- rtimes (Z.to_nat num_stems) (ppems_turn ks) ([], []) ;; ret (fst st).
Definition parse_ppems (ks : list Z) : rd tt_stems :=
  nv <- read_value ;; v <- parse_ppems_dir ks nv ;;
  nh <- read_value ;; h <- parse_ppems_dir ks nh ;;
  ret (TTStems v h).
Definition parse_stem_ppems : rd tt_stems := parse_ppems [2; 3; 4; 5].
(** parsers/truetype.py 221-239: a new dict per stem with the keys 2 and 3. Simplification: modelled
    by the shared dict of the other parser; all its keys are overwritten in each turn, so the
    result is the same. *)
Definition parse_stem_ppems23 : rd tt_stems := parse_ppems [2; 3].
(** parsers/truetype.py 200-218; the numbers of stems come from the [Vfb] ([None] until the TrueType
    Stems entry has been decompiled). Same simplification. *)
Definition parse_stem_ppems1 (vcount hcount : option Z) : rd tt_stems :=
  match vcount with
  | None => rraise ValueError
  | Some nv =>
      v <- parse_ppems_dir [1] nv ;;
      match hcount with
      | None => rraise ValueError
      | Some nh => h <- parse_ppems_dir [1] nh ;; ret (TTStems v h)
      end
  end.
Definition write_rounds (ks : list Z) (s : tt_stem) : wr :=
  wlist (fun k => wlet (aget_res Z.eqb k (ts_round s)) write_value) ks.
(** compilers/truetype.py 137-144, 127-134, 119-124 *)
Definition compile_ppems (ks : list Z) (d : tt_stems) : wr :=
  write_value (Z.of_nat (length (tts_v d))) +++ wlist (write_rounds ks) (tts_v d) +++
  write_value (Z.of_nat (length (tts_h d))) +++ wlist (write_rounds ks) (tts_h d).
Definition compile_stem_ppems (d : tt_stems) : wr := compile_ppems [2; 3; 4; 5] d.
Definition compile_stem_ppems23 (d : tt_stems) : wr := compile_ppems [2; 3] d.
Definition compile_stem_ppems1 (d : tt_stems) : wr :=
  wlist (write_rounds [1]) (tts_v d) +++ wlist (write_rounds [1]) (tts_h d).

(** ** Zones *)
(** typing.py 373-378 [TTZoneDict]; the optional keys [deltas] and [top] are not written *)
Record tt_zone := TTZone { tz_position : Z; tz_value : Z; tz_name : pystr }.
(** typing.py 381-383; the compiler also accepts a missing side *)
Record tt_zones := TTZones { tz_top : option (list tt_zone); tz_bottom : option (list tt_zone) }.
(** parsers/truetype.py 259-275 *)
Definition parse_tt_zone : rd tt_zone :=
  position <- read_value ;; width <- read_value ;; zone_name <- read_str_with_len ;;
  ret (TTZone position width zone_name).
Definition parse_tt_zones : rd tt_zones :=
  nt <- read_value ;; t <- rrange nt parse_tt_zone ;;
  nb <- read_value ;; b <- rrange nb parse_tt_zone ;;
  ret (TTZones (Some t) (Some b)).
(** compilers/truetype.py 160-177 *)
Definition compile_tt_zone (z : tt_zone) : wr :=
  write_value (tz_position z) +++ write_value (tz_value z) +++ write_str_with_len (tz_name z).
Definition compile_side (side : option (list tt_zone)) : wr :=
  match side with
  | None => write_value 0
  | Some l => write_value (Z.of_nat (length l)) +++ wlist compile_tt_zone l
  end.
Definition compile_tt_zones (d : tt_zones) : wr :=
  compile_side (tz_top d) +++ compile_side (tz_bottom d).

(** ** Zone deltas: a dict of dicts *)
Notation zone_deltas := (list (Z * list (Z * Z))).
(** parsers/truetype.py 242-256 *)
Definition deltas_turn (result : zone_deltas) : rd zone_deltas :=
  index <- read_value ;; ppm <- read_value ;; shift <- read_value ;;
  ret (match aget Z.eqb index result with
       | Some spec => aset Z.eqb index (aset Z.eqb ppm shift spec) result
       | None => aset Z.eqb index [(ppm, shift)] result
       end).
Definition parse_zone_deltas : rd zone_deltas :=
  num_deltas <- read_value ;; rtimes (Z.to_nat num_deltas) deltas_turn [].
(** [list.sort()] on triples of integers: any stable sort by the lexicographic order *)
Notation triple := (Z * Z * Z)%type.
Definition triple_leb (a b : triple) : bool :=
  let '(a1, a2, a3) := a in
  let '(b1, b2, b3) := b in
  (a1 <? b1) || ((a1 =? b1) && ((a2 <? b2) || ((a2 =? b2) && (a3 <=? b3)))).
Fixpoint insert_triple (x : triple) (l : list triple) : list triple :=
  match l with
  | [] => [x]
  | y :: l' => if triple_leb x y then x :: l else y :: insert_triple x l'
  end.
Definition sort_triples (l : list triple) : list triple := fold_right insert_triple [] l.
(** compilers/truetype.py 180-195 *)
Definition delta_triples (d : zone_deltas) : list triple :=
  flat_map (fun zs => map (fun ps => (fst zs, fst ps, snd ps)) (snd zs)) d.
Definition compile_zone_deltas (d : zone_deltas) : wr :=
  let deltas := sort_triples (delta_triples d) in
  write_value (Z.of_nat (length deltas)) +++
  wlist (fun t => let '(zone_index, ppm, shift) := t in
                  write_value zone_index +++ write_value ppm +++ write_value shift) deltas.

(** ** VDMX: parsers/truetype.py 278-290, compilers/truetype.py 198-204 *)
Record vdmx_rec := Vdmx { vx_height : Z; vx_max : Z; vx_min : Z }.
Definition parse_vdmx : rd (list vdmx_rec) :=
  num_records <- read_value ;;
  rrange num_records (h <- read_value ;; a <- read_value ;; i <- read_value ;; ret (Vdmx h a i)).
Definition compile_vdmx (l : list vdmx_rec) : wr :=
  write_value (Z.of_nat (length l)) +++
  wlist (fun r => write_value (vx_height r) +++ write_value (vx_max r) +++ write_value (vx_min r)) l.
