(** Specification of the TrueType entries (C29-C31 and the gasp and VDMX parts of C19, C20). *)
From Coq Require Import String.
From Verif Require Import Base M_Py M_TrueType S_Text S_Entry.
Local Open Scope list_scope.

(** ** TrueType info: the names, as FontLab's Python API calls them *)
Definition tt_required_ints : list pystr :=
  map py ["max_zones"; "max_twilight_points"; "max_storage"; "max_function_defs";
          "max_instruction_defs"; "max_stack_elements"]%string.
Definition tt_optional_ints : list pystr :=
  map py ["head_units_per_em"; "head_mac_style"; "head_lowest_rec_ppem"; "head_creation";
          "head_creation2"; "head_font_direction_hint"; "os2_us_weight_class";
          "os2_us_width_class"; "os2_fs_type"; "os2_y_subscript_x_size";
          "os2_y_subscript_y_size"; "os2_y_subscript_x_offset"; "os2_y_subscript_y_offset";
          "os2_y_superscript_x_size"; "os2_y_superscript_y_size"; "os2_y_superscript_x_offset";
          "os2_y_superscript_y_offset"; "os2_y_strikeout_size"; "os2_y_strikeout_position";
          "os2_s_family_class"; "os2_s_typo_ascender"; "os2_s_typo_descender";
          "os2_s_typo_line_gap"; "os2_fs_selection"; "os2_us_win_ascent"; "os2_us_win_descent";
          "Average Width"]%string.
Definition tt_option_names : list pystr :=
  map py ["use_custom_tt_values"; "create_vdmx"; "add_null_cr_space"]%string.

(** the byte that marks each of these numbers in a file *)
Definition tt_stored_ints : list (Z * pystr) :=
  [(0x33, py "max_zones"); (0x34, py "max_twilight_points"); (0x35, py "max_storage");
   (0x36, py "max_function_defs"); (0x37, py "max_instruction_defs"); (0x38, py "max_stack_elements");
   (0x3A, py "head_units_per_em"); (0x3B, py "head_mac_style"); (0x3C, py "head_lowest_rec_ppem");
   (0x56, py "head_creation"); (0x57, py "head_creation2"); (0x3D, py "head_font_direction_hint");
   (0x3E, py "os2_us_weight_class"); (0x3F, py "os2_us_width_class"); (0x40, py "os2_fs_type");
   (0x41, py "os2_y_subscript_x_size"); (0x42, py "os2_y_subscript_y_size"); (0x43, py "os2_y_subscript_x_offset");
   (0x44, py "os2_y_subscript_y_offset"); (0x45, py "os2_y_superscript_x_size"); (0x46, py "os2_y_superscript_y_size");
   (0x47, py "os2_y_superscript_x_offset"); (0x48, py "os2_y_superscript_y_offset"); (0x49, py "os2_y_strikeout_size");
   (0x4A, py "os2_y_strikeout_position"); (0x4B, py "os2_s_family_class"); (0x4D, py "os2_s_typo_ascender");
   (0x4E, py "os2_s_typo_descender"); (0x4F, py "os2_s_typo_line_gap"); (0x50, py "os2_fs_selection");
   (0x51, py "os2_us_win_ascent"); (0x52, py "os2_us_win_descent"); (0x5C, py "Average Width")].

(** what may be stored under a name *)
Definition tt_entry_ok (name : pystr) (v : tt_value) : Prop :=
  match v with
  | VInt n => (In name tt_required_ints \/ In name tt_optional_ints) /\ int32 n
  | VFlags flags options =>
      name = py "head_flags" /\ bit_set 16 flags /\
      exists chosen : pystr -> bool, options = filter chosen tt_option_names
  | VList l => (name = py "OpenTypeOS2Panose" /\ array 10 uint8 l) \/
               ((name = py "Hdmx PPMs 1" \/ name = py "Hdmx PPMs 2") /\ Forall uint8 l /\ countable l)
  | VPages range1 range2 => name = py "Codepages" /\ uint32 range1 /\ uint32 range2
  end.
Definition wf_tt_info (d : tt_info) : Prop :=
  NoDup (map fst d) /\ Forall (fun kv => tt_entry_ok (fst kv) (snd kv)) d /\
  Forall (fun name => In name (map fst d))
    (tt_required_ints ++ [py "head_flags"; py "OpenTypeOS2Panose"; py "Codepages"]).

(** the parser after at most [n] turns of its loop: a value, an exception, or still running *)
Definition tt_info_turns (n : nat) : rd tt_info := rwhile n tt_info_turn [].
Definition never_stops (data : bytes) : Prop :=
  forall n, exists rest, tt_info_turns n data = RErr Diverge rest.

(** ** Stems *)
(** a name of at most 255 bytes *)
Definition wf_stem (s : tt_stem) : Prop :=
  exists width name ppm6, s = TTStem (Some width) (Some name) None [(6, ppm6)] /\
    int32 width /\ int32 ppm6 /\ encodable name /\ (length name <= 255)%nat.
Definition wf_stems (d : tt_stems) : Prop :=
  Forall wf_stem (tts_v d) /\ countable (tts_v d) /\ Forall wf_stem (tts_h d) /\ countable (tts_h d).
(** one direction of the PPEM entries: the stems are numbered, and each has a value for each of the
    keys [ks] *)
Definition wf_ppems_dir (ks : list Z) (l : list tt_stem) : Prop :=
  countable l /\
  forall i s, nth_error l i = Some s ->
    exists ppms, s = TTStem None None (Some (Z.of_nat i)) (combine ks ppms) /\
      length ppms = length ks /\ Forall int32 ppms.
Definition wf_ppems (ks : list Z) (d : tt_stems) : Prop :=
  wf_ppems_dir ks (tts_v d) /\ wf_ppems_dir ks (tts_h d).

(** ** Zones *)
Definition wf_zone (z : tt_zone) : Prop :=
  int32 (tz_position z) /\ int32 (tz_value z) /\ text (tz_name z).
Definition wf_side (l : list tt_zone) : Prop := Forall wf_zone l /\ countable l.
Definition side (o : option (list tt_zone)) : list tt_zone :=
  match o with Some l => l | None => [] end.

(** ** Zone deltas: a mapping zone -> ppm -> shift *)
Definition shift_of (d : zone_deltas) (zone ppm : Z) : option Z :=
  match aget Z.eqb zone d with Some spec => aget Z.eqb ppm spec | None => None end.
Definition wf_deltas (d : zone_deltas) : Prop :=
  NoDup (map fst d) /\
  Forall (fun zs => int32 (fst zs) /\ NoDup (map fst (snd zs)) /\
                    Forall (fun ps => int32 (fst ps) /\ int32 (snd ps)) (snd zs)) d /\
  countable (flat_map snd d).
(** (zone, ppm, shift), ordered by zone and then by ppm *)
Definition delta_before (a b : Z * Z * Z) : Prop :=
  let '(z1, p1, _) := a in let '(z2, p2, _) := b in z1 < z2 \/ (z1 = z2 /\ p1 < p2).
(** equal as mappings of mappings *)
Definition same_deltas (d d' : zone_deltas) : Prop :=
  forall zone, match aget Z.eqb zone d, aget Z.eqb zone d' with
               | Some m, Some m' => forall ppm, aget Z.eqb ppm m = aget Z.eqb ppm m'
               | None, None => True
               | _, _ => False
               end.

Definition wf_gasp (l : list gasp_rec) : Prop :=
  Forall (fun r => uint16 (gr_ppem r) /\ uint16 (gr_flags r)) l.
Definition wf_vdmx (l : list vdmx_rec) : Prop :=
  countable l /\ Forall (fun r => int32 (vx_height r) /\ int32 (vx_max r) /\ int32 (vx_min r)) l.
