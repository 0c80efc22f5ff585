(** Specification vocabulary of the entry properties (C19-C21, C29, C30, C37-C41): ranges, what
    "survives compile then parse" means, and which values each entry format can hold. *)
From Coq Require Import Sorting.Sorted String.
From Verif Require Import Base M_Py M_Simple S_Bits S_Text.
Local Open Scope list_scope.

Definition int8 (v : Z) : Prop := -128 <= v < 128.
Definition int16 (v : Z) : Prop := -32768 <= v < 32768.
Definition int32 (v : Z) : Prop := - 2 ^ 31 <= v < 2 ^ 31.
Definition uint8 (v : Z) : Prop := 0 <= v < 256.
Definition uint16 (v : Z) : Prop := 0 <= v < 65536.
Definition uint32 (v : Z) : Prop := 0 <= v < 2 ^ 32.
(** the 64 bit pattern of a double *)
Definition double (v : Z) : Prop := 0 <= v < 2 ^ 64.
(** what survives being written unsigned and read signed *)
Definition small_flag (v : Z) : Prop := -1131 <= v < 2 ^ 31.
(** number of items a counted list can have *)
Definition countable {A} (l : list A) : Prop := Z.of_nat (length l) < 2 ^ 31.
(** a text that fits the length-prefixed Windows-1252 format *)
Definition text (s : pystr) : Prop := encodable s /\ countable s.

(** "compiling [x] and parsing the bytes gives [x] and consumes all bytes" *)
Definition survives {A} (compile : A -> wr) (parse : rd A) (x : A) : Prop :=
  exists bs, compile x = Ok bs /\ bytes_ok bs /\ run_parser parse bs = Ok x.

(** "what the parser returns can be compiled, and the result parses to the same value" *)
Definition entry_data (data : bytes) : Prop := bytes_ok data /\ Z.of_nat (length data) < 2 ^ 31.
Definition reparses {A} (compile : A -> wr) (parse : rd A) : Prop :=
  forall data x, entry_data data -> run_parser parse data = Ok x -> survives compile parse x.

(** "parsing data of [n] bytes and compiling gives the same bytes" *)
Definition exact_at {A} (n : nat) (compile : A -> wr) (parse : rd A) : Prop :=
  forall data, bytes_ok data -> length data = n ->
    exists x, run_parser parse data = Ok x /\ compile x = Ok data.

(** "for every byte string the parser returns a value or raises" *)
Definition terminates {A} (parse : rd A) : Prop :=
  forall data, bytes_ok data -> run_parser parse data <> Err Diverge.

(** two lower case hex digits per byte *)
Definition hex_text (s : pystr) : Prop :=
  Nat.Even (length s) /\ Forall (fun c => 48 <= c <= 57 \/ 97 <= c <= 102) s.

Definition wf_class_flags (n : nat) (d : list (pystr * list Z)) : Prop :=
  countable d /\ NoDup (map fst d) /\
  Forall (fun p => text (fst p) /\ length (snd p) = n /\ Forall small_flag (snd p)) d.

Definition wf_mapping_mode (d : mapping_mode) : Prop :=
  (mm_mode d = py "names_or_index" \/ mm_mode d = py "unicode_ranges" \/
   mm_mode d = py "codepages") /\
  int32 (mm_m2 d) /\ int32 (mm_m3 d) /\ int32 (mm_id d).

(** a set of bits of a field of [n] bits, as an increasing list *)
Definition bit_set (n : Z) (l : list Z) : Prop :=
  StronglySorted Z.lt l /\ Forall (fun b => 0 <= b < n) l.

Definition wf_cmap (c : custom_cmap) : Prop :=
  int32 (cc_language_id c) /\ int32 (cc_platform_id c) /\ int32 (cc_encoding_id c) /\
  int32 (cc_format c) /\ int32 (cc_option c) /\ text (cc_page_name c).

Definition wf_axis (ax : list (Z * Z)) : Prop :=
  countable ax /\ Forall (fun p => int32 (fst p) /\ int32 (snd p)) ax.

Definition wf_fl_version (d : fl_version) : Prop :=
  (fv_platform d = py "macos" \/ fv_platform d = py "windows") /\
  length (fv_version d) = 4%nat /\ Forall uint8 (fv_version d) /\ int32 (fv_owner d).

Definition wf_binary_table (d : binary_table) : Prop :=
  encodable (bt_tag d) /\ hex_text (bt_data d) /\
  (length (bt_tag d) = 4%nat \/ (length (bt_tag d) < 4)%nat /\ bt_data d = []).

(** the texts as they are stored, padded with NUL to 16 and 6 bytes *)
Definition wf_pclt (p : pclt) : Prop :=
  -1131 <= pc_font_number p < 2 ^ 32 /\ int32 (pc_pitch p) /\ int32 (pc_x_height p) /\
  int32 (pc_style p) /\ int32 (pc_type_family p) /\ int32 (pc_cap_height p) /\
  int32 (pc_symbol_set p) /\ (encodable (pc_typeface p) /\ length (pc_typeface p) = 16%nat) /\
  (length (pc_complement p) = 8%nat /\ Forall uint8 (pc_complement p)) /\
  (encodable (pc_file_name p) /\ length (pc_file_name p) = 6%nat) /\
  0 <= pc_stroke_weight p < 128 /\ 0 <= pc_width_type p < 128 /\ uint8 (pc_serif_style p).

Definition array (n : nat) (P : Z -> Prop) (l : list Z) : Prop := length l = n /\ Forall P l.
Definition wf_ps_info (d : ps_info) : Prop :=
  array 6 double (ps_font_matrix d) /\ int32 (ps_force_bold d) /\
  array 14 int32 (ps_blue_values d) /\ array 10 int32 (ps_other_blues d) /\
  array 14 int32 (ps_family_blues d) /\ array 10 int32 (ps_family_other_blues d) /\
  double (ps_blue_scale d) /\ uint32 (ps_blue_shift d) /\ uint32 (ps_blue_fuzz d) /\
  uint32 (ps_std_hw d) /\ uint32 (ps_std_vw d) /\
  array 12 uint32 (ps_stem_snap_h d) /\ array 12 uint32 (ps_stem_snap_v d) /\
  int16 (ps_xMin d) /\ int16 (ps_yMin d) /\ int16 (ps_xMax d) /\ int16 (ps_yMax d) /\
  int32 (ps_adv_width_min d) /\ int32 (ps_adv_width_max d) /\ int32 (ps_adv_width_avg d) /\
  int32 (ps_ascender d) /\ int32 (ps_descender d) /\ int32 (ps_x_height d) /\
  int32 (ps_cap_height d).

(** any choice of the named options, and any other bits of the field *)
Definition wf_ps_options (table : list (pystr * Z)) (nbits : Z) (d : ps_options) : Prop :=
  (exists chosen : pystr -> bool,
     po_named d = map (fun p => (fst p, 1)) (filter (fun p => chosen (fst p)) table)) /\
  bit_set nbits (po_other d) /\ (forall b, In b (map snd table) -> ~ In b (po_other d)).
