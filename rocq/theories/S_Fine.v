(** Specification of a VFB that can be exported (C91): everything that one entry says about another is there, and every
    master has its data. *)
From Coq Require Import String QArith.
From Verif Require Import S_Tth.
From Verif Require Import Base M_Py M_Helpers M_Simple M_Text M_TrueType M_Bitmap M_Glyph M_Options M_Container M_Table M_Groups.
From Verif Require Import M_Info M_FontInfo M_Tth M_Programs M_Builder M_Master M_Features M_Designspace M_Build M_Labels M_PsHints.
From Verif Require Import M_Paths M_Guides M_Export M_Ufo S_FontInfo S_Build S_Paths S_Guides S_Ufo S_Hinting.
Local Open Scope list_scope.
Local Open Scope Z_scope.

(** [P before e] holds of every entry [e], with the entries before it *)
Definition each {A} (P : list A -> A -> Prop) (l : list A) : Prop := forall before e after, l = before ++ e :: after -> P before e.
Definition covers {A} (n : Z) (l : list A) : Prop := n <= Z.of_nat (List.length l).

(** ** TrueType programs, classes *)
(** cvt is a list of 16 bit numbers; fontTools can disassemble the programs *)
Definition programs_fine (c : settings) (l : list (Z * value)) : Prop :=
  (forall b, bytes_ok b -> In (1261, DStr (hexStr b)) l -> Nat.Even (List.length b)) /\
  (forall k b, bytes_ok b -> k = 1262 \/ k = 1263 -> In (k, DStr (hexStr b)) l -> exists lines, asm_lines (st_asm c) b = Ok lines).
(** the text of a class has one colon at most *)
Definition classes_fine (l : list (Z * value)) : Prop :=
  forall text x y z, In (1277, DStr text) l -> text <> x ++ py ":" ++ y ++ py ":" ++ z.

(** ** TrueType stems and zones *)
Definition side (hor : bool) (d : tt_stems) : list tt_stem := if hor then tts_h d else tts_v d.
(** the numbers of the stems that the entries with rounding (1268) have, in order *)
Definition stem_numbers (hor : bool) (before : list M_Tth.tt_entry) : list (option Z) :=
  flat_map (fun e => match e with EPpms d => map ts_stem (side hor d) | _ => [] end) before.
(** the zones of a file, bottom zones first *)
Definition zone_list (before : list M_Tth.tt_entry) : list tt_zone :=
  flat_map (fun e => match e with EZones (TTZones (Some t) (Some b)) => b ++ t | _ => [] end) before.
Definition tt_fine (before : list M_Tth.tt_entry) (e : M_Tth.tt_entry) : Prop :=
  match e with
  | EPpms d => forall hor, Forall (fun s => ts_stem s <> None) (side hor d)
  | EPpms1 d => forall hor, Forall (fun s => exists i ppm, ts_stem s = Some i /\
      0 <= i < Z.of_nat (List.length (stem_numbers hor before)) /\ In (1, ppm) (ts_round s)) (side hor d)
  | EStems d => forall hor i s, nth_error (side hor d) i = Some s ->
      ts_value s <> None /\ ts_name s <> None /\ ts_round s <> [] /\ nth_error (stem_numbers hor before) i = Some (Some (Z.of_nat i))
  | EZones d => tz_top d <> None /\ tz_bottom d <> None
  | EDeltas ds => Forall (fun x => 0 <= fst x < Z.of_nat (List.length (zone_list before))) ds
  end.

(** ** Axes *)
Definition axes_before (before : list design_entry) : Z :=
  last_or 0 (flat_map (fun e => match e with XCount n => [n] | _ => [] end) before).
Definition names_before (before : list design_entry) : list pystr :=
  flat_map (fun e => match e with XAxis name => [name] | _ => [] end) before.
Definition map_counts (before : list design_entry) : list Z :=
  last_or [] (flat_map (fun e => match e with XMapCounts l => [l] | _ => [] end) before).
Definition design_fine (c : settings) (before : list design_entry) (e : design_entry) : Prop :=
  match e with
  | XMappings pairs =>
      map_counts before <> [] /\ covers (axes_before before) (map_counts before) /\
      (forall i n, nth_error (map_counts before) i = Some n -> Z.of_nat i < axes_before before -> 0 < n ->
         (i < List.length (names_before before))%nat) /\
      Forall (fun p => exists d, n_design (st_ops c) (NBits (snd p)) = Ok d) pairs
  | XAniso l => (exists axis x y, In axis l /\ In (x, y) axis /\ x <> y) ->
      covers (axes_before before) (names_before before) /\ covers (axes_before before) l
  | _ => True
  end.

(** ** The font *)
Definition font_fine (c : settings) (l : list (Z * value)) : Prop :=
  glyphs_complete l /\ Forall entry_data_ok (flat_map info_part l) /\ programs_fine c l /\ classes_fine l /\
  each tt_fine (flat_map tt_part l) /\ each (design_fine c) (flat_map design_part l).

(** ** The masters *)
(** guides in [n] masters *)
Definition guides_fine (n : Z) (d : guides) (p : guide_props) : Prop :=
  Forall (covers n) (gs_h d ++ gs_v d) /\ Forall guide_prop_ok (gps_h p ++ gps_v p).
Definition component_fine (n glyphs : Z) (k : M_Glyph.component) : Prop :=
  0 <= M_Glyph.co_gid k < glyphs /\ covers n (co_x k) /\ covers n (co_y k) /\ covers n (co_sx k) /\ covers n (co_sy k).
(** a glyph entry with the entries that follow it *)
Definition block_fine (minimal : bool) (n glyphs : Z) (b : glyph * list (Z * value)) : Prop :=
  let '(x, details) := b in
  (exists metrics, g_metrics x = Some metrics /\ covers n metrics) /\
  Forall (component_fine n glyphs) (components_of x) /\
  covers (Z.of_nat (List.length (said_positions details))) (said_anchors details) /\
  Forall (fun p => covers n (an_x p) /\ covers n (an_y p)) (said_positions details) /\
  Forall (fun p => 0 <= fst p < glyphs /\ covers n (snd p)) (kerning_of x) /\
  (minimal = false ->
     (exists gs, contours_of (said_mask details) gs) /\
     (forall m, Z.of_nat m < n -> Forall (node_ok m) (said_mask details)) /\
     (mask_sizes details = [] \/ covers n (mask_sizes details)) /\
     forall d, g_guides x = Some d -> guides_fine n d (said_props details)).
Definition ascii (s : pystr) : Prop := Forall (fun ch => ch < 128) s.
Definition masters_fine (c : settings) (o : options) (l : list (Z * value)) : Prop :=
  let n := count_of_masters l in
  covers n (infos_said l) /\
  Forall (block_fine (st_minimal c) n (Z.of_nat (List.length (glyph_entries l)))) (glyph_blocks l) /\
  Forall (fun p => snd p <> []) (last_or [] (flat_map flags_part l)) /\
  (st_minimal c = false -> forall d, last_or None (map Some (flat_map guides_part l)) = Some d ->
     guides_fine n d (last_or (GuideProps [] []) (flat_map props_part l))) /\
  (op_base64 o = true ->
     (forall hor, Forall ascii (stem_names l hor)) /\
     forall t b, In (Some (t, b)) (glyph_zones None l) -> Forall ascii (t ++ b)).
(** A VFB that can be exported *)
Definition exportable (c : settings) (o : options) (l : list (Z * value)) : Prop :=
  font_fine c l /\ good_glyphs l /\ masters_fine c o l /\ hints_fine (st_ps_hints c) l /\ commands_fine l.
