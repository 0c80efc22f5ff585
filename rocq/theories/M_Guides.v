(** Model of guides in the UFO: ufo/guides.py and its callers ufo/paths.py 226-233 and
    ufo/builder.py 740-746. *)
From Coq Require Import String QArith.
From Verif Require Import Base M_Py M_Text M_Glyph M_Tth.
Local Open Scope list_scope.
Local Open Scope Z_scope.

(** [round(x, 2)]: to the nearest multiple of 1/100, half to even. Simplification: angles are exact
    rational numbers; Python gives the nearest double of each result. *)
Definition div_half_even (n d : Z) : Z :=
  let q := n / d in
  let r := n mod d in
  if 2 * r <? d then q
  else if d <? 2 * r then q + 1
  else if Z.even q then q else q + 1.
Definition round2 (x : Q) : Q := Qmake (div_half_even (Qnum x * 100) (Z.pos (Qden x))) 100.

(** ufo/typing.py [UfoGuide], without the key [_direction]: it only serves to tell the guides of the
    two directions apart, which are two lists here *)
Record ufo_guide := UfoGuide {
  ug_angle : Q; ug_x : Z; ug_y : Z; ug_color : option pystr; ug_name : option pystr }.

(** guides.py 26-33: the angle in the UFO *)
Definition ufo_angle (vertical : bool) (angle : Q) : Q :=
  let angle := if vertical then Qminus (90 # 1) angle else angle in
  let angle := if Qle_bool (0 # 1) angle then angle else Qplus angle (360 # 1) in
  let angle := if Qle_bool angle (360 # 1) then angle else Qminus angle (360 # 1) in
  round2 angle.

(** guides.py 19-34: one guide. [value] is the number that a double of the VFB stands for. *)
Definition get_master_guide (value : Z -> Q) (vertical : bool) (m : Z) (g : list guide_master)
  : res ufo_guide :=
  rmap (fun mg =>
    let angle := ufo_angle vertical (value (gm_angle mg)) in
    if vertical then UfoGuide angle (gm_pos mg) 0 None None
    else UfoGuide angle 0 (gm_pos mg) None None) (py_index g m).
(** guides.py 14-35 [get_master_guides]: the guides of both directions *)
Definition get_master_guides (value : Z -> Q) (d : guides) (m : Z)
  : res (list ufo_guide * list ufo_guide) :=
  rthen (res_map (get_master_guide value false m) (gs_h d)) (fun h =>
  rmap (fun v => (h, v)) (res_map (get_master_guide value true m) (gs_v d))).

(** [f"{k / 0xFF:0.4f}"] for [0 <= k <= 255]. The exact quotient is never half way between two
    numbers of four digits, and the double is so near to it that it is rounded in the same way. *)
Definition dec_pad4 (n : Z) : pystr :=
  [48 + n / 1000 mod 10; 48 + n / 100 mod 10; 48 + n / 10 mod 10; 48 + n mod 10].
Definition fraction (k : Z) : pystr :=
  let n := (20000 * k + 255) / 510 in dec_str (n / 10000) ++ py "." ++ dec_pad4 (n mod 10000).

(** guides.py 64-71: [except ValueError] *)
Definition or_zero (r : res Z) : res Z :=
  match r with Err ValueError => Ok 0 | _ => r end.
(** guides.py 62-72 *)
Definition ufo_color (color : pystr) : res pystr :=
  rthen (int_base16 (slice 1 3 color)) (fun r =>
  rthen (or_zero (int_base16 (slice 3 5 color))) (fun g =>
  rmap (fun b => fraction r ++ py "," ++ fraction g ++ py "," ++ fraction b ++ py ",1")
       (or_zero (int_base16 (slice 5 7 color))))).

(** guides.py 61-74 *)
Definition set_color (c : option pystr) (g : ufo_guide) : ufo_guide :=
  match c with
  | Some c => UfoGuide (ug_angle g) (ug_x g) (ug_y g) (Some c) (ug_name g)
  | None => g
  end.
Definition set_name (n : option pystr) (g : ufo_guide) : ufo_guide :=
  match n with
  | Some n => UfoGuide (ug_angle g) (ug_x g) (ug_y g) (ug_color g) (Some n)
  | None => g
  end.
(** guides.py 50-74: one property. The guide is looked up before the colour is read. *)
Definition apply_property (gs : list ufo_guide) (p : guide_prop) : res (list ufo_guide) :=
  let guide_index := gp_index p - 1 in
  if Z.of_nat (List.length gs) <=? guide_index then Ok gs
  else
    rthen (py_index gs guide_index) (fun _ =>
    rthen (match gp_color p with
           | Some c => rmap Some (ufo_color c)
           | None => Ok None
           end) (fun c =>
    py_update gs guide_index (fun g => set_name (gp_name p) (set_color c g)))).

(** guides.py 38-76 [apply_guide_properties]. The guides of the two directions are the same objects
    as in the list of all guides, horizontal ones first. *)
Definition apply_guide_properties (gs : list ufo_guide * list ufo_guide) (d : guide_props)
  : res (list ufo_guide) :=
  rthen (res_fold apply_property (fst gs) (gps_h d)) (fun h =>
  rmap (fun v => h ++ v) (res_fold apply_property (snd gs) (gps_v d))).

(** paths.py 226-233, builder.py 740-746 *)
Definition extract_guides (value : Z -> Q) (d : guides) (props : guide_props) (m : Z)
  : res (list ufo_guide) :=
  rthen (get_master_guides value d m) (fun gs => apply_guide_properties gs props).
