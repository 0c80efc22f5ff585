(** Model of the conversion of outlines: ufo/paths.py 119-211, 316-372. *)
From Coq Require Import String.
From Verif Require Import Base M_Py M_Text M_Glyph.
Local Open Scope list_scope.

(** ufo/typing.py 19 [UfoSegment]: type, smooth, name, coordinates *)
Inductive seg := SMove | SLine | SCurve | SQCurve.
Record upoint := UPoint
  { up_type : option seg; up_smooth : bool; up_name : option pystr; up_pt : Z * Z }.
Definition pt_eqb (a b : Z * Z) : bool := (fst a =? fst b) && (snd a =? snd b).
Definition set_type (t : seg) (p : upoint) : upoint := UPoint (Some t) (up_smooth p) (up_name p) (up_pt p).
Definition set_name (n : pystr) (p : upoint) : upoint := UPoint (up_type p) (up_smooth p) (Some n) (up_pt p).

(** lines 329-356 [_apply_closepath] of the contour [p0 :: rest] and [rename_points]. [to_mask] is always
    false, because line 323 does not pass it on. *)
Definition apply_closepath (p0 : upoint) (rest : list upoint) (renames : list (pystr * pystr))
  : list upoint * list (pystr * pystr) :=
  let l := last rest p0 in
  if pt_eqb (up_pt l) (up_pt p0) &&
     match up_type l with Some SLine | Some SQCurve => false | _ => true end then
    match up_name p0, up_name l with
    | None, _ => (l :: removelast rest, renames)
    | Some n, None => (set_name n l :: removelast rest, renames)
    | Some n, Some n' => (l :: removelast rest, aset str_eqb n n' renames)
    end
  else (set_type SLine p0 :: rest, renames).
(** lines 358-372 [_flush_contour] *)
Definition flush_contour (p0 : upoint) (rest : list upoint) (is_open : bool) (renames : list (pystr * pystr))
  : list upoint * list (pystr * pystr) :=
  if is_open then (p0 :: rest, renames)
  else match up_type (last rest p0) with
       | Some SMove => (p0 :: rest, renames)
       | Some _ => apply_closepath p0 rest renames
       | None => (set_type SQCurve p0 :: rest, renames)
       end.

(** the variables of the loop *)
Record pstate := PState
  { ps_contours : list (list upoint); ps_renames : list (pystr * pystr);
    ps_contour : list upoint; ps_open : bool; ps_qcurve : bool }.
(** lines 316-327 [_append_contour] *)
Definition append_contour (st : pstate) : pstate :=
  match ps_contour st with
  | [] => st
  | p0 :: rest =>
      let '(c, renames) := flush_contour p0 rest (ps_open st) (ps_renames st) in
      PState (ps_contours st ++ [c]) renames (ps_contour st) (ps_open st) (ps_qcurve st)
  end.
Definition add_points (ps : list upoint) (q : bool) (st : pstate) : pstate :=
  PState (ps_contours st) (ps_renames st) (ps_contour st ++ ps) (ps_open st) q.
(** lines 142-178: one node. [name] is [point_labels.get(i)], or [None] for the mask. Lines 176-178 are
    dead code for the four types of nodes. *)
Definition node_turn (m : Z) (name : option pystr) (n : mm_node) (st : pstate) : res pstate :=
  rthen (py_index (nd_points n) m) (fun nodes =>
  rthen (py_index nodes 0) (fun pt =>
  let smooth := Z.testbit (nd_flags n) 0 in
  match nd_type n with
  | Move =>
      let st := append_contour st in
      Ok (PState (ps_contours st) (ps_renames st) [UPoint (Some SMove) smooth name pt]
                 (Z.testbit (nd_flags n) 3) false)
  | Line => Ok (add_points [UPoint (Some (if ps_qcurve st then SQCurve else SLine)) smooth name pt] false st)
  | Curve =>
      match nodes with
      | [pt; c1; c2] =>
          Ok (add_points [UPoint None false None c1; UPoint None false None c2;
                          UPoint (Some SCurve) smooth name pt] false st)
      | _ => Err ValueError
      end
  | QCurve => Ok (add_points [UPoint None false name pt] true st)
  end)).
Fixpoint nodes_loop (m : Z) (labels : Z -> option pystr) (i : Z) (nodes : list mm_node) (st : pstate) : res pstate :=
  match nodes with
  | [] => Ok st
  | n :: nodes => rthen (node_turn m (labels i) n st) (nodes_loop m labels (i + 1) nodes)
  end.
(** lines 119-180 [_extract_master_contours]: the contours and [rename_points]. [labels] is
    [point_labels.get], or gives [None] for the mask. *)
Definition extract_contours (m : Z) (labels : Z -> option pystr) (nodes : list mm_node)
  : res (list (list upoint) * list (pystr * pystr)) :=
  rmap (fun st => let st := append_contour st in (ps_contours st, ps_renames st))
       (nodes_loop m labels 0 nodes (PState [] [] [] false false)).

(** lines 186-211, the components. [round15 x] is [round(x, 15)], as an integer if it is one. *)
Record component (F : Type) := Component
  { co_gid : Z; co_scale_x : list F; co_scale_y : list F; co_offset_x : list Z; co_offset_y : list Z }.
Arguments Component {F}. Arguments co_gid {F}. Arguments co_scale_x {F}. Arguments co_scale_y {F}.
Arguments co_offset_x {F}. Arguments co_offset_y {F}.
Record ucomponent (F : Type) := UComponent { uc_name : pystr; uc_xx : F; uc_yy : F; uc_dx : Z; uc_dy : Z }.
Arguments UComponent {F}.
Definition extract_component {F} (round15 : F -> F) (order : list pystr) (m : Z) (c : component F)
  : res (ucomponent F) :=
  rthen (py_index (co_scale_x c) m) (fun xx =>
  rthen (py_index (co_scale_y c) m) (fun yy =>
  rthen (py_index (co_offset_x c) m) (fun dx =>
  rthen (py_index (co_offset_y c) m) (fun dy =>
  rthen (py_index order (co_gid c)) (fun name =>
  Ok (UComponent name (round15 xx) (round15 yy) dx dy)))))).
Definition extract_components {F} (round15 : F -> F) (order : list pystr) (m : Z) (cs : list (component F)) :=
  res_map (extract_component round15 order m) cs.

(** lines 22-34 [_drawPoints]: the calls of the pen *)
Inductive pen_call (F : Type) :=
| BeginPath | AddPoint (p : upoint) | EndPath | AddComponent (c : ucomponent F).
Arguments BeginPath {F}. Arguments AddPoint {F}. Arguments EndPath {F}. Arguments AddComponent {F}.
Definition draw_points {F} (contours : list (list upoint)) (components : list (ucomponent F)) : list (pen_call F) :=
  concat (map (fun c => BeginPath :: map AddPoint c ++ [EndPath]) contours) ++ map AddComponent components.
