(** Specification of outlines. *)
From Coq Require Import String.
From Verif Require Import Base M_Py M_Glyph M_Paths.
Local Open Scope list_scope.

(** Nodes have their points in master [m]: three for curves, else one. *)
Definition node_ok (m : nat) (n : mm_node) : Prop :=
  exists row, nth_error (nd_points n) m = Some row /\
    List.length row = match nd_type n with Curve => 3%nat | _ => 1%nat end.
Definition row (m : nat) (n : mm_node) : list (Z * Z) := nth m (nd_points n) [].
(** the coordinates of the node itself, and all its coordinates in drawing order (the file has the
    node of a curve before its control points) *)
Definition node_pt (m : nat) (n : mm_node) : Z * Z := hd (0, 0) (row m n).
Definition coords (m : nat) (n : mm_node) : list (Z * Z) := tl (row m n) ++ [node_pt m n].
Definition all_coords (m : nat) (g : list mm_node) : list (Z * Z) := concat (map (coords m) g).

(** The contours of a node list: each starts with its move. *)
Definition contour (g : list mm_node) : Prop :=
  exists n rest, g = n :: rest /\ nd_type n = Move /\ Forall (fun n => nd_type n <> Move) rest.
Definition contours_of (nodes : list mm_node) (gs : list (list mm_node)) : Prop :=
  concat gs = nodes /\ Forall contour gs.
(** bit 3 of the flags of the move *)
Definition open_contour (g : list mm_node) : Prop := exists n rest, g = n :: rest /\ Z.odd (nd_flags n / 8) = true.
(** a closed contour that ends with a curve to its start: start and end are one point *)
Definition joined (m : nat) (g : list mm_node) : Prop :=
  ~ open_contour g /\ exists n mid l, g = n :: mid ++ [l] /\ nd_type l = Curve /\ node_pt m l = node_pt m n.

(** ** Paths: what is drawn *)
(** a segment: kind, control points, end *)
Definition segment := (seg * list (Z * Z) * (Z * Z))%type.
Record path := Path { pa_open : bool; pa_start : Z * Z; pa_segments : list segment; pa_rest : list (Z * Z) }.

(** The path of a contour in the file: lines; cubic curves; quadratic curves, given by any number of
    control points before the node where they end, which for the last curve of a closed contour is the
    start. A closed contour that does not end with a curve to its start is closed by a line. *)
Fixpoint source_segments (m : nat) (offs : list (Z * Z)) (nodes : list mm_node) : list segment * list (Z * Z) :=
  match nodes with
  | [] => ([], offs)
  | n :: nodes =>
      match nd_type n with
      | QCurve => source_segments m (offs ++ [node_pt m n]) nodes
      | Curve => let '(s, r) := source_segments m [] nodes in ((SCurve, offs ++ tl (row m n), node_pt m n) :: s, r)
      | _ => let '(s, r) := source_segments m [] nodes in
             ((match offs with [] => SLine | _ => SQCurve end, offs, node_pt m n) :: s, r)
      end
  end.
Definition curve_to (p : Z * Z) (s : segment) : bool :=
  match s with ((SCurve, _), q) => pt_eqb q p | _ => false end.
Definition source_path (m : nat) (is_open : bool) (n : mm_node) (rest : list mm_node) : path :=
  let start := node_pt m n in
  let '(segments, offs) := source_segments m [] rest in
  if is_open then Path true start segments offs
  else match offs with
       | _ :: _ => Path false start (segments ++ [(SQCurve, offs, start)]) []
       | [] => if curve_to start (last segments (SLine, [], start)) then Path false start segments []
               else Path false start (segments ++ [(SLine, [], start)]) []
       end.

(** The path of a UFO contour: if the first point is a move, it is open; else it is closed and the
    first point ends its last segment. *)
Fixpoint ufo_segments (offs : list (Z * Z)) (ps : list upoint) : list segment * list (Z * Z) :=
  match ps with
  | [] => ([], offs)
  | p :: ps =>
      match up_type p with
      | None => ufo_segments (offs ++ [up_pt p]) ps
      | Some t => let '(s, r) := ufo_segments [] ps in ((t, offs, up_pt p) :: s, r)
      end
  end.
Definition ufo_path (c : list upoint) : option path :=
  match c with
  | [] => None
  | p :: ps =>
      match up_type p with
      | Some SMove => let '(s, r) := ufo_segments [] ps in Some (Path true (up_pt p) s r)
      | Some _ => let '(s, r) := ufo_segments [] (ps ++ [p]) in Some (Path false (up_pt p) s r)
      | None => None
      end
  end.

(** ** Where the point of a node is *)
(** the position in the contour [g] of the last coordinates of node [k] *)
Definition position (m : nat) (g : list mm_node) (k : nat) : nat :=
  (List.length (all_coords m (firstn (S k) g)) - 1)%nat.
(** [pos] is the position of the point of node [k], which for the last node of a joined contour is the
    start *)
Definition place (m : nat) (g : list mm_node) (k : nat) (pos : nat) : Prop :=
  (joined m g /\ S k = List.length g /\ pos = 0%nat) \/
  (~ (joined m g /\ S k = List.length g) /\ pos = position m g k).
(** the number of nodes before contour [k] *)
Definition base (gs : list (list mm_node)) (k : nat) : nat := List.length (concat (firstn k gs)).

(** ** Balanced calls of a pen *)
Inductive balanced {F} : list (pen_call F) -> list (list upoint) -> Prop :=
| bal_nil : balanced [] []
| bal_contour : forall c calls cs, balanced calls cs -> balanced (BeginPath :: map AddPoint c ++ EndPath :: calls) (c :: cs)
| bal_component : forall c calls cs, balanced calls cs -> balanced (AddComponent c :: calls) cs.
