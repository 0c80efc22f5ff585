(** Specification of drawing. *)
From Coq Require Import String.
From Verif Require Import Base M_Py M_Glyph M_Paths M_Pens S_Paths.
Local Open Scope list_scope.

(** ** What the calls of a segment pen draw *)
Fixpoint drawn_segments (calls : list seg_call) : option (list segment * bool) :=
  match calls with
  | [PClose] => Some ([], false)
  | [PEnd] => Some ([], true)
  | PLine p :: calls => option_map (fun x => ((SLine, [], p) :: fst x, snd x)) (drawn_segments calls)
  | PCurve a b p :: calls => option_map (fun x => ((SCurve, [a; b], p) :: fst x, snd x)) (drawn_segments calls)
  | PQCurve ps :: calls => option_map (fun x => ((SQCurve, removelast ps, last ps (0, 0)) :: fst x, snd x)) (drawn_segments calls)
  | _ => None
  end.
(** a path from its moveTo to its closePath or endPath; closePath draws a line to the start unless the path ends
    with a curve to it *)
Definition drawn (calls : list seg_call) : option path :=
  match calls with
  | PMove p :: calls =>
      match drawn_segments calls with
      | Some (s, true) => Some (Path true p s [])
      | Some (s, false) =>
          if curve_to p (last s (SLine, [], p)) then Some (Path false p s [])
          else Some (Path false p (s ++ [(SLine, [], p)]) [])
      | None => None
      end
  | _ => None
  end.

(** Each control point of a quadratic curve is followed by another one or by the node where the curve ends. *)
Definition qcurves_end (g : list mm_node) : Prop :=
  forall k n, nth_error g k = Some n -> nd_type n = QCurve ->
    exists n', nth_error g (S k) = Some n' /\ (nd_type n' = QCurve \/ nd_type n' = Line).
(** Components have their values in the master, and the glyph they refer to exists. *)
Definition component_ok (order : list pystr) (m : nat) (c : M_Glyph.component) : Prop :=
  (m < List.length (M_Glyph.co_sx c))%nat /\ (m < List.length (M_Glyph.co_sy c))%nat /\
  (m < List.length (M_Glyph.co_x c))%nat /\ (m < List.length (M_Glyph.co_y c))%nat /\
  0 <= M_Glyph.co_gid c < Z.of_nat (List.length order).
(** the name and the matrix that a component is drawn with *)
Definition component_drawn (order : list pystr) (m : nat) (c : M_Glyph.component) (x : pystr * list Z) : Prop :=
  nth_error order (Z.to_nat (M_Glyph.co_gid c)) = Some (fst x) /\
  snd x = [nth m (M_Glyph.co_sx c) 0; 0; 0; nth m (M_Glyph.co_sy c) 0; nth m (M_Glyph.co_x c) 0; nth m (M_Glyph.co_y c) 0].

(** ** Merging *)
Definition source_nodes (t : target) : option (list mm_node) := match t with TDict n _ => n | TList => None end.
Definition source_components (t : target) : option (list M_Glyph.component) := match t with TDict _ c => c | TList => None end.
(** the values of master [j] come from the [j]-th source if it has them, else they stay *)
Definition from {A B} (sources : list (option (list A))) (get : A -> list B) (i : nat) (old new : list B) : Prop :=
  List.length new = List.length old /\
  forall j, (j < List.length old)%nat ->
    match j, nth_error sources j with
    | S _, Some (Some src) => exists s x, nth_error src i = Some s /\ nth_error (get s) j = Some x /\ nth_error new j = Some x
    | _, _ => nth_error new j = nth_error old j
    end.
Definition merged_node (sources : list target) (i : nat) (old new : mm_node) : Prop :=
  nd_type new = nd_type old /\ nd_flags new = nd_flags old /\
  from (map source_nodes sources) nd_points i (nd_points old) (nd_points new) /\
  forall j src, (1 <= j)%nat -> nth_error (map source_nodes sources) j = Some (Some src) ->
    exists s, nth_error src i = Some s /\ nd_type s = nd_type old /\ nd_flags s = nd_flags old.
Definition merged_component (sources : list target) (i : nat) (old new : M_Glyph.component) : Prop :=
  let cs := map source_components sources in
  M_Glyph.co_gid new = M_Glyph.co_gid old /\
  from cs M_Glyph.co_x i (M_Glyph.co_x old) (M_Glyph.co_x new) /\ from cs M_Glyph.co_y i (M_Glyph.co_y old) (M_Glyph.co_y new) /\
  from cs M_Glyph.co_sx i (M_Glyph.co_sx old) (M_Glyph.co_sx new) /\ from cs M_Glyph.co_sy i (M_Glyph.co_sy old) (M_Glyph.co_sy new) /\
  forall j src, (1 <= j)%nat -> nth_error cs j = Some (Some src) ->
    exists s, nth_error src i = Some s /\ M_Glyph.co_gid s = M_Glyph.co_gid old.
Definition pointwise {A} (R : nat -> A -> A -> Prop) (old new : list A) : Prop :=
  List.length new = List.length old /\
  forall i a, nth_error old i = Some a -> exists b, nth_error new i = Some b /\ R i a b.
Definition optional {A} (R : list A -> list A -> Prop) (old new : option (list A)) : Prop :=
  match old, new with None, None => True | Some a, Some b => R a b | _, _ => False end.
(** the data after merging: nodes and components keep their number, types, flags and references *)
Definition merged (sources : list target) (old new : data) : Prop :=
  optional (pointwise (merged_node sources)) (fst old) (fst new) /\
  optional (pointwise (merged_component sources)) (snd old) (snd new).
(** what is needed: as many nodes and components as the data or more, which agree and have the master [j] *)
Definition mergeable (d : data) (j : nat) (t : target) : Prop :=
  (forall src, source_nodes t = Some src -> exists tgt, fst d = Some tgt /\ (List.length tgt <= List.length src)%nat /\
     forall i a s, nth_error tgt i = Some a -> nth_error src i = Some s ->
       nd_type s = nd_type a /\ nd_flags s = nd_flags a /\ (j < List.length (nd_points a))%nat /\ (j < List.length (nd_points s))%nat) /\
  (forall src, source_components t = Some src -> exists tgt, snd d = Some tgt /\ (List.length tgt <= List.length src)%nat /\
     forall i a s, nth_error tgt i = Some a -> nth_error src i = Some s ->
       M_Glyph.co_gid s = M_Glyph.co_gid a /\
       Forall (fun c => (j < List.length (M_Glyph.co_x c))%nat /\ (j < List.length (M_Glyph.co_y c))%nat /\
                        (j < List.length (M_Glyph.co_sx c))%nat /\ (j < List.length (M_Glyph.co_sy c))%nat) [a; s]).

(** ** Points of a quadratic contour: a line follows a point on the curve, the end of a quadratic curve follows a
    control point; [off] tells whether the point before is a control point *)
Fixpoint quadratic (off : bool) (ps : list upoint) : Prop :=
  match ps with
  | [] => True
  | p :: ps =>
      match up_type p with
      | None => quadratic true ps
      | Some SLine => off = false /\ quadratic false ps
      | Some SQCurve => off = true /\ quadratic false ps
      | Some _ => False
      end
  end.
(** an open contour starts with a move, a closed one with the point where its last segment ends *)
Definition quadratic_contour (c : list upoint) : Prop :=
  exists p ps, c = p :: ps /\
    ((up_type p = Some SMove /\ quadratic false ps) \/ (up_type p <> Some SMove /\ up_type p <> None /\ quadratic false (ps ++ [p]))).
(** the calls that draw a contour *)
Definition contour_pcalls (c : list upoint) : list pcall :=
  CBegin :: map (fun p => CPoint (up_pt p) (up_type p)) c ++ [CEnd].
(** contour [g] of nodes with [masters] masters draws the path in each of them *)
Definition nodes_draw (masters : Z) (g : list mm_node) (pa : path) : Prop :=
  contour g /\ forall m, Z.of_nat m < masters ->
    Forall (node_ok m) g /\ exists n rest, g = n :: rest /\ source_path m (Z.odd (nd_flags n / 8)) n rest = pa.
