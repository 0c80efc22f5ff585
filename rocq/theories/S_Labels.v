(** Specification of point labels. *)
From Coq Require Import String.
From Verif Require Import Base M_Py M_Labels.
Local Open Scope list_scope.

(** [g] has [n] nodes and no components *)
Definition simple_glyph (st : store) (g : pystr) (n : Z) : Prop :=
  exists x, In (g, x) st /\ lg_components x = [] /\ lg_nodes x = n.
(** [g] is made of the simple glyphs [parts], with numbers of nodes, in order *)
Definition composite_of (st : store) (order : list pystr) (g : pystr) (parts : list (pystr * Z)) : Prop :=
  parts <> [] /\ exists x, In (g, x) st /\
    Forall2 (fun gid p => py_index order gid = Ok (fst p) /\ simple_glyph st (fst p) (snd p))
            (lg_components x) parts.
Definition total (parts : list (pystr * Z)) : Z := fold_right (fun p a => snd p + a) 0 parts.
(** number of points of a glyph; hinting may also use the two side bearings after the last point *)
Definition points_of (st : store) (order : list pystr) (g : pystr) (n : Z) : Prop :=
  simple_glyph st g n \/ exists parts, composite_of st order g parts /\ n = total parts.
(** the label stored for a point of a simple glyph *)
Definition stored (st : store) (g : pystr) (index : Z) (l : pystr) : Prop :=
  exists x, In (g, x) st /\ In (index, l) (lg_points x).

(** what the label of point [index] of glyph [g] is *)
Inductive labelled (st : store) (order : list pystr) (g : pystr) : Z -> pystr -> Prop :=
| lab_simple : forall n index l, simple_glyph st g n -> 0 <= index < n -> stored st g index l ->
    labelled st order g index l
| lab_part : forall before c n after index l, composite_of st order g (before ++ (c, n) :: after) ->
    0 <= index < n -> stored st c index l ->
    labelled st order g (total before + index) (l ++ py "-" ++ dec_str (Z.of_nat (List.length before)))
| lab_left : forall n, points_of st order g n -> labelled st order g n (py "lsb")
| lab_right : forall n, points_of st order g n -> labelled st order g (n + 1) (py "rsb").

(** no labels yet, distinct names, no negative numbers of nodes *)
Definition fresh_store (st : store) : Prop :=
  NoDup (map fst st) /\
  Forall (fun p => lg_labels (snd p) = [] /\ lg_points (snd p) = [] /\ 0 <= lg_nodes (snd p)) st.
(** a request for a point or side bearing of a simple or composite glyph *)
Definition good_request (st : store) (order : list pystr) (r : request) : Prop :=
  (exists n, points_of st order (rq_glyph r) n /\ 0 <= rq_index r < n + 2) /\
  In (rq_code r) (map fst label_codes) /\ 0 <= rq_start r.
