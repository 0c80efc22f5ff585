(** Specification of what the masters of a font have in common. *)
From Coq Require Import String.
From Verif Require Import Base M_Py M_Glyph M_Labels M_PsHints M_Paths M_Export S_Labels S_PsHints S_Paths.
Local Open Scope list_scope.

(** Outlines are compatible if they have the same points except for the coordinates: type, smooth flag and
    name, in the same order. *)
Definition kind (p : upoint) : option seg * bool * option pystr := (up_type p, up_smooth p, up_name p).
Definition compatible (c c' : list upoint) : Prop := map kind c = map kind c'.

Definition no_hints (g : eglyph) : Prop :=
  eg_masks g = [] /\ eg_h g = [] /\ eg_v g = [] /\ lk_x (eg_links g) = [] /\ lk_y (eg_links g) = [].
(** the hint masks of [g] name hints and nodes that are there *)
Definition masks_ok (g : eglyph) : Prop :=
  exists sets, hint_sets_of 0 (eg_masks g) sets /\
    Forall (fun mask => plain mask -> 0 <= snd mask) (eg_masks g) /\
    Forall (fun s => 0 <= fst s < Z.of_nat (List.length (eg_nodes g))) sets.
(** [g] has all its data in master [m], and contours [gs] *)
Definition master_ok (g : eglyph) (m : nat) : Prop :=
  Forall (node_ok m) (eg_nodes g) /\
  Forall (fun mm => (m < List.length mm)%nat) (eg_h g) /\ Forall (fun mm => (m < List.length mm)%nat) (eg_v g) /\
  Forall (link_ok m true (eg_nodes g)) (lk_x (eg_links g)) /\
  Forall (link_ok m false (eg_nodes g)) (lk_y (eg_links g)).
(** a font with [n] masters whose glyphs with components have no hints of their own *)
Definition simple_font (st : store) (n : nat) (font : list (pystr * eglyph)) : Prop :=
  NoDup (map fst font) /\
  Forall (fun p => (exists x, In (fst p, x) st) /\ (exists gs, contours_of (eg_nodes (snd p)) gs) /\
    (no_hints (snd p) \/ (simple_glyph st (fst p) (Z.of_nat (List.length (eg_nodes (snd p)))) /\ masks_ok (snd p))) /\
    forall m, (m < n)%nat -> master_ok (snd p) m) font.

(** [p] is the point of node number [node] of the contours [gs] in the exported contours [cs] *)
Definition point_of (m : nat) (gs : list (list mm_node)) (cs : list (list upoint)) (node : Z) (p : upoint) : Prop :=
  exists k g c j pos, node = Z.of_nat (base gs k + j) /\ (j < List.length g)%nat /\
    nth_error gs k = Some g /\ nth_error cs k = Some c /\ place m g j pos /\ nth_error c pos = Some p.
(** [node] is the first of a contour that ends at its start *)
Definition joined_start (m : nat) (gs : list (list mm_node)) (node : Z) : Prop :=
  exists k g, node = Z.of_nat (base gs k) /\ nth_error gs k = Some g /\ joined m g.
(** some point of the glyph has this name *)
Definition names_point (cs : list (list upoint)) (name : pystr) : Prop :=
  exists c p, In c cs /\ In p c /\ up_name p = Some name.
(** [label] is the name of the point of node [i], unless this is the start of a contour that ends there *)
Definition own_point (m : nat) (nodes : list mm_node) (cs : list (list upoint)) (i : Z) (label : pystr) : Prop :=
  0 <= i < Z.of_nat (List.length nodes) /\
  forall gs, contours_of nodes gs -> exists p, point_of m gs cs i p /\ (up_name p = Some label \/ joined_start m gs i).

(** ** The hints of a master *)
(** the stems of [g] in master [m], horizontal and vertical: those of its hints, then those of its links *)
Definition master_stems (m : nat) (g : eglyph) (h v : list hint) : Prop :=
  exists hh ly vv lx, h = hh ++ ly /\ v = vv ++ lx /\
    Forall2 (fun mm a => exists src, nth_error mm m = Some src /\ same_stem false src a) (eg_h g) hh /\
    Forall2 (link_stem m false (eg_nodes g)) (lk_y (eg_links g)) ly /\
    Forall2 (fun mm a => exists src, nth_error mm m = Some src /\ same_stem true src a) (eg_v g) vv /\
    Forall2 (link_stem m true (eg_nodes g)) (lk_x (eg_links g)) lx.
(** the stems that are in force from [node] on: without masks all of them from the first node, else those of the last
    set of the node that has any *)
Definition hint_set (g : eglyph) (h v : list hint) (node : Z) (stems : list hint) : Prop :=
  match eg_masks g with
  | [] => node = 0 /\ stems = h ++ v /\ stems <> []
  | masks => exists sets, hint_sets_of 0 masks sets /\ effective h v sets node stems
  end.
(** The hint sets [hs] of the outline [cs] of [g] in master [m]: one for each node from which on stems are in force, with
    the name of the point of the node and the texts of the stems, each once and in order. *)
Definition hints_said (m : nat) (g : eglyph) (cs : list (list upoint)) (hs : list (pystr * list pystr)) : Prop :=
  exists h v, master_stems m g h v /\ NoDup (map fst hs) /\
    (forall tag texts, In (tag, texts) hs -> exists node stems l, hint_set g h v node stems /\
       own_point m (eg_nodes g) cs node tag /\ sorted_version stems l /\ texts = map stem_text l) /\
    (forall node stems, hint_set g h v node stems -> exists tag l,
       own_point m (eg_nodes g) cs node tag /\ sorted_version stems l /\ In (tag, map stem_text l) hs).
