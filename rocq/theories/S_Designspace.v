(** Specification of the designspace export (C68). *)
From Coq Require Import String.
From Verif Require Import Base M_Py M_Text M_Groups M_Designspace.
Local Open Scope list_scope.

(** axes can be told apart by their names, which are not empty *)
Definition names_ok {F} (axes : list (axis F)) : Prop :=
  NoDup (map ax_name axes) /\ ~ In [] (map ax_name axes).

(** the location with the given coordinate on each axis, by the name of the axis *)
Definition location {F} (axes : list (axis F)) (coords : list F) : list (pystr * F) :=
  combine (map ax_name axes) coords.

(** ** Files *)

(** the file that a path stands for, from the directory in which the program runs; for paths without
    ".." this is a list of names, from the root or from that directory *)
Definition file_of (p : path) : bool * list pystr := (p_root p, p_dir p ++ [p_stem p ++ p_suffix p]).
(** the file that a path in a designspace document stands for: file names in it are relative to the
    directory of the document *)
Definition file_in_document (document p : path) : bool * list pystr :=
  if p_root p then file_of p else (p_root document, p_dir document ++ p_dir p ++ [p_stem p ++ p_suffix p]).

(** ** Instances and labels *)
Definition instance_of {F} (b : ds_data F) (p : pystr * list F) (i : instance F) : Prop :=
  in_map_family i = strip is_space (b_family b ++ py " " ++ fst p) /\
  in_family i = b_family b /\ in_style i = fst p /\ in_map_style i = b_map_style b /\
  in_filename i = py "instance_ufo/" ++ b_family b ++ py "-" ++ fst p ++ py ".ufo" /\
  in_location i = location (b_axes b) (snd p).

(** the same axis, with other labels *)
Definition same_axis {F} (a a' : axis F) : Prop :=
  ax_tag a' = ax_tag a /\ ax_name a' = ax_name a /\ ax_map a' = ax_map a /\
  ax_min a' = ax_min a /\ ax_default a' = ax_default a /\ ax_max a' = ax_max a.

(** ** Axis mappings *)

(** a strict order that compares any two numbers *)
Definition total_order {F} (ltb : F -> F -> bool) : Prop :=
  (forall x, ltb x x = false) /\
  (forall x y, ltb x y = true -> ltb y x = false) /\
  (forall x y z, ltb y x = false -> ltb z y = false -> ltb z x = false).

(** "[a'] is the axis [a] with these pairs of user and design coordinates": the design coordinates
    are per mille, the range is that of the user coordinates and begins at the default *)
Definition mapped_axis {F} (o : num_ops F) (pairs : list (F * F)) (a a' : axis F) : Prop :=
  ax_tag a' = ax_tag a /\ ax_name a' = ax_name a /\ ax_labels a' = ax_labels a /\
  Forall2 (fun ud m => fst m = fst ud /\ n_design o (snd ud) = Ok (snd m)) pairs (ax_map a') /\
  exists lo hi, ax_min a' = Some lo /\ ax_default a' = Some lo /\ ax_max a' = Some hi /\
    In lo (map fst pairs) /\ In hi (map fst pairs) /\
    forall u, In u (map fst pairs) -> n_ltb o u lo = false /\ n_ltb o hi u = false.
