(** Specification of the designspace document that a VFB is exported to (C96). *)
From Coq Require Import String.
From Verif Require Import Base M_Py M_Text M_Table M_Options M_Groups M_Designspace M_Build S_Build.
Local Open Scope list_scope.

(** ** What the entries of a VFB say *)
(** the names of the axes and of the masters, in the order of the file *)
Definition texts_said (k : Z) (l : list (Z * value)) : list pystr :=
  flat_map (fun e => if fst e =? k then match snd e with DStr x => [x] | _ => [] end else []) l.
Definition axis_names : list (Z * value) -> list pystr := texts_said 1514.
Definition master_names : list (Z * value) -> list pystr := texts_said 1504.
(** the numbers of the axes and of the masters *)
Definition axes_said (l : list (Z * value)) : Z := last_or 0 (flat_map (int_part 1513) l).
Definition masters_said (l : list (Z * value)) : option Z := last_or None (map Some (flat_map (int_part 1503) l)).
(** the location of master [i], counted from 1: what the last entry with this number says *)
Definition location_said (l : list (Z * value)) (i : Z) : option (list Z) :=
  last_or None (map Some (flat_map (fun e =>
    if fst e =? 1505 then match snd e with DMasterLocation x => if fst x =? i then [snd x] else [] | _ => [] end else []) l)).
(** the instances of the last entry that has some *)
Definition instances_said (l : list (Z * value)) : list M_Options.instance :=
  last_or [] (flat_map (fun e => if fst e =? 1254 then match snd e with DInstances x => [x] | _ => [] end else []) l).
(** the numbers of mappings of each axis *)
Definition mapping_counts_said (l : list (Z * value)) : option (list Z) :=
  last_or None (map Some (flat_map (fun e => if fst e =? 1515 then match snd e with DInts x => [x] | _ => [] end else []) l)).
Definition mapping_entries (l : list (Z * value)) : list (list (Z * Z)) :=
  flat_map (fun e => if fst e =? 1516 then match snd e with DDoublePairs x => [x] | _ => [] end else []) l.

(** ** The document *)
(** four axes have a registered tag, the tag of any other one is made of its name *)
Definition tag_shown (upper : pystr -> pystr) (name tag : pystr) : Prop :=
  (name = py "Weight" /\ tag = py "wght") \/ (name = py "Width" /\ tag = py "wdth") \/
  (name = py "Optical Size" /\ tag = py "opsz") \/ (name = py "Serif" /\ tag = py "SERF") \/
  (~ In name [py "Weight"; py "Width"; py "Optical Size"; py "Serif"] /\ tag = firstn 4 (upper name)).
(** the path of the UFO of the master with this index *)
Definition ufo_path (json : bool) (out : path) (i : nat) : path :=
  Path (p_root out) (p_dir out) (p_stem out ++ (if Nat.eqb i 0 then [] else py "-" ++ dec_str (Z.of_nat i)))
       (if json then py ".json" else p_suffix out).
(** a master: its file, its name without white space around it, and 1000 times its location, by the names of the axes *)
Definition source_shown (c : settings) (l : list (Z * value)) (family : pystr) (json : bool) (out : path) (i : nat) (s : source num) : Prop :=
  so_filename s = path_text (ufo_path json out i) /\ so_family s = family /\
  (forall name, nth_error (master_names l) i = Some name -> so_name s = strip is_space name) /\
  exists loc, location_said l (Z.of_nat i + 1) = Some loc /\
    so_location s = combine (axis_names l) (map (fun x => n_scale (st_ops c) (NBits x)) loc).
(** an instance: its style, family and file, and its location *)
Definition instance_shown (l : list (Z * value)) (family : pystr) (p : M_Options.instance) (i : M_Designspace.instance num) : Prop :=
  M_Designspace.in_style i = M_Options.in_name p /\ M_Designspace.in_family i = family /\
  in_map_family i = strip is_space (family ++ py " " ++ M_Options.in_name p) /\
  in_filename i = py "instance_ufo/" ++ family ++ py "-" ++ M_Options.in_name p ++ py ".ufo" /\
  in_location i = combine (axis_names l) (map NNum (M_Options.in_values p)).
(** the only axis has the instances as labels *)
Definition label_shown (p : M_Options.instance) (v : pystr * num) : Prop :=
  fst v = M_Options.in_name p /\ exists x rest, M_Options.in_values p = x :: rest /\ snd v = NNum x.
Record document_shown (c : settings) (l : list (Z * value)) (masters : nat) (family : pystr) (json : bool) (out : path)
  (d : designspace num) : Prop := DocumentShown {
  dc_count : List.length (ds_sources d) = masters;
  dc_sources : forall i s, nth_error (ds_sources d) i = Some s -> source_shown c l family json out i s;
  dc_instances : Forall2 (instance_shown l family) (instances_said l) (ds_instances d);
  dc_ids : NoDup (map in_name (ds_instances d)) /\ NoDup (map so_style (ds_sources d));
  dc_names : map ax_name (ds_axes d) = axis_names l;
  dc_tags : Forall (fun a => tag_shown (st_upper c) (ax_name a) (ax_tag a)) (ds_axes d);
  dc_labels : forall i a, nth_error (ds_axes d) i = Some a ->
    if Nat.eqb i 0 && (axes_said l =? 1) then Forall2 label_shown (instances_said l) (ax_labels a) else ax_labels a = [] }.

(** ** What a file must satisfy *)
(** the axes have different names; every master and every instance has a coordinate on every axis *)
Definition design_complete (l : list (Z * value)) (masters : nat) : Prop :=
  axis_names l <> [] /\ NoDup (axis_names l) /\ ~ In [] (axis_names l) /\ masters_said l = Some (Z.of_nat masters) /\
  (forall i, 1 <= i <= Z.of_nat masters ->
     exists loc, location_said l i = Some loc /\ (List.length (axis_names l) <= List.length loc)%nat) /\
  Forall (fun p => (List.length (axis_names l) <= List.length (M_Options.in_values p))%nat) (instances_said l).
(** There is one entry with mappings, of ten pairs for each axis; the axes and the numbers of the mappings, at most ten
    for each axis, come before it. *)
Definition mappings_fit (c : settings) (l : list (Z * value)) (counts : list Z) (blocks : list (list (Z * Z))) : Prop :=
  exists l1 l2 rest, l = l1 ++ (1516, DDoublePairs (concat blocks ++ rest)) :: l2 /\
    mapping_entries l1 = [] /\ mapping_entries l2 = [] /\ axis_names l2 = [] /\
    axes_said l1 = Z.of_nat (List.length (axis_names l)) /\ mapping_counts_said l1 = Some counts /\
    List.length counts = List.length (axis_names l) /\ List.length blocks = List.length (axis_names l) /\
    Forall (fun n => 0 <= n <= 10) counts /\
    Forall (fun b => List.length b = 10%nat /\ forall p, In p b -> exists k, n_design (st_ops c) (NBits (snd p)) = Ok k) blocks.
(** what the axis with these pairs shows: the pairs, with the design coordinates per mille, the smallest and the
    largest user coordinate; the smallest is the default *)
Definition mapping_shown (o : num_ops num) (pairs : list (Z * Z)) (a : axis num) : Prop :=
  match pairs with
  | [] => ax_map a = [] /\ ax_min a = None /\ ax_default a = None /\ ax_max a = None
  | _ =>
      Forall2 (fun p m => fst m = NBits (fst p) /\ n_design o (NBits (snd p)) = Ok (snd m)) pairs (ax_map a) /\
      exists lo hi, ax_min a = Some (NBits lo) /\ ax_default a = Some (NBits lo) /\ ax_max a = Some (NBits hi) /\
        In lo (map fst pairs) /\ In hi (map fst pairs) /\
        forall u, In u (map fst pairs) -> n_ltb o (NBits u) (NBits lo) = false /\ n_ltb o (NBits hi) (NBits u) = false
  end.
