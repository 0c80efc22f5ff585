(** Model of the designspace export: ufo/designspace.py 7-23, ufo/builder.py 120-142, 569-590, 880-1001.

    Numbers are floats of the VFB, of an arbitrary type; what the code does with them is given as
    [num_ops]. The descriptors of fontTools.designspaceLib are records of the attributes that are set;
    a descriptor with a [filename] and no [path], as here, is written with that [filename]. *)
From Coq Require Import String.
From Verif Require Import Base M_Py M_Text M_Groups M_Tth.
Local Open Scope list_scope.

(** [1000 * x], [round(x * 1000)], [x < y], and the integers 0 and 1000 *)
Record num_ops (F : Type) := NumOps {
  n_scale : F -> F;
  n_design : F -> res Z;
  n_ltb : F -> F -> bool;
  n_zero : F;
  n_thousand : F }.
Arguments NumOps {F}. Arguments n_scale {F}. Arguments n_design {F}. Arguments n_ltb {F}.
Arguments n_zero {F}. Arguments n_thousand {F}.

(** [fontTools.designspaceLib.AxisDescriptor] as the exporter uses it. The three numbers are not
    there before [add_axis_mappings]. *)
Record axis (F : Type) := Axis {
  ax_tag : pystr; ax_name : pystr;
  ax_map : list (F * Z);
  ax_min : option F; ax_default : option F; ax_max : option F;
  ax_labels : list (pystr * F) }.
Arguments Axis {F}. Arguments ax_tag {F}. Arguments ax_name {F}. Arguments ax_map {F}.
Arguments ax_min {F}. Arguments ax_default {F}. Arguments ax_max {F}. Arguments ax_labels {F}.

(** builder.py 577-586; [upper] is [str.upper] *)
Definition axis_tags : list (pystr * pystr) :=
  [(py "Weight", py "wght"); (py "Width", py "wdth"); (py "Optical Size", py "opsz"); (py "Serif", py "SERF")].
Definition axis_tag (upper : pystr -> pystr) (name : pystr) : pystr :=
  match aget str_eqb name axis_tags with
  | Some t => t
  | None => firstn 4 (upper name)
  end.
Definition new_axis {F} (upper : pystr -> pystr) (name : pystr) : axis F :=
  Axis (axis_tag upper name) name [] None None None [].

(** [min(l, default=d)] and [max(l, default=d)]: the first of the smallest and of the largest *)
Definition py_min {F} (ltb : F -> F -> bool) (d : F) (l : list F) : F :=
  match l with
  | [] => d
  | x :: l' => fold_left (fun m y => if ltb y m then y else m) l' x
  end.
Definition py_max {F} (ltb : F -> F -> bool) (d : F) (l : list F) : F :=
  match l with
  | [] => d
  | x :: l' => fold_left (fun m y => if ltb m y then y else m) l' x
  end.

(** builder.py 129-140: the mappings of one axis *)
Definition set_mapping {F} (o : num_ops F) (mappings : list (F * F)) (a : axis F) : res (axis F) :=
  rmap (fun map' =>
    let user_coords := map fst mappings in
    let mn := py_min (n_ltb o) (n_zero o) user_coords in
    Axis (ax_tag a) (ax_name a) map' (Some mn) (Some mn)
         (Some (py_max (n_ltb o) (n_thousand o) user_coords)) (ax_labels a))
    (res_map (fun ud => rmap (fun d => (fst ud, d)) (n_design o (snd ud))) mappings).

(** [data[:n]] for [n > 0], [data[10:]] *)
Definition mapping_turn {F} (o : num_ops F) (counts : list Z) (a : list (axis F) * list (F * F)) (i : Z)
  : res (list (axis F) * list (F * F)) :=
  let '(axes, data) := a in
  rthen (py_index counts i) (fun n =>
  rmap (fun axes => (axes, skipn 10 data))
    (if 0 <? n then
       rthen (py_index axes i) (fun ax =>
       rthen (set_mapping o (firstn (Z.to_nat n) data) ax) (fun ax' =>
       py_update axes i (fun _ => ax')))
     else Ok axes)).
Definition zrange (n : Z) : list Z := map Z.of_nat (seq 0 (Z.to_nat n)).
(** builder.py 120-142 [add_axis_mappings]. [counts] is None before the entry that sets them. *)
Definition add_axis_mappings {F} (o : num_ops F) (axis_count : Z) (counts : option (list Z))
  (axes : list (axis F)) (data : list (F * F)) : res (list (axis F)) :=
  match counts with
  | None => Err AttributeError
  | Some [] => Err ValueError
  | Some counts => rmap fst (res_fold (mapping_turn o counts) (axes, data) (zrange axis_count))
  end.

(** ufo/designspace.py 7-23 [get_ds_location]; [scale] multiplies with the factor *)
Fixpoint ds_location_from {F} (scale : F -> F) (loc : list F) (axes : list (axis F)) (i : Z)
  (acc : list (pystr * F)) : res (list (pystr * F)) :=
  match axes with
  | [] => Ok acc
  | a :: axes' =>
      match ax_name a with
      | [] => Err ValueError
      | name => rthen (py_index loc i) (fun x =>
                ds_location_from scale loc axes' (i + 1) (aset str_eqb name (scale x) acc))
      end
  end.
Definition get_ds_location {F} (scale : F -> F) (axes : list (axis F)) (loc : list F) :=
  ds_location_from scale loc axes 0 [].

(** A [pathlib.PurePosixPath] of a file: whether it begins at the root, the names of the directories,
    and the name of the file, in two parts *)
Record path := Path { p_root : bool; p_dir : list pystr; p_stem : pystr; p_suffix : pystr }.
(** [str(path)] *)
Definition path_text (p : path) : pystr :=
  (if p_root p then py "/" else []) ++ flat_map (fun d => d ++ py "/") (p_dir p) ++ p_stem p ++ p_suffix p.
(** [path.with_suffix] *)
Definition with_suffix (p : path) (s : pystr) : path := Path (p_root p) (p_dir p) (p_stem p) s.
(** builder.py 990-1001 [get_master_path]. Simplification: the new stem keeps its own suffix apart,
    as it does whenever the stem does not end with a dot. *)
Definition get_master_path (out : path) (i : Z) : path :=
  if 0 <? i then Path (p_root out) (p_dir out) (p_stem out ++ py "-" ++ dec_str i) (p_suffix out)
  else out.

Record source (F : Type) := Source {
  so_family : pystr; so_filename : pystr; so_location : list (pystr * F); so_name : pystr; so_style : pystr }.
Arguments Source {F}. Arguments so_family {F}. Arguments so_filename {F}. Arguments so_location {F}.
Arguments so_name {F}. Arguments so_style {F}.
Record instance (F : Type) := Instance {
  in_family : pystr; in_filename : pystr; in_name : pystr; in_map_family : pystr; in_map_style : pystr;
  in_style : pystr; in_location : list (pystr * F) }.
Arguments Instance {F}. Arguments in_family {F}. Arguments in_filename {F}. Arguments in_name {F}.
Arguments in_map_family {F}. Arguments in_map_style {F}. Arguments in_style {F}. Arguments in_location {F}.
Record designspace (F : Type) := Designspace {
  ds_axes : list (axis F); ds_sources : list (source F); ds_instances : list (instance F) }.
Arguments Designspace {F}. Arguments ds_axes {F}. Arguments ds_sources {F}. Arguments ds_instances {F}.

(** what the builder has collected; [b_num_masters] is None without the entry that sets it *)
Record ds_data (F : Type) := DsData {
  b_axis_count : Z; b_axes : list (axis F);
  b_num_masters : option Z; b_masters : list pystr; b_locations : list (Z * list F);
  b_instances : list (pystr * list F);
  b_family : pystr; b_map_style : pystr }.
Arguments DsData {F}. Arguments b_axis_count {F}. Arguments b_axes {F}. Arguments b_num_masters {F}.
Arguments b_masters {F}. Arguments b_locations {F}. Arguments b_instances {F}. Arguments b_family {F}.
Arguments b_map_style {F}.

(** builder.py 943-953: the labels of the only axis *)
Definition add_label {F} (axes : list (axis F)) (p : pystr * list F) : res (list (axis F)) :=
  rthen (py_index axes 0) (fun _ =>
  rthen (py_index (snd p) 0) (fun v =>
  py_update axes 0 (fun a => Axis (ax_tag a) (ax_name a) (ax_map a) (ax_min a) (ax_default a) (ax_max a)
                                  (ax_labels a ++ [(fst p, v)])))).

(** builder.py 956-964: one source *)
Definition get_source {F} (o : num_ops F) (b : ds_data F) (axes : list (axis F)) (out : path) (i : Z)
  : res (source F) :=
  rthen (aget_res Z.eqb (i + 1) (b_locations b)) (fun loc =>
  rthen (get_ds_location (n_scale o) axes loc) (fun location =>
  rmap (fun name => Source (b_family b) (path_text (get_master_path out i)) location (strip is_space name)
                           (py "Master " ++ dec_str i))
       (py_index (b_masters b) i))).

(** builder.py 967-986: one instance, with its number *)
Definition get_instance {F} (b : ds_data F) (axes : list (axis F)) (ip : Z * (pystr * list F))
  : res (instance F) :=
  let '(i, (style_name, loc)) := ip in
  rmap (fun location =>
    Instance (b_family b)
      (py "instance_ufo/" ++ b_family b ++ py "-" ++ style_name ++ py ".ufo")
      (py "instance_" ++ dec_str i)
      (strip is_space (b_family b ++ py " " ++ style_name)) (b_map_style b) style_name location)
    (get_ds_location (fun x => x) axes loc).

Fixpoint numbered_from {A} (i : Z) (l : list A) : list (Z * A) :=
  match l with [] => [] | x :: l' => (i, x) :: numbered_from (i + 1) l' end.

(** builder.py 933-988 [get_designspace] *)
Definition get_designspace {F} (o : num_ops F) (b : ds_data F) (out : path) : res (designspace F) :=
  rthen (if b_axis_count b =? 1 then res_fold add_label (b_axes b) (b_instances b) else Ok (b_axes b))
    (fun axes =>
  rthen (match b_num_masters b with Some n => Ok n | None => Err AttributeError end) (fun n =>
  rthen (res_map (get_source o b axes out) (zrange n)) (fun sources =>
  rmap (fun instances => Designspace axes sources instances)
       (res_map (get_instance b axes) (numbered_from 0 (b_instances b)))))).

(** builder.py 898-931 [write]: where the master UFOs and the designspace are written. [json] writes
    the UFOs as JSON. *)
Definition out_path_of (json : bool) (out : path) : path := if json then with_suffix out (py ".json") else out.
Definition ufo_paths {F} (b : ds_data F) (json : bool) (out : path) : list path :=
  map (get_master_path (out_path_of json out)) (zrange (Z.of_nat (List.length (b_masters b)))).
Definition ds_path (json : bool) (out : path) : path := with_suffix (out_path_of json out) (py ".designspace").
(** builder.py 893-896: no designspace without axes *)
Definition written_designspace {F} (o : num_ops F) (b : ds_data F) (json : bool) (out : path)
  : res (option (designspace F)) :=
  match b_axes b with
  | [] => Ok None
  | _ => rmap Some (get_designspace o b (out_path_of json out))
  end.
