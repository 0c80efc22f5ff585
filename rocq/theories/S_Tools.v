(** Specification for the command line tools (C75 to C79). *)
From Coq Require Import String.
From Verif Require Import Base M_Py M_Text M_Container M_Designspace M_Tools.
Local Open Scope list_scope.

(** the path of the UFO of master [i], with the suffix [x] *)
Definition ufo_file (out : path) (x : pystr) (i : nat) : pystr :=
  (if p_root out then py "/" else []) ++ flat_map (fun d => d ++ py "/") (p_dir out) ++ p_stem out
  ++ (match i with O => [] | _ => py "-" ++ dec_str (Z.of_nat i) end) ++ x.
(** the path of the designspace *)
Definition ds_file (out : path) : pystr :=
  (if p_root out then py "/" else []) ++ flat_map (fun d => d ++ py "/") (p_dir out) ++ p_stem out ++ py ".designspace".
Definition ufo_suffix (json : bool) (out : path) : pystr := if json then py ".json" else p_suffix out.
(** "the file [p] is one of those that the export is to write" *)
Definition target {C} (json : bool) (out : path) (ufos : list C) (ds : option C) (p : pystr) : Prop :=
  (exists i, (i < List.length ufos)%nat /\ p = ufo_file out (ufo_suffix json out) i) \/ (ds <> None /\ p = ds_file out).
Definition content {C} (fs : files C) (p : pystr) : option C := aget str_eqb p fs.

(** "both entries have the same id and the same data"; decompiled data are compared as JSON *)
Definition same_entry {D J} (tojson : D -> json J) (e e' : entry D) : Prop :=
  e_id e = e_id e' /\
  match e_data e, e_data e' with
  | Raw b, Raw b' => b = b'
  | Dec d, Dec d' => tojson d = tojson d'
  | NoData, NoData => True
  | Dec d, NoData | NoData, Dec d => tojson d = JNull
  | _, _ => False
  end.
(** "all bytes" *)
Definition raw_bytes_ok {D} (v : vfb D) : Prop :=
  Forall (fun e => e_id e <> None /\ match e_data e with Raw b => bytes_ok b | _ => True end) (v_entries v) /\
  match v_header v with HRaw b => bytes_ok b | _ => True end.

(** the first entry with the units per em *)
Definition upm_entry {D} (v : vfb D) : option (entry D) :=
  find (fun e => match e_id e with Some i => i =? 1135 | None => false end) (v_entries v).
