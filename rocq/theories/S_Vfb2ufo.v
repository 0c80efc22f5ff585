(** Specification for the tool vfb2ufo (C100). *)
From Coq Require Import String.
From Verif Require Import Base M_Py M_Text M_Designspace M_Build M_Ufo M_Tools M_Vfb2ufo S_Tools.
Local Open Scope list_scope.

(** The files have the name of the VFB and are next to it or in the folder that was given; those of the masters after the
    first one are numbered. *)
Definition out_folder (a : args) : bool * list pystr :=
  match a_folder a with Some f => f | None => (p_root (a_input a), p_dir (a_input a)) end.
Definition out_name (a : args) (i : nat) (suffix : pystr) : pystr :=
  (if fst (out_folder a) then py "/" else []) ++ flat_map (fun d => d ++ py "/") (snd (out_folder a)) ++ p_stem (a_input a)
  ++ (match i with O => [] | _ => py "-" ++ dec_str (Z.of_nat i) end) ++ suffix.
Definition ufo_name (a : args) (i : nat) : pystr :=
  out_name a i (if a_json a then py ".json" else if a_zip a then py ".ufoz" else py ".ufo").
Definition design_name (a : args) : pystr := out_name a 0 (py ".designspace").
(** the files that the tool is to write when there are [n] masters *)
Definition among (a : args) (n : nat) (design : bool) (p : pystr) : Prop :=
  (exists i, (i < n)%nat /\ p = ufo_name a i) \/ (design = true /\ p = design_name a).
Definition ufo_form (a : args) : form := if a_json a then AsJson else if a_zip a then AsZip else AsFolder.
(** "the UFOs and the document are in their files, and no other file has changed" *)
Definition files_written (a : args) (us : list ufo) (ds : option (designspace num)) (fs fs' : files file_content) : Prop :=
  (forall i u, nth_error us i = Some u -> content fs' (ufo_name a i) = Some (FUfo (ufo_form a) u)) /\
  (forall d, ds = Some d -> content fs' (design_name a) = Some (FDesign d)) /\
  (forall p, ~ among a (List.length us) (match ds with Some _ => true | None => false end) p -> content fs' p = content fs p).
