(** Model of the renaming of points in the TrueType commands of a glyph: ufo/paths.py 263-314. *)
From Coq Require Import String.
From Verif Require Import Base M_Py M_Text M_Glyph M_Tth.
Local Open Scope list_scope.

(** lines 308-314 [_rename_point_in_cmd]. A label that is no string is not in the dict. *)
Definition rename_point (renames : list (pystr * pystr)) (key : pystr) (cmd : command) : res command :=
  rmap (fun v => match v with
                 | TStr name => match aget str_eqb name renames with Some n => aset str_eqb key (TStr n) cmd | None => cmd end
                 | _ => cmd
                 end)
       (aget_res str_eqb key cmd).
(** lines 284-306: one command; a code that is no string is in none of the tuples *)
Definition rename_command (renames : list (pystr * pystr)) (cmd : command) : res command :=
  rthen (aget_res str_eqb (py "code") cmd) (fun v =>
  match v with
  | TStr code =>
      if is_one code [py "alignb"; py "alignt"; py "alignh"; py "alignv"; py "mdeltah"; py "mdeltav"; py "fdeltah"; py "fdeltav"] then
        rename_point renames (py "point") cmd
      else if is_one code [py "singleh"; py "singlev"; py "doubleh"; py "doublev"] then
        rthen (rename_point renames (py "point1") cmd) (rename_point renames (py "point2"))
      else if is_one code [py "interpolateh"; py "interpolatev"] then
        rthen (rename_point renames (py "point") cmd) (fun cmd =>
        rthen (rename_point renames (py "point1") cmd) (rename_point renames (py "point2")))
      else Err ValueError
  | _ => Err ValueError
  end).
(** lines 263-281 [_finalize_point_labels], [_finalize_ps_point_labels] (which does nothing) and
    [_finalize_tt_point_labels] *)
Definition finalize_labels (renames : list (pystr * pystr)) (commands : list command) : res (list command) :=
  match renames with [] => Ok commands | _ => res_map (rename_command renames) commands end.
