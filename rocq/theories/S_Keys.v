(** Specification: JSON objects whose members have distinct keys. *)
From Coq Require Import String.
From Verif Require Import Base M_Py S_Json.
Local Open Scope list_scope.

(** "in all objects of the value, no two members have the same key". RFC 8259 leaves open what a reader does with an
    object in which two have; Python's [json.load] keeps only the last. *)
Fixpoint distinct (j : js) : Prop :=
  match j with
  | JsList l => fold_right (fun x p => distinct x /\ p) True l
  | JsDict d => NoDup (map fst d) /\ fold_right (fun m p => distinct (snd m) /\ p) True d
  | _ => True
  end.
