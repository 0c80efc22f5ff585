(** Specification for vfbdiff (C98). *)
From Coq Require Import String Permutation.
From Verif Require Import Base M_Py M_Glyph M_Container M_Table M_Json S_Json S_Dump.
Local Open Scope list_scope.

(** "the same JSON, except perhaps for the order of the members of objects" *)
Inductive same_js : js -> js -> Prop :=
| sj_same : forall x, same_js x x
| sj_list : forall l l', Forall2 same_js l l' -> same_js (JsList l) (JsList l')
| sj_dict : forall d m d', Permutation d m -> Forall2 (fun p q => fst p = fst q /\ same_js (snd p) (snd q)) m d' ->
    same_js (JsDict d) (JsDict d').

(** "no string in it has a character that ends lines": of these, JSON escapes all but NEL, LS and PS *)
Definition line_text (s : pystr) : bool := forallb (fun c => negb ((c =? 0x85) || (c =? 0x2028) || (c =? 0x2029))) s.
Fixpoint one_line (v : pyval) : bool :=
  match v with
  | PStr s => line_text s
  | PList l => forallb one_line l
  | PDict d => forallb (fun p => line_text (fst p) && one_line (snd p)) d
  | _ => true
  end.

(** "both entries have the same id and the same data", where the order of the keys of a dict does not matter *)
Definition same_content (number : fval -> option pystr) (e e' : entry value) : Prop :=
  e_id e = e_id e' /\
  match e_data e, e_data e' with
  | Raw b, Raw b' => b = b'
  | Dec d, Dec d' => exists t t', value_py d t /\ value_py d' t' /\ same_js (shown number t) (shown number t')
  | _, _ => False
  end.

(** what is asked of difflib *)
Definition diff_ok (unified_diff : list pystr -> list pystr -> list pystr) : Prop :=
  forall a b, unified_diff a b = [] <-> a = b.
