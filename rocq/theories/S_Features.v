(** Specification of the properties of the feature code in the UFO (C65, C66). *)
From Coq Require Import String.
From Verif Require Import Base M_Py M_Groups S_Groups S_Text.
Local Open Scope list_scope.

(** ** Classes in the feature code *)

(** "the group goes to the feature code": a kerning group if they are to be added, another group if
    the groups are to be moved and it is not a metrics group, whose name begins with a dot *)
Definition to_features (add_kerning move : bool) (n : pystr) : Prop :=
  (kerning_name n /\ add_kerning = true) \/
  (~ kerning_name n /\ (forall s, n <> py "." ++ s) /\ move = true).

(** a class definition of the feature file syntax: @name = [glyph glyph glyph]; *)
Definition spaced (l : list pystr) : pystr :=
  match l with
  | [] => []
  | g :: l' => g ++ flat_map (fun h => [32] ++ h) l'
  end.
Definition class_definition (c : pystr * list pystr) : pystr :=
  py "@" ++ fst c ++ py " = [" ++ spaced (snd c) ++ py "];" ++ [10].

(** the feature file: the classes, an empty line and the rest *)
Definition feature_file (classes : groups) (code : pystr) : pystr :=
  flat_map class_definition classes ++ match code with [] => [] | _ => [10; 10] ++ code end.

(** names without spaces and newlines, and, in the brackets, without closing bracket *)
Definition plain_name (n : pystr) : Prop := ~ In 32 n /\ ~ In 10 n.
Definition plain_glyph (g : pystr) : Prop := g <> [] /\ ~ In 32 g /\ ~ In 10 g /\ ~ In 93 g.
Definition plain_class (c : pystr * list pystr) : Prop :=
  plain_name (fst c) /\ Forall plain_glyph (snd c).

(** ** Pair positioning rules *)

(** white space as [str.isspace] has it *)
Definition spaces (s : pystr) : Prop := Forall (fun c => c = 32) s /\ s <> [].
Definition solid (s : pystr) : Prop := Forall (fun c => ~ In c white) s /\ s <> [].

(** A line that holds a rule for a pair, of two words one space apart: the white space before it,
    whether it is an enumerated one, the two words, the value and the text behind "#", if any *)
Record pair_rule := mkRule {
  r_indent : pystr;
  r_enum : bool;
  r_left : pystr;
  r_right : pystr;
  r_value : pystr;
  r_comment : option pystr }.

(** [m] and [n] spaces are before the words and before the value *)
Definition rule_text (m n : nat) (r : pair_rule) : pystr :=
  r_indent r ++ (if r_enum r then py "enum " else []) ++ py "pos" ++ repeat 32 (S m) ++
  r_left r ++ [32] ++ r_right r ++ repeat 32 (S n) ++ r_value r ++
  match r_comment r with None => [] | Some c => py "#" ++ c end.

Definition wf_rule (r : pair_rule) : Prop :=
  Forall (fun c => In c white) (r_indent r) /\
  solid (r_left r) /\ solid (r_right r) /\
  (exists c v, r_value r = c :: v /\ ~ In c white) /\
  ~ In 35 (r_left r) /\ ~ In 35 (r_right r) /\ ~ In 35 (r_value r).

(** a kerning class, whose name begins with an underscore, has a name for each side in the UFO *)
Definition class_on (side : string) (x x' : pystr) : Prop :=
  (exists n, x = py "@_" ++ n /\ x' = py "@public.kern" ++ py side ++ py "._" ++ n) \/
  ((forall n, x <> py "@_" ++ n) /\ x' = x).

(** the rule of the UFO: the same with the names of the UFO; an empty comment is left out *)
Definition renamed_rule (r r' : pair_rule) : Prop :=
  r_indent r' = r_indent r /\ r_enum r' = r_enum r /\ r_value r' = r_value r /\
  class_on "1" (r_left r) (r_left r') /\ class_on "2" (r_right r) (r_right r') /\
  r_comment r' = match r_comment r with Some [] => None | c => c end.
