(** Model of the feature code of the UFO: ufo/features.py and the part of ufo/builder.py that moves
    classes from the groups to the feature code. Logging is left out. *)
From Coq Require Import String.
From Verif Require Import Base M_Py M_Text M_Groups.
Local Open Scope list_scope.

(** the longest prefix whose characters satisfy [f], and the rest *)
Fixpoint span (f : Z -> bool) (s : pystr) : pystr * pystr :=
  match s with
  | c :: s' => if f c then let '(a, b) := span f s' in (c :: a, b) else ([], s)
  | [] => ([], [])
  end.
Definition non_space (c : Z) : bool := negb (is_space c).

(** features.py 17: what [(enum )?] matches. Where it matches, leaving it out cannot lead to a match:
    the text would have to begin with both "enum " and "pos". *)
Definition take_enum (s : pystr) : pystr * pystr :=
  if starts (py "enum ") s then (py "enum ", skipn 5 s) else ([], s).

(** features.py 17: what the last group of the expression, with the end of line, captures of the rest of the line. [.] matches every character
    but a newline; [$] matches at the end or before a newline at the end. *)
Definition take_value (s : pystr) : option pystr :=
  match s with
  | c :: _ =>
      if non_space c then
        match span (fun c => negb (c =? 10)) s with
        | (v, []) => Some v
        | (v, [_]) => Some v
        | _ => None
        end
      else None
  | [] => None
  end.

(** features.py 17: the regular expression: white space, "enum " or not, "pos", spaces, a word, one
    space, a word, spaces, and a text that begins with no white space, up to the end of the line.
    The classes s and S are [str.isspace] and its negation. Every part takes as many characters as it can:
    as no character that follows a part could be one of the part's, a shorter match of the part
    cannot lead to a match of the whole. The result is indent, enum, L, R and value. *)
Definition match_pos (code : pystr) : option (pystr * pystr * pystr * pystr * pystr) :=
  let '(indent, s) := span is_space code in
  let '(enum, s) := take_enum s in
  if starts (py "pos") s then
    match span (Z.eqb 32) (skipn 3 s) with
    | ([], _) => None
    | (_, s) =>
        match span non_space s with
        | ([], _) => None
        | (L, 32 :: s) =>
            match span non_space s with
            | ([], _) => None
            | (R, s) =>
                match span (Z.eqb 32) s with
                | ([], _) => None
                | (_, s) => match take_value s with
                            | Some value => Some (indent, enum, L, R, value)
                            | None => None
                            end
                end
            end
        | _ => None
        end
    end
  else None.

(** features.py 11-15: [line.split("#", 1)]. The comment is None without a "#". *)
Definition split_comment (line : pystr) : pystr * option pystr :=
  match span (fun c => negb (c =? 35)) line with
  | (code, _ :: comment) => (code, Some comment)
  | (code, []) => (code, None)
  end.

(** features.py 19-22: [f"@public.kern1.{L[1:]}"] *)
Definition rename_class (side : pystr) (x : pystr) : pystr :=
  if starts (py "@_") x then py "@public.kern" ++ side ++ py "." ++ skipn 1 x else x.

(** features.py 11-30: one line. [if comment:] is false for an empty comment. *)
Definition rename_line (line : pystr) : pystr :=
  let '(code, comment) := split_comment line in
  match match_pos code with
  | Some (indent, enum, L, R, value) =>
      let code := indent ++ enum ++ py "pos" ++ [32] ++ rename_class (py "1") L ++ [32] ++
                  rename_class (py "2") R ++ [32] ++ value in
      match comment with
      | None | Some [] => code
      | Some c => code ++ [35] ++ c
      end
  | None => line
  end.

(** features.py 4-32 [rename_kern_classes_in_feature_code] *)
Definition rename_kern_classes (data : list pystr) : list pystr := map rename_line data.

(** builder.py 214-216 [set_feature_code] *)
Definition set_feature_code (data : list pystr) : pystr := join_nl (rename_kern_classes data).

(** [' '.join(glyphs)] *)
Fixpoint join_sp (l : list pystr) : pystr :=
  match l with
  | [] => []
  | [g] => g
  | g :: l' => g ++ [32] ++ join_sp l'
  end.

(** builder.py 849-858: the conditions under which a group is not written to the feature code *)
Definition skip_group (add_kerning move : bool) (name : pystr) : bool :=
  (starts (py "public.kern") name && negb add_kerning) || starts (py ".") name
  || (negb (starts (py "public.kern") name) && negb move).

(** builder.py 848-861: the loop over the groups; the text and the names of the moved groups *)
Fixpoint classes_to_features (add_kerning move : bool) (gs : groups) (text : pystr)
  (moved : list pystr) : pystr * list pystr :=
  match gs with
  | [] => (text, moved)
  | (name, glyphs) :: gs' =>
      if skip_group add_kerning move name then classes_to_features add_kerning move gs' text moved
      else classes_to_features add_kerning move gs'
             (text ++ py "@" ++ name ++ py " = [" ++ join_sp glyphs ++ py "];" ++ [10])
             (moved ++ [name])
  end.

(** builder.py 863-869: [del self.ufo_groups[name]]; a missing name is only logged *)
Definition remove_groups (moved : list pystr) (gs : groups) : groups :=
  fold_left (fun gs name => adel str_eqb name gs) moved gs.

(** What builder.py 825-873 [get_ufo_masters] prepares for all masters: the kerning, the groups and
    the feature code. [features_code] is the text of [set_feature_code], "" without features. *)
Record ufo_shared := mkShared {
  us_kerning : ufo_kerning;
  us_groups : groups;
  us_features : pystr }.
Definition export_shared (gs : groups) (flags : list (pystr * list Z)) (order : list pystr)
  (minimal add_kerning move : bool) (kerning : mm_kerning) (features_code : pystr) : res ufo_shared :=
  rthen (transform_groups gs flags order minimal) (fun st =>
    rmap (fun k =>
      let '(text, moved) := classes_to_features add_kerning move (tg_groups st) [] [] in
      mkShared k
        (if move then remove_groups moved (uk_groups k) else uk_groups k)
        (match features_code with [] => text | _ => text ++ [10; 10] ++ features_code end))
    (new_ufo_kerning order (tg_groups st) kerning (tg_keys st))).
