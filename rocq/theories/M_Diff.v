(** Model of vfbdiff: diff.py 11-75, without [--html]. *)
From Coq Require Import String.
From Verif Require Import Base M_Stream M_Py M_Glyph M_Container M_Table M_Json.
Local Open Scope list_scope.

(** ** [OPT_SORT_KEYS] of orjson: the members of each dict are sorted by the bytes of their keys, which for UTF-8 is
    the order of code points *)
Fixpoint key_le (a b : pystr) : bool :=
  match a, b with
  | [], _ => true
  | _ :: _, [] => false
  | c :: a, d :: b => if c <? d then true else if d <? c then false else key_le a b
  end.
Fixpoint insert_key {A} (p : pystr * A) (l : list (pystr * A)) : list (pystr * A) :=
  match l with
  | [] => [p]
  | q :: l' => if key_le (fst p) (fst q) then p :: l else q :: insert_key p l'
  end.
Definition sort_members {A} (l : list (pystr * A)) : list (pystr * A) := fold_right insert_key [] l.
Fixpoint sort_keys (v : pyval) : pyval :=
  match v with
  | PList l => PList (map sort_keys l)
  | PDict d => PDict (sort_members (map (fun p => (fst p, sort_keys (snd p))) d))
  | _ => v
  end.

(** ** [str.splitlines] *)
Definition line_end (c : Z) : bool :=
  ((10 <=? c) && (c <=? 13)) || ((28 <=? c) && (c <=? 30)) || (c =? 0x85) || (c =? 0x2028) || (c =? 0x2029).
(** [line] is what has been read of the line, [some] whether there is a line that is not yet ended *)
Fixpoint split_from (some : bool) (line : pystr) (s : pystr) : list pystr :=
  match s with
  | [] => if some then [rev line] else []
  | 13 :: 10 :: s' => rev line :: split_from false [] s'
  | c :: s' => if line_end c then rev line :: split_from false [] s' else split_from true (c :: line) s'
  end.
Definition splitlines (s : pystr) : list pystr := split_from false [] s.

(** ** diff.py 37-42: the constructor reads the file (vfb/vfb.py 107-108), and [read] reads it again *)
Definition diff_read (o : oracles) (fuel : nat) (file : bytes) : vfb value * res unit :=
  match vfb_read_bytes (table o) fuel (new_vfb [] false false) file with
  | (v, RErr x _) => (v, Err x)
  | (v, ROk _ _) =>
      match vfb_read_bytes (table o) fuel v file with
      | (v, RErr x _) => (v, Err x)
      | (v, ROk _ _) => vfb_decompile (table o) v
      end
  end.
(** diff.py 43-58: the lines of a dict. [decode] gives the text back that orjson encoded. *)
Definition diff_lines (number : fval -> option pystr) (t : pyval) : res (list pystr) :=
  if dumpable (sort_keys t) then Ok (splitlines (dump number 0 (sort_keys t))) else Err TypeError.
(** diff.py 72-75: what is printed. [unified_diff] is that of the library difflib. *)
Definition diffvfb (number : fval -> option pystr) (unified_diff : list pystr -> list pystr -> list pystr) (t t' : pyval)
  : res (list pystr) :=
  rthen (diff_lines number t) (fun a => rmap (unified_diff a) (diff_lines number t')).
