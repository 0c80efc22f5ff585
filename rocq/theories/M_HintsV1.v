(** Model of the update of Adobe hinting data: ufo/pshints.py 280-321 [update_adobe_hinting]. *)
From Coq Require Import String.
From Verif Require Import Base M_Py M_Text M_PsHints M_Tth.
Local Open Scope list_scope.

(** An XML element: tag, attributes and child elements. Text is left out, the code does not look at it. *)
Inductive element := Elem (tag : pystr) (attrib : list (pystr * pystr)) (children : list element).
(** [root.iter()]: the element and everything in it, in document order, as tags and attributes *)
Fixpoint iter (e : element) : list (pystr * list (pystr * pystr)) :=
  match e with Elem tag attrib children => (tag, attrib) :: flat_map iter children end.

(** Python's [int(s)]: blanks around the number, a sign, digits with single underscores between them. Only ASCII is
    modelled. *)
Definition is_blank (c : Z) : bool := (c =? 32) || ((9 <=? c) && (c <=? 13)) || ((28 <=? c) && (c <=? 31)).
Fixpoint lstrip (s : pystr) : pystr := match s with c :: s' => if is_blank c then lstrip s' else s | [] => [] end.
Definition int_strip (s : pystr) : pystr := rev (lstrip (rev (lstrip s))).
(** [digit] says whether a digit comes before *)
Fixpoint int_digits (s : pystr) (digit : bool) (n : Z) : res Z :=
  match s with
  | [] => if digit then Ok n else Err ValueError
  | c :: s => if (48 <=? c) && (c <=? 57) then int_digits s true (n * 10 + (c - 48))
              else if (c =? 95) && digit then match s with [] => Err ValueError | _ => int_digits s false n end
              else Err ValueError
  end.
Definition int_text (s : pystr) : res Z :=
  match int_strip s with
  | 45 :: s => rmap Z.opp (int_digits s false 0)
  | 43 :: s => int_digits s false 0
  | s => int_digits s false 0
  end.

(** [UfoHintSet]: point tag and stems *)
Record hint_set := HintSet { hs_tag : pystr; hs_stems : list pystr }.
(** [el.attrib[k]] *)
Definition attr (k : pystr) (attrib : list (pystr * pystr)) : res pystr :=
  match aget str_eqb k attrib with Some v => Ok v | None => Err KeyError end.
(** lines 295-313: one element. The state is [hintset] and [hintSetList]. A hint set has keys, so that [if hintset]
    (line 299) asks whether there is one. *)
Definition v1_step (el : pystr * list (pystr * pystr)) (st : option hint_set * list hint_set)
  : res (option hint_set * list hint_set) :=
  let '(tag, attrib) := el in
  let '(cur, done) := st in
  if str_eqb tag (py "hintSetList") then Ok (cur, [])
  else if str_eqb tag (py "hintset") then
    rmap (fun t => (Some (HintSet t []), match cur with Some s => done ++ [s] | None => done end)) (attr (py "pointTag") attrib)
  else if str_eqb tag (py "hstem") || str_eqb tag (py "vstem") then
    match cur with
    | None => Ok st
    | Some s =>
        rthen (rthen (attr (py "pos") attrib) int_text) (fun pos =>
        rthen (rthen (attr (py "width") attrib) int_text) (fun width =>
        let h := normalize_hint (Hint (str_eqb tag (py "vstem")) pos width) in
        Ok (Some (HintSet (hs_tag s) (hs_stems s ++ [hint_name h ++ py " " ++ dec_str (hi_pos h) ++ py " " ++ dec_str (hi_width h)])), done)))
    end
  else Ok st.
(** lines 292-321: the value of the key hintSetList, if the dict has it *)
Definition v1_sets (root : element) : res (option (list hint_set)) :=
  rmap (fun st => match (snd st ++ match fst st with Some s => [s] | None => [] end) with [] => None | l => Some l end)
       (res_fold (fun st el => v1_step el st) (None, []) (iter root)).

(** The data in the lib of a glyph: bytes, text, or anything else *)
Inductive v1_data (A : Type) := VBytes (b : bytes) | VText (s : pystr) | VOther (x : A).
Arguments VBytes {A}. Arguments VText {A}. Arguments VOther {A}.
Inductive v2_data (A : Type) := V2Sets (sets : option (list hint_set)) | V2Same (x : A).
Arguments V2Sets {A}. Arguments V2Same {A}.
(** lines 280-321. [utf8] and [fromstring] are Python's [bytes.decode] and [ElementTree.fromstring]. *)
Definition update_adobe_hinting {A} (utf8 : bytes -> res pystr) (fromstring : pystr -> res element) (d : v1_data A)
  : res (v2_data A) :=
  let text s := rthen (fromstring s) (fun root => rmap V2Sets (v1_sets root)) in
  match d with
  | VOther x => Ok (V2Same x)
  | VText s => text s
  | VBytes b => rthen (utf8 b) text
  end.
