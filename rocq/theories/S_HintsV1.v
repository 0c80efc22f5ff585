(** Specification of Adobe hinting data in XML (C94). *)
From Coq Require Import String.
From Verif Require Import Base M_Py M_PsHints M_HintsV1 S_PsHints.
Local Open Scope list_scope.

(** a stem: vertical or not, position and width; a hint set: the tag of its point and its stems *)
Notation v1_stem := (bool * (Z * Z))%type.
Notation v1_set := (pystr * list v1_stem)%type.
Definition has (attrib : list (pystr * pystr)) (k v : pystr) : Prop := aget str_eqb k attrib = Some v.
(** <hstem pos="..." width="..."/> *)
Inductive stem_element : element -> v1_stem -> Prop :=
| stem_elem : forall (v : bool) attrib pos width, has attrib (py "pos") (dec_str pos) -> has attrib (py "width") (dec_str width) ->
    stem_element (Elem (if v then py "vstem" else py "hstem") attrib []) (v, (pos, width)).
(** <hintset pointTag="...">stems</hintset> *)
Inductive set_element : element -> v1_set -> Prop :=
| set_elem : forall attrib tag children stems, has attrib (py "pointTag") tag -> Forall2 stem_element children stems ->
    set_element (Elem (py "hintset") attrib children) (tag, stems).
(** an element that has nothing to do with hint sets *)
Definition tags : list pystr := [py "hintSetList"; py "hintset"; py "hstem"; py "vstem"].
Inductive foreign : element -> Prop :=
| foreign_elem : forall tag attrib children, ~ In tag tags -> Forall foreign children -> foreign (Elem tag attrib children).
(** hint sets, with other elements between them *)
Inductive sets_in : list element -> list v1_set -> Prop :=
| no_sets : sets_in [] []
| a_set : forall e s es sets, set_element e s -> sets_in es sets -> sets_in (e :: es) (s :: sets)
| an_other : forall e es sets, foreign e -> sets_in es sets -> sets_in (e :: es) sets.
(** a document with one list of hint sets *)
Inductive document : element -> list v1_set -> Prop :=
| the_list : forall attrib children sets, sets_in children sets -> document (Elem (py "hintSetList") attrib children) sets
| around : forall tag attrib before e after sets, ~ In tag tags -> Forall foreign before -> Forall foreign after ->
    document e sets -> document (Elem tag attrib (before ++ e :: after)) sets.
(** what becomes of a hint set: the same tag, and for each stem the text of the same stem *)
Definition same_set (s : v1_set) (u : hint_set) : Prop :=
  hs_tag u = fst s /\ Forall2 (fun st text => exists h, same_stem (fst st) (snd st) h /\ text = stem_text h) (snd s) (hs_stems u).
