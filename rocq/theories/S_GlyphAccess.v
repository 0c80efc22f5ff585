(** Specification: which glyphs and entries belong together. *)
From Coq Require Import String.
From Verif Require Import Base M_Py M_Glyph M_Container M_Table.
Local Open Scope list_scope.

(** the entry at a position has the id *)
Definition has_id (es : list (entry value)) (k : nat) (i : Z) : Prop :=
  exists e, nth_error es k = Some e /\ e_id e = Some i.
(** the positions of the entries with an id, in order *)
Fixpoint positions (i : Z) (k : nat) (es : list (entry value)) : list nat :=
  match es with
  | [] => []
  | e :: es => (match e_id e with Some j => if j =? i then [k] else [] | None => [] end) ++ positions i (S k) es
  end.
(** the entry at [k] is the last one with the id [i] between the glyph at [g] and the next glyph *)
Definition belongs (es : list (entry value)) (g : nat) (i : Z) (k : nat) : Prop :=
  (g < k)%nat /\ has_id es k i /\ (forall j, (g < j <= k)%nat -> ~ has_id es j 2001) /\
  forall j, (k < j)%nat -> has_id es j i -> exists l, (k < l < j)%nat /\ has_id es l 2001.

(** a name and a number *)
Definition numbered (name : pystr) (i : Z) : pystr := name ++ py "#" ++ dec_str i.
(** the name, or the first free number from 1 on *)
Definition disambiguated (used : list pystr) (name key : pystr) : Prop :=
  (~ In name used /\ key = name) \/
  (In name used /\ exists i, 1 <= i /\ key = numbered name i /\ ~ In key used /\
     forall j, 1 <= j < i -> In (numbered name j) used).
(** the names of [n] glyphs without a name *)
Definition nameless (n : nat) : list pystr :=
  map (fun k => match k with O => [] | _ => py "#" ++ dec_str (Z.of_nat k) end) (seq 0 n).
(** a glyph without anything *)
Definition blank (masters : Z) : glyph :=
  Glyph (Some []) (Some masters) (Some []) (Some (repeat (0, 0) (Z.to_nat masters))) None None None None None None.
