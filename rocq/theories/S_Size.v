(** Specification: how large the data of an entry is once decompiled. *)
From Verif Require Import Base M_Glyph M_Options M_Container M_Table M_Json.

(** The number of values that a Python value is made of, and of the characters in its texts and in the keys of its
    dicts: what it takes to keep it in memory or to write it down. *)
Fixpoint size (v : pyval) : Z :=
  match v with
  | PNone | PBool _ | PInt _ | PFloat _ => 1
  | PStr s => 1 + Z.of_nat (length s)
  | PList l => 1 + (fix go l := match l with [] => 0 | x :: l' => size x + go l' end) l
  | PDict d => 1 + (fix go d := match d with [] => 0 | (k, x) :: d' => Z.of_nat (length k) + size x + go d' end) d
  end.

(** Data is stored per master, for as many masters as the entry or the font declares: if they are none, nothing is
    stored for what is declared. [stored c v] says that there is a master in each record of the data [v] of an entry of
    a font [c]. The data of a kerning pair is as long as the number of masters of the font, whatever the entry
    stores. What is said of bitmaps is never true. *)
Definition each {A} (l : list (list A)) : Prop := Forall (fun r => r <> []) l.
Definition stored_glyph (g : glyph) : Prop :=
  (forall n, g_num_masters g = Some n -> 1 <= n) /\
  (forall h, g_hints g = Some h -> each (mh_v h) /\ each (mh_h h)) /\
  (forall x, g_guides g = Some x -> each (gs_h x) /\ each (gs_v x)).
Definition stored (c : ctx) (v : value) : Prop :=
  match v with
  | DGlyph g => stored_glyph g
  | DGlobalMask m => 1 <= mo_num_masters m
  | DMask m => 1 <= mo_num_masters (mk_outlines m)
  | DAnchors l => each (map an_x l)
  | DGuides _ => 1 <= num_masters c
  | DKernPair _ => num_masters c <= 1000
  | DBackground _ | DBitmaps _ => False
  | _ => True
  end.

(** fontTools' disassembler writes no more than a line for a byte *)
Definition asm_in_proportion (o : oracles) : Prop :=
  forall b l, o_asm o b = Ok l -> size (pstrs l) <= 100 * Z.of_nat (length b) + 100.

(** An entry of type [i] of no more than 40 bytes can be made to decompile to data as large as one likes, up to what
    can be declared. *)
Definition amplifies (o : oracles) (i : Z) (c : ctx) : Prop :=
  forall k, 0 <= k < 2 ^ 30 -> exists b v t,
    Forall (fun x => 0 <= x < 256) b /\ (length b <= 40)%nat /\
    cd_parse (table o) i c b = Ok v /\ value_py v t /\ k <= size t.
