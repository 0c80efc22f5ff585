(** Specification of bit lists. *)
From Coq Require Export Sorting.Sorted Sorting.Permutation.
From Verif Require Import Base.

(** [l] is the strictly increasing list of the positions, counted from [start], of the bits that
    are set in [v] *)
Definition is_bit_list (v start : Z) (l : list Z) : Prop :=
  StronglySorted Z.lt l /\
  forall b, In b l <-> start <= b /\ Z.testbit v (b - start) = true.

(** the sum of the powers of two *)
Definition sum_pow2 (l : list Z) : Z := fold_right (fun b acc => 2 ^ b + acc) 0 l.
