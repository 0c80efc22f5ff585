(** Specification vocabulary of the bitmap properties C22-C24, independent of the model. *)
From Verif Require Import Base S_Entry.

(** The run-length format: a specifier [0..127] is followed by one more literal bytes than it
    says; a negative specifier [-n] (as a byte: [256 - n]) by one byte that stands for [n + 1]. *)
Inductive rle : bytes -> bytes -> Prop :=
| rle_end : rle [] []
| rle_literal : forall n lit data px, 0 <= n <= 127 -> Z.of_nat (length lit) = n + 1 ->
    rle data px -> rle (n :: lit ++ data) (lit ++ px)
| rle_repeat : forall v n b data px, v = 256 - n -> 1 <= n <= 128 ->
    rle data px -> rle (v :: b :: data) (repeat b (Z.to_nat (n + 1)) ++ px).

Definition pixels (rows : list bytes) : Prop :=
  Forall (Forall uint8) rows /\ Z.of_nat (length (concat rows)) < 2 ^ 30.

(** Rows are padded to whole 16 bit words. *)
Definition row_bytes (w n : Z) : Prop := 16 * (n / 2 - 1) < w <= 16 * (n / 2) /\ n mod 2 = 0.
(** All rows have [n] bytes, except that the last one may be shorter. *)
Definition in_rows (n : Z) (rows : list bytes) : Prop :=
  exists full last, rows = full ++ last /\
    Forall (fun r => Z.of_nat (length r) = n) full /\
    (last = [] \/ exists r, last = [r] /\ 0 < Z.of_nat (length r) < n).
