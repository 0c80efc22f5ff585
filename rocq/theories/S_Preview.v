(** What the preview of a bitmap shows (C106), independent of the model. *)
From Verif Require Import Base.

(** a pixel of a row: eight of them in a byte, the first one is the highest bit *)
Definition pixel (row : bytes) (j : nat) : bool :=
  Z.testbit (nth (j / 8) row 0) (7 - Z.of_nat (j mod 8)).
(** a set pixel is shown as two block characters, another one as a space and a thin line *)
Definition shown (b : bool) : pystr := if b then [0x2588; 0x2589] else [0x20; 0x2595].
(** the line of a row in a bitmap that is [w] pixels wide: the pixels from left to right, those
    beyond the width are left out *)
Definition shows (w : Z) (row : bytes) (line : pystr) : Prop :=
  let columns := Nat.min (Z.to_nat w) (8 * length row) in
  length line = (2 * columns)%nat /\
  forall j, (j < columns)%nat -> firstn 2 (skipn (2 * j) line) = shown (pixel row j).
(** Windows bitmaps are stored inverted *)
Definition stored_pixels (windows : bool) (px : bytes) : bytes :=
  if windows then map (fun b => 255 - b) px else px.
