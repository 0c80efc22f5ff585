(** Small specification for the stream layer, independent of the model. *)
From Verif Require Import Base.

(** the integers an encoded value can hold, per signedness: the long form holds a
    32-bit number, the short forms reach down to -1131 in both modes *)
Definition fits_value (signed : bool) (v : Z) : Prop :=
  if signed then -2147483648 <= v <= 2147483647 else -1131 <= v <= 4294967295.

(** [a] is a prefix of [b] *)
Definition prefix (a b : bytes) : Prop := exists c, b = a ++ c.

(** the six fixed width formats *)
Inductive width := I8 | I16 | I32 | U8 | U16 | U32.
Definition width_bytes (w : width) : nat :=
  match w with I8 | U8 => 1 | I16 | U16 => 2 | I32 | U32 => 4 end%nat.
Definition fits_width (w : width) (v : Z) : Prop :=
  match w with
  | I8 => -128 <= v <= 127
  | I16 => -32768 <= v <= 32767
  | I32 => -2147483648 <= v <= 2147483647
  | U8 => 0 <= v <= 255
  | U16 => 0 <= v <= 65535
  | U32 => 0 <= v <= 4294967295
  end.
