(** Specification of hex strings. *)
From Coq Require Import String.
From Verif Require Import Base M_Py.
Local Open Scope list_scope.

(** the character is the hex digit of the number, in lower or upper case *)
Definition hex_digit_of (c : Z) (n : nat) : Prop :=
  nth_error (py "0123456789abcdef") n = Some c \/ nth_error (py "0123456789ABCDEF") n = Some c.
(** tab, line feed, vertical tab, form feed, carriage return, space *)
Definition white : list Z := [9; 10; 11; 12; 13; 32].
(** the string says the bytes: two digits for each, white space between bytes *)
Inductive hex_data : pystr -> bytes -> Prop :=
| hex_nil : hex_data [] []
| hex_white : forall c s b, In c white -> hex_data s b -> hex_data (c :: s) b
| hex_byte : forall c d h l s b, hex_digit_of c h -> hex_digit_of d l -> hex_data s b ->
    hex_data (c :: d :: s) (16 * Z.of_nat h + Z.of_nat l :: b).
