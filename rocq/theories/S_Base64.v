(** Specification of base64 (RFC 4648, section 4). *)
From Coq Require Import String.
From Verif Require Import Base M_Py.
Local Open Scope list_scope.
Local Open Scope Z_scope.

Definition alphabet : pystr := py "ABCDEFGHIJKLMNOPQRSTUVWXYZabcdefghijklmnopqrstuvwxyz0123456789+/".
(** the [n] low bits of [x], the highest first *)
Fixpoint bits (n : nat) (x : Z) : list bool :=
  match n with
  | O => []
  | S k => Z.testbit x (Z.of_nat k) :: bits k x
  end.
(** [b] encodes [data]: its digits have six bits each, together they are the bits of the data and less than one digit
    of zeros; "=" fills it up to a multiple of four characters. *)
Definition base64 (data b : bytes) : Prop :=
  exists digits zeros fill,
    Forall (fun d => 0 <= d < 64) digits /\
    flat_map (bits 6) digits = flat_map (bits 8) data ++ repeat false zeros /\ (zeros < 6)%nat /\
    b = map (fun d => nth (Z.to_nat d) alphabet 0) digits ++ repeat 61 fill /\ (fill < 4)%nat /\
    (exists k, List.length b = 4 * k)%nat.
