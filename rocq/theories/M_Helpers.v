(** Model of helpers.py. *)
From Verif Require Import Base.

(** helpers.py 13-21 [binaryToIntList]: the [while value] loop. [>>= 1] on Python integers is
    the floor division by two, also for negative ones. *)
Fixpoint binaryToIntList_loop (fuel : nat) (value counter : Z) : res (list Z) :=
  match fuel with
  | O => Err Diverge
  | S fuel' =>
      if value =? 0 then Ok []
      else
        match binaryToIntList_loop fuel' (Z.shiftr value 1) (counter + 1) with
        | Ok l => Ok (if Z.land value 1 =? 1 then counter :: l else l)
        | Err e => Err e
        end
  end.

(** helpers.py 13-21. The fuel is enough for every non-negative value
    ([P_Helpers.binaryToIntList_fuel_irrelevant]); for negative values no fuel is. *)
Definition binaryToIntList (value start : Z) : res (list Z) :=
  binaryToIntList_loop (S (S (Z.to_nat (Z.log2 value)))) value start.

(** helpers.py 24-28 [intListToBinary]. [2**bit] with a negative [bit] is a float in Python; the
    model raises [TypeError] at once (simplification: the code fails later, when the float is
    written). *)
Fixpoint intListToBinary_from (acc : Z) (bits : list Z) : res Z :=
  match bits with
  | [] => Ok acc
  | b :: bits' => if b <? 0 then Err TypeError else intListToBinary_from (acc + 2 ^ b) bits'
  end.
Definition intListToBinary (bits : list Z) : res Z := intListToBinary_from 0 bits.

(** helpers.py 35-36 [hexStr]: [bytes.hex], two lower case digits per byte *)
Definition hex_digit (n : Z) : Z := if n <? 10 then 48 + n else 87 + n.
Fixpoint hexStr (b : bytes) : pystr :=
  match b with
  | [] => []
  | x :: b' => hex_digit (x / 16) :: hex_digit (x mod 16) :: hexStr b'
  end.

(** helpers.py 31-32 [deHexStr]: [bytes.fromhex]; ASCII white space is skipped between bytes. *)
Definition hex_value (c : Z) : option Z :=
  if in_range 48 58 c then Some (c - 48)
  else if in_range 97 103 c then Some (c - 87)
  else if in_range 65 71 c then Some (c - 55)
  else None.
Definition ascii_space (c : Z) : bool := in_range 9 14 c || (c =? 32).
Fixpoint deHexStr (s : pystr) : res bytes :=
  match s with
  | [] => Ok []
  | c :: s' =>
      if ascii_space c then deHexStr s'
      else match s' with
           | [] => Err ValueError
           | d :: s'' =>
               match hex_value c, hex_value d with
               | Some h, Some l => rmap (cons (16 * h + l)) (deHexStr s'')
               | _, _ => Err ValueError
               end
           end
  end.
