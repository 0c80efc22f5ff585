(** Python's [float]: binary64 numbers as Coq's [SpecFloat] has them (stdlib, computable, IEEE 754
    round to nearest even). Only what the entry codecs use: true division of an integer,
    multiplication by an integer, [int()] and [round()]. Nothing here models a function of vfbLib. *)
From Coq Require Import Floats.SpecFloat.
From Verif Require Import Base.

(** a Python float; NaN payloads are not distinguished *)
Notation pyfloat := spec_float.

(** [float(n)] for an integer; exact for all integers below 2^53, which is all the model uses *)
Definition float_of_int (n : Z) : pyfloat := binary_normalize 53 1024 n 0 false.
(** [n / d] for integers that are exactly representable: the correctly rounded quotient. Python
    defines the true division of integers as the correctly rounded quotient; for integers below 2^53
    this is the float division. *)
Definition int_div (n d : Z) : pyfloat := SFdiv 53 1024 (float_of_int n) (float_of_int d).
(** [x * n]: the integer is converted to a float first *)
Definition float_mul (x : pyfloat) (n : Z) : pyfloat := SFmul 53 1024 x (float_of_int n).

(** the integer quotient of a mantissa [m > 0] by [2 ^ k], rounded half to even *)
Definition half_even (m k : Z) : Z :=
  let q := m / 2 ^ k in
  let r := m mod 2 ^ k in
  if 2 * r <? 2 ^ k then q
  else if 2 ^ k <? 2 * r then q + 1
  else if Z.even q then q else q + 1.

Definition float_to_int (pick : Z -> Z -> Z) (x : pyfloat) : res Z :=
  match x with
  | S754_zero _ => Ok 0
  | S754_infinity _ => Err OverflowError
  | S754_nan => Err ValueError
  | S754_finite s m e =>
      let a := if 0 <=? e then Z.pos m * 2 ^ e else pick (Z.pos m) (- e) in
      Ok (if s then - a else a)
  end.
(** [round(x)] without a number of digits: to the nearest integer, half to even *)
Definition py_round (x : pyfloat) : res Z := float_to_int half_even x.
(** [int(x)]: towards zero *)
Definition py_int (x : pyfloat) : res Z := float_to_int (fun m k => m / 2 ^ k) x.

(** A number of a parsed or edited data structure: Python does not keep integers out of fields that
    are declared [float]. *)
Inductive pynum := NInt (n : Z) | NFloat (x : pyfloat).
(** [round(v * k)] and [int(k * v)] *)
Definition num_round_mul (v : pynum) (k : Z) : res Z :=
  match v with NInt n => Ok (n * k) | NFloat x => py_round (float_mul x k) end.
Definition num_int_mul (v : pynum) (k : Z) : res Z :=
  match v with NInt n => Ok (n * k) | NFloat x => py_int (float_mul x k) end.
