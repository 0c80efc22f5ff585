(** Python notions used by the entry codecs: string literals, [str(int)], [%06x], [try], loops,
    [struct] doubles. Nothing here models a function of vfbLib except where cited. *)
From Coq Require Import String Ascii.
From Verif Require Import Base.
Local Open Scope list_scope.
Open Scope rd_scope.

(** a Python string literal (ASCII only) *)
Definition py (s : string) : pystr :=
  map (fun c => Z.of_nat (nat_of_ascii c)) (list_ascii_of_string s).
Arguments py s%string_scope.

(** [str(n)] for an integer *)
Fixpoint dec_digits (fuel : nat) (n : Z) : pystr :=
  match fuel with
  | O => []
  | S f => if n <? 10 then [48 + n] else dec_digits f (n / 10) ++ [48 + n mod 10]
  end.
Definition dec_nat (n : Z) : pystr := dec_digits (S (Z.to_nat (Z.log2 n))) n.
Definition dec_str (n : Z) : pystr := if n <? 0 then 45 :: dec_nat (- n) else dec_nat n.

(** ["%06x" % n] for [n >= 0] *)
Definition hexc (n : Z) : Z := if n <? 10 then 48 + n else 87 + n.
Fixpoint hex_digits (fuel : nat) (n : Z) : pystr :=
  match fuel with
  | O => []
  | S f => if n <? 16 then [hexc n] else hex_digits f (n / 16) ++ [hexc (n mod 16)]
  end.
Definition hex_nat (n : Z) : pystr := hex_digits (S (Z.to_nat (Z.log2 n))) n.
Definition hex06 (n : Z) : pystr :=
  repeat 48 (6 - length (hex_nat n))%nat ++ hex_nat n.

(** [int(s, 16)]. Simplification: the prefix, sign, underscore and white space that Python also
    accepts are rejected with [ValueError] here. *)
Definition hexd (c : Z) : option Z :=
  if in_range 48 58 c then Some (c - 48)
  else if in_range 97 103 c then Some (c - 87)
  else if in_range 65 71 c then Some (c - 55)
  else None.
Fixpoint int16_from (acc : Z) (s : pystr) : res Z :=
  match s with
  | [] => Ok acc
  | c :: s' => match hexd c with
               | Some d => int16_from (16 * acc + d) s'
               | None => Err ValueError
               end
  end.
Definition int_base16 (s : pystr) : res Z :=
  match s with [] => Err ValueError | _ => int16_from 0 s end.

(** [s[a:b]] and [s[a:]] for non-negative bounds *)
Definition slice {A} (a b : nat) (s : list A) : list A := firstn (b - a) (skipn a s).
Definition slice_from {A} (a : nat) (s : list A) : list A := skipn a s.

(** [try: r except E as e: h e], where [h] re-raises what it does not catch *)
Definition rtry {A} (r : rd A) (h : exn -> rd A) : rd A :=
  fun s => match r s with
           | ROk a s' => ROk a s'
           | RErr e s' => h e s'
           end.
Definition on_eof {A} (h : rd A) (e : exn) : rd A :=
  match e with EOFError => h | _ => rraise e end.

(** [while True: body]. The body returns the variables for the next turn or the value the loop
    is left with. One more turn than there are bytes is enough for every loop that reads at least
    one byte per turn; a loop that uses up its turns without that gets [Diverge]. *)
Fixpoint rwhile {St A} (fuel : nat) (body : St -> rd (St + A)) (st : St) : rd A :=
  match fuel with
  | O => rraise Diverge
  | S f => x <- body st ;;
           match x with
           | inl st' => rwhile f body st'
           | inr a => ret a
           end
  end.
Definition rloop {St A} (body : St -> rd (St + A)) (st : St) : rd A :=
  fun s => rwhile (S (length s)) body st s.

(** Loops over the elements of a list that read from the stream *)
Fixpoint rmapM {A B} (f : A -> rd B) (l : list A) : rd (list B) :=
  match l with
  | [] => ret []
  | x :: l' => y <- f x ;; ys <- rmapM f l' ;; ret (y :: ys)
  end.
Fixpoint rfoldM {A St} (f : St -> A -> rd St) (st : St) (l : list A) : rd St :=
  match l with
  | [] => ret st
  | x :: l' => st' <- f st x ;; rfoldM f st' l'
  end.
(** [for _ in range(n)] that updates variables *)
Fixpoint rtimes {St} (n : nat) (f : St -> rd St) (st : St) : rd St :=
  match n with
  | O => ret st
  | S n' => st' <- f st ;; rtimes n' f st'
  end.

Definition rassert (b : bool) : rd unit := if b then ret tt else rraise AssertionError.
Definition wassert (b : bool) : wr := if b then wnil else Err AssertionError.
(** a computation whose value the writer goes on with *)
Definition wlet {A} (x : res A) (k : A -> wr) : wr :=
  match x with Ok a => k a | Err e => Err e end.

(** A double is its 64 bit pattern (a number below [2^64]); what [struct.pack]/[unpack] with
    format [d] do is copy it, little endian on every platform FontLab runs on. Simplification: the
    model accepts floats only, where Python's [pack("d", v)] also converts integers. *)
Fixpoint chunks {A} (n : nat) (size : nat) (b : list A) : list (list A) :=
  match n with
  | O => []
  | S n' => firstn size b :: chunks n' size (skipn size b)
  end.
(** parsers/base.py 48-59 [read_doubles]: [unpack] wants exactly the bytes it asked for *)
Definition read_doubles (n : Z) : rd (list Z) :=
  b <- read_bytes (n * 8) ;;
  if Z.of_nat (length b) =? n * 8
  then ret (map le_dec (chunks (Z.to_nat n) 8 b)) else rraise StructError.
(** parsers/base.py 39-46 [read_double] *)
Definition read_double : rd Z :=
  b <- read_bytes 8 ;;
  if Z.of_nat (length b) =? 8 then ret (le_dec b) else rraise StructError.
(** compilers/base.py 43-50 [write_double]. A 64 bit pattern outside the range cannot occur; the
    model raises [StructError] for it. *)
Definition write_double (v : Z) : wr := pack_le_u 8 v.
(** compilers/base.py 52-60 [write_doubles] *)
Definition write_doubles (vs : list Z) : wr := wlist write_double vs.

(** [str | None] arguments: compilers/base.py 99-100, 114-115 *)
Definition or_empty (s : option pystr) : pystr := match s with Some x => x | None => [] end.
