(** Common ground of the model: Python values, exceptions, byte streams.

    Nothing in this file models a function of vfbLib; it fixes how Python's
    [int], [bytes], [str], exceptions, [BytesIO.read], [range] and
    [int.from_bytes]/[int.to_bytes]/[struct.pack] are represented. *)
From Coq Require Export ZArith List Bool Lia.
Export ListNotations.
Open Scope Z_scope.

(** A Python [bytes] object is a list of integers 0..255; a Python [str] is a
    list of code points. *)
Notation bytes := (list Z).
Notation pystr := (list Z).

Definition is_byte (b : Z) : Prop := 0 <= b < 256.
Definition bytes_ok (s : bytes) : Prop := Forall is_byte s.

(** The Python exceptions that the modelled code can raise. [Diverge] is not an
    exception: it is the value of a fuelled loop whose fuel ran out. *)
Inductive exn : Type :=
| EOFError | ValueError | KeyError | IndexError | OverflowError | StructError
| AssertionError | AttributeError | TypeError | RuntimeError
| UnicodeDecodeError | UnicodeEncodeError | UnboundLocalError
| NotImplementedError | ZeroDivisionError
| Diverge.

Inductive res (A : Type) : Type :=
| Ok (a : A)
| Err (e : exn).
Arguments Ok {A} a.
Arguments Err {A} e.

Definition rmap {A B} (f : A -> B) (x : res A) : res B :=
  match x with Ok a => Ok (f a) | Err e => Err e end.

Definition rthen {A B} (x : res A) (k : A -> res B) : res B :=
  match x with Ok a => k a | Err e => Err e end.

(** ** Readers.

    A method that reads from [self.stream] becomes a function from the unread
    bytes to a result and the bytes that are still unread afterwards; the latter
    also when it raises, because a caller may catch the exception. *)
Inductive out (A : Type) : Type :=
| ROk (a : A) (rest : bytes)
| RErr (e : exn) (rest : bytes).
Arguments ROk {A} a rest.
Arguments RErr {A} e rest.

Definition rd (A : Type) := bytes -> out A.

Definition ret {A} (a : A) : rd A := fun s => ROk a s.
Definition rraise {A} (e : exn) : rd A := fun s => RErr e s.
Definition rbind {A B} (m : rd A) (k : A -> rd B) : rd B :=
  fun s => match m s with
           | ROk a r => k a r
           | RErr e r => RErr e r
           end.
Definition rlift {A} (x : res A) : rd A :=
  fun s => match x with Ok a => ROk a s | Err e => RErr e s end.

Declare Scope rd_scope.
Notation "x <- m ;; k" := (rbind m (fun x => k))
  (at level 61, m at next level, right associativity) : rd_scope.
Notation "m ;;; k" := (rbind m (fun _ => k))
  (at level 61, right associativity) : rd_scope.

(** [stream.read(n)]: up to [n] bytes, all of them if [n] is negative. *)
Definition take (n : Z) (s : bytes) : bytes :=
  if n <? 0 then s else firstn (Z.to_nat n) s.
Definition drop (n : Z) (s : bytes) : bytes :=
  if n <? 0 then [] else skipn (Z.to_nat n) s.
Definition read_bytes (n : Z) : rd bytes := fun s => ROk (take n s) (drop n s).
(** [stream.read()] *)
Definition read_all : rd bytes := fun s => ROk s [].

(** [for _ in range(n)] collecting one item per turn ([range] of a negative number
    is empty). *)
Fixpoint rrepeat {A} (n : nat) (r : rd A) : rd (list A) :=
  match n with
  | O => ret []
  | S n' => rbind r (fun a => rbind (rrepeat n' r) (fun l => ret (a :: l)))
  end.
Definition rrange {A} (n : Z) (r : rd A) : rd (list A) := rrepeat (Z.to_nat n) r.

(** [BaseParser.parse] lines 207-218 of parsers/base.py: run the parser on the data of the entry
    and raise [AssertionError] if it left bytes behind. *)
Definition run_parser {A} (r : rd A) (data : bytes) : res A :=
  match r data with
  | ROk a [] => Ok a
  | ROk _ (_ :: _) => Err AssertionError
  | RErr e _ => Err e
  end.

(** ** Writers.

    A method that writes to [self.stream] becomes the bytes it appends or the
    exception it raises. [BaseCompiler.compile] throws the partial stream away
    when an exception is raised, so the bytes written before it do not matter. *)
Definition wr := res bytes.

Definition wseq (a b : wr) : wr :=
  match a with
  | Err e => Err e
  | Ok x => match b with Err e => Err e | Ok y => Ok (x ++ y) end
  end.
Infix "+++" := wseq (right associativity, at level 60).

Definition wnil : wr := Ok [].

Fixpoint wlist {A} (w : A -> wr) (l : list A) : wr :=
  match l with
  | [] => wnil
  | x :: l' => w x +++ wlist w l'
  end.

(** ** Integers as bytes *)

(** [int.from_bytes(b, "little")] and ["big"], unsigned *)
Fixpoint le_dec (b : bytes) : Z :=
  match b with
  | [] => 0
  | x :: b' => x + 256 * le_dec b'
  end.
Definition be_dec (b : bytes) : Z := le_dec (rev b).

(** two's complement reading of an unsigned number of [n] bytes *)
Definition to_signed (n : nat) (v : Z) : Z :=
  match n with
  | O => v
  | _ => if 2 ^ (8 * Z.of_nat n - 1) <=? v then v - 2 ^ (8 * Z.of_nat n) else v
  end.
Definition le_dec_s (b : bytes) : Z := to_signed (length b) (le_dec b).
Definition be_dec_s (b : bytes) : Z := to_signed (length b) (be_dec b).

(** the [n] low bytes of [v], little endian *)
Fixpoint le_enc (n : nat) (v : Z) : bytes :=
  match n with
  | O => []
  | S n' => v mod 256 :: le_enc n' (v / 256)
  end.
Definition be_enc (n : nat) (v : Z) : bytes := rev (le_enc n v).

Definition in_range (lo hi v : Z) : bool := (lo <=? v) && (v <? hi).
Definition urange (n : nat) (v : Z) : bool := in_range 0 (2 ^ (8 * Z.of_nat n)) v.
Definition srange (n : nat) (v : Z) : bool :=
  in_range (- 2 ^ (8 * Z.of_nat n - 1)) (2 ^ (8 * Z.of_nat n - 1)) v.

(** [value.to_bytes(n, "little", signed=False/True)] *)
Definition to_bytes_u (n : nat) (v : Z) : wr :=
  if urange n v then Ok (le_enc n v) else Err OverflowError.
Definition to_bytes_s (n : nat) (v : Z) : wr :=
  if srange n v then Ok (le_enc n v) else Err OverflowError.

(** [struct.pack] with [>B], [>H], [>I], [>i], [<H], [<I]: [struct.error] when out of range. *)
Definition pack_be_u (n : nat) (v : Z) : wr :=
  if urange n v then Ok (be_enc n v) else Err StructError.
Definition pack_be_s (n : nat) (v : Z) : wr :=
  if srange n v then Ok (be_enc n v) else Err StructError.
Definition pack_le_u (n : nat) (v : Z) : wr :=
  if urange n v then Ok (le_enc n v) else Err StructError.
Definition pack_le_s (n : nat) (v : Z) : wr :=
  if srange n v then Ok (le_enc n v) else Err StructError.

(** boolean equality of strings (Python [==] on [str]) *)
Fixpoint str_eqb (a b : pystr) : bool :=
  match a, b with
  | [], [] => true
  | x :: a', y :: b' => (x =? y) && str_eqb a' b'
  | _, _ => false
  end.

(** Python's [dict.get]/[in]/[d[k] = v] on insertion-ordered association lists *)
Section Assoc.
  Context {K V : Type} (eqb : K -> K -> bool).
  Fixpoint aget (k : K) (d : list (K * V)) : option V :=
    match d with
    | [] => None
    | (k', v) :: d' => if eqb k k' then Some v else aget k d'
    end.
  Fixpoint aset (k : K) (v : V) (d : list (K * V)) : list (K * V) :=
    match d with
    | [] => [(k, v)]
    | (k', v') :: d' => if eqb k k' then (k', v) :: d' else (k', v') :: aset k v d'
    end.
  Fixpoint adel (k : K) (d : list (K * V)) : list (K * V) :=
    match d with
    | [] => []
    | (k', v') :: d' => if eqb k k' then d' else (k', v') :: adel k d'
    end.
End Assoc.

(** Python's [d[k]] *)
Definition aget_res {K V} (eqb : K -> K -> bool) (k : K) (d : list (K * V)) : res V :=
  match aget eqb k d with Some v => Ok v | None => Err KeyError end.

(** Python list indexing [l[i]], negative indices count from the end *)
Definition py_index {A} (l : list A) (i : Z) : res A :=
  let n := Z.of_nat (length l) in
  let j := if i <? 0 then i + n else i in
  if (j <? 0) || (n <=? j) then Err IndexError
  else match nth_error l (Z.to_nat j) with
       | Some a => Ok a
       | None => Err IndexError
       end.
