(** Model of the stream layer:
    parsers/value.py, compilers/value.py, StreamReader (parsers/base.py 28-174),
    StreamWriter (compilers/base.py 23-160). Text is in M_Text.v. *)
From Verif Require Import Base.
Open Scope rd_scope.

(** ** Readers of fixed width integers *)

(** parsers/base.py 61-70 [StreamReader.read_int8]; a short read is not an error. *)
Definition read_int8 : rd Z := b <- read_bytes 1 ;; ret (le_dec_s b).
(** parsers/base.py 72-81 [read_int16] *)
Definition read_int16 : rd Z := b <- read_bytes 2 ;; ret (le_dec_s b).
(** parsers/base.py 83-92 [read_int32] *)
Definition read_int32 : rd Z := b <- read_bytes 4 ;; ret (le_dec_s b).
(** parsers/base.py 130-139 [read_uint8] *)
Definition read_uint8 : rd Z := b <- read_bytes 1 ;; ret (le_dec b).
(** parsers/base.py 141-150 [read_uint16] *)
Definition read_uint16 : rd Z := b <- read_bytes 2 ;; ret (le_dec b).
(** parsers/base.py 152-161 [read_uint32] *)
Definition read_uint32 : rd Z := b <- read_bytes 4 ;; ret (le_dec b).

(** ** Encoded values *)

(** parsers/value.py 9-62 [read_value(stream, signed)] *)
Definition read_value_gen (signed : bool) : rd Z :=
  b <- read_bytes 1 ;;
  let val := le_dec b in
  if val =? 0 then rraise EOFError
  else if val <? 0x20 then rraise ValueError
  else if val <? 0xF7 then ret (val - 0x8B)
  else if val <=? 0xFA then
    b2 <- read_bytes 1 ;; ret (0x100 * val - 0xF694 + le_dec b2)
  else if val <=? 0xFE then
    b2 <- read_bytes 1 ;; ret (- 0x100 * val + 0xFA94 - le_dec b2)
  else if val =? 0xFF then
    b4 <- read_bytes 4 ;; ret (if signed then be_dec_s b4 else be_dec b4)
  else rraise ValueError.

(** parsers/base.py 163-174 [StreamReader.read_value] with the default [signed=True]
    and with [signed=False] *)
Definition read_value : rd Z := read_value_gen true.
Definition read_uvalue : rd Z := read_value_gen false.

(** ** Writers *)

(** compilers/base.py 62-87, 120-145 *)
Definition write_int8 (v : Z) : wr := to_bytes_s 1 v.
Definition write_int16 (v : Z) : wr := to_bytes_s 2 v.
Definition write_int32 (v : Z) : wr := to_bytes_s 4 v.
Definition write_uint8 (v : Z) : wr := to_bytes_u 1 v.
Definition write_uint16 (v : Z) : wr := to_bytes_u 2 v.
Definition write_uint32 (v : Z) : wr := to_bytes_u 4 v.
(** compilers/base.py 34-41 [write_bytes] *)
Definition write_bytes (b : bytes) : wr := Ok b.

(** compilers/value.py 34-46 [write_value_long]: [pack(">Bi" | ">BI", 0xFF, value)].
    One [pack] call: either all five bytes or [struct.error]. *)
Definition write_value_long (signed : bool) (v : Z) : wr :=
  pack_be_u 1 0xFF +++ (if signed then pack_be_s 4 v else pack_be_u 4 v).

(** compilers/value.py 8-31 [write_value] *)
Definition write_value_gen (signed : bool) (v : Z) : wr :=
  if (-107 <=? v) && (v <=? 107) then pack_be_u 1 (v + 0x8B)
  else if (107 <? v) && (v <=? 1131) then pack_be_u 2 (v + 0xF694)
  else if (-1131 <=? v) && (v <? -107) then pack_be_u 2 (- v + 0xFA94)
  else write_value_long signed v.

(** compilers/base.py 147-160 [StreamWriter.write_value] with [signed=True], [signed=False],
    and with [shortest=False] *)
Definition write_value (v : Z) : wr := write_value_gen true v.
Definition write_uvalue (v : Z) : wr := write_value_gen false v.
