(** Specification of texts. *)
From Verif Require Import Base.

(** Windows-1252 as published: Latin-1 except for 0x80-0x9F; five bytes are unassigned. *)
Definition win1252_high : list (option Z) :=
  [Some 0x20AC; None; Some 0x201A; Some 0x0192; Some 0x201E; Some 0x2026; Some 0x2020; Some 0x2021;
   Some 0x02C6; Some 0x2030; Some 0x0160; Some 0x2039; Some 0x0152; None; Some 0x017D; None;
   None; Some 0x2018; Some 0x2019; Some 0x201C; Some 0x201D; Some 0x2022; Some 0x2013; Some 0x2014;
   Some 0x02DC; Some 0x2122; Some 0x0161; Some 0x203A; Some 0x0153; None; Some 0x017E; Some 0x0178].
(** byte [b] stands for the character [c] *)
Definition win1252 (b c : Z) : Prop :=
  0 <= b < 256 /\
  if (0x80 <=? b) && (b <? 0xA0)
  then nth_error win1252_high (Z.to_nat (b - 0x80)) = Some (Some c)
  else c = b.
(** a text is representable when each of its characters is *)
Definition encodable (s : pystr) : Prop := Forall (fun c => exists b, win1252 b c) s.
Definition encodes (b : bytes) (s : pystr) : Prop := Forall2 win1252 b s.

(** a line is blank when it has only white space *)
Definition white : list Z :=
  [9; 10; 11; 12; 13; 28; 29; 30; 31; 32; 0x85; 0xa0; 0x1680; 0x2000; 0x2001; 0x2002; 0x2003;
   0x2004; 0x2005; 0x2006; 0x2007; 0x2008; 0x2009; 0x200a; 0x2028; 0x2029; 0x202f; 0x205f; 0x3000].
Definition blank_line (l : pystr) : Prop := forall c, In c l -> In c white.

(** nowhere three lines in a row that are all blank *)
Definition at_most_two_blank (ls : list pystr) : Prop :=
  forall pre a b c post, ls = pre ++ a :: b :: c :: post ->
  ~ (blank_line a /\ blank_line b /\ blank_line c).
