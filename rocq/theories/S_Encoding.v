(** Specification of UTF-8 (RFC 3629). *)
From Coq Require Import String.
From Verif Require Import Base M_Text M_Table.
Local Open Scope list_scope.

Definition utf8_char (c : Z) : list Z :=
  if c <? 0x80 then [c]
  else if c <? 0x800 then [0xC0 + c / 0x40; 0x80 + c mod 0x40]
  else if c <? 0x10000 then [0xE0 + c / 0x1000; 0x80 + c / 0x40 mod 0x40; 0x80 + c mod 0x40]
  else [0xF0 + c / 0x40000; 0x80 + c / 0x1000 mod 0x40; 0x80 + c / 0x40 mod 0x40; 0x80 + c mod 0x40].
Definition utf8 (s : pystr) : bytes := concat (map utf8_char s).
Definition char_ok (c : Z) : Prop := 0 <= c < 0x110000.
Definition ascii (s : pystr) : Prop := Forall (fun c => 0 <= c < 0x80) s.
(** the text of an entry: without the NUL characters at its ends *)
Definition trimmed (s t : pystr) : Prop := exists a b, s = repeat 0 a ++ t ++ repeat 0 b /\
  (t = [] \/ (hd 0 t <> 0 /\ last t 0 <> 0)).
(** the entries that are one string *)
Definition string_ids : list Z :=
  [518; 257; 1026; 1046; 1038; 1025; 1027; 1024; 1056; 1092; 1028; 1065; 1069; 1070; 1037; 1061; 1062; 1063; 1064; 1039;
   1128; 1129; 1127; 1137; 1139; 1140; 1121; 1059; 2025; 2016; 1277; 1514; 1504; 1066; 2034; 2015; 2017].
