(** What can go wrong when an entry is decompiled (C104): the exceptions by entry type. The ids are
    those of vfbLib/enum.py; an id that is not listed is decompiled without exceptions. *)
From Coq Require Import ZArith List.
From Verif Require Import Base.
Import ListNotations.
Local Open Scope Z_scope.

(** data that is read to the end as it is: hexadecimal *)
Definition never_raises : list Z := [1; 4; 262; 1261; 1262; 1263; 2030; 513; 271; 527; 272; 528; 5; 2].

(** fields of fixed size, where missing bytes are taken as they come: only bytes that are left over
    are an error (the list types have as many fields as the data has room for) *)
Definition numbers : list Z :=
  [1502; 1503; 1044; 1034; 1048; 1030; 1031; 1054; 1134; 1132; 1130; 1131; 1135; 1090; 1530; 1531;
   1532; 1533; 1534; 1535; 1267; 1057; 1058; 1060; 1270; 1278; 1279; 1272; 1274; 1275; 1604; 2032; 2022;
   1513; 2011; 2027; 2012;
   (* lists *) 1517; 1247; 1133; 1515; 1516; 1250; 1253; 1410;
   (* bit sets *) 1093; 2010; 1744; 2021].
(** one or more doubles, which cannot be cut short *)
Definition doubles : list Z := [1029; 1047; 1505; 1536].
(** all data is unpacked at once *)
Definition unpacked : list Z := [1118; 1265].
(** all data is text *)
Definition texts : list Z :=
  [518; 257; 1026; 1046; 1038; 1025; 1027; 1024; 1056; 1092; 1028; 1065; 1069; 1070; 1037; 1061; 1062; 1063;
   1064; 1039; 1128; 1129; 1127; 1137; 1139; 1140; 1121; 1059; 2025; 2016; 1277; 1514; 1504; 1066; 2034;
   2015; 2017; 1500; 1501; 2014].
(** encoded values: a value may be missing, or start with one of the bytes 1 to 31 *)
Definition values : list Z :=
  [1068; 1271; 1266; 1268; 1524; 1273; 2020; 2029; 2008; 2019; 2028; 1294; 2007; 2013; 1743; 1295; 2009].
(** lists of encoded values that go on to the end of the data, which is no error therefore *)
Definition open_values : list Z := [1523; 2023].
(** encoded values and names *)
Definition named_values : list Z := [1269; 1255; 1141; 1136; 2024; 2026; 1254; 1296; 2031].

Definition among (l : list Z) (i : Z) : bool := existsb (Z.eqb i) l.
Definition raises (i : Z) : list exn :=
  if among numbers i then [AssertionError]
  else if among doubles i then [StructError; AssertionError]
  else if among unpacked i then [StructError]
  else if among texts i then [UnicodeDecodeError]
  else if among values i then [EOFError; ValueError; AssertionError]
  else if among open_values i then [ValueError; AssertionError]
  else if among named_values i then [EOFError; ValueError; UnicodeDecodeError; AssertionError]
  else if i =? 1276 (* features: nothing but empty lines, two or more *) then [UnicodeDecodeError; IndexError]
  else if i =? 10 (* FL Version: an unknown platform *) then [EOFError; ValueError; KeyError; AssertionError]
  else if i =? 1742 (* Mapping Mode: an unknown key; a key is missing *)
    then [EOFError; ValueError; KeyError; UnboundLocalError; AssertionError]
  else if i =? 1264 (* ttinfo: a key comes twice *) then [EOFError; ValueError; KeyError; AssertionError]
  else if i =? 1138 (* fontnames: a Mac Roman character above 255 *)
    then [EOFError; ValueError; OverflowError; AssertionError]
  else if i =? 2018 (* Glyph GDEF Data: no such class *)
    then [EOFError; ValueError; IndexError; UnicodeDecodeError; AssertionError]
  else if i =? 2001 (* Glyph: too short; an unknown command or hint mask; sections before the outlines *)
    then [EOFError; ValueError; KeyError; AttributeError; StructError; UnicodeDecodeError; AssertionError]
  else [].
