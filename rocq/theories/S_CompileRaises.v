(** What can go wrong when an entry is compiled (C108): the exceptions by entry type. The ids are
    those of vfbLib/enum.py. *)
From Coq Require Import ZArith List String.
From Verif Require Import Base M_Py M_Text M_Simple M_TrueType M_Glyph M_Options M_Bitmap M_Table S_Raises.
Import ListNotations.
Local Open Scope Z_scope.

(** hexadecimal: odd digits or other characters. The last two are decompiled as text. *)
Definition hex_ids : list Z := never_raises ++ [518; 257].
(** text: a character that cp1252 has not *)
Definition text_ids : list Z :=
  [1026; 1046; 1038; 1025; 1027; 1024; 1056; 1092; 1028; 1065; 1069; 1070; 1037; 1061; 1062; 1063;
   1064; 1039; 1128; 1129; 1127; 1137; 1139; 1140; 1121; 1059; 2025; 2016; 1277; 1514; 1504; 1066; 2034;
   2015; 2017; 1276].
(** numbers and bit sets in fields of fixed size *)
Definition sized_ids : list Z :=
  [1502; 1503; 1044; 1034; 1048; 1030; 1031; 1054; 1134; 1132; 1130; 1131; 1135; 1090; 1530; 1531;
   1532; 1533; 1534; 1535; 1267; 1057; 1058; 1060; 1270; 1278; 1279; 1272; 1274; 1275; 1604; 2032; 2022;
   1513; 2011; 2027; 2012; 1133; 1515; 1250; 1253; 1265; 1093; 2010; 2021; 1505].
(** encoded values: they have up to 32 bits *)
Definition encoded_ids : list Z := [1068; 2023; 1523; 1271; 2019; 2008; 2028; 2020; 1273; 1138].
(** nothing but doubles *)
Definition double_ids : list Z := [1029; 1047; 1517; 1247; 1516].

Definition compile_raises (i : Z) : list exn :=
  if among hex_ids i then [ValueError]
  else if among text_ids i then [UnicodeEncodeError]
  else if among sized_ids i then [OverflowError]
  else if among encoded_ids i || (i =? 1118) (* panose: a number; not ten numbers *) then [StructError]
  else if among [1141; 1255] i (* encoded values and names *) then [StructError; UnicodeEncodeError]
  else if among [1500; 1501] i (* encoding: the glyph id; the name *) then [OverflowError; UnicodeEncodeError]
  else if among [2007; 2013] i (* bitmaps: a byte above 255 *) then [StructError; OverflowError]
  else if among [2024; 2026] i (* class flags: their number *) then [ValueError; StructError; UnicodeEncodeError]
  else if among [1296; 2031; 2018] i (* the colour; the class *) then [ValueError; StructError; UnicodeEncodeError]
  else if among [1266; 1268; 1524; 1742] i (* a rounding is missing; an unknown mode *) then [KeyError; StructError]
  else if i =? 1269 (* TrueType stems: a key is missing; a name of more than 255 bytes *)
    then [KeyError; StructError; UnicodeEncodeError; OverflowError]
  else if i =? 1536 (* PostScript info: a list of another length *) then [OverflowError; AssertionError]
  else if i =? 10 (* FL Version: an unknown platform; not four numbers; one above 255 *)
    then [KeyError; AssertionError; OverflowError; StructError]
  else if i =? 2014 (* TrueTypeTable *) then [UnicodeEncodeError; ValueError]
  else if i =? 1136 (* PCLT *) then [StructError; UnicodeEncodeError; OverflowError]
  else if i =? 1254 (* primary instances: NaN; infinity *)
    then [UnicodeEncodeError; StructError; ValueError; OverflowError]
  else if i =? 1743 (* font options: an unknown option, a value of another type; NaN; infinity *)
    then [AssertionError; StructError; ValueError; OverflowError]
  else if i =? 1744 (* export options: an unknown option; the same one thousands of times *) then [KeyError; OverflowError]
  else if i =? 1264 (* ttinfo: a key is missing; panose is not ten numbers, the flags are no dict *)
    then [KeyError; AssertionError; StructError; OverflowError]
  else if i =? 1410 (* MM kerning pairs cannot be compiled *) then [AttributeError]
  else if i =? 1295 (* global mask: a point is missing; the flags of a node *) then [IndexError; StructError; OverflowError]
  else if i =? 2009 (* mask: a weight is NaN or infinite *) then [IndexError; StructError; OverflowError; ValueError]
  else if among [1294; 2029] i (* guides, anchors: a master is missing *) then [IndexError; StructError]
  else if i =? 2001 (* glyph: a key or a master is missing *)
    then [KeyError; IndexError; OverflowError; StructError; UnicodeEncodeError]
  else [].

(** the form of decompiled data: a string, an integer, a list of integers and so on *)
Definition form (v : value) : nat :=
  match v with
  | DStr _ => 1 | DInt _ => 2 | DDouble _ => 3 | DInts _ => 4 | DDoubles _ => 5 | DEncoding _ => 6 | DFlags _ => 7
  | DMappingMode _ => 8 | DOptionList _ => 9 | DCmaps _ => 10 | DAxes _ => 11 | DDoublePairs _ => 12
  | DMasterLocation _ => 13 | DKernPair _ => 14 | DFLVersion _ => 15 | DBinaryTable _ => 16 | DPclt _ => 17
  | DPSInfo _ => 18 | DPSOptions _ => 19 | DGasp _ => 20 | DTTInfo _ => 21 | DStems _ => 22 | DZones _ => 23
  | DDeltas _ => 24 | DVdmx _ => 25 | DNames _ => 26 | DLines _ => 27 | DBackground _ => 28 | DBitmaps _ => 29
  | DAnchors _ => 30 | DAnchorProps _ => 31 | DGdef _ => 32 | DPair _ => 33 | DOrigin _ => 34 | DSketch _ => 35
  | DLinks _ => 36 | DPairs _ => 37 | DGuides _ => 38 | DGuideProps _ => 39 | DGlyph _ => 40 | DGlobalMask _ => 41
  | DMask _ => 42 | DFontOptions _ => 43 | DInstances _ => 44
  end%nat.
(** [v] has the form that decompiling an entry of this type gives *)
Definition has_form (o : oracles) (i : Z) (v : value) : Prop :=
  exists c data v0, M_Container.cd_parse (table o) i c data = Ok v0 /\ form v = form v0.

(** the 64 bits of a double *)
Definition double_bits (x : Z) : Prop := 0 <= x < 2 ^ 64.
(** a member of TrueType info has a value of its type, bits have numbers from 0 *)
Definition tt_member (m : pystr * tt_value) : Prop :=
  let '(k, x) := m in
  if str_eqb k (py "head_flags") then match x with VFlags flags _ => Forall (Z.le 0) flags | _ => True end
  else if str_eqb k (py "OpenTypeOS2Panose") || str_eqb k (py "Hdmx PPMs 1") || str_eqb k (py "Hdmx PPMs 2")
    then match x with VList _ => True | _ => False end
  else if str_eqb k (py "Codepages") then match x with VPages _ _ => True | _ => False end
  else match x with VInt _ => True | _ => False end.
(** Doubles are doubles, and bits have numbers from 0: in place of the exceptions for other data the
    model has another one. *)
Definition sound (i : Z) (v : value) : Prop :=
  match v with
  | DDouble x => double_bits x
  | DDoubles l => Forall double_bits l
  | DDoublePairs l => Forall (fun p => double_bits (fst p) /\ double_bits (snd p)) l
  | DMasterLocation d => Forall double_bits (snd d)
  | DPSInfo d => Forall double_bits (ps_font_matrix d) /\ double_bits (ps_blue_scale d)
  | DInts l => i = 2021 -> Forall (Z.le 0) l
  | DPSOptions d => Forall (Z.le 0) (po_other d)
  | DTTInfo d => Forall tt_member d
  | _ => True
  end.
