(** Model of text: the cp1252 and Mac Roman codecs of the Python standard library, the string
    primitives of the stream layer, parsers/text.py and compilers/text.py. *)
From Verif Require Import Base M_Stream.
Open Scope rd_scope.

(** ** cp1252 (Python's codec): the bytes 0x80-0x9F that differ from Latin-1; 0x81, 0x8D, 0x8F,
    0x90, 0x9D are undefined. *)
Definition cp1252_table : list (Z * Z) :=
  [(0x80, 0x20ac); (0x82, 0x201a); (0x83, 0x192); (0x84, 0x201e); (0x85, 0x2026);
   (0x86, 0x2020); (0x87, 0x2021); (0x88, 0x2c6); (0x89, 0x2030); (0x8a, 0x160);
   (0x8b, 0x2039); (0x8c, 0x152); (0x8e, 0x17d); (0x91, 0x2018); (0x92, 0x2019);
   (0x93, 0x201c); (0x94, 0x201d); (0x95, 0x2022); (0x96, 0x2013); (0x97, 0x2014);
   (0x98, 0x2dc); (0x99, 0x2122); (0x9a, 0x161); (0x9b, 0x203a); (0x9c, 0x153);
   (0x9e, 0x17e); (0x9f, 0x178)].
Definition swap_pairs (t : list (Z * Z)) : list (Z * Z) := map (fun p => (snd p, fst p)) t.

Definition cp1252_dec1 (b : Z) : option Z :=
  if in_range 0x80 0xA0 b then aget Z.eqb b cp1252_table
  else if in_range 0 256 b then Some b else None.
Definition cp1252_enc1 (c : Z) : option Z :=
  match aget Z.eqb c (swap_pairs cp1252_table) with
  | Some b => Some b
  | None => if in_range 0 256 c && negb (in_range 0x80 0xA0 c) then Some c else None
  end.

(** ** Mac Roman: every byte is defined *)
Definition macroman_high : list Z :=
  [196; 197; 199; 201; 209; 214; 220; 225; 224; 226; 228; 227; 229; 231; 233; 232; 234; 235;
   237; 236; 238; 239; 241; 243; 242; 244; 246; 245; 250; 249; 251; 252; 8224; 176; 162; 163;
   167; 8226; 182; 223; 174; 169; 8482; 180; 168; 8800; 198; 216; 8734; 177; 8804; 8805; 165;
   181; 8706; 8721; 8719; 960; 8747; 170; 186; 937; 230; 248; 191; 161; 172; 8730; 402; 8776;
   8710; 171; 187; 8230; 160; 192; 195; 213; 338; 339; 8211; 8212; 8220; 8221; 8216; 8217; 247;
   9674; 255; 376; 8260; 8364; 8249; 8250; 64257; 64258; 8225; 183; 8218; 8222; 8240; 194; 202;
   193; 203; 200; 205; 206; 207; 204; 211; 212; 63743; 210; 218; 219; 217; 305; 710; 732; 175;
   728; 729; 730; 184; 733; 731; 711].
Fixpoint number_from (n : Z) (l : list Z) : list (Z * Z) :=
  match l with [] => [] | c :: l' => (n, c) :: number_from (n + 1) l' end.
Definition macroman_table : list (Z * Z) := number_from 128 macroman_high.
Definition macroman_dec1 (b : Z) : option Z :=
  if in_range 0 128 b then Some b else aget Z.eqb b macroman_table.
Definition macroman_enc1 (c : Z) : option Z :=
  if in_range 0 128 c then Some c else aget Z.eqb c (swap_pairs macroman_table).

(** ** [bytes.decode] / [str.encode] with a single byte codec *)
Fixpoint map_codec (f : Z -> option Z) (e : exn) (s : list Z) : res (list Z) :=
  match s with
  | [] => Ok []
  | x :: s' => match f x with
               | None => Err e
               | Some y => rmap (cons y) (map_codec f e s')
               end
  end.
Definition cp1252_decode (b : bytes) : res pystr := map_codec cp1252_dec1 UnicodeDecodeError b.
Definition cp1252_encode (s : pystr) : res bytes := map_codec cp1252_enc1 UnicodeEncodeError s.

(** ** String primitives of the stream layer. The encoding is always cp1252:
    [StreamReader.__init__] (parsers/base.py 37) and [BaseParser.__init__] (183) set the instance
    attribute, [StreamWriter.__init__] (compilers/base.py 31) likewise. See M_Encoding.v. *)

(** parsers/base.py 94-107 [read_str] *)
Definition read_str (size : Z) : rd pystr :=
  if size =? 0 then ret [] else b <- read_bytes size ;; rlift (cp1252_decode b).
(** parsers/base.py 109-118 [read_str_with_len] *)
Definition read_str_with_len : rd pystr := size <- read_uvalue ;; read_str size.
(** parsers/base.py 120-128 [read_str_all] *)
Definition read_str_all : rd pystr := b <- read_all ;; rlift (cp1252_decode b).

(** compilers/base.py 89-104 [write_str]; the value [None] is the empty string *)
Definition write_str_pad (pad : Z) (v : pystr) : wr :=
  rmap (fun enc => enc ++ repeat 0 (Z.to_nat (pad - Z.of_nat (length enc)))) (cp1252_encode v).
Definition write_str (v : pystr) : wr := write_str_pad 0 v.
(** compilers/base.py 106-118 [write_str_with_len]. Encoding comes first, so nothing is written
    when it raises. *)
Definition write_str_with_len (v : pystr) : wr :=
  match cp1252_encode v with
  | Err e => Err e
  | Ok enc => write_value (Z.of_nat (length enc)) +++ write_bytes enc
  end.

(** ** Name records *)
Record name_record := NameRecord
  { nr_name : Z; nr_plat : Z; nr_enc : Z; nr_lang : Z; nr_text : pystr }.

(** parsers/text.py 19-28: one character. [chr] raises [ValueError] outside 0..0x10FFFF;
    [int.to_bytes(1)] raises [OverflowError], which is not a [ValueError]. *)
Definition name_char (plat enc c : Z) : res Z :=
  if in_range 0 0x110000 c then
    if (plat =? 1) && (enc =? 0) then
      if c <? 256 then
        match macroman_dec1 c with Some ch => Ok ch | None => Ok 0xFEFF end
      else Err OverflowError
    else Ok c
  else Ok 0xFEFF.
Fixpoint res_map {A B} (f : A -> res B) (l : list A) : res (list B) :=
  match l with
  | [] => Ok []
  | x :: l' => rthen (f x) (fun y => rmap (cons y) (res_map f l'))
  end.

(** parsers/text.py 7-31 [NameRecordsParser] *)
Definition parse_name_record : rd name_record :=
  nameID <- read_value ;; platID <- read_value ;; encID <- read_value ;;
  langID <- read_value ;; name_length <- read_value ;;
  codes <- rrange name_length read_value ;;
  name <- rlift (res_map (name_char platID encID) codes) ;;
  ret (NameRecord nameID platID encID langID name).
Definition parse_name_records : rd (list name_record) :=
  num <- read_value ;; rrange num parse_name_record.

(** compilers/text.py 16-23: one character *)
Definition name_code (plat enc ch : Z) : Z :=
  if (plat =? 1) && (enc =? 0) then
    match macroman_enc1 ch with Some b => b | None => 63 end
  else ch.
(** compilers/text.py 6-23 [NameRecordsCompiler] *)
Definition compile_name_record (r : name_record) : wr :=
  write_value (nr_name r) +++ write_value (nr_plat r) +++ write_value (nr_enc r) +++
  write_value (nr_lang r) +++ write_value (Z.of_nat (length (nr_text r))) +++
  wlist (fun c => write_value (name_code (nr_plat r) (nr_enc r) c)) (nr_text r).
Definition compile_name_records (l : list name_record) : wr :=
  write_value (Z.of_nat (length l)) +++ wlist compile_name_record l.

(** ** OpenType feature text *)

(** [str.splitlines]: the line boundaries of Python, and ["\r\n"] as one boundary *)
Definition line_break (c : Z) : bool :=
  in_range 10 14 c || in_range 0x1c 0x1f c || (c =? 0x85) || (c =? 0x2028) || (c =? 0x2029).
Fixpoint splitlines_from (cur : pystr) (s : pystr) : list pystr :=
  match s with
  | [] => match cur with [] => [] | _ => [cur] end
  | c :: s' =>
      if line_break c then
        cur :: match s' with
               | d :: s'' => if (c =? 13) && (d =? 10) then splitlines_from [] s''
                             else splitlines_from [] s'
               | [] => splitlines_from [] s'
               end
      else splitlines_from (cur ++ [c]) s'
  end.
Definition splitlines (s : pystr) : list pystr := splitlines_from [] s.

(** [str.isspace] per character, as used by [str.strip()] *)
Definition is_space (c : Z) : bool :=
  in_range 9 14 c || in_range 0x1c 0x21 c || (c =? 0x85) || (c =? 0xa0) || (c =? 0x1680)
  || in_range 0x2000 0x200b c || (c =? 0x2028) || (c =? 0x2029) || (c =? 0x202f)
  || (c =? 0x205f) || (c =? 0x3000).
(** [bool(line.strip())] is false *)
Definition blank (line : pystr) : bool := forallb is_space line.

(** parsers/text.py 90-100: the loop over the lines with the counter [c] *)
Fixpoint filter_blank (c : Z) (ls : list pystr) : list pystr :=
  match ls with
  | [] => []
  | l :: ls' =>
      if negb (blank l) then l :: filter_blank 0 ls'
      else if c <? 2 then l :: filter_blank (c + 1) ls' else filter_blank (c + 1) ls'
  end.
(** parsers/text.py 104-105: [while not lines[-1]: lines.pop()], on the reversed list;
    [IndexError] when nothing is left *)
Fixpoint pop_empty (rl : list pystr) : res (list pystr) :=
  match rl with
  | [] => Err IndexError
  | [] :: rl' => pop_empty rl'
  | _ => Ok rl
  end.
(** parsers/text.py 90-107 *)
Definition normalize_lines (ls : list pystr) : res (list pystr) :=
  let lines := filter_blank 0 ls in
  if (1 <? Z.of_nat (length lines)) then
    rmap (fun rl => rev rl ++ [[]]) (pop_empty (rev lines))
  else Ok (lines ++ [[]]).
(** parsers/text.py 88-107 [OpenTypeStringParser._parse] *)
Definition parse_opentype_string : rd (list pystr) :=
  s <- read_str_all ;; rlift (normalize_lines (splitlines s)).

(** ["\n".join(lines)] *)
Fixpoint join_nl (ls : list pystr) : pystr :=
  match ls with
  | [] => []
  | [l] => l
  | l :: ls' => l ++ 10 :: join_nl ls'
  end.
(** compilers/text.py 26-32 [OpenTypeStringCompiler] *)
Definition compile_opentype_string (ls : list pystr) : wr := write_str (join_nl ls).

(** ** Strings *)

(** [str.strip("\00")] *)
Fixpoint lstrip0 (s : pystr) : pystr :=
  match s with
  | c :: s' => if c =? 0 then lstrip0 s' else s
  | [] => []
  end.
Definition strip0 (s : pystr) : pystr := rev (lstrip0 (rev (lstrip0 s))).
(** parsers/text.py 110-116 [StringParser] *)
Definition parse_string : rd pystr := s <- read_str_all ;; ret (strip0 s).
(** compilers/text.py 35-41 [StringCompiler] *)
Definition compile_string (s : pystr) : wr := write_str s.
(** compilers/text.py 44-50 [VendorIdCompiler] *)
Definition compile_vendor_id (s : pystr) : wr := write_str_pad 4 s.
