(** Model of how the exporter fills the font info: ufo/info.py 42-182, 214-254, 278-280,
    ufo/builder.py 416-448, 522-545, 625-630, 679. *)
From Coq Require Import String.
From Verif Require Import Base M_Py M_Text M_TrueType M_Info M_Tth.
Local Open Scope list_scope.

(** ufo/info.py 142-182 [mapping]; the numbers are those of enum.py *)
Definition info_mapping : list (Z * pystr) :=
  [(1025, py "postscriptFullName"); (1026, py "postscriptFontName"); (1027, py "styleMapFamilyName");
   (1028, py "weightName"); (1029, py "italicAngle"); (1030, py "postscriptUnderlinePosition");
   (1031, py "postscriptUnderlineThickness"); (1037, py "copyright"); (1038, py "openTypeNameDescription");
   (1039, py "openTypeNameManufacturer"); (1044, py "postscriptUniqueID"); (1061, py "trademark");
   (1062, py "openTypeNameDesigner"); (1063, py "openTypeNameDesignerURL");
   (1064, py "openTypeNameManufacturerURL"); (1065, py "widthName"); (1069, py "openTypeNameLicense");
   (1070, py "openTypeNameLicenseURL"); (1090, py "macintoshFONDFamilyID"); (1092, py "macintoshFONDName");
   (1118, py "openTypeOS2Panose"); (1140, py "openTypeNameSampleText"); (1121, py "openTypeOS2VendorID");
   (1129, py "openTypeNameUniqueID"); (1128, py "openTypeNameVersion"); (1130, py "versionMajor");
   (1131, py "versionMinor"); (1132, py "year"); (1135, py "unitsPerEm"); (1278, py "openTypeHheaAscender");
   (1279, py "openTypeHheaDescender"); (1270, py "openTypeHheaLineGap"); (2025, py "note");
   (1066, py "postscriptDefaultCharacter")].

(** ufo/info.py 42-104 [__init__]: the attributes with a value that is not [None] after it *)
Definition info_defaults : list (pystr * info_val) :=
  [(py "familyName", IStr (py "Untitled")); (py "guidelines", IList []); (py "italicAngle", IInt 0);
   (py "openTypeGaspRangeRecords", IList []); (py "openTypeHeadFlags", IList []);
   (py "openTypeHheaLineGap", IInt 0); (py "openTypeHeadLowestRecPPEM", IInt 0);
   (py "openTypeNameDescription", IStr []); (py "openTypeNamePreferredFamilyName", IStr []);
   (py "openTypeNamePreferredSubfamilyName", IStr []); (py "openTypeNameSampleText", IStr []);
   (py "openTypeOS2FamilyClass", IList [0; 0]); (py "openTypeOS2Selection", IList []);
   (py "openTypeOS2SubscriptXSize", IInt 0); (py "openTypeOS2SubscriptYSize", IInt 0);
   (py "openTypeOS2SubscriptXOffset", IInt 0); (py "openTypeOS2SubscriptYOffset", IInt 0);
   (py "openTypeOS2SuperscriptXSize", IInt 0); (py "openTypeOS2SuperscriptYSize", IInt 0);
   (py "openTypeOS2SuperscriptXOffset", IInt 0); (py "openTypeOS2SuperscriptYOffset", IInt 0);
   (py "openTypeOS2StrikeoutPosition", IInt 0); (py "openTypeOS2StrikeoutSize", IInt 0);
   (py "openTypeOS2Type", IList []); (py "openTypeOS2UnicodeRanges", IList []);
   (py "openTypeOS2WeightClass", IInt 400); (py "openTypeOS2WidthClass", IInt 5);
   (py "postscriptBlueValues", IList []); (py "postscriptFamilyBlues", IList []);
   (py "postscriptFamilyOtherBlues", IList []); (py "postscriptFontName", IStr (py "Untitled-Regular"));
   (py "postscriptForceBold", IBool false); (py "postscriptFullName", IStr (py "Untitled Regular"));
   (py "postscriptIsFixedPitch", IBool false); (py "postscriptOtherBlues", IList []);
   (py "postscriptUnderlinePosition", IInt 0); (py "postscriptUnderlineThickness", IInt 0);
   (py "postscriptWeightName", IStr (py "Regular")); (py "styleMapFamilyName", IStr (py "Untitled"));
   (py "styleMapStyleName", IStr (py "regular")); (py "styleName", IStr (py "Regular"));
   (py "openTypeOS2TypoAscender", IInt 0); (py "openTypeOS2TypoDescender", IInt 0);
   (py "openTypeOS2TypoLineGap", IInt 0); (py "openTypeOS2WinAscent", IInt 0);
   (py "openTypeOS2WinDescent", IInt 0); (py "openTypeOS2CodePageRanges", IList [])].
Definition new_info : info := mkInfo info_defaults None.

(** the data of an entry: a value that is kept as it is, or one of the structures that are converted *)
Inductive fi_data := DVal (v : info_val) | DTT (d : tt_info) | DGasp (l : list gasp_rec)
| DNames (l : list name_record).
(** an entry by its number; [None] for an entry without data *)
Notation fi_entry := (Z * option fi_data)%type.
Definition as_val (d : fi_data) : option info_val :=
  match d with DVal v => Some v | _ => None end.

(** builder.py 522-545, 625-630, the cases that concern the font info; ufo/info.py 239-254 [set_name_records],
    278-280 [set_style_name]. Data of another type than the one the parser makes are a [TypeError]; Python
    raises it or some other error, or stores the value. *)
Definition info_case (key : Z) (d : fi_data) (i : info) : res info :=
  if key =? 1024 then match as_val d with
    | Some v => Ok (setattr (py "openTypeNamePreferredFamilyName") v (setattr (py "familyName") v i))
    | None => Err TypeError end
  else if key =? 1034 then match d with DVal (IInt z) => Ok (set_fixed_pitch z i) | _ => Err TypeError end
  else if key =? 1048 then match d with DVal (IInt z) => Ok (set_weight_class z i) | _ => Err TypeError end
  else if key =? 1127 then match as_val d with
    | Some v => Ok (setattr (py "postscriptWeightName") v i) | None => Err TypeError end
  else if key =? 1137 then match as_val d with
    | Some v => Ok (setattr (py "openTypeNamePreferredSubfamilyName") v (setattr (py "styleName") v i))
    | None => Err TypeError end
  else if key =? 1138 then match d with
    | DNames l => Ok (setattr (py "openTypeNameRecords") (INames l) i) | _ => Err TypeError end
  else if key =? 1264 then match d with DTT t => set_tt_info i t | _ => Err TypeError end
  else if key =? 1265 then match d with DGasp l => set_tt_gasp l i | _ => Err TypeError end
  else if key =? 1267 then match d with DVal (IInt z) => set_selection z i | _ => Err TypeError end
  else if key =? 2021 then match as_val d with
    | Some v => Ok (setattr (py "openTypeOS2UnicodeRanges") v i) | None => Err TypeError end
  else Ok i.
(** builder.py 432-448: one entry; [minimal] is the flag of the VFB, which skips 2025 (constants.py 343-355).
    The entries skipped in every export (builder.py 418-428) do not concern the font info *)
Definition info_step (minimal : bool) (i : info) (e : fi_entry) : res info :=
  let '(key, data) := e in
  if minimal && (key =? 2025) then Ok i
  else match data with
       | None => Ok i
       | Some d =>
           match aget Z.eqb key info_mapping with
           | Some attr => match as_val d with Some v => Ok (setattr attr v i) | None => Err TypeError end
           | None => info_case key d i
           end
       end.
(** ufo/info.py 214-228 [fix_underline_position] for integers, as builder.py 679 calls it after the loop *)
Definition fix_underline_position (i : info) : res info :=
  match aget str_eqb (py "postscriptUnderlinePosition") (if_attrs i),
        aget str_eqb (py "postscriptUnderlineThickness") (if_attrs i) with
  | Some (IInt p), Some (IInt t) => Ok (setattr (py "postscriptUnderlinePosition") (IInt (fix_underline p t)) i)
  | None, _ | _, None => Ok i
  | _, _ => Err TypeError
  end.
Definition build_info (minimal : bool) (es : list fi_entry) : res info :=
  rthen (res_fold (info_step minimal) new_info es) fix_underline_position.

(** ufo/info.py 108-140 [ds_family_name], [ds_style_name], [ui_name]. [info_text] is the text of an attribute;
    a [None] or empty value counts as false. The properties are cached, but read only after [build]. *)
Definition info_text (a : pystr) (i : info) : pystr :=
  match aget str_eqb a (if_attrs i) with Some (IStr s) => s | _ => [] end.
Definition first_text (l : list pystr) (i : info) (d : pystr) : pystr :=
  match find (fun s => match s with [] => false | _ => true end) (map (fun a => info_text a i) l) with
  | Some s => s
  | None => d
  end.
Definition ds_family_name (i : info) : pystr :=
  first_text [py "openTypeNamePreferredFamilyName"; py "familyName"] i (info_text (py "styleMapFamilyName") i).
Definition ds_style_name (i : info) : pystr :=
  first_text [py "openTypeNamePreferredSubfamilyName"; py "styleName"] i (info_text (py "styleMapStyleName") i).
Definition ui_name (i : info) : pystr := first_text [py "familyName"] i (py "Untitled Regular").
