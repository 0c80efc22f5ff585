(** Specification of the font info in the UFO: which entry of the VFB gives which attribute. *)
From Coq Require Import String.
From Verif Require Import Base M_Py M_Text M_TrueType M_Info M_FontInfo S_Bits S_Info.
Local Open Scope list_scope.

(** entries whose value is the value of one attribute: entry, its name, attribute *)
Definition plain_attrs : list (Z * string * pystr) :=
  [(1025, "full_name"%string, py "postscriptFullName"); (1026, "font_name"%string, py "postscriptFontName");
   (1027, "family_name"%string, py "styleMapFamilyName"); (1028, "weight"%string, py "weightName");
   (1029, "italic_angle"%string, py "italicAngle");
   (1030, "underline_position"%string, py "postscriptUnderlinePosition");
   (1031, "underline_thickness"%string, py "postscriptUnderlineThickness");
   (1037, "copyright"%string, py "copyright"); (1038, "notice"%string, py "openTypeNameDescription");
   (1039, "source"%string, py "openTypeNameManufacturer"); (1044, "unique_id"%string, py "postscriptUniqueID");
   (1061, "trademark"%string, py "trademark"); (1062, "designer"%string, py "openTypeNameDesigner");
   (1063, "designer_url"%string, py "openTypeNameDesignerURL");
   (1064, "vendor_url"%string, py "openTypeNameManufacturerURL"); (1065, "width"%string, py "widthName");
   (1066, "default_character"%string, py "postscriptDefaultCharacter");
   (1069, "License"%string, py "openTypeNameLicense"); (1070, "LicenseURL"%string, py "openTypeNameLicenseURL");
   (1090, "fond_id"%string, py "macintoshFONDFamilyID"); (1092, "apple_name"%string, py "macintoshFONDName");
   (1118, "panose"%string, py "openTypeOS2Panose"); (1121, "vendor"%string, py "openTypeOS2VendorID");
   (1127, "style_name"%string, py "postscriptWeightName"); (1128, "tt_version"%string, py "openTypeNameVersion");
   (1129, "tt_u_id"%string, py "openTypeNameUniqueID"); (1130, "version_major"%string, py "versionMajor");
   (1131, "version_minor"%string, py "versionMinor"); (1132, "year"%string, py "year");
   (1135, "upm"%string, py "unitsPerEm"); (1140, "SampleText"%string, py "openTypeNameSampleText");
   (1270, "hhea_line_gap"%string, py "openTypeHheaLineGap");
   (1278, "hhea_ascender"%string, py "openTypeHheaAscender");
   (1279, "hhea_descender"%string, py "openTypeHheaDescender");
   (2021, "unicoderanges"%string, py "openTypeOS2UnicodeRanges"); (2025, "note"%string, py "note");
   (1024, "pref_family_name"%string, py "familyName");
   (1024, "pref_family_name"%string, py "openTypeNamePreferredFamilyName");
   (1137, "pref_style_name"%string, py "styleName");
   (1137, "pref_style_name"%string, py "openTypeNamePreferredSubfamilyName")].

(** the style that a selection word says *)
Definition style_says (v : Z) (s : pystr) : Prop :=
  let regular := Z.testbit v 6 in let bold := Z.testbit v 5 in let italic := Z.testbit v 0 in
  (regular = true /\ italic = false /\ s = py "regular") \/
  (regular = true /\ italic = true /\ s = py "regular italic") \/
  (regular = false /\ bold = true /\ italic = false /\ s = py "bold") \/
  (regular = false /\ bold = true /\ italic = true /\ s = py "bold italic") \/
  (regular = false /\ bold = false /\ italic = true /\ s = py "italic").

(** [writes key d a x]: an entry [key] with data [d] says that attribute [a] is [x] *)
Inductive writes : Z -> fi_data -> pystr -> info_val -> Prop :=
| writes_plain : forall key name a x, In (key, name, a) plain_attrs -> writes key (DVal x) a x
| writes_fixed : forall v b, (b = true <-> v <> 0) ->
    writes 1034 (DVal (IInt v)) (py "postscriptIsFixedPitch") (IBool b)
| writes_weight : forall v w, (1 <= v <= 1000 /\ w = v) \/ (v < 1 /\ w = 1) \/ (1000 < v /\ w = 1000) ->
    writes 1048 (DVal (IInt v)) (py "openTypeOS2WeightClass") (IInt w)
| writes_names : forall l, writes 1138 (DNames l) (py "openTypeNameRecords") (INames l)
| writes_tt : forall l k v a x, In (k, v) l -> tt_sets k v a x -> writes 1264 (DTT l) a x
| writes_gasp : forall l g,
    Forall2 (fun r p => fst p = gr_ppem r /\ is_bit_list (gr_flags r) 0 (snd p)) l g ->
    writes 1265 (DGasp l) (py "openTypeGaspRangeRecords") (IGasp g)
| writes_selection : forall v l, StronglySorted Z.lt l ->
    (forall b, In b l <-> 0 <= b /\ Z.testbit v b = true /\ b <> 0 /\ b <> 5 /\ b <> 6) ->
    writes 1267 (DVal (IInt v)) (py "openTypeOS2Selection") (IList l)
| writes_style : forall v s, style_says v s ->
    writes 1267 (DVal (IInt v)) (py "styleMapStyleName") (IStr s).

(** the entries that the export looks at: not those without data, and not the note of a font when the
    export is minimal *)
Definition seen (minimal : bool) (e : fi_entry) (key : Z) (d : fi_data) : Prop :=
  e = (key, Some d) /\ ~ (minimal = true /\ key = 2025).
Definition entry_writes (minimal : bool) (e : fi_entry) (a : pystr) (x : info_val) : Prop :=
  exists key d, seen minimal e key d /\ writes key d a x.

(** data as the parsers make them, and no negative bit fields *)
Definition data_ok (key : Z) (d : fi_data) : Prop :=
  (forall name a, In (key, name, a) plain_attrs -> exists x, d = DVal x) /\
  (key = 1034 -> exists z, d = DVal (IInt z)) /\ (key = 1048 -> exists z, d = DVal (IInt z)) /\
  (key = 1267 -> exists z, d = DVal (IInt z) /\ 0 <= z) /\
  (key = 1138 -> exists l, d = DNames l) /\
  (key = 1264 -> exists l, d = DTT l /\ NoDup (map fst l) /\ Forall tt_item_ok l) /\
  (key = 1265 -> exists l, d = DGasp l /\ Forall (fun r => 0 <= gr_flags r) l) /\
  (key = 1030 \/ key = 1031 -> exists z, d = DVal (IInt z)).
Definition entry_data_ok (e : fi_entry) : Prop := forall d, snd e = Some d -> data_ok (fst e) d.

(** the attributes of [fontinfo.plist] in UFO 3, https://unifiedfontobject.org/versions/ufo3/fontinfo.plist *)
Definition ufo3_attributes : list pystr :=
  [py "familyName"; py "styleName"; py "styleMapFamilyName"; py "styleMapStyleName"; py "versionMajor";
   py "versionMinor"; py "copyright"; py "trademark"; py "unitsPerEm"; py "descender"; py "xHeight";
   py "capHeight"; py "ascender"; py "italicAngle"; py "note"; py "openTypeGaspRangeRecords";
   py "openTypeHeadCreated"; py "openTypeHeadLowestRecPPEM"; py "openTypeHeadFlags"; py "openTypeHheaAscender";
   py "openTypeHheaDescender"; py "openTypeHheaLineGap"; py "openTypeHheaCaretSlopeRise";
   py "openTypeHheaCaretSlopeRun"; py "openTypeHheaCaretOffset"; py "openTypeNameDesigner";
   py "openTypeNameDesignerURL"; py "openTypeNameManufacturer"; py "openTypeNameManufacturerURL";
   py "openTypeNameLicense"; py "openTypeNameLicenseURL"; py "openTypeNameVersion"; py "openTypeNameUniqueID";
   py "openTypeNameDescription"; py "openTypeNamePreferredFamilyName"; py "openTypeNamePreferredSubfamilyName";
   py "openTypeNameCompatibleFullName"; py "openTypeNameSampleText"; py "openTypeNameWWSFamilyName";
   py "openTypeNameWWSSubfamilyName"; py "openTypeNameRecords"; py "openTypeOS2WidthClass";
   py "openTypeOS2WeightClass"; py "openTypeOS2Selection"; py "openTypeOS2VendorID"; py "openTypeOS2Panose";
   py "openTypeOS2FamilyClass"; py "openTypeOS2UnicodeRanges"; py "openTypeOS2CodePageRanges";
   py "openTypeOS2TypoAscender"; py "openTypeOS2TypoDescender"; py "openTypeOS2TypoLineGap";
   py "openTypeOS2WinAscent"; py "openTypeOS2WinDescent"; py "openTypeOS2Type"; py "openTypeOS2SubscriptXSize";
   py "openTypeOS2SubscriptYSize"; py "openTypeOS2SubscriptXOffset"; py "openTypeOS2SubscriptYOffset";
   py "openTypeOS2SuperscriptXSize"; py "openTypeOS2SuperscriptYSize"; py "openTypeOS2SuperscriptXOffset";
   py "openTypeOS2SuperscriptYOffset"; py "openTypeOS2StrikeoutSize"; py "openTypeOS2StrikeoutPosition";
   py "openTypeVheaVertTypoAscender"; py "openTypeVheaVertTypoDescender"; py "openTypeVheaVertTypoLineGap";
   py "openTypeVheaCaretSlopeRise"; py "openTypeVheaCaretSlopeRun"; py "openTypeVheaCaretOffset";
   py "postscriptFontName"; py "postscriptFullName"; py "postscriptSlantAngle"; py "postscriptUniqueID";
   py "postscriptUnderlineThickness"; py "postscriptUnderlinePosition"; py "postscriptIsFixedPitch";
   py "postscriptBlueValues"; py "postscriptOtherBlues"; py "postscriptFamilyBlues";
   py "postscriptFamilyOtherBlues"; py "postscriptStemSnapH"; py "postscriptStemSnapV"; py "postscriptBlueFuzz";
   py "postscriptBlueShift"; py "postscriptBlueScale"; py "postscriptForceBold"; py "postscriptDefaultWidthX";
   py "postscriptNominalWidthX"; py "postscriptWeightName"; py "postscriptDefaultCharacter";
   py "postscriptWindowsCharacterSet"; py "macintoshFONDFamilyID"; py "macintoshFONDName"; py "woffMajorVersion";
   py "woffMinorVersion"; py "woffMetadataUniqueID"; py "woffMetadataVendor"; py "woffMetadataCredits";
   py "woffMetadataDescription"; py "woffMetadataLicense"; py "woffMetadataCopyright"; py "woffMetadataTrademark";
   py "woffMetadataLicensee"; py "woffMetadataExtensions"; py "guidelines"].

(** what the attributes are if no entry says it: a regular font called Untitled of medium width *)
Definition default_of (a : pystr) : option info_val :=
  let one_of l := existsb (str_eqb a) l in
  if one_of [py "familyName"; py "styleMapFamilyName"] then Some (IStr (py "Untitled"))
  else if one_of [py "styleName"; py "postscriptWeightName"] then Some (IStr (py "Regular"))
  else if one_of [py "styleMapStyleName"] then Some (IStr (py "regular"))
  else if one_of [py "postscriptFullName"] then Some (IStr (py "Untitled Regular"))
  else if one_of [py "postscriptFontName"] then Some (IStr (py "Untitled-Regular"))
  else if one_of [py "openTypeOS2WeightClass"] then Some (IInt 400)
  else if one_of [py "openTypeOS2WidthClass"] then Some (IInt 5)
  else if one_of [py "openTypeOS2FamilyClass"] then Some (IList [0; 0])
  else if one_of [py "postscriptIsFixedPitch"; py "postscriptForceBold"] then Some (IBool false)
  else if one_of [py "openTypeNameDescription"; py "openTypeNamePreferredFamilyName"; py "openTypeNamePreferredSubfamilyName";
                  py "openTypeNameSampleText"] then Some (IStr [])
  else if one_of [py "italicAngle"; py "openTypeHheaLineGap"; py "openTypeHeadLowestRecPPEM"; py "openTypeOS2SubscriptXSize";
                  py "openTypeOS2SubscriptYSize"; py "openTypeOS2SubscriptXOffset"; py "openTypeOS2SubscriptYOffset";
                  py "openTypeOS2SuperscriptXSize"; py "openTypeOS2SuperscriptYSize"; py "openTypeOS2SuperscriptXOffset";
                  py "openTypeOS2SuperscriptYOffset"; py "openTypeOS2StrikeoutPosition"; py "openTypeOS2StrikeoutSize";
                  py "postscriptUnderlinePosition"; py "postscriptUnderlineThickness"; py "openTypeOS2TypoAscender";
                  py "openTypeOS2TypoDescender"; py "openTypeOS2TypoLineGap"; py "openTypeOS2WinAscent";
                  py "openTypeOS2WinDescent"] then Some (IInt 0)
  else if one_of [py "guidelines"; py "openTypeGaspRangeRecords"; py "openTypeHeadFlags"; py "openTypeOS2Selection";
                  py "openTypeOS2Type"; py "openTypeOS2UnicodeRanges"; py "openTypeOS2CodePageRanges"; py "postscriptBlueValues";
                  py "postscriptFamilyBlues"; py "postscriptFamilyOtherBlues"; py "postscriptOtherBlues"] then Some (IList [])
  else None.
(** [says minimal es a v]: the entries [es] say that attribute [a] is [v], the last that says something about it
    being the one that counts, and the default if none does *)
Definition says (minimal : bool) (es : list fi_entry) (a : pystr) (v : option info_val) : Prop :=
  (exists pre e post x, es = pre ++ e :: post /\ entry_writes minimal e a x /\ v = Some x /\
     forall e' x', In e' post -> ~ entry_writes minimal e' a x') \/
  ((forall e x, In e es -> ~ entry_writes minimal e a x) /\ v = default_of a).
