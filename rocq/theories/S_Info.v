(** Specification of dates and of the font info. *)
From Coq Require Import String.
From Verif Require Import Base M_Py M_TrueType M_Info S_Bits.
Local Open Scope list_scope.

(** ** The Gregorian calendar *)
Definition leap (y : Z) : Prop := (4 | y) /\ (~ (100 | y) \/ (400 | y)).
(** days of month [m] of year [y] *)
Definition days_of (y m n : Z) : Prop :=
  (In m [1; 3; 5; 7; 8; 10; 12] /\ n = 31) \/ (In m [4; 6; 9; 11] /\ n = 30) \/
  (m = 2 /\ leap y /\ n = 29) \/ (m = 2 /\ ~ leap y /\ n = 28).
Definition valid_date (d : datetime) : Prop :=
  1 <= dt_year d /\ 1 <= dt_month d <= 12 /\
  (exists n, days_of (dt_year d) (dt_month d) n /\ 1 <= dt_day d <= n) /\
  0 <= dt_hour d < 24 /\ 0 <= dt_minute d < 60 /\ 0 <= dt_second d < 60 /\ 0 <= dt_micro d < 1000000.
(** [later d d']: [d'] is one second after [d], as clocks and calendars count *)
Inductive next_second : datetime -> datetime -> Prop :=
| next_sec : forall y m d h i s u, s < 59 ->
    next_second (DateTime y m d h i s u) (DateTime y m d h i (s + 1) u)
| next_min : forall y m d h i u, i < 59 ->
    next_second (DateTime y m d h i 59 u) (DateTime y m d h (i + 1) 0 u)
| next_hour : forall y m d h u, h < 23 ->
    next_second (DateTime y m d h 59 59 u) (DateTime y m d (h + 1) 0 0 u)
| next_day : forall y m d u n, days_of y m n -> d < n ->
    next_second (DateTime y m d 23 59 59 u) (DateTime y m (d + 1) 0 0 0 u)
| next_month : forall y m u n, days_of y m n -> m < 12 ->
    next_second (DateTime y m n 23 59 59 u) (DateTime y (m + 1) 1 0 0 0 u)
| next_year : forall y u, next_second (DateTime y 12 31 23 59 59 u) (DateTime (y + 1) 1 1 0 0 0 u).
Definition epoch : datetime := DateTime 1970 1 1 0 0 0 0.
(** [seconds_after n d]: [d] is the moment [n] seconds after 1970-01-01 00:00:00 *)
Inductive seconds_after : nat -> datetime -> Prop :=
| after_0 : seconds_after 0 epoch
| after_S : forall n d d', seconds_after n d -> next_second d d' -> seconds_after (S n) d'.

(** the 32 bits of a signed number, read without sign *)
Definition unsigned32 (t : Z) : Z := if t <? 0 then t + 2 ^ 32 else t.

(** ** Font info: what an item of the TrueType info sets *)
(** the numbers that are copied, and the ones that go to the TrueType lib *)
Definition tt_int_attrs : list (pystr * pystr) :=
  [(py "os2_us_width_class", py "openTypeOS2WidthClass");
   (py "head_lowest_rec_ppem", py "openTypeHeadLowestRecPPEM");
   (py "os2_y_subscript_x_size", py "openTypeOS2SubscriptXSize");
   (py "os2_y_subscript_y_size", py "openTypeOS2SubscriptYSize");
   (py "os2_y_subscript_x_offset", py "openTypeOS2SubscriptXOffset");
   (py "os2_y_subscript_y_offset", py "openTypeOS2SubscriptYOffset");
   (py "os2_y_superscript_x_size", py "openTypeOS2SuperscriptXSize");
   (py "os2_y_superscript_y_size", py "openTypeOS2SuperscriptYSize");
   (py "os2_y_superscript_x_offset", py "openTypeOS2SuperscriptXOffset");
   (py "os2_y_superscript_y_offset", py "openTypeOS2SuperscriptYOffset");
   (py "os2_y_strikeout_size", py "openTypeOS2StrikeoutSize");
   (py "os2_y_strikeout_position", py "openTypeOS2StrikeoutPosition");
   (py "os2_s_typo_ascender", py "openTypeOS2TypoAscender");
   (py "os2_s_typo_descender", py "openTypeOS2TypoDescender");
   (py "os2_s_typo_line_gap", py "openTypeOS2TypoLineGap");
   (py "os2_us_win_ascent", py "openTypeOS2WinAscent");
   (py "os2_us_win_descent", py "openTypeOS2WinDescent")].
Definition tt_lib_keys : list (pystr * pystr) :=
  [(py "max_zones", py "maxZones"); (py "max_twilight_points", py "maxTwilightPoints");
   (py "max_storage", py "maxStorage"); (py "max_function_defs", py "maxFunctionDefs");
   (py "max_instruction_defs", py "maxInstructionDefs");
   (py "max_stack_elements", py "maxStackElements")].
Inductive tt_sets : pystr -> tt_value -> pystr -> info_val -> Prop :=
| sets_int : forall k attr v, In (k, attr) tt_int_attrs -> tt_sets k (VInt v) attr (IInt v)
| sets_created : forall v d, seconds_after (Z.to_nat (unsigned32 v - 2082841200)) d ->
    tt_sets (py "head_creation") (VInt v) (py "openTypeHeadCreated") (IStr (date_text d))
| sets_type : forall v l, is_bit_list v 0 l ->
    tt_sets (py "os2_fs_type") (VInt v) (py "openTypeOS2Type") (IList l)
| sets_class : forall v c s, v = 256 * c + s -> 0 <= s < 256 ->
    tt_sets (py "os2_s_family_class") (VInt v) (py "openTypeOS2FamilyClass") (IList [c; s])
| sets_width : forall v, v <> 0 ->
    tt_sets (py "Average Width") (VInt v) (py "postscriptNominalWidthX") (IInt (Z.abs v))
| sets_flags : forall l o,
    tt_sets (py "head_flags") (VFlags l o) (py "openTypeHeadFlags") (IList l)
| sets_pages : forall r1 r2 l, l <> [] -> is_bit_list (r1 + 2 ^ 32 * r2) 0 l ->
    tt_sets (py "Codepages") (VPages r1 r2) (py "openTypeOS2CodePageRanges") (IList l).
(** what the exporter can take: no negative bit fields, 32-bit values where bits are counted, and
    the kinds of values that the parser makes *)
Definition tt_item_ok (kv : pystr * tt_value) : Prop :=
  match kv with
  | (k, VInt v) =>
      (k = py "os2_fs_type" -> 0 <= v) /\ (k = py "head_creation" -> - 2 ^ 31 <= v < 2 ^ 31)
  | (k, VPages r1 r2) => k = py "Codepages" /\ 0 <= r1 < 2 ^ 32 /\ 0 <= r2
  | _ => True
  end.
