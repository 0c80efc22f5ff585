(** Model of ufo/time.py and ufo/info.py. *)
From Coq Require Import String.
From Verif Require Import Base M_Py M_Helpers M_Text M_TrueType.
Local Open Scope list_scope.

(** ** Timestamps: ufo/time.py *)
(** line 3 *)
Definition TIME_ZERO : Z := 2082841200.

(** An aware [datetime] in UTC. Of Python's library: [datetime.fromtimestamp(t, UTC)] and
    [datetime.timestamp], for whole days by the proleptic Gregorian calendar. [dt_micro] is the
    [microsecond] attribute. Naive dates, which Python takes for local time, are left out. *)
Record datetime := DateTime
  { dt_year : Z; dt_month : Z; dt_day : Z; dt_hour : Z; dt_minute : Z; dt_second : Z; dt_micro : Z }.

Definition is_leap (y : Z) : bool := (y mod 4 =? 0) && (negb (y mod 100 =? 0) || (y mod 400 =? 0)).
Definition month_days (y m : Z) : Z :=
  if m =? 2 then (if is_leap y then 29 else 28)
  else if (m =? 4) || (m =? 6) || (m =? 9) || (m =? 11) then 30 else 31.
(** [_days_before_year], [_days_before_month], [_ymd2ord] of the library *)
Definition days_before_year (y : Z) : Z :=
  (y - 1) * 365 + (y - 1) / 4 - (y - 1) / 100 + (y - 1) / 400.
Definition days_before_month (y m : Z) : Z :=
  nth (Z.to_nat (m - 1)) [0; 31; 59; 90; 120; 151; 181; 212; 243; 273; 304; 334] 0
  + (if (2 <? m) && is_leap y then 1 else 0).
Definition ymd2ord (y m d : Z) : Z := days_before_year y + days_before_month y m + d.
Definition EPOCH_ORD : Z := 719163.
(** the whole seconds of [datetime.timestamp(d)]; the fraction is [dt_micro / 10^6] *)
Definition epoch_seconds (d : datetime) : Z :=
  (ymd2ord (dt_year d) (dt_month d) (dt_day d) - EPOCH_ORD) * 86400
  + dt_hour d * 3600 + dt_minute d * 60 + dt_second d.
(** [int(datetime.timestamp(d))]: truncation goes towards zero *)
Definition int_timestamp (d : datetime) : Z :=
  let s := epoch_seconds d in if (s <? 0) && (0 <? dt_micro d) then s + 1 else s.

(** year and day in the year, starting in year [y] with day [n] counted from 0 *)
Fixpoint find_year (fuel : nat) (y n : Z) : Z * Z :=
  match fuel with
  | O => (y, n)
  | S f => let len := if is_leap y then 366 else 365 in
           if n <? len then (y, n) else find_year f (y + 1) (n - len)
  end.
Fixpoint find_month (fuel : nat) (y m n : Z) : Z * Z :=
  match fuel with
  | O => (m, n)
  | S f => if n <? month_days y m then (m, n) else find_month f y (m + 1) (n - month_days y m)
  end.
(** [datetime.fromtimestamp(t, UTC)] for [0 <= t] *)
Definition fromtimestamp (t : Z) : datetime :=
  let days := t / 86400 in let rest := t mod 86400 in
  let '(y, n) := find_year (S (Z.to_nat (days / 365))) 1970 days in
  let '(m, d) := find_month 12 y 1 n in
  DateTime y m (d + 1) (rest / 3600) (rest / 60 mod 60) (rest mod 60) 0.

(** lines 6-17 [convert_timestamp]; [to_bytes] and [from_bytes] are big-endian by default *)
Definition convert_timestamp (t : Z) : res datetime :=
  rthen (if srange 4 t then Ok (be_enc 4 t) else Err OverflowError) (fun b =>
  let t := be_dec b in
  let t := if t <? TIME_ZERO then TIME_ZERO else t in
  Ok (fromtimestamp (t - TIME_ZERO))).
(** lines 20-29 [datetime_to_fl] *)
Definition datetime_to_fl (d : datetime) : res Z :=
  let ts := int_timestamp d + TIME_ZERO in
  if ts <? TIME_ZERO then Ok TIME_ZERO
  else rthen (if urange 4 ts then Ok (be_enc 4 ts) else Err OverflowError) (fun b => Ok (be_dec_s b)).

(** [strftime("%Y/%m/%d %H:%M:%S")] for years from 1000 on *)
Definition dec2 (n : Z) : pystr := [48 + n / 10; 48 + n mod 10].
Definition date_text (d : datetime) : pystr :=
  dec_nat (dt_year d) ++ [47] ++ dec2 (dt_month d) ++ [47] ++ dec2 (dt_day d) ++ [32]
  ++ dec2 (dt_hour d) ++ [58] ++ dec2 (dt_minute d) ++ [58] ++ dec2 (dt_second d).

(** ** Font info: ufo/info.py *)
(** The attributes of the info object that these methods set, by name. [lib] is the dict
    [self.lib[TT_UFO_LIB_KEY]], which is there from the first value on. *)
Inductive info_val := IInt (z : Z) | IDouble (bits : Z) | IBool (b : bool) | IStr (s : pystr) | IList (l : list Z)
| IGasp (l : list (Z * list Z)) | INames (l : list name_record) | IDict (d : list (pystr * Z)).
Record info := mkInfo { if_attrs : list (pystr * info_val); if_lib : option (list (pystr * info_val)) }.
Definition setattr (k : pystr) (v : info_val) (i : info) : info :=
  mkInfo (aset str_eqb k v (if_attrs i)) (if_lib i).

(** lines 22-29 *)
Definition maxp_keys : list (pystr * pystr) :=
  [(py "max_zones", py "maxZones"); (py "max_twilight_points", py "maxTwilightPoints");
   (py "max_storage", py "maxStorage"); (py "max_function_defs", py "maxFunctionDefs");
   (py "max_instruction_defs", py "maxInstructionDefs");
   (py "max_stack_elements", py "maxStackElements")].
(** lines 184-212 [mapping_int] *)
Definition mapping_int : list (pystr * pystr) :=
  [(py "os2_us_width_class", py "openTypeOS2WidthClass");
   (py "head_lowest_rec_ppem", py "openTypeHeadLowestRecPPEM");
   (py "os2_y_subscript_x_size", py "openTypeOS2SubscriptXSize");
   (py "os2_y_subscript_y_size", py "openTypeOS2SubscriptYSize");
   (py "os2_y_subscript_x_offset", py "openTypeOS2SubscriptXOffset");
   (py "os2_y_subscript_y_offset", py "openTypeOS2SubscriptYOffset");
   (py "os2_y_superscript_x_size", py "openTypeOS2SuperscriptXSize");
   (py "os2_y_superscript_y_size", py "openTypeOS2SuperscriptYSize");
   (py "os2_y_superscript_x_offset", py "openTypeOS2SuperscriptXOffset");
   (py "os2_y_superscript_y_offset", py "openTypeOS2SuperscriptYOffset");
   (py "os2_y_strikeout_size", py "openTypeOS2StrikeoutSize");
   (py "os2_y_strikeout_position", py "openTypeOS2StrikeoutPosition");
   (py "os2_s_typo_ascender", py "openTypeOS2TypoAscender");
   (py "os2_s_typo_descender", py "openTypeOS2TypoDescender");
   (py "os2_s_typo_line_gap", py "openTypeOS2TypoLineGap");
   (py "os2_us_win_ascent", py "openTypeOS2WinAscent");
   (py "os2_us_win_descent", py "openTypeOS2WinDescent")].

(** lines 352-356 [set_tt_instructions] *)
Definition set_tt_instructions (k : pystr) (v : info_val) (i : info) : info :=
  let d := match if_lib i with Some d => d | None => [(py "formatVersion", IStr (py "1"))] end in
  mkInfo (if_attrs i) (Some (aset str_eqb k v d)).
(** lines 233-234 [set_created_timestamp] *)
Definition set_created_timestamp (t : Z) (i : info) : res info :=
  rmap (fun d => setattr (py "openTypeHeadCreated") (IStr (date_text d)) i) (convert_timestamp t).
(** lines 306-309 *)
Definition family_class (v : Z) : list Z :=
  let c := Z.shiftr v 8 in let s := Z.land v (Z.lnot (Z.shiftl c 8)) in [c; s].
(** lines 338-343 *)
Definition code_pages (range1 range2 : Z) : res (list Z) :=
  rthen (binaryToIntList range1 0) (fun r1 =>
  rthen (binaryToIntList range2 0) (fun r2 => Ok (r1 ++ map (fun cp => cp + 32) r2))).

(** lines 294-347, the body of the loop of [set_tt_info] *)
Definition set_tt_item (i : info) (kv : pystr * tt_value) : res info :=
  let '(k, v) := kv in
  match v with
  | VInt v =>
      match aget str_eqb k mapping_int with
      | Some attr => Ok (setattr attr (IInt v) i)
      | None =>
          if str_eqb k (py "head_creation") then set_created_timestamp v i
          else if str_eqb k (py "head_font_direction_hint") then Ok i
          else if str_eqb k (py "os2_fs_type") then
            rmap (fun l => setattr (py "openTypeOS2Type") (IList l) i) (binaryToIntList v 0)
          else if str_eqb k (py "os2_s_family_class") then
            Ok (setattr (py "openTypeOS2FamilyClass") (IList (family_class v)) i)
          else if str_eqb k (py "os2_us_weight_class") then Ok i
          else if str_eqb k (py "os2_fs_selection") then Ok i
          else match aget str_eqb k maxp_keys with
          | Some key => Ok (set_tt_instructions key (IInt v) i)
          | None =>
              if str_eqb k (py "Average Width") then
                Ok (if v =? 0 then i else setattr (py "postscriptNominalWidthX") (IInt (Z.abs v)) i)
              else Ok i
          end
      end
  | VList _ => Ok i
  | VFlags flags _ =>
      if str_eqb k (py "head_flags") then Ok (setattr (py "openTypeHeadFlags") (IList flags) i)
      else Ok i
  | VPages r1 r2 =>
      if str_eqb k (py "head_flags") then Ok (setattr (py "openTypeHeadFlags") (IList []) i)
      else if str_eqb k (py "Codepages") then
        rmap (fun ranges => match ranges with
                            | [] => i
                            | _ => setattr (py "openTypeOS2CodePageRanges") (IList ranges) i
                            end) (code_pages r1 r2)
      else Ok i
  end.
Fixpoint set_tt_info (i : info) (data : tt_info) : res info :=
  match data with
  | [] => Ok i
  | kv :: data' => rthen (set_tt_item i kv) (fun i => set_tt_info i data')
  end.

(** lines 236-237 [set_fixed_pitch] *)
Definition set_fixed_pitch (v : Z) (i : info) : info :=
  setattr (py "postscriptIsFixedPitch") (IBool (negb (v =? 0))) i.
(** lines 349-350 [set_weight_class] *)
Definition weight_class (v : Z) : Z := Z.min (Z.max 1 v) 1000.
Definition set_weight_class (v : Z) (i : info) : info :=
  setattr (py "openTypeOS2WeightClass") (IInt (weight_class v)) i.
(** lines 256-276 [set_selection] *)
Definition has (b : Z) (l : list Z) : bool := existsb (Z.eqb b) l.
Definition style_parts (intlist : list Z) : list pystr :=
  (if has 6 intlist then [py "regular"] else if has 5 intlist then [py "bold"] else [])
  ++ (if has 0 intlist then [py "italic"] else []).
Definition join_space (l : list pystr) : pystr :=
  match l with [] => [] | x :: l => fold_left (fun acc s => acc ++ [32] ++ s) l x end.
Definition set_selection (v : Z) (i : info) : res info :=
  rmap (fun intlist =>
    let i := setattr (py "openTypeOS2Selection") (IList (filter (fun b => negb (has b [0; 5; 6])) intlist)) i in
    match style_parts intlist with
    | [] => i
    | parts => setattr (py "styleMapStyleName") (IStr (join_space parts)) i
    end) (binaryToIntList v 0).
(** lines 282-292 [set_tt_gasp] *)
Fixpoint gasp_records (l : list gasp_rec) : res (list (Z * list Z)) :=
  match l with
  | [] => Ok []
  | r :: l => rthen (binaryToIntList (gr_flags r) 0) (fun b =>
              rmap (cons (gr_ppem r, b)) (gasp_records l))
  end.
Definition set_tt_gasp (l : list gasp_rec) (i : info) : res info :=
  rmap (fun g => setattr (py "openTypeGaspRangeRecords") (IGasp g) i) (gasp_records l).

(** lines 214-228 [fix_underline_position], both values set; [round] takes halves to the even
    neighbour. Values beyond 2^53, where [0.5 * t] is not exact, cannot come from a VFB. *)
Definition round_half (t : Z) : Z :=
  if Z.even t then t / 2 else if Z.even (t / 2) then t / 2 else t / 2 + 1.
Definition fix_underline (position thickness : Z) : Z := position + round_half thickness.
