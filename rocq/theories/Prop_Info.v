(** C48, C55: dates and font info. *)
From Coq Require Import String ZifyBool ZifyNat.
From Verif Require Import Base M_Py M_Helpers M_Text M_TrueType M_Info S_Bits S_Info Lib P_Helpers P_Dec P_Info.
Local Open Scope list_scope.

(** ** C48 *)
(** Every 32-bit timestamp becomes the moment that many seconds after the epoch (timestamps before
    the epoch become the epoch), and converting back gives the timestamp (or that of the epoch). *)
Theorem C48_from_timestamp : forall t, - 2 ^ 31 <= t < 2 ^ 31 ->
  exists d, convert_timestamp t = Ok d /\ valid_date d /\
    seconds_after (Z.to_nat (unsigned32 t - 2082841200)) d /\
    datetime_to_fl d = Ok (if unsigned32 t <? 2082841200 then 2082841200 else t).
Proof.
  intros t H. set (s := Z.max 0 (unsigned32 t - TIME_ZERO)).
  exists (fromtimestamp s). split; [now apply convert_ok|].
  destruct (fromtimestamp_spec s ltac:(lia)) as (O & E & U). split; [now apply valid_ok|]. split.
  - apply seconds_after_iff. f_equal. unfold s, TIME_ZERO. lia.
  - unfold datetime_to_fl, int_timestamp. rewrite E, U.
    replace ((s <? 0) && (0 <? 0)) with false by lia.
    replace (s + TIME_ZERO <? TIME_ZERO) with false by lia.
    assert (R : 0 <= s + TIME_ZERO < 2 ^ 32).
    { unfold s, unsigned32, TIME_ZERO. destruct (t <? 0) eqn:?; lia. }
    replace (urange 4 (s + TIME_ZERO)) with true.
    2:{ unfold urange, in_range. change (2 ^ (8 * Z.of_nat 4)) with (2 ^ 32). lia. }
    cbn [rthen]. rewrite be_dec_s_u by assumption. f_equal. unfold s, unsigned32, TIME_ZERO in *.
    destruct (t <? 0) eqn:Et;
      match goal with |- context [if ?b then _ else _ - _] => destruct b eqn:Eb end;
      match goal with |- context [if ?b then 2082841200 else _] => destruct b eqn:Ec end; lia.
Qed.
(** From dates: those from the epoch to 2040-02-06 07:28:15 keep their seconds; earlier ones become the
    epoch, later ones are rejected. *)
Theorem C48_from_date : forall d, valid_date d ->
  (0 <= int_timestamp d < 2 ^ 32 - 2082841200 ->
     exists t, datetime_to_fl d = Ok t /\ - 2 ^ 31 <= t < 2 ^ 31 /\
       (0 <= epoch_seconds d -> convert_timestamp t =
          Ok (DateTime (dt_year d) (dt_month d) (dt_day d) (dt_hour d) (dt_minute d) (dt_second d) 0))) /\
  (int_timestamp d < 0 -> datetime_to_fl d = Ok 2082841200 /\ convert_timestamp 2082841200 = Ok epoch) /\
  (2 ^ 32 - 2082841200 <= int_timestamp d -> datetime_to_fl d = Err OverflowError).
Proof.
  intros d V. apply valid_ok in V. split; [|split].
  - intros H. unfold datetime_to_fl. replace (int_timestamp d + TIME_ZERO <? TIME_ZERO) with false by lia.
    replace (urange 4 (int_timestamp d + TIME_ZERO)) with true.
    2:{ unfold urange, in_range, TIME_ZERO. change (2 ^ (8 * Z.of_nat 4)) with (2 ^ 32). lia. }
    cbn [rthen]. rewrite be_dec_s_u by (unfold TIME_ZERO; lia). eexists. split; [reflexivity|].
    assert (R : - 2 ^ 31 <= (if int_timestamp d + TIME_ZERO <? 2 ^ 31 then int_timestamp d + TIME_ZERO
                 else int_timestamp d + TIME_ZERO - 2 ^ 32) < 2 ^ 31).
    { unfold TIME_ZERO. destruct (_ <? _) eqn:E; lia. }
    split; [exact R|]. intros P. rewrite convert_ok by exact R. f_equal.
    rewrite <- from_epoch by assumption. f_equal.
    assert (Ei : int_timestamp d = epoch_seconds d).
    { unfold int_timestamp. replace (epoch_seconds d <? 0) with false by lia. reflexivity. }
    rewrite Ei in *. unfold unsigned32, TIME_ZERO in *. destruct (epoch_seconds d + 2082841200 <? 2 ^ 31) eqn:E1;
      match goal with |- context [if ?b then _ else _] => destruct b eqn:E2 end; lia.
  - intros H. unfold datetime_to_fl. replace (int_timestamp d + TIME_ZERO <? TIME_ZERO) with true by lia.
    split; [reflexivity|]. rewrite convert_ok by lia. reflexivity.
  - intros H. unfold datetime_to_fl. replace (int_timestamp d + TIME_ZERO <? TIME_ZERO) with false by lia.
    replace (urange 4 (int_timestamp d + TIME_ZERO)) with false; [reflexivity|].
    unfold urange, in_range, TIME_ZERO. change (2 ^ (8 * Z.of_nat 4)) with (2 ^ 32). lia.
Qed.
(** a fraction of a second is cut off, so the second that precedes the epoch is rounded up to it *)
Theorem C48_seconds : forall d, valid_date d -> forall n, seconds_after n d -> int_timestamp d = Z.of_nat n.
Proof.
  intros d _ n H. apply seconds_after_ok in H. destruct H as (_ & E & _). unfold int_timestamp. rewrite E.
  replace (Z.of_nat n <? 0) with false by lia. reflexivity.
Qed.
(** other numbers are no timestamps *)
Theorem C48_rejected : forall t, ~ (- 2 ^ 31 <= t < 2 ^ 31) -> convert_timestamp t = Err OverflowError.
Proof.
  intros t H. unfold convert_timestamp. replace (srange 4 t) with false; [reflexivity|].
  unfold srange, in_range. change (2 ^ (8 * Z.of_nat 4 - 1)) with (2 ^ 31). lia.
Qed.

Lemma dec2_inj : forall a b s s', 0 <= a < 100 -> 0 <= b < 100 -> dec2 a ++ s = dec2 b ++ s' -> a = b /\ s = s'.
Proof.
  intros a b s s' Ha Hb E. unfold dec2 in E. cbn [app] in E.
  pose proof (f_equal (fun l => nth 0 l 0) E) as E1. pose proof (f_equal (fun l => nth 1 l 0) E) as E2.
  pose proof (f_equal (fun l => skipn 2 l) E) as E3. cbn [nth skipn] in *. split; [|assumption]. pose proof (Z.div_mod a 10). pose proof (Z.div_mod b 10). lia.
Qed.
Lemma tail_eq : forall (x : Z) a b, x :: a = x :: b -> a = b.
Proof. intros x a b E. exact (f_equal (@tl Z) E). Qed.
Lemma year_split : forall a b s s', Forall (fun c => 48 <= c <= 57) a -> Forall (fun c => 48 <= c <= 57) b ->
  a ++ 47 :: s = b ++ 47 :: s' -> a = b /\ s = s'.
Proof.
  induction a as [|x a IH]; intros [|y b] s s' Fa Fb E; cbn [app] in E.
  - injection E as E. auto.
  - injection E as E _. inversion Fb. lia.
  - injection E as E _. inversion Fa. lia.
  - injection E as -> E. inversion Fa; inversion Fb; subst. destruct (IH b s s') as [-> ->]; auto.
Qed.
(** The text in the UFO tells the moment: equal texts come from equal moments. *)
Theorem C48_text : forall t t' d d', convert_timestamp t = Ok d -> convert_timestamp t' = Ok d' ->
  date_text d = date_text d' -> d = d'.
Proof.
  assert (V : forall t d, convert_timestamp t = Ok d -> date_ok d /\ dt_micro d = 0).
  { intros t d E. destruct (Z_le_gt_dec (- 2 ^ 31) t) as [L|L].
    - destruct (Z_lt_ge_dec t (2 ^ 31)) as [L'|L'].
      + rewrite convert_ok in E by lia. injection E as <-.
        match goal with |- context [fromtimestamp ?s] => destruct (fromtimestamp_spec s ltac:(lia)) as (O & _ & U) end. auto.
      + rewrite C48_rejected in E by lia. discriminate.
    - rewrite C48_rejected in E by lia. discriminate. }
  intros t t' d d' E E' T. destruct (V _ _ E) as [O U], (V _ _ E') as [O' U'].
  destruct d as [y m dd h i s u], d' as [y' m' dd' h' i' s' u'].
  destruct O as (H1 & H2 & H3 & H4 & H5 & H6 & H7), O' as (K1 & K2 & K3 & K4 & K5 & K6 & K7).
  unfold date_text in T. cbn [dt_year dt_month dt_day dt_hour dt_minute dt_second dt_micro] in *.
  pose proof (month_pos y m). pose proof (month_pos y' m').
  cbn [app] in T. apply year_split in T; [|apply dec_nat_digits; lia|apply dec_nat_digits; lia].
  destruct T as [Ty T]. apply (f_equal dec_val) in Ty. rewrite !dec_nat_val in Ty by lia.
  apply dec2_inj in T; [|lia|lia]. destruct T as [-> T]. apply tail_eq in T.
  apply dec2_inj in T; [|lia|lia]. destruct T as [-> T]. apply tail_eq in T.
  apply dec2_inj in T; [|lia|lia]. destruct T as [-> T]. apply tail_eq in T.
  apply dec2_inj in T; [|lia|lia]. destruct T as [-> T]. apply tail_eq in T.
  rewrite <- (app_nil_r (dec2 s)), <- (app_nil_r (dec2 s')) in T.
  apply dec2_inj in T; [|lia|lia]. destruct T as [-> _]. congruence.
Qed.
Example C48_ex : convert_timestamp (-843412000) = Ok (DateTime 2013 5 16 14 21 36 0) /\
  datetime_to_fl (DateTime 2013 5 16 14 21 36 0) = Ok (-843412000) /\
  date_text (DateTime 2013 5 16 14 21 36 0) = py "2013/05/16 14:21:36".
Proof. vm_compute. auto. Qed.
Example C48_ex2 : convert_timestamp (-1) = Ok (DateTime 2040 2 6 7 28 15 0) /\
  convert_timestamp 0 = Ok epoch.
Proof. vm_compute. auto. Qed.

(** ** C55 *)
Theorem C55_family_class : forall v, exists c s, family_class v = [c; s] /\ v = 256 * c + s /\ 0 <= s < 256.
Proof. exact family_class_spec. Qed.
Theorem C55_weight_class : forall v, let w := weight_class v in 1 <= w <= 1000 /\
  (1 <= v <= 1000 -> w = v) /\ (v < 1 -> w = 1) /\ (1000 < v -> w = 1000).
Proof. intros v. unfold weight_class. lia. Qed.
Theorem C55_code_pages : forall r1 r2, 0 <= r1 < 2 ^ 32 -> 0 <= r2 ->
  exists l, code_pages r1 r2 = Ok l /\ is_bit_list (r1 + 2 ^ 32 * r2) 0 l.
Proof. exact code_pages_spec. Qed.

(** The selection: all bits but those of the style, which give the style name. *)
Definition style_of (v : Z) : option pystr :=
  match Z.testbit v 6, Z.testbit v 5, Z.testbit v 0 with
  | true, _, false => Some (py "regular")
  | true, _, true => Some (py "regular italic")
  | false, true, false => Some (py "bold")
  | false, true, true => Some (py "bold italic")
  | false, false, true => Some (py "italic")
  | false, false, false => None
  end.
Theorem C55_selection : forall v i, 0 <= v -> exists i' l, set_selection v i = Ok i' /\
  aget str_eqb (py "openTypeOS2Selection") (if_attrs i') = Some (IList l) /\
  StronglySorted Z.lt l /\
  (forall b, In b l <-> 0 <= b /\ Z.testbit v b = true /\ b <> 0 /\ b <> 5 /\ b <> 6) /\
  aget str_eqb (py "styleMapStyleName") (if_attrs i') =
    match style_of v with Some s => Some (IStr s) | None => aget str_eqb (py "styleMapStyleName") (if_attrs i) end /\
  (forall a, a <> py "openTypeOS2Selection" -> a <> py "styleMapStyleName" ->
     aget str_eqb a (if_attrs i') = aget str_eqb a (if_attrs i)) /\ if_lib i' = if_lib i.
Proof.
  intros v i Hv. destruct (binaryToIntList_spec v 0 Hv) as (l & E & S & B).
  unfold set_selection. rewrite E. cbn [rmap].
  assert (Hh : forall b, 0 <= b -> has b l = Z.testbit v b).
  { intros b Hb. unfold has. destruct (existsb (Z.eqb b) l) eqn:X.
    - apply existsb_exists in X. destruct X as (x & I & Q). apply Z.eqb_eq in Q. subst x. apply B in I.
      rewrite Z.sub_0_r in I. symmetry. tauto.
    - destruct (Z.testbit v b) eqn:T; [|reflexivity]. assert (existsb (Z.eqb b) l = true); [|congruence].
      apply existsb_exists. exists b. split; [|apply Z.eqb_refl]. apply B. rewrite Z.sub_0_r. auto. }
  assert (SN : join_space (style_parts l) = match style_of v with Some s => s | None => [] end /\
               (style_parts l = [] <-> style_of v = None)).
  { unfold style_parts, style_of. rewrite !Hh by lia.
    destruct (Z.testbit v 6), (Z.testbit v 5), (Z.testbit v 0); split; try reflexivity; split; try reflexivity; discriminate. }
  set (F := filter (fun b => negb (has b [0; 5; 6])) l).
  assert (SF : StronglySorted Z.lt F).
  { unfold F. clear - S. induction S as [|a l S IH Fa]; [constructor|]. cbn [filter]. destruct (negb _); [|assumption].
    constructor; [assumption|]. rewrite Forall_forall in *. intros x I. apply filter_In in I. apply Fa. tauto. }
  assert (InF : forall b, In b F <-> 0 <= b /\ Z.testbit v b = true /\ b <> 0 /\ b <> 5 /\ b <> 6).
  { intros b. unfold F. rewrite filter_In, B, Z.sub_0_r. unfold has. cbn [existsb].
    rewrite negb_true_iff, !orb_false_iff, !Z.eqb_neq. tauto. }
  destruct SN as [SN1 SN2].
  assert (G : forall a k x (i0 : info), aget str_eqb a (if_attrs (setattr k x i0)) =
    if str_eqb a k then Some x else aget str_eqb a (if_attrs i0)).
  { intros a k x i0. cbn [setattr if_attrs]. apply (aget_aset str_eqb str_eqb_eq). }
  assert (N12 : str_eqb (py "openTypeOS2Selection") (py "styleMapStyleName") = false) by reflexivity.
  assert (N21 : str_eqb (py "styleMapStyleName") (py "openTypeOS2Selection") = false) by reflexivity.
  destruct (style_parts l) as [|p ps] eqn:P.
  - exists (setattr (py "openTypeOS2Selection") (IList F) i), F. split; [reflexivity|].
    rewrite (proj1 SN2 eq_refl). rewrite !G, str_eqb_refl, N21. repeat (split; [auto; fail|]). split; [|reflexivity].
    intros a N1 N2. rewrite G. now rewrite (proj2 (str_eqb_neq _ _) N1).
  - eexists. exists F. split; [reflexivity|]. rewrite SN1.
    destruct (style_of v) as [st|] eqn:St; [|destruct SN2 as [_ SN2]; specialize (SN2 eq_refl); discriminate].
    rewrite !G, !str_eqb_refl, N12. repeat (split; [auto; fail|]). split; [|reflexivity].
    intros a N1 N2. rewrite !G. now rewrite (proj2 (str_eqb_neq _ _) N1), (proj2 (str_eqb_neq _ _) N2).
Qed.

(** The TrueType info: every item that has a place in the UFO info is there with its value, and no
    other attribute is touched; the six [maxp] numbers are in the TrueType lib. *)
Theorem C55_tt_info : forall data i, NoDup (map fst data) -> Forall tt_item_ok data ->
  exists i', set_tt_info i data = Ok i' /\
    (forall k v a x, In (k, v) data -> tt_sets k v a x -> aget str_eqb a (if_attrs i') = Some x) /\
    (forall a, (forall k v x, In (k, v) data -> ~ tt_sets k v a x) ->
       aget str_eqb a (if_attrs i') = aget str_eqb a (if_attrs i)) /\
    (forall k key n, In (k, key) tt_lib_keys -> In (k, VInt n) data ->
       exists d, if_lib i' = Some d /\ aget str_eqb key d = Some (IInt n)).
Proof.
  intros data i N F. destruct (set_info_ok data i N F) as (i' & E & S & K & M & _). exists i'. auto.
Qed.
(** A VFB can make the exporter loop forever: [os2_fs_type] is read as a signed number. *)
Theorem C55_negative_refuted : exists bytes data, bytes_ok bytes /\ run_parser parse_tt_info bytes = Ok data /\
  forall i, set_tt_info i data = Err Diverge.
Proof.
  exists [0x40; 138; 0x32]. eexists. split; [repeat constructor; unfold is_byte; lia|].
  split; [vm_compute; reflexivity|]. intros i. cbn [set_tt_info]. unfold set_tt_item.
  cbn [aget mapping_int].
  replace (aget str_eqb (tt_key 64) mapping_int) with (@None pystr) by reflexivity.
  cbn [rthen rmap]. reflexivity.
Qed.

(** Underline: the exported position is the VFB's plus half the thickness, rounded to a nearest
    integer, halves to the even one. *)
Theorem C55_underline : forall p t, let r := fix_underline p t - p in
  Z.abs (2 * r - t) <= 1 /\ (Z.abs (2 * r - t) = 1 -> Z.even r = true).
Proof.
  intros p t. unfold fix_underline, round_half. replace (p + _ - p) with (if Z.even t then t / 2 else if Z.even (t / 2) then t / 2 else t / 2 + 1) by lia.
  pose proof (Z.div_mod t 2 ltac:(lia)) as D. pose proof (Zmod_even t) as M.
  destruct (Z.even t) eqn:E.
  - split; [lia|]. intros H. lia.
  - destruct (Z.even (t / 2)) eqn:E2; split; try lia; intros _; [assumption|].
    rewrite Z.even_add, E2. reflexivity.
Qed.

Example C55_ex : exists i, set_tt_info (mkInfo [] None)
  [(py "os2_fs_type", VInt 9); (py "os2_s_family_class", VInt 2050); (py "Codepages", VPages 3 1);
   (py "max_zones", VInt 2); (py "os2_us_win_ascent", VInt 900); (py "head_creation", VInt (-843412000))] = Ok i /\
  if_attrs i = [(py "openTypeOS2Type", IList [0; 3]); (py "openTypeOS2FamilyClass", IList [8; 2]);
    (py "openTypeOS2CodePageRanges", IList [0; 1; 32]); (py "openTypeOS2WinAscent", IInt 900);
    (py "openTypeHeadCreated", IStr (py "2013/05/16 14:21:36"))] /\
  if_lib i = Some [(py "formatVersion", IStr (py "1")); (py "maxZones", IInt 2)].
Proof. eexists. split; [vm_compute; reflexivity|]. split; reflexivity. Qed.
Example C55_hyp : tt_item_ok (py "os2_fs_type", VInt 9) /\ tt_item_ok (py "Codepages", VPages 3 1).
Proof. cbn. repeat split; try lia; discriminate. Qed.

Print Assumptions C48_from_timestamp.
Print Assumptions C48_from_date.
Print Assumptions C48_text.
Print Assumptions C55_selection.
Print Assumptions C55_tt_info.
Print Assumptions C55_negative_refuted.
