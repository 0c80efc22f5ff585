(** Proofs about dates and the font info. *)
From Coq Require Import String ZifyBool ZifyNat.
From Verif Require Import Base M_Py M_Helpers M_Text M_TrueType M_Info S_Bits S_Info Lib P_Helpers P_Dec.
Local Open Scope list_scope.

(** ** Calendar *)
Lemma leap_spec : forall y, is_leap y = true <-> leap y.
Proof.
  intros y. unfold is_leap, leap. rewrite <- !Z.mod_divide by lia. 
  rewrite andb_true_iff, orb_true_iff, negb_true_iff, !Z.eqb_eq, Z.eqb_neq. tauto.
Qed.
Lemma month_spec : forall y m n, 1 <= m <= 12 -> (days_of y m n <-> n = month_days y m).
Proof.
  intros y m n H. unfold days_of, month_days. rewrite <- leap_spec.
  assert (E : m = 1 \/ m = 2 \/ m = 3 \/ m = 4 \/ m = 5 \/ m = 6 \/ m = 7 \/ m = 8 \/ m = 9 \/ m = 10 \/ m = 11 \/ m = 12) by lia.
  destruct (is_leap y);
  repeat match goal with H : _ \/ _ |- _ => destruct H end; subst m; cbn; intuition (try discriminate; try lia).
Qed.
Lemma year_step : forall y, days_before_year (y + 1) = days_before_year y + (if is_leap y then 366 else 365).
Proof.
  intros y. unfold days_before_year, is_leap.
  replace (y + 1 - 1) with y by lia.
  destruct (y mod 4 =? 0) eqn:A; destruct (y mod 100 =? 0) eqn:B; destruct (y mod 400 =? 0) eqn:C; cbn [andb orb negb];
    Z.to_euclidean_division_equations; lia.
Qed.
Lemma year_mono : forall y y', y <= y' -> days_before_year y <= days_before_year y'.
Proof.
  intros y y' H. unfold days_before_year. Z.to_euclidean_division_equations; lia.
Qed.
Lemma month_cases : forall m, 1 <= m <= 12 ->
  m = 1 \/ m = 2 \/ m = 3 \/ m = 4 \/ m = 5 \/ m = 6 \/ m = 7 \/ m = 8 \/ m = 9 \/ m = 10 \/ m = 11 \/ m = 12.
Proof. lia. Qed.
Lemma month_step : forall y m, 1 <= m < 12 ->
  days_before_month y (m + 1) = days_before_month y m + month_days y m.
Proof.
  intros y m H. assert (H' : 1 <= m <= 12) by lia. unfold days_before_month, month_days.
  assert (C : m = 1 \/ m = 2 \/ m = 3 \/ m = 4 \/ m = 5 \/ m = 6 \/ m = 7 \/ m = 8 \/ m = 9 \/ m = 10 \/ m = 11) by lia.
  clear H H'. destruct (is_leap y); repeat match goal with H : _ \/ _ |- _ => destruct H end; subst m; reflexivity.
Qed.
Lemma month_last : forall y, days_before_month y 12 + 31 = if is_leap y then 366 else 365.
Proof. intros y. unfold days_before_month. cbn. destruct (is_leap y); reflexivity. Qed.
Lemma month_pos : forall y m, 28 <= month_days y m <= 31.
Proof.
  intros. unfold month_days. destruct (m =? 2); [destruct (is_leap y); lia|].
  destruct (_ || _); lia.
Qed.
Lemma month_mono : forall y m m', 1 <= m -> m < m' -> m' <= 12 ->
  days_before_month y m + month_days y m <= days_before_month y m'.
Proof.
  intros y m m' H1 H2 H3. revert H3. apply (Zlt_lower_bound_ind (fun m' => m' <= 12 -> days_before_month y m + month_days y m <= days_before_month y m') (m + 1)); [|lia].
  intros k IH Hk H3. destruct (Z.eq_dec k (m + 1)) as [->|N].
  - rewrite month_step; lia.
  - replace k with (k - 1 + 1) by lia. rewrite month_step by lia.
    pose proof (month_pos y (k - 1)). specialize (IH (k - 1) ltac:(lia) ltac:(lia)). lia.
Qed.
Lemma month_total : forall y m, 1 <= m <= 12 ->
  0 <= days_before_month y m /\ days_before_month y m + month_days y m <= (if is_leap y then 366 else 365).
Proof.
  intros y m H. pose proof (month_last y). split.
  - unfold days_before_month. apply month_cases in H. destruct (is_leap y);
      repeat match goal with H : _ \/ _ |- _ => destruct H end; subst m; vm_compute; discriminate.
  - destruct (Z.eq_dec m 12) as [->|N]; [change (month_days y 12) with 31; lia|].
    pose proof (month_mono y m 12 ltac:(lia) ltac:(lia) ltac:(lia)). lia.
Qed.

Definition date_ok (d : datetime) : Prop :=
  1 <= dt_year d /\ 1 <= dt_month d <= 12 /\ 1 <= dt_day d <= month_days (dt_year d) (dt_month d) /\
  0 <= dt_hour d < 24 /\ 0 <= dt_minute d < 60 /\ 0 <= dt_second d < 60 /\ 0 <= dt_micro d < 1000000.
Lemma valid_ok : forall d, valid_date d <-> date_ok d.
Proof.
  intros d. unfold valid_date, date_ok. split.
  - intros (H1 & H2 & (n & Hn & H3) & H4). apply month_spec in Hn; [|assumption]. subst n. tauto.
  - intros (H1 & H2 & H3 & H4). repeat (split; [tauto|]). split; [|tauto].
    exists (month_days (dt_year d) (dt_month d)). split; [now apply month_spec|assumption].
Qed.

Lemma ord_bounds : forall y m d, 1 <= m <= 12 -> 1 <= d <= month_days y m ->
  days_before_year y < ymd2ord y m d <= days_before_year (y + 1).
Proof.
  intros y m d Hm Hd. unfold ymd2ord. rewrite year_step. pose proof (month_total y m Hm). lia.
Qed.
Lemma ord_inj : forall y m d y' m' d', 1 <= m <= 12 -> 1 <= d <= month_days y m ->
  1 <= m' <= 12 -> 1 <= d' <= month_days y' m' -> ymd2ord y m d = ymd2ord y' m' d' ->
  y = y' /\ m = m' /\ d = d'.
Proof.
  intros y m d y' m' d' Hm Hd Hm' Hd' E.
  pose proof (ord_bounds y m d Hm Hd) as B. pose proof (ord_bounds y' m' d' Hm' Hd') as B'.
  assert (y = y').
  { destruct (Z.lt_trichotomy y y') as [L|[L|L]]; [|assumption|].
    - pose proof (year_mono (y + 1) y' ltac:(lia)). lia.
    - pose proof (year_mono (y' + 1) y ltac:(lia)). lia. }
  subst y'. split; [reflexivity|].
  assert (m = m').
  { unfold ymd2ord in E. destruct (Z.lt_trichotomy m m') as [L|[L|L]]; [|assumption|].
    - pose proof (month_mono y m m' ltac:(lia) L ltac:(lia)). lia.
    - pose proof (month_mono y m' m ltac:(lia) L ltac:(lia)). lia. }
  subst m'. unfold ymd2ord in E. split; [reflexivity|lia].
Qed.
Lemma epoch_inj : forall d d', date_ok d -> date_ok d' -> epoch_seconds d = epoch_seconds d' ->
  dt_micro d = dt_micro d' -> d = d'.
Proof.
  intros [y m d h i s u] [y' m' d' h' i' s' u'] (H1 & H2 & H3 & H4 & H5 & H6 & H7) (K1 & K2 & K3 & K4 & K5 & K6 & K7) E U.
  unfold epoch_seconds in E. cbn [dt_year dt_month dt_day dt_hour dt_minute dt_second dt_micro] in *.
  assert (O : ymd2ord y m d = ymd2ord y' m' d') by lia.
  destruct (ord_inj _ _ _ _ _ _ H2 H3 K2 K3 O) as (-> & -> & ->).
  assert (h = h') by lia. subst h'. assert (i = i') by lia. subst i'. assert (s = s') by lia. subst. reflexivity.
Qed.

Lemma find_year_spec : forall fuel y n, 0 <= n < 365 * Z.of_nat fuel ->
  let '(y', n') := find_year fuel y n in
  y <= y' /\ 0 <= n' < (if is_leap y' then 366 else 365) /\ days_before_year y + n = days_before_year y' + n'.
Proof.
  induction fuel as [|f IH]; intros y n H; [lia|]. cbn [find_year].
  destruct (is_leap y) eqn:L.
  - destruct (n <? 366) eqn:E.
    + rewrite L. lia.
    + specialize (IH (y + 1) (n - 366) ltac:(lia)). destruct (find_year f (y + 1) (n - 366)) as [y' n'].
      rewrite year_step, L in IH. lia.
  - destruct (n <? 365) eqn:E.
    + rewrite L. lia.
    + specialize (IH (y + 1) (n - 365) ltac:(lia)). destruct (find_year f (y + 1) (n - 365)) as [y' n'].
      rewrite year_step, L in IH. lia.
Qed.
Lemma find_month_spec : forall fuel y m n, 1 <= m -> m + Z.of_nat fuel = 13 -> (0 < fuel)%nat -> 0 <= n ->
  days_before_month y m + n < (if is_leap y then 366 else 365) ->
  let '(m', n') := find_month fuel y m n in
  m <= m' <= 12 /\ 0 <= n' < month_days y m' /\ days_before_month y m + n = days_before_month y m' + n'.
Proof.
  induction fuel as [|f IH]; intros y m n Hm Hf Hp Hn Hb; [lia|]. cbn [find_month].
  destruct (n <? month_days y m) eqn:E; [lia|].
  destruct f as [|f].
  - exfalso. assert (m = 12) by lia. subst m. pose proof (month_last y).
    change (month_days y 12) with 31 in E. lia.
  - pose proof (month_step y m ltac:(lia)) as St.
    specialize (IH y (m + 1) (n - month_days y m) ltac:(lia) ltac:(lia) ltac:(lia) ltac:(lia)).
    destruct (find_month (Datatypes.S f) y (m + 1) (n - month_days y m)) as [m' n']. lia.
Qed.
Lemma fromtimestamp_spec : forall t, 0 <= t ->
  date_ok (fromtimestamp t) /\ epoch_seconds (fromtimestamp t) = t /\ dt_micro (fromtimestamp t) = 0.
Proof.
  intros t H. unfold fromtimestamp.
  set (days := t / 86400). set (r := t mod 86400).
  assert (Hd : 0 <= days) by (apply Z.div_pos; lia).
  assert (Hr : 0 <= r < 86400) by (apply Z.mod_pos_bound; lia).
  assert (Ht : t = 86400 * days + r) by (apply Z.div_mod; lia).
  pose proof (find_year_spec (S (Z.to_nat (days / 365))) 1970 days) as FY.
  destruct (find_year _ 1970 days) as [y n].
  assert (Hf : 0 <= days < 365 * Z.of_nat (S (Z.to_nat (days / 365)))).
  { pose proof (Z.div_pos days 365 Hd ltac:(lia)). pose proof (Z.div_mod days 365 ltac:(lia)).
    pose proof (Z.mod_pos_bound days 365 ltac:(lia)). lia. }
  destruct (FY Hf) as (Y1 & Y2 & Y3).
  pose proof (find_month_spec 12 y 1 n) as FM. destruct (find_month 12 y 1 n) as [m d].
  change (days_before_month y 1) with 0 in FM.
  destruct (FM ltac:(lia) eq_refl ltac:(lia) ltac:(lia) ltac:(lia)) as (M1 & M2 & M3).
  change (days_before_year 1970) with 719162 in Y3.
  split; [|split].
  - unfold date_ok. cbn [dt_year dt_month dt_day dt_hour dt_minute dt_second dt_micro].
    repeat split; try lia; Z.to_euclidean_division_equations; lia.
  - unfold epoch_seconds, ymd2ord, EPOCH_ORD. cbn [dt_year dt_month dt_day dt_hour dt_minute dt_second dt_micro].
    replace (days_before_year y + days_before_month y m + (d + 1) - 719163) with days by lia.
    rewrite Ht. clear - Hr. Z.to_euclidean_division_equations; lia.
  - reflexivity.
Qed.

Lemma next_second_spec : forall d d', next_second d d' -> date_ok d ->
  date_ok d' /\ epoch_seconds d' = epoch_seconds d + 1 /\ dt_micro d' = dt_micro d.
Proof.
  intros d d' N (H1 & H2 & H3 & H4 & H5 & H6 & H7).
  inversion N; subst; unfold date_ok, epoch_seconds, ymd2ord in *;
    cbn [dt_year dt_month dt_day dt_hour dt_minute dt_second dt_micro] in *; try (repeat split; lia).
  - apply month_spec in H; [|assumption]. subst n. repeat split; lia.
  - apply month_spec in H; [|assumption]. subst n. pose proof (month_step y m ltac:(lia)).
    pose proof (month_pos y (m + 1)). repeat split; lia.
  - rewrite year_step. pose proof (month_last y). change (days_before_month (y + 1) 1) with 0.
    change (month_days (y + 1) 1) with 31. repeat split; lia.
Qed.
Lemma next_second_total : forall d, date_ok d -> exists d', next_second d d'.
Proof.
  intros [y m d h i s u] (H1 & H2 & H3 & H4 & H5 & H6 & H7).
  cbn [dt_year dt_month dt_day dt_hour dt_minute dt_second dt_micro] in *.
  destruct (Z.eq_dec s 59) as [->|]; [|eexists; apply next_sec; lia].
  destruct (Z.eq_dec i 59) as [->|]; [|eexists; apply next_min; lia].
  destruct (Z.eq_dec h 23) as [->|]; [|eexists; apply next_hour; lia].
  assert (D : days_of y m (month_days y m)) by now apply month_spec.
  destruct (Z.eq_dec d (month_days y m)) as [->|]; [|eexists; eapply next_day; [exact D|lia]].
  destruct (Z.eq_dec m 12) as [->|]; [|eexists; eapply next_month; [exact D|lia]].
  eexists. change (month_days y 12) with 31. apply next_year.
Qed.
Lemma seconds_after_ok : forall n d, seconds_after n d ->
  date_ok d /\ epoch_seconds d = Z.of_nat n /\ dt_micro d = 0.
Proof.
  induction 1 as [|n d d' H IH N].
  - split; [|split; reflexivity]. unfold date_ok. cbn. lia.
  - destruct IH as (O & E & U). destruct (next_second_spec _ _ N O) as (O' & E' & U'). split; [assumption|]. lia.
Qed.
Lemma seconds_after_total : forall n, exists d, seconds_after n d.
Proof.
  induction n as [|n [d IH]]; [exists epoch; constructor|].
  destruct (seconds_after_ok _ _ IH) as (O & _ & _). destruct (next_second_total d O) as [d' N].
  exists d'. econstructor; eauto.
Qed.
Lemma seconds_after_iff : forall n d, seconds_after n d <-> d = fromtimestamp (Z.of_nat n).
Proof.
  assert (U : forall n d, seconds_after n d -> d = fromtimestamp (Z.of_nat n)).
  { intros n d H. apply seconds_after_ok in H. destruct H as (O & E & M).
    destruct (fromtimestamp_spec (Z.of_nat n) ltac:(lia)) as (O' & E' & M').
    apply epoch_inj; auto; congruence. }
  intros n d. split; [apply U|]. intros ->. destruct (seconds_after_total n) as [d H].
  rewrite <- (U _ _ H). assumption.
Qed.
(** every valid moment from the epoch on is counted *)
Lemma from_epoch : forall d, date_ok d -> 0 <= epoch_seconds d ->
  fromtimestamp (epoch_seconds d) = DateTime (dt_year d) (dt_month d) (dt_day d) (dt_hour d) (dt_minute d) (dt_second d) 0.
Proof.
  intros d O H. destruct (fromtimestamp_spec _ H) as (O' & E' & M').
  apply epoch_inj; auto.
  destruct O as (H1 & H2 & H3 & H4 & H5 & H6 & H7). unfold date_ok.
  cbn [dt_year dt_month dt_day dt_hour dt_minute dt_second dt_micro]. repeat split; try tauto; lia.
Qed.

(** ** 32-bit numbers *)
Lemma be_enc_u : forall t, - 2 ^ 31 <= t < 2 ^ 31 -> be_dec (be_enc 4 t) = unsigned32 t.
Proof.
  intros t H. unfold be_dec, be_enc. rewrite rev_involutive, le_dec_enc.
  unfold unsigned32. change (2 ^ (8 * Z.of_nat 4)) with (2 ^ 32).
  destruct (t <? 0) eqn:E.
  - symmetry. apply (Z.mod_unique_pos _ _ (-1)); lia.
  - apply Z.mod_small. lia.
Qed.
Lemma be_dec_s_u : forall v, 0 <= v < 2 ^ 32 -> be_dec_s (be_enc 4 v) = if v <? 2 ^ 31 then v else v - 2 ^ 32.
Proof.
  intros v H. unfold be_dec_s, be_dec, be_enc. rewrite rev_involutive, rev_length, le_enc_length, le_dec_enc.
  change (2 ^ (8 * Z.of_nat 4)) with (2 ^ 32). rewrite Z.mod_small by lia. unfold to_signed.
  change (2 ^ (8 * Z.of_nat 4 - 1)) with (2 ^ 31). change (2 ^ (8 * Z.of_nat 4)) with (2 ^ 32).
  destruct (2 ^ 31 <=? v) eqn:A, (v <? 2 ^ 31) eqn:B; lia.
Qed.

(** ** Info *)
Lemma family_class_spec : forall v, exists c s, family_class v = [c; s] /\ v = 256 * c + s /\ 0 <= s < 256.
Proof.
  intros v. unfold family_class. exists (v / 256), (v mod 256).
  assert (E : Z.shiftr v 8 = v / 256) by (rewrite Z.shiftr_div_pow2 by lia; reflexivity).
  split; [|split; [apply Z.div_mod; lia|apply Z.mod_pos_bound; lia]].
  f_equal; [assumption|]. f_equal.
  change 256 with (2 ^ 8). rewrite <- Z.land_ones by lia.
  apply Z.bits_inj'. intros n Hn. rewrite !Z.land_spec, Z.lnot_spec, Z.shiftl_spec by lia.
  rewrite Z.testbit_ones by lia.
  destruct (Z.ltb_spec n 8) as [L|L].
  - rewrite (Z.testbit_neg_r _ (n - 8)) by lia. cbn [negb]. replace (0 <=? n) with true by lia. reflexivity.
  - rewrite Z.shiftr_spec by lia. replace (n - 8 + 8) with n by lia.
    replace (n <? 8) with false by lia. rewrite !andb_false_r, andb_negb_r. reflexivity.
Qed.
Lemma family_class_unique : forall v c s, v = 256 * c + s -> 0 <= s < 256 -> family_class v = [c; s].
Proof.
  intros v c s E H. destruct (family_class_spec v) as (c' & s' & -> & E' & H').
  f_equal; [lia|]. f_equal. lia.
Qed.

Lemma bits_concat : forall r1 r2 l1 l2, 0 <= r1 < 2 ^ 32 -> 0 <= r2 ->
  is_bit_list r1 0 l1 -> is_bit_list r2 0 l2 ->
  is_bit_list (r1 + 2 ^ 32 * r2) 0 (l1 ++ map (fun cp => cp + 32) l2).
Proof.
  intros r1 r2 l1 l2 H1 H2 [S1 B1] [S2 B2].
  assert (T : forall b, 0 <= b -> Z.testbit (r1 + 2 ^ 32 * r2) b = if b <? 32 then Z.testbit r1 b else Z.testbit r2 (b - 32)).
  { intros b Hb. destruct (Z.ltb_spec b 32) as [L|L].
    - rewrite <- (Z.mod_pow2_bits_low _ 32 b) by lia.
      rewrite (Z.mul_comm (2 ^ 32)), Z.mod_add by lia.
      rewrite Z.mod_small by lia. reflexivity.
    - replace b with ((b - 32) + 32) at 1 by lia.
      rewrite <- Z.div_pow2_bits by lia.
      rewrite (Z.mul_comm (2 ^ 32)), Z.div_add by lia.
      rewrite Z.div_small by lia. reflexivity. }
  assert (L1 : forall b, In b l1 -> 0 <= b < 32).
  { intros b I. apply B1 in I. destruct I as [I1 I2]. rewrite Z.sub_0_r in I2. split; [assumption|].
    destruct (Z.lt_ge_cases b 32) as [|G]; [assumption|].
    destruct (Z.eq_dec r1 0) as [->|N]; [rewrite Z.bits_0 in I2; discriminate|].
    rewrite Z.bits_above_log2 in I2; [discriminate|lia|].
    apply Z.log2_lt_pow2; [lia|]. eapply Z.lt_le_trans; [apply H1|]. apply Z.pow_le_mono_r; lia. }
  assert (L2 : forall b, In b l2 -> 0 <= b) by (intros b I; apply B2 in I; tauto).
  split.
  - clear B1 B2 T. induction S1 as [|a l1 S1 IH F]; cbn [app].
    + induction S2 as [|a l2 S2 IH F]; cbn [map]; constructor.
      * apply IH. intros b I. apply L2. now right.
      * rewrite Forall_forall in *. intros x I. apply in_map_iff in I. destruct I as (z & <- & I). apply F in I. lia.
    + constructor; [apply IH; intros b I; apply L1; now right|].
      rewrite Forall_forall in *. intros x I. apply in_app_iff in I. destruct I as [I|I]; [auto|].
      apply in_map_iff in I. destruct I as (z & <- & I). apply L2 in I.
      specialize (L1 a (or_introl eq_refl)). lia.
  - intros b. rewrite in_app_iff, in_map_iff, Z.sub_0_r. split.
    + intros [I|(z & <- & I)].
      * pose proof (L1 b I). apply B1 in I. rewrite Z.sub_0_r in I. split; [tauto|]. rewrite T by lia.
        replace (b <? 32) with true by lia. tauto.
      * pose proof (L2 z I). apply B2 in I. rewrite Z.sub_0_r in I. split; [lia|]. rewrite T by lia.
        replace (z + 32 <? 32) with false by lia. replace (z + 32 - 32) with z by lia. tauto.
    + intros [Hb Ht]. rewrite T in Ht by lia. destruct (Z.ltb_spec b 32) as [L|L].
      * left. apply B1. rewrite Z.sub_0_r. auto.
      * right. exists (b - 32). split; [lia|]. apply B2. rewrite Z.sub_0_r. split; [lia|assumption].
Qed.
Lemma code_pages_spec : forall r1 r2, 0 <= r1 < 2 ^ 32 -> 0 <= r2 ->
  exists l, code_pages r1 r2 = Ok l /\ is_bit_list (r1 + 2 ^ 32 * r2) 0 l.
Proof.
  intros r1 r2 H1 H2. destruct (binaryToIntList_spec r1 0 ltac:(lia)) as (l1 & E1 & B1).
  destruct (binaryToIntList_spec r2 0 H2) as (l2 & E2 & B2).
  exists (l1 ++ map (fun cp => cp + 32) l2). split; [|now apply bits_concat].
  unfold code_pages. rewrite E1. cbn [rthen]. rewrite E2. reflexivity.
Qed.

Lemma convert_ok : forall t, - 2 ^ 31 <= t < 2 ^ 31 ->
  convert_timestamp t = Ok (fromtimestamp (Z.max 0 (unsigned32 t - TIME_ZERO))).
Proof.
  intros t H. unfold convert_timestamp. replace (srange 4 t) with true.
  - cbn [rthen]. rewrite be_enc_u by assumption. f_equal. f_equal.
    destruct (unsigned32 t <? TIME_ZERO) eqn:E; lia.
  - unfold srange, in_range. change (2 ^ (8 * Z.of_nat 4 - 1)) with (2 ^ 31). lia.
Qed.

(** *** The attributes *)
Definition item_attrs : list (pystr * pystr) :=
  tt_int_attrs ++
  [(py "head_creation", py "openTypeHeadCreated"); (py "os2_fs_type", py "openTypeOS2Type");
   (py "os2_s_family_class", py "openTypeOS2FamilyClass");
   (py "Average Width", py "postscriptNominalWidthX"); (py "head_flags", py "openTypeHeadFlags");
   (py "Codepages", py "openTypeOS2CodePageRanges")].
Fixpoint nodupb (l : list pystr) : bool :=
  match l with [] => true | x :: l => negb (existsb (str_eqb x) l) && nodupb l end.
Lemma nodupb_spec : forall l, nodupb l = true -> NoDup l.
Proof.
  induction l as [|x l IH]; cbn [nodupb]; intros H; constructor; apply andb_true_iff in H; destruct H as [H1 H2]; auto.
  intros I. apply negb_true_iff in H1. assert (existsb (str_eqb x) l = true); [|congruence].
  apply existsb_exists. exists x. split; [assumption|apply str_eqb_refl].
Qed.
Lemma item_attrs_fst : NoDup (map fst item_attrs).
Proof. apply nodupb_spec. vm_compute. reflexivity. Qed.
Lemma item_attrs_snd : NoDup (map snd item_attrs).
Proof. apply nodupb_spec. vm_compute. reflexivity. Qed.
Lemma nodup_map_inj : forall A B (f : A -> B) l x y, NoDup (map f l) -> In x l -> In y l -> f x = f y -> x = y.
Proof.
  induction l as [|a l IH]; cbn [map]; intros x y N I J E; [destruct I|]. apply NoDup_cons_iff in N. destruct N as [N1 N2].
  destruct I as [->|I], J as [->|J]; auto.
  - elim N1. rewrite E. now apply in_map.
  - elim N1. rewrite <- E. now apply in_map.
Qed.
Lemma sets_in : forall k v a x, tt_sets k v a x -> In (k, a) item_attrs.
Proof.
  intros k v a x H. unfold item_attrs. apply in_app_iff.
  inversion H; subst; [now left|..]; right; cbn; tauto.
Qed.
Lemma sets_attr : forall k v v' a a' x x', tt_sets k v a x -> tt_sets k v' a' x' -> a = a'.
Proof.
  intros k v v' a a' x x' H H'. apply sets_in in H. apply sets_in in H'.
  assert (E : (k, a) = (k, a')) by (eapply nodup_map_inj; [exact item_attrs_fst| | |]; eauto). congruence.
Qed.
Lemma sets_key : forall k k' v v' a x x', tt_sets k v a x -> tt_sets k' v' a x' -> k = k'.
Proof.
  intros k k' v v' a x x' H H'. apply sets_in in H. apply sets_in in H'.
  assert (E : (k, a) = (k', a)) by (eapply nodup_map_inj; [exact item_attrs_snd| | |]; eauto). congruence.
Qed.
Ltac absurd_key := exfalso; match goal with H : In (?k, _) tt_int_attrs |- _ =>
  let K := fresh in pose proof (in_map fst _ _ H) as K; cbn [fst] in K; revert K; vm_compute; intuition discriminate end.
Lemma sets_val : forall k v a x x', tt_sets k v a x -> tt_sets k v a x' -> x = x'.
Proof.
  intros k v a x x' H H'. inversion H; subst; inversion H'; subst; try reflexivity; try absurd_key; f_equal.
  - f_equal. match goal with A : seconds_after _ ?d, B : seconds_after _ ?d' |- ?d = ?d' =>
      apply seconds_after_iff in A; apply seconds_after_iff in B; congruence end.
  - eapply is_bit_list_unique; eauto.
  - match goal with H2 : _ = 256 * c0 + s0 |- _ => change (256 * c + s = 256 * c0 + s0) in H2 end.
    assert (c = c0) by lia. assert (s = s0) by lia. congruence.
  - eapply is_bit_list_unique; eauto.
Qed.
Lemma sets_kind : forall k a x v, tt_sets k v a x -> match v with
  | VInt _ => In (k, a) tt_int_attrs \/ In (k, a) [(py "head_creation", py "openTypeHeadCreated"); (py "os2_fs_type", py "openTypeOS2Type");
     (py "os2_s_family_class", py "openTypeOS2FamilyClass"); (py "Average Width", py "postscriptNominalWidthX")]
  | VFlags _ _ => k = py "head_flags" | VPages _ _ => k = py "Codepages" | VList _ => False end.
Proof. intros k a x v H. inversion H; subst; try reflexivity; cbn; tauto. Qed.

(** one item *)
Definition lib_of (i : info) : list (pystr * info_val) := match if_lib i with Some d => d | None => [(py "formatVersion", IStr (py "1"))] end.
Definition step_ok (i : info) (k : pystr) (v : tt_value) (i' : info) : Prop :=
  ((exists a x, tt_sets k v a x /\ if_attrs i' = aset str_eqb a x (if_attrs i)) \/
   ((forall a x, ~ tt_sets k v a x) /\ if_attrs i' = if_attrs i)) /\
  (match v with
   | VInt n => match aget str_eqb k maxp_keys with
               | Some key => if_lib i' = Some (aset str_eqb key (IInt n) (lib_of i))
               | None => if_lib i' = if_lib i end
   | _ => if_lib i' = if_lib i end).
Lemma mapping_not_maxp : forall k a, In (k, a) tt_int_attrs -> aget str_eqb k maxp_keys = None.
Proof.
  intros k a I. apply (in_map fst) in I. cbn [fst] in I.
  assert (F : Forall (fun k => aget str_eqb k maxp_keys = None) (map fst tt_int_attrs)).
  { repeat constructor. }
  rewrite Forall_forall in F. now apply F.
Qed.
Lemma mapping_get : forall k a, aget str_eqb k mapping_int = Some a <-> In (k, a) tt_int_attrs.
Proof.
  change mapping_int with tt_int_attrs.
  intros k a. split; [apply (aget_In str_eqb str_eqb_eq)|]. apply (In_aget str_eqb str_eqb_eq).
  apply nodupb_spec. vm_compute. reflexivity.
Qed.
Lemma no_sets_int : forall k n, aget str_eqb k mapping_int = None -> k <> py "head_creation" -> k <> py "os2_fs_type" ->
  k <> py "os2_s_family_class" -> k <> py "Average Width" -> forall a x, ~ tt_sets k (VInt n) a x.
Proof.
  intros k n N A B C D a x H. apply sets_kind in H. destruct H as [H|H].
  - apply mapping_get in H. congruence.
  - cbn [In] in H. intuition congruence.
Qed.
Ltac keyeq k s := let E := fresh "E" in destruct (str_eqb k s) eqn:E;
  [apply str_eqb_eq in E; subst k | assert (k <> s) by (intros ->; rewrite str_eqb_refl in E; discriminate); clear E].
Lemma set_item_ok : forall i k v, tt_item_ok (k, v) -> exists i', set_tt_item i (k, v) = Ok i' /\ step_ok i k v i'.
Proof.
  intros i k v H. destruct v as [n|flags opts|l|r1 r2]; cbn [tt_item_ok] in H; unfold set_tt_item, step_ok.
  - destruct H as [Hn Ht]. destruct (aget str_eqb k mapping_int) as [a|] eqn:M.
    + apply mapping_get in M. exists (setattr a (IInt n) i). split; [reflexivity|].
      rewrite (mapping_not_maxp _ _ M). split; [|reflexivity]. left. exists a, (IInt n). split; [now constructor|reflexivity].
    + keyeq k (py "head_creation").
      { unfold set_created_timestamp. rewrite convert_ok by auto. eexists. split; [reflexivity|]. split; [|reflexivity].
        left. eexists. eexists. split; [|reflexivity]. apply sets_created. apply seconds_after_iff. f_equal. unfold TIME_ZERO. lia. }
      keyeq k (py "head_font_direction_hint").
      { exists i. split; [reflexivity|]. split; [|reflexivity]. right. split; [|reflexivity]. apply no_sets_int; auto; discriminate. }
      keyeq k (py "os2_fs_type").
      { destruct (binaryToIntList_spec n 0 (Hn eq_refl)) as (l & E & B). rewrite E. eexists. split; [reflexivity|]. split; [|reflexivity].
        left. exists (py "openTypeOS2Type"), (IList l). split; [now constructor|reflexivity]. }
      keyeq k (py "os2_s_family_class").
      { eexists. split; [reflexivity|]. split; [|reflexivity]. left. eexists. eexists. split; [|reflexivity].
        destruct (family_class_spec n) as (c & s & -> & E & B). now constructor. }
      keyeq k (py "os2_us_weight_class").
      { exists i. split; [reflexivity|]. split; [|reflexivity]. right. split; [|reflexivity]. apply no_sets_int; auto; discriminate. }
      keyeq k (py "os2_fs_selection").
      { exists i. split; [reflexivity|]. split; [|reflexivity]. right. split; [|reflexivity]. apply no_sets_int; auto; discriminate. }
      destruct (aget str_eqb k maxp_keys) as [key|] eqn:P.
      { eexists. split; [reflexivity|]. split; [|reflexivity]. right. split; [|reflexivity]. apply no_sets_int; auto.
        intros ->. discriminate P. }
      keyeq k (py "Average Width").
      { destruct (n =? 0) eqn:Z0.
        - exists i. split; [reflexivity|]. split; [|reflexivity]. right. split; [|reflexivity].
          intros a x S. inversion S; subst; [absurd_key|lia].
        - eexists. split; [reflexivity|]. split; [|reflexivity]. left. eexists. eexists. split; [|reflexivity]. constructor. lia. }
      exists i. split; [reflexivity|]. split; [|reflexivity]. right. split; [|reflexivity]. apply no_sets_int; auto.
  - keyeq k (py "head_flags").
    + eexists. split; [reflexivity|]. split; [|reflexivity]. left. eexists. eexists. split; [|reflexivity]. constructor.
    + exists i. split; [reflexivity|]. split; [|reflexivity]. right. split; [|reflexivity]. intros a x S. apply sets_kind in S. congruence.
  - exists i. split; [reflexivity|]. split; [|reflexivity]. right. split; [|reflexivity]. intros a x S. apply sets_kind in S. exact S.
  - destruct H as (-> & H1 & H2). replace (str_eqb (py "Codepages") (py "head_flags")) with false by reflexivity.
    rewrite str_eqb_refl. destruct (code_pages_spec r1 r2 H1 H2) as (l & E & B). rewrite E. cbn [rmap].
    eexists. split; [reflexivity|]. destruct l as [|b l].
    + split; [|reflexivity]. right. split; [|reflexivity]. intros a x S. inversion S; subst.
      match goal with N : ?l <> [] |- _ => apply N end. eapply is_bit_list_unique; eauto.
    + split; [|reflexivity]. left. eexists. eexists. split; [|reflexivity]. constructor; [discriminate|assumption].
Qed.

Lemma set_info_ok : forall data i, NoDup (map fst data) -> Forall tt_item_ok data ->
  exists i', set_tt_info i data = Ok i' /\
    (forall k v a x, In (k, v) data -> tt_sets k v a x -> aget str_eqb a (if_attrs i') = Some x) /\
    (forall a, (forall k v x, In (k, v) data -> ~ tt_sets k v a x) ->
       aget str_eqb a (if_attrs i') = aget str_eqb a (if_attrs i)) /\
    (forall k key n, In (k, key) maxp_keys -> In (k, VInt n) data ->
       exists d, if_lib i' = Some d /\ aget str_eqb key d = Some (IInt n)) /\
    (forall key d, if_lib i = Some d -> (forall k n, In (k, key) maxp_keys -> ~ In (k, VInt n) data) ->
       exists d', if_lib i' = Some d' /\ aget str_eqb key d' = aget str_eqb key d).
Proof.
  assert (NM : NoDup (map snd maxp_keys)) by (apply nodupb_spec; vm_compute; reflexivity).
  assert (NF : NoDup (map fst maxp_keys)) by (apply nodupb_spec; vm_compute; reflexivity).
  induction data as [|[k v] data IH]; intros i N F.
  - exists i. split; [reflexivity|]. split; [intros ? ? ? ? []|]. split; [reflexivity|]. split; [intros ? ? ? ? []|].
    intros key d E _. eauto.
  - cbn [map fst] in N. apply NoDup_cons_iff in N. destruct N as [N1 N2]. inversion F as [|? ? F1 F2]; subst.
    destruct (set_item_ok i k v F1) as (i1 & E1 & A1 & L1).
    destruct (IH i1 N2 F2) as (i' & E' & S' & K' & M' & P'). exists i'.
    cbn [set_tt_info]. rewrite E1. cbn [rthen]. split; [assumption|].
    split; [|split; [|split]].
    + intros k0 v0 a x [I|I] S; [|eapply S'; eauto]. injection I as <- <-.
      rewrite K'.
      * destruct A1 as [(a1 & x1 & S1 & ->)|[A1 _]]; [|elim (A1 _ _ S)].
        assert (a1 = a) by (eapply sets_attr; eauto). subst a1.
        assert (x1 = x) by (eapply sets_val; eauto). subst x1.
        rewrite (aget_aset str_eqb str_eqb_eq), str_eqb_refl. reflexivity.
      * intros k1 v1 x1 I1 S1. assert (k1 = k) by (eapply sets_key; eauto). subst k1.
        apply N1. now apply (in_map fst) in I1.
    + intros a H. rewrite K' by (intros k0 v0 x I; apply H; now right).
      destruct A1 as [(a1 & x1 & S1 & ->)|[_ ->]]; [|reflexivity].
      rewrite (aget_aset str_eqb str_eqb_eq). destruct (str_eqb a a1) eqn:Ea; [|reflexivity].
      apply str_eqb_eq in Ea. subst a1. elim (H k v x1); [now left|assumption].
    + intros k0 key n I [J|J]; [|eapply M'; eauto]. injection J as -> ->.
      rewrite (In_aget str_eqb str_eqb_eq _ _ _ NF I) in L1.
      destruct (P' key _ L1) as (d' & -> & Ed).
      * intros k1 n1 I1 J1. assert ((k1, key) = (k0, key)) by (eapply nodup_map_inj; [exact NM| | |]; eauto).
        apply N1. apply (in_map fst) in J1. cbn [fst] in J1. congruence.
      * exists d'. split; [reflexivity|]. rewrite Ed, (aget_aset str_eqb str_eqb_eq), str_eqb_refl. reflexivity.
    + intros key d El H.
      assert (X : exists d1, if_lib i1 = Some d1 /\ aget str_eqb key d1 = aget str_eqb key d).
      { destruct v as [n| | |]; try (rewrite L1; eauto). destruct (aget str_eqb k maxp_keys) as [key1|] eqn:P; [|rewrite L1; eauto].
        eexists. split; [exact L1|]. unfold lib_of. rewrite El. rewrite (aget_aset str_eqb str_eqb_eq).
        destruct (str_eqb key key1) eqn:Ek; [|reflexivity]. apply str_eqb_eq in Ek. subst key1.
        apply (aget_In str_eqb str_eqb_eq) in P. elim (H k n P). now left. }
      destruct X as (d1 & Ed1 & Eg). destruct (P' key d1 Ed1) as (d' & Ed' & Eg').
      { intros k1 n1 I1 J1. apply (H k1 n1 I1). now right. }
      exists d'. split; [assumption|congruence].
Qed.
