(** Proofs about helpers.py (M_Helpers.v). *)
From Coq Require Import ZifyBool ZifyNat.
From Verif Require Import Base M_Helpers S_Bits Lib.
Ltac Zify.zify_post_hook ::= Z.div_mod_to_equations.

Lemma land_1_odd : forall v, (Z.land v 1 =? 1) = Z.testbit v 0.
Proof.
  intros v. change 1 with (Z.ones 1) at 1. rewrite Z.land_ones by lia.
  change (2 ^ 1) with 2. rewrite Z.bit0_odd, Zmod_odd. destruct (Z.odd v); reflexivity.
Qed.

Lemma bitl_loop_spec : forall fuel v c,
  0 <= v < 2 ^ (Z.of_nat fuel - 1) -> (0 < fuel)%nat ->
  exists l, binaryToIntList_loop fuel v c = Ok l /\ is_bit_list v c l.
Proof.
  induction fuel as [|fuel IH]; intros v c Hv Hf; [lia|].
  cbn [binaryToIntList_loop]. destruct (v =? 0) eqn:E.
  - exists []. split; [reflexivity|]. assert (v = 0) by lia. subst. split; [constructor|].
    intros b. cbn. rewrite Z.bits_0. split; [tauto|intros []; discriminate].
  - assert (F : (0 < fuel)%nat).
    { destruct fuel; [|lia]. cbn in Hv. lia. }
    destruct (IH (Z.shiftr v 1) (c + 1)) as (l & E1 & S1 & B1).
    { rewrite Z.shiftr_div_pow2 by lia. change (2 ^ 1) with 2.
      replace (Z.of_nat (S fuel) - 1) with (Z.of_nat fuel - 1 + 1) in Hv by lia.
      rewrite Z.pow_add_r in Hv by lia. change (2 ^ 1) with 2 in Hv. lia. }
    { exact F. }
    rewrite E1. eexists; split; [reflexivity|].
    assert (Bt : forall b, Z.testbit (Z.shiftr v 1) (b - (c + 1)) = true <->
              (Z.testbit v (b - c) = true /\ c + 1 <= b \/ b < c + 1 /\ Z.testbit (Z.shiftr v 1) (b - (c + 1)) = true)).
    { intros b. destruct (Z.le_gt_cases (c + 1) b).
      - rewrite Z.shiftr_spec by lia. replace (b - (c + 1) + 1) with (b - c) by lia.
        split; [auto|]. intros [[? _]|[? _]]; [auto|lia].
      - split; [auto|]. intros [[_ ?]|[_ ?]]; [lia|auto]. }
    rewrite land_1_odd. destruct (Z.testbit v 0) eqn:T.
    + split.
      * constructor; [exact S1|]. apply Forall_forall. intros x Hx. apply B1 in Hx. lia.
      * intros b. cbn [In]. rewrite B1, Bt. destruct (Z.eq_dec c b) as [->|N].
        { replace (b - b) with 0 by lia. rewrite T. split; [split; [lia|auto]|auto]. }
        { split.
          - intros [?|[? [[? ?]|[? ?]]]]; [lia|split; [lia|auto]|lia].
          - intros [? ?]. right. split; [lia|]. left. split; [auto|lia]. }
    + split; [exact S1|]. intros b. rewrite B1, Bt. split.
      * intros [? [[? ?]|[? ?]]]; [split; [lia|auto]|lia].
      * intros [? H1]. destruct (Z.eq_dec c b) as [->|N].
        { replace (b - b) with 0 in H1 by lia. congruence. }
        split; [lia|]. left. split; [auto|lia].
Qed.

Lemma sorted_ext : forall l1 l2, StronglySorted Z.lt l1 -> StronglySorted Z.lt l2 ->
  (forall x, In x l1 <-> In x l2) -> l1 = l2.
Proof.
  induction l1 as [|a l1 IH]; intros l2 S1 S2 H.
  - destruct l2 as [|b l2]; [reflexivity|]. destruct (H b) as [_ H1]. destruct H1. left; auto.
  - destruct l2 as [|b l2]; [destruct (H a) as [H1 _]; destruct H1; left; auto|].
    inversion S1 as [|? ? S1' F1]; inversion S2 as [|? ? S2' F2]; subst.
    rewrite Forall_forall in F1, F2.
    assert (a = b).
    { assert (Ha : In a (b :: l2)) by (apply H; left; auto).
      assert (Hb : In b (a :: l1)) by (apply H; left; auto).
      destruct Ha as [|Ha]; [auto|]. destruct Hb as [|Hb]; [auto|].
      apply F1 in Hb. apply F2 in Ha. lia. }
    subst b. f_equal. apply IH; auto.
    intros x. split; intros Hx.
    + assert (K : In x (a :: l2)) by (apply H; right; auto). destruct K as [->|K]; [|auto].
      apply F1 in Hx. lia.
    + assert (K : In x (a :: l1)) by (apply H; right; auto). destruct K as [->|K]; [|auto].
      apply F2 in Hx. lia.
Qed.

Lemma is_bit_list_unique : forall v c l1 l2,
  is_bit_list v c l1 -> is_bit_list v c l2 -> l1 = l2.
Proof.
  intros v c l1 l2 [S1 B1] [S2 B2]. apply sorted_ext; auto.
  intros x. rewrite B1, B2. tauto.
Qed.

Lemma bitl_fuel_ok : forall v, 0 <= v ->
  0 <= v < 2 ^ (Z.of_nat (S (S (Z.to_nat (Z.log2 v)))) - 1).
Proof.
  intros v H. split; [lia|]. pose proof (Z.log2_nonneg v).
  replace (Z.of_nat (S (S (Z.to_nat (Z.log2 v)))) - 1) with (Z.succ (Z.log2 v)) by lia.
  destruct (Z.eq_dec v 0) as [->|]; [cbn; lia|]. apply Z.log2_spec. lia.
Qed.

Lemma binaryToIntList_spec : forall v c, 0 <= v ->
  exists l, binaryToIntList v c = Ok l /\ is_bit_list v c l.
Proof.
  intros. apply bitl_loop_spec; [|lia]. apply bitl_fuel_ok. auto.
Qed.

Lemma bitl_loop_fuel : forall fuel fuel' v c l,
  (fuel <= fuel')%nat -> binaryToIntList_loop fuel v c = Ok l ->
  binaryToIntList_loop fuel' v c = Ok l.
Proof.
  induction fuel as [|fuel IH]; intros fuel' v c l Hf E; [discriminate|].
  destruct fuel' as [|fuel']; [lia|]. cbn [binaryToIntList_loop] in *.
  destruct (v =? 0); [auto|].
  destruct (binaryToIntList_loop fuel (Z.shiftr v 1) (c + 1)) as [l0|] eqn:E0; [|discriminate].
  erewrite IH; eauto. lia.
Qed.

Lemma bitl_loop_negative : forall fuel v c,
  v < 0 -> binaryToIntList_loop fuel v c = Err Diverge.
Proof.
  induction fuel as [|fuel IH]; intros v c Hv; [reflexivity|].
  cbn [binaryToIntList_loop]. replace (v =? 0) with false by lia.
  rewrite IH; [reflexivity|]. rewrite Z.shiftr_div_pow2 by lia. change (2 ^ 1) with 2. lia.
Qed.

Lemma binaryToIntList_neg : forall v c, v < 0 -> binaryToIntList v c = Err Diverge.
Proof. intros. apply bitl_loop_negative. auto. Qed.

Lemma binaryToIntList_is : forall v c l, 0 <= v -> is_bit_list v c l -> binaryToIntList v c = Ok l.
Proof.
  intros v c l Hv Hl. destruct (binaryToIntList_spec v c Hv) as (l' & E & H).
  rewrite E. f_equal. eapply is_bit_list_unique; eauto.
Qed.

(** ** intListToBinary *)
Lemma intListToBinary_from_ok : forall l acc, Forall (fun b => 0 <= b) l ->
  intListToBinary_from acc l = Ok (acc + sum_pow2 l).
Proof.
  induction l as [|b l IH]; intros acc H; cbn [intListToBinary_from sum_pow2 fold_right].
  - f_equal. lia.
  - inversion H; subst. replace (b <? 0) with false by lia. rewrite IH by auto.
    f_equal. unfold sum_pow2. lia.
Qed.
Lemma intListToBinary_ok : forall l, Forall (fun b => 0 <= b) l ->
  intListToBinary l = Ok (sum_pow2 l).
Proof. intros. unfold intListToBinary. rewrite intListToBinary_from_ok by auto. f_equal. Qed.

Lemma sum_pow2_nonneg : forall l, Forall (fun b => 0 <= b) l -> 0 <= sum_pow2 l.
Proof.
  induction l as [|b l IH]; intros H; cbn; [lia|]. inversion H; subst.
  pose proof (Z.pow_nonneg 2 b). specialize (IH ltac:(auto)). unfold sum_pow2 in IH. lia.
Qed.

Lemma add_pow2_testbit : forall v b i, 0 <= b -> Z.testbit v b = false ->
  Z.testbit (2 ^ b + v) i = (Z.eqb i b || Z.testbit v i)%bool.
Proof.
  intros v b i Hb T.
  assert (L : Z.land (2 ^ b) v = 0).
  { apply Z.bits_inj'. intros n Hn. rewrite Z.land_spec, Z.bits_0.
    destruct (Z.eq_dec b n) as [->|]; [rewrite T; apply andb_false_r|].
    rewrite Z.pow2_bits_false by lia. reflexivity. }
  rewrite Z.add_nocarry_lxor, Z.lxor_lor by auto. rewrite Z.lor_spec. f_equal.
  destruct (Z.eq_dec i b) as [->|].
  - rewrite Z.pow2_bits_true by lia. lia.
  - rewrite Z.pow2_bits_false by lia. lia.
Qed.

Lemma sum_pow2_testbit : forall l, NoDup l -> Forall (fun b => 0 <= b) l ->
  forall i, Z.testbit (sum_pow2 l) i = true <-> In i l.
Proof.
  induction l as [|b l IH]; intros N F i; cbn [sum_pow2 fold_right In].
  - rewrite Z.bits_0. split; [discriminate|tauto].
  - inversion N; inversion F; subst.
    fold (sum_pow2 l). rewrite add_pow2_testbit; [|auto|].
    + rewrite orb_true_iff, IH by auto. rewrite Z.eqb_eq. intuition.
    + destruct (Z.testbit (sum_pow2 l) b) eqn:E; [|reflexivity].
      apply IH in E; tauto.
Qed.

Lemma sum_pow2_perm : forall l1 l2, Permutation l1 l2 -> sum_pow2 l1 = sum_pow2 l2.
Proof. intros l1 l2 H. induction H; cbn in *; unfold sum_pow2 in *; lia. Qed.

Lemma is_bit_list_sum : forall l, NoDup l -> Forall (fun b => 0 <= b) l -> StronglySorted Z.lt l ->
  is_bit_list (sum_pow2 l) 0 l.
Proof.
  intros l N F S. split; [auto|]. intros b. rewrite Z.sub_0_r, sum_pow2_testbit by auto.
  rewrite Forall_forall in F. split; [auto|tauto].
Qed.

Lemma sorted_nodup : forall l, StronglySorted Z.lt l -> NoDup l.
Proof.
  induction 1 as [|a l S IH F]; constructor; auto.
  intros H. rewrite Forall_forall in F. apply F in H. lia.
Qed.

Lemma is_bit_list_nonneg : forall v c l, 0 <= c -> is_bit_list v c l -> Forall (fun b => 0 <= b) l.
Proof. intros v c l Hc [S B]. apply Forall_forall. intros x Hx. apply B in Hx. lia. Qed.

(** the sum of the bits of [v] is [v] *)
Lemma sum_of_bits : forall v l, 0 <= v -> is_bit_list v 0 l -> sum_pow2 l = v.
Proof.
  intros v l Hv H. pose proof (is_bit_list_nonneg v 0 l ltac:(lia) H) as F.
  destruct H as [S B]. apply Z.bits_inj'. intros n Hn.
  pose proof (sum_pow2_testbit l (sorted_nodup l S) F n) as T.
  rewrite B, Z.sub_0_r in T.
  destruct (Z.testbit (sum_pow2 l) n), (Z.testbit v n); try reflexivity.
  - destruct T as [T _]. destruct (T eq_refl). discriminate.
  - destruct T as [_ T]. apply T. auto.
Qed.

Lemma sorted_shift : forall l c, StronglySorted Z.lt l -> StronglySorted Z.lt (map (Z.add c) l).
Proof.
  intros l c S. induction S as [|a l S IH F]; cbn [map]; constructor; auto.
  rewrite Forall_forall in *. intros x Hx. apply in_map_iff in Hx. destruct Hx as (y & <- & Hy).
  apply F in Hy. lia.
Qed.
Lemma is_bit_list_shift : forall v l c, is_bit_list v 0 l -> is_bit_list v c (map (Z.add c) l).
Proof.
  intros v l c [S B]. split; [apply sorted_shift; auto|].
  intros b. rewrite in_map_iff. split.
  - intros (x & <- & Hx). apply B in Hx. replace (c + x - c) with (x - 0) by lia. split; [lia|tauto].
  - intros [H1 H2]. exists (b - c). split; [lia|]. apply B. rewrite Z.sub_0_r. split; [lia|auto].
Qed.

(** ** hex strings *)
Lemma hex_value_digit : forall n, 0 <= n < 16 -> hex_value (hex_digit n) = Some n.
Proof.
  intros n H. unfold hex_value, hex_digit, in_range. destruct (n <? 10) eqn:E.
  - replace ((48 <=? 48 + n) && (48 + n <? 58)) with true by lia. f_equal. lia.
  - replace ((48 <=? 87 + n) && (87 + n <? 58)) with false by lia.
    replace ((97 <=? 87 + n) && (87 + n <? 103)) with true by lia. f_equal. lia.
Qed.
Lemma hex_digit_not_space : forall n, 0 <= n < 16 -> ascii_space (hex_digit n) = false.
Proof. intros n H. unfold ascii_space, hex_digit, in_range. destruct (n <? 10) eqn:E; lia. Qed.

Lemma deHexStr_hexStr : forall b, bytes_ok b -> deHexStr (hexStr b) = Ok b.
Proof.
  induction b as [|x b IH]; intros H; cbn [hexStr]; [reflexivity|].
  inversion H as [|? ? Hx Hb]; subst. unfold is_byte in Hx. cbn [deHexStr].
  rewrite hex_digit_not_space by lia. rewrite !hex_value_digit by lia.
  rewrite IH by auto. cbn [rmap]. f_equal. f_equal. lia.
Qed.
