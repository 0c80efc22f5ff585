(** Proofs about scaled numbers: an integer divided by a power of ten and multiplied again. The real
    number reasoning is Flocq's. *)
From Coq Require Import Reals Psatz Floats.SpecFloat.
From Flocq Require Import Core BinarySingleNaN Relative.
From Verif Require Import Base M_Float.

Local Notation prec := 53%Z.
Local Notation emax := 1024%Z.
Lemma Hprec : Prec_gt_0 prec. Proof. now compute. Qed.
Lemma Hmax : Prec_lt_emax prec emax. Proof. now compute. Qed.
#[local] Existing Instance Hprec.
#[local] Existing Instance Hmax.
Local Notation b64 := (binary_float prec emax).
Local Notation fexp := (SpecFloat.fexp prec emax).

(** ** SpecFloat's functions are Flocq's *)
Lemma round_ne_equiv : forall s m l, SpecFloat.round_nearest_even m l = choice_mode mode_NE s m l.
Proof. intros s m [|[]]; try reflexivity. cbn. unfold Round.cond_incr. now case Z.even. Qed.
Lemma round_aux_equiv : forall sx mx ex lx,
  SpecFloat.binary_round_aux prec emax sx mx ex lx =
  BinarySingleNaN.binary_round_aux prec emax mode_NE sx mx ex lx.
Proof.
  intros. unfold SpecFloat.binary_round_aux, BinarySingleNaN.binary_round_aux.
  destruct (shr_fexp prec emax mx ex lx) as [mrs e]. cbn zeta.
  rewrite (round_ne_equiv sx). reflexivity.
Qed.
Lemma round_equiv : forall s m e,
  SpecFloat.binary_round prec emax s m e = BinarySingleNaN.binary_round prec emax mode_NE s m e.
Proof.
  intros. unfold SpecFloat.binary_round, BinarySingleNaN.binary_round, shl_align_fexp.
  destruct (shl_align _ _ _) as [mz ez]. apply round_aux_equiv.
Qed.
Lemma normalize_equiv : forall m e sz,
  SpecFloat.binary_normalize prec emax m e sz =
  B2SF (BinarySingleNaN.binary_normalize prec emax Hprec Hmax mode_NE m e sz).
Proof.
  intros [|p|p] e sz; [reflexivity| |]; cbn; rewrite B2SF_SF2B; apply round_equiv.
Qed.
Lemma mul_equiv : forall x y : b64,
  SFmul prec emax (B2SF x) (B2SF y) = B2SF (Bmult mode_NE x y).
Proof.
  intros [?|?| |sx mx ex Bx] [?|?| |sy my ey By]; try reflexivity.
  cbn. rewrite B2SF_SF2B. apply round_aux_equiv.
Qed.
Lemma div_equiv : forall x y : b64,
  SFdiv prec emax (B2SF x) (B2SF y) = B2SF (Bdiv mode_NE x y).
Proof.
  intros [?|?| |sx mx ex Bx] [?|?| |sy my ey By]; try reflexivity.
  cbn. rewrite B2SF_SF2B. destruct (SFdiv_core_binary _ _ _ _ _ _) as [[mz ez] lz].
  apply round_aux_equiv.
Qed.

(** ** Conversion, division and multiplication as roundings of real numbers *)
Local Notation rnd := (round radix2 fexp ZnearestE).
Lemma fexp_FLT : fexp = FLT_exp (SpecFloat.emin prec emax) prec.
Proof. reflexivity. Qed.
#[local] Instance fexp_valid : Valid_exp fexp.
Proof. rewrite fexp_FLT. typeclasses eauto. Qed.

Lemma int_format : forall n, Z.abs n < 2 ^ 53 -> generic_format radix2 fexp (IZR n).
Proof.
  intros n Hn. rewrite fexp_FLT. apply generic_format_FLT.
  exists (Float radix2 n 0).
  - unfold F2R. cbn. ring.
  - exact Hn.
  - cbn. lia.
Qed.
Lemma small_round : forall x, (Rabs x <= IZR (2 ^ 52))%R ->
  Rlt_bool (Rabs (rnd x)) (bpow radix2 emax) = true.
Proof.
  intros x Hx. apply Rlt_bool_true.
  apply Rle_lt_trans with (IZR (2 ^ 52)).
  - apply abs_round_le_generic; [typeclasses eauto|typeclasses eauto|apply int_format; lia|exact Hx].
  - change (IZR (2 ^ 52)) with (bpow radix2 52). apply bpow_lt. lia.
Qed.
Lemma rnd_error : forall x, (x = 0 \/ bpow radix2 (-1022) <= Rabs x)%R ->
  (Rabs (rnd x - x) <= bpow radix2 (-53) * Rabs x)%R.
Proof.
  intros x [->|H].
  - rewrite round_0 by typeclasses eauto. rewrite Rminus_0_r, Rabs_R0. lra.
  - rewrite fexp_FLT.
    pose proof (relative_error_N_FLT radix2 (SpecFloat.emin prec emax) prec Hprec (fun x => negb (Z.even x)) x) as E.
    assert (T : (/ 2 * bpow radix2 (- (53) + 1) = bpow radix2 (-53))%R).
    { replace (- (53) + 1) with (1 + -53) by lia. rewrite (bpow_plus radix2 1 (-53)).
      change (bpow radix2 1) with 2%R. field. }
    rewrite T in E. apply E. exact H.
Qed.

Lemma float_of_int_ok : forall n, Z.abs n < 2 ^ 52 ->
  exists b : b64, float_of_int n = B2SF b /\ B2R b = IZR n /\ is_finite b = true.
Proof.
  intros n Hn. exists (BinarySingleNaN.binary_normalize prec emax Hprec Hmax mode_NE n 0 false).
  split; [apply normalize_equiv|].
  pose proof (binary_normalize_correct prec emax Hprec Hmax mode_NE n 0 false) as C. cbn zeta in C.
  assert (Fn : F2R (Float radix2 n 0) = IZR n) by (unfold F2R; cbn; ring).
  rewrite Fn in C. cbn [round_mode] in C. rewrite small_round in C.
  2:{ rewrite <- abs_IZR. apply IZR_le. lia. }
  destruct C as (C1 & C2 & _). split; [|exact C2].
  rewrite C1. apply round_generic; [typeclasses eauto|]. apply int_format. lia.
Qed.

Lemma int_div_ok : forall n d, Z.abs n < 2 ^ 52 -> 0 < d < 2 ^ 52 ->
  exists b : b64, int_div n d = B2SF b /\ B2R b = rnd (IZR n / IZR d)%R /\ is_finite b = true.
Proof.
  intros n d Hn Hd.
  destruct (float_of_int_ok n Hn) as (bn & En & Rn & Fn).
  destruct (float_of_int_ok d) as (bd & Ed & Rd & Fd); [lia|].
  exists (Bdiv mode_NE bn bd). split; [unfold int_div; rewrite En, Ed; apply div_equiv|].
  assert (Hd0 : (1 <= IZR d)%R) by (apply IZR_le; lia).
  pose proof (Bdiv_correct prec emax Hprec Hmax mode_NE bn bd) as C. rewrite Rn, Rd in C.
  cbn [round_mode] in C. rewrite small_round in C.
  - destruct C as (C1 & C2 & _); [lra|]. rewrite C1, C2. auto.
  - unfold Rdiv. rewrite Rabs_mult, <- abs_IZR.
    rewrite (Rabs_pos_eq (/ IZR d)) by (left; apply Rinv_0_lt_compat; lra).
    apply Rle_trans with (IZR (Z.abs n) * 1)%R.
    + apply Rmult_le_compat_l; [apply IZR_le; lia|]. rewrite <- Rinv_1. apply Rinv_le; lra.
    + rewrite Rmult_1_r. apply IZR_le. lia.
Qed.

Lemma float_mul_ok : forall (x : b64) k, is_finite x = true -> 0 < k < 2 ^ 52 ->
  (Rabs (B2R x * IZR k) <= IZR (2 ^ 52))%R ->
  exists b : b64, float_mul (B2SF x) k = B2SF b /\ B2R b = rnd (B2R x * IZR k)%R /\
                  is_finite b = true.
Proof.
  intros x k Fx Hk Hx. destruct (float_of_int_ok k) as (bk & Ek & Rk & Fk); [lia|].
  exists (Bmult mode_NE x bk). split; [unfold float_mul; rewrite Ek; apply mul_equiv|].
  pose proof (Bmult_correct prec emax Hprec Hmax mode_NE x bk) as C. rewrite Rk in C.
  cbn [round_mode] in C. rewrite small_round in C by exact Hx.
  destruct C as (C1 & C2 & _). rewrite C1, C2, Fx, Fk. auto.
Qed.

(** an integer divided by [d] and multiplied by [d] again is off by at most 2^-51 of its value *)
Lemma scaled : forall n d, Z.abs n < 2 ^ 40 -> 0 < d < 2 ^ 40 ->
  exists b : b64, float_mul (int_div n d) d = B2SF b /\ is_finite b = true /\
                  (Rabs (B2R b - IZR n) <= bpow radix2 (-51) * Rabs (IZR n))%R.
Proof.
  intros n d Hn Hd.
  destruct (int_div_ok n d) as (q & Eq & Rq & Fq); [lia|lia|].
  destruct (Z.eq_dec n 0) as [->|N0].
  - (* zero *)
    assert (B2R q = 0%R) as Q0.
    { rewrite Rq. unfold Rdiv. rewrite Rmult_0_l. apply round_0. typeclasses eauto. }
    destruct (float_mul_ok q d Fq) as (b & Eb & Rb & Fb); [lia| |].
    + rewrite Q0, Rmult_0_l, Rabs_R0. apply IZR_le. lia.
    + exists b. rewrite Eq. split; [exact Eb|split; [exact Fb|]].
      rewrite Rb, Q0, Rmult_0_l, round_0 by typeclasses eauto.
      rewrite Rminus_0_r, Rabs_R0. lra.
  - assert (Hd1 : (1 <= IZR d)%R) by (apply IZR_le; lia).
    assert (Hd2 : (IZR d <= IZR (2 ^ 40))%R) by (apply IZR_le; lia).
    assert (Hn1 : (1 <= Rabs (IZR n))%R) by (rewrite <- abs_IZR; apply IZR_le; lia).
    assert (Hn2 : (Rabs (IZR n) <= IZR (2 ^ 40))%R) by (rewrite <- abs_IZR; apply IZR_le; lia).
    set (N := IZR n) in *. set (D := IZR d) in *.
    assert (Q : (Rabs (N / D) = Rabs N / D)%R).
    { unfold Rdiv. rewrite Rabs_mult. f_equal. apply Rabs_pos_eq. left. apply Rinv_0_lt_compat. lra. }
    assert (E1 : (Rabs (B2R q - N / D) <= bpow radix2 (-53) * Rabs (N / D))%R).
    { rewrite Rq. apply rnd_error. right. apply Rle_trans with (bpow radix2 (-40)).
      - apply bpow_le. lia.
      - rewrite Q. apply (Rmult_le_reg_r D); [lra|]. unfold Rdiv. rewrite Rmult_assoc, Rinv_l, Rmult_1_r by lra.
        apply Rle_trans with 1%R; [|exact Hn1].
        apply Rle_trans with (bpow radix2 (-40) * bpow radix2 40)%R.
        + apply Rmult_le_compat_l; [apply bpow_ge_0|]. exact Hd2.
        + rewrite <- bpow_plus. cbn. lra. }
    (* the product before the second rounding *)
    assert (E2 : (Rabs (B2R q * D - N) <= bpow radix2 (-53) * Rabs N)%R).
    { replace (B2R q * D - N)%R with ((B2R q - N / D) * D)%R by (field; lra).
      rewrite Rabs_mult, (Rabs_pos_eq D) by lra.
      apply Rle_trans with (bpow radix2 (-53) * Rabs (N / D) * D)%R.
      - apply Rmult_le_compat_r; [lra|exact E1].
      - rewrite Q. right. field. lra. }
    assert (B53 : (0 < bpow radix2 (-53) <= / 8)%R).
    { split; [apply bpow_gt_0|]. apply Rle_trans with (bpow radix2 (-3)); [apply bpow_le; lia|]. cbn. lra. }
    assert (E3 : (Rabs N / 2 <= Rabs (B2R q * D) <= 2 * Rabs N)%R).
    { revert E2. set (X := (B2R q * D)%R). intro E2.
      assert (T : (Rabs (X - N) <= / 8 * Rabs N)%R).
      { eapply Rle_trans; [exact E2|]. apply Rmult_le_compat_r; lra. }
      pose proof (Rabs_triang_inv N X). pose proof (Rabs_triang_inv X N).
      rewrite (Rabs_minus_sym N X) in H. lra. }
    destruct (float_mul_ok q d Fq) as (b & Eb & Rb & Fb); [lia| |].
    { fold D. eapply Rle_trans; [apply E3|]. apply Rle_trans with (2 * IZR (2 ^ 40))%R; [lra|].
      rewrite <- mult_IZR. apply IZR_le. lia. }
    exists b. rewrite Eq. split; [exact Eb|split; [exact Fb|]]. rewrite Rb.
    fold D. set (X := (B2R q * D)%R) in *.
    assert (E4 : (Rabs (rnd X - X) <= bpow radix2 (-53) * Rabs X)%R).
    { apply rnd_error. right. apply Rle_trans with (bpow radix2 (-1)).
      - apply bpow_le; lia.
      - cbn. lra. }
    replace (rnd X - N)%R with ((rnd X - X) + (X - N))%R by ring.
    eapply Rle_trans; [apply Rabs_triang|].
    apply Rle_trans with (bpow radix2 (-53) * (2 * Rabs N) + bpow radix2 (-53) * Rabs N)%R.
    + apply Rplus_le_compat; [|exact E2]. eapply Rle_trans; [exact E4|].
      apply Rmult_le_compat_l; lra.
    + change (-51) with (2 + -53). rewrite (bpow_plus radix2 2 (-53)). 
      change (bpow radix2 2) with 4%R. set (u := bpow radix2 (-53)) in *.
      assert (0 <= u * Rabs N)%R by (apply Rmult_le_pos; lra). lra.
Qed.

(** ** [round] and [int] of a float *)
Lemma half_even_near : forall m k, 0 <= k -> 2 * Z.abs (m - half_even m k * 2 ^ k) <= 2 ^ k.
Proof.
  intros m k Hk. unfold half_even.
  pose proof (Z.div_mod m (2 ^ k)) as DM. pose proof (Z.mod_pos_bound m (2 ^ k)) as MB.
  assert (0 < 2 ^ k) by (apply Z.pow_pos_nonneg; lia). specialize (DM ltac:(lia)). specialize (MB H).
  destruct (2 * (m mod 2 ^ k) <? 2 ^ k) eqn:A; [apply Z.ltb_lt in A; nia|apply Z.ltb_ge in A].
  destruct (2 ^ k <? 2 * (m mod 2 ^ k)) eqn:B; [apply Z.ltb_lt in B; nia|apply Z.ltb_ge in B].
  destruct (Z.even (m / 2 ^ k)); nia.
Qed.

Lemma pow2_bpow : forall k, 0 <= k -> IZR (2 ^ k) = bpow radix2 k.
Proof. intros k Hk. exact (IZR_Zpower radix2 k Hk). Qed.

Lemma near_real : forall m z k, 0 <= k -> 2 * Z.abs (m - z * 2 ^ k) <= 2 ^ k ->
  (Rabs (IZR z - IZR m * bpow radix2 (- k)) <= / 2)%R.
Proof.
  intros m z k Hk H. pose proof (bpow_gt_0 radix2 (- k)) as P.
  assert (I : (IZR (2 ^ k) * bpow radix2 (- k) = 1)%R).
  { rewrite pow2_bpow by exact Hk. rewrite <- bpow_plus. replace (k + - k) with 0 by lia. reflexivity. }
  apply IZR_le in H. rewrite mult_IZR, abs_IZR, minus_IZR, mult_IZR in H.
  replace (IZR z - IZR m * bpow radix2 (- k))%R
    with (- ((IZR m - IZR z * IZR (2 ^ k)) * bpow radix2 (- k)))%R
    by (ring_simplify; rewrite (Rmult_assoc (IZR z)), I; ring).
  rewrite Rabs_Ropp, Rabs_mult, (Rabs_pos_eq (bpow radix2 (- k))) by lra.
  apply (Rmult_le_compat_r (bpow radix2 (- k))) in H; [|lra]. rewrite I in H. lra.
Qed.

Lemma py_round_ok : forall b : b64, is_finite b = true ->
  exists z, py_round (B2SF b) = Ok z /\ (Rabs (IZR z - B2R b) <= / 2)%R.
Proof.
  intros [s|s| |s m e Be] F; try discriminate.
  - exists 0. split; [reflexivity|]. cbn. rewrite Rminus_0_r, Rabs_R0. lra.
  - cbn [B2SF py_round float_to_int B2R]. unfold py_round, float_to_int.
    eexists; split; [reflexivity|].
    assert (G : (Rabs (IZR (if 0 <=? e then Z.pos m * 2 ^ e else half_even (Z.pos m) (- e)) - F2R (Float radix2 (Z.pos m) e)) <= / 2)%R).
    { unfold F2R. cbn [Fnum Fexp]. destruct (0 <=? e) eqn:E.
      - apply Z.leb_le in E. rewrite mult_IZR, pow2_bpow by exact E.
        rewrite Rminus_eq_0, Rabs_R0. lra.
      - apply Z.leb_gt in E. replace e with (- - e) at 2 by lia. apply near_real; [lia|].
        apply half_even_near. lia. }
    destruct s; cbn [SpecFloat.cond_Zopp cond_Zopp]; [|exact G].
    replace (F2R (Float radix2 (- Z.pos m) e)) with (- F2R (Float radix2 (Z.pos m) e))%R
      by (symmetry; exact (F2R_Zopp radix2 (Z.pos m) e)).
    rewrite opp_IZR. rewrite <- Rabs_Ropp.
    match goal with |- (Rabs ?x <= _)%R => replace x with
      (IZR (if 0 <=? e then Z.pos m * 2 ^ e else half_even (Z.pos m) (- e)) - F2R (Float radix2 (Z.pos m) e))%R by ring end.
    exact G.
Qed.

(** ** What the codecs need *)
Theorem round_scaled : forall n d, Z.abs n < 2 ^ 40 -> 0 < d < 2 ^ 40 ->
  py_round (float_mul (int_div n d) d) = Ok n.
Proof.
  intros n d Hn Hd. destruct (scaled n d Hn Hd) as (b & -> & Fb & E).
  destruct (py_round_ok b Fb) as (z & -> & Z1). f_equal.
  assert ((Rabs (IZR n) <= IZR (2 ^ 40))%R) by (rewrite <- abs_IZR; apply IZR_le; lia).
  assert (B : (Rabs (B2R b - IZR n) <= / 8)%R).
  { eapply Rle_trans; [exact E|]. apply Rle_trans with (bpow radix2 (-51) * bpow radix2 40)%R.
    - apply Rmult_le_compat_l; [apply bpow_ge_0|exact H].
    - rewrite <- bpow_plus. apply Rle_trans with (bpow radix2 (-3)); [apply bpow_le; lia|]. cbn. lra. }
  assert (C : (Rabs (IZR z - IZR n) < 1)%R).
  { replace (IZR z - IZR n)%R with ((IZR z - B2R b) + (B2R b - IZR n))%R by ring.
    eapply Rle_lt_trans; [apply Rabs_triang|]. lra. }
  rewrite <- minus_IZR, <- abs_IZR in C. apply lt_IZR in C. lia.
Qed.

Lemma floor_real : forall m k, 0 <= k ->
  (IZR (m / 2 ^ k) <= IZR m * bpow radix2 (- k) < IZR (m / 2 ^ k) + 1)%R.
Proof.
  intros m k Hk. pose proof (bpow_gt_0 radix2 (- k)) as P.
  assert (I : (IZR (2 ^ k) * bpow radix2 (- k) = 1)%R).
  { rewrite pow2_bpow by exact Hk. rewrite <- bpow_plus. replace (k + - k) with 0 by lia. reflexivity. }
  assert (0 < 2 ^ k) by (apply Z.pow_pos_nonneg; lia).
  pose proof (Z.mul_div_le m (2 ^ k) H) as L. pose proof (Z.mul_succ_div_gt m (2 ^ k) H) as U.
  apply IZR_le in L. apply IZR_lt in U. rewrite mult_IZR in L, U. rewrite succ_IZR in U.
  set (q := IZR (m / 2 ^ k)) in *. set (p := IZR (2 ^ k)) in *. set (t := bpow radix2 (- k)) in *.
  split.
  - replace q with (p * q * t)%R by (rewrite (Rmult_comm p q), Rmult_assoc, I; ring).
    apply Rmult_le_compat_r; lra.
  - replace (q + 1)%R with (p * (q + 1) * t)%R by (rewrite (Rmult_comm p), Rmult_assoc, I; ring).
    apply Rmult_lt_compat_r; lra.
Qed.

Lemma py_int_ok : forall b : b64, is_finite b = true ->
  exists z, py_int (B2SF b) = Ok z /\
    ((0 <= z /\ (IZR z <= B2R b < IZR z + 1)%R) \/ (z <= 0 /\ (IZR z - 1 < B2R b <= IZR z)%R)).
Proof.
  intros [s|s| |s m e Be] F; try discriminate.
  - exists 0. split; [reflexivity|]. left. cbn. split; [lia|lra].
  - cbn [B2SF B2R]. unfold py_int, float_to_int.
    set (a := if 0 <=? e then Z.pos m * 2 ^ e else Z.pos m / 2 ^ (- e)).
    assert (G : 0 <= a /\ (IZR a <= F2R (Float radix2 (Z.pos m) e) < IZR a + 1)%R).
    { unfold a, F2R. cbn [Fnum Fexp]. destruct (0 <=? e) eqn:E.
      - apply Z.leb_le in E. split; [apply Z.mul_nonneg_nonneg; [lia|apply Z.pow_nonneg; lia]|].
        rewrite mult_IZR, pow2_bpow by exact E. lra.
      - apply Z.leb_gt in E. split; [apply Z.div_pos; [lia|apply Z.pow_pos_nonneg; lia]|].
        pose proof (floor_real (Z.pos m) (- e)) as FR. replace (- - e) with e in FR by lia.
        apply FR. lia. }
    eexists; split; [reflexivity|]. destruct s; cbn [cond_Zopp]; [right|left; exact G].
    replace (F2R (Float radix2 (- Z.pos m) e)) with (- F2R (Float radix2 (Z.pos m) e))%R
      by (symmetry; exact (F2R_Zopp radix2 (Z.pos m) e)).
    split; [lia|]. rewrite opp_IZR. lra.
Qed.

(** truncation may lose one unit, towards zero *)
Theorem trunc_scaled : forall n d, Z.abs n < 2 ^ 40 -> 0 < d < 2 ^ 40 ->
  py_int (float_mul (int_div n d) d) = Ok n \/
  py_int (float_mul (int_div n d) d) = Ok (n - Z.sgn n).
Proof.
  intros n d Hn Hd. destruct (scaled n d Hn Hd) as (b & -> & Fb & E).
  destruct (py_int_ok b Fb) as (z & -> & Z1).
  assert ((Rabs (IZR n) <= IZR (2 ^ 40))%R) by (rewrite <- abs_IZR; apply IZR_le; lia).
  assert (B : (Rabs (B2R b - IZR n) <= / 8)%R).
  { eapply Rle_trans; [exact E|]. apply Rle_trans with (bpow radix2 (-51) * bpow radix2 40)%R.
    - apply Rmult_le_compat_l; [apply bpow_ge_0|exact H].
    - rewrite <- bpow_plus. apply Rle_trans with (bpow radix2 (-3)); [apply bpow_le; lia|]. cbn. lra. }
  apply Rabs_le_inv in B.
  destruct (Z.eq_dec n 0) as [->|N0].
  { left. f_equal. rewrite Rabs_R0, Rmult_0_r in E. apply Rabs_le_inv in E.
    destruct Z1 as [[Z0 Z1]|[Z0 Z1]].
    - assert (IZR z < 1)%R as U by lra. apply lt_IZR in U. lia.
    - assert (-1 < IZR z)%R as U by lra. apply lt_IZR in U. lia. }
  destruct Z1 as [[Z0 Z1]|[Z0 Z1]].
  - assert (IZR (n - 2) < IZR z)%R as L by (rewrite minus_IZR; lra).
    assert (IZR z < IZR (n + 1))%R as U by (rewrite plus_IZR; lra).
    apply lt_IZR in L, U.
    destruct (Z.eq_dec z n) as [->|]; [left; reflexivity|right; f_equal].
    replace z with (n - 1) in * by lia. lia.
  - assert (IZR (n - 1) < IZR z)%R as L by (rewrite minus_IZR; lra).
    assert (IZR z < IZR (n + 2))%R as U by (rewrite plus_IZR; lra).
    apply lt_IZR in L, U.
    destruct (Z.eq_dec z n) as [->|]; [left; reflexivity|right; f_equal].
    replace z with (n + 1) in * by lia. lia.
Qed.
