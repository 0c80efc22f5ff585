(** Real analysis for C109. *)
From Coq Require Import Reals Lra Psatz Machin.
From Verif Require Import Base M_Glyph S_Stream S_Entry S_Angle.
Local Open Scope R_scope.

Lemma PI_upper : PI < 3.143.
Proof.
  destruct (PI_2_3_7_ineq 1) as [_ H]. cbn [Nat.mul Nat.add sum_f_R0] in H. unfold tg_alt, PI_2_3_7_tg, Ratan_seq in H.
  cbn [pow INR Nat.mul Nat.add] in H. lra.
Qed.
Lemma PI_lower : 3.1 < PI.
Proof.
  destruct (PI_2_3_7_ineq 1) as [H _]. cbn [Nat.mul Nat.add sum_f_R0] in H. unfold tg_alt, PI_2_3_7_tg, Ratan_seq in H.
  cbn [pow INR Nat.mul Nat.add] in H. lra.
Qed.

Lemma atan_mvt : forall a b, a < b -> exists c, atan b - atan a = (b - a) / (1 + c ^ 2) /\ a < c < b.
Proof.
  intros a b H. destruct (MVT_cor2 atan (fun c => / (1 + c ^ 2)) a b H) as (c & E & Hc).
  - intros c _. apply derivable_pt_lim_atan.
  - exists c. split; [|exact Hc]. rewrite E. unfold Rdiv. ring.
Qed.
Lemma atan_le : forall a b, a <= b -> atan a <= atan b.
Proof. intros a b [H| ->]; [left; now apply atan_increasing|right; reflexivity]. Qed.
(** the slope of the arc tangent, from below and from above *)
Lemma atan_grows : forall a b m, a < b -> - m <= a -> b <= m -> (b - a) / (1 + m ^ 2) <= atan b - atan a.
Proof.
  intros a b m H Ha Hb. destruct (atan_mvt a b H) as (c & -> & C). unfold Rdiv. apply Rmult_le_compat_l; [lra|].
  apply Rinv_le_contravar; [nra|]. nra.
Qed.
Lemma atan_slow : forall a b, a <= b -> 0 <= atan b - atan a <= b - a.
Proof.
  intros a b [H| ->]; [|lra]. destruct (atan_mvt a b H) as (c & -> & C). assert (0 < / (1 + c ^ 2) <= 1).
  { split; [apply Rinv_0_lt_compat; nra|]. rewrite <- Rinv_1. apply Rinv_le_contravar; nra. }
  unfold Rdiv. nra.
Qed.

Lemma Rabs_le_inv : forall a b, Rabs a <= b -> - b <= a <= b.
Proof. intros a b H. unfold Rabs in H. destruct (Rcase_abs a); lra. Qed.
Notation k := 2251799813685248.
Lemma near_factor : forall x y, near x y -> exists e, x = y * (1 + e) /\ Rabs e <= / k.
Proof.
  intros x y H. unfold near in H. destruct (Req_dec y 0) as [->|N].
  - exists 0. rewrite Rabs_R0 in *. split; [|lra]. rewrite Rminus_0_r in H. replace (0 / k) with 0 in H by field.
    destruct (Req_dec x 0) as [->|Nx]; [ring|]. apply Rabs_pos_lt in Nx. lra.
  - exists ((x - y) / y). split; [field; exact N|]. unfold Rdiv. rewrite Rabs_mult, Rabs_inv.
    apply Rabs_pos_lt in N. apply Rmult_le_reg_r with (Rabs y); [exact N|]. rewrite Rmult_assoc, Rinv_l by lra. lra.
Qed.
(** two and three errors together *)
Lemma errors2 : forall a b, Rabs a <= / k -> Rabs b <= / k -> exists e, (1 + a) * (1 + b) = 1 + e /\ Rabs e <= 2.0001 / k.
Proof.
  intros a b A B. exists (a + b + a * b). split; [ring|].
  apply Rabs_le. apply Rabs_le_inv in A, B. split; nra.
Qed.
Lemma errors3 : forall a b c, Rabs a <= / k -> Rabs b <= / k -> Rabs c <= / k ->
  exists e, (1 + a) * (1 + b) * (1 + c) = 1 + e /\ Rabs e <= 3.0002 / k.
Proof.
  intros a b c A B C. destruct (errors2 a b A B) as (f & E & F). rewrite E. exists (f + c + f * c). split; [ring|].
  apply Rabs_le. apply Rabs_le_inv in F, C. split; nra.
Qed.

Lemma slope_bound : forall s, int32 s -> -214748.3648 <= IZR s / 10000 <= 214748.3648.
Proof.
  intros s [A B]. change (- 2 ^ 31)%Z with (-2147483648)%Z in A. change (2 ^ 31)%Z with 2147483648%Z in B.
  apply IZR_le in A. apply IZR_lt in B. lra.
Qed.
Lemma atan_gap : forall x, -214748.3648 <= x <= 214748.3648 -> Rabs (atan x) <= PI / 2 - / 1000000.
Proof.
  assert (G : atan 214748.3648 <= PI / 2 - / 1000000).
  { pose proof (atan_grows 214748.3648 500000 500000 ltac:(lra) ltac:(lra) ltac:(lra)) as H. pose proof (atan_bound 500000). lra. }
  intros x [A B]. apply Rabs_le. split.
  - assert (L : - x <= 214748.3648) by lra. apply atan_le in L. rewrite atan_opp in L. lra.
  - apply atan_le in B. lra.
Qed.

(** the angle that is read, in radians *)
Lemma reads_factor : forall s d, reads_as s d -> exists e, d = atan (IZR s / 10000) * (180 / PI) * (1 + e) /\ Rabs e <= 2.0001 / k.
Proof.
  intros s d (a & A & D). apply near_factor in A, D. destruct A as (e & -> & E). destruct D as (f & -> & F).
  destruct (errors2 e f E F) as (g & G & B). exists g. split; [|exact B]. rewrite <- G. ring.
Qed.
Lemma reads_below_90 : forall s d, int32 s -> reads_as s d -> Rabs d < 90.
Proof.
  intros s d I H. destruct (reads_factor s d H) as (e & -> & E). pose proof (atan_gap _ (slope_bound s I)) as G. set (x := atan _) in *.
  pose proof PI_upper. pose proof PI_lower. rewrite !Rabs_mult. rewrite (Rabs_right (180 / PI)) by (apply Rle_ge, Rlt_le, Rdiv_lt_0_compat; lra).
  assert (Rabs (1 + e) <= 1 + 2.0001 / k). { apply Rabs_le. apply Rabs_le_inv in E. lra. }
  assert (0 <= Rabs x) by apply Rabs_pos. assert (0 <= Rabs (1 + e)) by apply Rabs_pos.
  apply Rle_lt_trans with ((PI / 2 - / 1000000) * (180 / PI) * (1 + 2.0001 / k)).
  - apply Rmult_le_compat; [|assumption| |assumption]; [|apply Rmult_le_compat_r; [left; apply Rdiv_lt_0_compat; lra|assumption]].
    apply Rmult_le_pos; [assumption|left; apply Rdiv_lt_0_compat; lra].
  - replace ((PI / 2 - / 1000000) * (180 / PI) * (1 + 2.0001 / k)) with ((90 - 180 / 1000000 / PI) * (1 + 2.0001 / k)) by (field; lra).
    assert (180 / 1000000 / 3.143 <= 180 / 1000000 / PI). { unfold Rdiv at 1 3. apply Rmult_le_compat_l; [lra|]. apply Rinv_le_contravar; lra. }
    nra.
Qed.

Lemma tan_close : forall s r, int32 s -> (exists e, r = atan (IZR s / 10000) * (1 + e) /\ Rabs e <= 3.0002 / k) ->
  Rabs (tan r - IZR s / 10000) < 0.99 / 10000.
Proof.
  intros s r I (e & E & B). pose proof (slope_bound s I) as S. pose proof (atan_gap _ S) as G. set (x := IZR s / 10000) in *.
  pose proof PI_upper. pose proof PI_lower.
  assert (D : Rabs (r - atan x) < 2.0943 / 1000000000000000).
  { rewrite E. replace (atan x * (1 + e) - atan x) with (atan x * e) by ring. rewrite Rabs_mult.
    apply Rle_lt_trans with (1.5715 * (3.0002 / k)); [|lra]. apply Rmult_le_compat; [apply Rabs_pos|apply Rabs_pos|lra|exact B]. }
  apply Rabs_def2 in D. apply Rabs_le_inv in G.
  assert (R : - (PI / 2) < r < PI / 2) by lra. assert (A := atan_tan r R). set (y := tan r) in *.
  apply Rabs_def1.
  - destruct (Rlt_le_dec (y - x) (0.99 / 10000)) as [L|L]; [exact L|exfalso].
    pose proof (atan_grows x (x + 0.99 / 10000) 214748.36491 ltac:(lra) ltac:(lra) ltac:(lra)) as Q.
    assert (atan (x + 0.99 / 10000) <= atan y) by (apply atan_le; lra). lra.
  - destruct (Rlt_le_dec (- (0.99 / 10000)) (y - x)) as [L|L]; [exact L|exfalso].
    pose proof (atan_grows (x - 0.99 / 10000) x 214748.36491 ltac:(lra) ltac:(lra) ltac:(lra)) as Q.
    assert (atan y <= atan (x - 0.99 / 10000)) by (apply atan_le; lra). lra.
Qed.

Lemma saved_slope : forall s d s', int32 s -> reads_as s d -> written_as d s' -> towards_zero s s'.
Proof.
  intros s d s' I Hr (r & t & p & R & T & P & J). destruct Hr as (a & A & D).
  apply near_factor in A, D, R, T, P. destruct A as (e1 & -> & E1), D as (e2 & -> & E2), R as (e3 & -> & E3), T as (e4 & -> & E4), P as (e5 & -> & E5).
  pose proof PI_lower as PL. pose proof (slope_bound s I) as S.
  assert (C := tan_close s (atan (IZR s / 10000) * (1 + e1) * (180 / PI) * (1 + e2) * (PI / 180) * (1 + e3)) I).
  set (r := atan (IZR s / 10000) * (1 + e1) * (180 / PI) * (1 + e2) * (PI / 180) * (1 + e3)) in *.
  assert (C' : Rabs (tan r - IZR s / 10000) < 0.99 / 10000).
  { apply C. destruct (errors3 e1 e2 e3 E1 E2 E3) as (e & E & B). exists e. split; [|exact B]. rewrite <- E. unfold r. field. lra. }
  clear C. set (y := tan r) in *. clearbody y. clear r. destruct (errors2 e4 e5 E4 E5) as (e & E & B).
  set (p := y * (1 + e4) * 10000 * (1 + e5)) in *. assert (Ep : p = y * 10000 * (1 + e)) by (unfold p; rewrite <- E; ring). clearbody p.
  apply Rabs_def2 in C'. apply Rabs_le_inv in B.
  assert (Q : -1 < p - IZR s < 1). { rewrite Ep. split; nra. }
  destruct J as [J1 J2]. unfold towards_zero.
  assert (Z : (s' = s \/ s' = s - Z.sgn s)%Z).
  { destruct (Z.lt_trichotomy s 0) as [N|[->|N]].
    - assert (IZR s <= -1) by (apply IZR_le; lia). destruct J2 as [K1 K2]; [lra|].
      assert (s - 1 < s')%Z by (apply lt_IZR; rewrite minus_IZR; lra). assert (s' - 1 < s + 1)%Z by (apply lt_IZR; rewrite minus_IZR, plus_IZR; lra). lia.
    - left. destruct (Rle_lt_dec 0 p) as [L|L].
      + destruct (J1 L) as [K1 K2]. assert (s' < 1)%Z by (apply lt_IZR; lra). assert (0 < s' + 1)%Z by (apply lt_IZR; rewrite plus_IZR; lra). lia.
      + destruct J2 as [K1 K2]; [lra|]. assert (-1 < s')%Z by (apply lt_IZR; lra). assert (s' - 1 < 0)%Z by (apply lt_IZR; rewrite minus_IZR; lra). lia.
    - assert (1 <= IZR s) by (apply IZR_le; lia). destruct J1 as [K1 K2]; [lra|].
      assert (s' < s + 1)%Z by (apply lt_IZR; rewrite plus_IZR; lra). assert (s - 1 < s' + 1)%Z by (apply lt_IZR; rewrite minus_IZR, plus_IZR; lra). lia. }
  exact Z.
Qed.

(** the angles of neighbouring slopes *)
Lemma angle_close : forall s t d e, int32 s -> towards_zero s t -> reads_as s d -> reads_as t e -> Rabs (e - d) <= 6 / 1000.
Proof.
  intros s t d e I M D E. assert (It : int32 t) by (destruct M as [->| ->]; unfold int32 in *; lia).
  destruct (reads_factor _ _ D) as (a & -> & A). destruct (reads_factor _ _ E) as (b & -> & B).
  pose proof (atan_gap _ (slope_bound s I)) as Gs. pose proof (atan_gap _ (slope_bound t It)) as Gt.
  assert (C : Rabs (atan (IZR t / 10000) - atan (IZR s / 10000)) <= / 10000).
  { assert (X : forall x y, Rabs (x - y) <= / 10000 -> Rabs (atan x - atan y) <= / 10000).
    { intros x y H. apply Rabs_le. apply Rabs_le_inv in H. destruct (Rle_lt_dec y x) as [L|L].
      - pose proof (atan_slow _ _ L). lra.
      - pose proof (atan_slow _ _ (Rlt_le _ _ L)). lra. }
    apply X. apply Rabs_le. destruct M as [->| ->]; [lra|]. rewrite minus_IZR.
    assert (-1 <= Z.sgn s <= 1)%Z by lia. assert (-1 <= IZR (Z.sgn s) <= 1) by (split; apply IZR_le; lia). lra. }
  set (x := atan (IZR s / 10000)) in *. set (y := atan (IZR t / 10000)) in *. pose proof PI_upper. pose proof PI_lower.
  replace (y * (180 / PI) * (1 + b) - x * (180 / PI) * (1 + a)) with ((y - x + y * b - x * a) * (180 / PI)) by ring.
  rewrite Rabs_mult, (Rabs_right (180 / PI)) by (apply Rle_ge, Rlt_le, Rdiv_lt_0_compat; lra).
  assert (Q : Rabs (y - x + y * b - x * a) <= 1.001 / 10000).
  { apply Rabs_le. apply Rabs_le_inv in A, B, C, Gs, Gt. split; nra. }
  assert (180 / PI <= 180 / 3.1). { unfold Rdiv. apply Rmult_le_compat_l; [lra|]. apply Rinv_le_contravar; lra. }
  assert (0 < 180 / PI) by (apply Rdiv_lt_0_compat; lra).
  apply Rle_trans with (1.001 / 10000 * (180 / 3.1)); [|lra].
  apply Rmult_le_compat; [apply Rabs_pos|lra|assumption|assumption].
Qed.
