(** C109: the angles of guides when files are read and written again and again. *)
From Coq Require Import Reals Lra.
From Verif Require Import Base M_Stream M_Glyph S_Stream S_Entry S_Glyph S_Angle Lib P_Loop P_Glyph P_Glyph5 Prop_Glyph P_Angle.
Local Open Scope R_scope.

(** A slope that is read and written again is the same or one nearer to zero. *)
Theorem C109_slope : forall val o s, accurate val o -> int32 s ->
  exists t, o_slope o (o_angle o s) = Ok t /\ towards_zero s t.
Proof.
  intros val o s [Ha Hs] I. pose proof (Ha s I) as R. destruct (Hs (o_angle o s) (reads_below_90 _ _ I R)) as (t & E & W).
  exists t. split; [exact E|exact (saved_slope _ _ _ I R W)].
Qed.

(** one save of a slope *)
Definition saved (o : oracles) (s t : Z) : Prop := o_slope o (o_angle o s) = Ok t.
Inductive saves (o : oracles) : nat -> Z -> Z -> Prop :=
  | saves_0 : forall s, saves o 0 s s
  | saves_S : forall n s t u, saved o s t -> saves o n t u -> saves o (S n) s u.
(** After [n] saves a slope has the same sign or is zero, is not steeper, and has moved by at most [n]. *)
Theorem C109_saves : forall val o n s t, accurate val o -> int32 s -> saves o n s t ->
  (Z.abs s - Z.of_nat n <= Z.abs t <= Z.abs s /\ 0 <= s * t)%Z.
Proof.
  intros val o n s t A I H. induction H as [s|n s t u E H IH]; [lia|].
  destruct (C109_slope val o s A I) as (t' & E' & M). unfold saved in E. rewrite E' in E. injection E as ->.
  assert (It : int32 t) by (destruct M as [->| ->]; unfold int32 in *; lia).
  destruct (IH It) as [B P]. unfold towards_zero in M. nia.
Qed.

Lemma guide_saved : forall val o g, accurate val o -> (int32 (gm_pos g) /\ exists s, int32 s /\ gm_angle g = o_angle o s) ->
  (exists s, o_slope o (gm_angle g) = Ok s /\ int32 s) /\ guide_moved val o g (stored_angle o g).
Proof.
  intros val o g A (Ip & s & I & E). destruct (C109_slope val o s A I) as (t & Et & M). rewrite <- E in Et.
  assert (It : int32 t) by (destruct M as [->| ->]; unfold int32 in *; lia).
  split; [exists t; split; assumption|]. unfold stored_angle. rewrite Et. split; [reflexivity|]. cbn [gm_angle].
  split; [exists s, t; auto|]. destruct A as [Ha _]. rewrite E. exact (angle_close s t _ _ I M (Ha s I) (Ha t It)).
Qed.
Lemma guides_saved : forall val o ls, accurate val o -> Forall (fun l => read_slopes o l) ls ->
  Forall (Forall (fun g => exists s, o_slope o (gm_angle g) = Ok s /\ int32 s)) ls /\
  Forall2 (Forall2 (guide_moved val o)) ls (map (map (stored_angle o)) ls).
Proof.
  intros val o ls A F. induction F as [|l ls R F [IH1 IH2]]; [split; constructor|].
  assert (X : Forall (fun g => exists s, o_slope o (gm_angle g) = Ok s /\ int32 s) l /\ Forall2 (guide_moved val o) l (map (stored_angle o) l)).
  { clear - A R. induction R as [|g l Hg R [IH1 IH2]]; [split; constructor|]. destruct (guide_saved val o g A Hg). split; constructor; assumption. }
  destruct X. split; constructor; assumption.
Qed.

(** Global guides that are read from a file can be written, and when the file is read again they are in the same
    places, with the same slopes or slopes one nearer to zero. *)
Theorem C109_guides : forall val o n data d, accurate val o -> entry_data data -> (0 <= n)%Z ->
  run_parser (parse_global_guides o (Some n)) data = Ok d ->
  exists bs e, compile_guides o (Some n) d = Ok bs /\ run_parser (parse_global_guides o (Some n)) bs = Ok e /\ guides_moved val o d e.
Proof.
  intros val o n data d A Hd Hn E.
  assert (R : rps (parse_global_guides o (Some n)) (fun d => countable (gs_h d) /\ countable (gs_v d) /\
     Forall (fun l => List.length l = Z.to_nat n /\ read_slopes o l) (gs_h d ++ gs_v d))).
  { unfold parse_global_guides. eapply rps_bind; [apply rps_guides|]. intros x Hx.
    eapply rps_bind; [apply rps_read_all|]. intros b _. eapply rps_bind; [apply rps_true; tot_auto|]. intros _ _.
    apply rps_ret. exact Hx. }
  destruct (rps_run _ _ _ _ _ R Hd E) as (_ & _ & F).
  assert (F' : Forall (read_slopes o) (gs_h d ++ gs_v d)) by (eapply Forall_impl; [|exact F]; intros l K; apply K). clear F. rename F' into F.
  destruct (guides_saved val o _ A F) as [S _]. destruct (C40_guides o n data d Hd Hn E S) as (bs & Ec & _ & Ep).
  exists bs, (stored_guides o d). split; [exact Ec|]. split; [exact Ep|]. apply Forall_app in F.
  split; cbn [stored_guides gs_h gs_v]; eapply guides_saved; [exact A|apply F|exact A|apply F].
Qed.

(** The same for the guides of a glyph, and all other data of the glyph comes back. *)
Theorem C109_glyph : forall val o v n data g, accurate val o -> entry_data data ->
  run_parser (parse_glyph o) data = Ok g -> complete o v n g ->
  exists bs g' gs, compile_glyph o v g = Ok bs /\ run_parser (parse_glyph o) bs = Ok g' /\
    same_glyph (with_guides g gs) g' /\ same_option (guides_moved val o) (g_guides g) gs.
Proof.
  intros val o v n data g A Hd E C. pose proof (rps_run _ _ _ _ _ (rps_glyph o) Hd E) as R.
  assert (X : match g_guides g with
              | Some gs => Forall (Forall (fun g => exists s, o_slope o (gm_angle g) = Ok s /\ int32 s)) (gs_h gs ++ gs_v gs) /\ guides_moved val o gs (stored_guides o gs)
              | None => True end).
  { unfold read_glyph in R.
    destruct (g_guides g) as [gs|]; [|exact I].
    assert (F : Forall (read_slopes o) (gs_h gs ++ gs_v gs)). { decompose [and] R. cbn in *. tauto. }
    split; [eapply guides_saved; [exact A|exact F]|]. apply Forall_app in F. split; cbn [stored_guides gs_h gs_v]; eapply guides_saved; [exact A|apply F|exact A|apply F]. }
  assert (G : regular o v n g).
  { unfold complete in C. unfold regular. destruct (g_guides g) as [gs|]; [|exact C]. cbn [on_some] in *. decompose [and] C.
    repeat (split; [first [assumption|idtac]|]); try assumption. apply Forall_and; tauto. }
  destruct (C40_glyph o v n data g Hd E G) as (bs & g' & Ec & _ & Ep & S).
  exists bs, g', (option_map (stored_guides o) (g_guides g)). split; [exact Ec|]. split; [exact Ep|]. split; [exact S|].
  destruct (g_guides g); cbn; [apply X|exact I].
Qed.

(** ** A math library that is accurate *)
(** numbers with 80 binary digits after the point, in place of doubles *)
Definition fixed (z : Z) : R := IZR z / 1208925819614629174706176.
Definition floor (x : R) : Z := (up x - 1)%Z.
Definition trunc (x : R) : Z := if Rle_lt_dec 0 x then floor x else (- floor (- x))%Z.
Definition degrees_of (s : Z) : R := atan (IZR s / 10000) * (180 / PI).
(** angles are rounded down, and made a little smaller if they are positive *)
Definition low_angle (s : Z) : Z := (floor (degrees_of s * 1208925819614629174706176) - (if 0 <? s then 1 else 0))%Z.
Definition low_slope (d : Z) : Z := trunc (tan (fixed d * (PI / 180)) * 10000).
Definition low : oracles := Oracles low_angle (fun d => Ok (low_slope d)) (fun _ => Ok []) (fun _ => Ok []).

Lemma floor_spec : forall x, IZR (floor x) <= x < IZR (floor x) + 1.
Proof. intros x. unfold floor. rewrite minus_IZR. destruct (archimed x). lra. Qed.
Lemma trunc_spec : forall x, int_part x (trunc x).
Proof.
  intros x. unfold trunc, int_part. pose proof (floor_spec x). pose proof (floor_spec (- x)). destruct (Rle_lt_dec 0 x) as [L|L].
  - split; [auto|]. intros N. assert (x = 0) by lra. subst x.
    assert (floor 0 = 0%Z). { assert (floor 0 < 1)%Z by (apply lt_IZR; lra). assert (0 < floor 0 + 1)%Z by (apply lt_IZR; rewrite plus_IZR; lra). lia. }
    rewrite H1. lra.
  - split; [lra|]. intros _. rewrite opp_IZR. lra.
Qed.
Lemma near_refl : forall x, near x x.
Proof. intros x. unfold near. replace (x - x) with 0 by ring. rewrite Rabs_R0. pose proof (Rabs_pos x). lra. Qed.
Lemma atan_steep : forall x, / 10000 <= Rabs x -> / 20000 <= Rabs (atan x).
Proof.
  assert (P : forall x, / 10000 <= x -> / 20000 <= atan x).
  { intros x H. pose proof (atan_grows 0 (/ 10000) 1 ltac:(lra) ltac:(lra) ltac:(lra)) as G. rewrite atan_0 in G.
    apply atan_le in H. lra. }
  intros x H. unfold Rabs in H. destruct (Rcase_abs x).
  - apply P in H. rewrite atan_opp in H. unfold Rabs. destruct (Rcase_abs (atan x)); lra.
  - apply P in H. unfold Rabs. destruct (Rcase_abs (atan x)); lra.
Qed.
Lemma degrees_big : forall s, (s <> 0)%Z -> / 1000 <= Rabs (degrees_of s).
Proof.
  intros s N. unfold degrees_of. pose proof PI_upper. pose proof PI_lower. rewrite Rabs_mult.
  rewrite (Rabs_right (180 / PI)) by (apply Rle_ge, Rlt_le, Rdiv_lt_0_compat; lra).
  assert (A : / 20000 <= Rabs (atan (IZR s / 10000))).
  { apply atan_steep. unfold Rdiv. rewrite Rabs_mult, (Rabs_right (/ 10000)) by lra.
    assert (1 <= Rabs (IZR s)). { rewrite <- abs_IZR. apply IZR_le. lia. } lra. }
  assert (180 / 3.143 <= 180 / PI). { unfold Rdiv. apply Rmult_le_compat_l; [lra|]. apply Rinv_le_contravar; lra. }
  apply Rle_trans with (/ 20000 * (180 / 3.143)); [lra|]. apply Rmult_le_compat; lra.
Qed.
Lemma low_reads : forall s, reads_as s (fixed (low_angle s)).
Proof.
  intros s. exists (atan (IZR s / 10000)). split; [apply near_refl|]. fold (degrees_of s). unfold near, fixed, low_angle.
  set (x := degrees_of s). pose proof (floor_spec (x * 1208925819614629174706176)) as F.
  destruct (Z.eq_dec s 0) as [->|N].
  - replace x with 0 in *. 2:{ unfold x, degrees_of. replace (0 / 10000) with 0 by lra. rewrite atan_0. ring. }
    rewrite Rmult_0_l in *. assert (floor 0 = 0%Z). { assert (floor 0 < 1)%Z by (apply lt_IZR; lra). assert (0 < floor 0 + 1)%Z by (apply lt_IZR; rewrite plus_IZR; lra). lia. }
    rewrite H. cbn. rewrite Rabs_R0. replace (0 / 1208925819614629174706176 - 0) with 0 by field. rewrite Rabs_R0. lra.
  - pose proof (degrees_big s N) as B. fold x in B. apply Rle_trans with (/ 1000 / 2251799813685248); [|lra].
    rewrite minus_IZR. assert (0 <= IZR (if (0 <? s)%Z then 1 else 0) <= 1) by (destruct (0 <? s)%Z; lra). apply Rabs_le. lra.
Qed.
Lemma low_accurate : accurate fixed low.
Proof.
  split; [intros s _; apply low_reads|]. intros d _. exists (low_slope d). split; [reflexivity|].
  exists (fixed d * (PI / 180)), (tan (fixed d * (PI / 180))), (tan (fixed d * (PI / 180)) * 10000).
  split; [apply near_refl|]. split; [apply near_refl|]. split; [apply near_refl|]. apply trunc_spec.
Qed.
(** Slopes do not come back in general: with an accurate math library, every slope above zero may lose one with each
    save. *)
Theorem C109_exact_refuted : exists val o, accurate val o /\ forall s, int32 s -> (0 < s)%Z -> saved o s (s - 1).
Proof.
  exists fixed, low. split; [exact low_accurate|]. intros s I P. destruct (C109_slope fixed low s low_accurate I) as (t & E & M).
  unfold saved. rewrite E. f_equal. destruct M as [->| ->]; [exfalso|lia].
  cbn [low o_slope o_angle] in E. injection E as E. unfold low_slope in E. pose proof PI_upper. pose proof PI_lower.
  set (r := fixed (low_angle s) * (PI / 180)) in *.
  assert (L : fixed (low_angle s) < degrees_of s).
  { unfold fixed, low_angle. replace (0 <? s)%Z with true by lia. rewrite minus_IZR. pose proof (floor_spec (degrees_of s * 1208925819614629174706176)). lra. }
  assert (R : r < atan (IZR s / 10000)).
  { unfold r. replace (atan (IZR s / 10000)) with (degrees_of s * (PI / 180)) by (unfold degrees_of; field; lra).
    apply Rmult_lt_compat_r; [lra|exact L]. }
  pose proof (reads_below_90 s _ I (low_reads s)) as B. apply Rabs_def2 in B.
  assert (- (PI / 2) < r). { unfold r. nra. }
  pose proof (atan_bound (IZR s / 10000)) as T. pose proof (tan_increasing r (atan (IZR s / 10000)) ltac:(lra) R ltac:(lra)) as Q.
  rewrite tan_atan in Q. set (p := tan r * 10000) in *. assert (p < IZR s) by (unfold p; lra).
  pose proof (trunc_spec p) as [J1 J2]. rewrite E in *. destruct (Rle_lt_dec 0 p) as [K|K].
  - specialize (J1 K). lra.
  - assert (p <= 0) by lra. specialize (J2 H3). assert (1 <= IZR s) by (apply IZR_le; lia). lra.
Qed.
(** The hypotheses are met: an accurate library, and an entry with two guides in one master, with slopes 0 and 4. *)
Example C109_meets : accurate fixed low /\ entry_data [141; 139; 139; 239; 143; 139]%Z /\
  run_parser (parse_global_guides low (Some 1%Z)) [141; 139; 139; 239; 143; 139]%Z =
    Ok (Guides [[GuideMaster 0 (low_angle 0)]; [GuideMaster 100 (low_angle 4)]] []).
Proof. split; [exact low_accurate|]. split; [|reflexivity]. split; [repeat constructor; lia|cbn; lia]. Qed.

(** a glyph with a name, one master, no nodes and a guide of slope 4 at 100 *)
Example C109_glyph_meets : forall o, exists data g, entry_data data /\ run_parser (parse_glyph o) data = Ok g /\ complete o (Some 1%Z) 1 g /\
  g_guides g = Some (Guides [[GuideMaster 100 (o_angle o 4)]] []).
Proof.
  intros o. exists [1; 9; 7; 1; 1; 140; 65; 8; 140; 139; 139; 4; 140; 239; 143; 139; 15]%Z. eexists.
  split; [split; [repeat constructor; lia|cbn; lia]|]. split; [vm_compute; reflexivity|]. split; [|reflexivity].
  unfold complete, master_count, stored_values, has_masters, or_nil. cbn. repeat split; repeat constructor; try lia; try discriminate; try reflexivity.
Qed.

Print Assumptions C109_slope. Print Assumptions C109_saves. Print Assumptions C109_guides. Print Assumptions C109_glyph. Print Assumptions C109_exact_refuted.
