(** C37, C67: colours of guides that are no colours. *)
From Coq Require Import String QArith Lia.
From Verif Require Import Base M_Stream M_Py M_Text M_Glyph M_Guides.
Local Open Scope list_scope.
Local Open Scope Z_scope.

(** a letter that is no hex digit, nor x, which Python accepts in front of hex digits *)
Definition no_digit (c : Z) : Prop := 103 <= c <= 119.

Lemma int16_bad : forall s acc c, In c s -> no_digit c -> int16_from acc s = Err ValueError.
Proof.
  induction s as [|x s IH]; intros acc c H B; [contradiction|]. cbn [int16_from].
  destruct (hexd x) as [d|] eqn:E; [|reflexivity]. destruct H as [->|H]; [|eapply IH; eauto].
  exfalso. unfold hexd, in_range, no_digit in *.
  destruct ((48 <=? c) && (c <? 58)) eqn:E1; [lia|]. destruct ((97 <=? c) && (c <? 103)) eqn:E2; [lia|].
  destruct ((65 <=? c) && (c <? 71)) eqn:E3; [lia|]. discriminate.
Qed.
Lemma base16_bad : forall s c, In c s -> no_digit c -> int_base16 s = Err ValueError.
Proof. intros [|x s] c H B; [contradiction|]. unfold int_base16. eapply int16_bad; eauto. Qed.

(** * C37 *)
(** Guide properties with a colour that is none are not written: ValueError *)
Theorem C37_bad_color : forall g color c, gp_color g = Some color ->
  In c (skipn 1 color) -> no_digit c -> (exists b, write_value (gp_index g) = Ok b) ->
  compile_guide_prop g = Err ValueError.
Proof.
  intros g color c Hc Hin Hb [b E]. unfold compile_guide_prop. rewrite E, Hc.
  destruct color as [|h s]; [contradiction|].
  assert (color_value (h :: s) = Err ValueError) as ->; [|reflexivity].
  unfold color_value. cbn [skipn] in Hin.
  apply (base16_bad _ c); [|exact Hb]. unfold slice, slice_from.
  assert (s = firstn 2 s ++ firstn 2 (skipn 2 s) ++ skipn 4 s) as Es.
  { rewrite <- (firstn_skipn 2 s) at 1. f_equal. rewrite <- (firstn_skipn 2 (skipn 2 s)) at 1. f_equal.
    destruct s as [|? [|? ?]]; reflexivity. }
  rewrite Es in Hin. rewrite !in_app_iff in *. cbn [skipn Nat.sub]. cbn [skipn] in Hin. tauto.
Qed.

(** * C67 *)
(** The red part of a colour has to be a number: ValueError. Green and blue count as 0 if they are not. *)
Theorem C67_bad_red : forall gs p color c, gp_color p = Some color ->
  1 <= gp_index p <= Z.of_nat (List.length gs) ->
  In c (firstn 2 (skipn 1 color)) -> no_digit c ->
  apply_property gs p = Err ValueError.
Proof.
  intros gs p color c Hc Hi Hin Hb. unfold apply_property. rewrite Hc.
  replace (Z.of_nat (List.length gs) <=? gp_index p - 1) with false by lia.
  assert (exists g, py_index gs (gp_index p - 1) = Ok g) as [g ->].
  { unfold py_index. replace (gp_index p - 1 <? 0) with false by lia. cbv zeta iota.
    destruct (_ || _) eqn:E; [lia|].
    destruct (nth_error gs (Z.to_nat (gp_index p - 1))) eqn:N; eauto.
    apply nth_error_None in N. lia. }
  cbn [rthen]. unfold ufo_color, slice. rewrite (base16_bad _ c); [reflexivity|exact Hin|exact Hb].
Qed.
Theorem C67_bad_green_blue : forall h r1 r2 g1 g2 b1 b2 rest,
  hexd r1 <> None -> hexd r2 <> None -> no_digit g1 \/ no_digit g2 -> no_digit b1 \/ no_digit b2 ->
  ufo_color (h :: r1 :: r2 :: g1 :: g2 :: b1 :: b2 :: rest) = ufo_color (h :: r1 :: r2 :: py "0000") /\
  exists s, ufo_color (h :: r1 :: r2 :: py "0000") = Ok (s ++ py ",0.0000,0.0000,1").
Proof.
  intros h r1 r2 g1 g2 b1 b2 rest H1 H2 Hg Hb. unfold ufo_color, slice. cbn [skipn firstn Nat.sub].
  rewrite (base16_bad [g1; g2] (if (103 <=? g1) && (g1 <=? 119) then g1 else g2)).
  2: { destruct ((103 <=? g1) && (g1 <=? 119)); cbn; auto. }
  2: { unfold no_digit in *. destruct ((103 <=? g1) && (g1 <=? 119)) eqn:E; lia. }
  rewrite (base16_bad [b1; b2] (if (103 <=? b1) && (b1 <=? 119) then b1 else b2)).
  2: { destruct ((103 <=? b1) && (b1 <=? 119)); cbn; auto. }
  2: { unfold no_digit in *. destruct ((103 <=? b1) && (b1 <=? 119)) eqn:E; lia. }
  assert (exists k, int_base16 [r1; r2] = Ok k) as [k Ek].
  { unfold int_base16. cbn [int16_from].
    destruct (hexd r1) as [x|]; [|congruence]. destruct (hexd r2) as [y|]; [|congruence]. eauto. }
  change (int_base16 (firstn 2 (py "0000"))) with (Ok 0 : res Z).
  change (int_base16 (firstn 2 (skipn 2 (py "0000")))) with (Ok 0 : res Z).
  change (int_base16 (py "00")) with (Ok 0 : res Z).
  rewrite Ek. cbn [rthen rmap or_zero].
  generalize (fraction k). intros f. change (fraction 0) with (py "0.0000").
  split; [reflexivity|]. exists f. reflexivity.
Qed.

Example C37_bad_color_ex :
  compile_guide_prop (GuideProp 1 (Some (py "#12g456")) None) = Err ValueError.
Proof. vm_compute. reflexivity. Qed.
Example C67_bad_color_ex :
  ufo_color (py "#ffzhgg") = Ok (py "1.0000,0.0000,0.0000,1") /\ ufo_color (py "#g00000") = Err ValueError.
Proof. vm_compute. auto. Qed.

Print Assumptions C37_bad_color.
Print Assumptions C67_bad_red.
Print Assumptions C67_bad_green_blue.
