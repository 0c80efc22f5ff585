(** The encoder of the model is base64. *)
From Coq Require Import String Lia ZifyBool ZifyNat.
From Verif Require Import Base M_Py M_Ufo S_Base64.
Local Open Scope list_scope.
Local Open Scope Z_scope.

Definition upto (n : nat) : list Z := map Z.of_nat (seq 0 n).
Lemma upto_in : forall n x, 0 <= x < Z.of_nat n -> In x (upto n).
Proof. intros n x H. unfold upto. apply in_map_iff. exists (Z.to_nat x). split; [lia|]. apply in_seq. lia. Qed.
Lemma checked : forall n (p : Z -> bool), forallb p (upto n) = true -> forall x, 0 <= x < Z.of_nat n -> p x = true.
Proof. intros n p H x Hx. rewrite forallb_forall in H. apply H. now apply upto_in. Qed.

Lemma char_ok : forall d, 0 <= d < 64 -> b64_char d = nth (Z.to_nat d) alphabet 0.
Proof.
  assert (C : forallb (fun d => b64_char d =? nth (Z.to_nat d) alphabet 0) (upto 64) = true) by (vm_compute; reflexivity).
  intros d H. pose proof (checked 64 _ C d H). lia.
Qed.
Lemma div_bit : forall x k i, 0 <= k -> 0 <= i -> Z.testbit (x / 2 ^ k) i = Z.testbit x (i + k).
Proof. intros. rewrite <- Z.shiftr_div_pow2 by lia. now rewrite Z.shiftr_spec. Qed.
Definition high (x : Z) (k : nat) : list bool := firstn k (bits 8 x).
Definition low (x : Z) (k : nat) : list bool := skipn k (bits 8 x).
Definition bool_list_eqb := fix go (a b : list bool) := match a, b with
  | [], [] => true | x :: a, y :: b => Bool.eqb x y && go a b | _, _ => false end.
Lemma bool_list_eq : forall a b, bool_list_eqb a b = true -> a = b.
Proof. induction a as [|x a IH]; intros [|y b] H; cbn in H; try discriminate; [reflexivity|]. apply andb_prop in H. destruct H as [H1 H2]. apply Bool.eqb_prop in H1. subst. f_equal. auto. Qed.

Ltac byte x := assert (0 <= x < Z.of_nat 256) by lia.
Lemma d1 : forall x, 0 <= x < 256 -> bits 6 (x / 4) = high x 6 /\ 0 <= x / 4 < 64.
Proof.
  assert (C : forallb (fun x => bool_list_eqb (bits 6 (x / 4)) (high x 6)) (upto 256) = true) by (vm_compute; reflexivity).
  intros x H. split; [apply bool_list_eq; apply (checked 256 _ C); clear C; lia|]. clear C. split; [apply Z.div_pos; lia|apply Z.div_lt_upper_bound; lia].
Qed.
Lemma d2 : forall x y, 0 <= x < 256 -> 0 <= y < 256 -> bits 6 (x mod 4 * 16 + y / 16) = low x 6 ++ high y 4 /\ 0 <= x mod 4 * 16 + y / 16 < 64.
Proof.
  assert (C : forallb (fun x => forallb (fun y => bool_list_eqb (bits 6 (x mod 4 * 16 + y / 16)) (low x 6 ++ high y 4)) (upto 256)) (upto 256) = true) by (vm_compute; reflexivity).
  intros x y H H'. split; [apply bool_list_eq; apply (checked 256 _ (checked 256 _ C x ltac:(clear C; lia))); clear C; lia|]. clear C.
  assert (0 <= y / 16 < 16) by (split; [apply Z.div_pos; lia|apply Z.div_lt_upper_bound; lia]). pose proof (Z.mod_pos_bound x 4 eq_refl). lia.
Qed.
Lemma d3 : forall x y, 0 <= x < 256 -> 0 <= y < 256 -> bits 6 (x mod 16 * 4 + y / 64) = low x 4 ++ high y 2 /\ 0 <= x mod 16 * 4 + y / 64 < 64.
Proof.
  assert (C : forallb (fun x => forallb (fun y => bool_list_eqb (bits 6 (x mod 16 * 4 + y / 64)) (low x 4 ++ high y 2)) (upto 256)) (upto 256) = true) by (vm_compute; reflexivity).
  intros x y H H'. split; [apply bool_list_eq; apply (checked 256 _ (checked 256 _ C x ltac:(clear C; lia))); clear C; lia|]. clear C.
  assert (0 <= y / 64 < 4) by (split; [apply Z.div_pos; lia|apply Z.div_lt_upper_bound; lia]). pose proof (Z.mod_pos_bound x 16 eq_refl). lia.
Qed.
Lemma d4 : forall x, 0 <= x < 256 -> bits 6 (x mod 64) = low x 2 /\ 0 <= x mod 64 < 64.
Proof.
  assert (C : forallb (fun x => bool_list_eqb (bits 6 (x mod 64)) (low x 2)) (upto 256) = true) by (vm_compute; reflexivity).
  intros x H. split; [apply bool_list_eq; apply (checked 256 _ C); clear C; lia|clear C;apply Z.mod_pos_bound; reflexivity].
Qed.

Lemma b64encode_ok : forall s, Forall (fun c => 0 <= c < 256) s -> base64 s (b64encode s).
Proof.
  assert (X : forall n s, (List.length s <= n)%nat -> Forall (fun c => 0 <= c < 256) s -> base64 s (b64encode s)).
  { induction n as [|n IH]; intros s L F.
    - destruct s; [|cbn in L; lia]. exists [], O, O. repeat split; try constructor; try lia. exists O. reflexivity.
    - destruct F as [|x s Hx F]; [exists [], O, O; repeat split; try constructor; try lia; exists O; reflexivity|].
      pose proof (d1 x Hx) as [A1 A2].
      destruct F as [|y s Hy F].
      { pose proof (d2 x 0 Hx ltac:(lia)) as [B1 B2]. change (0 / 16) with 0 in B1, B2. rewrite Z.add_0_r in B1, B2.
        exists [x / 4; x mod 4 * 16], 4%nat, 2%nat. split; [repeat constructor; lia|]. split; [cbn [flat_map]; rewrite A1, B1; reflexivity|]. split; [lia|].
        cbn [b64encode]. rewrite !char_ok by lia. split; [reflexivity|]. split; [lia|]. exists 1%nat. reflexivity. }
      pose proof (d2 x y Hx Hy) as [B1 B2].
      destruct F as [|z s Hz F].
      { pose proof (d3 y 0 Hy ltac:(lia)) as [C1 C2]. change (0 / 64) with 0 in C1, C2. rewrite Z.add_0_r in C1, C2.
        exists [x / 4; x mod 4 * 16 + y / 16; y mod 16 * 4], 2%nat, 1%nat. split; [repeat constructor; lia|]. split; [cbn [flat_map]; rewrite A1, B1, C1; reflexivity|]. split; [lia|].
        cbn [b64encode]. rewrite !char_ok by lia. split; [reflexivity|]. split; [lia|]. exists 1%nat. reflexivity. }
      pose proof (d3 y z Hy Hz) as [C1 C2]. pose proof (d4 z Hz) as [D1 D2].
      destruct (IH s) as (ds & zeros & fill & Fd & Eb & Hz' & E & Hf & k & Lk); [cbn in L; lia|exact F|].
      exists (x / 4 :: (x mod 4 * 16 + y / 16) :: (y mod 16 * 4 + z / 64) :: z mod 64 :: ds), zeros, fill.
      split; [repeat (constructor; [lia|]); exact Fd|]. split; [cbn [flat_map]; rewrite A1, B1, C1, D1, Eb; unfold high, low; cbn [bits firstn skipn app]; reflexivity|].
      split; [exact Hz'|]. split; [cbn [b64encode map app]; rewrite !char_ok by lia; rewrite E; reflexivity|]. split; [exact Hf|].
      exists (S k). cbn [b64encode app List.length]. rewrite Lk. lia. }
  intros s. apply (X (List.length s)). lia.
Qed.
