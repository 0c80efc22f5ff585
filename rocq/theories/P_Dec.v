(** [str(n)] is injective and starts with a digit or a minus sign. *)
From Coq Require Import ZifyBool ZifyNat.
From Verif Require Import Base M_Py Lib.
Local Open Scope list_scope.

Definition dec_val (s : pystr) : Z := fold_left (fun acc c => acc * 10 + (c - 48)) s 0.
Lemma dec_val_snoc : forall s c, dec_val (s ++ [c]) = dec_val s * 10 + (c - 48).
Proof. intros. unfold dec_val. rewrite fold_left_app. reflexivity. Qed.
Lemma dec_digits_val : forall fuel n, 0 <= n < 2 ^ Z.of_nat fuel -> dec_val (dec_digits fuel n) = n.
Proof.
  induction fuel as [|f IH]; intros n H.
  - cbn in *. lia.
  - cbn [dec_digits]. destruct (n <? 10) eqn:E; [unfold dec_val; cbn [fold_left]; lia|].
    rewrite dec_val_snoc, IH.
    + pose proof (Z.div_mod n 10). lia.
    + rewrite Nat2Z.inj_succ, Z.pow_succ_r in H by lia. split; [apply Z.div_pos; lia|].
      apply Z.div_lt_upper_bound; lia.
Qed.
Lemma dec_nat_val : forall n, 0 <= n -> dec_val (dec_nat n) = n.
Proof.
  intros n H. unfold dec_nat. apply dec_digits_val. split; [lia|].
  destruct (Z.eq_dec n 0) as [->|N]; [cbn; lia|].
  pose proof (Z.log2_spec n ltac:(lia)) as [_ L]. pose proof (Z.log2_nonneg n).
  replace (Z.of_nat (S (Z.to_nat (Z.log2 n)))) with (Z.succ (Z.log2 n)) by lia. exact L.
Qed.
Lemma dec_digits_digits : forall fuel n, 0 <= n -> Forall (fun c => 48 <= c <= 57) (dec_digits fuel n).
Proof.
  induction fuel as [|f IH]; intros n H; [constructor|]. cbn [dec_digits].
  destruct (n <? 10) eqn:E.
  - constructor; [lia|constructor].
  - apply Forall_app. split; [apply IH, Z.div_pos; lia|]. constructor; [|constructor].
    pose proof (Z.mod_pos_bound n 10). lia.
Qed.
Lemma dec_nat_digits : forall n, 0 <= n -> Forall (fun c => 48 <= c <= 57) (dec_nat n).
Proof. intros. apply dec_digits_digits. assumption. Qed.
Lemma dec_digits_nonempty : forall fuel n, dec_digits (S fuel) n <> [].
Proof.
  intros fuel n. cbn [dec_digits]. destruct (n <? 10); [discriminate|].
  intros E. apply app_eq_nil in E. destruct E. discriminate.
Qed.
Lemma dec_nat_nonempty : forall n, dec_nat n <> [].
Proof. intros n. apply dec_digits_nonempty. Qed.

Lemma dec_str_inj : forall m n, dec_str m = dec_str n -> m = n.
Proof.
  assert (G : forall m n, m < 0 -> 0 <= n -> 45 :: dec_nat (- m) <> dec_nat n).
  { intros m n Hm Hn E. pose proof (dec_nat_digits n Hn) as D. rewrite <- E in D.
    inversion D. lia. }
  intros m n. unfold dec_str. destruct (m <? 0) eqn:Em, (n <? 0) eqn:En; intros E.
  - injection E as E. apply (f_equal dec_val) in E. rewrite !dec_nat_val in E by lia. lia.
  - exfalso. apply (G m n); auto; lia.
  - exfalso. apply (G n m); auto; lia.
  - apply (f_equal dec_val) in E. rewrite !dec_nat_val in E by lia. exact E.
Qed.
Lemma dec_str_head : forall n, exists c s, dec_str n = c :: s /\ (c = 45 \/ 48 <= c <= 57).
Proof.
  intros n. unfold dec_str. destruct (n <? 0) eqn:E; [eauto|].
  pose proof (dec_nat_nonempty n) as N. pose proof (dec_nat_digits n ltac:(lia)) as D.
  destruct (dec_nat n) as [|c s]; [congruence|]. inversion D; subst. eauto.
Qed.
