(** Proof library: byte arithmetic and the two program logics used everywhere,
    [wrt] (what was written is read back) and [rpost] (what a reader may return). *)
From Coq Require Import ZifyBool ZifyNat.
From Verif Require Import Base.
Open Scope rd_scope.
Ltac Zify.zify_post_hook ::= Z.div_mod_to_equations.

(** ** take / drop *)
Lemma take_app_exact : forall n (b rest : bytes),
  Z.of_nat (length b) = n -> take n (b ++ rest) = b.
Proof.
  intros n b rest H. unfold take.
  destruct (n <? 0) eqn:E; [lia|].
  rewrite firstn_app. replace (Z.to_nat n) with (length b) by lia.
  rewrite firstn_all, Nat.sub_diag, app_nil_r. reflexivity.
Qed.

Lemma drop_app_exact : forall n (b rest : bytes),
  Z.of_nat (length b) = n -> drop n (b ++ rest) = rest.
Proof.
  intros n b rest H. unfold drop.
  destruct (n <? 0) eqn:E; [lia|].
  rewrite skipn_app. replace (Z.to_nat n) with (length b) by lia.
  rewrite skipn_all, Nat.sub_diag. reflexivity.
Qed.

Lemma take_drop : forall n s, take n s ++ drop n s = s.
Proof.
  intros n s. unfold take, drop. destruct (n <? 0).
  - apply app_nil_r.
  - apply firstn_skipn.
Qed.

Lemma bytes_ok_app : forall a b, bytes_ok (a ++ b) <-> bytes_ok a /\ bytes_ok b.
Proof. intros; unfold bytes_ok; apply Forall_app. Qed.

Lemma bytes_ok_take : forall n s, bytes_ok s -> bytes_ok (take n s).
Proof.
  intros n s H. rewrite <- (take_drop n s) in H. apply bytes_ok_app in H. tauto.
Qed.
Lemma bytes_ok_drop : forall n s, bytes_ok s -> bytes_ok (drop n s).
Proof.
  intros n s H. rewrite <- (take_drop n s) in H. apply bytes_ok_app in H. tauto.
Qed.

Lemma take_length : forall n s, 0 <= n -> Z.of_nat (length (take n s)) <= n.
Proof.
  intros n s H. unfold take. destruct (n <? 0) eqn:E; [lia|].
  pose proof (firstn_le_length (Z.to_nat n) s). lia.
Qed.

(** ** integer encodings *)
Lemma le_enc_length : forall n v, length (le_enc n v) = n.
Proof. induction n; intros; simpl; auto. Qed.

Lemma le_enc_ok : forall n v, bytes_ok (le_enc n v).
Proof.
  induction n; intros; simpl; constructor.
  - unfold is_byte. apply Z.mod_pos_bound. lia.
  - apply IHn.
Qed.

Lemma be_enc_length : forall n v, length (be_enc n v) = n.
Proof. intros. unfold be_enc. rewrite rev_length. apply le_enc_length. Qed.

Lemma bytes_ok_rev : forall s, bytes_ok s -> bytes_ok (rev s).
Proof. intros. unfold bytes_ok. apply Forall_rev. auto. Qed.

Lemma be_enc_ok : forall n v, bytes_ok (be_enc n v).
Proof. intros. apply bytes_ok_rev, le_enc_ok. Qed.

Lemma pow8_S : forall n, 2 ^ (8 * Z.of_nat (S n)) = 256 * 2 ^ (8 * Z.of_nat n).
Proof.
  intros. replace (8 * Z.of_nat (S n)) with (8 + 8 * Z.of_nat n) by lia.
  rewrite Z.pow_add_r by lia. reflexivity.
Qed.

Lemma pow8_pos : forall n, 0 < 2 ^ (8 * Z.of_nat n).
Proof. intros. apply Z.pow_pos_nonneg; lia. Qed.

Lemma le_dec_enc : forall n v,
  le_dec (le_enc n v) = v mod 2 ^ (8 * Z.of_nat n).
Proof.
  induction n; intros v.
  - simpl. rewrite Z.mod_1_r. reflexivity.
  - cbn [le_enc le_dec]. rewrite IHn. rewrite pow8_S.
    rewrite Z.rem_mul_r; pose proof (pow8_pos n); lia.
Qed.

Lemma le_dec_enc_u : forall n v,
  0 <= v < 2 ^ (8 * Z.of_nat n) -> le_dec (le_enc n v) = v.
Proof. intros. rewrite le_dec_enc. apply Z.mod_small. auto. Qed.

Lemma le_dec_range : forall b, bytes_ok b -> 0 <= le_dec b < 2 ^ (8 * Z.of_nat (length b)).
Proof.
  induction b as [|x b IH]; intros H.
  - cbn. lia.
  - inversion H; subst. specialize (IH H3). cbn [le_dec length].
    rewrite pow8_S. unfold is_byte in H2. lia.
Qed.

Lemma le_enc_dec : forall b, bytes_ok b -> le_enc (length b) (le_dec b) = b.
Proof.
  induction b as [|x b IH]; intros H; [reflexivity|].
  inversion H; subst. cbn [le_dec length le_enc]. unfold is_byte in H2.
  rewrite Z.mul_comm, Z_mod_plus_full, Z.mod_small by lia.
  rewrite Z.div_add by lia. rewrite Z.div_small by lia. rewrite Z.add_0_l.
  f_equal. auto.
Qed.

Lemma half_pow8 : forall n, (0 < n)%nat ->
  2 ^ (8 * Z.of_nat n) = 2 * 2 ^ (8 * Z.of_nat n - 1).
Proof.
  intros n H. replace (8 * Z.of_nat n) with (1 + (8 * Z.of_nat n - 1)) at 1 by lia.
  rewrite Z.pow_add_r by lia. reflexivity.
Qed.

Lemma half_pow8_pos : forall n, (0 < n)%nat -> 0 < 2 ^ (8 * Z.of_nat n - 1).
Proof. intros. apply Z.pow_pos_nonneg; lia. Qed.

Lemma le_dec_s_enc : forall n v, (0 < n)%nat ->
  - 2 ^ (8 * Z.of_nat n - 1) <= v < 2 ^ (8 * Z.of_nat n - 1) ->
  le_dec_s (le_enc n v) = v.
Proof.
  intros n v Hn H. unfold le_dec_s, to_signed. rewrite le_enc_length, le_dec_enc.
  destruct n as [|n]; [lia|].
  pose proof (half_pow8 (S n) Hn) as Hh. pose proof (half_pow8_pos (S n) Hn) as Hp.
  set (h := 2 ^ (8 * Z.of_nat (S n) - 1)) in *.
  set (w := 2 ^ (8 * Z.of_nat (S n))) in *.
  destruct (Z.lt_ge_cases v 0) as [Hv|Hv].
  - replace (v mod w) with (v + w).
    + destruct (h <=? v + w) eqn:E; lia.
    + symmetry. rewrite <- (Z.mod_small (v + w) w) by lia.
      rewrite <- (Z_mod_plus_full v 1 w). f_equal. lia.
  - rewrite Z.mod_small by lia. destruct (h <=? v) eqn:E; lia.
Qed.

Lemma le_dec_s_range : forall b, bytes_ok b -> (0 < length b)%nat ->
  - 2 ^ (8 * Z.of_nat (length b) - 1) <= le_dec_s b < 2 ^ (8 * Z.of_nat (length b) - 1).
Proof.
  intros b H Hn. pose proof (le_dec_range b H) as Hr.
  pose proof (half_pow8 _ Hn) as Hh. pose proof (half_pow8_pos _ Hn) as Hp.
  unfold le_dec_s, to_signed. destruct (length b) as [|n]; [lia|].
  destruct (_ <=? _) eqn:E; lia.
Qed.

Lemma le_enc_mod : forall n v k, le_enc n (v + k * 2 ^ (8 * Z.of_nat n)) = le_enc n v.
Proof.
  induction n; intros v k; [reflexivity|].
  cbn [le_enc]. rewrite pow8_S.
  replace (v + k * (256 * 2 ^ (8 * Z.of_nat n)))
    with (v + (k * 2 ^ (8 * Z.of_nat n)) * 256) by lia.
  rewrite Z_mod_plus_full, Z.div_add by lia. f_equal. apply IHn.
Qed.

Lemma le_enc_dec_s : forall b, bytes_ok b -> le_enc (length b) (le_dec_s b) = b.
Proof.
  intros b H. unfold le_dec_s, to_signed.
  pose proof (le_enc_dec b H) as E.
  destruct (length b) as [|n] eqn:L; [exact E|].
  destruct (_ <=? _); [|exact E].
  rewrite <- E at 2. rewrite <- (le_enc_mod (S n) (le_dec b) (-1)). f_equal; lia.
Qed.

Lemma be_dec_enc_u : forall n v,
  0 <= v < 2 ^ (8 * Z.of_nat n) -> be_dec (be_enc n v) = v.
Proof. intros. unfold be_dec, be_enc. rewrite rev_involutive. apply le_dec_enc_u; auto. Qed.

Lemma be_dec_s_enc : forall n v, (0 < n)%nat ->
  - 2 ^ (8 * Z.of_nat n - 1) <= v < 2 ^ (8 * Z.of_nat n - 1) ->
  be_dec_s (be_enc n v) = v.
Proof.
  intros n v Hn H. unfold be_dec_s, be_dec, be_enc.
  rewrite rev_involutive, rev_length. apply le_dec_s_enc; auto.
Qed.

(** ** Equations between results *)
Lemma ROk_inj : forall A (a b : A) s t, ROk a s = ROk b t -> a = b /\ s = t.
Proof. intros. inversion H. auto. Qed.
Lemma Ok_inj : forall A (a b : A), Ok a = Ok b -> a = b.
Proof. intros. inversion H. auto. Qed.
Ltac inv_rok H := apply ROk_inj in H; destruct H as [<- <-].
Ltac inv_ok H := apply Ok_inj in H; subst.

(** ** Writers *)
Lemma wseq_ok : forall a b s,
  a +++ b = Ok s <-> exists x y, a = Ok x /\ b = Ok y /\ s = x ++ y.
Proof.
  intros [x|e] [y|f] s; cbn; split; intros H; try discriminate;
    try (inversion H; eauto 6; fail);
    destruct H as (x' & y' & H1 & H2 & H3); try discriminate;
    inversion H1; inversion H2; subst; reflexivity.
Qed.

Lemma wseq_nil_r : forall a, a +++ wnil = a.
Proof. intros [x|e]; cbn; [rewrite app_nil_r|]; reflexivity. Qed.
Lemma wseq_nil_l : forall a, wnil +++ a = a.
Proof. intros [x|e]; reflexivity. Qed.
Lemma wseq_assoc : forall a b c, (a +++ b) +++ c = a +++ (b +++ c).
Proof.
  intros [x|e] [y|f] [z|g]; cbn; try reflexivity. rewrite app_assoc. reflexivity.
Qed.

Lemma wlist_app : forall A (w : A -> wr) l1 l2,
  wlist w (l1 ++ l2) = wlist w l1 +++ wlist w l2.
Proof.
  induction l1 as [|x l1 IH]; intros l2; cbn [wlist app].
  - symmetry. apply wseq_nil_l.
  - rewrite IH, wseq_assoc. reflexivity.
Qed.

(** ** [wrt w r a]: the writer succeeds, and the reader, applied to the written
    bytes followed by anything, returns [a] and leaves what followed. *)
Definition wrt {A} (w : wr) (r : rd A) (a : A) : Prop :=
  exists bs, w = Ok bs /\ bytes_ok bs /\ forall rest, r (bs ++ rest) = ROk a rest.

Lemma wrt_ret : forall A (a : A), wrt wnil (ret a) a.
Proof. intros. exists []. repeat split. constructor. Qed.

Lemma wrt_bind : forall A B w1 w2 (r : rd A) (k : A -> rd B) a b,
  wrt w1 r a -> wrt w2 (k a) b -> wrt (w1 +++ w2) (rbind r k) b.
Proof.
  intros A B w1 w2 r k a b (b1 & E1 & O1 & R1) (b2 & E2 & O2 & R2).
  exists (b1 ++ b2). subst. repeat split.
  - apply bytes_ok_app; auto.
  - intros rest. unfold rbind. rewrite <- app_assoc, R1, R2. reflexivity.
Qed.

(** the last read of a parser, followed by a pure step *)
Lemma wrt_bind_ret : forall A B w (r : rd A) (k : A -> rd B) a b,
  wrt w r a -> (forall s, k a s = ROk b s) -> wrt w (rbind r k) b.
Proof.
  intros A B w r k a b H Hk. rewrite <- (wseq_nil_r w).
  eapply wrt_bind; eauto. exists []. repeat split; [constructor|].
  intros; apply Hk.
Qed.

(** a pure step before the first read *)
Lemma wrt_pre : forall A B w (r : rd A) (k : A -> rd B) a b,
  (forall s, r s = ROk a s) -> wrt w (k a) b -> wrt w (rbind r k) b.
Proof.
  intros A B w r k a b Hr (bs & E & O & R). exists bs. repeat split; auto.
  intros. unfold rbind. rewrite Hr. apply R.
Qed.

Lemma wrt_ext : forall A w (r r' : rd A) a,
  (forall s, r s = r' s) -> wrt w r a -> wrt w r' a.
Proof.
  intros A w r r' a H (bs & E & O & R). exists bs. repeat split; auto.
  intros. rewrite <- H. apply R.
Qed.

Lemma wrt_repeat : forall A B (w : A -> wr) (r : rd B) (f : A -> B) l,
  (forall x, In x l -> wrt (w x) r (f x)) ->
  wrt (wlist w l) (rrepeat (length l) r) (map f l).
Proof.
  induction l as [|x l IH]; intros H.
  - apply wrt_ret.
  - cbn [wlist length rrepeat map]. eapply wrt_bind; [apply H; left; reflexivity|].
    eapply wrt_bind_ret; [apply IH; intros; apply H; right; auto|].
    reflexivity.
Qed.

Lemma wrt_range : forall A B (w : A -> wr) (r : rd B) (f : A -> B) n l,
  n = Z.of_nat (length l) ->
  (forall x, In x l -> wrt (w x) r (f x)) ->
  wrt (wlist w l) (rrange n r) (map f l).
Proof.
  intros. subst. unfold rrange. rewrite Nat2Z.id. apply wrt_repeat. auto.
Qed.

Lemma wrt_range_id : forall A (w : A -> wr) (r : rd A) n l,
  n = Z.of_nat (length l) ->
  (forall x, In x l -> wrt (w x) r x) ->
  wrt (wlist w l) (rrange n r) l.
Proof.
  intros A w r n l Hn H. rewrite <- (map_id l) at 2. eapply wrt_range; eauto.
Qed.

(** running a parser over everything that was written *)
Lemma wrt_run : forall A w (r : rd A) a,
  wrt w r a -> exists bs, w = Ok bs /\ bytes_ok bs /\ run_parser r bs = Ok a.
Proof.
  intros A w r a (bs & E & O & R). exists bs. repeat split; auto.
  unfold run_parser. specialize (R []). rewrite app_nil_r in R. rewrite R. reflexivity.
Qed.

(** ** [rpost r P]: whatever bytes it is given, if [r] returns, it returns a value
    in [P] and leaves a suffix that is made of bytes. *)
Definition rpost {A} (r : rd A) (P : A -> Prop) : Prop :=
  forall s a s', bytes_ok s -> r s = ROk a s' -> P a /\ bytes_ok s'.

Lemma rpost_ret : forall A (a : A) (P : A -> Prop), P a -> rpost (ret a) P.
Proof. intros A a P H s a' s' Hs E. inversion E; subst; auto. Qed.

Lemma rpost_raise : forall A e (P : A -> Prop), rpost (rraise e) P.
Proof. intros A e P s a' s' Hs E. discriminate. Qed.

Lemma rpost_bind : forall A B (r : rd A) (k : A -> rd B) P Q,
  rpost r P -> (forall a, P a -> rpost (k a) Q) -> rpost (rbind r k) Q.
Proof.
  intros A B r k P Q Hr Hk s b s' Hs E. unfold rbind in E.
  destruct (r s) as [a s1|e s1] eqn:E1; [|discriminate].
  destruct (Hr s a s1 Hs E1) as [Pa Hs1]. eapply Hk; eauto.
Qed.

Lemma rpost_weaken : forall A (r : rd A) (P Q : A -> Prop),
  rpost r P -> (forall a, P a -> Q a) -> rpost r Q.
Proof. intros A r P Q H HPQ s a s' Hs E. destruct (H s a s' Hs E). auto. Qed.

Lemma rpost_and : forall A (r : rd A) (P Q : A -> Prop),
  rpost r P -> rpost r Q -> rpost r (fun a => P a /\ Q a).
Proof.
  intros A r P Q H1 H2 s a s' Hs E.
  destruct (H1 s a s' Hs E), (H2 s a s' Hs E). auto.
Qed.

Lemma rpost_read_bytes : forall n, rpost (read_bytes n) bytes_ok.
Proof.
  intros n s a s' Hs E. inversion E; subst.
  split; [apply bytes_ok_take|apply bytes_ok_drop]; auto.
Qed.

Lemma rpost_read_all : rpost read_all bytes_ok.
Proof. intros s a s' Hs E. inversion E; subst. split; [auto|constructor]. Qed.

Lemma rpost_repeat : forall A (r : rd A) P n,
  rpost r P -> rpost (rrepeat n r) (fun l => length l = n /\ Forall P l).
Proof.
  intros A r P n H. induction n as [|n IH]; cbn [rrepeat].
  - apply rpost_ret. auto.
  - eapply rpost_bind; [exact H|]. intros a Pa.
    eapply rpost_bind; [exact IH|]. intros l [Hl Hf].
    apply rpost_ret. cbn. split; [lia|constructor; auto].
Qed.

Lemma rpost_range : forall A (r : rd A) P n,
  rpost r P -> rpost (rrange n r) (fun l => length l = Z.to_nat n /\ Forall P l).
Proof. intros. unfold rrange. apply rpost_repeat. auto. Qed.

Lemma rpost_run : forall A (r : rd A) P data a,
  rpost r P -> bytes_ok data -> run_parser r data = Ok a -> P a.
Proof.
  intros A r P data a H Hd E. unfold run_parser in E.
  destruct (r data) as [x [|]|] eqn:E1; inversion E; subst.
  eapply H; eauto.
Qed.

(** ** association lists *)
Lemma str_eqb_eq : forall a b, str_eqb a b = true <-> a = b.
Proof.
  induction a as [|x a IH]; intros [|y b]; cbn; split; intros H; try discriminate; auto.
  - apply andb_prop in H. destruct H as [H1 H2]. apply IH in H2. f_equal; [lia|auto].
  - inversion H; subst. rewrite Z.eqb_refl. apply IH. reflexivity.
Qed.
Lemma str_eqb_refl : forall a, str_eqb a a = true.
Proof. intros. apply str_eqb_eq. reflexivity. Qed.
Lemma str_eqb_neq : forall a b, str_eqb a b = false <-> a <> b.
Proof.
  intros a b. destruct (str_eqb a b) eqn:E; split; intros H; try discriminate; try congruence.
  - apply str_eqb_eq in E. congruence.
  - intros ->. rewrite str_eqb_refl in E. discriminate.
Qed.

Section AssocLemmas.
  Context {K V : Type} (eqb : K -> K -> bool).
  Hypothesis eqb_eq : forall a b, eqb a b = true <-> a = b.

  Lemma aget_None : forall k (d : list (K * V)), aget eqb k d = None <-> ~ In k (map fst d).
  Proof.
    induction d as [|[k' v] d IH]; cbn; [tauto|].
    destruct (eqb k k') eqn:E.
    - apply eqb_eq in E. subst. split; [discriminate|tauto].
    - rewrite IH. split; intros H; [|tauto].
      intros [->|H']; [|tauto]. assert (eqb k k = true) by (apply eqb_eq; auto). congruence.
  Qed.

  Lemma aset_notin : forall k v (d : list (K * V)),
    ~ In k (map fst d) -> aset eqb k v d = d ++ [(k, v)].
  Proof.
    induction d as [|[k' v'] d IH]; cbn; intros H; [reflexivity|].
    destruct (eqb k k') eqn:E.
    - apply eqb_eq in E. subst. tauto.
    - rewrite IH by tauto. reflexivity.
  Qed.

  Lemma aget_In : forall k v (d : list (K * V)), aget eqb k d = Some v -> In (k, v) d.
  Proof.
    induction d as [|[k' v'] d IH]; cbn; intros H; [discriminate|].
    destruct (eqb k k') eqn:E.
    - apply eqb_eq in E. subst. inversion H. auto.
    - auto.
  Qed.

  Lemma In_aget : forall k v (d : list (K * V)),
    NoDup (map fst d) -> In (k, v) d -> aget eqb k d = Some v.
  Proof.
    induction d as [|[k' v'] d IH]; cbn; intros N H; [tauto|].
    inversion N; subst. destruct H as [H|H].
    - inversion H; subst. replace (eqb k k) with true; auto.
      symmetry. apply eqb_eq. reflexivity.
    - destruct (eqb k k') eqn:E; [|auto].
      apply eqb_eq in E. subst. exfalso. apply H2.
      change k' with (fst (k', v)). apply in_map. auto.
  Qed.

  Lemma aget_aset : forall k k' v (d : list (K * V)),
    aget eqb k (aset eqb k' v d) = if eqb k k' then Some v else aget eqb k d.
  Proof.
    induction d as [|[a b] d IH]; cbn.
    - reflexivity.
    - destruct (eqb k' a) eqn:E; cbn.
      + apply eqb_eq in E. subst a. destruct (eqb k k'); reflexivity.
      + destruct (eqb k a) eqn:E2.
        * destruct (eqb k k') eqn:E3; [|reflexivity].
          apply eqb_eq in E2, E3. subst.
          assert (eqb a a = true) by (apply eqb_eq; auto). congruence.
        * apply IH.
  Qed.

  Lemma aset_keys : forall k v (d : list (K * V)) x,
    In x (map fst (aset eqb k v d)) <-> x = k \/ In x (map fst d).
  Proof.
    induction d as [|[a b] d IH]; intros x; cbn; [intuition|].
    destruct (eqb k a) eqn:E; cbn.
    - apply eqb_eq in E. subst. intuition.
    - rewrite IH. intuition.
  Qed.

  Lemma aset_nodup : forall k v (d : list (K * V)),
    NoDup (map fst d) -> NoDup (map fst (aset eqb k v d)).
  Proof.
    induction d as [|[a b] d IH]; cbn; intros N.
    - constructor; [intros []|constructor].
    - inversion N; subst. destruct (eqb k a) eqn:E; cbn.
      + constructor; auto.
      + constructor; auto. rewrite aset_keys. intros [->|H]; [|tauto].
        assert (eqb k k = true) by (apply eqb_eq; auto). congruence.
  Qed.
End AssocLemmas.

Lemma fold_left_inv : forall A B (f : A -> B -> A) (I : A -> Prop) l a,
  I a -> (forall a b, In b l -> I a -> I (f a b)) -> I (fold_left f l a).
Proof.
  induction l as [|b l IH]; intros a Ha Hf; cbn; [auto|].
  apply IH; [apply Hf; [left|]; auto|]. intros. apply Hf; [right|]; auto.
Qed.
