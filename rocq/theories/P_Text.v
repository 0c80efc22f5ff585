(** Proofs about texts (M_Text.v). *)
From Coq Require Import ZifyBool ZifyNat.
From Verif Require Import Base M_Stream M_Text S_Text Lib P_Stream.
Open Scope rd_scope.
Ltac Zify.zify_post_hook ::= Z.div_mod_to_equations.

(** ** finite sweeps over the bytes *)
Fixpoint zrange (n : nat) (from : Z) : list Z :=
  match n with O => [] | S n' => from :: zrange n' (from + 1) end.
Lemma zrange_In : forall n from x, In x (zrange n from) <-> from <= x < from + Z.of_nat n.
Proof.
  induction n as [|n IH]; intros from x; cbn [zrange In]; [lia|]. rewrite IH. lia.
Qed.
Lemma byte_sweep : forall (p : Z -> bool),
  forallb p (zrange 256 0) = true -> forall b, 0 <= b < 256 -> p b = true.
Proof. intros p H b Hb. rewrite forallb_forall in H. apply H. apply zrange_In. cbn. lia. Qed.

Lemma aget_swap_In : forall c b t, aget Z.eqb c (swap_pairs t) = Some b -> In (b, c) t.
Proof.
  intros c b t H. apply aget_In in H; [|apply Z.eqb_eq].
  unfold swap_pairs in H. apply in_map_iff in H. destruct H as ([x y] & E & H).
  inversion E; subst. auto.
Qed.

(** ** cp1252 *)
Definition oz_eqb (a b : option Z) : bool :=
  match a, b with Some x, Some y => x =? y | None, None => true | _, _ => false end.
Lemma oz_eqb_eq : forall a b, oz_eqb a b = true -> a = b.
Proof. intros [x|] [y|] H; cbn in H; try discriminate; auto. f_equal. lia. Qed.

Lemma cp1252_enc_dec : forall b c, cp1252_dec1 b = Some c -> cp1252_enc1 c = Some b /\ 0 <= b < 256.
Proof.
  intros b c H.
  assert (Hb : 0 <= b < 256).
  { unfold cp1252_dec1, in_range in H. destruct ((128 <=? b) && (b <? 160)) eqn:E; [lia|].
    destruct ((0 <=? b) && (b <? 256)) eqn:E2; [lia|discriminate]. }
  split; [|auto].
  pose proof (byte_sweep (fun b => match cp1252_dec1 b with
     | Some c => oz_eqb (cp1252_enc1 c) (Some b) | None => true end) eq_refl b Hb) as K.
  cbv beta in K. rewrite H in K. apply oz_eqb_eq. auto.
Qed.

Lemma cp1252_dec_enc : forall b c, cp1252_enc1 c = Some b -> cp1252_dec1 b = Some c.
Proof.
  intros b c H. unfold cp1252_enc1 in H.
  destruct (aget Z.eqb c (swap_pairs cp1252_table)) as [b'|] eqn:E.
  - inversion H; subst b'. apply aget_swap_In in E.
    assert (K : forallb (fun p => oz_eqb (cp1252_dec1 (fst p)) (Some (snd p))) cp1252_table = true)
      by reflexivity.
    rewrite forallb_forall in K. apply K in E. apply oz_eqb_eq in E. exact E.
  - destruct (in_range 0 256 c && negb (in_range 128 160 c)) eqn:R; [|discriminate].
    inversion H; subst. unfold cp1252_dec1. unfold in_range in *.
    replace ((128 <=? b) && (b <? 160)) with false by lia.
    replace ((0 <=? b) && (b <? 256)) with true by lia. reflexivity.
Qed.

Lemma cp1252_dec1_win : forall b c, cp1252_dec1 b = Some c <-> win1252 b c.
Proof.
  intros b c. unfold win1252, cp1252_dec1, in_range.
  destruct ((128 <=? b) && (b <? 160)) eqn:E.
  - assert (K : aget Z.eqb b cp1252_table =
      match nth_error win1252_high (Z.to_nat (b - 128)) with Some x => x | None => None end).
    { pose proof (byte_sweep (fun b => if (128 <=? b) && (b <? 160)
        then oz_eqb (aget Z.eqb b cp1252_table)
          match nth_error win1252_high (Z.to_nat (b - 128)) with Some x => x | None => None end
        else true) eq_refl b ltac:(lia)) as K. cbv beta in K. rewrite E in K.
      apply oz_eqb_eq. auto. }
    rewrite K. destruct (nth_error win1252_high (Z.to_nat (b - 128))) as [[x|]|].
    + split; [intros H; inversion H; subst; split; [lia|auto]|intros [_ H]; inversion H; auto].
    + split; [discriminate|intros [_ H]; discriminate].
    + split; [discriminate|intros [_ H]; discriminate].
  - destruct ((0 <=? b) && (b <? 256)) eqn:E2.
    + split; [intros H; inversion H; subst; split; [lia|auto]|intros [_ ->]; auto].
    + split; [discriminate|lia].
Qed.
Lemma cp1252_enc1_win : forall b c, cp1252_enc1 c = Some b <-> win1252 b c.
Proof.
  intros b c. rewrite <- cp1252_dec1_win. split; intros H.
  - apply cp1252_dec_enc; auto.
  - apply cp1252_enc_dec; auto.
Qed.

Lemma map_codec_ok : forall f e s t, map_codec f e s = Ok t <-> Forall2 (fun x y => f x = Some y) s t.
Proof.
  induction s as [|x s IH]; intros t; cbn [map_codec].
  - split; intros H; [inversion H; constructor|inversion H; auto].
  - destruct (f x) as [y|] eqn:E.
    + destruct (map_codec f e s) as [t'|] eqn:E2; cbn [rmap]; split; intros H.
      * inversion H; subst. constructor; [auto|]. apply IH. auto.
      * inversion H; subst. apply IH in H4. congruence.
      * discriminate.
      * inversion H; subst. apply IH in H4. discriminate.
    + split; intros H; [discriminate|]. inversion H; subst. congruence.
Qed.
Lemma map_codec_err : forall f e s e', map_codec f e s = Err e' -> e' = e.
Proof.
  induction s as [|x s IH]; intros e' H; cbn [map_codec] in H; [discriminate|].
  destruct (f x); [|congruence]. destruct (map_codec f e s) eqn:E; cbn in H; [discriminate|].
  inversion H; subst. apply IH. auto.
Qed.
Lemma Forall2_impl2 : forall A B (R S : A -> B -> Prop) l m,
  (forall a b, R a b -> S a b) -> Forall2 R l m -> Forall2 S l m.
Proof. intros A B R S l m H F. induction F; constructor; auto. Qed.
Lemma Forall2_flip2 : forall A B (R : A -> B -> Prop) l m,
  Forall2 R l m -> Forall2 (fun b a => R a b) m l.
Proof. intros A B R l m F. induction F; constructor; auto. Qed.

Lemma Forall2_length : forall A B (R : A -> B -> Prop) l m, Forall2 R l m -> length l = length m.
Proof. intros A B R l m F. induction F; cbn; auto. Qed.

Lemma decode_encodes : forall b s, cp1252_decode b = Ok s <-> encodes b s.
Proof.
  intros. unfold cp1252_decode, encodes. rewrite map_codec_ok.
  split; apply Forall2_impl2; intros; apply cp1252_dec1_win; auto.
Qed.
Lemma encode_encodes : forall b s, cp1252_encode s = Ok b <-> encodes b s.
Proof.
  intros. unfold cp1252_encode, encodes. rewrite map_codec_ok.
  split; intros H; apply Forall2_flip2; eapply Forall2_impl2; [|exact H| |exact H];
    intros x y K; apply cp1252_enc1_win; auto.
Qed.
Lemma decode_encode : forall s b, cp1252_encode s = Ok b -> cp1252_decode b = Ok s.
Proof. intros s b H. apply decode_encodes. apply encode_encodes. auto. Qed.
Lemma encode_decode : forall s b, cp1252_decode b = Ok s -> cp1252_encode s = Ok b.
Proof. intros s b H. apply encode_encodes. apply decode_encodes. auto. Qed.

Lemma encode_bytes_ok : forall s b, cp1252_encode s = Ok b -> bytes_ok b.
Proof.
  intros s b H. apply encode_encodes in H. unfold encodes in H.
  induction H as [|x y l m K F IH]; constructor; auto. destruct K. auto.
Qed.
Lemma encode_length : forall s b, cp1252_encode s = Ok b -> length b = length s.
Proof. intros s b H. apply encode_encodes in H. eapply Forall2_length. exact H. Qed.
Lemma encodable_encode : forall s, encodable s <-> exists b, cp1252_encode s = Ok b.
Proof.
  intros s. split.
  - induction 1 as [|c s [b Hb] F (bs & IH)]; [exists []; reflexivity|].
    exists (b :: bs). unfold cp1252_encode in *. cbn [map_codec].
    apply cp1252_enc1_win in Hb. rewrite Hb, IH. reflexivity.
  - intros [b H]. apply encode_encodes in H. unfold encodes in H.
    induction H as [|x y l m K F IH]; constructor; eauto.
Qed.
Lemma not_encodable : forall s, ~ encodable s -> cp1252_encode s = Err UnicodeEncodeError.
Proof.
  intros s H. destruct (cp1252_encode s) as [b|e] eqn:E.
  - exfalso. apply H. apply encodable_encode. eauto.
  - f_equal. eapply map_codec_err. exact E.
Qed.
Lemma encode_app : forall s t a b, cp1252_encode s = Ok a -> cp1252_encode t = Ok b ->
  cp1252_encode (s ++ t) = Ok (a ++ b).
Proof.
  intros s t a b H1 H2. apply encode_encodes in H1, H2. apply encode_encodes.
  apply Forall2_app; auto.
Qed.
Lemma encodable_app : forall s t, encodable (s ++ t) <-> encodable s /\ encodable t.
Proof. intros. unfold encodable. apply Forall_app. Qed.
Lemma decode_encodable : forall b s, cp1252_decode b = Ok s -> encodable s.
Proof. intros b s H. apply encodable_encode. exists b. apply encode_decode. auto. Qed.

(** ** string primitives *)
Definition short_text (s : pystr) : Prop := Z.of_nat (length s) < 2 ^ 31.

Lemma wrt_bytes : forall b n, bytes_ok b -> Z.of_nat (length b) = n -> wrt (Ok b) (read_bytes n) b.
Proof.
  intros b n Hb Hn. exists b. repeat split; auto. intros rest. unfold read_bytes.
  rewrite take_app_exact, drop_app_exact by auto. reflexivity.
Qed.

Lemma wrt_str : forall s b n, cp1252_encode s = Ok b -> n = Z.of_nat (length s) ->
  wrt (Ok b) (read_str n) s.
Proof.
  intros s b n E ->. unfold read_str. destruct (Z.of_nat (length s) =? 0) eqn:E0.
  - assert (s = []) by (destruct s; [auto|cbn in E0; lia]). subst. inversion E; subst.
    apply wrt_ret.
  - eapply wrt_bind_ret; [apply wrt_bytes|].
    + eapply encode_bytes_ok; eauto.
    + rewrite (encode_length s b E). reflexivity.
    + intros. rewrite (decode_encode s b E). reflexivity.
Qed.

Lemma wrt_str_with_len : forall s, encodable s -> short_text s ->
  wrt (write_str_with_len s) read_str_with_len s.
Proof.
  intros s He Hs. apply encodable_encode in He. destruct He as [b E].
  unfold write_str_with_len. rewrite E. eapply wrt_bind.
  - apply wrt_value_uvalue. unfold short_text in Hs. rewrite (encode_length s b E). lia.
  - apply wrt_str; auto. rewrite (encode_length s b E). reflexivity.
Qed.

Lemma write_str_ok : forall s b, cp1252_encode s = Ok b -> write_str s = Ok b.
Proof.
  intros s b E. unfold write_str, write_str_pad. rewrite E. cbn [rmap].
  replace (Z.to_nat (0 - Z.of_nat (length b))) with 0%nat by lia. cbn. rewrite app_nil_r. auto.
Qed.

Lemma rpost_read_str : forall n, rpost (read_str n) encodable.
Proof.
  intros n. unfold read_str. destruct (n =? 0).
  - apply rpost_ret. constructor.
  - intros s a s' Hs E. unfold rbind, read_bytes, rlift in E.
    destruct (cp1252_decode (take n s)) as [t|] eqn:D; [|discriminate].
    inv_rok E. split; [|apply bytes_ok_drop; auto]. eapply decode_encodable; eauto.
Qed.

(** a string that was read is no longer than the data *)
Lemma rpost_read_str_with_len : rpost read_str_with_len encodable.
Proof.
  unfold read_str_with_len. eapply rpost_bind; [apply rpost_uvalue|]. intros. apply rpost_read_str.
Qed.

(** ** Mac Roman *)
Lemma macroman_enc_dec : forall b c, macroman_dec1 b = Some c -> macroman_enc1 c = Some b /\ 0 <= b < 256.
Proof.
  intros b c H.
  assert (Hb : 0 <= b < 256).
  { unfold macroman_dec1, in_range in H. destruct ((0 <=? b) && (b <? 128)) eqn:E; [lia|].
    apply aget_In in H; [|apply Z.eqb_eq].
    assert (K : forallb (fun p => in_range 0 256 (fst p)) macroman_table = true) by reflexivity.
    rewrite forallb_forall in K. apply K in H. unfold in_range in H. cbn [fst] in H. lia. }
  split; [|auto].
  pose proof (byte_sweep (fun b => match macroman_dec1 b with
     | Some c => oz_eqb (macroman_enc1 c) (Some b) | None => true end) eq_refl b Hb) as K.
  cbv beta in K. rewrite H in K. apply oz_eqb_eq. auto.
Qed.
Lemma macroman_dec_total : forall b, 0 <= b < 256 -> exists c, macroman_dec1 b = Some c.
Proof.
  intros b Hb. pose proof (byte_sweep (fun b => match macroman_dec1 b with
     | Some c => true | None => false end) eq_refl b Hb) as K. cbv beta in K.
  destruct (macroman_dec1 b); [eauto|discriminate].
Qed.
Lemma macroman_dec_enc : forall b c, macroman_enc1 c = Some b -> macroman_dec1 b = Some c /\ 0 <= b < 256.
Proof.
  intros b c H. assert (K : macroman_dec1 b = Some c).
  { unfold macroman_enc1 in H.
    destruct (in_range 0 128 c) eqn:E.
    - inversion H; subst. unfold macroman_dec1. rewrite E. reflexivity.
    - apply aget_swap_In in H.
      assert (K : forallb (fun p => oz_eqb (macroman_dec1 (fst p)) (Some (snd p))) macroman_table = true)
        by reflexivity.
      rewrite forallb_forall in K. apply K in H. apply oz_eqb_eq in H. exact H. }
  split; [exact K|]. apply macroman_enc_dec in K. tauto.
Qed.
