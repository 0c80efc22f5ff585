(** C102: hex strings. *)
From Coq Require Import ZifyBool ZifyNat String.
From Verif Require Import Base M_Stream M_Py M_Helpers M_Text M_Simple M_Tools S_Hex Lib.
Local Open Scope list_scope.

Lemma hex_value_iff : forall c n, hex_value c = Some n <-> exists k, hex_digit_of c k /\ n = Z.of_nat k.
Proof.
  intros c n. split.
  - unfold hex_value, in_range. intros H. exists (Z.to_nat n). unfold hex_digit_of.
    assert (R : (48 <= c < 58 /\ n = c - 48) \/ (97 <= c < 103 /\ n = c - 87) \/ (65 <= c < 71 /\ n = c - 55)).
    { destruct ((48 <=? c) && (c <? 58)) eqn:E1; [|destruct ((97 <=? c) && (c <? 103)) eqn:E2; [|destruct ((65 <=? c) && (c <? 71)) eqn:E3; [|discriminate]]];
        assert (Q : forall x y : Z, Some x = Some y -> x = y) by congruence; apply Q in H; lia. }
    split; [|lia]. destruct R as [(R & ->)|[(R & ->)|(R & ->)]].
    + left. assert (K : c = 48 \/ c = 49 \/ c = 50 \/ c = 51 \/ c = 52 \/ c = 53 \/ c = 54 \/ c = 55 \/ c = 56 \/ c = 57) by lia.
      repeat (destruct K as [->|K]; [reflexivity|]). subst c. reflexivity.
    + left. assert (K : c = 97 \/ c = 98 \/ c = 99 \/ c = 100 \/ c = 101 \/ c = 102) by lia. repeat (destruct K as [->|K]; [reflexivity|]). subst c. reflexivity.
    + right. assert (K : c = 65 \/ c = 66 \/ c = 67 \/ c = 68 \/ c = 69 \/ c = 70) by lia. repeat (destruct K as [->|K]; [reflexivity|]). subst c. reflexivity.
  - intros (k & H & ->). unfold hex_digit_of in H.
    do 16 (destruct k as [|k]; [destruct H as [H|H]; injection H as <-; reflexivity|]). destruct H as [H|H]; destruct k; discriminate.
Qed.
Lemma white_iff : forall c, ascii_space c = true <-> In c white.
Proof. intros c. unfold ascii_space, in_range, white. cbn [In]. lia. Qed.
Lemma white_no_digit : forall c, ascii_space c = true -> hex_value c = None.
Proof. intros c H. apply white_iff in H. cbn [white In] in H. repeat (destruct H as [<-|H]; [reflexivity|]). destruct H. Qed.
Lemma deHexStr_iff : forall n s b, (List.length s <= n)%nat -> (deHexStr s = Ok b <-> hex_data s b).
Proof.
  induction n as [|n IH]; intros s b L.
  - destruct s; [|cbn in L; lia]. cbn [deHexStr]. split; [intros E; apply Ok_inj in E; subst b; constructor|intros H; inversion H; reflexivity].
  - destruct s as [|c s]; [cbn [deHexStr]; split; [intros E; apply Ok_inj in E; subst b; constructor|intros H; inversion H; reflexivity]|].
    cbn [deHexStr]. cbn [List.length] in L. destruct (ascii_space c) eqn:W.
    + rewrite IH by lia. split; [intros H; apply hex_white; [now apply white_iff|exact H]|]. intros H. inversion H as [| |? ? h ? ? ? H1]; subst; [assumption|].
      apply white_no_digit in W. assert (X : hex_value c = Some (Z.of_nat h)) by (apply hex_value_iff; eauto). congruence.
    + assert (N : ~ In c white) by (rewrite <- white_iff; congruence). destruct s as [|d s]; [split; [discriminate|intros H; inversion H; subst; contradiction]|].
      cbn [List.length] in L. destruct (hex_value c) as [h|] eqn:Hc; [destruct (hex_value d) as [l|] eqn:Hd|].
      * apply hex_value_iff in Hc, Hd. destruct Hc as (h' & Hc & ->), Hd as (l' & Hd & ->). split.
        -- destruct (deHexStr s) as [b'|] eqn:E; [|discriminate]. cbn [rmap]. intros X. apply Ok_inj in X. subst b. apply hex_byte; auto. apply IH; [lia|exact E].
        -- intros H. inversion H as [|? ? ? I|? ? h2 l2 ? b2 D1 D2 D3]; subst; [contradiction|].
           apply IH in D3; [|lia]. rewrite D3. cbn [rmap]. f_equal. f_equal.
           assert (Some (Z.of_nat h2) = Some (Z.of_nat h')) by (transitivity (hex_value c); [symmetry|]; apply hex_value_iff; eauto).
           assert (Some (Z.of_nat l2) = Some (Z.of_nat l')) by (transitivity (hex_value d); [symmetry|]; apply hex_value_iff; eauto). congruence.
      * split; [discriminate|]. intros H. inversion H as [| |? ? h2 l2 ? b2 D1 D2 D3]; subst; [contradiction|].
        assert (hex_value d = Some (Z.of_nat l2)) by (apply hex_value_iff; eauto). congruence.
      * split; [discriminate|]. intros H. inversion H as [| |? ? h2 l2 ? b2 D1 D2 D3]; subst; [contradiction|].
        assert (hex_value c = Some (Z.of_nat h2)) by (apply hex_value_iff; eauto). congruence.
Qed.
Lemma deHexStr_error : forall n s e, (List.length s <= n)%nat -> deHexStr s = Err e -> e = ValueError.
Proof.
  induction n as [|n IH]; intros s e L E.
  - destruct s; [discriminate|cbn in L; lia].
  - destruct s as [|c s]; [discriminate|]. cbn [deHexStr List.length] in *. destruct (ascii_space c); [eapply IH; [|exact E]; lia|].
    destruct s as [|d s]; [congruence|]. cbn [List.length] in *. destruct (hex_value c), (hex_value d); try congruence.
    destruct (deHexStr s) as [b|x] eqn:D; [discriminate|]. cbn [rmap] in E. assert (x = e) by congruence. subst x. eapply IH; [|exact D]. lia.
Qed.

(** The data of an unknown entry are written as the bytes that its hex string says, and any string that says no bytes is
    refused. *)
Theorem C102_entry : forall s, (forall b, compile_hex s = Ok b <-> hex_data s b) /\
  ((forall b, ~ hex_data s b) -> compile_hex s = Err ValueError).
Proof.
  intros s. assert (E : compile_hex s = deHexStr s).
  { unfold compile_hex, wlet, write_bytes. destruct s; [reflexivity|]. destruct (deHexStr (z :: s)); reflexivity. }
  rewrite E. pose proof (fun b => deHexStr_iff _ s b (le_n _)) as D. split; [exact D|].
  intros N. destruct (deHexStr s) as [b|e] eqn:X; [destruct (N b); now apply D|]. f_equal. eapply deHexStr_error; [apply le_n|exact X].
Qed.
Print Assumptions C102_entry.
(** The same for a binary table, after its tag *)
Theorem C102_table : forall tag t s, cp1252_encode tag = Ok t ->
  (forall b, compile_binary_table (BinaryTable tag s) = Ok (t ++ b) <-> hex_data s b) /\
  ((forall b, ~ hex_data s b) -> compile_binary_table (BinaryTable tag s) = Err ValueError).
Proof.
  intros tag t s H. assert (W : write_str tag = Ok t).
  { unfold write_str, write_str_pad. rewrite H. cbn [rmap]. replace (Z.to_nat (0 - _)) with 0%nat by lia. cbn [repeat]. now rewrite app_nil_r. }
  unfold compile_binary_table. cbn [bt_tag bt_data]. rewrite W. pose proof (fun b => deHexStr_iff _ s b (le_n _)) as D. unfold wlet, write_bytes.
  split; [intros b; rewrite <- D|intros N]; destruct (deHexStr s) as [b'|e] eqn:X; cbn [wseq].
  - split; intros E; apply Ok_inj in E; [apply app_inv_head in E|]; now subst b'.
  - split; discriminate.
  - destruct (N b'). now apply D.
  - f_equal. eapply deHexStr_error; [apply le_n|exact X].
Qed.
Print Assumptions C102_table.
(** and for the tool that decodes values *)
Theorem C102_tool : forall signed args, (forall b, ~ hex_data (concat args) b) -> yuri_decode signed args = ([], Err ValueError).
Proof.
  intros signed args N. unfold yuri_decode. destruct (deHexStr (concat args)) as [b|e] eqn:X.
  - destruct (N b). eapply deHexStr_iff; [apply le_n|exact X].
  - do 2 f_equal. eapply deHexStr_error; [apply le_n|exact X].
Qed.
Print Assumptions C102_tool.
(** Data that are read are shown as a string that says them, of two characters for each byte, without white space and upper
    case. *)
Theorem C102_shown : forall b s, bytes_ok b -> run_parser parse_hex b = Ok s ->
  hex_data s b /\ List.length s = (2 * List.length b)%nat /\ Forall (fun c => In c (py "0123456789abcdef")) s.
Proof.
  intros b s B H. unfold run_parser, parse_hex, rbind, read_all, ret in H. apply Ok_inj in H. subst s.
  assert (G : forall n, 0 <= n < 16 -> nth_error (py "0123456789abcdef") (Z.to_nat n) = Some (hex_digit n)).
  { intros n Hn. assert (K : n = 0 \/ n = 1 \/ n = 2 \/ n = 3 \/ n = 4 \/ n = 5 \/ n = 6 \/ n = 7 \/ n = 8 \/ n = 9 \/ n = 10 \/ n = 11 \/ n = 12 \/ n = 13 \/ n = 14 \/ n = 15) by lia.
    repeat (destruct K as [->|K]; [reflexivity|]). subst n. reflexivity. }
  induction B as [|x b Hx B (I1 & I2 & I3)]; [repeat constructor|]. cbn [hexStr List.length]. unfold is_byte in Hx.
  assert (H1 : 0 <= x / 16 < 16) by (split; [apply Z.div_pos; lia|apply Z.div_lt_upper_bound; lia]).
  assert (H2 : 0 <= x mod 16 < 16) by (apply Z.mod_pos_bound; lia).
  split; [|split].
  - replace x with (16 * Z.of_nat (Z.to_nat (x / 16)) + Z.of_nat (Z.to_nat (x mod 16))) at 3 by (rewrite !Z2Nat.id by lia; pose proof (Z.div_mod x 16); lia).
    apply hex_byte; [left; now apply G|left; now apply G|exact I1].
  - lia.
  - constructor; [eapply nth_error_In, G; exact H1|]. constructor; [eapply nth_error_In, G; exact H2|exact I3].
Qed.
Print Assumptions C102_shown.

(** " 4a\nFF" says two bytes, "4 a" and "4" say none *)
Example C102_ex : hex_data (32 :: py "4a" ++ 10 :: py "FF") [0x4A; 0xFF] /\ (forall b, ~ hex_data (py "4 a") b) /\ forall b, ~ hex_data (py "4") b.
Proof.
  split; [apply (deHexStr_iff _ _ _ (le_n _)); reflexivity|]. split; intros b H; apply (deHexStr_iff _ _ _ (le_n _)) in H; discriminate.
Qed.
