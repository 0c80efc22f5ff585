(** C33: the texts of name records. *)
From Coq Require Import ZifyBool.
From Verif Require Import Base M_Stream M_Text S_MacRoman S_Stream S_Entry Lib P_Stream P_Text P_Text2 P_Glyph.

Lemma mac_roman_dec : forall b c, macroman_dec1 b = Some c <-> mac_roman b c.
Proof.
  intros b c. unfold mac_roman. split.
  - intros H. destruct (macroman_enc_dec b c H) as (_ & Hb).
    pose proof (byte_sweep (fun b => match macroman_dec1 b with
      | Some c => (b <? 128) && (c =? b) || existsb (fun p => (fst p =? c) && (snd p =? b)) mac_roman_pairs | None => true end) eq_refl b Hb) as K.
    cbv beta in K. rewrite H in K. apply orb_true_iff in K. destruct K as [K|K]; [left; lia|right].
    apply existsb_exists in K. destruct K as ([x y] & I & K). cbn [fst snd] in K. replace c with x by lia. replace b with y by lia. exact I.
  - intros [(Hb & ->)|I].
    + unfold macroman_dec1, in_range. replace ((0 <=? b) && (b <? 128)) with true by lia. reflexivity.
    + assert (K : forallb (fun p => oz_eqb (macroman_dec1 (snd p)) (Some (fst p))) mac_roman_pairs = true) by reflexivity.
      rewrite forallb_forall in K. apply K in I. apply oz_eqb_eq in I. exact I.
Qed.
Lemma name_char_iff : forall plat enc n c, name_char plat enc n = Ok c <-> name_character plat enc n c.
Proof.
  intros plat enc n c. unfold name_char, name_character, in_range. destruct ((0 <=? n) && (n <? 0x110000)) eqn:R.
  - destruct ((plat =? 1) && (enc =? 0)) eqn:M.
    + destruct (n <? 256) eqn:L.
      * destruct (macroman_dec_total n ltac:(lia)) as (ch & E). rewrite E. pose proof (mac_roman_dec n ch) as D. split.
        -- intros X. apply Ok_inj in X. subst c. right. right. split; [lia|]. split; [lia|]. apply D. exact E.
        -- intros [H|[H|H]]; [lia|lia|]. destruct H as (_ & _ & H). apply mac_roman_dec in H. congruence.
      * split; [discriminate|]. intros [H|[H|(_ & _ & H)]]; [lia|lia|]. apply mac_roman_dec in H. apply macroman_enc_dec in H. lia.
    + split; [intros X; apply Ok_inj in X; subst c; right; left; lia|]. intros [H|[H|H]]; [lia| |lia]. destruct H as (_ & _ & ->). reflexivity.
  - split; [intros X; apply Ok_inj in X; subst c; left; lia|]. intros [H|[H|(_ & _ & H)]]; [destruct H as (_ & ->); reflexivity|lia|].
    apply mac_roman_dec in H. apply macroman_enc_dec in H. lia.
Qed.
Lemma names_chars : forall plat enc codes t, res_map (name_char plat enc) codes = Ok t <-> Forall2 (name_character plat enc) codes t.
Proof.
  intros plat enc. induction codes as [|n codes IH]; intros t; cbn [res_map].
  - split; [intros X; apply Ok_inj in X; subst t; constructor|intros F; inversion F; reflexivity].
  - split.
    + intros X. destruct (name_char plat enc n) as [c|] eqn:E; [|discriminate]. cbn [rthen] in X. destruct (res_map (name_char plat enc) codes) as [t'|]; [|discriminate].
      cbn [rmap] in X. apply Ok_inj in X. subst t. constructor; [now apply name_char_iff|]. now apply IH.
    + intros F. inversion F as [|? c ? t' H1 H2]; subst. apply name_char_iff in H1. apply IH in H2. rewrite H1. cbn [rthen]. rewrite H2. reflexivity.
Qed.

(** An entry that says "one name record, with this name, platform, encoding and language, of so many characters, with these
    numbers" is read as one record with the characters that the numbers stand for. *)
Theorem C33_characters : forall name plat enc lang codes,
  Forall int32 (name :: plat :: enc :: lang :: codes) -> Z.of_nat (length codes) < 2 ^ 31 ->
  exists data, wlist write_value ([1; name; plat; enc; lang; Z.of_nat (length codes)] ++ codes) = Ok data /\ bytes_ok data /\
  forall l, run_parser parse_name_records data = Ok l <->
    exists text, Forall2 (name_character plat enc) codes text /\ l = [NameRecord name plat enc lang text].
Proof.
  intros name plat enc lang codes H L. repeat (apply Forall_cons_iff in H; let A := fresh "A" in destruct H as (A & H)).
  assert (A3 : int32 (Z.of_nat (length codes))) by (unfold int32; lia).
  destruct (wrt_value 1) as (b0 & W0 & B0 & R0); [unfold i32; lia|].
  destruct (wrt_value name A) as (b1 & W1 & B1 & R1). destruct (wrt_value plat A0) as (b2 & W2 & B2 & R2). destruct (wrt_value enc A1) as (b3 & W3 & B3 & R3).
  destruct (wrt_value lang A2) as (b4 & W4 & B4 & R4). destruct (wrt_value _ A3) as (b5 & W5 & B5 & R5). destruct (wrt_values codes _ eq_refl H) as (b6 & W6 & B6 & R6).
  exists (b0 ++ b1 ++ b2 ++ b3 ++ b4 ++ b5 ++ b6). split; [cbn [app wlist]; rewrite W0, W1, W2, W3, W4, W5, W6; reflexivity|]. split; [repeat (apply Forall_app; split; [assumption|]); assumption|].
  intros l. unfold run_parser, parse_name_records, rbind at 1. rewrite R0. change (rrange 1 parse_name_record) with (rbind parse_name_record (fun x => rbind (ret []) (fun l => ret (x :: l)))).
  unfold parse_name_record, rbind, ret, rlift. rewrite R1, R2, R3, R4, R5. rewrite <- (app_nil_r b6), R6.
  pose proof (names_chars plat enc codes) as N. destruct (res_map (name_char plat enc) codes) as [t|x].
  - split.
    + intros E. apply Ok_inj in E. subst l. exists t. split; [now apply N|reflexivity].
    + intros (t' & F & ->). apply N in F. apply Ok_inj in F. now subst t'.
  - split; [discriminate|]. intros (t' & F & _). apply N in F. discriminate.
Qed.
Print Assumptions C33_characters.
(** "A", "Ä" and a dagger of a Mac record, an unpaired surrogate and a number that is no character of a Windows record *)
Example C33_characters_ex : Forall2 (name_character 1 0) [65; 128; 160] [65; 0xC4; 0x2020] /\
  Forall2 (name_character 3 1) [65; 0xD800; -1] [65; 0xD800; 0xFEFF].
Proof.
  split; repeat (apply Forall2_cons; [apply name_char_iff; reflexivity|]); apply Forall2_nil.
Qed.
