(** C06, C33, C34, C35: texts. *)
From Coq Require Import ZifyBool ZifyNat.
From Verif Require Import Base M_Stream M_Text S_Text Lib P_Stream P_Text P_Text2.
Ltac Zify.zify_post_hook ::= Z.div_mod_to_equations.

(** *** C06 *)
Theorem C06_str_with_len_roundtrip : forall s rest,
  encodable s -> Z.of_nat (length s) < 2 ^ 31 ->
  exists bs, write_str_with_len s = Ok bs /\ bytes_ok bs
          /\ read_str_with_len (bs ++ rest) = ROk s rest.
Proof.
  intros s rest He Hs. destruct (wrt_str_with_len s He Hs) as (bs & E & O & R). eauto.
Qed.
Print Assumptions C06_str_with_len_roundtrip.

Theorem C06_unencodable_rejected : forall s, ~ encodable s ->
  write_str_with_len s = Err UnicodeEncodeError /\ write_str s = Err UnicodeEncodeError.
Proof.
  intros s H. apply not_encodable in H. unfold write_str_with_len, write_str, write_str_pad.
  rewrite H. auto.
Qed.
Print Assumptions C06_unencodable_rejected.

(** The codec is the published code page, in both directions. *)
Theorem C06_codec : forall b s,
  (cp1252_decode b = Ok s <-> encodes b s) /\ (cp1252_encode s = Ok b <-> encodes b s).
Proof. intros. split; [apply decode_encodes|apply encode_encodes]. Qed.
Print Assumptions C06_codec.

Theorem C06_decode_encode : forall b s, cp1252_decode b = Ok s -> cp1252_encode s = Ok b.
Proof. intros. apply encode_decode. auto. Qed.
Print Assumptions C06_decode_encode.

Example C06_example : encodable [0x41; 0x20AC; 0xE9] /\
  write_str_with_len [0x41; 0x20AC; 0xE9] = Ok [142; 0x41; 0x80; 0xE9] /\
  write_str_with_len [0x4E00] = Err UnicodeEncodeError.
Proof.
  split; [|split; reflexivity].
  apply encodable_encode. eexists. reflexivity.
Qed.

(** *** C33 *)
(** Every list of name records survives; in Mac Roman records the characters outside Mac Roman
    become question marks (63), nothing else changes. *)
Theorem C33_name_records_roundtrip : forall l,
  Forall wf_name l -> Z.of_nat (length l) < 2 ^ 31 ->
  exists bs, compile_name_records l = Ok bs /\ bytes_ok bs
    /\ run_parser parse_name_records bs = Ok (map stored_name l).
Proof. intros l H HL. apply wrt_run. apply wrt_names; auto. Qed.
Print Assumptions C33_name_records_roundtrip.

(** In particular: records without Mac Roman, and Mac Roman records with Mac Roman text only, come
    back unchanged. *)
Definition mac_roman_char (c : Z) : Prop := 0 <= c < 128 \/ In c macroman_high.
Lemma mac_roman_enc : forall c, mac_roman_char c -> exists b, macroman_enc1 c = Some b.
Proof.
  intros c H. unfold macroman_enc1. destruct (in_range 0 128 c) eqn:E; [eauto|].
  destruct H as [H|H]; [unfold in_range in E; lia|].
  assert (K : forallb (fun c => in_range 0 128 c || match aget Z.eqb c (swap_pairs macroman_table) with
    Some _ => true | None => false end) macroman_high = true) by reflexivity.
  rewrite forallb_forall in K. specialize (K c H). rewrite E in K. cbn [orb] in K.
  destruct (aget Z.eqb c (swap_pairs macroman_table)); [eauto|discriminate].
Qed.
Theorem C33_name_records_unchanged : forall l,
  Forall wf_name l -> Z.of_nat (length l) < 2 ^ 31 ->
  Forall (fun r => nr_plat r = 1 -> nr_enc r = 0 -> Forall mac_roman_char (nr_text r)) l ->
  exists bs, compile_name_records l = Ok bs /\ run_parser parse_name_records bs = Ok l.
Proof.
  intros l H HL M. destruct (C33_name_records_roundtrip l H HL) as (bs & E & _ & R).
  exists bs. split; [auto|]. rewrite R. f_equal. rewrite <- (map_id l) at 2.
  apply map_ext_in. intros r Hr. rewrite Forall_forall in M. specialize (M r Hr).
  destruct r as [n p e la t]. unfold stored_name, is_mac; cbn in *. f_equal.
  rewrite <- (map_id t) at 2. apply map_ext_in. intros c Hc. unfold stored_char.
  destruct ((p =? 1) && (e =? 0)) eqn:B; [|reflexivity].
  assert (F : Forall mac_roman_char t) by (apply M; lia). rewrite Forall_forall in F.
  destruct (mac_roman_enc c (F c Hc)) as [b ->]. reflexivity.
Qed.
Print Assumptions C33_name_records_unchanged.

(** The parser itself does not accept every stored text: a Mac Roman record with a code above 255
    raises [OverflowError]. *)
Theorem C33_mac_code_refuted : exists data, bytes_ok data /\
  run_parser parse_name_records data = Err OverflowError.
Proof.
  exists [140; 139; 140; 139; 139; 140; 247; 149]. split; [|reflexivity].
  repeat constructor; unfold is_byte; lia.
Qed.
Print Assumptions C33_mac_code_refuted.

Example C33_example :
  let r := NameRecord 1 1 0 0 [0x41; 0xC4] in let w := NameRecord 4 3 1 1033 [0x4E00; 0x1F600] in
  Forall wf_name [r; w] /\ exists bs, compile_name_records [r; w] = Ok bs
   /\ run_parser parse_name_records bs = Ok [r; w].
Proof.
  cbv zeta. split.
  - repeat constructor; unfold i32, short_text; cbn; lia.
  - eexists. split; reflexivity.
Qed.

(** *** C34 *)
(** parse, compile, parse *)
Theorem C34_normalised_once : forall data lines, bytes_ok data ->
  run_parser parse_opentype_string data = Ok lines ->
  exists data', compile_opentype_string lines = Ok data'
             /\ run_parser parse_opentype_string data' = Ok lines.
Proof.
  intros data lines Hd H.
  unfold run_parser, parse_opentype_string, read_str_all, rbind, read_all, rlift in H.
  destruct (cp1252_decode data) as [s|] eqn:D; [|discriminate].
  destruct (normalize_lines (splitlines s)) as [out|] eqn:N; inversion H; subst out. clear H.
  assert (He : encodable (join_nl lines)).
  { assert (HS : Forall encodable (splitlines s)).
    { assert (G : forall n t cur, (length t <= n)%nat -> encodable cur -> encodable t ->
                Forall encodable (splitlines_from cur t)).
      { induction n as [|n IH]; intros t cur Hn Hc Ht.
        - destruct t; [|cbn in Hn; lia]. cbn. destruct cur; constructor; auto.
        - destruct t as [|c t]; [cbn; destruct cur; constructor; auto|].
          inversion Ht as [|? ? Hc1 Ht1]; subst. cbn in Hn.
          cbn [splitlines_from]. destruct (line_break c).
          + constructor; [auto|]. destruct t as [|d t'].
            * apply IH; [cbn; lia|constructor|auto].
            * inversion Ht1; subst. cbn in Hn.
              destruct ((c =? 13) && (d =? 10)); apply IH; auto; try constructor; cbn; lia.
          + apply IH; [lia| |auto]. apply encodable_app. split; [auto|]. constructor; auto. }
      apply (G (length s)); [lia|constructor|]. eapply decode_encodable; eauto. }
    apply normalize_shape in N. destruct N as (body & k & -> & Hf & _).
    assert (HB : Forall encodable (body ++ [[]])).
    { apply Forall_app. split; [|constructor; constructor]. apply Forall_forall. intros x Hx.
      rewrite Forall_forall in HS. apply HS. apply (filter_blank_incl _ 0). rewrite Hf.
      apply in_or_app. auto. }
    clear - HB. induction (body ++ [[]]) as [|l ls IH]; [constructor|].
    inversion HB; subst. destruct ls as [|l2 ls]; [cbn; auto|].
    rewrite join_nl_cons by discriminate. apply encodable_app. split; [auto|].
    constructor; [|apply IH; auto]. exists 10. unfold win1252. split; [lia|reflexivity]. }
  apply encodable_encode in He. destruct He as [b Eb]. exists b.
  split; [apply write_str_ok; auto|].
  unfold run_parser, parse_opentype_string, read_str_all, rbind, read_all, rlift.
  rewrite (decode_encode _ _ Eb). rewrite (normalize_idem s lines N). reflexivity.
Qed.
Print Assumptions C34_normalised_once.

(** no non-blank line is lost, changed or reordered *)
Definition keep_nonblank (ls : list pystr) : list pystr := filter (fun l => negb (blank l)) ls.
Theorem C34_nonblank_kept : forall ls out,
  normalize_lines ls = Ok out -> keep_nonblank out = keep_nonblank ls.
Proof.
  intros ls out H. apply normalize_shape in H. destruct H as (body & k & -> & Hf & _).
  unfold keep_nonblank. rewrite <- (filter_blank_nonblank ls 0), Hf, !filter_app. clear Hf.
  assert (K : filter (fun l => negb (blank l)) (repeat [] k) = []).
  { induction k as [|k IH]; [reflexivity|]. cbn [repeat filter]. exact IH. }
  rewrite K. reflexivity.
Qed.
Print Assumptions C34_nonblank_kept.
Theorem C34_blank_means_white : forall l, blank l = true <-> blank_line l.
Proof. exact blank_spec. Qed.

(** never more than two consecutive blank lines, not counting the empty last line that stands for
    the final newline *)
Theorem C34_two_blank_lines : forall ls out, normalize_lines ls = Ok out ->
  exists body, out = body ++ [[]] /\ at_most_two_blank body.
Proof.
  intros ls out H. apply normalize_shape in H. destruct H as (body & k & -> & Hf & _).
  exists body. split; [reflexivity|]. intros pre a b c post E (B1 & B2 & B3).
  apply (filter_blank_two body 0) with (1 := Z.le_refl 0) (3 := E).
  - apply (filter_blank_app_fix body (repeat [] k) 0). rewrite <- Hf. apply filter_blank_idem.
  - rewrite !blank_spec. auto.
Qed.
Print Assumptions C34_two_blank_lines.

(** counting that last line there can be three: "a", " ", " ", "" *)
Theorem C34_two_blank_lines_refuted : exists data out, bytes_ok data /\
  run_parser parse_opentype_string data = Ok out /\ ~ at_most_two_blank out.
Proof.
  exists [97; 10; 32; 10; 32; 10], [[97]; [32]; [32]; []].
  split; [repeat constructor; unfold is_byte; lia|]. split; [reflexivity|].
  intros H. apply (H [[97]] [32] [32] [] []); [reflexivity|].
  rewrite <- !blank_spec. repeat split.
Qed.
Print Assumptions C34_two_blank_lines_refuted.

(** "the parser accepts every text" is false: a text of two or more empty lines *)
Theorem C34_accepts_refuted : exists data, bytes_ok data /\
  run_parser parse_opentype_string data = Err IndexError.
Proof. exists [10; 10]. split; [repeat constructor; unfold is_byte; lia|reflexivity]. Qed.
Print Assumptions C34_accepts_refuted.

(** and the texts it rejects are exactly those that start with two empty lines and have nothing
    but blank lines after them *)
Lemma filter_blank_rest : forall ls c, 2 <= c -> Forall blank_line ls -> filter_blank c ls = [].
Proof.
  induction ls as [|l ls IH]; intros c Hc F; [reflexivity|]. inversion F; subst.
  cbn [filter_blank]. replace (blank l) with true by (symmetry; apply blank_spec; auto).
  cbn [negb]. replace (c <? 2) with false by lia. apply IH; [lia|auto].
Qed.
Theorem C34_accepts_iff : forall ls,
  normalize_lines ls = Err IndexError <->
  exists rest, ls = [] :: [] :: rest /\ Forall blank_line rest.
Proof.
  intros ls. split.
  - intros H. unfold normalize_lines in H.
    destruct (1 <? Z.of_nat (length (filter_blank 0 ls))) eqn:E; [|discriminate].
    destruct (pop_empty_spec (rev (filter_blank 0 ls))) as [(k & r & x & R & Hx & P)|[F P]];
      [rewrite P in H; discriminate|].
    assert (F' : Forall (eq []) (filter_blank 0 ls)).
    { apply Forall_forall. intros x Hx. rewrite Forall_forall in F. apply F. apply -> in_rev. auto. }
    pose proof (filter_blank_all ls F') as B. pose proof (filter_blank_le ls 0) as L.
    destruct ls as [|a [|b rest]]; try (cbn [length] in L; lia).
    inversion B as [|? ? Ba B1]; subst. inversion B1 as [|? ? Bb B2]; subst.
    cbn [filter_blank] in F'. rewrite Ba in F'. cbn in F'. rewrite Bb in F'. cbn in F'.
    inversion F' as [|? ? Fa F1]; subst. inversion F1 as [|? ? Fb F2]; subst.
    exists rest. split; [reflexivity|]. apply Forall_forall. intros x Hx. apply blank_spec.
    rewrite Forall_forall in B2. auto.
  - intros (rest & -> & B). unfold normalize_lines.
    replace (filter_blank 0 ([] :: [] :: rest)) with (@nil Z :: nil :: filter_blank 2 rest) by reflexivity.
    rewrite filter_blank_rest by (auto; lia). reflexivity.
Qed.
Theorem C34_only_error : forall ls e, normalize_lines ls = Err e -> e = IndexError.
Proof.
  intros ls e H. unfold normalize_lines in H.
  destruct (1 <? Z.of_nat (length (filter_blank 0 ls))) eqn:E; [|discriminate].
  destruct (pop_empty_spec (rev (filter_blank 0 ls))) as [(k & r & x & R & Hx & P)|[F P]];
    rewrite P in H; cbn in H; congruence.
Qed.
Print Assumptions C34_accepts_iff.

Example C34_example :
  run_parser parse_opentype_string [97; 13; 10; 10; 10; 10; 98; 10; 10] = Ok [[97]; []; []; [98]; []].
Proof. reflexivity. Qed.

(** *** C35 *)
Theorem C35_string_roundtrip : forall s, encodable s -> no_nul_ends s ->
  exists bs, compile_string s = Ok bs /\ bytes_ok bs /\ run_parser parse_string bs = Ok s.
Proof.
  intros s He Hn. apply encodable_encode in He. destruct He as [b E]. exists b.
  split; [apply write_str_ok; auto|]. split; [eapply encode_bytes_ok; eauto|].
  unfold run_parser, parse_string, read_str_all, rbind, read_all, rlift, ret.
  rewrite (decode_encode s b E). rewrite strip0_id by auto. reflexivity.
Qed.
Print Assumptions C35_string_roundtrip.

Theorem C35_string_bytes_kept : forall data s, run_parser parse_string data = Ok s ->
  exists i j core, data = repeat 0 i ++ core ++ repeat 0 j /\ compile_string s = Ok core
    /\ no_nul_ends s /\ run_parser parse_string core = Ok s.
Proof.
  intros data s H. unfold run_parser, parse_string, read_str_all, rbind, read_all, rlift, ret in H.
  destruct (cp1252_decode data) as [t|] eqn:D; inversion H; subst. clear H.
  pose proof (encode_decode t data D) as E.
  destruct (strip0_spec t) as (i & j & T).
  assert (He : encodable (strip0 t)).
  { pose proof (decode_encodable data t D) as K. rewrite T in K.
    apply encodable_app in K. destruct K as [_ K]. apply encodable_app in K. tauto. }
  apply encodable_encode in He. destruct He as [core Ec].
  exists i, j, core. split; [|split; [apply write_str_ok; auto|split; [apply strip0_clean|]]].
  - rewrite T in E.
    rewrite (encode_app _ _ _ _ (encode_zeros i) (encode_app _ _ _ _ Ec (encode_zeros j))) in E.
    inversion E; auto.
  - unfold run_parser, parse_string, read_str_all, rbind, read_all, rlift, ret.
    rewrite (decode_encode _ _ Ec). rewrite strip0_id by apply strip0_clean. reflexivity.
Qed.
Print Assumptions C35_string_bytes_kept.

Theorem C35_vendor_id : forall s, encodable s -> no_nul_ends s ->
  exists bs, compile_vendor_id s = Ok bs /\ bytes_ok bs /\
    length bs = Nat.max 4 (length s) /\ run_parser parse_string bs = Ok s.
Proof.
  intros s He Hn. apply encodable_encode in He. destruct He as [b E].
  unfold compile_vendor_id, write_str_pad. rewrite E. cbn [rmap]. eexists. split; [reflexivity|].
  pose proof (encode_length s b E) as L. split; [|split].
  - apply bytes_ok_app. split; [eapply encode_bytes_ok; eauto|].
    apply Forall_forall. intros x Hx. apply repeat_spec in Hx. subst. unfold is_byte. lia.
  - rewrite app_length, repeat_length. lia.
  - set (k := Z.to_nat _). unfold run_parser, parse_string, read_str_all, rbind, read_all, rlift, ret.
    rewrite (decode_encode (s ++ repeat 0 k)).
    + rewrite strip0_trailing by auto. reflexivity.
    + apply encode_app; [auto|apply encode_zeros].
Qed.
Print Assumptions C35_vendor_id.

Example C35_example : encodable [65; 0; 66] /\ no_nul_ends [65; 0; 66] /\
  compile_vendor_id [65; 66] = Ok [65; 66; 0; 0].
Proof.
  split; [apply encodable_encode; eexists; reflexivity|]. split; [|reflexivity].
  split.
  - intros c t E. inversion E. lia.
  - intros t c E. destruct t as [|x [|y [|z [|]]]]; inversion E; subst; lia.
Qed.
