(** C36: which encoding the strings of a file are read with. *)
From Coq Require Import String ZifyBool ZifyNat.
From Verif Require Import Base Lib M_Text M_Container M_Glyph M_Table M_Encoding S_Text S_Encoding P_Text P_Table.
Local Open Scope list_scope.

(** ** The encoding that a Vfb asks for is the right one *)
Definition wanted (force : bool) (p : platform) : encoding := if force then Utf8 else match p with MacOS => Utf8 | Windows => Cp1252 end.
Theorem C36_asked : forall D (T : codecs D) fuel dropk only force file v o,
  vfb_read_bytes T fuel (new_vfb dropk only force) file = (v, o) -> v_encoding v = wanted force (writer_platform (v_ctx v)).
Proof.
  intros D T fuel dropk only force file v o H.
  assert (L : forall fuel (v : vfb D) s v' o, read_loop T fuel v s = (v', o) -> v_force_unicode v = force -> v_encoding v = wanted force (writer_platform (v_ctx v)) ->
    v_encoding v' = wanted force (writer_platform (v_ctx v'))).
  { clear. induction fuel as [|fuel IH]; intros v s v' o H F W; cbn [read_loop] in H; [injection H as <- <-; assumption|].
    assert (A : forall i e (u : vfb D), v_force_unicode (append_entry i e u) = v_force_unicode u /\ v_encoding (append_entry i e u) = v_encoding u /\ v_ctx (append_entry i e u) = v_ctx u)
      by (intros i e u; unfold append_entry; destruct (M_Container.zmem i (v_drop u)); auto).
    assert (R : forall i d, v_force_unicode (remember T i d v) = force /\ v_encoding (remember T i d v) = wanted force (writer_platform (v_ctx (remember T i d v)))).
    { intros i d. unfold remember. destruct (i =? F_FLVersion); [cbn; rewrite F; split; reflexivity|]. destruct (i =? F_MasterCount); cbn; auto. }
    destruct (read_entry (v_ctx v) s) as [e r|x r]; [|destruct x; injection H as <- <-; assumption].
    destruct (e_id e) as [i|]; [|injection H as <- <-; assumption]. destruct (is_eager i).
    - destruct (entry_decompile T (v_ctx v) e) as [[e' err] od]. destruct od as [u|x]; [|injection H as <- <-; assumption].
      destruct (e_data e') as [b|d|].
      1,3: destruct (A i e' v) as (A1 & A2 & A3); apply (IH _ _ _ _ H); congruence.
      destruct (A i e' (remember T i d v)) as (A1 & A2 & A3). destruct (R i d) as (R1 & R2). apply (IH _ _ _ _ H); congruence.
    - destruct (A i e v) as (A1 & A2 & A3). destruct (i =? F_BlockFileDataEnd); [injection H as <- <-; congruence|]. apply (IH _ _ _ _ H); congruence. }
  unfold vfb_read_bytes, read_stream in H. destruct (parse_header file) as [h r|x r].
  - cbn [v_only_header with_header vfb_clear with_entries new_vfb] in H. destruct only.
    + injection H as <- <-. cbn. destruct force; reflexivity.
    + apply (L _ _ _ _ _ H); [reflexivity|]. cbn. destruct force; reflexivity.
  - injection H as <- <-. cbn. destruct force; reflexivity.
Qed.
(** but no parser uses it: whatever was asked for, a new parser has cp1252. *)
Theorem C36_used : forall (history : list (encoding * pystr)) cls,
  get_encoding (fold_left (fun a x => set_class_encoding (fst x) (snd x) a) history []) (new_instance cls) = Some Cp1252.
Proof. reflexivity. Qed.

(** ** So strings are read as cp1252 on all platforms ... *)
Lemma strip_trim : forall s, trimmed s (strip0 s).
Proof.
  assert (L : forall s, exists a, s = repeat 0 a ++ lstrip0 s /\ (lstrip0 s = [] \/ hd 0 (lstrip0 s) <> 0)).
  { induction s as [|c s (a & E & H)]; [exists 0%nat; auto|]. cbn [lstrip0]. destruct c as [|c|c].
    - exists (S a). cbn [repeat app]. split; [f_equal; exact E|assumption].
    - exists 0%nat. split; [reflexivity|]. right. cbn. lia.
    - exists 0%nat. split; [reflexivity|]. right. cbn. lia. }
  assert (Rr : forall n (x : Z), rev (repeat x n) = repeat x n).
  { induction n as [|n IH]; intros x; [reflexivity|]. cbn [repeat rev]. rewrite IH. clear. induction n; cbn; congruence. }
  intros s. unfold strip0. destruct (L s) as (a & E & H). destruct (L (rev (lstrip0 s))) as (b & E2 & H2).
  set (u := lstrip0 (rev (lstrip0 s))) in *. exists a, b. assert (E3 : lstrip0 s = rev u ++ repeat 0 b) by (rewrite <- (rev_involutive (lstrip0 s)), E2, rev_app_distr, Rr; reflexivity).
  split; [congruence|]. destruct H2 as [H2|H2]; [left; now rewrite H2|]. right. destruct u as [|x u]; [cbn in H2; congruence|]. cbn [hd] in H2. split.
  - destruct H as [H|H]; [rewrite H in E3; apply (f_equal (@List.length Z)) in E3; rewrite app_length, rev_length in E3; cbn in E3; lia|].
    rewrite E3 in H. destruct (rev (x :: u)) as [|y t] eqn:Er; [apply (f_equal (@List.length Z)) in Er; rewrite rev_length in Er; discriminate|]. exact H.
  - cbn [rev]. now rewrite last_last.
Qed.
Lemma string_row : forall o i, In i string_ids -> exists n k, row o i = Some (n, StringParser, k).
Proof.
  intros o i H. unfold string_ids in H. repeat (destruct H as [<-|H]; [do 2 eexists; lazy [row aget parser_classes Z.eqb Pos.eqb]; reflexivity|]). destruct H.
Qed.
Lemma string_parse : forall o c i data, In i string_ids -> cd_parse (table o) i c data = rmap (fun s => DStr (strip0 s)) (cp1252_decode data).
Proof.
  intros o c i data H. destruct (string_row o i H) as (n & k & R). unfold table, parser_of. cbn [cd_parse]. rewrite R.
  unfold StringParser, plain, parse_string, run_parser, read_str_all, rbind, read_all, rlift, ret. cbn. destruct (cp1252_decode data); reflexivity.
Qed.
Theorem C36_cp1252 : forall o c i data s, In i string_ids -> encodes data s ->
  exists t, cd_parse (table o) i c data = Ok (DStr t) /\ trimmed s t.
Proof.
  intros o c i data s H E. rewrite string_parse by assumption. apply decode_encodes in E. rewrite E. cbn [rmap]. exists (strip0 s). split; [reflexivity|apply strip_trim].
Qed.

(** ... which is right for all text of ASCII characters, *)
Lemma ascii_encodes : forall s, ascii s -> utf8 s = s /\ encodes s s.
Proof.
  induction 1 as [|c s Hc _ (IH1 & IH2)]; [split; [reflexivity|constructor]|]. split.
  - unfold utf8 in *. cbn [map concat]. rewrite IH1. unfold utf8_char. replace (c <? 0x80) with true by lia. reflexivity.
  - constructor; [|assumption]. apply cp1252_dec1_win. unfold cp1252_dec1, in_range. replace ((128 <=? c) && (c <? 160)) with false by lia. replace ((0 <=? c) && (c <? 256)) with true by lia. reflexivity.
Qed.
Theorem C36_ascii : forall o c i s, In i string_ids -> ascii s -> exists t, cd_parse (table o) i c (utf8 s) = Ok (DStr t) /\ trimmed s t.
Proof. intros o c i s H A. destruct (ascii_encodes s A) as (-> & E). now apply C36_cp1252. Qed.

(** and wrong for all other text in UTF-8, on all platforms and whatever is asked for. *)
Fixpoint nz (l : list Z) : nat := match l with [] => 0 | x :: l => (if x =? 0 then 0 else 1) + nz l end.
Lemma nz_app : forall a b, nz (a ++ b) = (nz a + nz b)%nat.
Proof. induction a; intros b; cbn; [reflexivity|rewrite IHa; lia]. Qed.
Lemma nz_repeat : forall n, nz (repeat 0 n) = 0%nat.
Proof. induction n; auto. Qed.
Lemma nz_trimmed : forall s t, trimmed s t -> nz t = nz s.
Proof. intros s t (a & b & -> & _). rewrite !nz_app, !nz_repeat. lia. Qed.
Lemma nz_encodes : forall b s, encodes b s -> nz s = nz b.
Proof.
  induction 1 as [|x c b s H _ IH]; [reflexivity|]. cbn [nz]. rewrite IH. f_equal. apply cp1252_dec1_win in H.
  assert (Z0 : x = 0 <-> c = 0).
  { split; intros ->; [cbn in H; congruence|]. apply cp1252_enc_dec in H. destruct H as (H & _). cbn in H. congruence. }
  destruct (x =? 0) eqn:E1, (c =? 0) eqn:E2; lia.
Qed.
Lemma nz_utf8 : forall s, Forall char_ok s -> (nz s <= nz (utf8 s))%nat /\ (~ ascii s -> (nz s < nz (utf8 s))%nat).
Proof.
  induction 1 as [|c s Hc Hs (IH1 & IH2)]; [split; [cbn; lia|]; intros H; exfalso; apply H; constructor|]. unfold utf8 in *. cbn [map concat nz]. rewrite nz_app. unfold char_ok in Hc.
  assert (H1 : c < 128 -> utf8_char c = [c]) by (intros H; unfold utf8_char; now replace (c <? 128) with true by lia).
  assert (H2 : 128 <= c -> (2 <= nz (utf8_char c))%nat).
  { intros H. unfold utf8_char. replace (c <? 128) with false by lia.
    assert (P1 : 0 <= c / 64) by (apply Z.div_pos; lia). assert (P2 : 0 <= c / 4096) by (apply Z.div_pos; lia). assert (P3 : 0 <= c / 262144) by (apply Z.div_pos; lia).
    pose proof (Z.mod_pos_bound c 64 ltac:(lia)). pose proof (Z.mod_pos_bound (c / 64) 64 ltac:(lia)). pose proof (Z.mod_pos_bound (c / 4096) 64 ltac:(lia)).
    assert (K : forall x l, x <> 0 -> nz (x :: l) = S (nz l)) by (intros x l Hx; cbn; now replace (x =? 0) with false by lia).
    destruct (c <? 2048); [|destruct (c <? 65536)]; rewrite !K by lia; lia. }
  destruct (Z_lt_dec c 128) as [L|L].
  - rewrite (H1 L). cbn [nz]. split; [destruct (c =? 0); lia|]. intros N. assert (~ ascii s) by (intros A; apply N; constructor; [lia|assumption]). specialize (IH2 H). destruct (c =? 0); lia.
  - specialize (H2 ltac:(lia)). destruct (c =? 0); lia.
Qed.
Theorem C36_utf8_refuted : forall o c i s t, In i string_ids -> Forall char_ok s -> ~ ascii s -> trimmed s t ->
  cd_parse (table o) i c (utf8 s) <> Ok (DStr t).
Proof.
  intros o c i s t H Hs N Ht E. rewrite string_parse in E by assumption. destruct (cp1252_decode (utf8 s)) as [u|] eqn:D; [|discriminate]. cbn [rmap] in E.
  assert (Et : strip0 u = t) by congruence. apply decode_encodes, nz_encodes in D. pose proof (nz_trimmed _ _ (strip_trim u)). apply nz_trimmed in Ht.
  destruct (nz_utf8 s Hs) as (_ & Q). specialize (Q N). rewrite Et in *. lia.
Qed.
(** Nor is text written in UTF-8: the bytes that are written for it are not its UTF-8 form, if any are written. *)
Theorem C36_written_refuted : forall s b, Forall char_ok s -> ~ ascii s -> compile_string s = Ok b -> b <> utf8 s.
Proof.
  intros s b Hs N E ->. unfold compile_string, write_str, write_str_pad in E. destruct (cp1252_encode s) as [x|] eqn:D; [|discriminate].
  cbn [rmap] in E. apply Ok_inj in E. apply encode_encodes, nz_encodes in D. destruct (nz_utf8 s Hs) as (_ & Q). specialize (Q N).
  rewrite <- E, nz_app, nz_repeat in Q. lia.
Qed.

(** "Für" as the font name of a Mac file *)
Example C36_example : Forall char_ok [70; 252; 114] /\ ~ ascii [70; 252; 114] /\ utf8 [70; 252; 114] = [70; 195; 188; 114] /\
  (forall o, cd_parse (table o) 1026 (mkCtx 1 0 0 MacOS) (utf8 [70; 252; 114]) = Ok (DStr [70; 195; 188; 114])) /\
  encodes [70; 252; 114] [70; 252; 114].
Proof.
  split; [|split; [|split; [|split]]].
  - repeat constructor; unfold char_ok; lia.
  - intros A. inversion A as [|? ? _ A']; subst. inversion A'; subst. lia.
  - reflexivity.
  - intros o. rewrite string_parse by (cbn; tauto). reflexivity.
  - apply decode_encodes. reflexivity.
Qed.
Print Assumptions C36_asked.
Print Assumptions C36_used.
Print Assumptions C36_cp1252.
Print Assumptions C36_ascii.
Print Assumptions C36_utf8_refuted.
Print Assumptions C36_written_refuted.
