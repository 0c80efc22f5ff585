(** Proofs about the small entry codecs: for each, [wrt_]/[wrun_] (what is written reads back),
    [rps_] (what the parser can return), [tot_] (termination) and, for the fixed layouts, [fix_]. *)
From Coq Require Import String Sorting.Sorted Permutation.
From Verif Require Import Base M_Stream M_Helpers M_Text M_Py M_Simple S_Bits S_Text S_Entry
  Lib P_Stream P_Helpers P_Text P_Text2 P_Loop.
Local Open Scope list_scope.
Open Scope rd_scope.
From Coq Require Import ZifyBool ZifyNat.
Ltac Zify.zify_post_hook ::= Z.div_mod_to_equations.

Ltac rd_unfold_ranges :=
  change int8 with i8 in *; change int16 with i16 in *; change int32 with i32 in *;
  change uint8 with byteZ in *; change uint16 with u16 in *; change uint32 with w32 in *;
  change double with is_double in *; change text with text_ok in *.

Lemma wrt_str_text : forall s, text_ok s -> wrt (write_str_with_len s) read_str_with_len s.
Proof. intros s [H1 H2]. apply wrt_str_with_len; auto. Qed.
#[export] Hint Resolve wrt_str_text : wrt.

(** solve a chain of fields *)
Ltac wrt_field := solve [eauto with wrt | apply wrt_uint8; unfold byteZ; lia].
Ltac wrt_seq :=
  repeat first
    [ apply wrt_ret
    | eapply wrt_bind; [wrt_field | cbv beta]
    | eapply wrt_bind_ret; [wrt_field | intros; reflexivity] ].
Ltac rps_seq :=
  repeat first
    [ eapply rps_bind; [solve [eauto with rps] | cbv beta; intros ? ?] ].

Lemma wrt_survives : forall A (c : A -> wr) (r : rd A) x, wrt (c x) r x -> survives c r x.
Proof. intros A c r x H. apply wrt_run in H. exact H. Qed.
Lemma wrun_survives : forall A (c : A -> wr) (r : rd A) x, wrun (c x) r x -> survives c r x.
Proof. intros A c r x H. exact H. Qed.
Lemma reparses_intro : forall A (c : A -> wr) (r : rd A) (P : A -> Prop),
  rps r P -> (forall x, P x -> survives c r x) -> reparses c r.
Proof.
  intros A c r P Hr Hw data x Hd E. apply Hw. eapply rps_run; eauto.
Qed.
Lemma tot_terminates : forall A (r : rd A), tot r -> terminates r.
Proof.
  intros A r H data Hd E. unfold run_parser in E. destruct (H data Hd) as [_ N].
  destruct (r data) as [a [|]|e s]; try discriminate. inversion E; subst. exact N.
Qed.
Lemma fix_exact : forall A n (c : A -> wr) (r : rd A),
  rfix n r (fun x b => c x = Ok b) -> exact_at n c r.
Proof.
  intros A n c r H data Hd Hl. destruct (rfix_run _ _ _ _ _ H Hl Hd) as (x & E & C). eauto.
Qed.
Lemma Forall_In : forall A (P : A -> Prop) l x, Forall P l -> In x l -> P x.
Proof. intros A P l x H. rewrite Forall_forall in H. auto. Qed.

(** ** Hex strings *)
Lemma tot_hex : tot parse_hex.
Proof. unfold parse_hex. tot_auto. Qed.
Lemma compile_hex_of : forall b, bytes_ok b -> compile_hex (hexStr b) = Ok b.
Proof.
  intros b H. unfold compile_hex. destruct b as [|x b]; [reflexivity|].
  pose proof (deHexStr_hexStr _ H) as E. destruct (hexStr (x :: b)) eqn:Eh.
  - cbn in Eh. discriminate.
  - unfold wlet. rewrite E. reflexivity.
Qed.
Lemma hex_exact : forall data, bytes_ok data ->
  exists x, run_parser parse_hex data = Ok x /\ compile_hex x = Ok data.
Proof.
  intros data H. exists (hexStr data). split; [reflexivity|]. apply compile_hex_of; auto.
Qed.
Lemma hexStr_app : forall a b, hexStr (a ++ b) = hexStr a ++ hexStr b.
Proof. induction a as [|x a IH]; intros; cbn; [reflexivity|]. rewrite IH. reflexivity. Qed.
Lemma hex_text_of : forall b, bytes_ok b -> hex_text (hexStr b).
Proof.
  intros b H. induction H as [|x b Hx Hb IH].
  - split; [exists 0%nat; reflexivity|constructor].
  - destruct IH as [[k Hk] IH]. split.
    + exists (S k). cbn. rewrite Hk. lia.
    + cbn. constructor; [|constructor; [|exact IH]];
        unfold hex_digit, is_byte in *; destruct (_ <? _) eqn:E; lia.
Qed.
Lemma hexStr_onto : forall s, hex_text s -> exists b, bytes_ok b /\ s = hexStr b.
Proof.
  intros s [[k Hk] Hs]. revert s Hk Hs. induction k as [|k IH]; intros s Hk Hs.
  - destruct s; [|cbn in Hk; lia]. exists []. split; [constructor|reflexivity].
  - destruct s as [|a [|c s]]; cbn in Hk; try lia.
    apply Forall_cons_iff in Hs. destruct Hs as [Ha Hs].
    apply Forall_cons_iff in Hs. destruct Hs as [Hc Hs].
    destruct (IH s) as (b & Ob & Eb); [lia|exact Hs|].
    set (d := fun x => if x <? 58 then x - 48 else x - 87).
    exists (16 * d a + d c :: b). split.
    + constructor; [|exact Ob]. unfold is_byte, d.
      destruct (a <? 58) eqn:E1; destruct (c <? 58) eqn:E2; lia.
    + cbn [hexStr]. rewrite <- Eb.
      f_equal; [|f_equal];
      unfold hex_digit, d; destruct (a <? 58) eqn:E1; destruct (c <? 58) eqn:E2;
        match goal with |- _ = (if ?t then _ else _) => destruct t eqn:E3 end; lia.
Qed.
Lemma hex_survives : forall s, hex_text s -> survives compile_hex parse_hex s.
Proof.
  intros s Hs. destruct (hexStr_onto s Hs) as (b & Ob & ->). exists b.
  split; [apply compile_hex_of; auto|]. split; [exact Ob|reflexivity].
Qed.

(** ** Value lists *)
Lemma tot_values : tot parse_values.
Proof. unfold parse_values. tot_auto. Qed.
Lemma values_survives : forall l, Forall int32 l -> survives compile_values parse_values l.
Proof.
  intros l H. unfold survives, compile_values, parse_values.
  apply wrun_loop with (f := fun a x => a ++ [x]).
  - intros l1 x l2 ->. split; [apply wne_value_gen|].
    assert (Hx : i32 x) by (eapply Forall_In; [exact H|apply in_or_app; right; left; auto]).
    destruct (wrt_value x Hx) as (b & E & O & R). exists b. repeat split; auto.
    intros rest. unfold rtry, rbind. rewrite R. rewrite !fold_snoc. reflexivity.
  - rewrite fold_snoc. reflexivity.
  - apply wlist_ok. intros x Hx. eapply wrt_ok, wrt_value. exact (Forall_In _ _ _ _ H Hx).
Qed.
Lemma rps_values : rps parse_values (Forall i32).
Proof.
  unfold parse_values. eapply rps_loop with (I := Forall i32); [constructor|].
  intros st Hst. apply rps_try_eof.
  - tot_auto.
  - eapply rps_bind; [apply rps_value|]. intros v Hv. apply rps_ret.
    apply Forall_app. split; auto.
  - apply rps_ret. exact Hst.
Qed.

Lemma tot_counted : tot parse_counted.
Proof. unfold parse_counted. tot_auto. Qed.
Lemma count_i32 : forall A (l : list A), countable l -> i32 (Z.of_nat (length l)).
Proof. intros A l H. unfold countable, i32 in *. lia. Qed.
#[export] Hint Resolve count_i32 : wrt.
Lemma wrt_counted : forall l, Forall i32 l -> countable l -> wrt (compile_counted l) parse_counted l.
Proof.
  intros l H Hl. unfold compile_counted, parse_counted.
  eapply wrt_bind; [wrt_field|]. apply wrt_range_id; [reflexivity|].
  intros x Hx. apply wrt_value. exact (Forall_In _ _ _ _ H Hx).
Qed.
Lemma range_countable : forall A (l : list A) n, i32 n -> length l = Z.to_nat n -> countable l.
Proof. intros A l n H E. unfold countable, i32 in *. lia. Qed.
Lemma rps_counted : rps parse_counted (fun l => Forall i32 l /\ countable l).
Proof.
  unfold parse_counted. eapply rps_bind; [apply rps_value|]. intros n Hn.
  eapply rps_weaken; [apply rps_range, rps_value|]. intros l [Hl Hf]. split; auto.
  eapply range_countable; eauto.
Qed.

(** ** Encoding *)
Lemma tot_encoding : tot parse_encoding.
Proof. unfold parse_encoding. tot_auto. Qed.
Lemma run_str_all : forall s b, cp1252_encode s = Ok b -> read_str_all b = ROk s [].
Proof.
  intros s b E. unfold read_str_all, rbind, read_all. rewrite (decode_encode _ _ E). reflexivity.
Qed.
Lemma encoding_survives : forall d, uint16 (fst d) -> encodable (snd d) ->
  survives compile_encoding parse_encoding d.
Proof.
  intros [g n] Hg Hn. cbn [fst snd] in *. apply encodable_encode in Hn. destruct Hn as [b Eb].
  destruct (wrt_uint16 g Hg) as (b1 & E1 & O1 & R1).
  exists (b1 ++ b). unfold compile_encoding. cbn [fst snd]. rewrite E1, (write_str_ok _ _ Eb).
  split; [reflexivity|]. split; [apply bytes_ok_app; split; auto; eapply encode_bytes_ok; eauto|].
  unfold run_parser, parse_encoding, rbind. rewrite R1. rewrite (run_str_all _ _ Eb). reflexivity.
Qed.
Lemma rps_encoding : rps parse_encoding (fun d => u16 (fst d) /\ encodable (snd d)).
Proof.
  unfold parse_encoding. eapply rps_bind; [apply rps_uint16|]. intros g Hg.
  eapply rps_bind; [apply rps_str_all|]. intros s [Hs _]. apply rps_ret. auto.
Qed.

(** ** Class flags *)
Lemma tot_class_flags : forall n, tot (parse_class_flags n).
Proof. intros. unfold parse_class_flags. tot_auto. Qed.
Lemma aset_fresh : forall (k : pystr) V (v : V) d, ~ In k (map fst d) ->
  aset str_eqb k v d = d ++ [(k, v)].
Proof.
  induction d as [|[k' v'] d IH]; intros H; [reflexivity|]. cbn in *.
  destruct (str_eqb k k') eqn:E.
  - apply str_eqb_eq in E. subst. tauto.
  - rewrite IH; tauto.
Qed.
Lemma fold_aset : forall V (l1 l2 : list (pystr * V)), NoDup (map fst (l1 ++ l2)) ->
  fold_left (fun d p => aset str_eqb (fst p) (snd p) d) l2 l1 = l1 ++ l2.
Proof.
  intros V l1 l2. revert l1. induction l2 as [|[k v] l2 IH]; intros l1 H; cbn.
  - rewrite app_nil_r. reflexivity.
  - rewrite aset_fresh.
    + rewrite IH; rewrite <- app_assoc; auto.
    + rewrite map_app in H. cbn in H. apply NoDup_remove_2 in H. rewrite in_app_iff in H. tauto.
Qed.
Lemma wrt_class_flags : forall n d, wf_class_flags n d ->
  wrt (compile_class_flags n d) (parse_class_flags n) d.
Proof.
  intros n d (Hc & Hn & Hf). rd_unfold_ranges. unfold compile_class_flags, parse_class_flags.
  eapply wrt_bind.
  { apply wrt_uvalue_value. unfold countable in Hc. lia. }
  rewrite Nat2Z.id.
  replace d with (fold_left (fun d (p : pystr * list Z) => aset str_eqb (fst p) (snd p) d) d []) at 3
    by (apply (fold_aset _ [] d Hn)).
  apply wrt_times with (f := fun d (p : pystr * list Z) => aset str_eqb (fst p) (snd p) d).
  intros l1 [k v] l2 Hl. rewrite fold_left_app. cbn [fold_left fst snd].
  assert (Hk : text_ok k /\ length v = n /\ Forall small_flag v).
  { apply (Forall_In _ _ _ (k, v) Hf). rewrite Hl. apply in_or_app. right. left. reflexivity. }
  destruct Hk as (Hk & Hv & Hfl). rewrite Hv, Nat.eqb_refl.
  eapply wrt_bind; [wrt_field|]. eapply wrt_bind_ret with (a := v); [|intros; reflexivity].
  rewrite <- Hv at 1. rewrite <- (map_id v) at 3. apply wrt_repeat.
  intros x Hx. apply wrt_uvalue_value. exact (Forall_In _ _ _ _ Hfl Hx).
Qed.
Lemma rps_class_flags : forall n, rps (parse_class_flags n)
  (fun d => countable d /\ NoDup (map fst d) /\
     Forall (fun p => text_ok (fst p) /\ length (snd p) = n /\ Forall i32 (snd p)) d).
Proof.
  intros n. unfold parse_class_flags. eapply rps_bind; [apply rps_value|]. intros m Hm.
  eapply rps_weaken.
  - apply rps_times_n with (k := 0%nat) (I := fun k d => (length d <= k)%nat /\ NoDup (map fst d) /\
      Forall (fun p => text_ok (fst p) /\ length (snd p) = n /\ Forall i32 (snd p)) d).
    + split; [cbn; lia|]. split; [constructor|constructor].
    + intros k st (H1 & H2 & H3). eapply rps_bind; [apply rps_str_with_len|]. intros nm Hnm.
      eapply rps_bind; [apply rps_repeat, rps_value|]. intros fl [Hfl Hf]. apply rps_ret.
      clear Hm. revert H1 H2 H3. revert k.
      induction st as [|[k' v'] st IH]; intros k H1 H2 H3; cbn [aset length map fst] in *.
      * split; [lia|]. split; [constructor; [tauto|constructor]|]. constructor; [cbn; auto|constructor].
      * destruct (str_eqb nm k') eqn:E.
        -- cbn. split; [lia|]. split; [exact H2|]. inversion H3; subst. constructor; [|assumption].
           cbn in *. tauto.
        -- inversion H2; subst. inversion H3; subst. destruct k as [|k]; [lia|].
           destruct (IH k) as (A & B & C); [lia|assumption|assumption|].
           cbn. split; [lia|]. split.
           ++ constructor; [|exact B]. intros Hin. apply H4.
              clear - Hin E. induction st as [|[k2 v2] st IH]; cbn in *.
              ** destruct Hin as [<-|[]]. rewrite str_eqb_refl in E. discriminate.
              ** destruct (str_eqb nm k2) eqn:E2; cbn in Hin; tauto.
           ++ constructor; assumption.
  - cbn beta. intros d (H1 & H2 & H3). split; [|auto]. unfold countable, i32 in *. lia.
Qed.

(** ** Key-value lists *)
Lemma prog_uint8_if : forall St A (k : Z -> rd (St + A)) (stop : Z -> rd (St + A)) (c : Z -> bool),
  (forall z, progl (k z)) -> (forall z, progl (stop z)) ->
  progl (key <- read_uint8 ;; if c key then stop key else k key).
Proof. intros. apply progl_bind_r; [apply tot_uint8|]. intros. destruct (c b); auto. Qed.
Lemma tot_key_values : tot parse_key_values.
Proof. unfold parse_key_values. tot_auto. Qed.

(** ** Mapping mode *)
Lemma tot_mapping_mode : tot parse_mapping_mode.
Proof. unfold parse_mapping_mode. tot_auto. Qed.
Lemma rwhile_step : forall St A (body : St -> rd (St + A)) st st' s s' f,
  body st s = ROk (inl st') s' -> rwhile (S f) body st s = rwhile f body st' s'.
Proof. intros. cbn [rwhile]. unfold rbind. rewrite H. reflexivity. Qed.

(** a loop that reads a fixed sequence of items, each with the state it leads to *)
Section Seq.
  Context {St A : Type} (body : St -> rd (St + A)).
  Fixpoint chain (st : St) (items : list (wr * St)) (last : St) : Prop :=
    match items with
    | [] => st = last
    | (w, s) :: l => wne w /\ wrt w (body st) (inl s) /\ chain s l last
    end.
  Lemma chain_fold : forall items st last, chain st items last ->
    fold_left (fun (_ : St) (p : wr * St) => snd p) items st = last.
  Proof.
    induction items as [|[w s] l IH]; intros st last H; cbn in *; [exact H|].
    apply IH. tauto.
  Qed.
  Lemma chain_split : forall l1 st w s l2 last, chain st (l1 ++ (w, s) :: l2) last ->
    wne w /\ wrt w (body (fold_left (fun (_ : St) (p : wr * St) => snd p) l1 st)) (inl s).
  Proof.
    induction l1 as [|[w1 s1] l1 IH]; intros st w s l2 last H; cbn in *; [tauto|].
    eapply IH. apply H.
  Qed.
  Lemma wrt_loop_seq : forall (items : list (wr * St)) st last wend a,
    chain st items last -> wrt wend (body last) (inr a) ->
    wrt (wlist fst items +++ wend) (rloop body st) a.
  Proof.
    intros items st last wend a H He.
    apply wrt_loop with (f := fun (_ : St) (p : wr * St) => snd p).
    - intros l1 [w s] l2 E. rewrite E in H. destruct (chain_split _ _ _ _ _ _ H) as [Hn Hw].
      split; [exact Hn|]. rewrite fold_left_app. cbn. exact Hw.
    - rewrite (chain_fold _ _ _ H). exact He.
    - apply wlist_ok. intros [w s] Hin. apply in_split in Hin. destruct Hin as (l1 & l2 & E).
      rewrite E in H. destruct (chain_split _ _ _ _ _ _ H) as [_ Hw]. exact (wrt_ok _ _ _ _ Hw).
  Qed.
End Seq.

Lemma mode_cases : forall d, wf_mapping_mode d -> exists k,
  aget_res str_eqb (mm_mode d) (rev_table mapping_modes) = Ok k /\
  get_or_str mapping_modes k = mm_mode d /\ i32 k.
Proof.
  intros d ([-> | [-> | ->]] & _);
    [exists 0 | exists 1 | exists 3]; (split; [vm_compute; reflexivity|]);
    (split; [vm_compute; reflexivity|]); unfold i32; lia.
Qed.

Lemma wrt_mapping_mode : forall d, wf_mapping_mode d ->
  wrt (compile_mapping_mode d) parse_mapping_mode d.
Proof.
  intros d H. destruct (mode_cases d H) as (k & Ek & Es & Hk).
  destruct H as (_ & H2 & H3 & H4). rd_unfold_ranges.
  set (items := [ (write_uint8 1 +++ write_value k, MMVars (Some (mm_mode d)) None None None);
                  (write_uint8 2 +++ write_value (mm_m2 d),
                   MMVars (Some (mm_mode d)) (Some (mm_m2 d)) None None);
                  (write_uint8 3 +++ write_value (mm_m3 d),
                   MMVars (Some (mm_mode d)) (Some (mm_m2 d)) (Some (mm_m3 d)) None);
                  (write_uint8 4 +++ write_value (mm_id d),
                   MMVars (Some (mm_mode d)) (Some (mm_m2 d)) (Some (mm_m3 d)) (Some (mm_id d))) ]).
  assert (E : compile_mapping_mode d = wlist fst items +++ write_uint8 0).
  { unfold compile_mapping_mode. rewrite Ek. cbn [wlet wlist items fst].
    rewrite wseq_nil_r, !wseq_assoc. reflexivity. }
  rewrite E. unfold parse_mapping_mode. eapply wrt_loop_seq.
  - unfold items. cbn [chain].
    repeat match goal with
    | |- _ /\ _ => split
    | |- wne _ => apply wne_l, wne_uint8
    | |- wrt _ _ _ =>
        eapply wrt_bind; [apply wrt_uint8; unfold byteZ; lia|];
        eapply wrt_bind_ret; [apply wrt_value; assumption|];
        intros; cbn -[get_or_str]; rewrite ?Es; reflexivity
    | |- _ = _ => reflexivity
    end.
  - eapply wrt_bind_ret; [apply wrt_uint8; unfold byteZ; lia|].
    intros. cbn. destruct d; reflexivity.
Qed.
