(** Proofs about the bitmap codec. *)
From Coq Require Import ZifyBool ZifyNat.
From Verif Require Import Base M_Stream M_Helpers M_Text M_Py M_Bitmap S_Stream S_Bits S_Text S_Entry
  S_Bitmap M_Simple Lib P_Stream P_Helpers P_Text P_Text2 P_Loop P_Simple P_Simple3.
Open Scope rd_scope.
Ltac Zify.zify_post_hook ::= Z.div_mod_to_equations.

Lemma rbind_assoc : forall A B C (r : rd A) (k : A -> rd B) (h : B -> rd C) s,
  rbind (rbind r k) h s = rbind r (fun a => rbind (k a) h) s.
Proof. intros. unfold rbind. destruct (r s); reflexivity. Qed.

(** ** Rows *)
Lemma rows_concat : forall n data fuel, (0 < n)%nat -> (length data <= fuel)%nat ->
  concat (rows_from fuel n data) = data.
Proof.
  intros n data fuel Hn. revert data. induction fuel as [|f IH]; intros data Hl.
  - destruct data; [reflexivity|cbn in Hl; lia].
  - cbn [rows_from]. destruct data as [|x t]; [reflexivity|].
    cbn [concat]. rewrite IH; [apply firstn_skipn|]. rewrite skipn_length. cbn [length] in *. lia.
Qed.
Lemma rows_shape : forall n data fuel, (0 < n)%nat -> (length data <= fuel)%nat ->
  Forall (fun r => (0 < length r <= n)%nat) (rows_from fuel n data) /\
  in_rows (Z.of_nat n) (rows_from fuel n data).
Proof.
  intros n data fuel Hn. revert data. induction fuel as [|f IH]; intros data Hl.
  - destruct data; [|cbn in Hl; lia]. cbn. split; [constructor|]. exists [], []. auto.
  - cbn [rows_from]. destruct data as [|x t].
    + split; [constructor|]. exists [], []. auto.
    + set (d := x :: t) in *.
      destruct (IH (skipn n d)) as [F (full & last & E & Hf & Hlast)].
      { rewrite skipn_length. unfold d in *. cbn [length] in *. lia. }
      split.
      * constructor; [|exact F]. rewrite firstn_length. unfold d. cbn [length]. lia.
      * destruct (Nat.le_gt_cases n (length d)) as [H|H].
        -- exists (firstn n d :: full), last. rewrite E. split; [reflexivity|]. split; [|exact Hlast].
           constructor; [|exact Hf]. rewrite firstn_length. lia.
        -- exists [], [firstn n d]. split.
           ++ assert (skipn n d = []) as -> by (apply skipn_all2; lia).
              destruct f; reflexivity.
           ++ split; [constructor|]. right. exists (firstn n d). split; [reflexivity|].
              rewrite firstn_length. unfold d in *. cbn [length] in *. lia.
Qed.
Lemma rows_of_rows : forall n rows fuel, (0 < n)%nat -> in_rows (Z.of_nat n) rows ->
  (length (concat rows) <= fuel)%nat -> rows_from fuel n (concat rows) = rows.
Proof.
  intros n rows fuel Hn (full & last & -> & Hf & Hlast) Hl. revert fuel Hl.
  induction Hf as [|r full Hr Hf IH]; intros fuel Hl.
  - destruct Hlast as [->|(r & -> & Hr)].
    + destruct fuel; reflexivity.
    + cbn in *. rewrite app_nil_r in *. destruct fuel as [|f]; [lia|]. cbn [rows_from].
      destruct r as [|x t]; [cbn in Hr; lia|]. rewrite firstn_all2 by lia.
      rewrite skipn_all2 by lia. destruct f; reflexivity.
  - cbn [app concat] in *. rewrite app_length in Hl.
    destruct fuel as [|f]; [lia|]. cbn [rows_from].
    assert (Hrn : length r = n) by lia.
    destruct (r ++ concat (full ++ last)) as [|x t] eqn:E.
    + apply (f_equal (@length Z)) in E. rewrite app_length in E. cbn in E. lia.
    + rewrite <- E. rewrite firstn_app, skipn_app. replace (n - length r)%nat with 0%nat by lia.
      rewrite firstn_all2 by lia. rewrite skipn_all2 by lia. cbn [firstn skipn app].
      rewrite app_nil_r. rewrite IH by lia. reflexivity.
Qed.

(** ** Run-length encoding *)
Definition chunk_ok (c : chunk) : Prop :=
  Forall byteZ (snd c) /\
  ((0 <= fst c <= 127 /\ Z.of_nat (length (snd c)) = fst c + 1) \/
   (-128 <= fst c < 0 /\ length (snd c) = 1%nat)).

Lemma list_times_repeat : forall A n (x : A), list_times n [x] = repeat x n.
Proof. induction n as [|n IH]; intros x; cbn; [reflexivity|]. rewrite IH. reflexivity. Qed.
Lemma decode_app : forall a b, decode_bitmap (a ++ b) = decode_bitmap a ++ decode_bitmap b.
Proof. intros. unfold decode_bitmap. rewrite map_app, concat_app. reflexivity. Qed.
Lemma decode_flush : forall buf, decode_bitmap (flush_buffer buf) = buf.
Proof.
  intros buf. unfold decode_bitmap, flush_buffer. rewrite map_map.
  assert (Hn : (0 < max_chunk_len)%nat) by (unfold max_chunk_len; lia).
  destruct (rows_shape max_chunk_len buf (length buf) Hn (le_n _)) as [F _].
  transitivity (concat (rows_from (length buf) max_chunk_len buf)).
  - f_equal. rewrite <- map_id. apply map_ext_in. intros r Hr.
    rewrite Forall_forall in F. apply F in Hr. unfold decode_chunk. cbn [fst snd].
    destruct (Z.leb_spec 0 (Z.of_nat (length r) - 1)); [reflexivity|lia].
  - apply rows_concat; auto.
Qed.
Lemma decode_repeats : forall k c, decode_bitmap (repeat c k) = list_times k (decode_chunk c).
Proof.
  induction k as [|k IH]; intros c; [reflexivity|]. cbn [repeat list_times].
  unfold decode_bitmap in *. cbn [map concat]. rewrite IH. reflexivity.
Qed.
Lemma list_times_times : forall A k n (x : A), list_times k (repeat x n) = repeat x (k * n).
Proof.
  induction k as [|k IH]; intros n x; [reflexivity|]. cbn [list_times Nat.mul].
  rewrite IH, repeat_app. reflexivity.
Qed.
Lemma decode_rep : forall n (v : Z), (0 < n)%nat ->
  decode_chunk (- Z.of_nat n + 1, [v]) = repeat v n.
Proof.
  intros n v Hn. unfold decode_chunk. cbn [fst snd].
  destruct (Z.leb_spec 0 (- Z.of_nat n + 1)).
  - assert (n = 1%nat) as -> by lia. reflexivity.
  - rewrite list_times_repeat. f_equal. lia.
Qed.

Definition expand_runs (g : list (Z * nat)) : bytes := concat (map (fun p => repeat (fst p) (snd p)) g).
Lemma groupby_expand : forall l, expand_runs (groupby l) = l.
Proof.
  unfold expand_runs. induction l as [|x l IH]; [reflexivity|]. cbn [groupby].
  destruct (groupby l) as [|(y, n) g].
  - cbn in IH. subst l. reflexivity.
  - destruct (Z.eqb_spec x y) as [->|H]; cbn [map concat fst snd repeat app] in *; rewrite <- IH; reflexivity.
Qed.

Lemma decode_run : forall encoded buf run,
  let st := encode_run (encoded, buf) run in
  decode_bitmap (fst st) ++ snd st = decode_bitmap encoded ++ buf ++ repeat (fst run) (snd run).
Proof.
  intros encoded buf (v, n). unfold encode_run. destruct (Nat.ltb_spec 2 n) as [H|H].
  - cbv zeta. cbn [fst snd]. rewrite app_nil_r, !decode_app, decode_flush. f_equal. f_equal.
    rewrite decode_repeats, decode_rep by (unfold max_chunk_len; lia). rewrite list_times_times.
    pose proof (Nat.div_mod n max_chunk_len ltac:(unfold max_chunk_len; lia)) as D.
    destruct (Nat.eqb_spec (n mod max_chunk_len) 0) as [E|E].
    + unfold decode_bitmap at 1. cbn [map concat]. rewrite app_nil_r. f_equal.
      rewrite (Nat.mul_comm _ max_chunk_len). lia.
    + unfold decode_bitmap. cbn [map concat]. rewrite app_nil_r, decode_rep by lia.
      rewrite <- repeat_app. f_equal. rewrite (Nat.mul_comm _ max_chunk_len). lia.
  - cbn [fst snd]. reflexivity.
Qed.
Lemma decode_runs : forall runs st,
  let st' := fold_left encode_run runs st in
  decode_bitmap (fst st') ++ snd st' = decode_bitmap (fst st) ++ snd st ++ expand_runs runs.
Proof.
  induction runs as [|r runs IH]; intros (enc, buf); cbn [fold_left].
  - cbn. rewrite app_nil_r. reflexivity.
  - cbv zeta in *. rewrite IH. pose proof (decode_run enc buf r) as H. cbv zeta in H.
    rewrite app_assoc, H. unfold expand_runs. cbn [map concat fst snd].
    rewrite <- !app_assoc. reflexivity.
Qed.
Lemma decode_encode : forall data, decode_bitmap (encode_bitmap data) = concat data.
Proof.
  intros data. unfold encode_bitmap. pose proof (decode_runs (groupby (concat data)) ([], [])) as H.
  cbv zeta in H. destruct (fold_left encode_run (groupby (concat data)) ([], [])) as [enc buf].
  rewrite decode_app, decode_flush. cbn [fst snd] in H. rewrite H, groupby_expand. reflexivity.
Qed.

Lemma firstn_in : forall A n (l : list A) x, In x (firstn n l) -> In x l.
Proof. intros A n l x H. rewrite <- (firstn_skipn n l). apply in_or_app. auto. Qed.
Lemma flush_ok : forall buf, Forall byteZ buf -> Forall chunk_ok (flush_buffer buf).
Proof.
  intros buf Hb. unfold flush_buffer. apply Forall_forall. intros c Hc. apply in_map_iff in Hc.
  destruct Hc as (r & <- & Hr). assert (Hn : (0 < max_chunk_len)%nat) by (unfold max_chunk_len; lia).
  destruct (rows_shape max_chunk_len buf (length buf) Hn (le_n _)) as [F _].
  rewrite Forall_forall in F. pose proof (F r Hr) as L. split; cbn [fst snd].
  - apply Forall_forall. intros x Hx. rewrite Forall_forall in Hb. apply Hb.
    rewrite <- (rows_concat max_chunk_len buf (length buf) Hn (le_n _)). apply in_concat. eauto.
  - left. unfold max_chunk_len in L. lia.
Qed.
Lemma run_ok : forall st run, Forall chunk_ok (fst st) -> Forall byteZ (snd st) -> byteZ (fst run) ->
  (0 < snd run)%nat ->
  Forall chunk_ok (fst (encode_run st run)) /\ Forall byteZ (snd (encode_run st run)).
Proof.
  intros (enc, buf) (v, n) H1 H2 H3 H4. cbn [fst snd] in *. unfold encode_run.
  destruct (Nat.ltb_spec 2 n) as [H|H]; cbn [fst snd]; split; auto.
  - apply Forall_app. split; [exact H1|]. apply Forall_app. split; [apply flush_ok, H2|].
    apply Forall_app. split.
    + apply Forall_forall. intros c Hc. apply repeat_spec in Hc. subst c.
      split; cbn [fst snd]; [repeat constructor; apply H3|]. right. unfold max_chunk_len. cbn [length]. lia.
    + destruct (Nat.eqb_spec (n mod max_chunk_len) 0) as [E|E]; constructor; [|constructor].
      split; cbn [fst snd]; [repeat constructor; apply H3|].
      pose proof (Nat.mod_upper_bound n max_chunk_len ltac:(unfold max_chunk_len; lia)) as U.
      unfold max_chunk_len in *. cbn [length].
      destruct (Nat.eq_dec (n mod 128) 1) as [E1|E1]; [left|right]; lia.
  - apply Forall_app. split; [exact H2|]. apply Forall_forall. intros x Hx. apply repeat_spec in Hx.
    subst. exact H3.
Qed.
Lemma groupby_ok : forall l, Forall byteZ l -> Forall (fun p => byteZ (fst p) /\ (0 < snd p)%nat) (groupby l).
Proof.
  induction l as [|x l IH]; intros H; [constructor|]. inversion H as [|? ? Hx Hl]; subst.
  specialize (IH Hl). cbn [groupby]. destruct (groupby l) as [|(y, n) g].
  - repeat constructor; cbn; try apply Hx; lia.
  - inversion IH as [|? ? [Hy Hn] Hg]; subst. cbn in *.
    destruct (Z.eqb_spec x y) as [->|]; repeat (constructor; auto); cbn; try apply Hx; lia.
Qed.
Lemma encode_ok : forall data, Forall (Forall byteZ) data -> Forall chunk_ok (encode_bitmap data).
Proof.
  intros data H. unfold encode_bitmap.
  assert (Hc : Forall byteZ (concat data)) by (apply Forall_concat; exact H).
  apply groupby_ok in Hc. revert Hc. generalize (groupby (concat data)) as g. intros g Hg.
  assert (Hst : Forall chunk_ok (fst (fold_left encode_run g ([], []))) /\
                Forall byteZ (snd (fold_left encode_run g ([], [])))).
  { assert (H0 : Forall chunk_ok (fst (@nil chunk, @nil Z)) /\ Forall byteZ (snd (@nil chunk, @nil Z)))
      by (split; constructor).
    revert H0. generalize (@nil chunk, @nil Z) as st.
    induction Hg as [|r g [Hr1 Hr2] Hg IH]; intros st [S1 S2]; [auto|]. cbn [fold_left].
    apply IH. apply run_ok; auto. }
  destruct (fold_left encode_run g ([], [])) as [enc buf]. apply Forall_app.
  split; [tauto|apply flush_ok; tauto].
Qed.

(** the number of bytes of some chunks *)
Definition chunks_size (cs : list chunk) : nat := length (concat (map (fun c => fst c :: snd c) cs)).
Lemma chunks_size_cons : forall c cs, chunks_size (c :: cs) = (1 + length (snd c) + chunks_size cs)%nat.
Proof. intros. unfold chunks_size. cbn [map concat]. rewrite app_length. cbn [length]. lia. Qed.
Lemma chunks_size_bound : forall cs, Forall chunk_ok cs ->
  (chunks_size cs <= 2 * length (decode_bitmap cs))%nat.
Proof.
  induction 1 as [|c cs Hc _ IH]; [cbn; lia|]. rewrite chunks_size_cons.
  unfold decode_bitmap in *. cbn [map concat]. rewrite app_length.
  enough (1 + length (snd c) <= 2 * length (decode_chunk c))%nat by lia.
  destruct c as [v l]. destruct Hc as [_ H]. unfold decode_chunk. cbn [fst snd] in *.
  destruct (Z.leb_spec 0 v); [lia|]. destruct H as [H|[H L]]; [lia|].
  destruct l as [|x [|]]; try discriminate L. rewrite list_times_repeat, repeat_length. cbn [length]. lia.
Qed.

Definition write_chunk (c : chunk) : wr := write_int8 (fst c) +++ wlist write_uint8 (snd c).
Lemma wrt_chunks : forall cs fuel, Forall chunk_ok cs -> (chunks_size cs <= fuel)%nat ->
  wrt (wlist write_chunk cs) (read_bitmap_from fuel (Z.of_nat (chunks_size cs))) cs.
Proof.
  intros cs fuel H. revert fuel. induction H as [|(v, l) cs [Hb Hc] H IH]; intros fuel Hf.
  - cbn [wlist]. unfold chunks_size. cbn. destruct fuel; apply wrt_ret.
  - rewrite chunks_size_cons in Hf. cbn [fst snd] in *. rewrite chunks_size_cons. cbn [snd wlist].
    destruct fuel as [|f]; [lia|]. cbn [read_bitmap_from].
    destruct (Z.ltb_spec 0 (Z.of_nat (1 + length l + chunks_size cs))) as [_|]; [|lia].
    cbv zeta. change (write_chunk (v, l)) with (write_int8 v +++ wlist write_uint8 l). rewrite !wseq_assoc.
    eapply wrt_bind; [apply wrt_int8; unfold i8; lia|].
    destruct Hc as [[Hv Hl]|[Hv Hl]].
    + destruct (Z.leb_spec 0 v); [|lia].
      match goal with |- context [if ?c then _ else _] => replace c with false by lia end.
      eapply wrt_bind.
      { apply wrt_range_id with (l := l); [lia|]. intros x Hx. apply wrt_uint8. rewrite Forall_forall in Hb. auto. }
      replace (Z.of_nat (1 + length l + chunks_size cs) - 1 - (v + 1)) with (Z.of_nat (chunks_size cs)) by lia.
      rewrite <- (wseq_nil_r (wlist write_chunk cs)).
      eapply wrt_bind; [apply IH; lia|]. apply wrt_ret.
    + destruct (Z.leb_spec 0 v); [lia|].
      match goal with |- context [if ?c then _ else _] => replace c with false by lia end.
      destruct l as [|x [|]]; try discriminate Hl. cbn [wlist]. rewrite !wseq_assoc.
      eapply wrt_bind; [apply wrt_uint8; inversion Hb; auto|].
      cbn [length].
      replace (Z.of_nat (1 + 1 + chunks_size cs) - 1 - 1) with (Z.of_nat (chunks_size cs)) by lia.
      rewrite wseq_nil_l. rewrite <- (wseq_nil_r (wlist write_chunk cs)).
      eapply wrt_bind; [apply IH; cbn [length] in Hf; lia|]. apply wrt_ret.
Qed.

(** the format, read off the chunks *)
Lemma rle_chunks : forall cs, Forall chunk_ok cs ->
  exists bs, wlist write_chunk cs = Ok bs /\ length bs = chunks_size cs /\ rle bs (decode_bitmap cs).
Proof.
  induction 1 as [|(v, l) cs [Hb Hc] H IH].
  - exists []. repeat split. constructor.
  - destruct IH as (bs & E & L & R). cbn [wlist].
    change (write_chunk (v, l)) with (write_int8 v +++ wlist write_uint8 l).
    cbn [fst snd] in *. rewrite (wlist_uint8 l Hb), E, chunks_size_cons. cbn [snd].
    unfold decode_bitmap. cbn [map concat]. fold (decode_bitmap cs). unfold decode_chunk.
    unfold write_int8, to_bytes_s. cbn [fst snd].
    replace (srange 1 v) with true by (unfold srange, in_range; cbn; lia).
    destruct Hc as [[Hv Hl]|[Hv Hl]].
    + destruct (Z.leb_spec 0 v); [|lia]. exists (v :: l ++ bs). split.
      { cbn. rewrite Z.mod_small by lia. reflexivity. }
      split; [cbn [length]; rewrite app_length; lia|]. constructor; auto.
    + destruct (Z.leb_spec 0 v); [lia|]. destruct l as [|x [|]]; try discriminate Hl.
      exists (256 - - v :: x :: bs). split.
      { cbn. replace (v mod 256) with (256 - - v) by lia. reflexivity. }
      split; [cbn [length]; lia|]. rewrite list_times_repeat. apply rle_repeat; [reflexivity|lia|exact R].
Qed.

(** ** Bitmap data *)
Lemma concat_map_map : forall A B (f : A -> B) (l : list (list A)), concat (map (map f) l) = map f (concat l).
Proof. intros. symmetry. apply concat_map. Qed.
Lemma pixels_size : forall rows, pixels rows ->
  Forall chunk_ok (encode_bitmap rows) /\ i32 (Z.of_nat (chunks_size (encode_bitmap rows))).
Proof.
  intros rows [H1 H2]. assert (H : Forall chunk_ok (encode_bitmap rows)).
  { apply encode_ok. eapply Forall_impl; [|exact H1]. intros r Hr. exact Hr. }
  split; [exact H|]. apply chunks_size_bound in H. rewrite decode_encode in H. unfold i32. lia.
Qed.
Lemma compile_bitmap_rle : forall rows p, pixels rows -> exists count data,
  compile_bitmap_data false (Bitmap rows p) = Ok (count ++ data) /\
  write_value (Z.of_nat (length data)) = Ok count /\ rle data (concat rows) /\
  i32 (Z.of_nat (length data)).
Proof.
  intros rows p H. destruct (pixels_size rows H) as [Hc Hs].
  destruct (rle_chunks _ Hc) as (bs & E & L & R). rewrite decode_encode in R.
  destruct (wrt_value _ Hs) as (cb & Ec & _ & _).
  exists cb, bs. rewrite L. split; [|split; [exact Ec|split; [exact R|exact Hs]]].
  unfold compile_bitmap_data. cbn [bm_data]. fold (chunks_size (encode_bitmap rows)).
  change (fun c : chunk => write_int8 (fst c) +++ wlist write_uint8 (snd c)) with write_chunk.
  rewrite Ec, E. reflexivity.
Qed.

Definition rows_fit (w : Z) (rows : list bytes) : Prop :=
  (0 < bytes_per_row w /\ in_rows (bytes_per_row w) rows) \/ (bytes_per_row w < 0 /\ rows = []).
Lemma split_rows_fit : forall w rows, rows_fit w rows -> split_rows (bytes_per_row w) (concat rows) = Ok rows.
Proof.
  intros w rows [[H1 H2]|[H1 ->]]; unfold split_rows.
  - destruct (Z.eqb_spec (bytes_per_row w) 0); [lia|]. destruct (Z.ltb_spec (bytes_per_row w) 0); [lia|].
    rewrite rows_of_rows; auto; [lia|]. rewrite Z2Nat.id by lia. exact H2.
  - destruct (Z.eqb_spec (bytes_per_row w) 0); [lia|]. destruct (Z.ltb_spec (bytes_per_row w) 0); [reflexivity|lia].
Qed.
Lemma split_rows_ok : forall w data rows, split_rows (bytes_per_row w) data = Ok rows ->
  rows_fit w rows /\ (concat rows = data \/ rows = []).
Proof.
  intros w data rows. unfold split_rows, rows_fit. set (n := bytes_per_row w).
  destruct (Z.eqb_spec n 0); [discriminate|]. destruct (Z.ltb_spec n 0); intros E; apply Ok_inj in E; subst rows.
  - auto.
  - destruct (rows_shape (Z.to_nat n) data (length data)) as [_ S]; [lia|lia|].
    rewrite Z2Nat.id in S by lia. split; [left; split; [lia|exact S]|]. left. apply rows_concat; lia.
Qed.

Definition wf_bitmap (w : Z) (d : bitmap_data) : Prop :=
  pixels (bm_data d) /\ rows_fit w (bm_data d) /\ bm_preview d = Some (preview (bm_data d) w).

Lemma wrt_bitmap_data : forall B (rl : rd Z) w d (k : bitmap_data -> rd B) b wk,
  (forall v, 0 <= v < 2 ^ 31 -> wrt (write_value v) rl v) ->
  wf_bitmap w d -> wrt wk (k d) b ->
  wrt (compile_bitmap_data false d +++ wk)
      (datalen <- rl ;; x <- parse_bitmap_data false w datalen ;; k x) b.
Proof.
  intros B rl w [rows p] k b wk Hrl (Hp & Hr & Hv) Hk. cbn [bm_data bm_preview] in *. subst p.
  destruct (pixels_size rows Hp) as [Hc Hs]. unfold compile_bitmap_data. cbn [bm_data].
  fold (chunks_size (encode_bitmap rows)). change (fun c : chunk => write_int8 (fst c) +++ wlist write_uint8 (snd c)) with write_chunk.
  rewrite !wseq_assoc. eapply wrt_bind; [apply Hrl; unfold i32 in Hs; lia|].
  unfold parse_bitmap_data.
  eapply wrt_ext; [intros s; symmetry; apply rbind_assoc|].
  eapply wrt_bind; [unfold read_bitmap; apply wrt_chunks; [exact Hc|lia]|].
  cbv zeta. cbn [rbind]. rewrite decode_encode.
  eapply wrt_ext; [|exact Hk]. intros s. unfold rbind, rlift, ret. rewrite (split_rows_fit _ _ Hr). reflexivity.
Qed.

(** ** Reading run-length data: totality, and how much is read *)
Lemma read_uint8_le : forall s, exists x p s', read_uint8 s = ROk x s' /\ s = p ++ s' /\
  (length p <= 1)%nat.
Proof.
  intros [|b t].
  - exists 0, [], []. repeat split. cbn; lia.
  - exists (le_dec [b]), [b], t. repeat split. cbn; lia.
Qed.
Lemma read_int8_le : forall s, exists x p s', read_int8 s = ROk x s' /\ s = p ++ s' /\
  (length p <= 1)%nat.
Proof.
  intros [|b t].
  - exists (le_dec_s []), [], []. repeat split. cbn; lia.
  - exists (le_dec_s [b]), [b], t. repeat split. cbn; lia.
Qed.
Lemma rrepeat_uint8_le : forall n s, exists l p s', rrepeat n read_uint8 s = ROk l s' /\ s = p ++ s' /\
  (length p <= n)%nat.
Proof.
  induction n as [|n IH]; intros s.
  - exists [], [], s. repeat split. cbn; lia.
  - cbn [rrepeat]. unfold rbind. destruct (read_uint8_le s) as (x & p & s1 & E & -> & L).
    rewrite E. destruct (IH s1) as (l & q & s2 & E2 & -> & L2). rewrite E2.
    exists (x :: l), (p ++ q), s2. split; [reflexivity|]. rewrite app_assoc. split; [reflexivity|].
    rewrite app_length. lia.
Qed.
Lemma read_bitmap_le : forall fuel rem s, rem <= Z.of_nat fuel -> exists cs p s',
  read_bitmap_from fuel rem s = ROk cs s' /\ s = p ++ s' /\ Z.of_nat (length p) <= Z.max 0 rem.
Proof.
  induction fuel as [|f IH]; intros rem s Hr; cbn [read_bitmap_from];
    (destruct (Z.ltb_spec 0 rem); [|exists [], [], s; repeat split; cbn; lia]).
  - lia.
  - cbv zeta. unfold rbind at 1. destruct (read_int8_le s) as (v & p & s1 & E & -> & L). rewrite E.
    destruct (Z.leb_spec 0 v).
    + destruct (Z.ltb_spec (rem - 1) (v + 1)); [exists [], p, s1; repeat split; lia|].
      unfold rbind, rrange. destruct (rrepeat_uint8_le (Z.to_nat (v + 1)) s1) as (l & q & s2 & E2 & -> & L2).
      rewrite E2. destruct (IH (rem - 1 - (v + 1)) s2) as (cs & t & s3 & E3 & -> & L3); [lia|].
      rewrite E3. exists ((v, l) :: cs), (p ++ q ++ t), s3. split; [reflexivity|].
      rewrite !app_assoc. split; [reflexivity|]. rewrite !app_length. lia.
    + destruct (Z.ltb_spec (rem - 1) 1); [exists [], p, s1; repeat split; lia|].
      unfold rbind. destruct (read_uint8_le s1) as (x & q & s2 & E2 & -> & L2).
      rewrite E2. destruct (IH (rem - 1 - 1) s2) as (cs & t & s3 & E3 & -> & L3); [lia|].
      rewrite E3. exists ((v, [x]) :: cs), (p ++ q ++ t), s3. split; [reflexivity|].
      rewrite !app_assoc. split; [reflexivity|]. rewrite !app_length. lia.
Qed.
Lemma tot_read_bitmap : forall n, tot (read_bitmap n).
Proof.
  intros n s Hs. unfold read_bitmap. destruct (read_bitmap_le (Z.to_nat n) n s) as (cs & p & s' & E & -> & _); [lia|].
  rewrite E. cbn. eauto.
Qed.
Lemma split_rows_div : forall n d, split_rows n d <> Err Diverge.
Proof. intros. unfold split_rows. destruct (n =? 0); [discriminate|]. destruct (n <? 0); discriminate. Qed.
Lemma tot_bitmap_data : forall win w n, tot (parse_bitmap_data win w n).
Proof.
  intros. unfold parse_bitmap_data. apply tot_bind; [apply tot_read_bitmap|]. intros.
  apply tot_bind; [apply tot_lift, split_rows_div|]. intros. apply tot_ret.
Qed.
Lemma tot_background : forall win, tot (parse_background win).
Proof. intros. unfold parse_background. tot_auto. apply tot_bitmap_data. Qed.
Lemma tot_glyph_bitmap : forall win, tot (parse_glyph_bitmap win).
Proof. intros. unfold parse_glyph_bitmap. tot_auto. apply tot_bitmap_data. Qed.
Lemma tot_glyph_bitmaps : forall win, tot (parse_glyph_bitmaps win).
Proof. intros. unfold parse_glyph_bitmaps. tot_auto. apply tot_glyph_bitmap. Qed.

(** what is read is made of bytes *)
Lemma rps_read_bitmap : forall fuel rem,
  rps (read_bitmap_from fuel rem) (Forall (fun c => Forall byteZ (snd c))).
Proof.
  induction fuel as [|f IH]; intros rem; cbn [read_bitmap_from];
    (destruct (0 <? rem); [|apply rps_ret; constructor]).
  - apply rps_raise.
  - cbv zeta. eapply rps_bind; [apply rps_int8|]. intros v _. destruct (0 <=? v).
    + destruct (_ <? _); [apply rps_ret; constructor|].
      eapply rps_bind; [apply rps_range, rps_uint8|]. intros l [_ Hl].
      eapply rps_bind; [apply IH|]. intros cs Hcs. apply rps_ret. constructor; [exact Hl|exact Hcs].
    + destruct (_ <? _); [apply rps_ret; constructor|].
      eapply rps_bind; [apply rps_uint8|]. intros x Hx.
      eapply rps_bind; [apply IH|]. intros cs Hcs. apply rps_ret. constructor; auto. cbn. auto.
Qed.
Lemma list_times_in : forall A n (l : list A) x, In x (list_times n l) -> In x l.
Proof.
  induction n as [|n IH]; intros l x H; [destruct H|]. cbn in H. apply in_app_or in H.
  destruct H; auto.
Qed.
Lemma decode_bytes : forall cs, Forall (fun c : chunk => Forall byteZ (snd c)) cs ->
  Forall byteZ (decode_bitmap cs).
Proof.
  intros cs H. unfold decode_bitmap. apply Forall_concat. apply Forall_forall. intros l Hl.
  apply in_map_iff in Hl. destruct Hl as (c & <- & Hc). rewrite Forall_forall in H. specialize (H c Hc).
  unfold decode_chunk. destruct (0 <=? fst c); [exact H|].
  apply Forall_forall. intros x Hx. apply list_times_in in Hx. rewrite Forall_forall in H. auto.
Qed.
Definition bytes_bitmap (w : Z) (d : bitmap_data) : Prop :=
  Forall (Forall uint8) (bm_data d) /\ rows_fit w (bm_data d) /\
  bm_preview d = Some (preview (bm_data d) w).
Lemma forall_concat_inv : forall A (P : A -> Prop) l, Forall P (concat l) -> Forall (Forall P) l.
Proof.
  intros A P l H. apply Forall_forall. intros r Hr. apply Forall_forall. intros x Hx.
  rewrite Forall_forall in H. apply H. apply in_concat. eauto.
Qed.
Lemma rps_bitmap_data : forall win w n, rps (parse_bitmap_data win w n) (bytes_bitmap w).
Proof.
  intros win w n. unfold parse_bitmap_data. eapply rps_bind; [apply rps_read_bitmap|].
  intros cs Hcs. cbv zeta. apply decode_bytes in Hcs.
  set (data := if win then _ else _).
  assert (Hd : Forall byteZ data).
  { unfold data. destruct win; [|exact Hcs]. apply Forall_forall. intros x Hx.
    apply in_map_iff in Hx. destruct Hx as (b & <- & Hb). rewrite Forall_forall in Hcs. apply Hcs in Hb.
    unfold byteZ, Z.lnot in *. lia. }
  eapply rps_bind with (P := fun rows => Forall (Forall uint8) rows /\ rows_fit w rows).
  - apply rps_lift. intros rows E. apply split_rows_ok in E. destruct E as [F [E|E]].
    + split; [|exact F]. apply forall_concat_inv. rewrite E. exact Hd.
    + subst. split; [constructor|exact F].
  - intros rows [H1 H2]. apply rps_ret. unfold bytes_bitmap. cbn. auto.
Qed.

(** ** The two entries *)
Definition pair_of (P : Z -> Prop) (p : Z * Z) : Prop := P (fst p) /\ P (snd p).
Definition bg_fields (d : background) : Prop :=
  pair_of i32 (bg_origin d) /\ pair_of u32 (bg_size_units d) /\ pair_of u32 (bg_size_pixels d).
Lemma rps_background : forall win, rps (parse_background win)
  (fun d => bg_fields d /\ bytes_bitmap (fst (bg_size_pixels d)) (bg_bitmap d)).
Proof.
  intros win. unfold parse_background, bg_fields, pair_of. rps_seq.
  eapply rps_bind; [apply rps_bitmap_data|]. intros b Hb. apply rps_ret. cbn. tauto.
Qed.
Lemma wrt_background : forall d, bg_fields d -> wf_bitmap (fst (bg_size_pixels d)) (bg_bitmap d) ->
  wrt (compile_background false d) (parse_background false) d.
Proof.
  intros [[x y] [uw uh] [w h] b] ((H1 & H2) & (H3 & H4) & H5 & H6) Hb.
  unfold compile_background, parse_background. cbn [bg_origin bg_size_units bg_size_pixels bg_bitmap fst snd] in *.
  do 6 (eapply wrt_bind; [eauto with wrt|]).
  rewrite <- (wseq_nil_r (compile_bitmap_data false b)).
  apply wrt_bitmap_data; [intros v Hv; apply wrt_value_uvalue; lia|exact Hb|apply wrt_ret].
Qed.
Definition gb_fields (d : glyph_bitmap) : Prop :=
  u32 (gb_ppm d) /\ pair_of i32 (gb_origin d) /\ pair_of u32 (gb_adv d) /\ pair_of u32 (gb_size_pixels d).
Lemma wrt_glyph_bitmap : forall d, gb_fields d -> wf_bitmap (fst (gb_size_pixels d)) (gb_bitmap d) ->
  wrt (compile_glyph_bitmap false d) (parse_glyph_bitmap false) d.
Proof.
  intros [ppm [x y] [aw ah] [w h] b] (H0 & (H1 & H2) & (H3 & H4) & H5 & H6) Hb.
  unfold compile_glyph_bitmap, parse_glyph_bitmap.
  cbn [gb_ppm gb_origin gb_adv gb_size_pixels gb_bitmap fst snd] in *.
  do 7 (eapply wrt_bind; [eauto with wrt|]).
  rewrite <- (wseq_nil_r (compile_bitmap_data false b)).
  apply wrt_bitmap_data; [intros v Hv; apply wrt_value; unfold i32; lia|exact Hb|apply wrt_ret].
Qed.
Lemma rps_glyph_bitmap : forall win, rps (parse_glyph_bitmap win)
  (fun d => gb_fields d /\ bytes_bitmap (fst (gb_size_pixels d)) (gb_bitmap d)).
Proof.
  intros win. unfold parse_glyph_bitmap, gb_fields, pair_of. rps_seq.
  eapply rps_bind; [apply rps_bitmap_data|]. intros b Hb. apply rps_ret. cbn. tauto.
Qed.
Lemma rps_glyph_bitmaps : forall win, rps (parse_glyph_bitmaps win)
  (fun l => Forall (fun d => gb_fields d /\ bytes_bitmap (fst (gb_size_pixels d)) (gb_bitmap d)) l /\
            u32 (Z.of_nat (length l))).
Proof.
  intros win. unfold parse_glyph_bitmaps. eapply rps_bind; [apply rps_uvalue|]. intros n Hn.
  eapply rps_weaken; [apply rps_range, rps_glyph_bitmap|]. intros l [H2 H1]. split; [exact H1|].
  unfold u32 in *. lia.
Qed.
Lemma wrt_glyph_bitmaps : forall l, u32 (Z.of_nat (length l)) ->
  Forall (fun d => gb_fields d /\ wf_bitmap (fst (gb_size_pixels d)) (gb_bitmap d)) l ->
  wrt (compile_glyph_bitmaps false l) (parse_glyph_bitmaps false) l.
Proof.
  intros l Hn H. unfold compile_glyph_bitmaps, parse_glyph_bitmaps.
  eapply wrt_bind; [apply wrt_uvalue, Hn|]. apply wrt_range_id; [reflexivity|]. intros d Hd.
  rewrite Forall_forall in H. destruct (H d Hd). apply wrt_glyph_bitmap; auto.
Qed.

(** ** The Windows platform: the first pixel byte cannot be written *)
Lemma chunk_neg : forall cs bs, Forall (fun x => x < 0) (decode_bitmap cs) ->
  wlist write_chunk cs = Ok bs -> Forall (fun c => snd c <> []) cs -> cs = [].
Proof.
  intros [|(v, l) cs] bs H E Hne; [reflexivity|]. exfalso. inversion Hne as [|? ? Hl _]; subst.
  cbn [wlist] in E. apply wseq_ok in E. destruct E as (b1 & b2 & E1 & _ & _).
  change (write_int8 v +++ wlist write_uint8 l = Ok b1) in E1. apply wseq_ok in E1.
  destruct E1 as (b3 & b4 & E0 & E1 & _). cbn [snd] in Hl. destruct l as [|x l]; [tauto|].
  cbn [wlist] in E1. apply wseq_ok in E1. destruct E1 as (b5 & b6 & E1 & _ & _).
  unfold write_uint8, to_bytes_u, urange, in_range in E1.
  assert (Hx : x < 0).
  { unfold decode_bitmap in H. cbn [map concat] in H. apply Forall_app in H. destruct H as [H _].
    unfold decode_chunk in H. cbn [fst snd] in H. destruct (Z.leb_spec 0 v).
    - inversion H; auto.
    - replace (Z.to_nat (- v + 1)) with (S (Z.to_nat (- v))) in H by lia. cbn in H. inversion H; auto. }
  destruct (Z.leb_spec 0 x); [lia|]. discriminate.
Qed.
Lemma flush_ne : forall buf, Forall (fun c : chunk => snd c <> []) (flush_buffer buf).
Proof.
  intros buf. apply Forall_forall. intros c Hc. unfold flush_buffer in Hc. apply in_map_iff in Hc.
  destruct Hc as (r & <- & Hr).
  destruct (rows_shape max_chunk_len buf (length buf)) as [F _]; [unfold max_chunk_len; lia|lia|].
  rewrite Forall_forall in F. apply F in Hr. cbn. intros ->. cbn in Hr. lia.
Qed.
Lemma encode_ne : forall data, Forall (fun c : chunk => snd c <> []) (encode_bitmap data).
Proof.
  intros data. unfold encode_bitmap.
  assert (H : forall g st, Forall (fun c : chunk => snd c <> []) (fst st) ->
            Forall (fun c : chunk => snd c <> []) (fst (fold_left encode_run g st))).
  { induction g as [|(v, n) g IH]; intros (enc, buf) Hs; [exact Hs|]. cbn [fold_left]. apply IH.
    unfold encode_run. destruct (Nat.ltb 2 n); cbn [fst] in *; [|exact Hs].
    apply Forall_app. split; [exact Hs|]. apply Forall_app. split; [apply flush_ne|].
    apply Forall_app. split.
    - apply Forall_forall. intros c Hc. apply repeat_spec in Hc. subst. discriminate.
    - destruct (Nat.eqb _ 0); constructor; [discriminate|constructor]. }
  specialize (H (groupby (concat data)) ([], []) (Forall_nil _)).
  destruct (fold_left encode_run (groupby (concat data)) ([], [])) as [enc buf].
  apply Forall_app. split; [exact H|apply flush_ne].
Qed.
Lemma windows_fails : forall d, Forall (Forall uint8) (bm_data d) -> concat (bm_data d) <> [] ->
  exists e, compile_bitmap_data true d = Err e.
Proof.
  intros d Hb Hne. destruct (compile_bitmap_data true d) as [bs|e] eqn:E; [|eauto]. exfalso.
  unfold compile_bitmap_data in E. cbv zeta in E. apply wseq_ok in E.
  destruct E as (b1 & b2 & _ & E & _). fold write_chunk in E.
  change (fun c : chunk => write_int8 (fst c) +++ wlist write_uint8 (snd c)) with write_chunk in E.
  set (rows := map (map (fun b => Z.lnot b - 0x100)) (bm_data d)) in *.
  assert (Hneg : Forall (fun x => x < 0) (decode_bitmap (encode_bitmap rows))).
  { rewrite decode_encode. unfold rows. rewrite concat_map_map. apply Forall_forall. intros x Hx.
    apply in_map_iff in Hx. destruct Hx as (b & <- & Hx).
    apply in_concat in Hx. destruct Hx as (r & Hr & Hx). rewrite Forall_forall in Hb.
    specialize (Hb r Hr). rewrite Forall_forall in Hb. specialize (Hb b Hx). unfold uint8, Z.lnot in *. lia. }
  pose proof (chunk_neg _ _ Hneg E (encode_ne rows)) as H0.
  pose proof (decode_encode rows) as D. rewrite H0 in D. cbn in D. symmetry in D.
  unfold rows in D. rewrite concat_map_map in D. apply map_eq_nil in D. auto.
Qed.
Lemma windows_empty : forall d, concat (bm_data d) = [] ->
  compile_bitmap_data true d = compile_bitmap_data false d.
Proof.
  intros d H. unfold compile_bitmap_data, encode_bitmap. rewrite concat_map_map, H. reflexivity.
Qed.
