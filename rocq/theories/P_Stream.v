(** Proofs about the stream layer (M_Stream.v). *)
From Coq Require Import ZifyBool ZifyNat.
From Verif Require Import Base M_Stream Lib.
Open Scope rd_scope.
Ltac Zify.zify_post_hook ::= Z.div_mod_to_equations.

Definition i32 (v : Z) : Prop := - 2 ^ 31 <= v < 2 ^ 31.
Definition u32 (v : Z) : Prop := -1131 <= v < 2 ^ 32.
Definition i8 (v : Z) : Prop := -128 <= v < 128.
Definition i16 (v : Z) : Prop := -32768 <= v < 32768.
Definition byteZ (v : Z) : Prop := 0 <= v < 256.
Definition u16 (v : Z) : Prop := 0 <= v < 65536.
Definition w32 (v : Z) : Prop := 0 <= v < 2 ^ 32.

(** ** fixed width *)
Lemma wrt_bytes_exact : forall A n (b : bytes) (k : bytes -> rd A) a,
  Z.of_nat (length b) = n -> bytes_ok b -> (forall s, k b s = ROk a s) ->
  wrt (Ok b) (rbind (read_bytes n) k) a.
Proof.
  intros A n b k a Hn Hb Hk. exists b. repeat split; auto.
  intros rest. unfold rbind, read_bytes.
  rewrite take_app_exact, drop_app_exact by auto. apply Hk.
Qed.

Ltac fixed_width :=
  match goal with
  | |- wrt (if ?c then Ok (le_enc ?n ?v) else _) (rbind (read_bytes _) _) _ =>
      replace c with true;
      [ apply wrt_bytes_exact;
        [ rewrite le_enc_length; reflexivity
        | apply le_enc_ok
        | intros; unfold ret; f_equal;
          first [apply le_dec_enc_u | apply le_dec_s_enc];
          change (8 * Z.of_nat n) with (8 * Z.of_nat n) in *; cbn; lia ]
      | symmetry; unfold urange, srange, in_range; cbn; lia ]
  end.

Lemma wrt_int8 : forall v, i8 v -> wrt (write_int8 v) read_int8 v.
Proof. unfold i8, write_int8, to_bytes_s, read_int8; intros. fixed_width. Qed.
Lemma wrt_int16 : forall v, i16 v -> wrt (write_int16 v) read_int16 v.
Proof. unfold i16, write_int16, to_bytes_s, read_int16; intros. fixed_width. Qed.
Lemma wrt_int32 : forall v, i32 v -> wrt (write_int32 v) read_int32 v.
Proof. unfold i32, write_int32, to_bytes_s, read_int32; intros. fixed_width. Qed.
Lemma wrt_uint8 : forall v, byteZ v -> wrt (write_uint8 v) read_uint8 v.
Proof. unfold byteZ, write_uint8, to_bytes_u, read_uint8; intros. fixed_width. Qed.
Lemma wrt_uint16 : forall v, u16 v -> wrt (write_uint16 v) read_uint16 v.
Proof. unfold u16, write_uint16, to_bytes_u, read_uint16; intros. fixed_width. Qed.
Lemma wrt_uint32 : forall v, w32 v -> wrt (write_uint32 v) read_uint32 v.
Proof. unfold w32, write_uint32, to_bytes_u, read_uint32; intros. fixed_width. Qed.

(** ** ranges of what is read *)
Lemma le_dec_take_range : forall n s, 0 <= n -> bytes_ok s ->
  0 <= le_dec (take n s) < 2 ^ (8 * n).
Proof.
  intros n s Hn Hs. pose proof (le_dec_range _ (bytes_ok_take n s Hs)) as H.
  pose proof (take_length n s Hn) as L. split; [lia|].
  eapply Z.lt_le_trans; [apply H|]. apply Z.pow_le_mono_r; lia.
Qed.

Lemma le_dec_s_take_range : forall n s, 0 < n -> bytes_ok s ->
  - 2 ^ (8 * n - 1) <= le_dec_s (take n s) < 2 ^ (8 * n - 1).
Proof.
  intros n s Hn Hs. pose proof (bytes_ok_take n s Hs) as Hb.
  pose proof (take_length n s ltac:(lia)) as L.
  assert (0 < 2 ^ (8 * n - 1)) by (apply Z.pow_pos_nonneg; lia).
  destruct (take n s) as [|x t] eqn:E.
  - change (le_dec_s []) with 0. lia.
  - pose proof (le_dec_s_range (x :: t) Hb ltac:(cbn; lia)) as H1.
    assert (2 ^ (8 * Z.of_nat (length (x :: t)) - 1) <= 2 ^ (8 * n - 1))
      by (apply Z.pow_le_mono_r; lia).
    lia.
Qed.

Lemma be_dec_take_range : forall n s, 0 <= n -> bytes_ok s ->
  0 <= be_dec (take n s) < 2 ^ (8 * n).
Proof.
  intros n s Hn Hs. unfold be_dec.
  pose proof (le_dec_range _ (bytes_ok_rev _ (bytes_ok_take n s Hs))) as H.
  rewrite rev_length in H.
  pose proof (take_length n s Hn) as L. split; [lia|].
  eapply Z.lt_le_trans; [apply H|]. apply Z.pow_le_mono_r; lia.
Qed.

Lemma be_dec_s_take_range : forall n s, 0 < n -> bytes_ok s ->
  - 2 ^ (8 * n - 1) <= be_dec_s (take n s) < 2 ^ (8 * n - 1).
Proof.
  intros n s Hn Hs. pose proof (bytes_ok_take n s Hs) as Hb.
  pose proof (take_length n s ltac:(lia)) as L.
  assert (0 < 2 ^ (8 * n - 1)) by (apply Z.pow_pos_nonneg; lia).
  unfold be_dec_s, be_dec. rewrite <- rev_length.
  change (to_signed (length (rev (take n s))) (le_dec (rev (take n s))))
    with (le_dec_s (rev (take n s))).
  destruct (rev (take n s)) as [|x t] eqn:E.
  - change (le_dec_s []) with 0. lia.
  - assert (Hb' : bytes_ok (x :: t)) by (rewrite <- E; apply bytes_ok_rev; auto).
    pose proof (le_dec_s_range (x :: t) Hb' ltac:(cbn; lia)) as H1.
    assert (Z.of_nat (length (x :: t)) <= n) by (rewrite <- E, rev_length; lia).
    assert (2 ^ (8 * Z.of_nat (length (x :: t)) - 1) <= 2 ^ (8 * n - 1))
      by (apply Z.pow_le_mono_r; lia).
    lia.
Qed.

Lemma rpost_read_bytes_bind : forall A n (k : bytes -> rd A) P,
  (forall s, bytes_ok s -> rpost (k (take n s)) P) -> rpost (rbind (read_bytes n) k) P.
Proof.
  intros A n k P H s a s' Hs E. unfold rbind, read_bytes in E.
  eapply H; [exact Hs| |exact E]. apply bytes_ok_drop; auto.
Qed.

Lemma rpost_uint8 : rpost read_uint8 byteZ.
Proof.
  apply rpost_read_bytes_bind; intros s Hs. apply rpost_ret.
  pose proof (le_dec_take_range 1 s ltac:(lia) Hs). unfold byteZ. cbn in *; lia.
Qed.
Lemma rpost_uint16 : rpost read_uint16 u16.
Proof.
  apply rpost_read_bytes_bind; intros s Hs. apply rpost_ret.
  pose proof (le_dec_take_range 2 s ltac:(lia) Hs). unfold u16. cbn in *; lia.
Qed.
Lemma rpost_uint32 : rpost read_uint32 w32.
Proof.
  apply rpost_read_bytes_bind; intros s Hs. apply rpost_ret.
  pose proof (le_dec_take_range 4 s ltac:(lia) Hs). unfold w32. cbn in *; lia.
Qed.
Lemma rpost_int8 : rpost read_int8 i8.
Proof.
  apply rpost_read_bytes_bind; intros s Hs. apply rpost_ret.
  pose proof (le_dec_s_take_range 1 s ltac:(lia) Hs). unfold i8. cbn in *; lia.
Qed.
Lemma rpost_int16 : rpost read_int16 i16.
Proof.
  apply rpost_read_bytes_bind; intros s Hs. apply rpost_ret.
  pose proof (le_dec_s_take_range 2 s ltac:(lia) Hs). unfold i16. cbn in *; lia.
Qed.
Lemma rpost_int32 : rpost read_int32 i32.
Proof.
  apply rpost_read_bytes_bind; intros s Hs. apply rpost_ret.
  pose proof (le_dec_s_take_range 4 s ltac:(lia) Hs). unfold i32. cbn in *; lia.
Qed.

(** ** encoded values *)
Lemma be_enc_1 : forall v, be_enc 1 v = [v mod 256].
Proof. reflexivity. Qed.
Lemma be_enc_2 : forall v, be_enc 2 v = [v / 256 mod 256; v mod 256].
Proof. reflexivity. Qed.

Definition vrange (signed : bool) (v : Z) : Prop := if signed then i32 v else u32 v.

Lemma byte_cons : forall x t, take 1 (x :: t) = [x] /\ drop 1 (x :: t) = t.
Proof. intros; split; reflexivity. Qed.

(** what [read_value] does on a stream that starts with the byte [x] *)
Definition value_body (signed : bool) (x : Z) : rd Z :=
  if x =? 0 then rraise EOFError
  else if x <? 0x20 then rraise ValueError
  else if x <? 0xF7 then ret (x - 0x8B)
  else if x <=? 0xFA then b2 <- read_bytes 1 ;; ret (0x100 * x - 0xF694 + le_dec b2)
  else if x <=? 0xFE then b2 <- read_bytes 1 ;; ret (- 0x100 * x + 0xFA94 - le_dec b2)
  else if x =? 0xFF then b4 <- read_bytes 4 ;; ret (if signed then be_dec_s b4 else be_dec b4)
  else rraise ValueError.

Lemma read_value_cons : forall (sg : bool) x t, read_value_gen sg (x :: t) = value_body sg x t.
Proof.
  intros. unfold read_value_gen, rbind at 1. unfold read_bytes at 1.
  destruct (byte_cons x t) as [-> ->]. cbn [le_dec].
  replace (x + 256 * 0) with x by lia. reflexivity.
Qed.
Lemma read_value_nil : forall sg, read_value_gen sg [] = RErr EOFError [].
Proof. reflexivity. Qed.

Ltac decide_if c b := replace c with b by (symmetry; lia).

Lemma vb_one : forall (sg : bool) x t, 0x20 <= x < 0xF7 -> value_body sg x t = ROk (x - 0x8B) t.
Proof.
  intros. unfold value_body. decide_if (x =? 0) false. decide_if (x <? 32) false.
  decide_if (x <? 247) true. reflexivity.
Qed.
Lemma vb_pos : forall (sg : bool) x y t, 0xF7 <= x <= 0xFA ->
  value_body sg x (y :: t) = ROk (0x100 * x - 0xF694 + y) t.
Proof.
  intros. unfold value_body. decide_if (x =? 0) false. decide_if (x <? 32) false.
  decide_if (x <? 247) false. decide_if (x <=? 250) true.
  unfold rbind, read_bytes. destruct (byte_cons y t) as [-> ->]. unfold ret. f_equal.
  cbn [le_dec]. lia.
Qed.
Lemma vb_neg : forall (sg : bool) x y t, 0xFB <= x <= 0xFE ->
  value_body sg x (y :: t) = ROk (- 0x100 * x + 0xFA94 - y) t.
Proof.
  intros. unfold value_body. decide_if (x =? 0) false. decide_if (x <? 32) false.
  decide_if (x <? 247) false. decide_if (x <=? 250) false. decide_if (x <=? 254) true.
  unfold rbind, read_bytes. destruct (byte_cons y t) as [-> ->]. unfold ret. f_equal.
  cbn [le_dec]. lia.
Qed.
Lemma vb_long : forall (sg : bool) (b t : bytes), length b = 4%nat ->
  value_body sg 0xFF (b ++ t) = ROk (if sg then be_dec_s b else be_dec b) t.
Proof.
  intros sg b t L. unfold value_body. cbn [Z.eqb Z.ltb Z.leb Z.compare Pos.compare Pos.compare_cont Pos.eqb].
  unfold rbind, read_bytes. rewrite take_app_exact, drop_app_exact by lia. reflexivity.
Qed.

Lemma wrt_value_long : forall (sg : bool) v,
  (if sg then i32 v else w32 v) -> wrt (write_value_long sg v) (read_value_gen sg) v.
Proof.
  intros sg v H. exists (0xFF :: be_enc 4 v). split; [|split].
  - unfold write_value_long. cbn [pack_be_u urange in_range].
    unfold pack_be_u at 1. replace (urange 1 255) with true by reflexivity.
    destruct sg; unfold pack_be_u, pack_be_s.
    + replace (srange 4 v) with true; [reflexivity|].
      symmetry. unfold srange, in_range, i32 in *. cbn. lia.
    + replace (urange 4 v) with true; [reflexivity|].
      symmetry. unfold urange, in_range, w32 in *. cbn. lia.
  - constructor; [unfold is_byte; lia|apply be_enc_ok].
  - intros rest. rewrite <- app_comm_cons, read_value_cons, vb_long by apply be_enc_length.
    destruct sg.
    + rewrite be_dec_s_enc; [reflexivity|lia|]. unfold i32 in H. cbn. lia.
    + rewrite be_dec_enc_u; [reflexivity|]. unfold w32 in H. cbn. lia.
Qed.

Lemma wrt_value_gen : forall sg v, vrange sg v ->
  wrt (write_value_gen sg v) (read_value_gen sg) v.
Proof.
  intros sg v H. unfold write_value_gen.
  destruct ((-107 <=? v) && (v <=? 107)) eqn:E1.
  { exists [v + 0x8B]. unfold pack_be_u. rewrite be_enc_1.
    replace (urange 1 (v + 139)) with true by (symmetry; unfold urange, in_range; cbn; lia).
    rewrite Z.mod_small by lia. repeat split.
    - repeat constructor; lia.
    - intros rest. cbn [app]. rewrite read_value_cons, vb_one by lia. f_equal. lia. }
  destruct ((107 <? v) && (v <=? 1131)) eqn:E2.
  { exists (be_enc 2 (v + 0xF694)). unfold pack_be_u.
    replace (urange 2 (v + 0xF694)) with true by (symmetry; unfold urange, in_range; cbn; lia).
    repeat split; [apply be_enc_ok|].
    intros rest. rewrite be_enc_2. cbn [app].
    rewrite read_value_cons, vb_pos by lia. f_equal. lia. }
  destruct ((-1131 <=? v) && (v <? -107)) eqn:E3.
  { exists (be_enc 2 (- v + 0xFA94)). unfold pack_be_u.
    replace (urange 2 (- v + 0xFA94)) with true by (symmetry; unfold urange, in_range; cbn; lia).
    repeat split; [apply be_enc_ok|].
    intros rest. rewrite be_enc_2. cbn [app].
    rewrite read_value_cons, vb_neg by lia. f_equal. lia. }
  apply wrt_value_long. destruct sg; unfold vrange, i32, u32, w32 in *; lia.
Qed.

Lemma wrt_value : forall v, i32 v -> wrt (write_value v) read_value v.
Proof. intros. apply (wrt_value_gen true). auto. Qed.
Lemma wrt_uvalue : forall v, u32 v -> wrt (write_uvalue v) read_uvalue v.
Proof. intros. apply (wrt_value_gen false). auto. Qed.

(** an unsigned writer meets a signed reader *)
Lemma wrt_uvalue_value : forall v, -1131 <= v < 2 ^ 31 -> wrt (write_uvalue v) read_value v.
Proof.
  intros v H. unfold write_uvalue, write_value_gen.
  destruct ((-107 <=? v) && (v <=? 107)) eqn:E1;
    [pose proof (wrt_value v) as W; unfold write_value, write_value_gen in W; rewrite E1 in W;
     apply W; unfold i32; lia|].
  destruct ((107 <? v) && (v <=? 1131)) eqn:E2;
    [pose proof (wrt_value v) as W; unfold write_value, write_value_gen in W; rewrite E1, E2 in W;
     apply W; unfold i32; lia|].
  destruct ((-1131 <=? v) && (v <? -107)) eqn:E3;
    [pose proof (wrt_value v) as W; unfold write_value, write_value_gen in W; rewrite E1, E2, E3 in W;
     apply W; unfold i32; lia|].
  assert (W : write_value_long false v = write_value_long true v).
  { unfold write_value_long, pack_be_s, pack_be_u.
    replace (urange 4 v) with true by (symmetry; unfold urange, in_range; cbn; lia).
    replace (srange 4 v) with true by (symmetry; unfold srange, in_range; cbn; lia).
    reflexivity. }
  rewrite W. apply (wrt_value_long true). unfold i32. lia.
Qed.

(** a signed writer meets an unsigned reader *)
Lemma wrt_value_uvalue : forall v, -1131 <= v < 2 ^ 31 -> wrt (write_value v) read_uvalue v.
Proof.
  intros v H.
  assert (W : write_value v = write_uvalue v).
  { unfold write_value, write_uvalue, write_value_gen.
    destruct ((-107 <=? v) && (v <=? 107)) eqn:E1; [reflexivity|].
    destruct ((107 <? v) && (v <=? 1131)) eqn:E2; [reflexivity|].
    destruct ((-1131 <=? v) && (v <? -107)) eqn:E3; [reflexivity|].
    unfold write_value_long, pack_be_s, pack_be_u.
    replace (urange 4 v) with true by (symmetry; unfold urange, in_range; cbn; lia).
    replace (srange 4 v) with true by (symmetry; unfold srange, in_range; cbn; lia).
    reflexivity. }
  rewrite W. apply wrt_uvalue. unfold u32. lia.
Qed.

Lemma write_value_gen_err : forall sg v,
  ~ vrange sg v -> write_value_gen sg v = Err StructError.
Proof.
  intros sg v H. unfold write_value_gen.
  destruct ((-107 <=? v) && (v <=? 107)) eqn:E1;
    [exfalso; apply H; destruct sg; unfold vrange, i32, u32; lia|].
  destruct ((107 <? v) && (v <=? 1131)) eqn:E2;
    [exfalso; apply H; destruct sg; unfold vrange, i32, u32; lia|].
  destruct ((-1131 <=? v) && (v <? -107)) eqn:E3;
    [exfalso; apply H; destruct sg; unfold vrange, i32, u32; lia|].
  unfold write_value_long. destruct sg; unfold pack_be_s, pack_be_u at 1.
  - replace (urange 1 255) with true by reflexivity.
    replace (srange 4 v) with false; [reflexivity|].
    symmetry. unfold vrange, i32 in H. unfold srange, in_range. cbn. lia.
  - replace (urange 1 255) with true by reflexivity. unfold pack_be_u.
    replace (urange 4 v) with false; [reflexivity|].
    symmetry. unfold vrange, u32 in H. unfold urange, in_range. cbn. lia.
Qed.

Lemma write_value_gen_ok : forall sg v bs,
  write_value_gen sg v = Ok bs -> vrange sg v.
Proof.
  intros sg v bs H.
  assert (D : vrange sg v \/ ~ vrange sg v)
    by (destruct sg; unfold vrange, i32, u32; lia).
  destruct D as [D|D]; [auto|]. rewrite write_value_gen_err in H by auto. discriminate.
Qed.

Lemma rpost_value_gen : forall sg,
  rpost (read_value_gen sg) (fun v => if sg then i32 v else u32 v).
Proof.
  intros sg s v s' Hs E. destruct s as [|x t].
  { rewrite read_value_nil in E. discriminate. }
  inversion Hs as [|x' t' Hx Ht]; subst. unfold is_byte in Hx.
  rewrite read_value_cons in E. unfold value_body in E.
  destruct (x =? 0) eqn:E0; [discriminate|].
  destruct (x <? 32) eqn:E1; [discriminate|].
  destruct (x <? 247) eqn:E2.
  { inv_rok E. split; [|auto]. destruct sg; unfold i32, u32; lia. }
  destruct (x <=? 250) eqn:E3.
  { unfold rbind, read_bytes, ret in E. inv_rok E.
    pose proof (le_dec_take_range 1 t ltac:(lia) Ht). split; [|apply bytes_ok_drop; auto].
    change (2 ^ (8 * 1)) with 256 in *. destruct sg; unfold i32, u32; lia. }
  destruct (x <=? 254) eqn:E4.
  { unfold rbind, read_bytes, ret in E. inv_rok E.
    pose proof (le_dec_take_range 1 t ltac:(lia) Ht). split; [|apply bytes_ok_drop; auto].
    change (2 ^ (8 * 1)) with 256 in *. destruct sg; unfold i32, u32; lia. }
  destruct (x =? 255) eqn:E5; [|discriminate].
  unfold rbind, read_bytes, ret in E. inv_rok E.
  split; [|apply bytes_ok_drop; auto].
  destruct sg.
  - pose proof (be_dec_s_take_range 4 t ltac:(lia) Ht). unfold i32. cbn in *. lia.
  - pose proof (be_dec_take_range 4 t ltac:(lia) Ht). unfold u32. cbn in *. lia.
Qed.

Lemma rpost_value : rpost read_value i32.
Proof. apply (rpost_value_gen true). Qed.
Lemma rpost_uvalue : rpost read_uvalue u32.
Proof. apply (rpost_value_gen false). Qed.
