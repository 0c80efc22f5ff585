(** C01 - C05: encoded values and fixed width integers. *)
From Coq Require Import ZifyBool ZifyNat.
From Verif Require Import Base M_Stream S_Stream Lib P_Stream.
Open Scope rd_scope.
Ltac Zify.zify_post_hook ::= Z.div_mod_to_equations.

Lemma fits_vrange : forall sg v, fits_value sg v <-> vrange sg v.
Proof. intros [] v; unfold fits_value, vrange, i32, u32; lia. Qed.

(** *** C01 *)
Theorem C01_value_roundtrip : forall signed v rest,
  fits_value signed v ->
  exists bs, write_value_gen signed v = Ok bs
          /\ bytes_ok bs
          /\ read_value_gen signed (bs ++ rest) = ROk v rest.
Proof.
  intros sg v rest H. apply fits_vrange in H.
  destruct (wrt_value_gen sg v H) as (bs & E & O & R). eauto.
Qed.
Print Assumptions C01_value_roundtrip.

Theorem C01_value_long_roundtrip : forall signed v rest,
  fits_value signed v -> (signed = false -> 0 <= v) ->
  exists bs, write_value_long signed v = Ok bs
          /\ bytes_ok bs /\ length bs = 5%nat
          /\ read_value_gen signed (bs ++ rest) = ROk v rest.
Proof.
  intros sg v rest H H0.
  destruct (wrt_value_long sg v) as (bs & E & O & R).
  { destruct sg; unfold fits_value, i32, w32 in *; lia. }
  exists bs. repeat split; auto.
  unfold write_value_long in E. apply wseq_ok in E. destruct E as (x & y & E1 & E2 & ->).
  unfold pack_be_s, pack_be_u in *. inversion E1; subst.
  destruct sg; [destruct (srange 4 v)|destruct (urange 4 v)]; inversion E2; reflexivity.
Qed.
Print Assumptions C01_value_long_roundtrip.

Example C01_example :
  fits_value true (-2000) /\ write_value_gen true (-2000) = Ok [255; 255; 255; 248; 48]
  /\ read_value_gen true ([255; 255; 255; 248; 48] ++ [7]) = ROk (-2000) [7].
Proof. repeat split; unfold fits_value; lia. Qed.

(** *** C02 *)
Theorem C02_value_rejects : forall signed v,
  (fits_value signed v -> exists bs, write_value_gen signed v = Ok bs) /\
  (~ fits_value signed v -> write_value_gen signed v = Err StructError).
Proof.
  intros sg v. rewrite fits_vrange. split; intros H.
  - destruct (wrt_value_gen sg v H) as (bs & E & _). eauto.
  - apply write_value_gen_err. auto.
Qed.
Print Assumptions C02_value_rejects.

Theorem C02_value_prefix_free : forall signed v w a b,
  write_value_gen signed v = Ok a -> write_value_gen signed w = Ok b ->
  prefix a b -> a = b /\ v = w.
Proof.
  intros sg v w a b Ha Hb [c ->].
  destruct (wrt_value_gen sg v (write_value_gen_ok _ _ _ Ha)) as (a' & Ea & _ & Ra).
  destruct (wrt_value_gen sg w (write_value_gen_ok _ _ _ Hb)) as (b' & Eb & _ & Rb).
  rewrite Ha in Ea. rewrite Hb in Eb. inversion Ea; inversion Eb; subst a' b'.
  specialize (Ra c). specialize (Rb []). rewrite app_nil_r in Rb.
  rewrite Ra in Rb. inversion Rb; subst. rewrite app_nil_r. auto.
Qed.
Print Assumptions C02_value_prefix_free.

(** Among all byte strings that are a complete encoding of [v] - read back as [v]
    whatever follows - the one written is a shortest. *)
Theorem C02_value_shortest : forall signed v bs bs',
  write_value_gen signed v = Ok bs -> bytes_ok bs' ->
  (forall rest, read_value_gen signed (bs' ++ rest) = ROk v rest) ->
  (length bs <= length bs')%nat.
Proof.
  intros sg v bs bs' W Hb R. unfold write_value_gen in W.
  destruct bs' as [|x t].
  { specialize (R []). rewrite app_nil_r, read_value_nil in R. discriminate. }
  destruct ((-107 <=? v) && (v <=? 107)) eqn:E1.
  { unfold pack_be_u in W. destruct (urange 1 _); inversion W. cbn; lia. }
  assert (R4 := R [0; 0; 0; 0]). change ((x :: t) ++ [0; 0; 0; 0]) with (x :: (t ++ [0; 0; 0; 0])) in R4.
  rewrite read_value_cons in R4. unfold value_body in R4.
  destruct (x =? 0) eqn:X0; [discriminate|].
  destruct (x <? 32) eqn:X1; [discriminate|].
  destruct (x <? 247) eqn:X2.
  { unfold ret in R4. apply ROk_inj in R4. destruct R4 as [R4 _]. exfalso. lia. }
  assert (T : (1 <= length t)%nat).
  { destruct t as [|y t']; [|cbn; lia]. exfalso.
    destruct (x <=? 250); [inversion R4|]. destruct (x <=? 254); [inversion R4|].
    destruct (x =? 255); [inversion R4|discriminate]. }
  destruct ((107 <? v) && (v <=? 1131)) eqn:E2.
  { unfold pack_be_u in W. destruct (urange 2 _); inversion W. cbn; lia. }
  destruct ((-1131 <=? v) && (v <? -107)) eqn:E3.
  { unfold pack_be_u in W. destruct (urange 2 _); inversion W. cbn; lia. }
  assert (L : length bs = 5%nat).
  { unfold write_value_long in W. apply wseq_ok in W. destruct W as (a & b & A & B & ->).
    unfold pack_be_s, pack_be_u in *. inversion A; subst.
    destruct sg; [destruct (srange 4 v)|destruct (urange 4 v)]; inversion B; reflexivity. }
  rewrite L. clear W L. cbn [length].
  destruct t as [|y t']; [cbn in T; lia|]. cbn [app] in R4.
  inversion Hb as [|? ? _ Hb']; subst. inversion Hb' as [|? ? Hy _]; subst. unfold is_byte in Hy.
  unfold rbind, read_bytes, ret in R4.
  destruct (x <=? 250) eqn:X3;
    [apply ROk_inj in R4; destruct R4 as [R4 _];
     change (take 1 (y :: t' ++ [0; 0; 0; 0])) with [y] in R4; cbn [le_dec] in R4; exfalso; lia|].
  destruct (x <=? 254) eqn:X4;
    [apply ROk_inj in R4; destruct R4 as [R4 _];
     change (take 1 (y :: t' ++ [0; 0; 0; 0])) with [y] in R4; cbn [le_dec] in R4; exfalso; lia|].
  destruct (x =? 255) eqn:X5; [|discriminate].
  apply ROk_inj in R4. destruct R4 as [_ R4]. apply (f_equal (@length Z)) in R4.
  change (drop 4 (y :: t' ++ [0; 0; 0; 0])) with (skipn 3 (t' ++ [0; 0; 0; 0])) in R4.
  rewrite skipn_length, app_length in R4. cbn in R4. cbn. lia.
Qed.
Print Assumptions C02_value_shortest.

Example C02_example :
  write_value_gen true 1131 = Ok [250; 255] /\ write_value_gen true 1132 = Ok [255; 0; 0; 4; 108]
  /\ write_value_gen true 2147483648 = Err StructError
  /\ write_value_gen false (-1132) = Err StructError.
Proof. repeat split. Qed.

(** *** C03 *)
(** The exhaustive description of what reading an encoded value can do: by the next byte. *)
Theorem C03_value_total : forall signed s, bytes_ok s ->
  match s with
  | [] => read_value_gen signed s = RErr EOFError []
  | b :: t =>
      if b =? 0 then read_value_gen signed s = RErr EOFError t
      else if b <? 32 then read_value_gen signed s = RErr ValueError t
      else exists v used rest, read_value_gen signed s = ROk v rest
             /\ s = used ++ rest
             /\ -2147483648 <= v < 4294967296
             /\ let n := if b <? 247 then 1%nat else if b <? 255 then 2%nat else 5%nat in
                length used = n \/ ((1 <= length used < n)%nat /\ rest = [])
  end.
Proof.
  intros sg s Hs. destruct s as [|b t]; [apply read_value_nil|].
  inversion Hs as [|? ? Hb Ht]; subst. unfold is_byte in Hb.
  rewrite read_value_cons.
  destruct (b =? 0) eqn:B0; [unfold value_body; rewrite B0; reflexivity|].
  destruct (b <? 32) eqn:B1; [unfold value_body; rewrite B0, B1; reflexivity|].
  assert (K : forall n, 0 <= n -> forall m, m = Z.to_nat (n + 1) ->
    (length (b :: take n t) = m \/ ((1 <= length (b :: take n t) < m)%nat /\ drop n t = []))).
  { intros n Hn m ->. cbn [length]. unfold take, drop.
    replace (n <? 0) with false by lia. rewrite firstn_length.
    destruct (Nat.le_gt_cases (Z.to_nat n) (length t)).
    - left. lia.
    - right. split; [lia|]. apply skipn_all2. lia. }
  destruct (value_body sg b t) as [v rest|e rest] eqn:E.
  2:{ exfalso. unfold value_body in E. rewrite B0, B1 in E.
      destruct (b <? 247) eqn:B2; [discriminate|]. destruct (b <=? 250) eqn:B3; [discriminate|].
      destruct (b <=? 254) eqn:B4; [discriminate|].
      destruct (b =? 255) eqn:B5; [discriminate|]. lia. }
  assert (Hv : vrange sg v).
  { eapply (rpost_value_gen sg (b :: t)); [exact Hs|rewrite read_value_cons; exact E]. }
  assert (Rng : -2147483648 <= v < 4294967296)
    by (destruct sg; unfold vrange, i32, u32 in Hv; lia).
  unfold value_body in E. rewrite B0, B1 in E.
  destruct (b <? 247) eqn:B2.
  { unfold ret in E. apply ROk_inj in E. destruct E as [_ <-].
    exists v, [b], t. repeat split; auto; lia. }
  destruct (b <=? 250) eqn:B3.
  { unfold rbind, read_bytes, ret in E. apply ROk_inj in E. destruct E as [_ <-].
    exists v, (b :: take 1 t), (drop 1 t). split; [auto|]. split; [cbn [app]; rewrite take_drop; auto|].
    split; [lia|]. replace (b <? 255) with true by lia. apply K; lia. }
  destruct (b <=? 254) eqn:B4.
  { unfold rbind, read_bytes, ret in E. apply ROk_inj in E. destruct E as [_ <-].
    exists v, (b :: take 1 t), (drop 1 t). split; [auto|]. split; [cbn [app]; rewrite take_drop; auto|].
    split; [lia|]. replace (b <? 255) with true by lia. apply K; lia. }
  destruct (b =? 255) eqn:B5; [|discriminate].
  unfold rbind, read_bytes, ret in E. apply ROk_inj in E. destruct E as [_ <-].
  exists v, (b :: take 4 t), (drop 4 t). split; [auto|]. split; [cbn [app]; rewrite take_drop; auto|].
  split; [lia|]. replace (b <? 255) with false by lia. apply K; lia.
Qed.
Print Assumptions C03_value_total.

Example C03_example : bytes_ok [250; 255; 3] /\ read_value_gen true [250; 255; 3] = ROk 1131 [3].
Proof. split; [repeat constructor; unfold is_byte; lia|reflexivity]. Qed.

(** *** C04: refuted. A number whose encoding is cut short is read as another number. *)
Theorem C04_truncation_noticed_refuted : exists v bs cut,
  fits_value true v /\ write_value_gen true v = Ok bs
  /\ prefix cut bs /\ cut <> [] /\ cut <> bs
  /\ exists v', read_value_gen true cut = ROk v' [] /\ v' <> v.
Proof.
  exists 1131, [250; 255], [250].
  repeat split; try discriminate; unfold fits_value; try lia.
  - exists [255]. reflexivity.
  - exists 876. split; [reflexivity|lia].
Qed.
Print Assumptions C04_truncation_noticed_refuted.

(** Worse: no truncation that leaves at least one byte is ever noticed; only the
    complete loss of the number raises [EOFError]. *)
Theorem C04_truncation_never_noticed : forall signed v bs cut,
  write_value_gen signed v = Ok bs -> prefix cut bs ->
  (cut <> [] -> exists v', read_value_gen signed cut = ROk v' []) /\
  (cut = [] -> read_value_gen signed cut = RErr EOFError []).
Proof.
  intros sg v bs cut W [c ->].
  destruct (wrt_value_gen sg v (write_value_gen_ok _ _ _ W)) as (b' & E & O & R).
  rewrite W in E. inversion E; subst b'. clear E.
  split; [|intros ->; apply read_value_nil].
  intros Hc. destruct cut as [|x t]; [congruence|].
  apply bytes_ok_app in O. destruct O as [O _].
  pose proof (C03_value_total sg (x :: t) O) as T. cbn beta iota in T.
  specialize (R []). rewrite app_nil_r in R. cbn [app] in R. rewrite read_value_cons in R.
  destruct (x =? 0) eqn:X0; [unfold value_body in R; rewrite X0 in R; discriminate|].
  destruct (x <? 32) eqn:X1; [unfold value_body in R; rewrite X0, X1 in R; discriminate|].
  destruct T as (v' & used & rest & T & U & _ & L).
  exists v'. rewrite T. f_equal.
  destruct L as [L|[_ L]]; [|exact L].
  (* the whole encoding is at most that long *)
  assert (B : (length (x :: t) = length used + length rest)%nat) by (rewrite U, app_length; lia).
  assert (Z0 : (length (x :: t ++ c) <= if (x <? 247)%Z then 1 else if (x <? 255)%Z then 2 else 5)%nat).
  { assert (O2 : x < 256) by (inversion O; unfold is_byte in *; lia).
    unfold value_body in R. rewrite X0, X1 in R.
    assert (LL : forall n (l : bytes), 0 <= n -> drop n l = [] -> (length l <= Z.to_nat n)%nat).
    { intros n l Hn D. unfold drop in D. replace (n <? 0) with false in D by lia.
      apply (f_equal (@length Z)) in D. rewrite skipn_length in D. cbn in D. lia. }
    destruct (x <? 247) eqn:X2; [unfold ret in R; apply ROk_inj in R; destruct R as [_ ->]; cbn; lia|].
    destruct (x <=? 250) eqn:X3.
    { unfold rbind, read_bytes, ret in R. apply ROk_inj in R. destruct R as [_ R].
      apply LL in R; [|lia]. replace (x <? 255) with true by lia. cbn [length]. lia. }
    destruct (x <=? 254) eqn:X4.
    { unfold rbind, read_bytes, ret in R. apply ROk_inj in R. destruct R as [_ R].
      apply LL in R; [|lia]. replace (x <? 255) with true by lia. cbn [length]. lia. }
    destruct (x =? 255) eqn:X5; [|lia].
    unfold rbind, read_bytes, ret in R. apply ROk_inj in R. destruct R as [_ R].
    apply LL in R; [|lia]. replace (x <? 255) with false by lia. cbn [length]. lia. }
  cbn [length] in *. rewrite app_length in Z0. destruct rest; [auto|cbn [length] in B; lia].
Qed.
Print Assumptions C04_truncation_never_noticed.

(** *** C05 *)
Definition write_width (w : width) : Z -> wr :=
  match w with I8 => write_int8 | I16 => write_int16 | I32 => write_int32
             | U8 => write_uint8 | U16 => write_uint16 | U32 => write_uint32 end.
Definition read_width (w : width) : rd Z :=
  match w with I8 => read_int8 | I16 => read_int16 | I32 => read_int32
             | U8 => read_uint8 | U16 => read_uint16 | U32 => read_uint32 end.

Theorem C05_fixed_width : forall w v rest,
  (fits_width w v -> exists bs, write_width w v = Ok bs /\ length bs = width_bytes w
      /\ bytes_ok bs /\ read_width w (bs ++ rest) = ROk v rest) /\
  (~ fits_width w v -> write_width w v = Err OverflowError).
Proof.
  intros w v rest. split; intros H.
  - assert (W : wrt (write_width w v) (read_width w) v).
    { destruct w; cbn [write_width read_width fits_width] in *;
        [apply wrt_int8|apply wrt_int16|apply wrt_int32|apply wrt_uint8|apply wrt_uint16|apply wrt_uint32];
        unfold i8, i16, i32, byteZ, u16, w32; lia. }
    destruct W as (bs & E & O & R). exists bs. repeat split; auto.
    destruct w; cbn [write_width width_bytes] in *;
      unfold write_int8, write_int16, write_int32, write_uint8, write_uint16, write_uint32,
        to_bytes_s, to_bytes_u in E;
      match type of E with (if ?c then _ else _) = _ => destruct c end; inversion E;
      reflexivity.
  - destruct w; cbn [write_width fits_width] in *;
      unfold write_int8, write_int16, write_int32, write_uint8, write_uint16, write_uint32,
        to_bytes_s, to_bytes_u;
      match goal with |- (if ?c then _ else _) = _ => replace c with false; [reflexivity|] end;
      symmetry; unfold srange, urange, in_range; cbn; lia.
Qed.
Print Assumptions C05_fixed_width.

Example C05_example : fits_width I16 (-2) /\ write_width I16 (-2) = Ok [254; 255]
  /\ read_width I16 [254; 255; 9] = ROk (-2) [9] /\ write_width U16 65536 = Err OverflowError.
Proof. repeat split; cbn; lia. Qed.
