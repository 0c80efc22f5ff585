(** C09-C15, C17, C18, C56, C57: the container layer, for every table of parsers
    and compilers. Prop_File.v applies them to the table of vfbLib. *)
From Coq Require Import ZifyBool ZifyNat.
From Verif Require Import Base Lib M_Stream P_Stream M_Container S_File P_Container.
Open Scope rd_scope.
Ltac Zify.zify_post_hook ::= Z.div_mod_to_equations.

(** A table to instantiate the theorems with: decompiled values are lists of bytes,
    only entry 7 has a compiler. *)
Definition toy : codecs bytes :=
  mkCodecs bytes
    (fun i c b => if i =? 99 then Err ValueError else Ok b)
    (fun i => if (i =? 7) || (i =? 1503) then Some (fun _ d => Ok d) else None)
    (fun _ => Err TypeError) (fun _ => MacOS) (fun d => le_dec d) (fun _ => (0, 0)).

(** * C09 *)
Theorem C09_frame_written : forall D (e : entry D) i d,
  e_id e = Some i -> e_data e = Raw d -> e_cache e = None ->
  0 <= i < 32768 -> Z.of_nat (length d) < 2 ^ 32 ->
  exists h, snd (entry_header e) = Ok h /\ h ++ d = frame i d.
Proof.
  intros D e i d Hi Hd Hc H1 H2. unfold entry_header. rewrite Hc.
  destruct (compute_header_frame e i d Hi Hd) as (h & E & Hh).
  - split; auto.
  - rewrite E. exists h. auto.
Qed.

Theorem C09_frame_read : forall D c i d rest,
  0 <= i < 32768 -> Z.of_nat (length d) < 2 ^ 32 ->
  (i = 1410 -> Z.of_nat (length d) = 8 + 2 * num_masters c) ->
  @read_entry D c (frame i d ++ rest) = ROk (mkEntry (Some i) (Raw d) None) rest.
Proof. intros. apply read_entry_frame; auto. split; auto. Qed.

(** an id or a size that does not fit raises struct.error *)
Theorem C09_unframable : forall D (e : entry D) i d,
  e_id e = Some i -> e_data e = Raw d -> e_cache e = None ->
  i < 0 \/ 65536 <= i \/ 2 ^ 32 <= Z.of_nat (length d) ->
  snd (entry_header e) = Err StructError.
Proof.
  intros D e i d Hi Hd Hc H. unfold entry_header, compute_header, entry_size.
  rewrite Hc, Hi, Hd. cbn [rthen]. set (n := Z.of_nat (length d)) in *.
  assert (Hl : 0 <= i < 65536 -> 0 <= Z.lor i 32768 < 65536).
  { intros B. assert (0 <= Z.lor i 32768) by (apply Z.lor_nonneg; lia).
    split; [lia|]. change 65536 with (2 ^ 16). apply Z.log2_lt_cancel.
    assert (L : Z.log2 (Z.lor i 32768) <= 15).
    { rewrite Z.log2_lor by lia. change (Z.log2 32768) with 15.
      assert (Z.log2 i <= 15).
      { destruct (Z.eq_dec i 0) as [->|]; [cbn; lia|].
        apply Z.lt_succ_r. apply Z.log2_lt_pow2; lia. }
      lia. }
    rewrite Z.log2_pow2 by lia. lia. }
  assert (Hneg : i < 0 -> Z.lor i 32768 < 0).
  { intros B. apply Z.lor_neg. auto. }
  assert (Hbig : 65536 <= i -> 65536 <= Z.lor i 32768).
  { intros B. assert (0 <= Z.lor i 32768) by (apply Z.lor_nonneg; lia).
    destruct (Z.lt_ge_cases (Z.lor i 32768) 65536) as [L|L]; [|lia]. exfalso.
    assert (Z.log2 (Z.lor i 32768) < 16).
    { destruct (Z.eq_dec (Z.lor i 32768) 0) as [->|]; [cbn; lia|].
      apply Z.log2_lt_pow2; lia. }
    rewrite Z.log2_lor in H1 by lia. change (Z.log2 32768) with 15 in H1.
    assert (16 <= Z.log2 i) by (apply Z.log2_le_pow2; lia). lia. }
  unfold pack_le_u, urange, in_range.
  change (2 ^ (8 * Z.of_nat 2)) with 65536. change (2 ^ (8 * Z.of_nat 4)) with 4294967296.
  change (2 ^ 32) with 4294967296 in H.
  destruct (65535 <? n) eqn:E.
  - set (j := Z.lor i 32768) in *.
    destruct ((0 <=? j) && (j <? 65536)) eqn:E1; [|reflexivity].
    replace ((0 <=? n) && (n <? 4294967296)) with false by lia. reflexivity.
  - destruct ((0 <=? i) && (i <? 65536)) eqn:E1; [|reflexivity]. lia.
Qed.

Example C09_example :
  snd (entry_header (mkEntry (D:=bytes) (Some 2001) (Raw [1; 2; 3]) None))
    = Ok [0xD1; 7; 3; 0] /\
  @read_entry bytes ctx0 (frame 2001 [1; 2; 3] ++ [9; 9])
    = ROk (mkEntry (Some 2001) (Raw [1; 2; 3]) None) [9; 9].
Proof. split; vm_compute; reflexivity. Qed.

(** A multiple master kern pair is not read back when its size is not the one that
    follows from the number of masters. *)
Theorem C09_mmkern_size_refuted : exists d rest,
  @read_entry bytes ctx0 (frame 1410 d ++ rest) <>
    ROk (mkEntry (Some 1410) (Raw d) None) rest.
Proof. exists [1; 2], [9]. vm_compute. discriminate. Qed.

Print Assumptions C09_frame_written.
Print Assumptions C09_frame_read.
Print Assumptions C09_unframable.

(** * C13 *)
Lemma compile_header_fl : forall minor, 0 <= minor < 256 ->
  compile_header (fl_header minor) = Ok (header44 minor).
Proof.
  intros m H. unfold compile_header, fl_header, header44, le.
  cbn [signature app_version file_version version_major version_minor].
  unfold write_uint8 at 4, to_bytes_u, urange, in_range.
  replace ((0 <=? m) && (m <? 2 ^ (8 * Z.of_nat 1))) with true by (cbn; lia).
  cbn [le_enc]. rewrite Z.mod_small by lia. vm_compute. reflexivity.
Qed.

Lemma read_uint8_cons : forall b r, read_uint8 (b :: r) = ROk b r.
Proof.
  intros. unfold read_uint8, rbind, read_bytes, ret, take, drop.
  change (1 <? 0) with false. change (Z.to_nat 1) with 1%nat. cbn [firstn skipn le_dec].
  f_equal. lia.
Qed.
Lemma read_uint32_cons4 : forall a b c d r,
  read_uint32 (a :: b :: c :: d :: r) = ROk (le_dec [a; b; c; d]) r.
Proof. reflexivity. Qed.

Lemma parse_header44 : forall minor rest, 0 <= minor < 256 ->
  parse_header (header44 minor ++ rest) = ROk (fl_header minor) rest.
Proof.
  intros m rest H. unfold parse_header.
  assert (E : exists r, read_header_fields (header44 m ++ rest) = ROk (fl_header m, 44) r).
  { unfold header44, le. change (le_enc 4 44) with [44; 0; 0; 0].
    cbn [app]. unfold read_header_fields, rbind.
    rewrite read_uint32_cons4. change (le_dec [26; 87; 76; 70]) with FL30_SIGNATURE.
    unfold rassert, ret. rewrite Z.eqb_refl. cbv iota beta. rewrite read_uint8_cons.
    change (49 =? FL30_APP) with true. cbv iota beta. rewrite read_uint8_cons.
    change (48 =? FL30_FILE) with true. cbv iota beta. rewrite read_uint8_cons.
    change (3 =? 3) with true. cbv iota beta. rewrite read_uint8_cons, read_uint32_cons4.
    eexists. reflexivity. }
  destruct E as (r & ->). rewrite drop_app_exact by reflexivity. reflexivity.
Qed.

(** a dict with the fields of a FontLab 3+ file compiles to 44 bytes and is parsed
    back, and reading goes on right after them *)
Theorem C13_header_roundtrip : forall h,
  signature h = 0x464C571A -> app_version h = 0x31 -> file_version h = 0x30 ->
  version_major h = 3 -> 0 <= version_minor h < 256 ->
  exists b, compile_header h = Ok b /\ length b = 44%nat /\
    firstn 4 (skipn 8 b) = [44; 0; 0; 0] /\
    forall rest, parse_header (b ++ rest) = ROk h rest.
Proof.
  intros [s a f mj mn] H1 H2 H3 H4 H5. cbn in *. subst.
  change (mkHdr _ _ _ _ mn) with (fl_header mn).
  exists (header44 mn). split; [apply compile_header_fl; auto|].
  split; [reflexivity|]. split; [reflexivity|].
  intros rest. apply parse_header44. auto.
Qed.

(** parsing accepts exactly the data that starts with these seven bytes *)
Theorem C13_accepts : forall s, bytes_ok s ->
  if list_eq_dec Z.eq_dec (firstn 7 s) [0x1A; 0x57; 0x4C; 0x46; 0x31; 0x30; 3]
  then exists minor r, 0 <= minor < 256 /\ parse_header s = ROk (fl_header minor) r
  else exists r, parse_header s = RErr AssertionError r.
Proof.
  intros s Hs. unfold parse_header, read_header_fields, rbind.
  destruct (list_eq_dec _ _ _) as [E|E].
  - do 7 (destruct s as [|? s]; [discriminate|]). cbn [firstn] in E.
    inversion E; subst. clear E.
    rewrite read_uint32_cons4. change (le_dec [26; 87; 76; 70]) with FL30_SIGNATURE.
    unfold rassert, ret. rewrite Z.eqb_refl. cbv iota beta. rewrite read_uint8_cons.
    change (49 =? FL30_APP) with true. cbv iota beta. rewrite read_uint8_cons.
    change (48 =? FL30_FILE) with true. cbv iota beta. rewrite read_uint8_cons.
    change (3 =? 3) with true. cbv iota.
    unfold read_uint8, read_uint32, rbind, read_bytes, ret. eexists _, _. split; [|reflexivity].
    do 7 (inversion Hs as [|? ? _ Hs']; subst; clear Hs; rename Hs' into Hs).
    pose proof (le_dec_range (take 1 s) (bytes_ok_take 1 s Hs)) as R.
    assert (L : (length (take 1 s) <= 1)%nat).
    { change (take 1 s) with (firstn 1 s). rewrite firstn_length. lia. }
    assert (2 ^ (8 * Z.of_nat (length (take 1 s))) <= 2 ^ 8) by (apply Z.pow_le_mono_r; lia).
    lia.
  - unfold read_uint32 at 1, rbind at 1, read_bytes at 1, ret at 1.
    set (n := take 4 s). unfold rassert at 1.
    destruct (le_dec n =? FL30_SIGNATURE) eqn:E1; [|eexists; reflexivity].
    assert (Hn : n = [0x1A; 0x57; 0x4C; 0x46]).
    { assert (On : bytes_ok n) by (apply bytes_ok_take; auto).
      assert (Ln : (length n <= 4)%nat).
      { pose proof (take_length 4 s ltac:(lia)). fold n in H. lia. }
      apply Z.eqb_eq in E1.
      assert (L4 : length n = 4%nat).
      { destruct (Nat.eq_dec (length n) 4); auto. exfalso.
        pose proof (le_dec_range n On) as R. rewrite E1 in R.
        assert (2 ^ (8 * Z.of_nat (length n)) <= 2 ^ 24) by (apply Z.pow_le_mono_r; lia).
        unfold FL30_SIGNATURE in R. lia. }
      rewrite <- (le_enc_dec n On), L4, E1. reflexivity. }
    unfold n in *. clear E1 n. unfold take, drop in *.
    change (4 <? 0) with false in *. change (Z.to_nat 4) with 4%nat in *.
    cbv iota in *.
    do 4 (destruct s as [|? s]; [discriminate|]). cbn [firstn skipn] in *.
    inversion Hn; subst. clear Hn. unfold ret.
    assert (Z0 : read_uint8 [] = ROk 0 []) by reflexivity.
    destruct s as [|z s]; [rewrite Z0; eexists; reflexivity|].
    rewrite read_uint8_cons. unfold rassert at 1, ret. cbv beta.
    destruct (z =? FL30_APP) eqn:E1; [|eexists; reflexivity].
    apply Z.eqb_eq in E1. subst z.
    destruct s as [|z s]; [rewrite Z0; eexists; reflexivity|].
    rewrite read_uint8_cons. unfold rassert at 1, ret. cbv beta.
    destruct (z =? FL30_FILE) eqn:E1; [|eexists; reflexivity].
    apply Z.eqb_eq in E1. subst z.
    destruct s as [|z s]; [rewrite Z0; eexists; reflexivity|].
    rewrite read_uint8_cons. unfold rassert at 1, ret. cbv beta.
    destruct (z =? 3) eqn:E1; [|eexists; reflexivity].
    apply Z.eqb_eq in E1. subst z. exfalso. apply E. reflexivity.
Qed.

Example C13_example :
  compile_header (fl_header 7) = Ok (header44 7) /\
  parse_header (header44 7 ++ [5]) = ROk (fl_header 7) [5] /\
  parse_header [0x1A; 0x57; 0x4C; 0x46; 10; 13] = RErr AssertionError [13].
Proof. repeat split; vm_compute; reflexivity. Qed.

Print Assumptions C13_header_roundtrip.
Print Assumptions C13_accepts.

(** * C10 *)
Lemma reads_as_app : forall D (T : codecs D) l1 l2 c c' ds,
  reads_as T c (l1 ++ l2) c' ds ->
  exists c1 d1 d2, ds = d1 ++ d2 /\ reads_as T c l1 c1 d1 /\ reads_as T c1 l2 c' d2.
Proof.
  induction l1 as [|p l1 IH]; intros l2 c c' ds H.
  - exists c, [], ds. repeat split; auto. constructor.
  - cbn in H. inversion H; subst;
      match goal with R : reads_as _ _ (l1 ++ l2) _ _ |- _ =>
        destruct (IH _ _ _ _ R) as (c1 & d1 & d2 & -> & R1 & R2) end;
      eexists c1, (_ :: d1), d2; (split; [reflexivity|]); (split; [|assumption]).
    + constructor; auto.
    + eapply ra_version; eauto.
    + eapply ra_masters; eauto.
    + eapply ra_stems; eauto.
Qed.

Lemma fresh_entries_app : forall D l1 l2 (d1 d2 : list (edata D)),
  length l1 = length d1 ->
  fresh_entries (l1 ++ l2) (d1 ++ d2) = fresh_entries l1 d1 ++ fresh_entries l2 d2.
Proof.
  intros D l1 l2 d1 d2. unfold fresh_entries. revert d1.
  induction l1 as [|p l1 IH]; intros [|d d1] H; cbn in *; try discriminate; auto.
  f_equal. apply IH. lia.
Qed.

(** reading a file of this form, for a Vfb that may have been used before *)
Lemma read_file : forall D (T : codecs D) v minor l c' ds rest fuel,
  v_drop v = [] -> v_only_header v = false ->
  0 <= minor < 256 -> Forall framable l -> ends_once l ->
  reads_as T (v_ctx v) l c' ds -> (length l <= fuel)%nat ->
  exists w, vfb_read_bytes T fuel v (file_of minor l ++ rest) = (w, ROk tt rest) /\
    v_header w = HDec (fl_header minor) /\ v_ctx w = c' /\
    v_entries w = fresh_entries l ds /\ v_any_errors w = v_any_errors v /\
    v_drop w = [] /\ v_only_header w = false /\ v_force_unicode w = v_force_unicode v.
Proof.
  intros D T v minor l c' ds rest fuel Hdrop Hoh Hm Hf (l0 & d & -> & Hn) Hr Hfuel.
  unfold vfb_read_bytes, read_stream, file_of. rewrite <- app_assoc.
  rewrite parse_header44 by auto.
  destruct (reads_as_app _ _ _ _ _ _ _ Hr) as (c1 & d1 & d2 & -> & R1 & R2).
  apply Forall_app in Hf. destruct Hf as [Hf1 Hf2].
  inversion R2; subst.
  match goal with R : reads_as T _ [] _ _ |- _ => inversion R; subst end.
  set (v0 := with_header (HDec (fl_header minor)) (vfb_clear v)).
  assert (E0 : v_only_header v0 = false) by exact Hoh. rewrite E0.
  destruct (read_loop_frames T _ _ _ _ R1 v0) as (w & W1 & W2 & W3 & W4); auto.
  rewrite flat_map_app. rewrite app_length in Hfuel. cbn in Hfuel.
  replace fuel with (length l0 + S (fuel - length l0 - 1))%nat by lia.
  rewrite <- app_assoc. rewrite W4.
  cbn [flat_map read_loop fst snd]. rewrite app_nil_r.
  inversion Hf2; subst.
  rewrite read_entry_frame by (auto; lia). cbn [e_id].
  change (is_eager 2) with false. cbv iota. change (2 =? F_BlockFileDataEnd) with true.
  cbv iota. eexists. split; [reflexivity|].
  destruct W3 as (S1 & S2 & S3 & S4 & S5).
  rewrite append_nodrop by (rewrite <- S3; exact Hdrop). cbn.
  rewrite <- S1, <- S2, <- S3, <- S4, <- S5. cbn. repeat split; auto.
  rewrite W2. rewrite fresh_entries_app by (eapply reads_as_length; eauto).
  reflexivity.
Qed.

(** Writing a Vfb whose entries hold the bytes [l], and reading the output (even if
    other bytes follow) with a fresh Vfb. *)
Theorem C10_write_then_read : forall D (T : codecs D) (v : vfb D) minor l c' ds,
  v_header v = HDec (fl_header minor) \/ v_header v = HRaw (header44 minor) ->
  0 <= minor < 256 ->
  Forall2 holds (v_entries v) l ->
  Forall framable l -> ends_once l ->
  reads_as T ctx0 l c' ds ->
  exists v' out, vfb_write_bytes T v = (v', out, Ok tt) /\
    out = file_of minor l /\
    map e_data (v_entries v') = map e_data (v_entries v) /\
    forall rest uni fuel, (length l <= fuel)%nat ->
      exists w, vfb_read_bytes T fuel (new_vfb [] false uni) (out ++ rest) = (w, ROk tt rest) /\
        v_header w = HDec (fl_header minor) /\ v_ctx w = c' /\
        v_entries w = fresh_entries l ds.
Proof.
  intros D T v minor l c' ds Hh Hm He Hf Hend Hr.
  unfold vfb_write_bytes, vfb_compile.
  assert (EH : header_compile (v_header v) = Ok (HRaw (header44 minor))).
  { destruct Hh as [-> | ->]; cbn [header_compile]; [rewrite compile_header_fl by auto|]; reflexivity. }
  rewrite EH. cbn [v_ctx v_entries with_header].
  rewrite (compile_entries_holds T _ _ _ He). cbn [v_header with_entries v_entries].
  destruct (write_entries_holds _ _ He Hf) as (es' & E & F & M1 & M2). rewrite E.
  eexists _, _. split; [reflexivity|]. split; [reflexivity|]. split; [exact M1|].
  intros rest uni fuel Hfuel.
  destruct (read_file D T (new_vfb [] false uni) minor l c' ds rest fuel) as (w & W);
    auto. exists w. unfold file_of in W. intuition.
Qed.

Example C10_example :
  let l := [(1503, [2; 0]); (7, [1; 2; 3]); (1410, [0;0;0;0;0;0;0;0;1;1;2;2]); (2, [])] in
  Forall framable l /\ ends_once l /\
  reads_as toy ctx0 l (mkCtx 2 0 0 MacOS)
    [Dec [2; 0]; Raw [1; 2; 3]; Raw [0;0;0;0;0;0;0;0;1;1;2;2]; Raw []] /\
  fst (vfb_read_bytes toy 10 (new_vfb [] false false) (file_of 1 l)) =
    mkVfb (HDec (fl_header 1))
      (fresh_entries l [Dec [2; 0]; Raw [1; 2; 3]; Raw [0;0;0;0;0;0;0;0;1;1;2;2]; Raw []])
      (mkCtx 2 0 0 MacOS) Utf8 false [] false false.
Proof.
  cbv zeta. split; [|split; [|split]].
  - repeat constructor; cbn; lia.
  - eexists [_; _; _], []. split; [reflexivity|]. cbn. lia.
  - apply ra_masters; [reflexivity|]. cbn.
    repeat (apply ra_bytes; [lia|lia|lia|cbn; lia|]). constructor.
  - vm_compute. reflexivity.
Qed.

Print Assumptions C10_write_then_read.

(** * C11 *)
Lemma compile_fresh : forall D (T : codecs D) c l (ds : list (edata D)),
  length l = length ds ->
  Forall2 (recompiles T c) l ds ->
  (forall p e, In (p, e) (combine l ds) -> e = Raw (snd p) \/ exists x, e = Dec x) ->
  exists es, compile_entries T c (fresh_entries l ds) = (es, Ok tt) /\ Forall2 holds es l.
Proof.
  intros D T c l ds. revert ds. induction l as [|p l IH]; intros [|d ds] HL HR HE;
    try discriminate.
  - exists []. split; [reflexivity|constructor].
  - inversion HR; subst. unfold fresh_entries. cbn [combine map compile_entries fst snd].
    destruct (IH ds) as (es & E & F); auto.
    { intros; apply HE; right; auto. }
    fold (fresh_entries l ds). unfold entry_compile. cbn [e_data e_id].
    destruct (HE p d (or_introl eq_refl)) as [-> | (x & ->)].
    + rewrite E. eexists. split; [reflexivity|]. constructor; auto.
      repeat split; cbn; auto. discriminate.
    + destruct H2 as (comp & Hc & Hx). rewrite Hc, Hx, E.
      eexists. split; [reflexivity|]. constructor; auto.
      repeat split; cbn; auto. discriminate.
Qed.

Lemma reads_as_shape : forall D (T : codecs D) c l c' ds, reads_as T c l c' ds ->
  forall p e, In (p, e) (combine l ds) -> e = Raw (snd p) \/ exists x, e = Dec x.
Proof.
  induction 1; cbn; intros p e0 HI; try tauto;
    (destruct HI as [HI|HI]; [inversion HI; subst; eauto|eauto]).
Qed.

(** Reading a file and writing it again without changes gives the same bytes. *)
Theorem C11_read_then_write : forall D (T : codecs D) minor l c' ds uni fuel,
  0 <= minor < 256 -> Forall framable l -> ends_once l ->
  reads_as T ctx0 l c' ds -> Forall2 (recompiles T c') l ds ->
  (length l <= fuel)%nat ->
  exists v v', vfb_read_bytes T fuel (new_vfb [] false uni) (file_of minor l) = (v, ROk tt []) /\
    vfb_write_bytes T v = (v', file_of minor l, Ok tt).
Proof.
  intros D T minor l c' ds uni fuel Hm Hf Hend Hr Hrc Hfuel.
  destruct (read_file D T (new_vfb [] false uni) minor l c' ds [] fuel) as (w & W);
    auto. rewrite app_nil_r in W.
  destruct W as (W1 & W2 & W3 & W4 & _).
  exists w.
  unfold vfb_write_bytes, vfb_compile. rewrite W2. cbn [header_compile].
  rewrite compile_header_fl by auto. cbn [rmap v_ctx v_entries with_header].
  rewrite W3, W4.
  destruct (compile_fresh D T c' l ds) as (es & E & F); auto.
  { eapply reads_as_length; eauto. } { eapply reads_as_shape; eauto. }
  rewrite E. cbn [v_header with_entries v_entries].
  destruct (write_entries_holds _ _ F Hf) as (es' & E' & _). rewrite E'.
  eexists. split; [exact W1|]. reflexivity.
Qed.

Example C11_example :
  let l := [(1503, [2; 0]); (7, [1; 2; 3]); (30000, [0xFF]); (2, [])] in
  Forall2 (recompiles toy (mkCtx 2 0 0 MacOS)) l [Dec [2; 0]; Raw [1; 2; 3]; Raw [0xFF]; Raw []] /\
  snd (fst (vfb_write_bytes toy
    (fst (vfb_read_bytes toy 10 (new_vfb [] false false) (file_of 1 l))))) = file_of 1 l.
Proof.
  split.
  - constructor; [|repeat constructor]. eexists. split; reflexivity.
  - vm_compute. reflexivity.
Qed.

Print Assumptions C11_read_then_write.

(** * C12 *)
Definition diverges {D} (r : vfb D * out unit) : Prop :=
  exists s, snd r = RErr Diverge s.

Lemma read_entry_nil : forall D c,
  @read_entry D c [] = ROk (mkEntry (Some 0) (Raw []) None) [].
Proof. reflexivity. Qed.

Lemma loop_at_end : forall D (T : codecs D) fuel v, diverges (read_loop T fuel v []).
Proof.
  induction fuel as [|fuel IH]; intros v; [exists []; reflexivity|].
  cbn [read_loop]. rewrite read_entry_nil. cbn [e_id].
  change (is_eager 0) with false. change (0 =? F_BlockFileDataEnd) with false. cbv iota.
  apply IH.
Qed.

Lemma read_entry_shape : forall D c s, exists i b r,
  @read_entry D c s = ROk (mkEntry (Some i) (Raw b) None) r /\
  (s <> [] -> (length r < length s)%nat).
Proof.
  intros D c s. unfold read_entry, read_uint16, read_uint32, rbind, read_bytes, ret.
  set (raw := le_dec (take 2 s)).
  set (s1 := drop 2 s).
  assert (H1 : s <> [] -> (length s1 < length s)%nat).
  { unfold s1, drop. change (2 <? 0) with false. change (Z.to_nat 2) with 2%nat. cbv iota.
    rewrite skipn_length. destruct s; cbn [length]; [congruence|lia]. }
  assert (HD : forall n (x : bytes), (length (drop n x) <= length x)%nat).
  { intros n x. unfold drop. destruct (n <? 0); cbn; [lia|]. rewrite skipn_length. lia. }
  destruct (Z.land raw 32768 =? 0); eexists _, _, _; (split; [reflexivity|]); intros Hs;
    specialize (H1 Hs);
    match goal with |- (length (drop ?n (drop ?m ?x)) < _)%nat =>
      pose proof (HD n (drop m x)); pose proof (HD m x); lia end.
Qed.

(** Reading a file without the end marker never ends. *)
Theorem C12_no_end_marker_diverges : forall D (T : codecs D) minor l c' ds uni fuel,
  0 <= minor < 256 -> Forall framable l -> ~ In 2 (map fst l) ->
  reads_as T ctx0 l c' ds ->
  diverges (vfb_read_bytes T fuel (new_vfb [] false uni) (file_of minor l)).
Proof.
  intros D T minor l c' ds uni fuel Hm Hf Hn Hr.
  unfold vfb_read_bytes, read_stream, file_of. rewrite parse_header44 by auto.
  set (v0 := with_header (HDec (fl_header minor)) (vfb_clear (new_vfb [] false uni))).
  change (v_only_header v0) with false. cbv iota.
  destruct (read_loop_frames T _ _ _ _ Hr v0) as (w & W1 & W2 & W3 & W4); auto.
  assert (G : forall f, diverges (read_loop T (length l + f) v0
      (flat_map (fun p => frame (fst p) (snd p)) l))).
  { intros f. rewrite <- (app_nil_r (flat_map _ _)), W4. apply loop_at_end. }
  destruct (Nat.le_gt_cases (length l) fuel) as [L|L].
  - replace fuel with (length l + (fuel - length l))%nat by lia. apply G.
  - (* less fuel than entries: the loop is still running *)
    clear G W1 W2 W3 W4 w. revert fuel L.
    assert (Hc : v_ctx v0 = ctx0) by reflexivity.
    assert (Hd : v_drop v0 = []) by reflexivity.
    clearbody v0. revert v0 Hc Hd Hf Hn.
    induction Hr as [c|c i d l c' es H1 H2 H3 H4 H IH|c d x l c' es Hp H IH
                   |c d x l c' es Hp H IH|c d x l c' es Hp H IH];
      intros v Hc Hd Hf Hn fuel L; [cbn in L; lia| | | |];
      (destruct fuel as [|fuel]; [eexists; reflexivity|]);
      inversion Hf; subst; cbn [map fst In length] in *;
      cbn [flat_map fst snd read_loop].
    + rewrite read_entry_frame by auto. cbn [e_id].
      unfold is_eager, F_FLVersion, F_MasterCount, T_TrueTypeStems.
      replace ((i =? 10) || (i =? 1503) || (i =? 1269)) with false by lia.
      unfold F_BlockFileDataEnd.
      replace (i =? 2) with false by (symmetry; apply Z.eqb_neq; intuition).
      apply IH; auto; try tauto; try lia; rewrite append_nodrop; auto.
    + rewrite read_entry_frame by (auto; lia). cbn [e_id].
      change (is_eager 10) with true. cbv iota. unfold entry_decompile. cbn [e_id e_data].
      rewrite Hp. apply IH; auto; try tauto; try lia; rewrite append_nodrop; auto.
    + rewrite read_entry_frame by (auto; lia). cbn [e_id].
      change (is_eager 1503) with true. cbv iota. unfold entry_decompile. cbn [e_id e_data].
      rewrite Hp. apply IH; auto; try tauto; try lia; rewrite append_nodrop; auto.
    + rewrite read_entry_frame by (auto; lia). cbn [e_id].
      change (is_eager 1269) with true. cbv iota. unfold entry_decompile. cbn [e_id e_data].
      rewrite Hp. apply IH; auto; try tauto; try lia; rewrite append_nodrop; auto.
Qed.

(** a file that was cut after its header is never finished *)
Theorem C12_read_terminates_refuted : forall D (T : codecs D), exists file,
  forall fuel, diverges (vfb_read_bytes T fuel (new_vfb [] false false) file).
Proof.
  intros D T. exists (file_of 0 []). intros fuel.
  eapply C12_no_end_marker_diverges; try constructor; try lia. intros [].
Qed.

(** That is the only way: reading either ends within one turn per byte, or it
    goes on forever because it has reached the end of the data without having seen the
    end marker. *)
Theorem C12_terminates_partial : forall D (T : codecs D) v file fuel,
  (forall i c b, is_eager i = true -> cd_parse T i c b <> Err Diverge) ->
  (length file < fuel)%nat ->
  ~ diverges (vfb_read_bytes T fuel v file) \/
  (snd (vfb_read_bytes T fuel v file) = RErr Diverge [] /\
   forall fuel', diverges (vfb_read_bytes T fuel' v file)).
Proof.
  intros D T v file fuel HT Hfuel. unfold vfb_read_bytes, read_stream.
  destruct (parse_header file) as [h r|e r] eqn:EP.
  2:{ left. intros (s & E). cbn in E. inversion E; subst. clear E.
      unfold parse_header in EP.
      destruct (read_header_fields file) as [[? ?] ?|e' r'] eqn:E; [discriminate|].
      inversion EP; subst. clear EP. revert E.
      unfold read_header_fields, rassert, rbind, read_uint32, read_uint8, rbind, read_bytes, ret, rraise.
      repeat match goal with |- context [if ?b then _ else _] => destruct b end; discriminate. }
  assert (Hr : (length r <= length file)%nat).
  { unfold parse_header in EP. destruct (read_header_fields file) as [[? o] ?|]; [|discriminate].
    inversion EP; subst. unfold drop. destruct (o <? 0); cbn; [lia|].
    rewrite skipn_length. lia. }
  set (v0 := with_header (HDec h) (vfb_clear v)). clearbody v0.
  destruct (v_only_header v0).
  { left. intros (s & E). discriminate. }
  assert (Hf : (length r < fuel)%nat) by lia. clear Hfuel Hr EP h file.
  revert v0 r Hf. induction fuel as [|fuel IH]; intros w s Hf; [lia|].
  destruct s as [|z s'].
  { right. split; [|intros; apply loop_at_end]. clear IH HT Hf.
    revert w. generalize (S fuel). clear fuel.
    induction n as [|n IH]; intros w; [reflexivity|].
    cbn [read_loop]. rewrite read_entry_nil. cbn [e_id].
    change (is_eager 0) with false. change (0 =? F_BlockFileDataEnd) with false. apply IH. }
  set (s := z :: s') in *. cbn [read_loop].
  destruct (read_entry_shape D (v_ctx w) s) as (i & b & r' & E & HL).
  specialize (HL ltac:(unfold s; discriminate)). rewrite E. cbn [e_id].
  assert (Lift : forall w' (Q : forall f, read_loop T (S f) w s = read_loop T f w' r'),
    ~ diverges (read_loop T fuel w' r') \/
    (snd (read_loop T fuel w' r') = RErr Diverge [] /\
     forall f, diverges (read_loop T f w s))).
  { intros w' Q. destruct (IH w' r' ltac:(lia)) as [N|[N1 N2]]; [left; auto|right].
    split; auto. intros [|f]; [eexists; reflexivity|]. rewrite Q. apply N2. }
  destruct (is_eager i) eqn:Ei.
  - unfold entry_decompile. cbn [e_id e_data].
    destruct (cd_parse T i (v_ctx w) b) as [d|x] eqn:Ep.
    + cbn [set_data e_data e_id e_cache]. apply Lift.
      intros f. cbn [read_loop]. rewrite E. cbn [e_id]. rewrite Ei.
      unfold entry_decompile. cbn [e_id e_data]. rewrite Ep. reflexivity.
    + left. intros (t & Et). cbn in Et. inversion Et; subst.
      eapply HT; eauto.
  - destruct (i =? F_BlockFileDataEnd) eqn:E2.
    + left. intros (t & Et). discriminate.
    + apply Lift. intros f. cbn [read_loop]. rewrite E. cbn [e_id]. rewrite Ei, E2. reflexivity.
Qed.

Example C12_example :
  ~ diverges (vfb_read_bytes toy 100 (new_vfb [] false false) (file_of 1 [(7, [1; 2; 3]); (2, [])])) /\
  diverges (vfb_read_bytes toy 100 (new_vfb [] false false) (file_of 1 [(7, [1; 2; 3])])).
Proof. split; [intros (s & E); discriminate|eexists; vm_compute; reflexivity]. Qed.

Print Assumptions C12_no_end_marker_diverges.
Print Assumptions C12_read_terminates_refuted.
Print Assumptions C12_terminates_partial.

(** * C14 *)

(** Whatever happened to an entry before, as long as its header was not accessed
    yet it describes the id and data that the entry has now. *)
Theorem C14_header_first_access : forall D (T : codecs D) ops (e0 e : entry D) i d,
  e_cache e0 = None -> (forall o, In o ops -> o <> OHeader) ->
  fold_left (do_op T) ops e0 = e ->
  e_id e = Some i -> e_data e = Raw d -> 0 <= i < 32768 -> Z.of_nat (length d) < 2 ^ 32 ->
  exists h, snd (entry_header e) = Ok h /\ h ++ d = frame i d.
Proof.
  intros D T ops e0 e i d H0 Hops He Hi Hd H1 H2.
  assert (C : e_cache e = None).
  { subst e. apply fold_left_inv with (I := fun e => e_cache e = None); auto.
    intros a o Hin Ha. destruct o; cbn; auto.
    - unfold entry_compile. destruct (e_data a), (e_id a); cbn; auto.
      + destruct (cd_compile T z) as [f|]; cbn; auto. destruct (f c d0); cbn; auto.
      + destruct (cd_compile T z); cbn; auto. destruct (cd_compile_none T z); cbn; auto.
    - unfold entry_decompile. destruct (e_id a), (e_data a); cbn; auto.
      destruct (cd_parse T z c b); cbn; auto.
    - exfalso. eapply Hops; eauto. }
  apply C09_frame_written; auto.
Qed.

(** After the first access it never changes, whatever is done to the entry. *)
Theorem C14_header_frozen : forall D (T : codecs D) ops (e e' : entry D) h,
  snd (entry_header e) = Ok h ->
  fold_left (do_op T) ops (fst (entry_header e)) = e' ->
  snd (entry_header e') = Ok h.
Proof.
  intros D T ops e e' h Hh He'.
  assert (C : e_cache e' = Some h).
  { subst e'. apply fold_left_inv with (I := fun e => e_cache e = Some h).
    - unfold entry_header in *. destruct (e_cache e) as [h'|] eqn:E.
      + cbn in *. congruence.
      + destruct (compute_header e); cbn in *; congruence.
    - intros a o Hin Ha. destruct o; cbn; auto.
      + unfold entry_compile. destruct (e_data a), (e_id a); cbn; auto.
        * destruct (cd_compile T z) as [f|]; cbn; auto. destruct (f c d); cbn; auto.
        * destruct (cd_compile T z); cbn; auto. destruct (cd_compile_none T z); cbn; auto.
      + unfold entry_decompile. destruct (e_id a), (e_data a); cbn; auto.
        destruct (cd_parse T z c b); cbn; auto.
      + unfold entry_header. rewrite Ha. auto. }
  unfold entry_header. rewrite C. reflexivity.
Qed.

(** So a header can describe data that the entry no longer has: a file that is
    written, edited and written again cannot be read. *)
Theorem C14_header_current_refuted : forall D (T : codecs D), exists ops (e0 e : entry D) d h,
  e_cache e0 = None /\ fold_left (do_op T) ops e0 = e /\ e_id e = Some 7 /\ e_data e = Raw d /\
  snd (entry_header e) = Ok h /\ h ++ d <> frame 7 d.
Proof.
  intros D T. exists [OHeader; OSetData (Raw [1; 2; 3])].
  exists (mkEntry (Some 7) (Raw [1]) None). eexists _, [1; 2; 3], [7; 0; 1; 0].
  repeat split. vm_compute. discriminate.
Qed.

Theorem C14_write_edit_write_refuted : exists (v v1 : vfb bytes) f1 v2 f2 d,
  vfb_write_bytes toy v = (v1, f1, Ok tt) /\
  vfb_write_bytes toy (with_entries (map (set_data (Raw d)) (v_entries v1)) v1) = (v2, f2, Ok tt) /\
  f2 <> file_of 0 (map (fun e => (match e_id e with Some i => i | None => 0 end, d)) (v_entries v2)).
Proof.
  eexists (mkVfb (HDec (fl_header 0)) [mkEntry (Some 7) (Raw [1]) None] ctx0 Utf8 false [] false false).
  eexists _, _, _, _, [1; 2; 3].
  split; [vm_compute; reflexivity|]. split; [vm_compute; reflexivity|]. vm_compute. discriminate.
Qed.

Example C14_example :
  snd (entry_header (fold_left (do_op toy)
    [OSetId (Some 7); OSetData (Dec [5; 6]); OCompile ctx0]
    (mkEntry None NoData None))) = Ok [7; 0; 2; 0].
Proof. vm_compute. reflexivity. Qed.

Print Assumptions C14_header_first_access.
Print Assumptions C14_header_frozen.
Print Assumptions C14_header_current_refuted.
Print Assumptions C14_write_edit_write_refuted.

(** * C15 *)
Theorem C15_decompile_idempotent : forall D (T : codecs D) c c' e e1 err,
  entry_decompile T c e = (e1, err, Ok tt) ->
  err = false /\ (exists d, e_data e1 = Dec d) /\ e_id e1 = e_id e /\
  entry_decompile T c' e1 = (e1, false, Ok tt).
Proof.
  intros D T c c' e e1 err H. unfold entry_decompile in *.
  destruct (e_id e) as [i|] eqn:Ei; [|discriminate].
  destruct (e_data e) as [b|d|] eqn:Ed; try discriminate.
  - destruct (cd_parse T i c b) as [d|] eqn:Ep; [|discriminate].
    inversion H; subst. cbn. rewrite Ei. repeat split; eauto.
  - inversion H; subst. rewrite Ei, Ed. repeat split; eauto.
Qed.

Theorem C15_decompile_atomic : forall D (T : codecs D) c e e1 err x,
  entry_decompile T c e = (e1, err, Err x) ->
  e1 = e /\ (err = true <-> exists i b, e_id e = Some i /\ e_data e = Raw b /\ cd_parse T i c b = Err x).
Proof.
  intros D T c e e1 err x H. unfold entry_decompile in *.
  destruct (e_id e) as [i|] eqn:Ei.
  - destruct (e_data e) as [b|d|] eqn:Ed; try discriminate.
    + destruct (cd_parse T i c b) as [d|] eqn:Ep; [discriminate|].
      inversion H; subst. split; auto. split; eauto.
    + inversion H; subst. split; auto. split; [discriminate|].
      intros (i' & b' & H1 & H2 & _). discriminate.
  - inversion H; subst. split; auto. split; [discriminate|].
    intros (i' & b' & H1 & H2 & _). discriminate.
Qed.

Theorem C15_compile_idempotent : forall D (T : codecs D) c c' e e1,
  entry_compile T c e = (e1, Ok true) ->
  (exists b, e_data e1 = Raw b) /\ e_id e1 = e_id e /\ entry_compile T c' e1 = (e1, Ok true).
Proof.
  intros D T c c' e e1 H. unfold entry_compile in *.
  destruct (e_data e) as [b|d|] eqn:Ed.
  - inversion H; subst. rewrite Ed. eauto.
  - destruct (e_id e) as [i|] eqn:Ei; [|discriminate].
    destruct (cd_compile T i) as [f|]; [|discriminate].
    destruct (f c d); [|discriminate]. inversion H; subst. cbn. rewrite Ei. eauto.
  - destruct (e_id e) as [i|] eqn:Ei; [|discriminate].
    destruct (cd_compile T i) as [f|]; [|discriminate].
    destruct (cd_compile_none T i); [|discriminate]. inversion H; subst. cbn. rewrite Ei. eauto.
Qed.

Theorem C15_compile_atomic : forall D (T : codecs D) c e e1 x,
  entry_compile T c e = (e1, Err x) \/ entry_compile T c e = (e1, Ok false) -> e1 = e.
Proof.
  intros D T c e e1 x [H|H]; unfold entry_compile in *;
    (destruct (e_data e) as [b|d|] eqn:Ed; [try discriminate; congruence| |]);
    (destruct (e_id e) as [i|]; [|try discriminate; congruence]);
    (destruct (cd_compile T i) as [f|]; [|try discriminate; congruence]).
  - destruct (f c d); [discriminate|congruence].
  - destruct (cd_compile_none T i); [discriminate|congruence].
  - destruct (f c d); discriminate.
  - destruct (cd_compile_none T i); discriminate.
Qed.

(** The whole Vfb: when an entry cannot be parsed, the entries before it are
    decompiled, it and all entries after it are what they were, and the error is
    recorded. *)
Theorem C15_vfb_decompile_atomic : forall D (T : codecs D) v v' x,
  (exists b h, v_header v = HDec h \/ v_header v = HRaw b /\ header_decompile (HRaw b) = Ok (HDec h)) ->
  Forall (fun e => e_id e <> None /\ e_data e <> NoData) (v_entries v) ->
  vfb_decompile T v = (v', Err x) ->
  exists done failed todo done' i b,
    v_entries v = done ++ failed :: todo /\ v_entries v' = done' ++ failed :: todo /\
    length done = length done' /\
    e_id failed = Some i /\ e_data failed = Raw b /\ cd_parse T i (v_ctx v) b = Err x /\
    v_any_errors v' = true.
Proof.
  intros D T v v' x Hh Hw H. unfold vfb_decompile in H.
  assert (EH : exists h', header_decompile (v_header (with_errors false v)) = Ok h').
  { cbn. destruct Hh as (b & h & [-> | [-> E]]); [eexists; reflexivity|rewrite E; eauto]. }
  destruct EH as (h' & EH). rewrite EH in H.
  change (v_ctx (with_header h' (with_errors false v))) with (v_ctx v) in H.
  change (v_drop (with_header h' (with_errors false v))) with (v_drop v) in H.
  change (v_entries (with_header h' (with_errors false v))) with (v_entries v) in H.
  destruct (decompile_entries T (v_ctx v) (v_drop v) (v_entries v)) as [[es err] o] eqn:E.
  inversion H; subst. clear H EH. cbn [v_entries v_any_errors with_errors with_entries].
  revert es err E. induction (v_entries v) as [|e l IH]; intros es err E; [discriminate|].
  inversion Hw; subst. cbn [decompile_entries] in E.
  destruct (match e_id e with Some i => zmem i (v_drop v) | None => false end).
  - destruct (decompile_entries T (v_ctx v) (v_drop v) l) as [[es1 err1] o1] eqn:E1.
    inversion E; subst. destruct (IH H2 _ _ eq_refl) as (dn & f & td & dn' & i & b & A & B & C & F).
    exists (e :: dn), f, td, (e :: dn'), i, b. cbn. rewrite A, B, C. intuition.
  - destruct (entry_decompile T (v_ctx v) e) as [[e1 err1] o1] eqn:Ee.
    destruct o1 as [[]|y].
    + destruct (decompile_entries T (v_ctx v) (v_drop v) l) as [[es1 err2] o1] eqn:E1.
      inversion E; subst. destruct (IH H2 _ _ eq_refl) as (dn & f & td & dn' & i & b & A & B & C & F1 & F2 & F3 & F4).
      exists (e :: dn), f, td, (e1 :: dn'), i, b. cbn. rewrite A, B, C.
      repeat split; auto. rewrite F4. apply orb_true_r.
    + inversion E; subst. clear E.
      destruct (C15_decompile_atomic _ _ _ _ _ _ _ Ee) as [-> Her].
      unfold entry_decompile in Ee. destruct H1 as [N1 N2].
      destruct (e_id e) as [i|] eqn:Ei; [|congruence].
      destruct (e_data e) as [b|d|] eqn:Ed; try congruence.
      destruct (cd_parse T i (v_ctx v) b) eqn:Ep; [discriminate|].
      inversion Ee; subst.
      exists [], e, l, [], i, b. repeat split; auto.
Qed.

Theorem C15_vfb_decompile_idempotent : forall D (T : codecs D) v v1,
  vfb_decompile T v = (v1, Ok tt) -> vfb_decompile T v1 = (v1, Ok tt).
Proof.
  intros D T v v1 H. unfold vfb_decompile in H.
  destruct (header_decompile (v_header (with_errors false v))) as [h|] eqn:EH; [|discriminate].
  change (v_ctx (with_header h (with_errors false v))) with (v_ctx v) in H.
  change (v_drop (with_header h (with_errors false v))) with (v_drop v) in H.
  change (v_entries (with_header h (with_errors false v))) with (v_entries v) in H.
  destruct (decompile_entries T (v_ctx v) (v_drop v) (v_entries v)) as [[es err] o] eqn:E.
  inversion H; subst. clear H.
  assert (R : err = false /\ decompile_entries T (v_ctx v) (v_drop v) es = (es, false, Ok tt)).
  { clear EH. revert es err E. induction (v_entries v) as [|e l IH]; intros es err E.
    - cbn in E. inversion E; subst. auto.
    - cbn [decompile_entries] in E.
      destruct (match e_id e with Some i => zmem i (v_drop v) | None => false end) eqn:Ez.
      + destruct (decompile_entries T (v_ctx v) (v_drop v) l) as [[es1 err1] o1] eqn:E1.
        inversion E; subst. destruct (IH _ _ eq_refl) as [-> R]. split; auto.
        cbn [decompile_entries]. rewrite Ez, R. reflexivity.
      + destruct (entry_decompile T (v_ctx v) e) as [[e1 err1] o1] eqn:Ee.
        destruct o1 as [[]|y]; [|discriminate].
        destruct (decompile_entries T (v_ctx v) (v_drop v) l) as [[es1 err2] o1] eqn:E1.
        inversion E; subst. destruct (IH _ _ eq_refl) as [-> R].
        destruct (C15_decompile_idempotent _ _ _ (v_ctx v) _ _ _ Ee) as (-> & _ & Hid & Hag).
        split; auto. cbn [decompile_entries]. rewrite Hid, Ez, Hag, R. reflexivity. }
  destruct R as [-> R].
  unfold vfb_decompile. cbn [v_header with_errors with_entries with_header].
  assert (EH2 : header_decompile h = Ok h).
  { cbn in EH. destruct (v_header v); cbn in EH.
    - destruct (parse_header b); inversion EH; reflexivity.
    - inversion EH; reflexivity.
    - inversion EH; reflexivity. }
  rewrite EH2. cbn [v_ctx v_drop v_entries with_errors with_entries with_header].
  rewrite R. reflexivity.
Qed.

Example C15_example :
  let v := mkVfb (HDec (fl_header 0))
     [mkEntry (Some 7) (Raw [1]) None; mkEntry (Some 99) (Raw [2]) None; mkEntry (Some 8) (Raw [3]) None]
     ctx0 Utf8 false [] false false in
  vfb_decompile toy v =
    (mkVfb (HDec (fl_header 0))
     [mkEntry (Some 7) (Dec [1]) None; mkEntry (Some 99) (Raw [2]) None; mkEntry (Some 8) (Raw [3]) None]
     ctx0 Utf8 true [] false false, Err ValueError).
Proof. vm_compute. reflexivity. Qed.

Print Assumptions C15_decompile_idempotent.
Print Assumptions C15_decompile_atomic.
Print Assumptions C15_compile_idempotent.
Print Assumptions C15_compile_atomic.
Print Assumptions C15_vfb_decompile_atomic.
Print Assumptions C15_vfb_decompile_idempotent.

(** * C18 *)
Theorem C18_drop_keys : forall D (T : codecs D) dropk only uni fuel file p d op od,
  vfb_read_bytes T fuel (new_vfb [] only uni) file = (p, op) ->
  vfb_read_bytes T fuel (new_vfb dropk only uni) file = (d, od) ->
  op = od /\ v_ctx d = v_ctx p /\ v_header d = v_header p /\
  v_encoding d = v_encoding p /\ v_any_errors d = v_any_errors p /\
  v_entries d = filter (not_dropped dropk) (v_entries p).
Proof.
  intros D T dropk only uni fuel file p d op od Hp Hd.
  unfold vfb_read_bytes, read_stream in *.
  destruct (parse_header file) as [h r|x r].
  2:{ inversion Hp; inversion Hd; subst. cbn. auto 10. }
  cbn [v_only_header with_header vfb_clear with_entries new_vfb] in *.
  destruct only.
  { inversion Hp; inversion Hd; subst. cbn. auto 10. }
  set (vp := with_header _ _) in Hp. set (vd := with_header _ _) in Hd.
  assert (I : v_ctx vd = v_ctx vp /\ v_header vd = v_header vp /\
     v_encoding vd = v_encoding vp /\ v_any_errors vd = v_any_errors vp /\
     v_force_unicode vd = v_force_unicode vp /\
     v_entries vd = filter (not_dropped dropk) (v_entries vp) /\
     v_drop vp = [] /\ v_drop vd = dropk) by (cbn; auto 10).
  clearbody vp vd. revert vp vd r I Hp Hd.
  induction fuel as [|fuel IH]; intros vp vd s (I1 & I2 & I3 & I4 & I5 & I6 & I7 & I8) Hp Hd.
  { cbn in Hp, Hd. inversion Hp; inversion Hd; subst. auto 10. }
  cbn [read_loop] in Hp, Hd. rewrite I1 in Hd.
  destruct (read_entry_shape D (v_ctx vp) s) as (i & b & r & E & _). rewrite E in Hp, Hd.
  cbn [e_id] in Hp, Hd.
  assert (AP : forall e (w : vfb D), v_drop w = [] -> append_entry i e w = with_entries (v_entries w ++ [e]) w)
    by (intros; apply append_nodrop; auto).
  assert (AF : forall e (wp wd : vfb D), e_id e = Some i -> v_drop wd = dropk ->
     v_entries wd = filter (not_dropped dropk) (v_entries wp) ->
     v_entries (append_entry i e wd) = filter (not_dropped dropk) (v_entries wp ++ [e])).
  { intros e wp wd Hi Hdr HF. rewrite filter_app. cbn [filter].
    unfold append_entry, not_dropped, zmem. rewrite Hi, Hdr.
    destruct (existsb (Z.eqb i) dropk); cbn; rewrite HF; [rewrite app_nil_r|]; reflexivity. }
  assert (AK : forall e (w : vfb D), v_ctx (append_entry i e w) = v_ctx w /\
     v_header (append_entry i e w) = v_header w /\
     v_encoding (append_entry i e w) = v_encoding w /\
     v_any_errors (append_entry i e w) = v_any_errors w /\
     v_force_unicode (append_entry i e w) = v_force_unicode w /\
     v_drop (append_entry i e w) = v_drop w).
  { intros e w. unfold append_entry. destruct (zmem i (v_drop w)); cbn; auto 10. }
  destruct (is_eager i).
  - unfold entry_decompile in Hp, Hd. cbn [e_id e_data] in Hp, Hd.
    destruct (cd_parse T i (v_ctx vp) b) as [x|x].
    + cbn [set_data e_data e_id e_cache] in Hp, Hd.
      eapply IH; [|exact Hp|exact Hd]. clear IH Hp Hd.
      change (set_data (Dec x) _) with (mkEntry (D:=D) (Some i) (Dec x) None).
      set (e := mkEntry (D:=D) (Some i) (Dec x) None).
      set (wp := remember T i x vp). set (wd := remember T i x vd).
      assert (J : v_ctx wd = v_ctx wp /\ v_header wd = v_header wp /\
        v_encoding wd = v_encoding wp /\ v_any_errors wd = v_any_errors wp /\
        v_force_unicode wd = v_force_unicode wp /\
        v_entries wd = filter (not_dropped dropk) (v_entries wp) /\
        v_drop wp = [] /\ v_drop wd = dropk).
      { unfold wp, wd, remember. rewrite I1, I5.
        destruct (i =? F_FLVersion); [cbn; auto 10|].
        destruct (i =? F_MasterCount); cbn; auto 10. }
      destruct J as (J1 & J2 & J3 & J4 & J5 & J6 & J7 & J8).
      destruct (AK e wd) as (K1 & K2 & K3 & K4 & K5 & K6).
      rewrite K1, K2, K3, K4, K5, K6. rewrite (AF e wp wd) by auto.
      rewrite AP by auto. cbn. auto 10.
    + inversion Hp; inversion Hd; subst. cbn. rewrite I1, I2, I3, I4, I6. auto 10.
  - set (e := mkEntry (D:=D) (Some i) (Raw b) None) in *.
    destruct (AK e vd) as (K1 & K2 & K3 & K4 & K5 & K6).
    destruct (i =? F_BlockFileDataEnd).
    + inversion Hp; inversion Hd; subst p d op od.
      rewrite K1, K2, K3, K4. rewrite (AF e vp vd) by auto. rewrite AP by auto. cbn. auto 10.
    + eapply IH; [|exact Hp|exact Hd].
      rewrite K1, K2, K3, K4, K5, K6. rewrite (AF e vp vd) by auto.
      rewrite AP by auto. cbn. auto 10.
Qed.

Example C18_example :
  map (fun e => (e_id e, e_data e)) (v_entries (fst (vfb_read_bytes toy 10 (new_vfb [1503; 8] false false)
    (file_of 1 [(1503, [2; 0]); (7, [1]); (8, [5]); (7, [6]); (2, [])])))) =
  [(Some 7, Raw [1]); (Some 7, Raw [6]); (Some 2, Raw [])].
Proof. vm_compute. reflexivity. Qed.

Print Assumptions C18_drop_keys.

(** * C17 and C56: entries that cannot be compiled, and failing writes *)

Lemma write_stops : forall D (T : codecs D) v minor es1 l1 e es2 l2 i d,
  v_header v = HDec (fl_header minor) -> 0 <= minor < 256 ->
  v_entries v = es1 ++ e :: es2 ->
  Forall2 holds es1 l1 -> Forall framable l1 -> Forall2 holds es2 l2 ->
  e_id e = Some i -> e_data e = Dec d -> e_cache e = None -> cd_compile T i = None ->
  exists v', vfb_write_bytes T v =
    (v', header44 minor ++ flat_map (fun p => frame (fst p) (snd p)) l1, Err RuntimeError).
Proof.
  intros D T v minor es1 l1 e es2 l2 i d Hh Hm He H1 Hf H2 Hi Hd Hc Hcomp.
  unfold vfb_write_bytes, vfb_compile. rewrite Hh. cbn [header_compile].
  rewrite compile_header_fl by auto. cbn [rmap v_ctx v_entries with_header]. rewrite He.
  assert (EC : compile_entries T (v_ctx v) (es1 ++ e :: es2) = (es1 ++ e :: es2, Ok tt)).
  { clear He Hf. induction H1 as [|x p es l Hx HF IH].
    - cbn [app compile_entries]. unfold entry_compile at 1. rewrite Hd, Hi, Hcomp.
      rewrite (compile_entries_holds T _ _ _ H2). reflexivity.
    - cbn [app compile_entries]. destruct Hx as (_ & Hx & _).
      unfold entry_compile at 1. rewrite Hx, IH. reflexivity. }
  rewrite EC. cbn [v_header with_entries v_entries].
  assert (EW : exists es', write_entries (es1 ++ e :: es2) =
     (es', flat_map (fun p => frame (fst p) (snd p)) l1, Err RuntimeError)).
  { clear EC He. induction H1 as [|x p es l Hx HF IH].
    - cbn [app write_entries]. unfold entry_header, compute_header, entry_size.
      rewrite Hc, Hi, Hd. cbn. eexists. reflexivity.
    - apply Forall_cons_iff in Hf. destruct Hf as [Hf1 Hf2].
      destruct (IH Hf2) as (es' & E).
      destruct (entry_header_holds x p Hx Hf1) as (x' & h & Eh & Hh' & _ & Hdx & _).
      cbn [app write_entries]. rewrite Eh. destruct Hx as (_ & Hx & _).
      rewrite Hdx, Hx, E. eexists. cbn [flat_map]. rewrite app_assoc, Hh'. reflexivity. }
  destruct EW as (es' & ->). eexists. reflexivity.
Qed.

(** Decompiling an entry without a compiler (every unknown entry) makes it
    impossible to write the file: RuntimeError, after the entries before it have
    already been written. *)
Theorem C17_decompiled_unknown_refuted : forall D (T : codecs D) v minor es1 l1 e es2 l2 i b d,
  v_header v = HDec (fl_header minor) -> 0 <= minor < 256 ->
  v_entries v = es1 ++ fst (fst (entry_decompile T (v_ctx v) e)) :: es2 ->
  Forall2 holds es1 l1 -> Forall framable l1 -> Forall2 holds es2 l2 ->
  e_id e = Some i -> e_data e = Raw b -> e_cache e = None ->
  cd_parse T i (v_ctx v) b = Ok d -> cd_compile T i = None ->
  exists v', vfb_write_bytes T v =
    (v', header44 minor ++ flat_map (fun p => frame (fst p) (snd p)) l1, Err RuntimeError).
Proof.
  intros D T v minor es1 l1 e es2 l2 i b d Hh Hm He H1 Hf H2 Hi Hb Hc Hp Hcomp.
  unfold entry_decompile in He. rewrite Hi, Hb, Hp in He. cbn [fst] in He.
  eapply (write_stops D T v minor es1 l1 (set_data (Dec d) e)); eauto.
  reflexivity.
Qed.

(** [Vfb.write] to an existing file empties it first: when writing fails, the old
    content is gone and the new content is cut off. *)
Theorem C56_failed_write_keeps_file_refuted : exists (v v' : vfb bytes) old content x,
  vfb_write_file toy v old = (v', content, Err x) /\ content <> old /\ content <> [].
Proof.
  exists (mkVfb (HDec (fl_header 0))
     [mkEntry (Some 7) (Raw [1]) None; mkEntry (Some 5000) (Dec [2]) None; mkEntry (Some 2) (Raw []) None]
     ctx0 Utf8 false [] false false).
  eexists _, [1; 2; 3], _, _. split; [vm_compute; reflexivity|].
  split; discriminate.
Qed.

(** what is left in the file in general: nothing if compiling fails, otherwise the
    header and the entries up to the one that fails, whatever was there before *)
Theorem C56_failed_write_content : forall D (T : codecs D) v old v' content x,
  vfb_write_file T v old = (v', content, Err x) ->
  (exists v1, vfb_compile T v = (v1, Err x) /\ content = []) \/
  (exists v1 h es, vfb_compile T v = (v1, Ok tt) /\ v_header v1 = HRaw h /\
     exists b, content = h ++ b /\ write_entries (v_entries v1) = (es, b, Err x)).
Proof.
  intros D T v old v' content x H. unfold vfb_write_file, vfb_write_bytes in H.
  destruct (vfb_compile T v) as [v1 [[]|y]] eqn:E.
  - right. assert (exists h, v_header v1 = HRaw h) as (h & Hh).
    { unfold vfb_compile in E. destruct (header_compile (v_header v)) as [h|] eqn:Eh; [|discriminate].
      destruct (compile_entries T _ _) as [es o] eqn:Ee. inversion E; subst. cbn.
      unfold header_compile in Eh. destruct (v_header v); try discriminate.
      - inversion Eh; eauto.
      - destruct (compile_header h0); inversion Eh; eauto. }
    rewrite Hh in H. destruct (write_entries (v_entries v1)) as [[es b] o] eqn:Ew.
    inversion H; subst. eauto 10.
  - left. inversion H; subst. eauto.
Qed.

Print Assumptions C17_decompiled_unknown_refuted.
Print Assumptions C56_failed_write_keeps_file_refuted.
Print Assumptions C56_failed_write_content.

(** * C57: reusing a Vfb object *)

(** A second file is read differently than with a fresh object: [clear] keeps the
    number of masters of the first. *)
Theorem C57_reread_refuted : exists f1 f2 v1 v2 v2' r,
  vfb_read_bytes toy 20 (new_vfb [] false false) f1 = (v1, ROk tt []) /\
  vfb_read_bytes toy 20 v1 f2 = (v2, ROk tt r) /\
  vfb_read_bytes toy 20 (new_vfb [] false false) f2 = (v2', ROk tt []) /\
  map e_data (v_entries v2) <> map e_data (v_entries v2').
Proof.
  exists (file_of 0 [(1503, [1; 0]); (2, [])]).
  exists (file_of 0 [(1410, [1;2;3;4;5;6;7;8]); (7, [0; 0]); (2, [])]).
  eexists _, _, _, _.
  split; [vm_compute; reflexivity|]. split; [vm_compute; reflexivity|].
  split; [vm_compute; reflexivity|]. vm_compute. discriminate.
Qed.

(** The result depends on what was read before only through the context. *)
Theorem C57_reread_partial : forall D (T : codecs D) v fuel file w o w' o',
  v_drop v = [] -> v_only_header v = false -> v_ctx v = ctx0 ->
  vfb_read_bytes T fuel v file = (w, o) ->
  vfb_read_bytes T fuel (new_vfb [] false (v_force_unicode v)) file = (w', o') ->
  o = o' /\ v_header w = v_header w' /\ v_entries w = v_entries w' /\ v_ctx w = v_ctx w'.
Proof.
  intros D T v fuel file w o w' o' Hd Ho Hc H H'.
  unfold vfb_read_bytes, read_stream in *.
  destruct (parse_header file) as [h r|x r].
  2:{ inversion H; inversion H'; subst. cbn. auto. }
  set (a := with_header (HDec h) (vfb_clear v)) in H.
  set (b := with_header (HDec h) (vfb_clear _)) in H'.
  change (v_only_header b) with false in H'. assert (E : v_only_header a = false) by exact Ho.
  rewrite E in H. cbv iota in *.
  assert (I : v_header a = v_header b /\ v_entries a = v_entries b /\ v_ctx a = v_ctx b /\
     v_drop a = [] /\ v_drop b = [] /\ v_force_unicode a = v_force_unicode b)
    by (cbn; auto 10).
  clearbody a b. clear E. revert a b r I H H'.
  induction fuel as [|fuel IH]; intros a b s (I1 & I2 & I3 & I4 & I5 & I6) H H'.
  { cbn in H, H'. inversion H; inversion H'; subst. auto. }
  cbn [read_loop] in H, H'. rewrite I3 in H.
  destruct (read_entry_shape D (v_ctx b) s) as (i & d & r & E & _). rewrite E in H, H'.
  cbn [e_id] in H, H'.
  destruct (is_eager i).
  - unfold entry_decompile in H, H'. cbn [e_id e_data] in H, H'.
    destruct (cd_parse T i (v_ctx b) d) as [x|x].
    + cbn [set_data e_data e_id e_cache] in H, H'.
      change (set_data (Dec x) _) with (mkEntry (D:=D) (Some i) (Dec x) None) in H, H'.
      eapply IH; [|exact H|exact H']. unfold append_entry, remember.
      rewrite I3, I6.
      destruct (i =? F_FLVersion); [cbn; rewrite I4, I5; cbn; rewrite I2; auto 10|].
      destruct (i =? F_MasterCount); cbn; rewrite I4, I5; cbn; rewrite I2; auto 10.
    + inversion H; inversion H'; subst. cbn. auto.
  - destruct (i =? F_BlockFileDataEnd).
    + inversion H; inversion H'; subst. unfold append_entry. rewrite I4, I5. cbn. rewrite I2. auto.
    + eapply IH; [|exact H|exact H']. unfold append_entry. rewrite I4, I5. cbn. rewrite I2. auto 10.
Qed.

Print Assumptions C57_reread_refuted.
Print Assumptions C57_reread_partial.
