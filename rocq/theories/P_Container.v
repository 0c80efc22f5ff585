(** Proofs about the container layer. *)
From Coq Require Import ZifyBool ZifyNat.
From Verif Require Import Base Lib M_Stream P_Stream M_Container S_File.
Open Scope rd_scope.
Ltac Zify.zify_post_hook ::= Z.div_mod_to_equations.

(** ** The top bit of an id *)
Lemma lor_8000 : forall i, 0 <= i < 32768 -> Z.lor i 0x8000 = i + 32768.
Proof.
  intros i H. rewrite <- Z.lxor_lor.
  - symmetry. apply Z.add_nocarry_lxor.
    apply Z.bits_inj'. intros n Hn. rewrite Z.land_spec, Z.bits_0.
    destruct (Z.testbit i n) eqn:E; [|reflexivity]. cbn.
    replace 32768 with (2 ^ 15) by reflexivity.
    rewrite Z.pow2_bits_eqb by lia. apply Z.eqb_neq. intros <-.
    rewrite Z.testbit_true in E by lia. rewrite Z.div_small in E; cbn in E; lia.
  - apply Z.bits_inj'. intros n Hn. rewrite Z.land_spec, Z.bits_0.
    destruct (Z.testbit i n) eqn:E; [|reflexivity]. cbn.
    replace 32768 with (2 ^ 15) by reflexivity.
    rewrite Z.pow2_bits_eqb by lia. apply Z.eqb_neq. intros <-.
    rewrite Z.testbit_true in E by lia. rewrite Z.div_small in E; cbn in E; lia.
Qed.

Lemma land_8000_low : forall i, 0 <= i < 32768 -> Z.land i 0x8000 = 0.
Proof.
  intros i H. apply Z.bits_inj'. intros n Hn. rewrite Z.land_spec, Z.bits_0.
  destruct (Z.testbit i n) eqn:E; [|reflexivity]. cbn.
  replace 32768 with (2 ^ 15) by reflexivity.
  rewrite Z.pow2_bits_eqb by lia. apply Z.eqb_neq. intros <-.
  rewrite Z.testbit_true in E by lia. rewrite Z.div_small in E; cbn in E; lia.
Qed.

Lemma land_8000_high : forall i, 0 <= i < 32768 -> Z.land (i + 32768) 0x8000 = 32768.
Proof.
  intros i H. rewrite <- lor_8000 by lia. rewrite Z.land_lor_distr_l.
  rewrite land_8000_low by lia. reflexivity.
Qed.

Lemma ldiff_8000_low : forall i, 0 <= i < 32768 -> Z.land i (Z.lnot 0x8000) = i.
Proof.
  intros i H. rewrite <- Z.ldiff_land.
  pose proof (Z.lor_ldiff_and i 0x8000) as E. rewrite land_8000_low in E by lia.
  rewrite Z.lor_0_r in E. exact E.
Qed.

Lemma ldiff_8000_high : forall i, 0 <= i < 32768 ->
  Z.land (i + 32768) (Z.lnot 0x8000) = i.
Proof.
  intros i H. rewrite <- lor_8000 by lia. rewrite Z.land_lor_distr_l.
  rewrite ldiff_8000_low by lia. rewrite Z.land_lnot_diag, Z.lor_0_r. reflexivity.
Qed.

(** ** Reading fixed width numbers off the front *)
Lemma read_uint16_le : forall v rest, 0 <= v < 65536 ->
  read_uint16 (le_enc 2 v ++ rest) = ROk v rest.
Proof.
  intros v rest H. unfold read_uint16, rbind, read_bytes, ret.
  rewrite take_app_exact, drop_app_exact by (rewrite le_enc_length; reflexivity).
  rewrite le_dec_enc_u; [reflexivity|]. cbn. lia.
Qed.
Lemma read_uint32_le : forall v rest, 0 <= v < 4294967296 ->
  read_uint32 (le_enc 4 v ++ rest) = ROk v rest.
Proof.
  intros v rest H. unfold read_uint32, rbind, read_bytes, ret.
  rewrite take_app_exact, drop_app_exact by (rewrite le_enc_length; reflexivity).
  rewrite le_dec_enc_u; [reflexivity|]. cbn. lia.
Qed.

Section Container.
  Context {D : Type} (T : codecs D).

  Lemma compute_header_frame : forall (e : entry D) i d,
    e_id e = Some i -> e_data e = Raw d -> framable (i, d) ->
    exists h, compute_header e = Ok h /\ h ++ d = frame i d.
  Proof.
    intros e i d Hi Hd [H1 H2]. cbn [fst snd] in *.
    unfold compute_header, entry_size. rewrite Hi, Hd. cbn [rthen].
    unfold frame, le. set (n := Z.of_nat (length d)) in *.
    assert (0 <= n) by lia.
    destruct (65535 <? n) eqn:E.
    - replace (n <=? 65535) with false by lia. rewrite lor_8000 by lia.
      unfold pack_le_u, urange, in_range.
      replace ((0 <=? i + 32768) && (i + 32768 <? 2 ^ (8 * Z.of_nat 2))) with true
        by (cbn; lia).
      replace ((0 <=? n) && (n <? 2 ^ (8 * Z.of_nat 4))) with true by (cbn; cbn in H2; lia).
      eexists. split; [reflexivity|]. rewrite <- !app_assoc. reflexivity.
    - replace (n <=? 65535) with true by lia.
      unfold pack_le_u, urange, in_range.
      replace ((0 <=? i) && (i <? 2 ^ (8 * Z.of_nat 2))) with true by (cbn; lia).
      replace ((0 <=? n) && (n <? 2 ^ (8 * Z.of_nat 2))) with true by (cbn; lia).
      eexists. split; [reflexivity|]. rewrite <- !app_assoc. reflexivity.
  Qed.

  Lemma read_entry_frame : forall c i d rest, framable (i, d) ->
    (i = 1410 -> Z.of_nat (length d) = 8 + 2 * num_masters c) ->
    @read_entry D c (frame i d ++ rest) = ROk (mkEntry (Some i) (Raw d) None) rest.
  Proof.
    intros c i d rest [H1 H2] Hm. cbn [fst snd] in *.
    unfold frame, le, read_entry.
    set (n := Z.of_nat (length d)) in *. assert (0 <= n) by lia.
    assert (Hn : (if i =? F_MMKernPair then 2 * 4 + num_masters c * 2 else n) = n).
    { destruct (i =? F_MMKernPair) eqn:E; [|reflexivity].
      unfold F_MMKernPair in E. rewrite (Hm ltac:(lia)). lia. }
    destruct (n <=? 65535) eqn:E.
    - rewrite <- !app_assoc. unfold rbind at 1. rewrite read_uint16_le by lia.
      rewrite land_8000_low, ldiff_8000_low by lia.
      change (0 =? 0) with true. cbv iota. unfold rbind at 1.
      rewrite read_uint16_le by lia. rewrite Hn.
      unfold rbind, read_bytes. rewrite take_app_exact, drop_app_exact by reflexivity.
      reflexivity.
    - rewrite <- !app_assoc. unfold rbind at 1. rewrite read_uint16_le by lia.
      rewrite land_8000_high, ldiff_8000_high by lia.
      change (32768 =? 0) with false. cbv iota. unfold rbind at 1.
      rewrite read_uint32_le by (cbn in H2; lia). rewrite Hn.
      unfold rbind, read_bytes. rewrite take_app_exact, drop_app_exact by reflexivity.
      reflexivity.
  Qed.

  (** ** Writing entries that hold bytes *)
  Lemma entry_header_holds : forall (e : entry D) p, holds e p -> framable p ->
    exists e' h, entry_header e = (e', Ok h) /\ h ++ snd p = frame (fst p) (snd p) /\
      holds e' p /\ e_data e' = e_data e /\ e_id e' = e_id e.
  Proof.
    intros e [i d] (Hi & Hd & Hc) Hf. cbn [fst snd] in *. unfold entry_header.
    destruct (e_cache e) as [h|] eqn:E.
    - exists e, h. repeat split; auto.
      intros h' E'. apply Hc. cbn in *. congruence.
    - destruct (compute_header_frame e i d Hi Hd Hf) as (h & Eh & Hh). rewrite Eh.
      eexists _, h. repeat split; auto. cbn. intros h' [= <-]. auto.
  Qed.

  Lemma compile_entries_holds : forall c (es : list (entry D)) l,
    Forall2 holds es l -> compile_entries T c es = (es, Ok tt).
  Proof.
    induction 1 as [|e p es l H H2 IH]; cbn [compile_entries]; [reflexivity|].
    destruct H as (Hi & Hd & Hc). unfold entry_compile. rewrite Hd, IH. reflexivity.
  Qed.

  Lemma write_entries_holds : forall (es : list (entry D)) l,
    Forall2 holds es l -> Forall framable l ->
    exists es', write_entries es =
      (es', flat_map (fun p => frame (fst p) (snd p)) l, Ok tt) /\ Forall2 holds es' l /\
      map e_data es' = map e_data es /\ map e_id es' = map e_id es.
  Proof.
    induction 1 as [|e p es l H H2 IH]; intros Hf.
    - exists []. cbn. auto.
    - inversion Hf; subst. destruct (IH H4) as (es' & E & F & M1 & M2).
      destruct (entry_header_holds e p H H3) as (e' & h & Eh & Hh & Hh' & Hd & Hi).
      cbn [write_entries]. rewrite Eh.
      destruct H as (_ & Hd0 & _). rewrite Hd, Hd0, E.
      exists (e' :: es'). cbn [flat_map map]. rewrite M1, M2, Hi, Hd.
      rewrite app_assoc, Hh. auto.
  Qed.

  (** ** Reading a list of frames *)
  (** the encoding after the FL Version entries of a list *)
  Definition same_but_enc (v w : vfb D) : Prop :=
    v_header v = v_header w /\ v_any_errors v = v_any_errors w /\
    v_drop v = v_drop w /\ v_only_header v = v_only_header w /\
    v_force_unicode v = v_force_unicode w.

  Lemma append_nodrop : forall i e (v : vfb D), v_drop v = [] ->
    append_entry i e v = with_entries (v_entries v ++ [e]) v.
  Proof. intros. unfold append_entry. rewrite H. reflexivity. Qed.

  Lemma reads_as_length : forall c l c' (es : list (edata D)),
    reads_as T c l c' es -> length l = length es.
  Proof. induction 1; cbn; auto. Qed.

  (** reading the frames of [l] in front of anything takes the Vfb to a state in which
      they are appended and the context is updated *)
  Lemma read_loop_frames : forall c l c' ds, reads_as T c l c' ds ->
    forall v, v_ctx v = c -> v_drop v = [] -> Forall framable l -> ~ In 2 (map fst l) ->
    exists w, v_ctx w = c' /\ v_entries w = v_entries v ++ fresh_entries l ds /\
      same_but_enc v w /\
      forall fuel rest,
      read_loop T (length l + fuel) v
        (flat_map (fun p => frame (fst p) (snd p)) l ++ rest) = read_loop T fuel w rest.
  Proof.
    induction 1 as [c|c i d l c' es H1 H2 H3 H4 H IH|c d x l c' es Hp H IH
                   |c d x l c' es Hp H IH|c d x l c' es Hp H IH];
      intros v Hc Hd Hf Hn.
    - exists v. cbn. rewrite app_nil_r. repeat split; auto.
    - inversion Hf; subst. cbn [map fst In] in Hn.
      set (e := mkEntry (D:=D) (Some i) (Raw d) None).
      destruct (IH (append_entry i e v)) as (w & W1 & W2 & W3 & W4).
      { rewrite append_nodrop; auto. } { rewrite append_nodrop; auto. }
      { auto. } { tauto. }
      rewrite append_nodrop in W2, W3 by auto.
      exists w. repeat split; auto; try apply W3.
      + rewrite W2. cbn. rewrite <- app_assoc. reflexivity.
      + intros fuel rest. rewrite <- W4.
        cbn [length plus flat_map fst snd]. cbn [read_loop].
        rewrite <- app_assoc. rewrite read_entry_frame by auto.
        cbn [e_id]. unfold is_eager, F_FLVersion, F_MasterCount, T_TrueTypeStems.
        replace ((i =? 10) || (i =? 1503) || (i =? 1269)) with false by lia.
        unfold F_BlockFileDataEnd.
        replace (i =? 2) with false by (symmetry; apply Z.eqb_neq; intuition).
        reflexivity.
    - inversion Hf; subst. cbn [map fst In] in Hn.
      set (e := mkEntry (D:=D) (Some 10) (Dec x) None).
      destruct (IH (append_entry 10 e (remember T 10 x v))) as (w & W1 & W2 & W3 & W4).
      { rewrite append_nodrop; auto. } { rewrite append_nodrop; auto. }
      { auto. } { tauto. }
      rewrite append_nodrop in W2, W3 by auto.
      exists w. repeat split; auto; try apply W3.
      + rewrite W2. cbn. rewrite <- app_assoc. reflexivity.
      + intros fuel rest. rewrite <- W4.
        cbn [length plus flat_map fst snd]. cbn [read_loop].
        rewrite <- app_assoc. rewrite read_entry_frame by (auto; lia).
        cbn [e_id]. change (is_eager 10) with true. cbv iota.
        unfold entry_decompile. cbn [e_id e_data]. rewrite Hp. reflexivity.
    - inversion Hf; subst. cbn [map fst In] in Hn.
      set (e := mkEntry (D:=D) (Some 1503) (Dec x) None).
      destruct (IH (append_entry 1503 e (remember T 1503 x v))) as (w & W1 & W2 & W3 & W4).
      { rewrite append_nodrop; auto. } { rewrite append_nodrop; auto. }
      { auto. } { tauto. }
      rewrite append_nodrop in W2, W3 by auto.
      exists w. repeat split; auto; try apply W3.
      + rewrite W2. cbn. rewrite <- app_assoc. reflexivity.
      + intros fuel rest. rewrite <- W4.
        cbn [length plus flat_map fst snd]. cbn [read_loop].
        rewrite <- app_assoc. rewrite read_entry_frame by (auto; lia).
        cbn [e_id]. change (is_eager 1503) with true. cbv iota.
        unfold entry_decompile. cbn [e_id e_data]. rewrite Hp. reflexivity.
    - inversion Hf; subst. cbn [map fst In] in Hn.
      set (e := mkEntry (D:=D) (Some 1269) (Dec x) None).
      destruct (IH (append_entry 1269 e (remember T 1269 x v))) as (w & W1 & W2 & W3 & W4).
      { rewrite append_nodrop; auto. } { rewrite append_nodrop; auto. }
      { auto. } { tauto. }
      rewrite append_nodrop in W2, W3 by auto.
      exists w. repeat split; auto; try apply W3.
      + rewrite W2. cbn. rewrite <- app_assoc. reflexivity.
      + intros fuel rest. rewrite <- W4.
        cbn [length plus flat_map fst snd]. cbn [read_loop].
        rewrite <- app_assoc. rewrite read_entry_frame by (auto; lia).
        cbn [e_id]. change (is_eager 1269) with true. cbv iota.
        unfold entry_decompile. cbn [e_id e_data]. rewrite Hp. reflexivity.
  Qed.
End Container.
