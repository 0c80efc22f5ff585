(** C97: the JSON of a VFB file. *)
From Coq Require Import ZifyBool ZifyNat String Permutation SpecFloat.
From Verif Require Import Base M_Stream M_Py M_Helpers M_Text M_Simple M_Bitmap M_TrueType M_Glyph M_Float M_Options
  M_Container M_Table M_Tools S_Encoding M_Json S_Json S_Dump S_File Lib P_Helpers P_Dec P_Json P_JsonData P_JsonFile Prop_Glyph.
Local Open Scope list_scope.

(** What is written is UTF-8 of a JSON text, and the text says what the dict of the Vfb says. *)
Theorem C97_reads : forall number t old b, numbers_ok number ->
  write_vfb_json (dumps number) t old = (b, Ok tt) ->
  exists text, Forall char_ok text /\ b = utf8 text /\ loads text = Some (shown number t).
Proof.
  intros number t old b (N & _) H. unfold write_vfb_json, dumps in H. destruct (dumpable t) eqn:D; [|discriminate].
  injection H as <-. exists (dump number 0 t). split; [|split; [reflexivity|]].
  - apply dump_chars; assumption.
  - apply loads_dump; assumption.
Qed.
Print Assumptions C97_reads.

(** Two Vfbs whose JSON is the same have the same header and the same entries, in the same order, with the same ids
    and data, when all doubles of one of them are finite numbers. *)
Theorem C97_determines : forall o number v v' t t' old old' b h, numbers_ok number ->
  v_header v = HDec h -> (exists h', v_header v' = HDec h') ->
  Forall (has_data o) (v_entries v) -> Forall (has_data o) (v_entries v') ->
  vfb_py o v t -> vfb_py o v' t' -> finite number t = true ->
  write_vfb_json (dumps number) t old = (b, Ok tt) -> write_vfb_json (dumps number) t' old' = (b, Ok tt) ->
  v_header v' = HDec h /\ map (fun e => (e_id e, e_data e)) (v_entries v') = map (fun e => (e_id e, e_data e)) (v_entries v).
Proof.
  intros o number v v' t t' old old' b h N Hv (h' & Hv') M M' V V' F W W'.
  destruct (C97_reads _ _ _ _ N W) as (s & C & -> & L). destruct (C97_reads _ _ _ _ N W') as (s' & C' & Eb & L').
  apply utf8_inj in Eb; [|assumption|assumption]. subst s'. rewrite L in L'.
  assert (E : shown number t = shown number t') by congruence. clear L L' C C' W W' s.
  unfold vfb_py, as_dict in V, V'. rewrite Hv in V. rewrite Hv' in V'. cbn [header_as_dict] in V, V'.
  destruct V as (x & l & X & FE & ->), V' as (x' & l' & X' & FE' & ->). cbn [json_py] in X, X'. subst x x'.
  change (JsDict [(py "header", JsDict [(py "decompiled", shown number (header_py h))]); (py "entries", JsList (map (shown number) l))]
        = JsDict [(py "header", JsDict [(py "decompiled", shown number (header_py h'))]); (py "entries", JsList (map (shown number) l'))]) in E.
  apply JsDict_eq in E. apply member_eq in E. destruct E as (E1 & E2). apply JsDict_eq in E1. apply member_eq in E1. destruct E1 as (E1 & _).
  apply member_eq in E2. destruct E2 as (E2 & _). apply JsList_eq in E2. rewrite Hv'. split.
  - clear - E1. unfold header_py in E1. cbn [S_Dump.shown pd map fst snd] in E1. destruct h, h'. cbn in E1. congruence.
  - assert (Fl : forallb (finite number) l = true).
    { cbn [S_Dump.finite pd map fst snd forallb] in F. rewrite !andb_true_iff in F. tauto. }
    clear E1 F Hv Hv'. revert M M' l l' FE FE' E2 Fl. generalize (v_entries v') as es'. induction (v_entries v) as [|e es IH].
    + intros [|e' es'] M M' l l' FE FE' E F; [reflexivity|]. inversion FE; subst. inversion FE'; subst. discriminate.
    + intros es' M M' l l' FE FE' E F. cbn [map] in FE. inversion FE as [|? t0 ? l0 A B]; subst. destruct es' as [|e' es'].
      * inversion FE'; subst. discriminate.
      * cbn [map] in FE'. inversion FE' as [|? t1 ? l1 A' B']; subst. cbn [map] in E. apply item_eq in E. destruct E as (E1 & E2).
        cbn [forallb] in F. rewrite andb_true_iff in F. destruct F as (F1 & F2). apply Forall_cons_iff in M, M'. destruct M as (M1 & M2), M' as (M1' & M2').
        destruct (entry_tree number N o e e' t0 t1 M1 M1' A A' E1 F1) as (I1 & I2). cbn [map]. rewrite I1, I2. f_equal. eapply IH; eassumption.
Qed.
Print Assumptions C97_determines.

(** Two files of which vfb2json makes the same JSON are the same to a reader: same header, and the same entries
    with the same data. *)
Theorem C97_files : forall o number fuel fuel' only minimal uni no_decompile roundtrip file file' v v' t t' old old' b,
  numbers_ok number -> bytes_ok file -> bytes_ok file' -> no_decompile && roundtrip = false ->
  save_vfb o fuel only minimal uni no_decompile roundtrip file = (v, Ok tt) ->
  save_vfb o fuel' only minimal uni no_decompile roundtrip file' = (v', Ok tt) ->
  vfb_py o v t -> vfb_py o v' t' -> finite number t = true ->
  write_vfb_json (dumps number) t old = (b, Ok tt) -> write_vfb_json (dumps number) t' old' = (b, Ok tt) ->
  v_header v' = v_header v /\ map (fun e => (e_id e, e_data e)) (v_entries v') = map (fun e => (e_id e, e_data e)) (v_entries v).
Proof.
  intros o number fuel fuel' only minimal uni nd rt file file' v v' t t' old old' b N B B' O S S' V V' F W W'.
  destruct (save_made _ _ _ _ _ _ _ _ _ B O S) as (M & h & H). destruct (save_made _ _ _ _ _ _ _ _ _ B' O S') as (M' & H').
  rewrite H. eapply C97_determines; eassumption.
Qed.
Print Assumptions C97_files.

Lemma bytes_okb_ok : forall b, forallb (fun c => (0 <=? c) && (c <? 256)) b = true -> bytes_ok b.
Proof. intros b H. apply Forall_forall. intros c I. rewrite forallb_forall in H. specialize (H c I). cbv beta in H. unfold is_byte. lia. Qed.

(** ** Refuted: JSON can be written of every file that can be decompiled *)
(** A name record holds UTF-16, so a character outside of the BMP is a pair of surrogates. The parser makes a string
    with two surrogates of it. No JSON is written then, and the file is left empty. *)
Definition surrogate_file : bytes := file_of 7
  [(1138, [140; 140; 142; 140; 139; 141; 255; 0; 0; 0xD8; 0x3D; 255; 0; 0; 0xDE; 0x00]); (2, [])].
Theorem C97_surrogates_refuted : forall o number, exists file v t,
  bytes_ok file /\ save_vfb o 20 false false false false false file = (v, Ok tt) /\ vfb_py o v t /\
  forall old, write_vfb_json (dumps number) t old = ([], Err TypeError).
Proof.
  intros o number. exists surrogate_file. eexists _, _. split; [|split; [|split]].
  - apply bytes_okb_ok. vm_compute. reflexivity.
  - vm_compute. reflexivity.
  - eexists _, _. split; [reflexivity|]. split; [|reflexivity].
    repeat (apply Forall2_cons; [eexists; split; reflexivity|]). apply Forall2_nil.
  - intros old. reflexivity.
Qed.
Print Assumptions C97_surrogates_refuted.

(** ** Refuted: the JSON determines the data *)
(** An infinity and a NaN are both written as null. *)
Definition angle_file (b7 : Z) : bytes := file_of 7 [(1029, [0; 0; 0; 0; 0; 0; b7; 0x7F]); (2, [])].
Theorem C97_nan_refuted : forall o number, number (Bits 0x7FF0000000000000) = None -> number (Bits 0x7FF8000000000000) = None ->
  exists file file' v v' t t', bytes_ok file /\ bytes_ok file' /\
  save_vfb o 20 false false false false false file = (v, Ok tt) /\
  save_vfb o 20 false false false false false file' = (v', Ok tt) /\
  vfb_py o v t /\ vfb_py o v' t' /\
  map e_data (v_entries v) <> map e_data (v_entries v') /\
  forall old, exists b, write_vfb_json (dumps number) t old = (b, Ok tt) /\ write_vfb_json (dumps number) t' old = (b, Ok tt).
Proof.
  intros o number N1 N2. exists (angle_file 0xF0), (angle_file 0xF8). eexists _, _, _, _.
  split; [apply bytes_okb_ok; vm_compute; reflexivity|]. split; [apply bytes_okb_ok; vm_compute; reflexivity|].
  split; [vm_compute; reflexivity|]. split; [vm_compute; reflexivity|].
  split; [|split; [|split]].
  - eexists _, _. split; [reflexivity|]. split; [|reflexivity].
    repeat (apply Forall2_cons; [eexists; split; reflexivity|]). apply Forall2_nil.
  - eexists _, _. split; [reflexivity|]. split; [|reflexivity].
    repeat (apply Forall2_cons; [eexists; split; reflexivity|]). apply Forall2_nil.
  - discriminate.
  - intros old. eexists. split; [reflexivity|]. unfold write_vfb_json, dumps. cbn [dumpable].
    match goal with |- context [if ?c then _ else _] => change c with true end. cbv iota. f_equal. f_equal.
    cbn [dump pd map fst snd commas plain_py pdouble opt app]. rewrite N1, N2. reflexivity.
Qed.
Print Assumptions C97_nan_refuted.

(** ** Refuted: --minimal parses only a minimal amount of data *)
(** The note of a glyph is in the JSON with --minimal, like everything else. *)
Theorem C97_minimal_refuted : forall o, exists file v t,
  bytes_ok file /\ save_vfb o 20 false true false false false file = (v, Ok tt) /\ vfb_py o v t /\
  (exists e i d, In e (v_entries v) /\ e_id e = Some i /\ e_data e = Dec d /\ In i ignore_minimal_keys) /\
  forall fuel only uni no_decompile roundtrip file,
    save_vfb o fuel only true uni no_decompile roundtrip file = save_vfb o fuel only false uni no_decompile roundtrip file.
Proof.
  intros o. exists (file_of 7 [(2017, [65]); (2, [])]). eexists _, _. split; [|split; [|split; [|split]]].
  - apply bytes_okb_ok. vm_compute. reflexivity.
  - vm_compute. reflexivity.
  - eexists _, _. split; [reflexivity|]. split; [|reflexivity].
    repeat (apply Forall2_cons; [eexists; split; reflexivity|]). apply Forall2_nil.
  - eexists _, _, _. split; [left; reflexivity|]. split; [reflexivity|]. split; [reflexivity|]. vm_compute. tauto.
  - reflexivity.
Qed.
Print Assumptions C97_minimal_refuted.

(** ** Examples *)
(** texts of floats that are as they should be *)
Definition sample_number (x : fval) : option pystr :=
  match x with
  | Bits b => if (b / 2 ^ 52) mod 2048 =? 2047 then None else Some (dec_str b ++ py ".0")
  | Num (S754_finite s m e) => Some (dec_str (if s then Z.neg m else Z.pos m) ++ py "e" ++ dec_str e)
  | Num (S754_zero s) => Some (if s then py "-0.0" else py "0.0")
  | Num _ => None
  end.
Lemma digits_stop : forall s r r', digits s = Some r -> match r' with c :: _ => digit c = false | [] => True end ->
  r = [] -> digits (s ++ r') = Some r'.
Proof.
  intros [|c s] r r' H R E; [discriminate|]. subst r. cbn [digits app] in *. destruct (digit c); [|discriminate]. f_equal.
  assert (X : snd (span digit s) = []) by congruence. clear H c. induction s as [|c s IH].
  - destruct r' as [|d r']; [reflexivity|]. cbn [app span]. rewrite R. reflexivity.
  - cbn [app span] in *. destruct (digit c); [|discriminate]. destruct (span digit s) as [a b], (span digit (s ++ r')) as [a' b']. cbn [snd] in *. auto.
Qed.
Lemma int_part_stop : forall t r, is_int t = true -> match r with c :: _ => digit c = false | [] => True end -> int_part (t ++ r) = Some r.
Proof.
  intros t r H R. unfold is_int in H. destruct (int_part t) as [[|]|] eqn:E; try discriminate. clear H.
  assert (U : forall s, match s with c :: r => if c =? 48 then Some r else digits s | [] => None end = Some [] ->
    match s ++ r with c :: q => if c =? 48 then Some q else digits (s ++ r) | [] => None end = Some r).
  { intros [|c s] X; [discriminate|]. cbn [app]. destruct (c =? 48); [injection X as ->; reflexivity|]. exact (digits_stop (c :: s) [] r X R eq_refl). }
  unfold int_part in *. destruct t as [|c t]; [discriminate|]. cbn [app]. destruct (c =? 45); [exact (U t E)|exact (U (c :: t) E)].
Qed.
Lemma cut : forall (c : Z) a b a' b', ~ In c a -> ~ In c a' -> a ++ c :: b = a' ++ c :: b' -> a = a' /\ b = b'.
Proof.
  intros c. induction a as [|x a IH]; intros b [|x' a'] b' N N' E; cbn [app] in E.
  - apply cons_eq in E. split; [reflexivity|apply E].
  - apply cons_eq in E. exfalso. apply N'. left. symmetry. apply E.
  - apply cons_eq in E. exfalso. apply N. left. apply E.
  - apply cons_eq in E. destruct E as (-> & E). destruct (IH b a' b') as (-> & ->); [..|split; reflexivity].
    + intros I. apply N. right. exact I.
    + intros I. apply N'. right. exact I.
    + exact E.
Qed.
Lemma dec_str_no_e : forall n, ~ In 101 (dec_str n).
Proof.
  intros n I. assert (G : forall m, 0 <= m -> ~ In 101 (dec_nat m)).
  { intros m Hm J. pose proof (proj1 (Forall_forall _ _) (dec_nat_digits m Hm) _ J) as X. cbv beta in X. lia. }
  unfold dec_str in I. destruct (n <? 0) eqn:E; [destruct I as [I|I]; [discriminate|]|]; revert I; apply G; lia.
Qed.
Example sample_number_ok : numbers_ok sample_number.
Proof.
  split; [|split].
  - intros [b|[s|s| |s m e]] t H; cbn [sample_number] in H; try discriminate.
    + destruct ((b / 2 ^ 52) mod 2048 =? 2047); [discriminate|]. injection H as <-.
      assert (P : int_part (dec_str b ++ py ".0") = Some (py ".0")) by (apply int_part_stop; [apply dec_str_number|reflexivity]).
      split; [unfold is_number|unfold is_int]; rewrite P; reflexivity.
    + injection H as <-. destruct s; split; reflexivity.
    + apply (f_equal (fun o => match o with Some x => x | None => [] end)) in H. cbv beta iota in H. subst t. set (k := if s then Z.neg m else Z.pos m).
      assert (P : int_part (dec_str k ++ py "e" ++ dec_str e) = Some (py "e" ++ dec_str e)) by (apply int_part_stop; [apply dec_str_number|reflexivity]).
      split; [unfold is_number|unfold is_int]; rewrite P; [|reflexivity].
      change (frac_part (py "e" ++ dec_str e)) with (Some (101 :: dec_str e)). cbv iota.
      assert (X : exp_part (101 :: dec_str e) = Some []); [|rewrite X; reflexivity].
      pose proof (dec_str_number e) as (I & _). unfold is_int in I. destruct (int_part (dec_str e)) as [[|]|] eqn:E; try discriminate.
      unfold exp_part. cbn [Z.eqb orb Pos.eqb]. unfold int_part in E. destruct (dec_str e) as [|c r] eqn:Ee; [discriminate|].
      assert (Y : forall s, match s with c :: r => if c =? 48 then Some r else digits s | [] => None end = Some [] -> digits s = Some []).
      { intros [|d u] Q; [discriminate|]. destruct (d =? 48) eqn:Q1; [|exact Q]. injection Q as ->. cbn [digits].
        replace (digit d) with true by (unfold digit; lia). reflexivity. }
      destruct (c =? 45) eqn:C1.
      * rewrite orb_true_r. apply Y. exact E.
      * destruct (c =? 43) eqn:C2; [|apply Y; exact E]. exfalso. apply (Y (c :: r)) in E. cbn [digits] in E.
        replace (digit c) with false in E by (unfold digit; lia). discriminate.
  - intros a b t A B. cbn [sample_number] in A, B. destruct (_ =? 2047) in A; [discriminate|]. destruct (_ =? 2047) in B; [discriminate|].
    assert (E : dec_str a ++ py ".0" = dec_str b ++ py ".0") by congruence. apply app_inv_tail in E. apply dec_str_inj. exact E.
  - assert (Z0 : forall (s : bool) k e, dec_str k ++ py "e" ++ dec_str e <> (if s then py "-0.0" else py "0.0")).
    { intros s k e X. assert (I : In 101 (if s : bool then py "-0.0" else py "0.0")) by (rewrite <- X; apply in_or_app; right; left; reflexivity).
      destruct s; cbn in I; repeat (destruct I as [I|I]; [discriminate|]); exact I. }
    intros [s|s| |s m e] [s'|s'| |s' m' e'] t A B; cbn [sample_number] in A, B; try discriminate.
    + destruct s, s'; try reflexivity; rewrite <- A in B; discriminate.
    + exfalso. apply (Z0 s (if s' then Z.neg m' else Z.pos m') e'). apply (f_equal (fun o => match o with Some x => x | None => [] end)) in A, B. rewrite B, A. reflexivity.
    + exfalso. apply (Z0 s' (if s then Z.neg m else Z.pos m) e). apply (f_equal (fun o => match o with Some x => x | None => [] end)) in A, B. rewrite A, B. reflexivity.
    + apply (f_equal (fun o => match o with Some x => x | None => [] end)) in A, B. rewrite <- A in B. symmetry in B.
      apply (cut 101) in B; [|apply dec_str_no_e|apply dec_str_no_e]. destruct B as (B1 & B2). apply dec_str_inj in B1, B2. destruct s, s'; congruence.
Qed.
(** a file with an angle, font options and a glyph with two masters *)
Definition c97_file : bytes := Eval vm_compute in file_of 7
  [(10, [1; 139; 2; 255; 0; 0; 0; 1; 3; 139; 0]); (1026, [65; 0xE9]); (1503, [2; 0]); (1029, [0; 0; 0; 0; 0; 0; 0x28; 0xC0]);
   (1743, [2; 145; 12; 255; 0; 0; 39; 16; 100]);
   (2001, match compile_glyph sample_oracles (Some 2) sample_glyph with Ok b => b | Err _ => [] end); (2, [])].
Example C97_ex : exists v t b,
  bytes_ok c97_file /\ save_vfb sample_oracles 20 false false false false false c97_file = (v, Ok tt) /\
  List.length (v_entries v) = 7%nat /\ vfb_py sample_oracles v t /\ finite sample_number t = true /\
  forall old, write_vfb_json (dumps sample_number) t old = (b, Ok tt).
Proof.
  eexists. eexists. eexists. split; [apply bytes_okb_ok; vm_compute; reflexivity|]. split; [vm_compute; reflexivity|].
  split; [reflexivity|]. split; [|split; [|intros old]].
  - eexists _, _. split; [reflexivity|]. split; [|reflexivity].
    repeat (apply Forall2_cons; [eexists; split; [first [reflexivity|idtac]|reflexivity]|]); [|apply Forall2_nil].
    eexists (Some _), _. split; [reflexivity|]. split; [apply Permutation_refl|]. eexists. split; [reflexivity|apply Permutation_refl].
  - vm_compute. reflexivity.
  - vm_compute. reflexivity.
Qed.
