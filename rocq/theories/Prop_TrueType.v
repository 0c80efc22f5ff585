(** C29, C30, C31 and the gasp and VDMX parts of C19, C20; the TrueType parts of C40. *)
From Coq Require Import String Sorting.Sorted Permutation.
From Verif Require Import Base M_Stream M_Helpers M_Text M_Py M_Simple M_TrueType S_Bits S_Text S_Entry
  S_TrueType Lib P_Stream P_Helpers P_Text P_Text2 P_Loop P_Simple P_Simple2 P_Simple3 P_TrueType
  P_TrueType2 Prop_Simple.
Local Open Scope list_scope.
From Coq Require Import ZifyBool ZifyNat.
Ltac Zify.zify_post_hook ::= Z.div_mod_to_equations.

(** ** C30: TrueType info *)
(** A dict is an unordered collection of items: [Permutation] is equality of dicts. *)
Theorem C30_tt_info : forall d, wf_tt_info d ->
  exists bs d', compile_tt_info d = Ok bs /\ bytes_ok bs /\
    run_parser parse_tt_info bs = Ok d' /\ Permutation d d'.
Proof.
  intros d Hd. destruct (wrt_run _ _ _ _ (wrt_tt_info d Hd)) as (bs & E & O & R).
  exists bs, (tt_rewritten d). auto using rewritten_same.
Qed.
Print Assumptions C30_tt_info.

(** Each number is stored after its own mark, and all numbers have one. *)
Theorem C30_stored : forall mark name v, In (mark, name) tt_stored_ints -> int32 v ->
  exists bs, write_value v = Ok bs /\
    run_parser parse_tt_info (mark :: bs ++ [0x32]) = Ok [(name, VInt v)].
Proof.
  intros mark name v Hin Hv. destruct (wrt_value v Hv) as (bs & E & O & R).
  exists bs. split; [exact E|].
  assert (G : forallb (fun r => in_range 0 256 (fst r) && tt_plain (fst r) && negb (fst r =? 0x32) &&
                        str_eqb (tt_key (fst r)) (snd r)) tt_stored_ints = true)
    by (vm_compute; reflexivity).
  rewrite forallb_forall in G. specialize (G _ Hin). cbn [fst snd] in G.
  apply andb_prop in G. destruct G as [G G4]. apply andb_prop in G. destruct G as [G G3].
  apply andb_prop in G. destruct G as [G1 G2]. apply str_eqb_eq in G4. apply negb_true_iff in G3.
  unfold run_parser, parse_tt_info, rloop. cbn [length]. rewrite app_length. cbn [length].
  replace (length bs + 1)%nat with (S (length bs)) by lia. cbn [rwhile].
  unfold rbind at 1. unfold tt_info_turn at 1. unfold rbind at 1.
  rewrite uint8_cons by (unfold in_range in G1; unfold is_byte; lia).
  rewrite G3, G2. cbn [assert_unique aget]. unfold rbind, ret. rewrite R.
  cbn [app aset]. rewrite G4. unfold tt_info_turn at 1. unfold rbind at 1.
  rewrite uint8_cons by (unfold is_byte; lia). reflexivity.
Qed.
Theorem C30_marks : NoDup (map fst tt_stored_ints) /\
  forall name, In name (map snd tt_stored_ints) <-> In name (tt_required_ints ++ tt_optional_ints).
Proof.
  split; [repeat constructor; cbn; intuition discriminate|].
  intros name. split; intros H; cbn in H; repeat (destruct H as [<-|H]; [vm_compute; tauto|]); destruct H.
Qed.
Print Assumptions C30_stored. Print Assumptions C30_marks.

Definition tt_sample : tt_info :=
  [(py "Codepages", VPages 1 (2 ^ 32 - 1)); (py "max_zones", VInt 2);
   (py "max_twilight_points", VInt 0); (py "max_storage", VInt (- 2 ^ 31));
   (py "max_function_defs", VInt 2000); (py "max_instruction_defs", VInt (-200));
   (py "max_stack_elements", VInt 1024);
   (py "head_flags", VFlags [0; 3; 15] [py "use_custom_tt_values"; py "add_null_cr_space"]);
   (py "OpenTypeOS2Panose", VList [2; 0; 5; 3; 0; 0; 0; 2; 0; 255]);
   (py "Average Width", VInt 500); (py "Hdmx PPMs 2", VList [10; 11; 255]);
   (py "head_creation", VInt (-3))].
Definition nodupb (l : list pystr) : bool :=
  (fix nd l := match l with [] => true | x :: l' => negb (existsb (str_eqb x) l') && nd l' end) l.
Lemma nodupb_ok : forall l, nodupb l = true -> NoDup l.
Proof.
  induction l as [|x l IH]; intros H; [constructor|]. cbn in H. apply andb_prop in H. destruct H as [H1 H2].
  constructor; [|auto]. intros Hin. apply Bool.negb_true_iff in H1.
  assert (existsb (str_eqb x) l = true); [|congruence].
  apply existsb_exists. exists x. split; [exact Hin|apply str_eqb_refl].
Qed.
Lemma in_by_compute : forall x l, existsb (str_eqb x) l = true -> In x l.
Proof.
  intros x l H. apply existsb_exists in H. destruct H as (y & Hy & E). apply str_eqb_eq in E. subst. exact Hy.
Qed.
Example C30_tt_info_ex : wf_tt_info tt_sample.
Proof.
  split; [apply nodupb_ok; vm_compute; reflexivity|]. split.
  - unfold tt_sample. repeat (apply Forall_cons; [cbn [fst snd tt_entry_ok]|]); try apply Forall_nil;
    try (split; [first [left; apply in_by_compute; vm_compute; reflexivity
                       |right; apply in_by_compute; vm_compute; reflexivity]|unfold int32; lia]).
    + split; [reflexivity|unfold uint32; lia].
    + split; [reflexivity|]. split; [split; repeat constructor; lia|].
      exists (fun s => negb (str_eqb s (py "create_vdmx"))). vm_compute. reflexivity.
    + left. split; [reflexivity|]. split; [reflexivity|]. repeat constructor; unfold uint8; lia.
    + right. split; [right; reflexivity|]. split; [repeat constructor; unfold uint8; lia|].
      unfold countable. cbn. lia.
  - apply Forall_forall. intros x Hx. apply in_by_compute.
    assert (G : forallb (fun x => existsb (str_eqb x) (map fst tt_sample))
      (tt_required_ints ++ [py "head_flags"; py "OpenTypeOS2Panose"; py "Codepages"]) = true)
      by (vm_compute; reflexivity).
    rewrite forallb_forall in G. apply G, Hx.
Qed.
(** A dict without one of the required names cannot be compiled. *)
Theorem C30_required : forall d name,
  In name (tt_required_ints ++ [py "head_flags"; py "OpenTypeOS2Panose"; py "Codepages"]) ->
  ~ In name (map fst d) -> forall bs, compile_tt_info d <> Ok bs.
Proof.
  intros d name Hn Hd bs E.
  assert (N : aget str_eqb name d = None) by (apply aget_none; exact Hd).
  unfold compile_tt_info in E.
  repeat match goal with
  | H : _ +++ _ = Ok _ |- _ =>
      apply wseq_ok in H; let x := fresh in let y := fresh in let H1 := fresh "W" in let H2 := fresh "W" in
      destruct H as (x & y & H1 & H2 & _)
  end.
  unfold tt_required_ints in Hn. cbn [map app In] in Hn.
  repeat match goal with H : wlist (tt_write_required d) (_ :: _) = Ok _ |- _ =>
    cbn [wlist] in H end.
  repeat match goal with
  | H : _ +++ _ = Ok _ |- _ =>
      apply wseq_ok in H; let x := fresh in let y := fresh in let H1 := fresh "W" in let H2 := fresh "W" in
      destruct H as (x & y & H1 & H2 & _)
  end.
  unfold tt_write_required in *.
  repeat match goal with
  | H : write_uint8 _ +++ wlet _ _ = Ok _ |- _ =>
      apply wseq_ok in H; let x := fresh in let y := fresh in let H1 := fresh "W" in let H2 := fresh "W" in
      destruct H as (x & y & H1 & H2 & _)
  end.
  destruct Hn as [Hn|[Hn|[Hn|[Hn|[Hn|[Hn|[Hn|[Hn|[Hn|[]]]]]]]]]]; subst name.
  all: match type of N with aget _ ?k _ = None =>
    match goal with
    | H : wlet (aget_res str_eqb ?k' _) _ = Ok _ |- _ =>
        let G := fresh in assert (G : k' = k) by (vm_compute; reflexivity);
        unfold aget_res in H; rewrite G, N in H; discriminate
    | H : wlet (convert_flags_options_to_int _) _ = Ok _ |- _ =>
        unfold convert_flags_options_to_int, aget_res in H; rewrite N in H; discriminate
    end end.
Qed.
Print Assumptions C30_required.
(** Options with a bit above the three known ones are shown by number and then lost. *)
Theorem C30_unknown_options_refuted : exists data d bs d', bytes_ok data /\
  run_parser parse_tt_info data = Ok d /\ compile_tt_info d = Ok bs /\
  run_parser parse_tt_info bs = Ok d' /\
  aget str_eqb (py "head_flags") d = Some (VFlags [] [py "3"]) /\
  aget str_eqb (py "head_flags") d' = Some (VFlags [] []).
Proof.
  set (data := [0x33; 139; 0x34; 139; 0x35; 139; 0x36; 139; 0x37; 139; 0x38; 139;
                0x39; 255; 0; 8; 0; 0; 0x4C; 0; 0; 0; 0; 0; 0; 0; 0; 0; 0; 0x54; 139; 139; 0x32]).
  destruct (run_parser parse_tt_info data) as [d|] eqn:E1; [|vm_compute in E1; discriminate].
  destruct (compile_tt_info d) as [bs|] eqn:E2.
  2: { exfalso. vm_compute in E1. inversion E1; subst d. vm_compute in E2. discriminate. }
  vm_compute in E1. inversion E1; subst d. clear E1. vm_compute in E2. inversion E2; subst bs. clear E2.
  exists data. eexists. eexists. eexists. split; [repeat constructor; lia|].
  split; [vm_compute; reflexivity|]. split; [vm_compute; reflexivity|]. split; [vm_compute; reflexivity|].
  split; [vm_compute; reflexivity|]. vm_compute. reflexivity.
Qed.
Print Assumptions C30_unknown_options_refuted.
(** The table of names lists [hhea_line_gap], [hhea_ascender] and [hhea_descender] (keys 0x59-0x5B),
    but the parser skips such a key alone, and takes the bytes of its value for keys: whatever
    follows, reading goes on directly after the key byte. *)
Theorem C30_hhea_keys_refuted : forall k info rest, 0x59 <= k <= 0x5B ->
  aget Z.eqb k ttinfo_names <> None /\
  tt_info_turn info (k :: rest) = ROk (inl info) rest.
Proof.
  intros k info rest H. assert (k = 0x59 \/ k = 0x5A \/ k = 0x5B) as K by lia.
  split; [destruct K as [->|[-> | ->]]; vm_compute; discriminate|].
  apply tt_turn_unknown; try (unfold byteZ; lia); destruct K as [->|[-> | ->]]; reflexivity.
Qed.
Print Assumptions C30_hhea_keys_refuted.

(** ** C31: termination *)
(** The answer "does not stop" of the model means: no number of turns of the loop is enough. *)
Theorem C31_diverges_iff : forall data, bytes_ok data ->
  (run_parser parse_tt_info data = Err Diverge <-> never_stops data).
Proof. exact tt_never_stops_iff. Qed.
Print Assumptions C31_diverges_iff.
(** Reading an empty entry never stops. *)
Theorem C31_terminates_refuted : never_stops [].
Proof. intros n. exists []. apply tt_eof_diverges. Qed.
Print Assumptions C31_terminates_refuted.
(** Every compiled entry that loses its last byte is read forever. *)
Theorem C31_truncated_refuted : forall d, wf_tt_info d ->
  exists bs, compile_tt_info d = Ok (bs ++ [0x32]) /\ never_stops bs.
Proof.
  intros d Hd. destruct (tt_items_ok d Hd) as (bs & E & O). exists bs.
  assert (C : compile_tt_info d = Ok (bs ++ [0x32])).
  { rewrite (tt_compile_items d Hd), E. reflexivity. }
  split; [exact C|]. exact (tt_truncated d Hd bs C).
Qed.
Print Assumptions C31_truncated_refuted.
(** Without an end marker the parser never returns a value, and a negative number as head flags
    makes it run forever. *)
Theorem C31_no_marker : forall data, bytes_ok data -> ~ In 0x32 data ->
  forall n d rest, tt_info_turns n data <> ROk d rest.
Proof. intros data Hd Hn n d rest E. apply Hn. eapply tt_returns_marker; eauto. Qed.
Print Assumptions C31_no_marker.
Theorem C31_negative_flags_refuted : forall v b rest, v < 0 -> int32 v ->
  write_value v = Ok b -> never_stops (0x39 :: b ++ rest).
Proof.
  intros v b rest Hv Hi E [|n]; [eexists; reflexivity|].
  exists rest. unfold tt_info_turns. cbn [rwhile]. unfold rbind at 1. unfold tt_info_turn. unfold rbind at 1.
  rewrite (uint8_cons 0x39 (b ++ rest)) by (unfold is_byte; lia). cbv zeta.
  change (0x39 =? 0x32) with false. change (tt_plain 0x39) with false. change (0x39 =? 0x39) with true.
  cbv iota. unfold rbind. cbn [assert_unique aget ret].
  destruct (wrt_value v Hi) as (b' & E' & _ & R). rewrite E in E'. inversion E'; subst b'.
  rewrite R. unfold rlift. rewrite tt_negative_flags by exact Hv. reflexivity.
Qed.
Print Assumptions C31_negative_flags_refuted.
Example C31_negative_flags_ex : never_stops [0x39; 138; 0x32].
Proof.
  apply (C31_negative_flags_refuted (-1) [138] [0x32]); try reflexivity.
  unfold int32. lia.
Qed.

(** ** C29: stems, PPEMs, zones, zone deltas *)
Theorem C29_stems : forall d, wf_stems d -> survives compile_tt_stems parse_tt_stems d.
Proof. intros. apply wrt_survives, wrt_stems. auto. Qed.
Theorem C29_stem_ppems : forall d, wf_ppems [2; 3; 4; 5] d -> survives compile_stem_ppems parse_stem_ppems d.
Proof. intros. apply wrt_survives, wrt_ppems; auto. repeat constructor; cbn; lia. Qed.
Theorem C29_stem_ppems23 : forall d, wf_ppems [2; 3] d -> survives compile_stem_ppems23 parse_stem_ppems23 d.
Proof. intros. apply wrt_survives, wrt_ppems; auto. repeat constructor; cbn; lia. Qed.
(** The third kind has no counts of its own: it is read with the numbers of stems of the TrueType
    Stems entry. *)
Theorem C29_stem_ppems1 : forall d, wf_ppems [1] d ->
  survives compile_stem_ppems1
    (parse_stem_ppems1 (Some (Z.of_nat (length (tts_v d)))) (Some (Z.of_nat (length (tts_h d))))) d.
Proof. intros. apply wrt_survives, wrt_ppems1. auto. Qed.
(** A missing side is read as an empty one. *)
Theorem C29_zones : forall t b, wf_side (side t) -> wf_side (side b) ->
  exists bs, compile_tt_zones (TTZones t b) = Ok bs /\ bytes_ok bs /\
    run_parser parse_tt_zones bs = Ok (TTZones (Some (side t)) (Some (side b))).
Proof. intros. apply wrt_run, wrt_zones; auto. Qed.
(** Zone deltas as a mapping; zones without deltas are not stored. *)
Theorem C29_zone_deltas : forall d, wf_deltas d ->
  exists bs d', compile_zone_deltas d = Ok bs /\ bytes_ok bs /\
    run_parser parse_zone_deltas bs = Ok d' /\
    (forall zone ppm, shift_of d' zone ppm = shift_of d zone ppm) /\
    ((forall zone, aget Z.eqb zone d <> Some []) -> same_deltas d d').
Proof.
  intros d Hd. destruct (wrt_run _ _ _ _ (wrt_deltas d Hd)) as (bs & E & O & R).
  exists bs. eexists. split; [exact E|]. split; [exact O|]. split; [exact R|].
  pose proof (deltas_lookup d Hd) as L. cbv zeta in L. split.
  - intros z p. unfold shift_of. specialize (L z).
    destruct (aget Z.eqb z (fold_left _ _ _)) as [m'|].
    + destruct L as (m & -> & _ & L). symmetry. apply L.
    + destruct (aget Z.eqb z d) as [m|]; [|reflexivity]. rewrite (L m eq_refl). reflexivity.
  - intros H z. specialize (L z). specialize (H z).
    destruct (aget Z.eqb z (fold_left _ _ _)) as [m'|].
    + destruct L as (m & -> & _ & L). exact L.
    + destruct (aget Z.eqb z d) as [m|]; [|exact I]. rewrite (L m eq_refl) in H. congruence.
Qed.
(** Equal mappings give equal bytes, whatever the order of the items. *)
Theorem C29_zone_deltas_canonical : forall d d', wf_deltas d -> wf_deltas d' -> same_deltas d d' ->
  compile_zone_deltas d = compile_zone_deltas d'.
Proof. intros. apply compile_deltas_perm, same_deltas_triples; auto. Qed.
(** The deltas are stored one by one, in the order of the zones and sizes. *)
Theorem C29_zone_deltas_order : forall d, wf_deltas d ->
  exists l, compile_zone_deltas d =
      (write_value (Z.of_nat (length l)) +++
       wlist (fun t => let '(zone, ppm, shift) := t in
                       write_value zone +++ write_value ppm +++ write_value shift) l) /\
    StronglySorted delta_before l /\
    forall zone ppm shift, In (zone, ppm, shift) l <-> shift_of d zone ppm = Some shift.
Proof.
  intros d (Hn & Hf & Hc). exists (sort_triples (delta_triples d)). split; [reflexivity|].
  pose proof (sort_perm (delta_triples d)) as Hp.
  assert (N : NoDup (map fst (sort_triples (delta_triples d)))).
  { eapply Permutation_NoDup; [apply Permutation_sym, Permutation_map, Hp|]. apply triples_nodup; auto.
    eapply Forall_impl; [|exact Hf]. cbn. tauto. }
  split.
  - pose proof (sort_sorted (delta_triples d)) as S. revert N S. generalize (sort_triples (delta_triples d)).
    clear. intros l N S. revert N. induction S as [|[[z p] s] l S IH F]; intros N.
    + constructor.
    + cbn [map] in N. inversion N; subst. constructor; [auto|]. apply Forall_forall.
      intros [[z' p'] s'] Hin. rewrite Forall_forall in F. specialize (F _ Hin).
      unfold tle, triple_leb in F. unfold delta_before.
      assert ((z, p) <> (z', p')).
      { intros Q. apply H1. rewrite Q. apply in_map_iff. exists (z', p', s'). auto. }
      assert (z <> z' \/ p <> p') by (destruct (Z.eq_dec z z'), (Z.eq_dec p p'); auto; exfalso; apply H; congruence).
      lia.
  - intros z p s. unfold shift_of. split; intros H.
    + apply (Permutation_in _ Hp), triples_in in H. destruct H as (m & Hm & Hps).
      rewrite (in_zget _ _ _ _ Hn Hm). apply in_zget; [|exact Hps].
      destruct (Forall_In _ _ _ _ Hf Hm) as (_ & Nm & _). exact Nm.
    + apply (Permutation_in _ (Permutation_sym Hp)), triples_in.
      destruct (aget Z.eqb z d) as [m|] eqn:E; [|discriminate]. exists m. split; apply zget_in; assumption.
Qed.
Print Assumptions C29_zone_deltas_order.
(** What is read of an entry can be compiled again. *)
Theorem C29_reparse :
  reparses compile_tt_stems parse_tt_stems /\ reparses compile_stem_ppems parse_stem_ppems /\
  reparses compile_stem_ppems23 parse_stem_ppems23 /\ reparses compile_tt_zones parse_tt_zones.
Proof.
  split; [|split; [|split]].
  - eapply reparses_intro; [apply rps_stems|]. exact C29_stems.
  - eapply reparses_intro; [apply rps_ppems; repeat constructor; cbn; lia|]. exact C29_stem_ppems.
  - eapply reparses_intro; [apply rps_ppems; repeat constructor; cbn; lia|]. exact C29_stem_ppems23.
  - eapply reparses_intro; [apply rps_zones|]. cbn beta. intros x (t & b & -> & Ht & Hb).
    exact (C29_zones (Some t) (Some b) Ht Hb).
Qed.
Theorem C29_zone_deltas_reparse : forall data d, entry_data data ->
  run_parser parse_zone_deltas data = Ok d ->
  exists bs d', compile_zone_deltas d = Ok bs /\ run_parser parse_zone_deltas bs = Ok d' /\ same_deltas d d'.
Proof.
  intros data d Hd E. destruct (rps_run _ _ _ data d rps_deltas Hd E) as [W N].
  destruct (C29_zone_deltas d W) as (bs & d' & E1 & _ & E2 & _ & S). exists bs, d'.
  split; [exact E1|]. split; [exact E2|]. apply S. intros z H. apply zget_in in H.
  apply (Forall_In _ _ _ _ N H). reflexivity.
Qed.
(** Names of more than 255 bytes are refused. *)
Theorem C29_long_stem_name : forall w n p r, encodable n -> (255 < length n)%nat -> int32 w ->
  compile_tt_stem (TTStem (Some w) (Some n) p r) = Err OverflowError.
Proof.
  intros w n p r He Hl Hw. unfold compile_tt_stem. cbn [ts_value ts_name ts_round opt_res wlet rthen].
  apply encodable_encode in He. destruct He as [b Eb]. rewrite Eb. cbn [wlet].
  apply encode_length in Eb. destruct (wrt_value w Hw) as (bw & Ew & _). rewrite Ew.
  unfold write_uint8, to_bytes_u, urange, in_range. change (2 ^ (8 * Z.of_nat 1)) with 256.
  replace (Z.of_nat (length b) <? 256) with false by lia.
  rewrite Bool.andb_false_r. reflexivity.
Qed.
Print Assumptions C29_stems. Print Assumptions C29_stem_ppems. Print Assumptions C29_stem_ppems23.
Print Assumptions C29_stem_ppems1. Print Assumptions C29_zones. Print Assumptions C29_zone_deltas.
Print Assumptions C29_zone_deltas_canonical. Print Assumptions C29_reparse.
Print Assumptions C29_zone_deltas_reparse. Print Assumptions C29_long_stem_name.

Example C29_stems_ex : wf_stems
  (TTStems [TTStem (Some 80) (Some (py "V 80")) None [(6, 255)]; TTStem (Some (-1)) (Some []) None [(6, 0)]] []).
Proof.
  unfold wf_stems. cbn [tts_v tts_h]. split; [|unfold countable; cbn; repeat split; try lia; constructor].
  constructor; [|constructor; [|constructor]].
  - exists 80, (py "V 80"), 255. unfold int32. split; [reflexivity|]. split; [lia|]. split; [lia|].
    split; [apply ascii_encodable; repeat constructor; lia|cbn; lia].
  - exists (-1), [], 0. unfold int32. split; [reflexivity|]. split; [lia|]. split; [lia|].
    split; [apply ascii_encodable; constructor|cbn; lia].
Qed.
Example C29_ppems_ex : wf_ppems [2; 3] (TTStems [TTStem None None (Some 0) [(2, 30); (3, 40)];
  TTStem None None (Some 1) [(2, -5); (3, 2 ^ 31 - 1)]] []).
Proof.
  split; (split; [unfold countable; cbn; lia|]); cbn [tts_v tts_h].
  - intros [|[|[|i]]] s H; cbn in H; inversion H; subst.
    + exists [30; 40]. split; [reflexivity|]. split; [reflexivity|]. repeat constructor; unfold int32; lia.
    + exists [-5; 2 ^ 31 - 1]. split; [reflexivity|]. split; [reflexivity|]. repeat constructor; unfold int32; lia.
  - intros [|i] s H; discriminate.
Qed.
Example C29_zone_deltas_ex : wf_deltas [(1, [(12, -8); (9, 8)]); (0, [(10, 1)])] /\
  compile_zone_deltas [(1, [(12, -8); (9, 8)]); (0, [(10, 1)])]
  = Ok [142; 139; 149; 140; 140; 148; 147; 140; 151; 131].
Proof.
  split; [|vm_compute; reflexivity]. unfold wf_deltas, countable, int32. cbn.
  repeat split; repeat constructor; cbn; lia.
Qed.
Example C29_zones_ex : wf_side [TTZone 700 12 (py "Cap"); TTZone 500 (-1) []].
Proof.
  unfold wf_side, wf_zone, countable, int32, text, countable. split; [|cbn; lia].
  constructor; [|constructor; [|constructor]]; cbn; repeat split; try lia; apply ascii_encodable;
    repeat constructor; lia.
Qed.

(** ** gasp (C20) and VDMX (C19) *)
Theorem C20_gasp : (forall l, wf_gasp l -> survives compile_gasp parse_gasp l) /\
  (forall n, exact_at (4 * n) compile_gasp parse_gasp) /\ reparses compile_gasp parse_gasp.
Proof.
  split; [exact gasp_survives|]. split; [exact gasp_exact|].
  eapply reparses_intro; [apply rps_gasp|exact gasp_survives].
Qed.
(** Two bytes after the last pair are dropped without an error; one byte is an error. *)
Theorem C20_gasp_tail_refuted : forall n data x y, bytes_ok data -> is_byte x -> is_byte y ->
  length data = (4 * n)%nat ->
  exists l, run_parser parse_gasp (data ++ [x; y]) = Ok l /\ compile_gasp l = Ok data.
Proof.
  intros n data x y Hd Hx Hy Hl. destruct (gasp_exact n data Hd Hl) as (l & E & C).
  exists l. rewrite (gasp_dropped n) by auto. auto.
Qed.
Theorem C20_gasp_odd : forall data, bytes_ok data -> Nat.Odd (length data) ->
  run_parser parse_gasp data = Err StructError.
Proof.
  intros data Hd Ho. destruct (unpack_H_spec data Hd) as [(l & _ & _ & L & _)|[E _]].
  - destruct Ho as [k Hk]. lia.
  - unfold run_parser, parse_gasp, rbind, read_all, rlift. rewrite E. reflexivity.
Qed.
Theorem C19_vdmx : (forall l, wf_vdmx l -> survives compile_vdmx parse_vdmx l) /\
  reparses compile_vdmx parse_vdmx.
Proof.
  assert (H : forall l, wf_vdmx l -> survives compile_vdmx parse_vdmx l)
    by (intros; apply wrt_survives, wrt_vdmx; auto).
  split; [exact H|]. eapply reparses_intro; [apply rps_vdmx|exact H].
Qed.
Print Assumptions C20_gasp. Print Assumptions C20_gasp_tail_refuted. Print Assumptions C20_gasp_odd.
Print Assumptions C19_vdmx.
Example C20_gasp_ex : wf_gasp [Gasp 8 10; Gasp 65535 15] /\
  compile_gasp [Gasp 8 10; Gasp 65535 15] = Ok [8; 0; 10; 0; 255; 255; 15; 0].
Proof. split; [repeat constructor; unfold uint16; cbn; lia|vm_compute; reflexivity]. Qed.
Example C19_vdmx_ex : wf_vdmx [Vdmx 10 9 (-3); Vdmx 11 (2 ^ 31 - 1) 0].
Proof. unfold wf_vdmx, countable, int32. cbn. split; [lia|]. repeat constructor; cbn; lia. Qed.
