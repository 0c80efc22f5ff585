(** C32 and C40 for the table of all entry types. *)
From Coq Require Import ZifyBool ZifyNat String Permutation.
From Verif Require Import Base M_Stream M_Text M_Py M_Simple M_Bitmap M_TrueType M_Glyph
  M_Float M_Options M_Container M_Table S_Text S_Entry S_TrueType S_Glyph S_Options S_File
  S_Table Lib P_Text P_Table Prop_TrueType Prop_Simple.
Local Open Scope list_scope.

(** ** C32: decompiling an entry comes to an end, whatever its id and data *)
(** The disassembler of fontTools, [o_asm], is assumed to come to an end. *)
Theorem C32_entries_terminate : forall o i c data, (forall b, o_asm o b <> Err Diverge) ->
  bytes_ok data -> i <> 1264 -> cd_parse (table o) i c data <> Err Diverge.
Proof.
  intros o i c data Ho Hd Hi. unfold table, parser_of. cbn [cd_parse].
  assert (T : forall p, total p -> run_parser (p c) data <> Err Diverge).
  { intros p H. exact (P_Simple.tot_terminates _ _ (H c) data Hd). }
  destruct (row o i) as [[[n p] k]|] eqn:R.
  - apply T. exact (P_Simple.Forall_In _ _ _ _ (rows_total o Ho) (row_of_in _ _ _ _ _ R) Hi).
  - apply T. intros c'. apply tot_plain, P_Simple.tot_hex.
Qed.
Print Assumptions C32_entries_terminate.
(** The TrueType info entry is the exception: an empty one is read for ever. *)
Theorem C32_ttinfo_refuted : forall o c, cd_parse (table o) 1264 c [] = Err Diverge /\ never_stops [].
Proof. intros o c. split; [vm_compute; reflexivity|exact C31_terminates_refuted]. Qed.
Print Assumptions C32_ttinfo_refuted.

(** ** C40: whatever is decompiled can be written back *)
(** for the 121 types of [faithful_ids] *)
Theorem C40_table : forall o c i data x, In i faithful_ids -> wf_ctx c -> entry_data data ->
  cd_parse (table o) i c data = Ok x -> written_back o c i x.
Proof. intros. eapply table_written; eauto. left. assumption. Qed.
Print Assumptions C40_table.
(** for the other types under the conditions of [in_domain] *)
Theorem C40_table_domain : forall o c i data x, wf_ctx c -> entry_data data ->
  cd_parse (table o) i c data = Ok x -> can_be_written o c i x -> written_back o c i x.
Proof. exact table_written. Qed.
Print Assumptions C40_table_domain.

(** These are all types of the table ... *)
Definition delicate_ids : list Z :=
  [518; 257; 1264; 2021; 1138; 1136; 2024; 2026; 1254; 1296; 1295; 2001; 2007; 2013; 2009; 2020; 2029;
   2031; 1743; 1744; 1742; 1410].
Theorem C40_table_ids : forall o, Permutation (map fst (parser_classes o)) (faithful_ids ++ 1294 :: delicate_ids).
Proof.
  intros o. apply NoDup_Permutation.
  - apply zdup_ok. vm_compute. reflexivity.
  - apply zdup_ok. vm_compute. reflexivity.
  - intros i. rewrite <- !zmem_in. split; intros H.
    + assert (G : forallb (fun i => zmem i (faithful_ids ++ 1294 :: delicate_ids)) (map fst (parser_classes o)) = true)
        by (vm_compute; reflexivity).
      rewrite forallb_forall in G. apply G, zmem_in, H.
    + assert (G : forallb (fun i => zmem i (map fst (parser_classes o))) (faithful_ids ++ 1294 :: delicate_ids) = true)
        by (vm_compute; reflexivity).
      rewrite forallb_forall in G. apply G, zmem_in, H.
Qed.
Print Assumptions C40_table_ids.

(** ... and each of the types of [delicate_ids] has data that is not written back. (Whether there is
    such data for global guides, 1294, depends on how the angles are rounded.) *)
Definition not_written_back (o : oracles) (i : Z) : Prop :=
  exists c data x, wf_ctx c /\ entry_data data /\ cd_parse (table o) i c data = Ok x /\ ~ written_back o c i x.
Ltac refute c data := exists c, data; eexists; split; [unfold wf_ctx; cbn; lia|];
  split; [split; [repeat constructor; unfold is_byte; lia|cbn; lia]|];
  split; [vm_compute; reflexivity|]; eapply not_written; [lazy [row aget parser_classes Z.eqb Pos.eqb]; reflexivity|];
  intros bs x' E1 E2 S; vm_compute in E1; first [discriminate|
    injection E1 as <-; vm_compute in E2; injection E2 as <-; cbn in S].
Definition one_master : ctx := mkCtx 1 0 0 MacOS.
Definition windows : ctx := mkCtx 1 0 0 Windows.
Theorem C40_delicate_refuted : forall o, Forall (not_written_back o) delicate_ids.
Proof.
  intros o. unfold delicate_ids. repeat apply Forall_cons; [..|apply Forall_nil].
  - refute one_master [65; 66]. discriminate.
  - refute one_master [65; 66]. discriminate.
  - refute one_master [0x33; 139; 0x34; 139; 0x35; 139; 0x36; 139; 0x37; 139; 0x38; 139;
                0x39; 255; 0; 8; 0; 0; 0x4C; 0; 0; 0; 0; 0; 0; 0; 0; 0; 0; 0x54; 139; 139; 0x32].
    apply (Permutation_in (py "head_flags", VFlags [] [py "3"])) in S; [|vm_compute; tauto].
    cbn in S. repeat (destruct S as [S|S]; [discriminate|]). exact S.
  - refute one_master (repeat 0 16 ++ [1]).
  - refute one_master [140; 139; 140; 139; 139; 140; 138]. discriminate.
  - refute one_master (repeat 139 7 ++ repeat 65 16 ++ repeat 0 8 ++ repeat 66 6 ++ [255; 0; 0]).
  - refute one_master [140; 140; 65; 255; 128; 0; 0; 0; 139; 139].
  - refute one_master [140; 140; 65; 255; 128; 0; 0; 0; 139].
  - refute one_master [140; 139; 255; 0; 0; 22; 68; 139; 139; 139]. discriminate.
  - refute one_master [140; 255; 0x01; 0x23; 0x45; 0x67; 139; 139; 139]. discriminate.
  - refute one_master [139; 139; 140; 0].
  - refute one_master [1; 9; 7; 1; 15].
  - refute windows [139; 139; 143; 143; 155; 140; 141; 255; 1].
  - refute windows [140; 150; 139; 139; 143; 143; 155; 140; 141; 255; 1].
  - refute one_master [139; 139; 139; 140; 0].
  - refute one_master [140; 255; 255; 255; 248; 48; 139].
  - refute one_master [140; 141; 140; 141; 142; 143]. discriminate.
  - refute one_master [140; 255; 0x01; 0x23; 0x45; 0x67; 139; 139; 139]. discriminate.
  - refute one_master [52; 139; 100].
  - refute one_master [8; 0].
  - refute one_master [1; 141; 2; 139; 3; 139; 4; 139; 0].
  - refute one_master [1; 0; 0; 0; 2; 0; 0; 0; 255; 255].
Qed.
Print Assumptions C40_delicate_refuted.

(** Data of these types that is in the domain *)
Definition example_of (o : oracles) (c : ctx) (i : Z) (data : bytes) : Prop :=
  wf_ctx c /\ entry_data data /\ exists x, cd_parse (table o) i c data = Ok x /\ can_be_written o c i x.
Ltac exhibit := split; [unfold wf_ctx; cbn; lia|];
  split; [split; [repeat apply Forall_cons; try apply Forall_nil; unfold is_byte; lia|cbn; lia]|];
  eexists; split; [vm_compute; reflexivity|]; right; split; [apply zmem_in; vm_compute; reflexivity|]; cbn.
Example ex_518 : forall o, example_of o one_master 518 [].
Proof. intros o. exhibit. reflexivity. Qed.
Example ex_2021 : forall o, example_of o one_master 2021 ([3; 0; 128] ++ repeat 0 13).
Proof. intros o. exhibit. repeat constructor; lia. Qed.
Example ex_1138 : forall o, example_of o one_master 1138 [140; 140; 140; 139; 139; 141; 204; 247; 120].
Proof. intros o. exhibit. repeat apply Forall_cons; try apply Forall_nil; intros _ _;
  repeat apply Forall_cons; try apply Forall_nil; [left; cbn; lia|right; tauto]. Qed.
Example ex_1254 : forall o, example_of o one_master 1254 [140; 140; 65; 255; 0; 0; 39; 16; 139; 139; 139].
Proof. intros o. exhibit. repeat apply Forall_cons; try apply Forall_nil; cbn; repeat apply Forall_cons; try apply Forall_nil;
  [exists 10000|exists 0..]; (split; [|split; vm_compute; reflexivity]);
 unfold int32; lia. Qed.
Example ex_2026 : forall o, example_of o one_master 2026 [140; 140; 65; 140; 141].
Proof. intros o. exhibit. unfold wf_class_flags, countable. cbn. split; [lia|]. split.
  - repeat constructor. cbn. tauto.
  - apply Forall_cons; [|apply Forall_nil]. split.
    + split; [|unfold countable; cbn; lia]. apply ascii_encodable. repeat constructor; cbn; lia.
    + split; [reflexivity|]. repeat apply Forall_cons; try apply Forall_nil; unfold small_flag, int32; cbn; lia.
Qed.
Example ex_2029 : forall o, example_of o one_master 2029 [140; 140; 140; 140].
Proof. intros o. exhibit. apply Forall_cons; [|apply Forall_nil].
  split; (split; [reflexivity|]); repeat apply Forall_cons; try apply Forall_nil; unfold small_flag, int32; cbn; lia. Qed.
Example ex_1742 : forall o, example_of o one_master 1742 [1; 139; 2; 139; 3; 139; 4; 139; 0].
Proof. intros o. exhibit. unfold wf_mapping_mode, int32. cbn. split; [left; reflexivity|lia]. Qed.
Example ex_1743 : forall o, example_of o one_master 1743 [2; 145; 12; 255; 0; 0; 39; 16; 100].
Proof. intros o. exhibit. repeat apply Forall_cons; try apply Forall_nil; vm_compute; tauto. Qed.
Example ex_2007 : forall o, example_of o one_master 2007 [139; 139; 143; 143; 155; 140; 141; 255; 1].
Proof. intros o. exhibit. split; [reflexivity|lia]. Qed.
Example ex_2009 : forall o, example_of o one_master 2009 [140; 255; 5; 245; 225; 0; 140; 139; 140; 0; 141; 142].
Proof. intros o. exhibit. unfold master_count. split; [lia|vm_compute; reflexivity]. Qed.

From Verif Require Import P_Stream P_Loop.
(** ** C20: the master kern pair can at least be read, in a font with any number of masters *)
Theorem C20_kern_pair_read : forall o c l r vs, uint32 l -> uint32 r -> Forall int16 vs -> num_masters c = Z.of_nat (List.length vs) ->
  exists data, write_uint32 l +++ write_uint32 r +++ wlist write_int16 vs = Ok data /\
    cd_parse (table o) 1410 c data = Ok (DKernPair (KernPair l r vs)).
Proof.
  intros o c l r vs Hl Hr Hv Hn.
  assert (W : wrt (write_uint32 l +++ write_uint32 r +++ wlist write_int16 vs) (MMKernPairParser c) (DKernPair (KernPair l r vs))).
  { unfold MMKernPairParser, plain, parse_kern_pair. eapply wrt_bind_ret with (a := KernPair l r vs); [|reflexivity].
    eapply wrt_bind; [now apply wrt_uint32|]. eapply wrt_bind; [now apply wrt_uint32|]. eapply wrt_bind_ret; [|reflexivity].
    rewrite Hn. apply wrt_range_id; [reflexivity|]. intros x Hx. apply wrt_int16. exact (P_Simple.Forall_In _ _ _ _ Hv Hx). }
  destruct (wrt_run _ _ _ _ W) as (data & E & R). exists data. split; [exact E|]. unfold table, parser_of. cbn [cd_parse].
  replace (row o 1410) with (Some (py "MMKernPair", MMKernPairParser, MMKernPairCompiler)) by (lazy [row aget parser_classes Z.eqb Pos.eqb]; reflexivity). exact (proj2 R).
Qed.
Print Assumptions C20_kern_pair_read.
