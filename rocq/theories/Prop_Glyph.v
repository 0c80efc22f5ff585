(** C25-C28, C37, C41, the glyph parts of C19, C20 and C40. *)
From Coq Require Import String Permutation ZifyBool ZifyNat.
From Verif Require Import Base M_Stream M_Helpers M_Text M_Py M_Simple M_Glyph S_Stream S_Bits S_Text S_Entry S_Glyph
  Lib P_Stream P_Helpers P_Text P_Text2 P_Loop P_Simple P_Simple2 P_Simple3 P_TrueType P_TrueType2
  Prop_Simple Prop_TrueType P_Glyph P_Glyph2 P_Glyph3 P_Glyph4 P_Glyph5.
Local Open Scope list_scope.
Open Scope rd_scope.
Ltac Zify.zify_post_hook ::= Z.div_mod_to_equations.

(** ** C25: outlines *)
Theorem C25_outlines : forall n nodes, master_count n -> wf_nodes n nodes ->
  survives (fun p => compile_outlines (fst p) (Some (snd p))) parse_outlines (n, nodes).
Proof. intros n nodes Hn H. apply wrt_survives. exact (wrt_outlines n (Some nodes) Hn H). Qed.
Print Assumptions C25_outlines.
Theorem C25_global_mask : forall n nodes, master_count n -> wf_nodes n nodes ->
  survives compile_global_mask parse_global_mask (MaskOutlines n (Some nodes)).
Proof.
  intros n nodes Hn H. apply wrt_survives. unfold compile_global_mask, parse_global_mask. cbn [mo_num_masters mo_nodes].
  eapply wrt_bind_ret; [exact (wrt_outlines n (Some nodes) Hn H)|]. reflexivity.
Qed.
Print Assumptions C25_global_mask.
(** The entry starts with the number of masters, twice the number of stored values, and the number of
    nodes. *)
Theorem C25_value_count : forall n nodes, master_count n -> wf_nodes n nodes ->
  exists bs rest, compile_outlines n (Some nodes) = Ok bs /\
    rrepeat 3 read_value bs = ROk [n; 2 * stored_values n nodes; Z.of_nat (length nodes)] rest.
Proof.
  intros n nodes Hn H. pose proof H as (Hw & _ & HV). unfold master_count in Hn.
  destruct (wrt_outlines n (Some nodes) Hn H) as (bs & E & _). cbn [or_nil] in E.
  pose proof (stored_values_pos n nodes ltac:(lia)) as LP.
  destruct (wrt_value n) as (b1 & E1 & _ & R1); [unfold i32; lia|].
  destruct (wrt_value (2 * stored_values n nodes)) as (b2 & E2 & _ & R2); [unfold i32; lia|].
  destruct (wrt_value (Z.of_nat (length nodes))) as (b3 & E3 & _ & R3); [unfold i32; lia|].
  exists bs. pose proof E as E'. unfold compile_outlines in E. rewrite E1 in E.
  destruct nodes as [|nd nodes].
  - exists []. split; [exact E'|]. change (2 * stored_values n []) with 0 in *. change (Z.of_nat (length (@nil mm_node))) with 0 in *.
    rewrite E2 in E. cbn [wseq] in E. apply Ok_inj in E. subst bs.
    cbn [rrepeat]. unfold rbind. rewrite R1. rewrite <- (app_nil_r (b2 ++ b2)), <- app_assoc. rewrite R2, R2. reflexivity.
  - rewrite (outlines_values_stored n (nd :: nodes)) in E by (try exact Hw; lia).
    rewrite E2, E3 in E. destruct (write_nodes n _ _) as [b4|] eqn:E4; [|discriminate]. cbn [wseq] in E.
    apply Ok_inj in E. subst bs. exists b4. split; [exact E'|]. cbn [rrepeat]. unfold rbind. rewrite R1, R2, R3. reflexivity.
Qed.
Print Assumptions C25_value_count.
Definition sample_nodes : list mm_node :=
  [MMNode Move 0 [[(10, -20)]; [(2 ^ 31 - 1, 0)]];
   MMNode Curve 3 [[(1, 2); (3, 4); (5, 6)]; [(0, 0); (7, -8); (9, 9)]];
   MMNode Line 15 [[(100, 200)]; [(100, 300)]]; MMNode QCurve 1 [[(0, 0)]; [(0, 0)]]].
Example C25_ex : master_count 2 /\ wf_nodes 2 sample_nodes.
Proof.
  split; [unfold master_count; lia|]. split; [|split].
  - unfold sample_nodes. repeat (apply Forall_cons; [split; [cbn; lia|split; [reflexivity|repeat constructor]]|]). apply Forall_nil.
  - intros [|[|m]] Hm; [| |lia]; cbn; unfold int32; lia.
  - vm_compute. reflexivity.
Qed.
(** Zero masters cannot be stored: the compiler raises [IndexError] as soon as there is a node. *)
Theorem C25_no_masters_refuted : forall c f, 0 <= f <= 15 ->
  compile_outlines 0 (Some [MMNode c f []]) = Err IndexError.
Proof.
  intros c f Hf. unfold compile_outlines, write_nodes, node_rows. cbn [nd_flags nd_type nd_points].
  change (py_index ([] : list (list (Z * Z))) 0) with (@Err (list (Z * Z)) IndexError). cbn [rthen wlet].
  destruct (wrt_uint8 (f * 16 + path_value c)) as (b & -> & _); [unfold byteZ; destruct c; cbn; lia|].
  reflexivity.
Qed.
Print Assumptions C25_no_masters_refuted.

(** ** C28: TrueType hinting commands *)
(** the size of the commands, then the commands: the section of the glyph entry *)
Definition hinting_section (l : list instruction) : wr :=
  wlet (compile_instructions l) (fun b => write_value (Z.of_nat (length b)) +++ write_bytes b).
Theorem C28_instructions : forall l, Forall wf_instruction l -> Z.of_nat (length l) < 2 ^ 26 ->
  exists bs l', hinting_section l = Ok bs /\ bytes_ok bs /\
    run_parser parse_instructions bs = Ok l' /\ Forall2 same_instruction l l'.
Proof.
  intros l H HL. destruct (wrt_instructions l H HL) as (l' & S & W). apply wrt_run in W.
  destruct W as (bs & E & O & R). exists bs, l'. auto.
Qed.
Print Assumptions C28_instructions.
(** The order of the parameters in the dict does not matter. *)
Theorem C28_order : forall cmd p q, NoDup (map fst p) -> Permutation p q ->
  compile_instruction (Instruction cmd p) = compile_instruction (Instruction cmd q).
Proof. exact instruction_order. Qed.
Print Assumptions C28_order.
(** Only known commands with all of their parameters are accepted. *)
Theorem C28_required : forall i bs, compile_instruction i = Ok bs ->
  exists params, In (in_cmd i, params) hinting_commands /\ incl params (map fst (in_params i)).
Proof.
  intros i bs E. unfold compile_instruction in E. unfold aget_res in E.
  destruct (aget str_eqb (in_cmd i) tt_command_constants) as [id|] eqn:E1; [|discriminate]. cbn [wlet] in E.
  apply wseq_ok in E. destruct E as (b1 & b2 & _ & E & _).
  destruct (aget Z.eqb id tt_commands) as [[name params]|] eqn:E2; [|discriminate]. cbn [wlet snd] in E.
  exists params. apply zget_in in E2. apply aget_in in E1.
  unfold tt_command_constants in E1. apply in_map_iff in E1. destruct E1 as ([id' [name' params']] & X & Hin). cbn [fst snd] in X.
  inversion X; subst. pose proof (in_zget _ _ _ _ tt_ids_nodup Hin) as Y. pose proof (in_zget _ _ _ _ tt_ids_nodup E2) as Y'.
  rewrite Y in Y'. inversion Y'; subst. split; [eapply tt_commands_known; exact E2|].
  clear - E. revert b2 E. induction params as [|p params IH]; intros b2 E x Hx; [destruct Hx|]. cbn [wlist] in E.
  apply wseq_ok in E. destruct E as (c1 & c2 & Ea & Eb & _). destruct Hx as [<-|Hx]; [|eapply IH; eauto].
  destruct (aget str_eqb p (in_params i)) as [v|] eqn:G; [|discriminate]. apply aget_in in G.
  apply (in_map fst) in G. exact G.
Qed.
Print Assumptions C28_required.
Example C28_ex : Forall wf_instruction
  [Instruction (py "AlignTop") [(py "zone", 3); (py "pt", 10)];
   Instruction (py "FDeltaV") [(py "pt", 1); (py "shift", -8); (py "ppm1", 9); (py "ppm2", 12)]].
Proof.
  repeat (apply Forall_cons); [| |apply Forall_nil].
  - exists [py "pt"; py "zone"]. split; [left; reflexivity|].
    split; [apply perm_swap|]. repeat constructor; unfold int32; cbn; lia.
  - exists [py "pt"; py "shift"; py "ppm1"; py "ppm2"]. split; [do 13 right; left; reflexivity|].
    split; [apply Permutation_refl|]. repeat constructor; unfold int32; cbn; lia.
Qed.

(** ** C26: glyph entries *)
(** [o] is what comes from outside (see M_Glyph.v). Angles of guides come back as the stored slope
    gives them; everything else is the same. *)
Theorem C26_glyph : forall o v n g, wf_glyph o v n g ->
  exists bs g', compile_glyph o v g = Ok bs /\ bytes_ok bs /\
    run_parser (parse_glyph o) bs = Ok g' /\ same_glyph (with_stored_angles o g) g'.
Proof.
  intros o v n g H. destruct (glyph_roundtrip o v n g H) as (g' & S & W). apply wrt_run in W.
  destruct W as (bs & E & O & R). exists bs, g'. auto.
Qed.
Print Assumptions C26_glyph.
(** Without rounding of angles, the glyph itself comes back. *)
Theorem C26_glyph_exact : forall o v n g, wf_glyph o v n g -> on_some (exact_guides o) (g_guides g) ->
  exists bs g', compile_glyph o v g = Ok bs /\ bytes_ok bs /\
    run_parser (parse_glyph o) bs = Ok g' /\ same_glyph g g'.
Proof.
  intros o v n g H HE. destruct (C26_glyph o v n g H) as (bs & g' & E & O & R & S). exists bs, g'.
  split; [exact E|]. split; [exact O|]. split; [exact R|].
  replace g with (with_stored_angles o g); [exact S|].
  destruct g as [a b c d e [gs|] f h i j]; cbn in *; unfold with_stored_angles; cbn; [|reflexivity].
  rewrite stored_exact by exact HE. reflexivity.
Qed.
Print Assumptions C26_glyph_exact.
(** A glyph without a name but with guides is written, and what is written cannot be read. *)
Theorem C26_nameless_guides_refuted : forall o, exists g bs,
  g_guides g <> None /\ compile_glyph o (Some 1) g = Ok bs /\
  run_parser (parse_glyph o) bs = Err AttributeError.
Proof.
  intros o. exists (Glyph (Some []) (Some 1) None None None (Some (Guides [] [])) None None None None). eexists.
  split; [discriminate|]. split; [vm_compute; reflexivity|]. vm_compute. reflexivity.
Qed.
Print Assumptions C26_nameless_guides_refuted.
(** Guides are written for the masters of the file, and read for those of the glyph. *)
Theorem C26_guide_masters_refuted : forall o a, o_slope o a = Ok 0 -> exists g bs,
  g_num_masters g = Some 1 /\ or_empty (g_name g) <> [] /\
  g_guides g = Some (Guides [[GuideMaster 10 a; GuideMaster 20 a]] []) /\
  compile_glyph o (Some 2) g = Ok bs /\
  forall g', run_parser (parse_glyph o) bs <> Ok g'.
Proof.
  intros o a H.
  exists (Glyph (Some (py "A")) (Some 1) None None None (Some (Guides [[GuideMaster 10 a; GuideMaster 20 a]] [])) None None None None).
  exists [1; 9; 7; 1; 1; 140; 65; 8; 140; 139; 139; 4; 140; 149; 139; 159; 139; 139; 15].
  split; [reflexivity|]. split; [discriminate|]. split; [reflexivity|]. split.
  - unfold compile_glyph, compile_glyph_guides, compile_guides, compile_guide. cbn [g_num_masters g_guides with_vfb gs_h gs_v wlist zseq].
    change (zseq 2) with [0; 1]. cbn [wlist]. change (py_index [GuideMaster 10 a; GuideMaster 20 a] 0) with (Ok (GuideMaster 10 a)).
    change (py_index [GuideMaster 10 a; GuideMaster 20 a] 1) with (Ok (GuideMaster 20 a)). cbn [wlet gm_angle gm_pos]. rewrite H.
    vm_compute. reflexivity.
  - intros g' E. vm_compute in E. discriminate.
Qed.
Print Assumptions C26_guide_masters_refuted.
(** The number of masters is required. *)
Theorem C26_masters_required : forall o v g, g_num_masters g = None -> compile_glyph o v g = Err KeyError.
Proof. intros o v g H. unfold compile_glyph. rewrite H. reflexivity. Qed.
Print Assumptions C26_masters_required.

Definition sample_glyph : glyph :=
  Glyph (Some (py "A")) (Some 2) (Some sample_nodes) (Some [(500, 0); (600, -1)])
    (Some (MMHints [[(0, 20); (0, 30)]] [] (Some [(py "h", 1); (py "r", 2)])))
    (Some (Guides [] [[GuideMaster 100 0; GuideMaster 120 0]]))
    (Some [Component 7 [10; 20] [0; 0] [0x3FF0000000000000; 0] [0; 0]])
    (Some [(3, [-50; -60]); (1, [0; 0])])
    (Some (Imported (Some (ImportedMetrics 2000 0 1 2 3 [0; 0; 100; -100])) (Some (1, [2]))
      (Some [BinaryNode 1 1 (5, 5); BinaryNode 0x30 0 (6, 4)]) None (Some [10; 11])))
    (Some [Instruction (py "AlignTop") [(py "zone", 3); (py "pt", 10)]]).
Example C26_ex : forall o, o_slope o 0 = Ok 0 -> o_asm o [] = Ok [] -> wf_glyph o (Some 2) 2 sample_glyph.
Proof.
  intros o Hs Ha. unfold wf_glyph, sample_glyph.
  cbn [g_name g_num_masters g_nodes g_metrics g_hints g_guides g_components g_kerning g_imported g_tth or_nil or_empty on_some].
  split; [reflexivity|]. split; [apply C25_ex|].
  split; [split; [apply ascii_encodable; repeat constructor; lia|reflexivity]|].
  split; [apply C25_ex|].
  split. { right. right. exists [(500, 0); (600, -1)]. split; [reflexivity|]. split; [reflexivity|]. repeat constructor; cbn; lia. }
  split. { split; [reflexivity|]. split; [repeat constructor; cbn; lia|]. split; [reflexivity|]. split; [constructor|].
    split; [reflexivity|]. cbn [or_nil mh_masks]. apply Forall_cons; [|apply Forall_cons; [|apply Forall_nil]].
    - split; [left; reflexivity|unfold int32; cbn; lia].
    - split; [right; right; left; reflexivity|unfold int32; cbn; lia]. }
  split. { split; [|split; [reflexivity|discriminate]]. unfold wf_guides. cbn [gs_h gs_v].
    split; [reflexivity|]. split; [constructor|]. split; [reflexivity|]. apply Forall_cons; [|apply Forall_nil].
    split; [reflexivity|]. apply Forall_cons; [|apply Forall_cons; [|apply Forall_nil]];
    (split; [unfold int32; cbn; lia|exists 0; split; [exact Hs|unfold int32; lia]]). }
  split; [reflexivity|]. split. { repeat constructor; cbn; unfold double; lia. }
  split; [reflexivity|]. split.
  { split; [repeat constructor; cbn; intuition lia|]. repeat constructor; cbn; lia. }
  split.
  { split; [eexists; split; [reflexivity|]; repeat constructor; cbn; lia|].
    split; [exists 1, [2]; split; [reflexivity|]; split; [unfold int32; lia|]; split; [reflexivity|]; repeat constructor; lia|].
    cbn [im_nodes im_instructions im_hdmx or_nil].
    split; [reflexivity|]. split; [repeat constructor; cbn; lia|]. split; [cbn; unfold int32; lia|].
    split; [exact Ha|]. split; [reflexivity|]. repeat constructor; lia. }
  split; [|reflexivity]. pose proof C28_ex as H. inversion H; subst. repeat constructor; assumption.
Qed.

(** ** C27: the glyph parser stops, and rejects unknown sections *)
(** [asm_total]: disassembling with fontTools stops. *)
Theorem C27_terminates : forall o, (forall b, o_asm o b <> Err Diverge) -> terminates (parse_glyph o).
Proof. intros o H. apply tot_terminates, tot_glyph; exact H. Qed.
Print Assumptions C27_terminates.
(** The known section keys are 1 to 10, and 15 for the end. *)
Definition known_key (k : Z) : Prop := 1 <= k <= 10 \/ k = 15.
Lemma unknown_turn : forall o g k rest, is_byte k -> ~ known_key k ->
  glyph_turn o g (k :: rest) = RErr ValueError [].
Proof.
  intros o g k rest Hk Hu. unfold known_key in Hu. unfold glyph_turn. cbv zeta. unfold rbind at 1. rewrite uint8_cons by exact Hk.
  repeat match goal with |- context [k =? ?c] => replace (k =? c) with false by lia end. reflexivity.
Qed.
(** Any glyph may be followed by an unknown section instead of the end: reading it raises. *)
Theorem C27_unknown_section : forall o v n g, wf_glyph o v n g -> exists bs,
  compile_glyph o v g = Ok (bs ++ [15]) /\
  forall k rest, is_byte k -> ~ known_key k -> run_parser (parse_glyph o) (bs ++ k :: rest) = Err ValueError.
Proof.
  intros o v n g H. destruct (glyph_sections o v n g H) as (g' & w & _ & E & (b & Ew & Ob & R)).
  exists ([1; 9; 7; 1] ++ b). rewrite E, Ew. split; [reflexivity|]. intros k rest Hk Hu.
  unfold run_parser, parse_glyph. unfold rbind at 1. rewrite <- app_assoc.
  change (read_bytes 4 ([1; 9; 7; 1] ++ b ++ k :: rest)) with (ROk [1; 9; 7; 1] (b ++ k :: rest)). cbv iota beta.
  cbn [length Nat.eqb]. unfold rbind at 1. cbn [ret]. unfold rloop.
  destruct (R (S (length (b ++ k :: rest))) (k :: rest)) as (f & Lf & ->); [rewrite app_length; lia|].
  rewrite app_length in Lf. cbn [length] in Lf. destruct f as [|f]; [lia|]. cbn [rwhile]. unfold rbind.
  rewrite unknown_turn by assumption. reflexivity.
Qed.
Print Assumptions C27_unknown_section.
(** A truncated glyph is rejected: only a key 15 ends the reading. *)
Theorem C27_truncated : forall o v n g, wf_glyph o v n g -> exists bs,
  compile_glyph o v g = Ok (bs ++ [15]) /\ run_parser (parse_glyph o) bs = Err ValueError.
Proof.
  intros o v n g H. destruct (glyph_sections o v n g H) as (g' & w & _ & E & (b & Ew & Ob & R)).
  exists ([1; 9; 7; 1] ++ b). rewrite E, Ew. split; [reflexivity|].
  unfold run_parser, parse_glyph. unfold rbind at 1.
  change (read_bytes 4 ([1; 9; 7; 1] ++ b)) with (ROk [1; 9; 7; 1] b). cbv iota beta.
  cbn [length Nat.eqb]. unfold rbind at 1. cbn [ret]. unfold rloop.
  destruct (R (S (length b)) []) as (f & Lf & X); [lia|]. rewrite app_nil_r in X. rewrite X.
  destruct f as [|f]; [lia|]. reflexivity.
Qed.
Print Assumptions C27_truncated.
Example C27_ex : exists o, (forall b, o_asm o b <> Err Diverge) /\ wf_glyph o (Some 2) 2 sample_glyph.
Proof.
  exists (Oracles (fun v => v) (fun a => Ok a) (fun _ => Ok []) (fun _ => Ok [])).
  split; [discriminate|]. apply C26_ex; reflexivity.
Qed.

(** ** C37: guides *)
Theorem C37_guides : forall o n d, wf_guides o n d ->
  exists bs, compile_guides o (Some n) d = Ok bs /\ bytes_ok bs /\
    run_parser (parse_global_guides o (Some n)) bs = Ok (stored_guides o d).
Proof. intros o n d H. exact (global_guides_run o n d H). Qed.
(** Positions and structure are unchanged; angles too, when their slope gives them back. *)
Definition positions (l : list (list guide_master)) : list (list Z) := map (map gm_pos) l.
Theorem C37_positions : forall o d,
  positions (gs_h (stored_guides o d)) = positions (gs_h d) /\
  positions (gs_v (stored_guides o d)) = positions (gs_v d).
Proof.
  intros o [h v]. unfold stored_guides, positions. cbn [gs_h gs_v]. rewrite !map_map.
  split; apply map_ext; intros l; rewrite map_map; apply map_ext; intros g; unfold stored_angle;
    destruct (o_slope o (gm_angle g)); reflexivity.
Qed.
Theorem C37_guides_exact : forall o n d, wf_guides o n d -> exact_guides o d ->
  survives (compile_guides o (Some n)) (parse_global_guides o (Some n)) d.
Proof. intros o n d H HE. pose proof (global_guides_run o n d H) as W. rewrite stored_exact in W by exact HE. exact W. Qed.
Theorem C37_guide_props : forall d, wf_guide_props d -> survives compile_guide_props parse_guide_props d.
Proof. intros d H. apply wrt_survives, wrt_guide_props, H. Qed.
Print Assumptions C37_guides. Print Assumptions C37_positions. Print Assumptions C37_guides_exact.
Print Assumptions C37_guide_props.
Example C37_guides_ex : forall o, o_slope o 0 = Ok 0 ->
  wf_guides o 2 (Guides [[GuideMaster (-10) 0; GuideMaster 2000 0]] []).
Proof.
  intros o H. split; [reflexivity|]. split; [|split; [reflexivity|constructor]].
  apply Forall_cons; [|apply Forall_nil]. split; [reflexivity|].
  apply Forall_cons; [|apply Forall_cons; [|apply Forall_nil]];
  (split; [unfold int32; cbn; lia|exists 0; split; [exact H|unfold int32; lia]]).
Qed.
Example C37_guide_props_ex : wf_guide_props
  (GuideProps [GuideProp 1 (Some (py "#00ff7a")) (Some (py "x")); GuideProp (-1) None None] []).
Proof.
  split; [|constructor]. cbn [gps_h]. apply Forall_cons; [|apply Forall_cons; [|apply Forall_nil]].
  - split; [unfold int32; cbn; lia|]. split; [discriminate|]. split.
    + intros c E. inversion E; subst. split; [reflexivity|]. exists (py "00ff7a"). split; [reflexivity|].
      change (py "00ff7a") with [48; 48; 102; 102; 55; 97]. (repeat (apply Forall_cons; [lia|])); apply Forall_nil.
    + intros m E. inversion E; subst. split; [discriminate|]. split; [apply ascii_encodable; repeat constructor; lia|reflexivity].
  - split; [unfold int32; cbn; lia|]. split; [discriminate|]. split; intros; discriminate.
Qed.
(** A stored colour above 0xFFFFFF is read as a text of seven digits, which becomes another colour. *)
Theorem C37_color_refuted : exists data d bs d', bytes_ok data /\
  run_parser parse_guide_props data = Ok d /\ compile_guide_props d = Ok bs /\
  run_parser parse_guide_props bs = Ok d' /\
  map gp_color (gps_h d) = [Some (py "#5673412")] /\ d' <> d.
Proof.
  exists [140; 255; 0x01; 0x23; 0x45; 0x67; 139; 139; 139]. eexists. eexists. eexists.
  split; [repeat constructor; lia|]. split; [vm_compute; reflexivity|]. split; [vm_compute; reflexivity|].
  split; [vm_compute; reflexivity|]. split; [vm_compute; reflexivity|]. intros E. vm_compute in E. discriminate.
Qed.
(** A guide with index 0 ends the list of guides: it and the rest are lost. *)
Theorem C37_index_zero_refuted : exists d bs, compile_guide_props d = Ok bs /\
  gps_h d <> [] /\ gps_v d = [] /\ run_parser parse_guide_props bs <> Ok d.
Proof.
  exists (GuideProps [GuideProp 0 None None] []). eexists. split; [vm_compute; reflexivity|].
  split; [discriminate|]. split; [reflexivity|]. intros E. vm_compute in E. discriminate.
Qed.
Print Assumptions C37_color_refuted. Print Assumptions C37_index_zero_refuted.

(** ** C41: GDEF *)
Theorem C41_gdef : forall d, wf_gdef d -> exists bs d',
  compile_gdef d = Ok bs /\ bytes_ok bs /\ run_parser parse_gdef bs = Ok d' /\ same_gdef d d'.
Proof.
  intros d H. destruct (wrt_run _ _ _ _ (wrt_gdef d H)) as (bs & E & O & R). exists bs, (gdef_read d).
  auto using gdef_read_same.
Qed.
Theorem C41_reparse : reparses compile_gdef parse_gdef.
Proof.
  eapply reparses_intro; [apply rps_gdef|]. intros d [H E]. apply wrt_survives. rewrite <- E at 2. apply wrt_gdef, H.
Qed.
(** The two values stored after the coordinates of an anchor are not kept: -1 is written instead. *)
Theorem C41_anchor_extras_refuted : exists data d bs, bytes_ok data /\
  run_parser parse_gdef data = Ok d /\ compile_gdef d = Ok bs /\ length bs = length data /\ bs <> data.
Proof.
  exists [139; 140; 139; 149; 150; 151; 152; 139; 139]. eexists. eexists. split; [repeat constructor; lia|].
  split; [vm_compute; reflexivity|]. split; [vm_compute; reflexivity|]. split; [reflexivity|]. discriminate.
Qed.
(** A stored class of -1 to -5 is accepted and counts from the end. *)
Theorem C41_negative_class : forall d, run_parser parse_gdef [138; 139; 139; 139] = Ok d ->
  gd_class d = Some (py "component").
Proof. intros d E. vm_compute in E. inversion E; subst. reflexivity. Qed.
Print Assumptions C41_gdef. Print Assumptions C41_reparse. Print Assumptions C41_anchor_extras_refuted.
Print Assumptions C41_negative_class.
Example C41_ex : wf_gdef (Gdef (Some (py "ligature")) (Some [GdefAnchor (Some (py "top")) 10 (-700); GdefAnchor None 0 0])
  (Some [(250, 0)]) None).
Proof.
  split; [right; right; exists (py "ligature"); split; [reflexivity|right; left; reflexivity]|].
  cbn [or_nil gd_anchors gd_carets gd_ot_classes]. split; [reflexivity|]. split.
  - apply Forall_cons; [|apply Forall_cons; [|apply Forall_nil]];
    (split; [split; [apply ascii_encodable; repeat constructor; lia|reflexivity]|cbn; unfold int32; lia]).
  - split; [reflexivity|]. split; [repeat constructor; cbn; lia|]. split; [reflexivity|constructor].
Qed.

(** ** C19: anchors, anchor properties, links, sketch, mask metrics *)
(** [n] is the number of masters of the file *)
Theorem C19_anchors : forall n l, 0 <= n < 2 ^ 31 -> countable l -> Forall (wf_anchor n) l ->
  survives (compile_anchors (Some n)) parse_anchors l.
Proof. intros n l Hn Hc Hl. apply wrt_survives, wrt_anchors; assumption. Qed.
Theorem C19_anchor_props : forall l, countable l -> Forall wf_anchor_props l ->
  survives compile_anchor_props parse_anchor_props l.
Proof. intros l Hc Hl. apply wrt_survives, wrt_anchor_props; assumption. Qed.
(** Written unsigned, read signed. *)
Theorem C19_anchor_props_refuted : exists bs l,
  compile_anchor_props [AnchorProps (Some (2 ^ 31)) (Some 0)] = Ok bs /\
  run_parser parse_anchor_props bs = Ok l /\ l = [AnchorProps (Some (- 2 ^ 31)) (Some 0)].
Proof. eexists. eexists. split; [vm_compute; reflexivity|]. split; vm_compute; reflexivity. Qed.
Theorem C19_links : (forall d, wf_links d -> survives compile_links parse_links d) /\ reparses compile_links parse_links.
Proof.
  assert (H : forall d, wf_links d -> survives compile_links parse_links d) by (intros; apply wrt_survives, wrt_links; assumption).
  split; [exact H|]. eapply reparses_intro; [apply rps_links|exact H].
Qed.
Definition wf_sketch (l : list (Z * Z * Z)) : Prop :=
  countable l /\ Forall (fun t => int32 (fst (fst t)) /\ int32 (snd (fst t)) /\ int32 (snd t)) l.
Theorem C19_sketch : (forall l, wf_sketch l -> survives compile_sketch parse_sketch l) /\ reparses compile_sketch parse_sketch.
Proof.
  assert (H : forall l, wf_sketch l -> survives compile_sketch parse_sketch l)
    by (intros l [Hc Hl]; apply wrt_survives, wrt_sketch; assumption).
  split; [exact H|]. eapply reparses_intro; [apply rps_sketch|exact H].
Qed.
Theorem C19_mask_metrics : forall p, int16 (fst p) -> int16 (snd p) -> survives compile_int16_pair parse_int16_pair p.
Proof. intros p H1 H2. apply wrt_survives, wrt_int16_pair; assumption. Qed.
(** for all masters but the first *)
Theorem C19_mask_metrics_mm : forall n l, Z.of_nat (length l) = n - 1 -> Forall int32_pair l ->
  survives compile_mask_metrics_mm (parse_mask_metrics_mm (Some n)) l.
Proof. intros n l HL H. apply wrt_survives, wrt_mask_metrics_mm; assumption. Qed.
Print Assumptions C19_anchors. Print Assumptions C19_anchor_props. Print Assumptions C19_anchor_props_refuted.
Print Assumptions C19_links. Print Assumptions C19_sketch. Print Assumptions C19_mask_metrics.
Print Assumptions C19_mask_metrics_mm.
Example C19_anchors_ex : Forall (wf_anchor 2) [MMAnchor [10; -2000] [0; 2 ^ 31 - 1]] /\
  Forall wf_anchor_props [AnchorProps (Some 0) (Some (-1131)); AnchorProps (Some 128) (Some (2 ^ 31 - 1))] /\
  wf_links (Links [(1, 2)] [(-1, -2); (3, -1)]) /\ wf_sketch [(1, 100, -100)].
Proof.
  split; [repeat constructor; cbn; lia|]. split.
  - repeat (apply Forall_cons); [| |apply Forall_nil]; eexists; eexists; (split; [reflexivity|]); unfold small_flag; lia.
  - split; [split; [reflexivity|split; [repeat constructor; cbn; lia|split; [reflexivity|repeat constructor; cbn; lia]]]|].
    split; [reflexivity|]. repeat constructor; cbn; lia.
Qed.

(** ** C20: origin, unicodes *)
Theorem C20_origin : (forall p, int16 (fst p) -> int16 (snd p) -> survives compile_int16_pair parse_int16_pair p) /\
  exact_at 4 compile_int16_pair parse_int16_pair.
Proof. split; [exact C19_mask_metrics|exact int16_pair_exact]. Qed.
Theorem C20_unicodes : (forall l, Forall uint16 l -> survives compile_unicodes parse_unicodes l) /\
  forall n, exact_at (n * 2) compile_unicodes parse_unicodes.
Proof. split; [exact unicodes_survives|exact unicodes_exact]. Qed.
Theorem C20_unicodes_non_bmp : (forall l, Forall uint32 l -> survives compile_unicodes_supp parse_unicodes_supp l) /\
  forall n, exact_at (n * 4) compile_unicodes_supp parse_unicodes_supp.
Proof. split; [exact unicodes_supp_survives|exact unicodes_supp_exact]. Qed.
Print Assumptions C20_origin. Print Assumptions C20_unicodes. Print Assumptions C20_unicodes_non_bmp.
Example C20_unicodes_ex : Forall uint16 [65; 0; 0xFFFF] /\ Forall uint32 [0x1F600] /\
  compile_unicodes [65; 0xFFFF] = Ok [65; 0; 255; 255].
Proof. split; [repeat constructor; lia|]. split; [repeat constructor; lia|]. vm_compute. reflexivity. Qed.

(** ** C40: what is parsed can be compiled *)
Theorem C40_glyph : forall o v n data g, entry_data data -> run_parser (parse_glyph o) data = Ok g ->
  regular o v n g ->
  exists bs g', compile_glyph o v g = Ok bs /\ bytes_ok bs /\
    run_parser (parse_glyph o) bs = Ok g' /\ same_glyph (with_stored_angles o g) g'.
Proof.
  intros o v n data g Hd E R. apply (C26_glyph o v n). apply regular_wf; [|exact R].
  eapply (rps_run _ _ _ _ _ (rps_glyph o)); eauto.
Qed.
Print Assumptions C40_glyph.
(** Without outlines there is no number of masters, and the parsed glyph cannot be compiled. *)
Theorem C40_glyph_refuted : forall o v, exists data g, bytes_ok data /\
  run_parser (parse_glyph o) data = Ok g /\ compile_glyph o v g = Err KeyError.
Proof.
  intros o v. exists [1; 9; 7; 1; 15]. eexists. split; [repeat constructor; lia|].
  split; [vm_compute; reflexivity|]. apply C26_masters_required. reflexivity.
Qed.
Print Assumptions C40_glyph_refuted.
Theorem C40_outlines : forall data n nodes, entry_data data -> run_parser parse_outlines data = Ok (n, nodes) ->
  master_count n -> 2 * stored_values n nodes < 2 ^ 31 ->
  survives (fun p => compile_outlines (fst p) (Some (snd p))) parse_outlines (n, nodes).
Proof.
  intros data n nodes Hd E Hn HV. pose proof (rps_run _ _ _ _ _ rps_outlines Hd E) as H. cbn [fst snd] in H.
  destruct (H (proj1 Hn)) as [F S]. apply C25_outlines; [exact Hn|]. split; [exact F|]. split; [exact S|exact HV].
Qed.
Print Assumptions C40_outlines.
(** Anchors are parsed with their own number of masters, but compiled with that of the file. *)
Theorem C40_anchors : forall data l, entry_data data -> run_parser parse_anchors data = Ok l ->
  exists n, Forall (wf_anchor n) l /\ survives (compile_anchors (Some n)) parse_anchors l.
Proof.
  intros data l Hd E. destruct (rps_run _ _ _ _ _ rps_anchors Hd E) as (C & n & Hn & F).
  exists n. split; [exact F|]. apply C19_anchors; assumption.
Qed.
Theorem C40_anchor_masters_refuted : exists data l bs l', bytes_ok data /\
  run_parser parse_anchors data = Ok l /\ compile_anchors (Some 1) l = Ok bs /\
  run_parser parse_anchors bs = Ok l' /\ l = [MMAnchor [1; 3] [2; 4]] /\ l' = [MMAnchor [1] [2]].
Proof.
  exists [140; 141; 140; 141; 142; 143]. eexists. eexists. eexists. split; [repeat constructor; lia|].
  split; [vm_compute; reflexivity|]. split; [vm_compute; reflexivity|]. split; [vm_compute; reflexivity|].
  split; reflexivity.
Qed.
Theorem C40_anchor_props_refuted : exists data l, bytes_ok data /\
  run_parser parse_anchor_props data = Ok l /\ forall bs, compile_anchor_props l <> Ok bs.
Proof.
  exists [140; 255; 255; 255; 248; 48; 139]. eexists. split; [repeat constructor; lia|].
  split; [vm_compute; reflexivity|]. intros bs E. vm_compute in E. discriminate.
Qed.
Theorem C40_mask_metrics_mm : forall n, 1 <= n -> reparses compile_mask_metrics_mm (parse_mask_metrics_mm (Some n)).
Proof.
  intros n Hn. eapply reparses_intro; [apply rps_mask_metrics_mm|]. intros l [L F]. apply C19_mask_metrics_mm; [lia|exact F].
Qed.
Theorem C40_origin : reparses compile_int16_pair parse_int16_pair.
Proof. eapply reparses_intro; [apply rps_int16_pair|]. intros p [H1 H2]. apply C19_mask_metrics; assumption. Qed.
(** Guides whose angles have a slope in range. *)
Theorem C40_guides : forall o n data d, entry_data data -> 0 <= n -> run_parser (parse_global_guides o (Some n)) data = Ok d ->
  Forall (Forall (fun g => exists s, o_slope o (gm_angle g) = Ok s /\ int32 s)) (gs_h d ++ gs_v d) ->
  exists bs, compile_guides o (Some n) d = Ok bs /\ bytes_ok bs /\
    run_parser (parse_global_guides o (Some n)) bs = Ok (stored_guides o d).
Proof.
  intros o n data d Hd Hn E HS.
  assert (R : rps (parse_global_guides o (Some n)) (fun d => countable (gs_h d) /\ countable (gs_v d) /\
     Forall (fun l => length l = Z.to_nat n /\ read_slopes o l) (gs_h d ++ gs_v d))).
  { unfold parse_global_guides. eapply rps_bind; [apply rps_guides|]. intros x Hx.
    eapply rps_bind; [apply rps_read_all|]. intros b _. eapply rps_bind; [apply rps_true; tot_auto|]. intros _ _.
    apply rps_ret. exact Hx. }
  destruct (rps_run _ _ _ _ _ R Hd E) as (Ch & Cv & F). apply C37_guides.
  pose proof (Forall_and _ _ _ _ F HS) as X. apply Forall_app in X.
  assert (K : forall l, (length l = Z.to_nat n /\ read_slopes o l) /\
      Forall (fun g => exists s, o_slope o (gm_angle g) = Ok s /\ int32 s) l -> masters n (wf_guide_master o) l).
  { intros l ((L & K1) & K2). split; [lia|]. eapply Forall_impl; [|apply (Forall_and _ _ _ _ K1 K2)].
    intros gm ((P & _) & S). split; assumption. }
  split; [exact Ch|]. split; [eapply Forall_impl; [apply K|apply X]|]. split; [exact Cv|eapply Forall_impl; [apply K|apply X]].
Qed.
Print Assumptions C40_anchors. Print Assumptions C40_anchor_masters_refuted. Print Assumptions C40_anchor_props_refuted.
Print Assumptions C40_mask_metrics_mm. Print Assumptions C40_origin. Print Assumptions C40_guides.
(** Guide properties whose colours have six digits. *)
Lemma hex_digits_lower : forall f n, 0 <= n -> Forall (fun c => 48 <= c <= 57 \/ 97 <= c <= 102) (hex_digits f n).
Proof.
  induction f as [|f IH]; intros n Hn; cbn [hex_digits]; [constructor|].
  destruct (n <? 16) eqn:En.
  - constructor; [apply hexc_lower; lia|constructor].
  - apply Forall_app. split; [apply IH; lia|]. constructor; [apply hexc_lower; lia|constructor].
Qed.
Lemma guide_color_lower : forall v c, guide_color v = Some c -> length c = 7%nat -> rgb_color c.
Proof.
  intros v c E L. unfold guide_color in E. destruct (-1 <? v) eqn:Ev; [|discriminate]. injection E as <-.
  split; [exact L|]. eexists. split; [reflexivity|].
  assert (F : Forall (fun c => 48 <= c <= 57 \/ 97 <= c <= 102) (hex06 v)).
  { unfold hex06, hex_nat. apply Forall_app. split; [|apply hex_digits_lower; lia].
    apply Forall_forall. intros x Hx. apply repeat_spec in Hx. lia. }
  rewrite Forall_forall in *. intros x Hx. apply F. unfold swap_color in Hx. rewrite !in_app_iff in Hx.
  unfold slice_from, slice in Hx.
  assert (SK : forall k, In x (skipn k (hex06 v)) -> In x (hex06 v)).
  { intros k H. rewrite <- (firstn_skipn k (hex06 v)). apply in_app_iff. auto. }
  assert (FS : forall k (l : pystr), In x (firstn k l) -> In x l).
  { intros k l H. rewrite <- (firstn_skipn k l). apply in_app_iff. auto. }
  destruct Hx as [Hx|[Hx|Hx]]; [eapply SK; eauto| |]; apply FS in Hx; eapply SK; eauto.
Qed.
Definition read_guide_prop (g : guide_prop) : Prop :=
  int32 (gp_index g) /\ gp_index g <> 0 /\ (forall c, gp_color g = Some c -> exists v, guide_color v = Some c) /\
  (forall n, gp_name g = Some n -> n <> [] /\ text n).
Lemma rps_guide_prop_list : rps (rloop guide_props_turn []) (Forall read_guide_prop).
Proof.
  apply (rps_loop _ _ _ (Forall read_guide_prop)); [constructor|]. intros l Hl. unfold guide_props_turn.
  eapply rps_bind; [apply rps_value|]. intros i Hi. destruct (i =? 0) eqn:E0; [apply rps_ret; exact Hl|].
  eapply rps_bind; [apply rps_value|]. intros v Hv. eapply rps_bind; [apply rps_str_with_len|]. intros s Hs.
  apply rps_ret. apply Forall_app. split; [exact Hl|]. constructor; [|constructor].
  split; [exact Hi|]. cbn [gp_index gp_color gp_name]. split; [lia|]. split.
  - intros c Hc. exists v. exact Hc.
  - intros n Hn. destruct s; [discriminate|]. inversion Hn; subst. split; [discriminate|exact Hs].
Qed.
Theorem C40_guide_props : forall data d, entry_data data -> run_parser parse_guide_props data = Ok d ->
  (forall g c, In g (gps_h d ++ gps_v d) -> gp_color g = Some c -> length c = 7%nat) ->
  survives compile_guide_props parse_guide_props d.
Proof.
  intros data d Hd E HC. apply C37_guide_props.
  assert (R : rps parse_guide_props (fun d => Forall read_guide_prop (gps_h d ++ gps_v d))).
  { unfold parse_guide_props. eapply rps_bind; [apply rps_guide_prop_list|]. intros h Hh.
    eapply rps_bind; [apply rps_guide_prop_list|]. intros v Hv. apply rps_ret. apply Forall_app. auto. }
  pose proof (rps_run _ _ _ _ _ R Hd E) as F.
  assert (W : Forall wf_guide_prop (gps_h d ++ gps_v d)).
  { rewrite Forall_forall in *. intros g Hg. destruct (F g Hg) as (I & I0 & C & N).
    split; [exact I|]. split; [exact I0|]. split; [|exact N]. intros c Ec. destruct (C c Ec) as (v & Ev).
    exact (guide_color_lower v c Ev (HC g c Hg Ec)). }
  apply Forall_app in W. exact W.
Qed.
Print Assumptions C40_guide_props.
(** The hypotheses of [C40_glyph] are met by what the sample glyph compiles to. *)
Definition sample_oracles : oracles := Oracles (fun v => v) (fun a => Ok a) (fun _ => Ok []) (fun _ => Ok []).
Example C40_glyph_ex : exists data g, entry_data data /\ run_parser (parse_glyph sample_oracles) data = Ok g /\
  regular sample_oracles (Some 2) 2 g /\ g_imported g <> None /\ length (or_nil (g_nodes g)) = 4%nat.
Proof.
  destruct (compile_glyph sample_oracles (Some 2) sample_glyph) as [bs|] eqn:E; [|vm_compute in E; discriminate].
  exists bs. vm_compute in E. apply Ok_inj in E. subst bs. eexists. split; [split; [repeat constructor; lia|vm_compute; reflexivity]|].
  split; [vm_compute; reflexivity|]. split; [|split; [discriminate|reflexivity]].
  unfold regular. cbn [g_name g_num_masters g_nodes g_metrics g_hints g_guides g_components g_kerning g_imported g_tth or_nil or_empty on_some].
  split; [reflexivity|]. split; [unfold master_count; lia|]. split; [vm_compute; reflexivity|].
  split; [reflexivity|]. split; [split; repeat constructor|].
  split. { split; [reflexivity|]. split; [discriminate|]. apply Forall_cons; [|apply Forall_nil]. split; [reflexivity|].
    apply Forall_cons; [|apply Forall_cons; [|apply Forall_nil]]; (exists 0; split; [reflexivity|unfold int32; lia]). }
  split; [repeat constructor|]. split; [repeat constructor|]. split; [|reflexivity].
  split; [discriminate|]. split; [discriminate|]. reflexivity.
Qed.
