(** C95: saving a VFB and opening it again does not change the UFOs to which it is exported. *)
From Coq Require Import ZifyBool ZifyNat String Permutation QArith.
From Verif Require Import S_Tth Base Lib M_Stream M_Text M_Py M_Simple M_Bitmap M_TrueType M_Glyph M_Options M_Container M_Table S_Text S_Entry S_File.
From Verif Require Import M_Build M_Ufo S_Glyph S_Table S_Build S_Resave P_Table P_File P_Resave Prop_Glyph Prop_Ufo Prop_Ufo3.
Local Open Scope list_scope.
Local Open Scope Z_scope.

(** A file that is read and decompiled, whose entries can be written, and that is exported to UFOs, is written without an
    exception; whoever reads and decompiles what was written exports it, with the same settings, to the same UFOs. *)
Theorem C95_file : forall o c op file fuel uni v0 rest v us,
  bytes_ok file -> Z.of_nat (List.length file) < 2 ^ 31 ->
  vfb_read_bytes (table o) fuel (new_vfb [] false uni) file = (v0, ROk tt rest) ->
  vfb_decompile (table o) v0 = (v, Ok tt) ->
  (forall i x, In (mkEntry (Some i) (Dec x) None) (v_entries v) ->
     can_be_written o (v_ctx v) i x /\ fits o (v_ctx v) i x) ->
  glyphs_named (entries_of (v_entries v)) -> zones_distinct (entries_of (v_entries v)) ->
  vfb_to_ufos c op (entries_of (v_entries v)) = Ok us ->
  exists v' out, vfb_write_bytes (table o) v = (v', out, Ok tt) /\
    forall rest uni fuel, (List.length (v_entries v) <= fuel)%nat ->
    exists w0 w us', vfb_read_bytes (table o) fuel (new_vfb [] false uni) (out ++ rest) = (w0, ROk tt rest) /\
      vfb_decompile (table o) w0 = (w, Ok tt) /\
      vfb_to_ufos c op (entries_of (v_entries w)) = Ok us' /\ Forall2 same_ufo us us'.
Proof.
  intros o c op file fuel uni v0 rest v us Hf L E D HW GN ZD X.
  destruct (file_reads o _ _ _ _ _ _ Hf L E D) as (minor & l & Hm & Hh & He & Hi & Hc & Hwf & HP). rewrite He in *.
  assert (HW' : forall p, In p l -> can_be_written o (v_ctx v) (fst p) (snd p) /\ fits o (v_ctx v) (fst p) (snd p)).
  { intros [i x] I. apply HW. unfold decompiled. apply in_map_iff. exists (i, x). auto. }
  destruct (write_and_reparse o v minor l Hh Hm He Hi Hc) as (v' & out & W & R).
  { apply Forall_forall. intros [i x] Hin. cbn [fst snd]. destruct (HW' _ Hin) as [HC HF]. split; [|exact HF].
    rewrite Forall_forall in HP. destruct (HP _ Hin) as (b & Hb & Eb). eapply table_written; eauto. }
  exists v', out. split; [exact W|]. intros rest' uni' fuel' Hl. unfold decompiled in Hl. rewrite map_length in Hl.
  destruct (R rest' uni' fuel' Hl) as (w0 & w & l' & R1 & R2 & R3 & R4 & R5 & R6 & R7).
  destruct (resaved o (v_ctx v) c op l l' us) as (us' & Y1 & Y2); try assumption.
  - eapply Forall_impl; [|exact HP]. intros q (b & Hb & Eb). exists b. split; [apply Hb|exact Eb].
  - apply Forall_forall. intros p I. apply HW'. exact I.
  - exists w0, w, us'. rewrite R5. auto.
Qed.
Print Assumptions C95_file.

(** ** A file *)
(** the entries of C89, with PostScript info and deltas of the zones *)
Definition pad (n : nat) (l : list Z) : list Z := l ++ repeat 0 (n - List.length l).
Definition c95_psinfo (a : Z) : ps_info :=
  PSInfo (repeat 0 6) 1 (pad 14 [-10; 0; 500; 510]) (repeat 0 10) (repeat 0 14) (repeat 0 10) 0x3FA44189374BC6A8 7 1 0 0 (pad 12 [80]) (repeat 0 12)
    0 0 0 0 0 0 0 a (-200) 500 700.
Definition c95_values : list (Z * value) :=
  flat_map (fun e => match snd e with
                     | Some (DPSInfo p) => [(1536, DPSInfo (c95_psinfo (ps_ascender p)))]
                     | Some d => [(fst e, d)]
                     | None => []
                     end) c89_entries ++
  [(1273, DDeltas [(1, [(20, 3); (12, -4)]); (0, [(9, 8)])]); (2, DStr [])].
Definition written (o : oracles) (l : list (Z * value)) : bytes :=
  snd (fst (vfb_write_bytes (table o) (with_ctx (context_of l) (with_entries (decompiled l) (with_header (HDec (fl_header 7)) (new_vfb [] false false)))))).
Definition c95_file : bytes := Eval vm_compute in written sample_oracles c95_values.
Definition c95_options : options := c86_options (fun _ => Qmake 0 1).
Ltac c95_entry :=
  split;
  [first [left; apply zmem_in; vm_compute; reflexivity|right; split; [apply zmem_in; vm_compute; reflexivity|]]
  |intros comp bs E1 E2;
   lazy [cd_compile table compiler_of row aget parser_classes Z.eqb Pos.eqb] in E1;
   injection E1 as <-; vm_compute in E2; apply Ok_inj in E2; subst bs; vm_compute; reflexivity].
Ltac c95_glyph :=
  unfold regular; cbn [g_name g_num_masters g_nodes g_metrics g_hints g_guides g_components g_kerning g_imported g_tth or_nil or_empty on_some mh_h mh_v];
  (split; [reflexivity|]); (split; [unfold master_count; lia|]); (split; [vm_compute; reflexivity|]); repeat split; repeat constructor.
Example c95_conditions : forall ops up asm, exists v0 v us,
  bytes_ok c95_file /\ Z.of_nat (List.length c95_file) < 2 ^ 31 /\
  vfb_read_bytes (table sample_oracles) 20 (new_vfb [] false false) c95_file = (v0, ROk tt []) /\
  vfb_decompile (table sample_oracles) v0 = (v, Ok tt) /\ List.length (v_entries v) = 16%nat /\
  (forall i x, In (mkEntry (Some i) (Dec x) None) (v_entries v) ->
     can_be_written sample_oracles (v_ctx v) i x /\ fits sample_oracles (v_ctx v) i x) /\
  glyphs_named (entries_of (v_entries v)) /\ zones_distinct (entries_of (v_entries v)) /\
  vfb_to_ufos (Settings false false true ops up asm) c95_options (entries_of (v_entries v)) = Ok us /\ List.length us = 2%nat.
Proof.
  intros. do 3 eexists. split; [unfold c95_file; repeat constructor; lia|]. split; [vm_compute; reflexivity|].
  split; [vm_compute; reflexivity|]. split; [vm_compute; reflexivity|]. split; [reflexivity|].
  split; [|split; [|split; [|split; [vm_compute; reflexivity|reflexivity]]]].
  - cbn [v_entries v_ctx]. intros i x H. cbn [In] in H.
    repeat (destruct H as [H|H]; [injection H as <- <-; c95_entry|]); [| |destruct H].
    + split; [|exact Coq.Init.Logic.I]. exists 2. c95_glyph.
    + split; [|exact Coq.Init.Logic.I]. exists 2. c95_glyph.
  - cbn [v_entries]. intros x H. cbn [entries_of flat_map e_id e_data app In] in H.
    repeat (destruct H as [H|H]; [try discriminate H; injection H as <-; discriminate|]). destruct H.
  - split.
    + vm_compute. repeat constructor; cbn [In]; intuition discriminate.
    + cbn [v_entries]. intros x H. cbn [entries_of flat_map e_id e_data app In] in H.
      repeat (destruct H as [H|H]; [try discriminate H; injection H as <-; repeat constructor; discriminate|]). destruct H.
Qed.

(** ** Glyphs without a name *)
(** A glyph whose name is empty is exported; a VFB with it can be written, but the name is not, and then the export of
    what was written ends with an exception. *)
Definition c95_unnamed : bytes := Eval vm_compute in
  file_of 7 [(1503, [1; 0]); (1536, match compile_ps_info (c95_psinfo 700) with Ok b => b | Err _ => [] end);
             (2001, [1; 9; 7; 1; 1; 139; 8; 140; 139; 139; 2; 248; 236; 139; 15]); (2, [])].
Theorem C95_names_refuted : forall ops up asm, exists o file v0 v us v' out w0 w,
  let c := Settings false false true ops up asm in let op := c95_options in
  bytes_ok file /\ Z.of_nat (List.length file) < 2 ^ 31 /\
  vfb_read_bytes (table o) 20 (new_vfb [] false false) file = (v0, ROk tt []) /\
  vfb_decompile (table o) v0 = (v, Ok tt) /\
  (forall i x, In (mkEntry (Some i) (Dec x) None) (v_entries v) ->
     can_be_written o (v_ctx v) i x /\ fits o (v_ctx v) i x) /\
  zones_distinct (entries_of (v_entries v)) /\
  vfb_to_ufos c op (entries_of (v_entries v)) = Ok us /\
  vfb_write_bytes (table o) v = (v', out, Ok tt) /\
  vfb_read_bytes (table o) 20 (new_vfb [] false false) out = (w0, ROk tt []) /\
  vfb_decompile (table o) w0 = (w, Ok tt) /\
  vfb_to_ufos c op (entries_of (v_entries w)) = Err KeyError.
Proof.
  intros ops up asm. exists sample_oracles, c95_unnamed. do 7 eexists. intros c op.
  split; [unfold c95_unnamed; repeat constructor; lia|]. split; [vm_compute; reflexivity|].
  split; [vm_compute; reflexivity|]. split; [vm_compute; reflexivity|].
  split; [|split; [|split; [vm_compute; reflexivity|split; [vm_compute; reflexivity|split; [vm_compute; reflexivity|split; [vm_compute; reflexivity|vm_compute; reflexivity]]]]]].
  - cbn [v_entries v_ctx]. intros i x H. cbn [In] in H.
    repeat (destruct H as [H|H]; [injection H as <- <-; c95_entry|]); [|destruct H].
    split; [|exact Coq.Init.Logic.I]. exists 1. c95_glyph.
  - split; [vm_compute; constructor|]. cbn [v_entries]. intros x H. cbn [entries_of flat_map e_id e_data app In] in H.
    repeat (destruct H as [H|H]; [discriminate H|]). destruct H.
Qed.
Print Assumptions C95_names_refuted.
