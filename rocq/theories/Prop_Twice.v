(** C111: saving a file again does not change it. *)
From Coq Require Import ZifyBool ZifyNat String Permutation QArith.
From Verif Require Import S_Tth Base Lib M_Stream M_Text M_Py M_Simple M_Bitmap M_TrueType M_Glyph M_Options M_Container M_Table S_Text S_Entry S_TrueType S_File.
From Verif Require Import M_Build M_Ufo S_Glyph S_Table S_Build S_Resave P_Loop P_Dec P_TrueType2 P_Glyph3 P_Table P_File P_Resave Prop_Glyph Prop_Ufo Prop_Ufo3 Prop_Resave.
Local Open Scope list_scope.
Local Open Scope Z_scope.

(** what is written when the bytes of a file are read, decompiled and written *)
Definition resave (o : oracles) (fuel : nat) (uni : bool) (file : bytes) : option bytes :=
  match vfb_read_bytes (table o) fuel (new_vfb [] false uni) file with
  | (v0, ROk _ _) =>
      match vfb_decompile (table o) v0 with
      | (v, Ok _) =>
          match vfb_write_bytes (table o) v with
          | (_, out, Ok _) => Some out
          | _ => None
          end
      | _ => None
      end
  | _ => None
  end.
Fixpoint resaves (o : oracles) (fuel : nat) (uni : bool) (n : nat) (file : bytes) : option bytes :=
  match n with
  | O => Some file
  | S n => match resave o fuel uni file with Some f => resaves o fuel uni n f | None => None end
  end.

(** ** Dicts that differ in their order only are written alike *)
Lemma deltas_alike : forall d e, deltas_nodup d -> deltas_nodup e -> same_deltas d e -> compile_zone_deltas d = compile_zone_deltas e.
Proof.
  intros d e Hd He S. apply compile_deltas_perm.
  assert (G : forall d e, deltas_nodup d -> same_deltas d e -> forall t, In t (delta_triples d) -> In t (delta_triples e)).
  { clear. intros d e (N & F) H [[z p] s] Hin. apply triples_in in Hin.
    destruct Hin as (m & Hm & Hps). specialize (H z). rewrite (in_zget _ _ _ _ N Hm) in H.
    destruct (aget Z.eqb z e) as [m'|] eqn:E; [|destruct H].
    apply triples_in. exists m'. split; [apply zget_in, E|]. apply zget_in. rewrite <- H.
    apply in_zget; [|exact Hps]. rewrite Forall_forall in F. exact (F _ Hm). }
  assert (Nd : forall d, deltas_nodup d -> NoDup (delta_triples d)).
  { intros x (N & F). eapply NoDup_map_inv with (f := fst). apply triples_nodup; [exact N|exact F]. }
  apply NoDup_Permutation; auto. intros t. split; apply G; auto.
  intros z. specialize (S z). destruct (aget Z.eqb z d), (aget Z.eqb z e); auto.
Qed.
Lemma tt_info_alike : forall d e : tt_info, NoDup (map fst d) -> Permutation d e -> compile_tt_info d = compile_tt_info e.
Proof.
  intros d e N P. pose proof (perm_get str_eqb str_eqb_eq d e N P) as G.
  unfold compile_tt_info, convert_flags_options_to_int, tt_write_required, write_if_exists, tt_write_hdmx, aget_res. cbn [wlist].
  rewrite !G. reflexivity.
Qed.

(** ** Glyphs *)
(** hints that are stored are not empty *)
Definition hinted (g : glyph) : Prop := match g_hints g with
  | Some h => mh_h h <> [] \/ mh_v h <> [] \/ or_nil (mh_masks h) <> []
  | None => True
  end.
Lemma glyph_hinted : forall o, ends (parse_glyph o) hinted.
Proof.
  intros o. unfold parse_glyph. apply ends_then. intros b. apply ends_then. intros _. apply (ends_loop _ _ _ hinted).
  - exact Coq.Init.Logic.I.
  - intros g HG. unfold glyph_turn. cbv zeta. apply ends_then. intros v.
    apply ends_if. { apply ends_then. intros s. apply ends_ret. exact HG. }
    apply ends_if. { apply ends_then. intros s. apply ends_ret. exact HG. }
    apply ends_if.
    { eapply ends_bind with (P := fun h => mh_masks h <> Some []).
      - unfold parse_hints. do 6 (apply ends_then; intros ?). apply ends_ret. cbn. destruct a4; discriminate.
      - intros h Hh. apply ends_ret. unfold store_hints. destruct (mh_v h) eqn:V, (mh_h h) eqn:H, (mh_masks h) as [[|]|] eqn:M;
          try congruence; try exact HG; unfold hinted; cbn [set_hints g_hints]; rewrite H, V, M; cbn [or_nil];
          first [left; discriminate|right; left; discriminate|right; right; discriminate]. }
    apply ends_if. { destruct (g_num_masters g) as [n|] eqn:En; [|apply ends_raise]. destruct (g_name g) eqn:Enm; [|apply ends_raise]. apply ends_then. intros s. apply ends_ret. exact HG. }
    apply ends_if. { apply ends_then. intros s. apply ends_ret. exact HG. }
    apply ends_if. { apply ends_then. intros s. apply ends_ret. exact HG. }
    apply ends_if. { apply ends_ret. exact HG. }
    apply ends_if. { apply ends_then. intros s. apply ends_ret. exact HG. }
    apply ends_if. { apply ends_then. intros s. apply ends_ret. exact HG. }
    apply ends_if. { apply ends_then. intros l. apply ends_ret. destruct l; exact HG. }
    apply ends_if. { apply ends_ret. exact HG. }
    apply ends_then. intros _. apply ends_raise.
Qed.
Lemma glyph_alike : forall o v g h, tidy g -> tidy h -> hinted g -> hinted h ->
  on_some (fun i => im_metrics i <> None) (g_imported g) -> same_glyph g h -> compile_glyph o v g = compile_glyph o v h.
Proof.
  intros o v g h (_ & _ & Tg) (_ & _ & Th) Hg Hh HI (S1 & S2 & S3 & S4 & S5 & S6 & S7 & S8 & S9 & S10).
  pose proof (instructions_eq _ _ Tg Th S10) as ST. clear S10 Tg Th.
  unfold compile_glyph. rewrite S2. f_equal. destruct (g_num_masters h) as [n|]; [|reflexivity].
  assert (E1 : compile_glyph_name g = compile_glyph_name h).
  { unfold compile_glyph_name. destruct (g_name g) as [[|]|], (g_name h) as [[|]|]; cbn in S1; try discriminate; try reflexivity. rewrite S1. reflexivity. }
  assert (E2 : compile_outlines n (g_nodes g) = compile_outlines n (g_nodes h)).
  { unfold compile_outlines. destruct (g_nodes g) as [[|]|], (g_nodes h) as [[|]|]; cbn in S3; try discriminate; try reflexivity. rewrite S3. reflexivity. }
  assert (E3 : compile_metrics n g = compile_metrics n h).
  { unfold compile_metrics. destruct (g_metrics g) as [[|]|], (g_metrics h) as [[|]|]; cbn in S4; try discriminate; try reflexivity. rewrite S4. reflexivity. }
  assert (E4 : compile_hints n g = compile_hints n h).
  { destruct S5 as (A & B & C). unfold hints_of, hinted, compile_hints in *.
    destruct (g_hints g) as [hg|], (g_hints h) as [hh|]; cbn [empty_hints mh_h mh_v mh_masks or_nil] in *.
    - rewrite A, B, C. reflexivity.
    - destruct Hg as [X|[X|X]]; congruence.
    - destruct Hh as [X|[X|X]]; congruence.
    - reflexivity. }
  assert (E5 : compile_glyph_guides o v g = compile_glyph_guides o v h) by (unfold compile_glyph_guides; rewrite S6; reflexivity).
  assert (E6 : compile_components n g = compile_components n h).
  { unfold compile_components. destruct (g_components g) as [[|]|], (g_components h) as [[|]|]; cbn in S7; try discriminate; try reflexivity. rewrite S7. reflexivity. }
  assert (E7 : compile_kerning g = compile_kerning h).
  { unfold compile_kerning. destruct (g_kerning g) as [[|]|], (g_kerning h) as [[|]|]; cbn in S8; try discriminate; try reflexivity. rewrite S8. reflexivity. }
  assert (E8 : compile_binary o g = compile_binary o h).
  { unfold compile_binary. destruct (g_imported g) as [i|], (g_imported h) as [j|]; cbn in S9, HI; try tauto.
    destruct S9 as (A & B & C & D & F).
    assert (X : forall k, im_metrics k <> None -> match k with Imported None None None None None => wnil | _ => compile_imported o k end = compile_imported o k).
    { intros [[m|] ? ? ? ?] K; [reflexivity|]. cbn in K. congruence. }
    rewrite (X i HI), (X j) by (rewrite <- A; exact HI). unfold compile_imported. rewrite A, B, C, D, F. reflexivity. }
  assert (E9 : compile_tth g = compile_tth h).
  { unfold compile_tth. destruct (g_tth g) as [[|]|], (g_tth h) as [[|]|]; cbn in ST; try discriminate; try reflexivity. rewrite ST. reflexivity. }
  rewrite E1, E2, E3, E4, E5, E6, E7, E8, E9. reflexivity.
Qed.
Lemma parsed_hinted : forall o c b g, cd_parse (table o) 2001 c b = Ok (DGlyph g) -> hinted g.
Proof.
  intros o c b g H. destruct (parsed_at o 2001 c b _ _ DGlyph (parse_glyph o) hinted H eq_refl (glyph_hinted o)) as (x & E & T).
  congruence.
Qed.

(** ** Entries *)
Lemma compiled_alike : forall o k c b b' x y comp, cd_parse (table o) k c b = Ok x -> cd_parse (table o) k c b' = Ok y ->
  can_be_written o c k x -> same_value x y -> cd_compile (table o) k = Some comp -> comp c x = comp c y.
Proof.
  intros o k c b b' x y comp Px Py W S Ec. pose proof (parsed_special _ _ _ _ _ Px) as Sx.
  destruct (Z.eq_dec k 1273) as [->|Nk].
  - destruct (parsed_at o 1273 c b _ _ DDeltas _ deltas_nodup Px eq_refl deltas_parsed) as (d & -> & Nd).
    destruct (parsed_at o 1273 c b' _ _ DDeltas _ deltas_nodup Py eq_refl deltas_parsed) as (d' & -> & Nd').
    lazy [cd_compile table compiler_of row aget parser_classes Z.eqb Pos.eqb] in Ec. injection Ec as <-.
    cbn. apply deltas_alike; assumption.
  - destruct x; try (cbn in S; destruct y; try discriminate S; rewrite S; reflexivity).
    all: cbn [special] in Sx; subst k.
    all: destruct y; try discriminate S; try congruence.
    all: lazy [cd_compile table compiler_of row aget parser_classes Z.eqb Pos.eqb] in Ec; injection Ec as <-.
    all: destruct W as [W|[_ W]]; [exfalso; revert W; apply not_in_ids; reflexivity|].
    + cbn. apply tt_info_alike; [apply W|exact S].
    + cbn. destruct W as [(n & _ & _ & _ & _ & _ & _ & _ & _ & R & _) _].
      apply glyph_alike; [eapply parsed_glyph; exact Px|eapply parsed_glyph; exact Py|eapply parsed_hinted; exact Px|eapply parsed_hinted; exact Py| |exact S].
      destruct (g_imported _) as [i|]; [|exact Coq.Init.Logic.I]. cbn [on_some] in *. apply R.
Qed.
Lemma entries_alike : forall o c l l',
  Forall2 (fun p q => fst p = fst q /\ exists comp bs, cd_compile (table o) (fst p) = Some comp /\ comp c (snd p) = Ok bs /\ comp c (snd q) = Ok bs) l l' ->
  compile_entries (table o) c (decompiled l) = compile_entries (table o) c (decompiled l').
Proof.
  intros o c l l' F. induction F as [|[i x] [j y] l l' (E & comp & bs & A & B & C) F IH]; [reflexivity|]. cbn [fst snd] in *. subst j.
  unfold decompiled in *. cbn [map fst snd compile_entries]. unfold entry_compile. cbn [e_data e_id]. rewrite A, B, C.
  unfold set_data. cbn [e_id]. rewrite IH. reflexivity.
Qed.

(** ** Files *)
(** A file that is read and decompiled, and whose entries can be written, is written without an exception; whoever reads
    and decompiles what was written, and writes it, writes the same bytes ... *)
Theorem C111_file : forall o file fuel uni v0 rest v,
  bytes_ok file -> Z.of_nat (List.length file) < 2 ^ 31 ->
  vfb_read_bytes (table o) fuel (new_vfb [] false uni) file = (v0, ROk tt rest) ->
  vfb_decompile (table o) v0 = (v, Ok tt) ->
  (forall i x, In (mkEntry (Some i) (Dec x) None) (v_entries v) ->
     can_be_written o (v_ctx v) i x /\ fits o (v_ctx v) i x) ->
  exists v' out, vfb_write_bytes (table o) v = (v', out, Ok tt) /\
    forall rest uni fuel, (List.length (v_entries v) <= fuel)%nat ->
    exists w0 w w', vfb_read_bytes (table o) fuel (new_vfb [] false uni) (out ++ rest) = (w0, ROk tt rest) /\
      vfb_decompile (table o) w0 = (w, Ok tt) /\
      vfb_write_bytes (table o) w = (w', out, Ok tt).
Proof.
  intros o file fuel uni v0 rest v Hf L E D HW.
  destruct (file_reads o _ _ _ _ _ _ Hf L E D) as (minor & l & Hm & Hh & He & Hi & Hc & Hwf & HP). rewrite He in *.
  assert (HW' : forall p, In p l -> can_be_written o (v_ctx v) (fst p) (snd p) /\ fits o (v_ctx v) (fst p) (snd p)).
  { intros [i x] I. apply HW. unfold decompiled. apply in_map_iff. exists (i, x). auto. }
  assert (HB : forall p, In p l -> written_back o (v_ctx v) (fst p) (snd p)).
  { intros p Hin. destruct (HW' _ Hin) as [HC HF].
    rewrite Forall_forall in HP. destruct (HP _ Hin) as (b & Hb & Eb). eapply table_written; eauto. }
  destruct (write_and_reparse o v minor l Hh Hm He Hi Hc) as (v' & out & W & R).
  { apply Forall_forall. intros p Hin. split; [apply HB; exact Hin|apply HW'; exact Hin]. }
  exists v', out. split; [exact W|]. intros rest' uni' fuel' Hl. unfold decompiled in Hl. rewrite map_length in Hl.
  destruct (R rest' uni' fuel' Hl) as (w0 & w & l' & R1 & R2 & R3 & R4 & R5 & R6 & R7).
  exists w0, w.
  assert (F : Forall2 (fun p q => fst p = fst q /\ exists comp bs, cd_compile (table o) (fst p) = Some comp /\
     comp (v_ctx v) (snd p) = Ok bs /\ comp (v_ctx v) (snd q) = Ok bs) l l').
  { clear - HP HW' HB R6 R7. induction R6 as [|[i x] [j y] l l' [Ei S] F IH]; [constructor|].
    inversion_clear HP as [|? ? P1 P2]. inversion_clear R7 as [|? ? Q1 Q2]. cbn [fst snd] in *. subst j. constructor.
    - split; [reflexivity|]. destruct P1 as (b & _ & Pb). destruct Q1 as (b' & _ & Qb).
      destruct (HB (i, x) (or_introl eq_refl)) as (comp & bs & x' & C1 & C2 & _). cbn [fst snd] in *.
      exists comp, bs. split; [exact C1|]. split; [exact C2|].
      rewrite <- (compiled_alike o i _ b b' x y comp Pb Qb (proj1 (HW' (i, x) (or_introl eq_refl))) S C1). exact C2.
    - apply IH; [exact P2|intros p I; apply HW'; right; exact I|intros p I; apply HB; right; exact I|exact Q2]. }
  apply entries_alike in F. revert W. unfold vfb_write_bytes, vfb_compile. rewrite Hh, R3.
  destruct (header_compile (HDec (fl_header minor))) as [h|e]; [|discriminate].
  cbn [v_ctx v_entries with_header]. rewrite He, R4, R5, <- F.
  destruct (compile_entries (table o) (v_ctx v) (decompiled l)) as [es [u|e]]; [|discriminate].
  cbn [v_header v_entries with_entries with_header].
  destruct h; try discriminate. destruct (write_entries es) as [[es1 b1] o1]. intros W. injection W as <- <- ->.
  eexists. split; [exact R1|]. split; [exact R2|reflexivity].
Qed.
Print Assumptions C111_file.

(** ... so that the file does not change any more, however often it is saved. *)
Theorem C111_often : forall o file fuel uni v0 rest v,
  bytes_ok file -> Z.of_nat (List.length file) < 2 ^ 31 ->
  vfb_read_bytes (table o) fuel (new_vfb [] false uni) file = (v0, ROk tt rest) ->
  vfb_decompile (table o) v0 = (v, Ok tt) ->
  (forall i x, In (mkEntry (Some i) (Dec x) None) (v_entries v) ->
     can_be_written o (v_ctx v) i x /\ fits o (v_ctx v) i x) ->
  exists out, resave o fuel uni file = Some out /\
    forall fuel' uni' n, (List.length (v_entries v) <= fuel')%nat -> resaves o fuel' uni' n out = Some out.
Proof.
  intros o file fuel uni v0 rest v Hf L E D HW.
  destruct (C111_file o file fuel uni v0 rest v Hf L E D HW) as (v' & out & W & R).
  exists out. split; [unfold resave; rewrite E, D, W; reflexivity|].
  intros fuel' uni' n Hl. induction n as [|n IH]; [reflexivity|]. cbn [resaves]. unfold resave at 1.
  destruct (R [] uni' fuel' Hl) as (w0 & w & w' & R1 & R2 & R3). rewrite app_nil_r in R1. rewrite R1, R2, R3. exact IH.
Qed.
Print Assumptions C111_often.
Example C111_meets : exists v0 v,
  bytes_ok c95_file /\ Z.of_nat (List.length c95_file) < 2 ^ 31 /\
  vfb_read_bytes (table sample_oracles) 20 (new_vfb [] false false) c95_file = (v0, ROk tt []) /\
  vfb_decompile (table sample_oracles) v0 = (v, Ok tt) /\ List.length (v_entries v) = 16%nat /\
  (forall i x, In (mkEntry (Some i) (Dec x) None) (v_entries v) ->
     can_be_written sample_oracles (v_ctx v) i x /\ fits sample_oracles (v_ctx v) i x).
Proof.
  destruct (c95_conditions (M_Designspace.NumOps (fun x => x) (fun x => Err ValueError) (fun _ _ => false) (NBits 0) (NBits 0)) (fun s => s) (M_Programs.AsmOracle (fun _ => Ok []) (fun _ => false) (fun _ => false))) as (v0 & v & us & A & B & C & D & F & G & _). exists v0, v. auto 10.
Qed.
(** The first save can change the file: here, the size of the data of an entry takes four bytes although two are enough. *)
Definition wide : bytes := file_of 7 [] ++ [2; 132; 1; 0; 0; 0; 65; 2; 0; 0; 0].
Example C111_first : forall o, exists out, resave o 20 false wide = Some out /\ out <> wide /\ resave o 20 false out = Some out.
Proof. intros o. eexists. split; [vm_compute; reflexivity|]. split; [vm_compute; discriminate|vm_compute; reflexivity]. Qed.

(** Without the condition, the bytes can change with each save: of this primary instance, the location 1.001 is written
    as 1.0009, and then as 1.0008. *)
Definition moving (a : Z) : bytes :=
  file_of 7 [(1503, [1; 0]); (1254, [140; 140; 65; 255; 0; 0; 39; a; 139; 139; 139]); (2, [])].
Theorem C111_refuted : forall o,
  resave o 20 false (moving 26) = Some (moving 25) /\ resave o 20 false (moving 25) = Some (moving 24).
Proof. intros o. split; [vm_compute; reflexivity|vm_compute; reflexivity]. Qed.
Print Assumptions C111_refuted.
