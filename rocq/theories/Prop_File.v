(** C16, C17 and C60: whole files with the real table of entry types. *)
From Coq Require Import ZifyBool ZifyNat String Permutation.
From Verif Require Import Base M_Stream M_Text M_Py M_Simple M_Bitmap M_TrueType M_Glyph
  M_Float M_Options M_Container M_Table S_Text S_Entry S_TrueType S_Glyph S_Options S_File
  S_Table Lib P_Container Prop_Container P_Table Prop_Table P_File P_Dec.
Local Open Scope list_scope.

(** * C16 *)
(** A Vfb whose entries are all decompiled and in the domain of their compilers is written, and
    what was written is read and decompiled to the same header, entries and context, by any other
    Vfb and whatever follows in the stream. *)
Theorem C16_vfb : forall o v minor l,
  v_header v = HDec (fl_header minor) -> 0 <= minor < 256 ->
  v_entries v = decompiled l -> file_ids (map fst l) -> v_ctx v = context_of l ->
  Forall (fun p => written_back o (v_ctx v) (fst p) (snd p) /\ fits o (v_ctx v) (fst p) (snd p)) l ->
  exists v' out, vfb_write_bytes (table o) v = (v', out, Ok tt) /\
    forall rest uni fuel, (List.length l <= fuel)%nat ->
    exists w0 w l', vfb_read_bytes (table o) fuel (new_vfb [] false uni) (out ++ rest) = (w0, ROk tt rest) /\
      vfb_decompile (table o) w0 = (w, Ok tt) /\
      v_header w = HDec (fl_header minor) /\ v_ctx w = v_ctx v /\
      v_entries w = decompiled l' /\ Forall2 same_entry l l'.
Proof. exact write_and_reread. Qed.
Print Assumptions C16_vfb.

(** A file that is read and decompiled without an exception can be written, and reading and
    decompiling what was written gives the same. *)
Theorem C16_file : forall o file fuel uni v0 rest v,
  bytes_ok file -> Z.of_nat (List.length file) < 2 ^ 31 ->
  vfb_read_bytes (table o) fuel (new_vfb [] false uni) file = (v0, ROk tt rest) ->
  vfb_decompile (table o) v0 = (v, Ok tt) ->
  (forall i x, In (mkEntry (Some i) (Dec x) None) (v_entries v) ->
     can_be_written o (v_ctx v) i x /\ fits o (v_ctx v) i x) ->
  exists l v' out, v_entries v = decompiled l /\
    vfb_write_bytes (table o) v = (v', out, Ok tt) /\
    forall rest uni fuel, (List.length l <= fuel)%nat ->
    exists w0 w l', vfb_read_bytes (table o) fuel (new_vfb [] false uni) (out ++ rest) = (w0, ROk tt rest) /\
      vfb_decompile (table o) w0 = (w, Ok tt) /\
      v_header w = v_header v /\ v_ctx w = v_ctx v /\
      v_entries w = decompiled l' /\ Forall2 same_entry l l'.
Proof.
  intros o file fuel uni v0 rest v Hf L E D HW.
  destruct (file_reads o _ _ _ _ _ _ Hf L E D) as (minor & l & Hm & Hh & He & Hi & Hc & Hwf & HP).
  destruct (write_and_reread o v minor l Hh Hm He Hi Hc) as (v' & out & W & R).
  { apply Forall_forall. intros [i x] Hin. cbn [fst snd].
    destruct (HW i x) as [HC HF].
    { rewrite He. unfold decompiled. apply in_map_iff. exists (i, x). auto. }
    split; [|exact HF]. rewrite Forall_forall in HP. destruct (HP _ Hin) as (b & Hb & Eb).
    eapply table_written; eauto. }
  exists l, v', out. split; [exact He|]. split; [exact W|]. rewrite Hh. exact R.
Qed.
Print Assumptions C16_file.

(** In particular, whatever a file contains, if all its entries are of the types of [faithful_ids]. *)
Corollary C16_faithful_file : forall o file fuel uni v0 rest v,
  bytes_ok file -> Z.of_nat (List.length file) < 2 ^ 31 ->
  vfb_read_bytes (table o) fuel (new_vfb [] false uni) file = (v0, ROk tt rest) ->
  vfb_decompile (table o) v0 = (v, Ok tt) ->
  (forall i x, In (mkEntry (Some i) (Dec x) None) (v_entries v) ->
     In i faithful_ids /\ fits o (v_ctx v) i x) ->
  exists l v' out, v_entries v = decompiled l /\
    vfb_write_bytes (table o) v = (v', out, Ok tt) /\
    forall rest uni fuel, (List.length l <= fuel)%nat ->
    exists w0 w l', vfb_read_bytes (table o) fuel (new_vfb [] false uni) (out ++ rest) = (w0, ROk tt rest) /\
      vfb_decompile (table o) w0 = (w, Ok tt) /\
      v_header w = v_header v /\ v_ctx w = v_ctx v /\
      v_entries w = decompiled l' /\ Forall2 same_entry l l'.
Proof.
  intros o file fuel uni v0 rest v Hf L E D HW. eapply C16_file; eauto.
  intros i x H. destruct (HW i x H). split; [left|]; assumption.
Qed.

(** a file with entries that are decompiled while it is read, and others: FL Version (windows), Font Name, Master Count,
    Glyph unicode list, TrueType Stems (none), end *)
Definition sample_file : bytes := file_of 7
  [(10, [1; 139; 2; 255; 0; 0; 0; 1; 3; 139; 0]); (1026, [65; 0xE9]); (1503, [2; 0]); (1250, [65; 0; 66; 0]);
   (1269, [139; 139]); (1743, [2; 145; 12; 255; 0; 0; 39; 16; 100]); (2, [])].
Example C16_ex : forall o, exists v0 v,
  vfb_read_bytes (table o) 20 (new_vfb [] false false) sample_file = (v0, ROk tt []) /\
  vfb_decompile (table o) v0 = (v, Ok tt) /\ List.length (v_entries v) = 7%nat /\
  (forall i x, In (mkEntry (Some i) (Dec x) None) (v_entries v) ->
     can_be_written o (v_ctx v) i x /\ fits o (v_ctx v) i x).
Proof.
  intros o. eexists _, _. split; [vm_compute; reflexivity|]. split; [vm_compute; reflexivity|].
  split; [reflexivity|]. cbn [v_entries v_ctx]. intros i x H. cbn [In] in H.
  repeat (destruct H as [H|H]; [injection H as <- <-; split;
    [first [left; apply zmem_in; vm_compute; reflexivity|right; split; [apply zmem_in; vm_compute; reflexivity|]]
    |intros comp bs E1 E2;
     lazy [cd_compile table compiler_of row aget parser_classes Z.eqb Pos.eqb] in E1;
     injection E1 as <-; vm_compute in E2; injection E2 as <-; cbn; lia]|]); [|destruct H].
  cbn. repeat apply Forall_cons; try apply Forall_nil; vm_compute; tauto.
Qed.

(** * C17 *)
(** an id that is not in the table *)
Definition unknown (o : oracles) (i : Z) : Prop := ~ In i (map fst (parser_classes o)).
(** Entries of unknown types are decompiled to hex, whatever their data, and have no compiler ... *)
Theorem C17_unknown : forall o i c data, unknown o i -> bytes_ok data ->
  (exists x, cd_parse (table o) i c data = Ok (DStr x) /\ compile_hex x = Ok data) /\
  cd_compile (table o) i = None.
Proof.
  intros o i c data Hu Hd. unfold table. cbn [cd_parse cd_compile]. unfold parser_of, compiler_of.
  destruct (row o i) as [[[n p] k]|] eqn:R.
  { exfalso. apply Hu. apply row_of_in in R. apply in_map_iff. exists (i, (n, p, k)). auto. }
  split; [|reflexivity]. unfold BaseParser. rewrite run_plain.
  destruct (P_Simple.hex_exact data Hd) as (x & E1 & E2). rewrite E1. exists x. auto.
Qed.
Print Assumptions C17_unknown.
(** ... so that a file that contains one cannot be written after it was decompiled: there is an
    exception whatever the other entries are. *)
Theorem C17_unknown_refuted : forall o v i x,
  unknown o i -> In (mkEntry (Some i) (Dec x) None) (v_entries v) ->
  snd (vfb_write_bytes (table o) v) <> Ok tt.
Proof.
  intros o v i x Hu Hin. set (e := mkEntry (Some i) (Dec x) None) in *.
  assert (Hk : cd_compile (table o) i = None).
  { apply (C17_unknown o i ctx0 [] Hu). constructor. }
  assert (C : forall c es es', In e es -> compile_entries (table o) c es = (es', Ok tt) -> In e es').
  { intros c. induction es as [|a es IH]; intros es' H E; [destruct H|]. cbn [compile_entries] in E.
    destruct (entry_compile (table o) c a) as [a' [b|er]] eqn:Ea; [|discriminate].
    destruct (compile_entries (table o) c es) as [es1 o1] eqn:Es. injection E as <- ->.
    destruct H as [->|H]; [left|right; eapply IH; eauto].
    unfold entry_compile in Ea. cbn [e_data e_id e] in Ea. unfold e in Ea. cbn [e_data e_id] in Ea.
    rewrite Hk in Ea. injection Ea as <- _. reflexivity. }
  assert (W : forall es, In e es -> snd (write_entries es) <> Ok tt).
  { induction es as [|a es IH]; intros H; [destruct H|]. cbn [write_entries].
    destruct H as [->|H]; [discriminate|]. specialize (IH H).
    destruct (entry_header a) as [a' [h|er]]; [|discriminate].
    destruct (write_entries es) as [[es1 b1] o1]. destruct (e_data a'); [exact IH|discriminate|exact IH]. }
  unfold vfb_write_bytes, vfb_compile. destruct (header_compile (v_header v)) as [h|er]; [|discriminate].
  cbn [v_ctx v_entries with_header].
  destruct (compile_entries (table o) (v_ctx v) (v_entries v)) as [es' [[]|er]] eqn:E; [|discriminate].
  cbn [v_header with_entries with_header]. destruct h; [|discriminate|discriminate].
  specialize (W _ (C _ _ _ Hin E)). cbn [v_entries with_entries with_header].
  destruct (write_entries es') as [[es1 b1] o1]. exact W.
Qed.
Print Assumptions C17_unknown_refuted.
Example C17_ex : forall o, unknown o 30000.
Proof. intros o H. apply zmem_in in H. vm_compute in H. discriminate. Qed.

(** * C60 *)
Lemma key_head : forall o i n p k, row o i = Some (n, p, k) ->
  exists c s, n = c :: s /\ c <> 45 /\ ~ 48 <= c <= 57.
Proof.
  intros o i n p k R. apply row_of_in in R.
  assert (G : forallb (fun r => match fst (fst (snd r)) with c :: _ => negb ((c =? 45) || ((48 <=? c) && (c <=? 57))) | [] => false end)
                (parser_classes o) = true) by (vm_compute; reflexivity).
  rewrite forallb_forall in G. specialize (G _ R). cbn [fst snd] in G.
  destruct n as [|c s]; [discriminate|]. exists c, s. split; [reflexivity|]. lia.
Qed.
Fixpoint distinct (l : list pystr) : bool :=
  match l with [] => true | s :: l => negb (existsb (str_eqb s) l) && distinct l end.
Lemma distinct_keys : forall A (l : list (Z * (pystr * A))), distinct (map (fun r => fst (snd r)) l) = true ->
  forall i j n p q, In (i, (n, p)) l -> In (j, (n, q)) l -> i = j.
Proof.
  induction l as [|[a [b r]] l IH]; intros D i j n p q Hi Hj; [destruct Hi|]. cbn [map distinct fst snd] in D.
  apply andb_prop in D. destruct D as [D1 D2].
  assert (N : forall k s t, In (k, (s, t)) l -> s <> b).
  { intros k s t Hin ->. apply negb_true_iff in D1.
    assert (X : existsb (str_eqb b) (map (fun r => fst (snd r)) l) = true); [|congruence].
    apply existsb_exists. exists b. split; [|apply str_eqb_eq; reflexivity].
    apply in_map_iff. exists (k, (b, t)). auto. }
  destruct Hi as [Hi|Hi], Hj as [Hj|Hj].
  - congruence.
  - injection Hi as -> -> ->. exfalso. eapply N; eauto.
  - injection Hj as -> -> ->. exfalso. eapply N; eauto.
  - eapply IH; eauto.
Qed.
(** The name of the type of an entry identifies it, also for unknown types. *)
Theorem C60_names : forall o i j, key_of o i = key_of o j -> i = j.
Proof.
  intros o i j. unfold key_of.
  destruct (row o i) as [[[n p] k]|] eqn:Ri, (row o j) as [[[n' p'] k']|] eqn:Rj; intros E.
  - subst n'. apply row_of_in in Ri. apply row_of_in in Rj.
    set (l := map (fun r => (fst r, (fst (fst (snd r)), (snd (fst (snd r)), snd (snd r))))) (parser_classes o)).
    apply (distinct_keys _ l) with (n := n) (p := (p, k)) (q := (p', k')).
    + vm_compute. reflexivity.
    + unfold l. apply in_map_iff. eexists. split; [|exact Ri]. reflexivity.
    + unfold l. apply in_map_iff. eexists. split; [|exact Rj]. reflexivity.
  - destruct (key_head _ _ _ _ _ Ri) as (c & s & -> & N). destruct (dec_str_head j) as (c' & s' & E' & N').
    rewrite E' in E. injection E as -> ->. lia.
  - destruct (key_head _ _ _ _ _ Rj) as (c & s & -> & N). destruct (dec_str_head i) as (c' & s' & E' & N').
    rewrite E' in E. injection E as -> ->. lia.
  - apply dec_str_inj. exact E.
Qed.
Print Assumptions C60_names.
(** The two lists of the entries that are ignored in minimal mode name the same entries. *)
Theorem C60_minimal : forall o i, In i ignore_minimal_keys <-> In (key_of o i) ignore_minimal.
Proof.
  intros o i. split.
  - intros H. cbn in H. repeat (destruct H as [<-|H]; [vm_compute; tauto|]). destruct H.
  - intros H.
    assert (G : map (key_of o) [1294; 1295; 2013; 2031; 2017; 2007; 2012; 2009; 2025] = ignore_minimal)
      by (vm_compute; reflexivity).
    rewrite <- G in H. apply in_map_iff in H. destruct H as (j & E & Hj). apply C60_names in E. subst j.
    cbn in *. tauto.
Qed.
Print Assumptions C60_minimal.
Example C60_ex : forall o, key_of o 2001 = py "Glyph" /\ key_of o 30000 = py "30000".
Proof. intros o. split; vm_compute; reflexivity. Qed.
