(** C112: editing entries of a file. *)
From Coq Require Import ZifyBool ZifyNat String.
From Verif Require Import Base M_Stream M_Py M_Text M_Simple M_Bitmap M_TrueType M_Glyph M_Float M_Options
  M_Container M_Table S_Text S_Entry S_TrueType S_Glyph S_Options S_File S_Table Lib P_Container
  Prop_Container P_Loop P_Simple P_TrueType P_Table P_File.
Local Open Scope list_scope.

(** the bytes that stand for the data of an entry, in a file with the context [c] *)
Definition bytes_as (o : oracles) (c : ctx) (e : entry value) (b : bytes) : Prop :=
  match e_data e with
  | Raw d => b = d
  | Dec x => exists i comp, e_id e = Some i /\ cd_compile (table o) i = Some comp /\ comp c x = Ok b
  | NoData => False
  end.
(** An entry that was read is left as it is, or its data is replaced by other bytes or by decompiled data that can be
    compiled. The types that concern other entries (FL Version, Master Count, TrueType Stems) or whose size is not free
    (MM Kern Pair) are not edited. *)
Definition edit (o : oracles) (c : ctx) (e e' : entry value) : Prop :=
  e' = e \/
  exists i b, e_id e = Some i /\ e_id e' = Some i /\ e_cache e' = None /\ ~ In i [10; 1503; 1269; 1410] /\
    bytes_as o c e' b /\ Z.of_nat (List.length b) < 2 ^ 32.
(** what is read back of an entry *)
Definition read_back (o : oracles) (c : ctx) (e e' : entry value) : Prop :=
  e_id e' = e_id e /\ e_cache e' = None /\
  (if existsb (fun i => match e_id e with Some j => i =? j | None => false end) [10; 1503; 1269] then e' = e
   else exists b, e_data e' = Raw b /\ bytes_as o c e b).

Section Edit.
  Variable o : oracles.
  Notation T := (table o).

  (** ** What a lazy read leaves *)
  Inductive read_lazy : ctx -> ctx -> list (entry value) -> Prop :=
  | rl_end : forall c b, entry_data b -> read_lazy c c [mkEntry (Some 2) (Raw b) None]
  | rl_lazy : forall c c' i b es, 0 <= i < 32768 -> i <> 2 -> is_eager i = false -> entry_data b ->
      (i = 1410 -> Z.of_nat (List.length b) = 8 + 2 * num_masters c) ->
      read_lazy c c' es -> read_lazy c c' (mkEntry (Some i) (Raw b) None :: es)
  | rl_eager : forall c c' i b x es, is_eager i = true -> entry_data b -> cd_parse T i c b = Ok x ->
      read_lazy (remembered c (i, x)) c' es -> read_lazy c c' (mkEntry (Some i) (Dec x) None :: es).
  Lemma kern_size : forall c s b r, 0 <= num_masters c ->
    @read_entry value c s = ROk (mkEntry (Some 1410) (Raw b) None) r -> r <> [] -> Z.of_nat (List.length b) = 8 + 2 * num_masters c.
  Proof.
    intros c s b r N E NE.
    assert (X : forall n (t : bytes), 0 <= n -> drop n t <> [] -> Z.of_nat (List.length (take n t)) = n).
    { intros n t Hn H. assert (n < Z.of_nat (List.length t)).
      { apply Z.nle_gt. intros K. apply H. unfold drop. replace (n <? 0) with false by lia. apply skipn_all2. lia. }
      unfold take. replace (n <? 0) with false by lia. rewrite firstn_length. lia. }
    unfold read_entry, read_uint16, read_uint32, rbind, read_bytes, ret in E.
    remember (2 * 4 + num_masters c * 2) as sz eqn:Hsz.
    destruct (Z.land (le_dec (take 2 s)) 32768 =? 0); injection E as Ei Eb Er;
      rewrite Ei in Eb, Er; change (1410 =? F_MMKernPair) with true in Eb, Er; cbv iota in Eb, Er;
      rewrite <- Eb; rewrite <- Er in NE; rewrite X by (try exact NE; lia); lia.
  Qed.
  Lemma read_loop_lazy : forall fuel v s v' r, v_drop v = [] -> bytes_ok s -> Z.of_nat (List.length s) < 2 ^ 31 -> wf_ctx (v_ctx v) ->
    read_loop T fuel v s = (v', ROk tt r) ->
    exists es, v_entries v' = v_entries v ++ es /\ read_lazy (v_ctx v) (v_ctx v') es /\
      v_header v' = v_header v /\ v_drop v' = [] /\ wf_ctx (v_ctx v').
  Proof.
    induction fuel as [|fuel IH]; intros v s v' r Hd Hs L Hw E; [discriminate|]. cbn [read_loop] in E.
    destruct (read_entry_ok (v_ctx v) s Hs L) as (i & b & r1 & E1 & Hi & Hb & Hr & Lr).
    rewrite E1 in E. cbn [e_id] in E. destruct (is_eager i) eqn:Eg.
    - unfold entry_decompile in E. cbn [e_id e_data] in E.
      destruct (cd_parse T i (v_ctx v) b) as [x|e] eqn:Ep; [|discriminate]. cbn [e_data set_data] in E.
      assert (Hd' : v_drop (remember T i x v) = []).
      { unfold remember. destruct (i =? F_FLVersion), (i =? F_MasterCount); exact Hd. }
      rewrite append_nodrop in E by exact Hd'.
      apply IH in E; auto.
      2:{ cbn [v_ctx with_entries]. rewrite (remembered_eager o _ _ _ _ Eg Ep). eapply remembered_wf; eauto. }
      destruct E as (es & V1 & V2 & V3 & V4 & V5).
      cbn [v_entries v_ctx v_header with_entries] in *.
      rewrite (remembered_eager o _ _ _ _ Eg Ep) in V2.
      assert (Q : v_entries (remember T i x v) = v_entries v /\ v_header (remember T i x v) = v_header v).
      { unfold remember. destruct (i =? F_FLVersion), (i =? F_MasterCount); split; reflexivity. }
      destruct Q as [Q1 Q2]. rewrite Q1 in V1. rewrite Q2 in V3.
      eexists. split; [rewrite V1, <- app_assoc; reflexivity|]. split; [|auto].
      eapply rl_eager; eauto.
    - rewrite append_nodrop in E by exact Hd. destruct (i =? F_BlockFileDataEnd) eqn:E2.
      + apply Z.eqb_eq in E2. unfold F_BlockFileDataEnd in E2. subst i.
        injection E as <- _. cbn. eexists. split; [reflexivity|]. split; [|auto]. constructor. exact Hb.
      + assert (NE : r1 <> []).
        { intros ->. destruct (loop_at_end _ T fuel (with_entries (v_entries v ++ [mkEntry (Some i) (Raw b) None]) v)) as [q Q].
          rewrite E in Q. discriminate. }
        apply IH in E; auto. destruct E as (es & V1 & V2 & V3 & V4 & V5). cbn in V1, V2, V3.
        eexists. split; [rewrite V1, <- app_assoc; reflexivity|]. split; [|auto].
        apply rl_lazy; auto; [unfold F_BlockFileDataEnd in E2; lia|].
        intros ->. eapply kern_size; [apply Hw|exact E1|exact NE].
  Qed.

  (** ** What is written of the edited entries, and read again *)
  (** the data of an entry [e] that was read was replaced, which gave [e'] *)
  Definition replaced (c : ctx) (e e' : entry value) : Prop :=
    exists i b, e_id e = Some i /\ e_id e' = Some i /\ e_cache e' = None /\ bytes_as o c e' b /\ Z.of_nat (List.length b) < 2 ^ 32 /\
      (i = 1410 -> e_data e = Raw b) /\ (is_eager i = true -> forall x, e_data e = Dec x -> cd_parse T i c b = Ok x).
  Lemma compile_replaced : forall c i e' b, e_id e' = Some i -> e_cache e' = None -> bytes_as o c e' b ->
    entry_compile T c e' = (mkEntry (Some i) (Raw b) None, Ok true) \/ entry_compile T c e' = (mkEntry (Some i) (Raw b) None, Ok false).
  Proof.
    intros c i [ei ed ec] b X2 X3 X5. cbn [e_id e_cache] in *. subst ei ec. unfold bytes_as, entry_compile in *. cbn [e_data e_id] in *.
    destruct ed; try (destruct X5; fail).
    all: try (subst; auto; fail).
    all: destruct X5 as (j & comp & J1 & J2 & J3); injection J1 as <-; rewrite J2, J3; auto.
  Qed.
  (** what is read of the entries [es] when they were saved with the bytes [l] *)
  Definition reread (es : list (entry value)) (l : list (Z * bytes)) : list (entry value) :=
    map (fun q => if is_eager (fst (snd q)) then fst q else mkEntry (Some (fst (snd q))) (Raw (snd (snd q))) None) (combine es l).
  Lemma replaced_written : forall cF c c' es, read_lazy c c' es -> forall es', Forall2 (replaced cF) es es' ->
    exists lb ds,
      compile_entries T cF es' = (map (fun q => mkEntry (Some (fst q)) (Raw (snd q)) None) lb, Ok tt) /\
      reads_as T c lb c' ds /\ Forall framable lb /\ ends_once lb /\
      Forall2 (fun e p => e_id e = Some (fst p) /\ bytes_as o cF e (snd p)) es' lb /\
      fresh_entries lb ds = reread es lb.
  Proof.
    intros cF c c' es R.
    assert (CE : forall i e' b es2 r, e_id e' = Some i -> e_cache e' = None -> bytes_as o cF e' b ->
      compile_entries T cF es2 = (r, Ok tt) -> compile_entries T cF (e' :: es2) = (mkEntry (Some i) (Raw b) None :: r, Ok tt)).
    { intros i e' b es2 r E1 E2 E3 E4. cbn [compile_entries].
      destruct (compile_replaced cF i e' b E1 E2 E3) as [-> | ->]; rewrite E4; reflexivity. }
    induction R as [c b Hb|c c' i b es Hi H2 Eg Hb Hk R IH|c c' i b x es Eg Hb Ep R IH]; intros es' F.
    - inversion F as [|? e' ? l' F1 F2]; subst. inversion F2; subst. destruct F1 as (j & d & D0 & D1 & D2 & D3 & D4 & D5 & D6).
      cbn in D0. injection D0 as <-.
      exists [(2, d)], [Raw d]. cbn [map fst snd]. split; [apply CE; auto|].
      split; [apply ra_bytes; try lia; constructor|]. split; [repeat constructor; cbn; lia|].
      split; [exists [], d; split; [reflexivity|intros []]|]. split; [constructor; auto|reflexivity].
    - inversion F as [|? e' ? l' F1 F2]; subst.
      destruct (IH l' F2) as (lb & ds & I1 & I2 & I3 & (l0 & d0 & -> & I4) & I5 & I6).
      destruct F1 as (j & d & D0 & D1 & D2 & D3 & D4 & D5 & D6). cbn in D0. injection D0 as <-.
      exists ((i, d) :: l0 ++ [(2, d0)]), (Raw d :: ds). cbn [map fst snd]. split; [apply CE; auto|].
      pose proof Eg as Eg2. unfold is_eager, F_FLVersion, F_MasterCount, T_TrueTypeStems in Eg.
      split; [apply ra_bytes; try lia; [intros K; specialize (D5 K); cbn in D5; injection D5 as <-; exact (Hk K)|exact I2]|].
      split; [constructor; [split; assumption|exact I3]|].
      split; [exists ((i, d) :: l0), d0; split; [reflexivity|cbn; intros [K|K]; [congruence|tauto]]|].
      split; [constructor; auto|]. unfold fresh_entries, reread in *. cbn [combine map fst snd]. rewrite I6, Eg2. reflexivity.
    - inversion F as [|? e' ? l' F1 F2]; subst.
      destruct (IH l' F2) as (lb & ds & I1 & I2 & I3 & (l0 & d0 & -> & I4) & I5 & I6).
      destruct F1 as (j & d & D0 & D1 & D2 & D3 & D4 & D5 & D6). cbn in D0. injection D0 as <-.
      specialize (D6 Eg x eq_refl). rename D6 into C4.
      exists ((i, d) :: l0 ++ [(2, d0)]), (Dec x :: ds). cbn [map fst snd]. split; [apply CE; auto|]. split.
      { destruct (eager_cases i Eg) as [-> | [-> | ->]].
        + eapply ra_version; [rewrite (eager_ctx o 10 c cF) by reflexivity; exact C4|].
          rewrite parse_version in C4. destruct (run_parser parse_fl_version d); [|discriminate].
          apply Ok_inj in C4. subst x. apply I2.
        + eapply ra_masters; [rewrite (eager_ctx o 1503 c cF) by reflexivity; exact C4|].
          rewrite parse_masters in C4. destruct (run_parser parse_int16 d); [|discriminate].
          apply Ok_inj in C4. subst x. apply I2.
        + eapply ra_stems; [rewrite (eager_ctx o 1269 c cF) by reflexivity; exact C4|].
          rewrite parse_stems in C4. destruct (run_parser parse_tt_stems d); [|discriminate].
          apply Ok_inj in C4. subst x. apply I2. }
      assert (Hi : 0 <= i < 32768 /\ i <> 2) by (destruct (eager_cases i Eg) as [-> | [-> | ->]]; lia).
      split; [constructor; [split; [apply Hi|exact D4]|exact I3]|].
      split; [exists ((i, d) :: l0), d0; split; [reflexivity|cbn; intros [K|K]; [lia|tauto]]|].
      split; [constructor; auto|]. unfold fresh_entries, reread in *. cbn [combine map fst snd]. rewrite I6, Eg. reflexivity.
  Qed.
  (** what is known about an entry that was read *)
  Definition was_read (cF : ctx) (e : entry value) : Prop :=
    exists i, e_id e = Some i /\ e_cache e = None /\
      match e_data e with
      | Raw b => entry_data b /\ is_eager i = false
      | Dec x => is_eager i = true /\ exists b, entry_data b /\ cd_parse T i cF b = Ok x
      | NoData => False
      end.
  Lemma lazy_was_read : forall cF c c' es, read_lazy c c' es -> Forall (was_read cF) es.
  Proof.
    intros cF c c' es R. induction R as [c b Hb|c c' i b es Hi H2 Eg Hb Hk R IH|c c' i b x es Eg Hb Ep R IH]; constructor; auto.
    - exists 2. cbn. auto.
    - exists i. cbn. auto.
    - exists i. cbn. rewrite (eager_ctx o i c cF b Eg) in Ep. split; [reflexivity|]. split; [reflexivity|]. split; [exact Eg|]. exists b. auto.
  Qed.
  Lemma eager_compiled : forall cF i b x, wf_ctx cF -> is_eager i = true -> entry_data b -> cd_parse T i cF b = Ok x ->
    exists comp d, cd_compile T i = Some comp /\ comp cF x = Ok d /\ bytes_ok d /\ cd_parse T i cF d = Ok x.
  Proof.
    intros cF i b x Hw Eg Hb Ep.
    assert (Hf : In i faithful_ids) by (destruct (eager_cases i Eg) as [-> | [-> | ->]]; apply zmem_in; reflexivity).
    destruct (table_written o cF i b x Hw Hb Ep (or_introl Hf)) as (comp & d & x' & C1 & C2 & C3 & C4 & C5).
    pose proof (eager_same o _ _ _ _ _ Eg C4 C5) as <-. exists comp, d. auto.
  Qed.
  Lemma edit_replaced : forall cF e e', wf_ctx cF -> was_read cF e -> (forall i x, e = mkEntry (Some i) (Dec x) None -> fits o cF i x) ->
    edit o cF e e' -> replaced cF e e'.
  Proof.
    intros cF [ei ed ec] e' Hw (i & E1 & E2 & E3) HF [->|(j & d & X1 & X2 & X3 & X4 & X5 & X6)]; cbn [e_id e_cache e_data] in *; subst ei ec.
    - destruct ed as [b|x|]; [| |destruct E3].
      all: first [destruct E3 as [Hb Eg]; exists i, b; cbn; repeat (split; [reflexivity|]); split; [unfold entry_data in Hb; lia|split; [reflexivity|congruence]]
        | destruct E3 as (Eg & b' & Hb & Ep); destruct (eager_compiled cF i b' x Hw Eg Hb Ep) as (comp & d & C1 & C2 & C3 & C4);
          exists i, d; split; [reflexivity|]; split; [reflexivity|]; split; [reflexivity|]; split; [exists i, comp; auto|];
          split; [eapply HF; [reflexivity|exact C1|exact C2]|]; split; [intros ->; discriminate|intros _ y K; injection K as <-; exact C4]].
    - injection X1 as <-. exists i, d. split; [reflexivity|]. split; [exact X2|]. split; [exact X3|]. split; [exact X5|]. split; [exact X6|].
      split; [intros ->; exfalso; apply X4; cbn; tauto|]. intros Eg. exfalso. apply X4. destruct (eager_cases i Eg) as [-> | [-> | ->]]; cbn; tauto.
  Qed.
  Lemma edit_read_back : forall cF es es' l, Forall (was_read cF) es -> Forall2 (edit o cF) es es' ->
    Forall2 (fun e p => e_id e = Some (fst p) /\ bytes_as o cF e (snd p)) es' l -> Forall2 (read_back o cF) es' (reread es l).
  Proof.
    intros cF es es' l W F. revert W l. induction F as [|e e' es es' F1 F IH]; intros W l Fl; inversion Fl as [|? p ? l' (E & B) Fl']; subst; [constructor|].
    inversion W as [|? ? W1 W2]; subst. unfold reread. cbn [combine map fst snd]. constructor; [|apply IH; assumption].
    destruct p as [i b]. cbn [fst snd] in *. unfold read_back. rewrite E. cbn [existsb].
    replace ((10 =? i) || ((1503 =? i) || ((1269 =? i) || false)))%bool with (is_eager i) by (unfold is_eager, F_FLVersion, F_MasterCount, T_TrueTypeStems; lia).
    destruct (is_eager i) eqn:Eg.
    - destruct F1 as [->|(j & d & X1 & X2 & X3 & X4 & X5 & X6)].
      + destruct W1 as (k & K1 & K2 & _). auto.
      + exfalso. apply X4. assert (j = i) as -> by congruence. destruct (eager_cases i Eg) as [-> | [-> | ->]]; cbn; tauto.
    - split; [reflexivity|]. split; [reflexivity|]. exists b. auto.
  Qed.
  Lemma file_lazy : forall file fuel uni v0 rest, bytes_ok file -> Z.of_nat (List.length file) < 2 ^ 31 ->
    vfb_read_bytes T fuel (new_vfb [] false uni) file = (v0, ROk tt rest) ->
    exists minor, 0 <= minor < 256 /\ v_header v0 = HDec (fl_header minor) /\ v_drop v0 = [] /\ wf_ctx (v_ctx v0) /\
      read_lazy ctx0 (v_ctx v0) (v_entries v0).
  Proof.
    intros file fuel uni v0 rest Hf L E. unfold vfb_read_bytes, read_stream in E.
    destruct (parse_header file) as [h r|x r] eqn:EP; [|discriminate].
    destruct (parse_header_is _ _ _ Hf EP) as (minor & Hm & ->).
    cbn [v_only_header with_header vfb_clear with_entries new_vfb] in E.
    assert (Hr : bytes_ok r /\ (List.length r <= List.length file)%nat).
    { unfold parse_header in EP. destruct (read_header_fields file) as [[? off] ?|]; [|discriminate].
      inversion EP; subst. split; [apply bytes_ok_drop; exact Hf|].
      unfold drop. destruct (off <? 0); cbn; [lia|]. rewrite skipn_length. lia. }
    destruct Hr as [Hr1 Hr2].
    apply read_loop_lazy in E; auto; [|lia|cbv; intuition discriminate]. destruct E as (es & V1 & V2 & V3 & V4 & V5).
    cbn in V1, V2, V3. fold ctx0 in V2. rewrite V1. exists minor. auto 10.
  Qed.
  Lemma replaced_saved : forall minor c es es' v, 0 <= minor < 256 -> read_lazy ctx0 c es -> Forall2 (replaced c) es es' ->
    v_header v = HDec (fl_header minor) \/ v_header v = HRaw (header44 minor) -> v_ctx v = c -> v_entries v = es' ->
    exists l v', vfb_write_bytes T v = (v', file_of minor l, Ok tt) /\
      Forall2 (fun e p => e_id e = Some (fst p) /\ bytes_as o c e (snd p)) es' l /\
      forall rest' uni' fuel', (List.length es' <= fuel')%nat ->
      exists w, vfb_read_bytes T fuel' (new_vfb [] false uni') (file_of minor l ++ rest') = (w, ROk tt rest') /\
        v_header w = HDec (fl_header minor) /\ v_ctx w = c /\ v_entries w = reread es l.
  Proof.
    intros minor c es es' v Hm R F Hh Hc He.
    destruct (replaced_written c _ _ _ R es' F) as (l & ds & W1 & W2 & W3 & W4 & W5 & W6).
    assert (H : Forall2 holds (map (fun q => mkEntry (D := value) (Some (fst q)) (Raw (snd q)) None) l) l).
    { clear. induction l as [|p l IH]; [constructor|]. constructor; [|exact IH]. split; [reflexivity|]. split; [reflexivity|]. discriminate. }
    destruct (write_entries_holds _ _ H W3) as (es2 & Ew & _).
    exists l. eexists. split.
    { unfold vfb_write_bytes, vfb_compile.
      assert (HC : header_compile (v_header v) = Ok (HRaw (header44 minor))).
      { destruct Hh as [-> | ->]; cbn [header_compile]; [rewrite compile_header_fl by auto|]; reflexivity. }
      rewrite HC. cbn [v_ctx v_entries with_header]. rewrite Hc, He, W1. cbn [v_header with_entries v_entries with_header]. rewrite Ew. reflexivity. }
    split; [exact W5|]. intros rest' uni' fuel' Hl.
    destruct (read_file value T (new_vfb [] false uni') minor l c ds rest' fuel') as (w & R1 & R2 & R3 & R4 & _); auto.
    { assert (List.length es' = List.length l) by (clear - W5; induction W5; cbn; congruence). lia. }
    exists w. rewrite R2, R3, R4. auto.
  Qed.
End Edit.

(** ** C112 *)
(** After a file was read, its entries are edited and it is saved: the new file has the same header, and the same entries
    in the same order, each with the data it has in the program. When that file is read, the entries are as they were
    edited, and the context (number of masters, stems) is the one of the file that was edited. *)
Theorem C112_edits : forall o file fuel uni v0 rest es',
  bytes_ok file -> Z.of_nat (List.length file) < 2 ^ 31 ->
  vfb_read_bytes (table o) fuel (new_vfb [] false uni) file = (v0, ROk tt rest) ->
  Forall2 (edit o (v_ctx v0)) (v_entries v0) es' ->
  (forall i x, In (mkEntry (Some i) (Dec x) None) (v_entries v0) -> fits o (v_ctx v0) i x) ->
  exists minor l v', v_header v0 = HDec (fl_header minor) /\
    vfb_write_bytes (table o) (with_entries es' v0) = (v', file_of minor l, Ok tt) /\
    Forall2 (fun e p => e_id e = Some (fst p) /\ bytes_as o (v_ctx v0) e (snd p)) es' l /\
    forall rest' uni' fuel', (List.length es' <= fuel')%nat ->
    exists w, vfb_read_bytes (table o) fuel' (new_vfb [] false uni') (file_of minor l ++ rest') = (w, ROk tt rest') /\
      v_header w = v_header v0 /\ v_ctx w = v_ctx v0 /\ Forall2 (read_back o (v_ctx v0)) es' (v_entries w).
Proof.
  intros o file fuel uni v0 rest es' Hf L E F HF.
  destruct (file_lazy o file fuel uni v0 rest Hf L E) as (minor & Hm & Hh & _ & Hw & R).
  pose proof (lazy_was_read o (v_ctx v0) _ _ _ R) as W.
  assert (FR : Forall2 (replaced o (v_ctx v0)) (v_entries v0) es').
  { clear - W F HF Hw. revert es' F. induction W as [|e es W1 W IH]; intros es' F; inversion F as [|? e' ? l' F1 F2]; subst; constructor.
    - apply edit_replaced; auto. intros i x ->. apply HF. left. reflexivity.
    - apply IH; auto. intros i x I. apply HF. right. exact I. }
  destruct (replaced_saved o minor (v_ctx v0) (v_entries v0) es' (with_entries es' v0) Hm R FR (or_introl Hh) eq_refl eq_refl) as (l & v' & S1 & S2 & S3).
  exists minor, l, v'. split; [exact Hh|]. split; [exact S1|]. split; [exact S2|]. intros rest' uni' fuel' Hl.
  destruct (S3 rest' uni' fuel' Hl) as (w & R1 & R2 & R3 & R4). exists w. rewrite R2, R3, R4, Hh. split; [exact R1|]. split; [reflexivity|].
  split; [reflexivity|]. eapply edit_read_back; eassumption.
Qed.
Print Assumptions C112_edits.

(** An example: the font name is replaced by bytes and the anchors by decompiled data. The number of masters, and an entry of
    an unknown type, stay as they are. *)
Definition plain_file : bytes :=
  file_of 7 [(1503, [1; 0]); (1026, [65; 66]); (2029, [140; 140; 239; 247; 92]); (30000, [1; 2; 3]); (2, [])].
Definition plain_edited : list (entry value) :=
  [mkEntry (Some 1503) (Dec (DInt 1)) None; mkEntry (Some 1026) (Raw [67]) None;
   mkEntry (Some 2029) (Dec (DAnchors [MMAnchor [100] [201]])) None; mkEntry (Some 30000) (Raw [1; 2; 3]) None;
   mkEntry (Some 2) (Raw []) None].
Example C112_meets : forall o, exists v0,
  bytes_ok plain_file /\ Z.of_nat (List.length plain_file) < 2 ^ 31 /\
  vfb_read_bytes (table o) 20 (new_vfb [] false false) plain_file = (v0, ROk tt []) /\
  Forall2 (edit o (v_ctx v0)) (v_entries v0) plain_edited /\
  (forall i x, In (mkEntry (Some i) (Dec x) None) (v_entries v0) -> fits o (v_ctx v0) i x) /\
  exists v', vfb_write_bytes (table o) (with_entries plain_edited v0) =
    (v', file_of 7 [(1503, [1; 0]); (1026, [67]); (2029, [140; 140; 239; 247; 93]); (30000, [1; 2; 3]); (2, [])], Ok tt).
Proof.
  intros o. eexists. split; [|split; [vm_compute; reflexivity|split; [vm_compute; reflexivity|]]].
  { apply Forall_forall. intros x I. apply zmem_in in I.
    assert (X : forallb (fun b => (0 <=? b) && (b <? 256)) plain_file = true) by (vm_compute; reflexivity).
    rewrite forallb_forall in X. apply zmem_in in I. specialize (X _ I). unfold is_byte. lia. }
  split; [|split].
  - unfold plain_edited. cbn [v_entries v_ctx].
    constructor; [left; reflexivity|]. constructor; [right; exists 1026, [67]; split; [reflexivity|]; split; [reflexivity|]; split; [reflexivity|]; split; [cbn; lia|]; split; [reflexivity|reflexivity]|].
    constructor; [right; exists 2029, [140; 140; 239; 247; 93]; split; [reflexivity|]; split; [reflexivity|]; split; [reflexivity|]; split; [cbn; lia|]; split; [|reflexivity]|].
    { exists 2029, (on_value GlyphAnchorsCompiler). split; [reflexivity|]. split; [reflexivity|vm_compute; reflexivity]. }
    constructor; [left; reflexivity|]. constructor; [left; reflexivity|]. constructor.
  - cbn [v_entries v_ctx]. intros i x [I|[I|[I|[I|[I|[]]]]]]; try discriminate. injection I as <- <-.
    intros comp bs C1 C2. change (cd_compile (table o) 1503) with (Some (on_value Int16Compiler)) in C1. injection C1 as <-.
    vm_compute in C2. injection C2 as <-. reflexivity.
  - eexists. vm_compute. reflexivity.
Qed.

(** Refuted: a program that edits the Master Count of the file and adds the positions of the second master to the anchors
    saves a file without them, as the number of masters that was read is used for the new data. *)
Definition plain_masters : list (entry value) :=
  [mkEntry (Some 1503) (Dec (DInt 2)) None; mkEntry (Some 1026) (Raw [65; 66]) None;
   mkEntry (Some 2029) (Dec (DAnchors [MMAnchor [100; 110] [200; 210]])) None; mkEntry (Some 30000) (Raw [1; 2; 3]) None;
   mkEntry (Some 2) (Raw []) None].
Theorem C112_masters_refuted : forall o, exists v0 v',
  vfb_read_bytes (table o) 20 (new_vfb [] false false) plain_file = (v0, ROk tt []) /\
  vfb_write_bytes (table o) (with_entries plain_masters v0) =
    (v', file_of 7 [(1503, [2; 0]); (1026, [65; 66]); (2029, [140; 140; 239; 247; 92]); (30000, [1; 2; 3]); (2, [])], Ok tt) /\
  cd_parse (table o) 2029 (mkCtx 2 0 0 MacOS) [140; 140; 239; 247; 92] = Ok (DAnchors [MMAnchor [100] [200]]).
Proof. intros o. eexists _, _. split; [vm_compute; reflexivity|]. split; [vm_compute; reflexivity|]. vm_compute. reflexivity. Qed.
Print Assumptions C112_masters_refuted.
