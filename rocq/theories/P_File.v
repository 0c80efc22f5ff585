(** Whole files: proofs. *)
From Coq Require Import ZifyBool ZifyNat String.
From Verif Require Import Base M_Stream M_Py M_Text M_Simple M_Bitmap M_TrueType M_Glyph M_Float M_Options
  M_Container M_Table S_Text S_Entry S_TrueType S_Glyph S_Options S_File S_Table Lib P_Container
  Prop_Container P_Loop P_Simple P_TrueType P_Table.
Local Open Scope list_scope.

Section File.
  Variable o : oracles.
  Notation T := (table o).

  (** the three entry types that are decompiled while reading *)
  Lemma parse_version : forall c b, cd_parse T 10 c b = rmap DFLVersion (run_parser parse_fl_version b).
  Proof. intros. apply (run_plain _ DFLVersion). Qed.
  Lemma parse_masters : forall c b, cd_parse T 1503 c b = rmap DInt (run_parser parse_int16 b).
  Proof. intros. apply (run_plain _ DInt). Qed.
  Lemma parse_stems : forall c b, cd_parse T 1269 c b = rmap DStems (run_parser parse_tt_stems b).
  Proof. intros. apply (run_plain _ DStems). Qed.
  Lemma eager_cases : forall i, is_eager i = true -> i = 10 \/ i = 1503 \/ i = 1269.
  Proof. intros i. unfold is_eager, F_FLVersion, F_MasterCount, T_TrueTypeStems. lia. Qed.
  Lemma eager_ctx : forall i c c' b, is_eager i = true -> cd_parse T i c b = cd_parse T i c' b.
  Proof.
    intros i c c' b H. destruct (eager_cases i H) as [-> | [-> | ->]];
      rewrite ?parse_version, ?parse_masters, ?parse_stems; reflexivity.
  Qed.
  Lemma eager_same : forall i c b x x', is_eager i = true -> cd_parse T i c b = Ok x' ->
    same_value x x' -> x = x'.
  Proof.
    intros i c b x x' H E S. destruct (eager_cases i H) as [-> | [-> | ->]];
      rewrite ?parse_version, ?parse_masters, ?parse_stems in E; unfold rmap in E;
      match type of E with match ?r with _ => _ end = _ => destruct r; [|discriminate] end;
      apply Ok_inj in E; subst x'; destruct x; cbn in S; congruence.
  Qed.
  Lemma remembered_lazy : forall c i x, is_eager i = false -> remembered c (i, x) = c.
  Proof.
    intros c i x H. unfold is_eager, F_FLVersion, F_MasterCount, T_TrueTypeStems in H.
    assert (i <> 10 /\ i <> 1503 /\ i <> 1269) as (N1 & N2 & N3) by lia.
    unfold remembered. destruct (Z.eq_dec i 10), (Z.eq_dec i 1503), (Z.eq_dec i 1269); try lia.
    clear - n n0 n1. destruct i as [|p|p]; try reflexivity.
    repeat (destruct p as [p|p|]; try reflexivity; try lia).
  Qed.
  Lemma remembered_eager : forall i c b x, is_eager i = true -> cd_parse T i c b = Ok x ->
    forall v, v_ctx (remember T i x v) = remembered (v_ctx v) (i, x).
  Proof.
    intros i c b x H E v. destruct (eager_cases i H) as [-> | [-> | ->]];
      rewrite ?parse_version, ?parse_masters, ?parse_stems in E; unfold rmap in E;
      match type of E with match ?r with _ => _ end = _ => destruct r; [|discriminate] end;
      apply Ok_inj in E; subst x; reflexivity.
  Qed.

  (** ** Writing and reading again *)
  Definition stored (c : ctx) (p : Z * value) (q : Z * bytes) : Prop :=
    fst p = fst q /\ Z.of_nat (List.length (snd q)) < 2 ^ 32 /\ bytes_ok (snd q) /\
    exists comp x', cd_compile T (fst p) = Some comp /\ comp c (snd p) = Ok (snd q) /\
      cd_parse T (fst p) c (snd q) = Ok x' /\ same_value (snd p) x'.
  Lemma all_stored : forall c l,
    Forall (fun p => written_back o c (fst p) (snd p) /\ fits o c (fst p) (snd p)) l ->
    exists lb, Forall2 (stored c) l lb.
  Proof.
    induction 1 as [|[i x] l H _ (lb & IH)]; [exists []; constructor|]. cbn [fst snd] in H.
    destruct H as [(comp & bs & x' & E1 & E2 & B & E3 & S) F].
    exists ((i, bs) :: lb). constructor; [|exact IH]. split; [reflexivity|].
    split; [exact (F _ _ E1 E2)|]. split; [exact B|]. exists comp, x'. auto.
  Qed.
  Lemma compile_stored : forall c l lb, Forall2 (stored c) l lb ->
    compile_entries T c (decompiled l) =
      (map (fun q => mkEntry (Some (fst q)) (Raw (snd q)) None) lb, Ok tt).
  Proof.
    induction 1 as [|[i x] [i' b] l lb H _ IH]; [reflexivity|].
    destruct H as (Ei & _ & _ & comp & x' & E1 & E2 & _). cbn [fst snd] in *. subst i'.
    unfold decompiled in *. cbn [map compile_entries fst snd]. unfold entry_compile. cbn [e_data e_id].
    rewrite E1, E2, IH. reflexivity.
  Qed.
  Lemma holds_stored : forall lb : list (Z * bytes),
    Forall2 holds (map (fun q => @mkEntry value (Some (fst q)) (Raw (snd q)) None) lb) lb.
  Proof.
    induction lb as [|q lb IH]; constructor; auto. split; [reflexivity|]. split; [reflexivity|]. discriminate.
  Qed.
  Definition left_as (p : Z * value) (q : Z * bytes) : edata value :=
    if is_eager (fst p) then Dec (snd p) else Raw (snd q).
  Lemma kern_pair_not_stored : forall c p q, stored c p q -> fst p <> 1410.
  Proof.
    intros c [i x] [i' b] (_ & _ & _ & comp & x' & E1 & E2 & _) E. cbn [fst snd] in *. subst i.
    assert (R : exists k, cd_compile T 1410 = Some k /\ forall c x b, k c x <> Ok b).
    { eexists. split; [reflexivity|]. intros c0 x0 b0. destruct x0; discriminate. }
    destruct R as (k & Ek & Nk). rewrite Ek in E1. injection E1 as <-. exact (Nk _ _ _ E2).
  Qed.
  Lemma reads_stored : forall c l lb, Forall2 (stored c) l lb -> forall c0,
    reads_as T c0 lb (fold_left remembered l c0) (map (fun pq => left_as (fst pq) (snd pq)) (combine l lb)).
  Proof.
    intros c l lb. induction 1 as [|[i x] [i' b] l lb H _ IH]; intros c0; [constructor|].
    pose proof (kern_pair_not_stored _ _ _ H) as N. cbn [fst] in N.
    destruct H as (Ei & _ & _ & comp & x' & E1 & E2 & E3 & S). cbn [fst snd] in *. subst i'.
    cbn [fold_left combine map fst snd]. unfold left_as. cbn [fst snd].
    destruct (is_eager i) eqn:Eg.
    - pose proof (eager_same _ _ _ _ _ Eg E3 S) as ->.
      destruct (eager_cases i Eg) as [-> | [-> | ->]].
      + eapply ra_version; [rewrite (eager_ctx 10 c0 c) by reflexivity; exact E3|].
        rewrite parse_version in E3. destruct (run_parser parse_fl_version b); [|discriminate].
        apply Ok_inj in E3. subst x'. apply IH.
      + eapply ra_masters; [rewrite (eager_ctx 1503 c0 c) by reflexivity; exact E3|].
        rewrite parse_masters in E3. destruct (run_parser parse_int16 b); [|discriminate].
        apply Ok_inj in E3. subst x'. apply IH.
      + eapply ra_stems; [rewrite (eager_ctx 1269 c0 c) by reflexivity; exact E3|].
        rewrite parse_stems in E3. destruct (run_parser parse_tt_stems b); [|discriminate].
        apply Ok_inj in E3. subst x'. apply IH.
    - rewrite remembered_lazy by exact Eg. 
      unfold is_eager, F_FLVersion, F_MasterCount, T_TrueTypeStems in Eg.
      apply ra_bytes; try lia. apply IH.
  Qed.
  Lemma decompile_stored : forall c l lb, Forall2 (stored c) l lb ->
    exists l', decompile_entries T c [] (fresh_entries lb (map (fun pq => left_as (fst pq) (snd pq)) (combine l lb)))
      = (decompiled l', false, Ok tt) /\ Forall2 same_entry l l' /\
        Forall (fun q => exists b, bytes_ok b /\ cd_parse T (fst q) c b = Ok (snd q)) l'.
  Proof.
    intros c l lb. induction 1 as [|[i x] [i' b] l lb H _ (l' & IH & F & P)].
    { exists []. split; [reflexivity|]. split; constructor. }
    destruct H as (Ei & _ & B & comp & x' & E1 & E2 & E3 & S). cbn [fst snd] in *. subst i'.
    exists ((i, x') :: l'). split; [|split; constructor; [split; [reflexivity|exact S]|exact F|exists b; auto|exact P]].
    unfold fresh_entries in *. cbn [combine map fst snd decompile_entries e_id].
    unfold M_Container.zmem at 1. cbn [existsb]. unfold entry_decompile. cbn [e_id e_data].
    change (left_as (i, x) (i, b)) with (if is_eager i then Dec x else Raw b).
    destruct (is_eager i) eqn:Eg.
    - pose proof (eager_same _ _ _ _ _ Eg E3 S) as ->. rewrite IH. reflexivity.
    - rewrite E3, IH. reflexivity.
  Qed.

  Lemma stored_ids : forall c l lb, Forall2 (stored c) l lb -> map fst l = map fst lb.
  Proof. induction 1 as [|p q l lb (E & _) _ IH]; cbn; congruence. Qed.
  Lemma stored_framable : forall c l lb, Forall2 (stored c) l lb -> Forall (fun i => 0 <= i < 32768) (map fst l) ->
    Forall framable lb.
  Proof.
    induction 1 as [|p q l lb (E & L & _) _ IH]; intros H; [constructor|]. cbn [map] in H.
    inversion H; subst. constructor; [|auto]. split; [rewrite <- E; assumption|exact L].
  Qed.
  Lemma ids_end_once : forall lb : list (Z * bytes), (exists l0, map fst lb = l0 ++ [2] /\ ~ In 2 l0) -> ends_once lb.
  Proof.
    intros lb (l0 & E & N).
    destruct (exists_last (l := lb)) as (lb0 & [i d] & ->).
    { intros ->. destruct l0; discriminate. }
    rewrite map_app in E. cbn in E. apply app_inj_tail in E. destruct E as [<- ->].
    exists lb0, d. auto.
  Qed.

  Lemma write_and_reparse : forall v minor l,
    v_header v = HDec (fl_header minor) -> 0 <= minor < 256 -> v_entries v = decompiled l ->
    file_ids (map fst l) -> v_ctx v = context_of l ->
    Forall (fun p => written_back o (v_ctx v) (fst p) (snd p) /\ fits o (v_ctx v) (fst p) (snd p)) l ->
    exists v' out, vfb_write_bytes T v = (v', out, Ok tt) /\
      forall rest uni fuel, (List.length l <= fuel)%nat ->
      exists w0 w l', vfb_read_bytes T fuel (new_vfb [] false uni) (out ++ rest) = (w0, ROk tt rest) /\
        vfb_decompile T w0 = (w, Ok tt) /\
        v_header w = HDec (fl_header minor) /\ v_ctx w = v_ctx v /\
        v_entries w = decompiled l' /\ Forall2 same_entry l l' /\
        Forall (fun q => exists b, bytes_ok b /\ cd_parse T (fst q) (v_ctx v) b = Ok (snd q)) l'.
  Proof.
    intros v minor l Hh Hm He [Hi He2] Hc HW.
    destruct (all_stored _ _ HW) as (lb & S).
    pose proof (stored_ids _ _ _ S) as Ids. pose proof (stored_framable _ _ _ S Hi) as Fr.
    rewrite Ids in He2. apply ids_end_once in He2.
    unfold vfb_write_bytes, vfb_compile. rewrite Hh. cbn [header_compile].
    rewrite compile_header_fl by auto. cbn [rmap v_ctx v_entries with_header].
    rewrite He, (compile_stored _ _ _ S). cbn [v_header with_entries v_entries].
    destruct (write_entries_holds _ _ (holds_stored lb) Fr) as (es' & E & _). rewrite E.
    eexists _, _. split; [reflexivity|]. intros rest uni fuel Hfuel.
    pose proof (reads_stored _ _ _ S ctx0) as R. fold (context_of l) in R.
    assert (L : List.length lb = List.length l).
    { rewrite <- (map_length fst lb), <- Ids. apply map_length. }
    destruct (read_file value T (new_vfb [] false uni) minor lb _ _ rest fuel eq_refl eq_refl Hm Fr He2 R)
      as (w0 & W1 & W2 & W3 & W4 & _ & W5 & _); [lia|].
    destruct (decompile_stored _ _ _ S) as (l' & D & F & P).
    exists w0. unfold vfb_decompile. cbn [v_header with_errors]. rewrite W2. cbn [header_decompile].
    cbn [v_ctx v_drop v_entries with_header with_errors]. rewrite W3, W4, W5, <- Hc, D.
    eexists _, l'. split; [exact W1|]. split; [reflexivity|].
    cbn. split; [reflexivity|]. split; [rewrite W3; auto|]. auto.
  Qed.
  Lemma write_and_reread : forall v minor l,
    v_header v = HDec (fl_header minor) -> 0 <= minor < 256 -> v_entries v = decompiled l ->
    file_ids (map fst l) -> v_ctx v = context_of l ->
    Forall (fun p => written_back o (v_ctx v) (fst p) (snd p) /\ fits o (v_ctx v) (fst p) (snd p)) l ->
    exists v' out, vfb_write_bytes T v = (v', out, Ok tt) /\
      forall rest uni fuel, (List.length l <= fuel)%nat ->
      exists w0 w l', vfb_read_bytes T fuel (new_vfb [] false uni) (out ++ rest) = (w0, ROk tt rest) /\
        vfb_decompile T w0 = (w, Ok tt) /\
        v_header w = HDec (fl_header minor) /\ v_ctx w = v_ctx v /\
        v_entries w = decompiled l' /\ Forall2 same_entry l l'.
  Proof.
    intros v minor l H1 H2 H3 H4 H5 H6. destruct (write_and_reparse v minor l H1 H2 H3 H4 H5 H6) as (v' & out & W & R).
    exists v', out. split; [exact W|]. intros rest uni fuel Hf. destruct (R rest uni fuel Hf) as (w0 & w & l' & A & B & C & D & E & F & _).
    exists w0, w, l'. auto 10.
  Qed.

  (** ** Reading *)
  Inductive read_new : ctx -> ctx -> list (entry value) -> Prop :=
  | rn_end : forall c b, entry_data b -> read_new c c [mkEntry (Some 2) (Raw b) None]
  | rn_lazy : forall c c' i b es, 0 <= i < 32768 -> i <> 2 -> is_eager i = false -> entry_data b ->
      read_new c c' es -> read_new c c' (mkEntry (Some i) (Raw b) None :: es)
  | rn_eager : forall c c' i b x es, is_eager i = true -> entry_data b -> cd_parse T i c b = Ok x ->
      read_new (remembered c (i, x)) c' es -> read_new c c' (mkEntry (Some i) (Dec x) None :: es).

  Lemma read_entry_ok : forall c s, bytes_ok s -> Z.of_nat (List.length s) < 2 ^ 31 -> exists i b r,
    @read_entry value c s = ROk (mkEntry (Some i) (Raw b) None) r /\
    0 <= i < 32768 /\ entry_data b /\ bytes_ok r /\ Z.of_nat (List.length r) < 2 ^ 31.
  Proof.
    intros c s Hs L. unfold read_entry, read_uint16, read_uint32, rbind, read_bytes, ret.
    assert (HD : forall n (x : bytes), (List.length (drop n x) <= List.length x)%nat).
    { intros n x. unfold drop. destruct (n <? 0); cbn; [lia|]. rewrite skipn_length. lia. }
    assert (HT : forall n (x : bytes), (List.length (take n x) <= List.length x)%nat).
    { intros n x. unfold take. destruct (n <? 0); cbn; [lia|]. rewrite firstn_length. lia. }
    pose proof bytes_ok_drop as BD. pose proof bytes_ok_take as BT.
    set (raw := le_dec (take 2 s)).
    assert (Hraw : 0 <= raw < 65536).
    { unfold raw. pose proof (le_dec_range (take 2 s) (BT 2 s Hs)) as R.
      assert (L2 : (List.length (take 2 s) <= 2)%nat).
      { change (take 2 s) with (firstn 2 s). rewrite firstn_length. lia. }
      assert (2 ^ (8 * Z.of_nat (List.length (take 2 s))) <= 2 ^ 16) by (apply Z.pow_le_mono_r; lia).
      lia. }
    assert (Hi : 0 <= Z.land raw (Z.lnot 32768) < 32768).
    { destruct (Z.lt_ge_cases raw 32768); [rewrite ldiff_8000_low by lia; lia|].
      replace raw with (raw - 32768 + 32768) by lia. rewrite ldiff_8000_high by lia. lia. }
    destruct (Z.land raw 32768 =? 0); eexists _, _, _; (split; [reflexivity|]); (split; [exact Hi|]);
      unfold entry_data; repeat split; auto;
      match goal with
      | |- context [List.length (take ?n (drop ?m (drop ?k ?x)))] =>
          pose proof (HT n (drop m (drop k x))); pose proof (HD m (drop k x)); pose proof (HD k x); lia
      | |- context [List.length (drop ?n (drop ?m (drop ?k ?x)))] =>
          pose proof (HD n (drop m (drop k x))); pose proof (HD m (drop k x)); pose proof (HD k x); lia
      end.
  Qed.

  Lemma read_loop_new : forall fuel v s v' r, v_drop v = [] -> bytes_ok s -> Z.of_nat (List.length s) < 2 ^ 31 ->
    read_loop T fuel v s = (v', ROk tt r) ->
    exists es, v_entries v' = v_entries v ++ es /\ read_new (v_ctx v) (v_ctx v') es /\
      v_header v' = v_header v /\ v_drop v' = [].
  Proof.
    induction fuel as [|fuel IH]; intros v s v' r Hd Hs L E; [discriminate|]. cbn [read_loop] in E.
    destruct (read_entry_ok (v_ctx v) s Hs L) as (i & b & r1 & E1 & Hi & Hb & Hr & Lr).
    rewrite E1 in E. cbn [e_id] in E. destruct (is_eager i) eqn:Eg.
    - unfold entry_decompile in E. cbn [e_id e_data] in E.
      destruct (cd_parse T i (v_ctx v) b) as [x|e] eqn:Ep; [|discriminate]. cbn [e_data set_data] in E.
      assert (Hd' : v_drop (remember T i x v) = []).
      { unfold remember. destruct (i =? F_FLVersion), (i =? F_MasterCount); exact Hd. }
      rewrite append_nodrop in E by exact Hd'.
      apply IH in E; auto. destruct E as (es & V1 & V2 & V3 & V4).
      cbn [v_entries v_ctx v_header with_entries] in *.
      rewrite (remembered_eager _ _ _ _ Eg Ep) in V2.
      assert (Q : v_entries (remember T i x v) = v_entries v /\ v_header (remember T i x v) = v_header v).
      { unfold remember. destruct (i =? F_FLVersion), (i =? F_MasterCount); split; reflexivity. }
      destruct Q as [Q1 Q2]. rewrite Q1 in V1. rewrite Q2 in V3.
      eexists. split; [rewrite V1, <- app_assoc; reflexivity|]. split; [|auto].
      eapply rn_eager; eauto.
    - rewrite append_nodrop in E by exact Hd. destruct (i =? F_BlockFileDataEnd) eqn:E2.
      + apply Z.eqb_eq in E2. unfold F_BlockFileDataEnd in E2. subst i.
        injection E as <- _. cbn. eexists. split; [reflexivity|]. split; [|auto]. constructor. exact Hb.
      + apply IH in E; auto. destruct E as (es & V1 & V2 & V3 & V4). cbn in V1, V2, V3.
        eexists. split; [rewrite V1, <- app_assoc; reflexivity|]. split; [|auto].
        apply rn_lazy; auto. unfold F_BlockFileDataEnd in E2. lia.
  Qed.

  (** what decompiling leaves *)
  Lemma decompile_new : forall c c' es, read_new c c' es -> forall cF es' err,
    decompile_entries T cF [] es = (es', err, Ok tt) ->
    exists l, es' = decompiled l /\ file_ids (map fst l) /\ c' = fold_left remembered l c /\
      Forall (fun p => exists b, entry_data b /\ cd_parse T (fst p) cF b = Ok (snd p)) l.
  Proof.
    induction 1 as [c b Hb|c c' i b es Hi H2 Eg Hb _ IH|c c' i b x es Eg Hb Ep _ IH]; intros cF es' err E;
      cbn [decompile_entries e_id] in E; unfold M_Container.zmem in E; cbn [existsb] in E;
      unfold entry_decompile in E; cbn [e_id e_data] in E.
    - destruct (cd_parse T 2 cF b) as [x|e] eqn:Ep; [|discriminate]. injection E as <- _.
      exists [(2, x)]. split; [reflexivity|]. split; [|split; [reflexivity|]].
      + split; [apply Forall_cons; [cbn; lia|apply Forall_nil]|]. exists []. split; [reflexivity|intros []].
      + constructor; [|constructor]. exists b. auto.
    - destruct (cd_parse T i cF b) as [x|e] eqn:Ep; [|discriminate].
      destruct (decompile_entries T cF [] es) as [[es1 err1] [[]|e]] eqn:E1; [|discriminate].
      injection E as <- _. destruct (IH _ _ _ E1) as (l & -> & [F1 (l0 & F2 & F3)] & -> & F4).
      exists ((i, x) :: l). split; [reflexivity|]. split; [|split].
      + split; [cbn; constructor; auto|]. exists (i :: l0). cbn. rewrite F2. split; [reflexivity|].
        intros [Q|Q]; [congruence|tauto].
      + cbn [fold_left]. rewrite remembered_lazy by exact Eg. reflexivity.
      + constructor; [|exact F4]. exists b. auto.
    - destruct (decompile_entries T cF [] es) as [[es1 err1] [[]|e]] eqn:E1; [|discriminate].
      injection E as <- _. destruct (IH _ _ _ E1) as (l & -> & [F1 (l0 & F2 & F3)] & -> & F4).
      assert (0 <= i < 32768 /\ i <> 2) as [Hi H2] by (destruct (eager_cases i Eg) as [-> | [-> | ->]]; lia).
      exists ((i, x) :: l). split; [reflexivity|]. split; [|split].
      + split; [cbn; constructor; auto|]. exists (i :: l0). cbn. rewrite F2. split; [reflexivity|].
        intros [Q|Q]; [congruence|tauto].
      + reflexivity.
      + constructor; [|exact F4]. exists b. split; [exact Hb|]. cbn [fst snd].
        rewrite (eager_ctx i cF c b Eg). exact Ep.
  Qed.

  (** the context stays in range *)
  Lemma remembered_wf : forall c0 i b x c, entry_data b -> cd_parse T i c0 b = Ok x -> wf_ctx c ->
    wf_ctx (remembered c (i, x)).
  Proof.
    intros c0 i b x c Hb E Hc. destruct (is_eager i) eqn:Eg; [|rewrite remembered_lazy by exact Eg; exact Hc].
    destruct Hc as (C1 & C2 & C3). unfold wf_ctx.
    destruct (eager_cases i Eg) as [-> | [-> | ->]];
      rewrite ?parse_version, ?parse_masters, ?parse_stems in E.
    - destruct (run_parser parse_fl_version b); [|discriminate]. apply Ok_inj in E. subst x. cbn. auto.
    - destruct (run_parser parse_int16 b) eqn:E1; [|discriminate]. apply Ok_inj in E. subst x. cbn.
      assert (R : rps parse_int16 (fun z => 0 <= z < 65536)).
      { exact rps_uint16. }
      pose proof (rps_run _ _ _ _ _ R Hb E1) as Q. cbv beta in Q. lia.
    - destruct (run_parser parse_tt_stems b) eqn:E1; [|discriminate]. apply Ok_inj in E. subst x. cbn.
      pose proof (rps_run _ _ _ _ _ rps_stems Hb E1) as (_ & W1 & _ & W2). unfold countable in *.
      lia.
  Qed.
  Lemma context_wf : forall cF l c, wf_ctx c ->
    Forall (fun p => exists b, entry_data b /\ cd_parse T (fst p) cF b = Ok (snd p)) l ->
    wf_ctx (fold_left remembered l c).
  Proof.
    intros cF l. induction l as [|[i x] l IH]; intros c Hc H; [exact Hc|]. inversion H as [|? ? (b & Hb & E) H']; subst.
    cbn [fold_left]. apply IH; [|exact H']. eapply remembered_wf; eauto.
  Qed.

  Lemma parse_header_is : forall file h r, bytes_ok file -> parse_header file = ROk h r ->
    exists minor, 0 <= minor < 256 /\ h = fl_header minor.
  Proof.
    intros file h r Hf E. pose proof (C13_accepts file Hf) as A. destruct (list_eq_dec _ _ _) as [_|_].
    - destruct A as (minor & r' & Hm & A). rewrite A in E. injection E as <- _. exists minor. auto.
    - destruct A as (r' & A). rewrite A in E. discriminate.
  Qed.

  Lemma file_reads : forall file fuel uni v0 rest v1, bytes_ok file -> Z.of_nat (List.length file) < 2 ^ 31 ->
    vfb_read_bytes T fuel (new_vfb [] false uni) file = (v0, ROk tt rest) ->
    vfb_decompile T v0 = (v1, Ok tt) ->
    exists minor l, 0 <= minor < 256 /\ v_header v1 = HDec (fl_header minor) /\
      v_entries v1 = decompiled l /\ file_ids (map fst l) /\ v_ctx v1 = context_of l /\ wf_ctx (v_ctx v1) /\
      Forall (fun p => exists b, entry_data b /\ cd_parse T (fst p) (v_ctx v1) b = Ok (snd p)) l.
  Proof.
    intros file fuel uni v0 rest v1 Hf L E D. unfold vfb_read_bytes, read_stream in E.
    destruct (parse_header file) as [h r|e r] eqn:EP; [|discriminate].
    destruct (parse_header_is _ _ _ Hf EP) as (minor & Hm & ->).
    cbn [v_only_header with_header vfb_clear with_entries new_vfb] in E.
    assert (Hr : bytes_ok r /\ (List.length r <= List.length file)%nat).
    { unfold parse_header in EP. destruct (read_header_fields file) as [[? off] ?|]; [|discriminate].
      inversion EP; subst. split; [apply bytes_ok_drop; exact Hf|].
      unfold drop. destruct (off <? 0); cbn; [lia|]. rewrite skipn_length. lia. }
    destruct Hr as [Hr1 Hr2].
    apply read_loop_new in E; auto; [|lia]. destruct E as (es & V1 & V2 & V3 & V4).
    cbn in V1, V2, V3. fold ctx0 in V2.
    unfold vfb_decompile in D. cbn [v_header with_errors] in D. rewrite V3 in D. cbn [header_decompile] in D.
    cbn [v_ctx v_drop v_entries with_header with_errors] in D. rewrite V1, V4 in D.
    destruct (decompile_entries T (v_ctx v0) [] es) as [[es' err] x] eqn:ED.
    injection D as <- ->. cbn.
    destruct (decompile_new _ _ _ V2 _ _ _ ED) as (l & -> & F1 & F2 & F3).
    exists minor, l. split; [exact Hm|]. split; [reflexivity|]. split; [reflexivity|]. split; [exact F1|].
    split; [exact F2|]. split; [|exact F3].
    rewrite F2. eapply context_wf; [|exact F3]. unfold wf_ctx. cbn. lia.
  Qed.
End File.
