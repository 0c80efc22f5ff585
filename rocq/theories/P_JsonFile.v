(** Proofs about the JSON of whole files (C97). *)
From Coq Require Import ZifyBool ZifyNat String Permutation.
From Verif Require Import Base M_Stream M_Py M_Helpers M_Text M_Simple M_Bitmap M_TrueType M_Glyph M_Float M_Options
  M_Container M_Table M_Tools S_Encoding M_Json S_Json S_Dump Lib P_Helpers P_Dec P_Container S_File P_File Prop_Container Prop_File Prop_Cu2qu P_Json P_JsonData P_Tools.
Local Open Scope list_scope.

(** ** The parser of an id makes data of one type *)
Lemma plain_made : forall A (C : A -> value) (r : rd A) b d, run_parser (plain C r) b = Ok d -> exists x, d = C x.
Proof.
  intros A C r b d. unfold run_parser, plain, rbind, ret. destruct (r b) as [a rest|]; [|discriminate]. destruct rest; [|discriminate].
  intros E. apply Ok_inj in E. subst d. eexists. reflexivity.
Qed.
Lemma row_tags : forall o, Forall (fun r => exists n, forall c b d, run_parser (snd (fst (snd r)) c) b = Ok d -> tag d = n) (parser_classes o).
Proof.
  intros o. unfold parser_classes.
  repeat first [apply Forall_nil | apply Forall_cons; [eexists; intros c b d E; destruct (plain_made _ _ _ _ _ E) as (x & ->); cbn [tag]; reflexivity|]].
Qed.
Lemma table_tag : forall o i c b d c' b' d', cd_parse (table o) i c b = Ok d -> cd_parse (table o) i c' b' = Ok d' -> tag d = tag d'.
Proof.
  intros o i c b d c' b' d'. cbn [cd_parse table]. unfold parser_of, row.
  destruct (aget Z.eqb i (parser_classes o)) as [[[k p] w]|] eqn:E.
  - apply (aget_In Z.eqb Z.eqb_eq) in E. pose proof (proj1 (Forall_forall _ _) (row_tags o) _ E) as (n & H).
    cbn [fst snd] in H. intros D D'. rewrite (H _ _ _ D), (H _ _ _ D'). reflexivity.
  - intros D D'. apply plain_made in D, D'. destruct D as (x & ->), D' as (y & ->). reflexivity.
Qed.

(** ** Entries and Vfbs *)
(** [has_data] of S_Dump.v, with another condition on bytes *)
Definition made_ (P : bytes -> Prop) (o : oracles) (e : entry value) : Prop :=
  exists i, e_id e = Some i /\
    match e_data e with
    | Raw b => P b
    | Dec d => exists c b, cd_parse (table o) i c b = Ok d
    | NoData => False
    end.

Notation made := has_data.
Lemma app1 : forall A (P : A -> Prop) l x, Forall P l -> P x -> Forall P (l ++ [x]).
Proof. intros. apply Forall_app. split; [assumption|]. constructor; [assumption|constructor]. Qed.
Section vfb.
  Variable o : oracles.
  Notation T := (table o).
  Lemma append_made : forall i e v, Forall (made o) (v_entries v) -> made o e -> Forall (made o) (v_entries (append_entry i e v)).
  Proof. intros i e v H E. unfold append_entry. destruct (zmem i (v_drop v)); [assumption|]. apply app1; assumption. Qed.
  Lemma remember_entries : forall i d v, v_entries (remember T i d v) = v_entries v.
  Proof. intros. unfold remember. destruct (i =? F_FLVersion), (i =? F_MasterCount); reflexivity. Qed.
  Lemma read_entry_made : forall c s e r, bytes_ok s -> @read_entry value c s = ROk e r ->
    exists i b, e = mkEntry (Some i) (Raw b) None /\ bytes_ok b /\ bytes_ok r.
  Proof.
    intros c s e r Hs. unfold read_entry, read_uint16, read_uint32, rbind, read_bytes, ret.
    pose proof bytes_ok_drop as BD. pose proof bytes_ok_take as BT.
    match goal with |- context [if ?x then _ else _] => destruct x end; intros E; injection E as <- <-; eexists _, _; (split; [reflexivity|]); auto.
  Qed.
  Lemma read_loop_made : forall fuel v s, bytes_ok s -> Forall (made o) (v_entries v) ->
    Forall (made o) (v_entries (fst (read_loop T fuel v s))).
  Proof.
    induction fuel as [|fuel IH]; intros v s Hs Hv; [assumption|]. cbn [read_loop].
    destruct (read_entry (v_ctx v) s) as [e r|x r] eqn:E; [|destruct x; assumption].
    apply read_entry_made in E; [|assumption]. destruct E as (i & b & -> & Hb & Hr). cbn [e_id].
    destruct (is_eager i).
    - unfold entry_decompile. cbn [e_id e_data]. destruct (cd_parse T i (v_ctx v) b) as [d|x] eqn:P; [|assumption].
      cbn [e_data set_data]. apply IH; [assumption|]. apply append_made; [now rewrite remember_entries|].
      exists i. cbn. split; [reflexivity|]. eexists _, _. exact P.
    - assert (M : Forall (made o) (v_entries (append_entry i (mkEntry (Some i) (Raw b) None) v))).
      { apply append_made; [assumption|]. exists i. split; [reflexivity|exact Hb]. }
      destruct (i =? F_BlockFileDataEnd); [exact M|]. apply IH; assumption.
  Qed.
  Lemma read_made : forall fuel v s, bytes_ok s -> Forall (made o) (v_entries (fst (vfb_read_bytes T fuel v s))).
  Proof.
    intros fuel v s Hs. unfold vfb_read_bytes, read_stream. destruct (parse_header s) as [h r|x r] eqn:E; [|constructor].
    destruct (v_only_header _); [constructor|]. apply read_loop_made; [|constructor].
    unfold parse_header in E. destruct (read_header_fields s) as [[? off] ?|]; [|discriminate].
    injection E as _ <-. apply bytes_ok_drop. exact Hs.
  Qed.
  Lemma decompile_entries_made : forall P c k es, Forall (made_ P o) es -> Forall (made_ P o) (fst (fst (decompile_entries T c k es))).
  Proof.
    intros P c k. induction es as [|e es IH]; intros H; [constructor|]. apply Forall_cons_iff in H. destruct H as (He & H). specialize (IH H). cbn [decompile_entries].
    assert (G : made_ P o (fst (fst (entry_decompile T c e)))).
    { unfold entry_decompile. pose proof He as (i & Ei & Di). rewrite Ei. destruct (e_data e) as [b|d|]; try exact He.
      destruct (cd_parse T i c b) as [d|x] eqn:Pd; [|exact He]. exists i. cbn. split; [assumption|]. eexists _, _. exact Pd. }
    destruct (match e_id e with Some _ => _ | None => _ end).
    - destruct (decompile_entries T c k es) as [[es' err] r]. constructor; assumption.
    - destruct (entry_decompile T c e) as [[e' err] [u|x]]; cbn [fst] in G; [|constructor; assumption].
      destruct (decompile_entries T c k es) as [[es' err'] r]. constructor; assumption.
  Qed.

  Lemma vfb_decompile_made : forall P v v', Forall (made_ P o) (v_entries v) -> vfb_decompile T v = (v', Ok tt) -> Forall (made_ P o) (v_entries v').
  Proof.
    intros P v v' H. unfold vfb_decompile. destruct (header_decompile _) as [h|x]; [|discriminate].
    cbn [v_ctx v_drop v_entries with_header with_errors].
    pose proof (decompile_entries_made P (v_ctx v) (v_drop v) _ H) as M.
    destruct (decompile_entries T (v_ctx v) (v_drop v) (v_entries v)) as [[es err] r]. intros E. injection E as <- _. exact M.
  Qed.
  Lemma vfb_decompile_drop : forall v v', vfb_decompile T v = (v', Ok tt) -> v_drop v' = v_drop v /\
    (Forall (fun e => not_dropped (v_drop v) e = true) (v_entries v) -> Forall decoded (v_entries v')) /\ (forall b, v_header v' <> HRaw b) /\
    (v_header v <> HNone -> v_header v' <> HNone).
  Proof.
    intros v v'. unfold vfb_decompile. destruct (header_decompile _) as [h|x] eqn:Eh; [|discriminate].
    cbn [v_ctx v_drop v_entries with_header with_errors].
    destruct (decompile_entries T (v_ctx v) (v_drop v) (v_entries v)) as [[es err] r] eqn:E.
    intros X. injection X as <- ->. split; [reflexivity|]. split; [intros F; eapply decompiled_all; eassumption|].
    cbn [v_header with_errors with_entries with_header] in *. destruct (v_header v); cbn [header_decompile] in Eh.
    - destruct (parse_header b); [|discriminate]. apply Ok_inj in Eh. subst h. split; intros; discriminate.
    - apply Ok_inj in Eh. subst h. split; intros; discriminate.
    - apply Ok_inj in Eh. subst h. split; [intros; discriminate|congruence].
  Qed.
  Lemma decoded_made : forall P es, Forall (made_ P o) es -> Forall decoded es -> Forall (made o) es.
  Proof.
    intros P es H. induction H as [|e es (i & Ei & De) H IH]; intros F; [constructor|]. apply Forall_cons_iff in F. destruct F as ((j & d & Ej & Ed) & F).
    constructor; [|apply IH; exact F]. exists i. split; [exact Ei|]. rewrite Ed in *. exact De.
  Qed.
  Lemma entry_compile_made : forall P c e, made_ P o e -> made_ (fun _ => True) o (fst (entry_compile T c e)) /\ e_id (fst (entry_compile T c e)) = e_id e.
  Proof.
    intros P c e (i & Ei & De). unfold entry_compile. rewrite Ei.
    assert (W : made_ (fun _ => True) o e).
    { exists i. split; [exact Ei|]. destruct (e_data e); auto. }
    assert (Wb : forall b, made_ (fun _ => True) o (set_data (Raw b) e)) by (intros b; exists i; split; [exact Ei|exact Logic.I]).
    destruct (e_data e) as [b|d|]; [split; [exact W|exact Ei]| |destruct De].
    destruct (cd_compile T i) as [f|]; [|split; [exact W|exact Ei]].
    destruct (f c d); (split; [first [exact W|apply Wb]|exact Ei]).
  Qed.
  Lemma compile_entries_made : forall P c es, Forall (made_ P o) es ->
    Forall (made_ (fun _ => True) o) (fst (compile_entries T c es)) /\ map e_id (fst (compile_entries T c es)) = map e_id es.
  Proof.
    intros P c. induction es as [|e es IH]; intros H; [split; [constructor|reflexivity]|]. apply Forall_cons_iff in H. destruct H as (He & H).
    destruct (IH H) as (I1 & I2). destruct (entry_compile_made P c e He) as (E1 & E2). cbn [compile_entries].
    destruct (entry_compile T c e) as [e' [u|x]]; cbn [fst] in E1, E2.
    - destruct (compile_entries T c es) as [es' r]. cbn [fst map] in *. split; [constructor; assumption|congruence].
    - cbn [fst map]. split; [constructor; [assumption|]|congruence]. eapply Forall_impl; [|exact H].
      intros a (i & Ei & D). exists i. split; [exact Ei|]. destruct (e_data a); auto.
  Qed.
  Lemma not_dropped_ids : forall k (es es' : list (entry value)), map e_id es = map e_id es' ->
    Forall (fun e => not_dropped k e = true) es -> Forall (fun e => not_dropped k e = true) es'.
  Proof.
    intros k. induction es as [|e es IH]; intros [|e' es'] E F; try discriminate; [constructor|]. cbn [map] in E.
    apply Forall_cons_iff in F. destruct F as (F1 & F). constructor; [|apply IH; [congruence|exact F]].
    unfold not_dropped in *. replace (e_id e') with (e_id e) by congruence. exact F1.
  Qed.
  Lemma read_header : forall fuel v0 file v rest, vfb_read_bytes T fuel v0 file = (v, ROk tt rest) -> exists h, v_header v = HDec h.
  Proof.
    intros fuel v0 file v rest R. unfold vfb_read_bytes, read_stream in R. destruct (parse_header file) as [h r|x r]; [|discriminate]. exists h.
    destruct (v_only_header _); [injection R as <- _; reflexivity|].
    match type of R with read_loop _ _ ?w _ = _ => change (HDec h) with (v_header w); remember w as w0 eqn:Ew; clear Ew end.
    revert w0 r R. induction fuel as [|fuel IH]; intros w r R; [discriminate|]. cbn [read_loop] in R.
    destruct (read_entry (v_ctx w) r) as [e r'|x r'].
    2: { destruct x; try discriminate. injection R as <- _. reflexivity. }
    destruct (e_id e) as [i|]; [|discriminate].
    assert (A : forall e (w : vfb value), v_header (append_entry i e w) = v_header w) by (intros; unfold append_entry; destruct (zmem i _); reflexivity).
    assert (B : forall d (w : vfb value), v_header (remember T i d w) = v_header w) by (intros; unfold remember; destruct (i =? F_FLVersion), (i =? F_MasterCount); reflexivity).
    destruct (is_eager i).
    - destruct (entry_decompile T (v_ctx w) e) as [[e' err] [u|x]]; [|discriminate].
      destruct (e_data e'); apply IH in R; rewrite R, A, ?B; reflexivity.
    - destruct (i =? F_BlockFileDataEnd); [injection R as <- _; apply A|]. apply IH in R. rewrite R. apply A.
  Qed.
  Lemma read_undropped : forall fuel dropk only uni file v rest,
    vfb_read_bytes T fuel (new_vfb dropk only uni) file = (v, ROk tt rest) ->
    v_drop v = dropk /\ Forall (fun e => not_dropped dropk e = true) (v_entries v) /\ exists h, v_header v = HDec h.
  Proof.
    intros fuel dropk only uni file v rest R.
    pose proof (read_drop value T fuel dropk only uni file) as Dr. rewrite R in Dr. cbn [fst] in Dr. split; [exact Dr|].
    split; [|eapply read_header; exact R].
    destruct (vfb_read_bytes T fuel (new_vfb [] only uni) file) as [p op] eqn:Ep.
    destruct (C18_drop_keys value T dropk only uni fuel file p v op _ Ep R) as (_ & _ & _ & _ & _ & Es).
    rewrite Es. apply Forall_forall. intros e I. apply filter_In in I. apply I.
  Qed.
  Lemma save_made : forall fuel only minimal uni no_decompile roundtrip file v, bytes_ok file ->
    no_decompile && roundtrip = false ->
    save_vfb o fuel only minimal uni no_decompile roundtrip file = (v, Ok tt) ->
    Forall (made o) (v_entries v) /\ exists h, v_header v = HDec h.
  Proof.
    intros fuel only minimal uni nd rt file v B N. unfold save_vfb.
    set (k := @nil Z).
    pose proof (read_made fuel (new_vfb k only uni) file B) as M.
    destruct (vfb_read_bytes T fuel (new_vfb k only uni) file) as [v0 [u rest|x rest]] eqn:R; [|discriminate]. destruct u. cbn [fst] in M.
    destruct (read_undropped _ _ _ _ _ _ _ R) as (Dk & Nd & h & Hh). destruct rt.
    - destruct nd; [discriminate|]. destruct (vfb_decompile T v0) as [v1 [u|x]] eqn:D1; [|discriminate]. destruct u.
      pose proof (vfb_decompile_made _ _ _ M D1) as M1. destruct (vfb_decompile_drop _ _ D1) as (K1 & F1 & _ & H1).
      specialize (H1 ltac:(congruence)).
      assert (N1 : Forall (fun e => not_dropped k e = true) (v_entries v1)).
      { eapply not_dropped_ids; [|exact Nd]. clear - D1. unfold vfb_decompile in D1. destruct (header_decompile _); [|discriminate].
        cbn [v_ctx v_drop v_entries with_header with_errors] in D1.
        destruct (decompile_entries T (v_ctx v0) (v_drop v0) (v_entries v0)) as [[es err] r] eqn:E. injection D1 as <- ->. cbn [v_entries with_errors with_entries].
        revert es err E. induction (v_entries v0) as [|e l IH]; intros es err E; cbn [decompile_entries] in E; [injection E as <- _; reflexivity|].
        destruct (match e_id e with Some _ => _ | None => _ end).
        - destruct (decompile_entries T (v_ctx v0) (v_drop v0) l) as [[es' err'] r] eqn:E'. injection E as <- _ ->. cbn [map]. f_equal. eapply IH. reflexivity.
        - assert (X : e_id (fst (fst (entry_decompile T (v_ctx v0) e))) = e_id e).
          { unfold entry_decompile. destruct (e_id e) eqn:Ei; [|exact Ei]. destruct (e_data e); try exact Ei. destruct (cd_parse T z (v_ctx v0) b); exact Ei. }
          destruct (entry_decompile T (v_ctx v0) e) as [[e' err1] [u|x]]; [|discriminate]. cbn [fst] in X.
          destruct (decompile_entries T (v_ctx v0) (v_drop v0) l) as [[es' err'] r] eqn:E'. injection E as <- _ ->. cbn [map]. rewrite X. f_equal. eapply IH. reflexivity. }
      unfold vfb_compile. destruct (header_compile (v_header v1)) as [hc|x] eqn:Hc; [|discriminate].
      cbn [v_ctx v_entries with_header]. destruct (compile_entries_made _ (v_ctx v1) _ M1) as (M2 & I2).
      destruct (compile_entries T (v_ctx v1) (v_entries v1)) as [es2 [u|x]]; [|discriminate]. cbn [fst] in M2, I2. intros D2.
      assert (M2' : Forall (made_ (fun _ => True) o) (v_entries (with_entries es2 (with_header hc v1)))) by exact M2.
      pose proof (vfb_decompile_made _ _ _ M2' D2) as M3. destruct (vfb_decompile_drop _ _ D2) as (K3 & F3 & G3 & H3).
      cbn [v_drop with_entries with_header v_entries v_header] in F3, H3. rewrite K1, Dk in F3. split.
      + eapply decoded_made; [exact M3|]. apply F3. eapply not_dropped_ids; [|exact N1]. congruence.
      + specialize (H3 ltac:(intros ->; destruct (v_header v1); try discriminate Hc; unfold header_compile in Hc; destruct (compile_header h0); discriminate)).
        destruct (v_header v) as [b|hh|]; [destruct (G3 b eq_refl)|eexists; reflexivity|congruence].
    - destruct nd.
      + intros E. injection E as <-. split; [exact M|]. exists h. exact Hh.
      + intros D. split; [eapply vfb_decompile_made; eassumption|]. destruct (vfb_decompile_drop _ _ D) as (_ & _ & G & H).
        specialize (H ltac:(congruence)). destruct (v_header v) as [b|hh|]; [destruct (G b eq_refl)|eexists; reflexivity|congruence].
  Qed.
End vfb.

(** ** What the tree says *)
Section tree.
  Variable number : fval -> option pystr.
  Hypothesis NO : numbers_ok number.
  Notation shown := (shown number).
  Notation finite := (finite number).
  Lemma entry_tree : forall o e e' t t', made o e -> made o e' ->
    entry_py (entry_as_dict (key_of o) JData e) t -> entry_py (entry_as_dict (key_of o) JData e') t' ->
    shown t = shown t' -> finite t = true -> e_id e = e_id e' /\ e_data e = e_data e'.
  Proof.
    intros o e e' t t' (i & Ei & De) (i' & Ei' & De') V V' E F. unfold entry_as_dict in V, V'. rewrite Ei, Ei' in *.
    assert (K : key_of o i = key_of o i').
    { destruct (e_data e), (e_data e'); destruct V as (x & _ & ->), V' as (x' & _ & ->); cbn [S_Dump.shown map fst snd] in E; congruence. }
    apply C60_names in K. subst i'. split; [reflexivity|].
    destruct (e_data e) as [b|d|], (e_data e') as [b'|d'|]; try contradiction; destruct V as (x & J & ->), V' as (x' & J' & ->); cbn [json_py] in J, J';
      cbn [opt app] in E, F;
      try match type of E with shown (PDict [_; ?a; _]) = shown (PDict [_; _]) => exfalso; cbn [S_Dump.shown map] in E; apply JsDict_eq in E; congruence end;
      try match type of E with shown (PDict [_; _]) = shown (PDict [_; ?a; _]) => exfalso; cbn [S_Dump.shown map] in E; apply JsDict_eq in E; congruence end.
    - subst x x'. cbn [S_Dump.shown map fst snd] in E. f_equal. apply hexStr_inj; [exact De|exact De'|]. congruence.
    - assert (Ex : shown x = shown x').
      { change (JsDict [(py "key", JsStr (key_of o i)); (py "decompiled", shown x)] = JsDict [(py "key", JsStr (key_of o i)); (py "decompiled", shown x')]) in E. congruence. }
      assert (Fx : finite x = true) by (cbn [S_Dump.finite forallb snd] in F; rewrite !andb_true_iff in F; tauto).
      destruct De as (c & b & P), De' as (c' & b' & P'). f_equal. destruct NO as (_ & N1 & N2).
      eapply (value_inj number N1 N2); [exact J|exact J'| |exact Ex|exact Fx]. eapply table_tag; eassumption.
  Qed.
End tree.
