(** Proofs for the tool vfb2ufo. *)
From Coq Require Import String QArith ZifyBool ZifyNat.
From Verif Require Import Base Lib M_Py M_Text M_Tth M_Glyph M_Container M_Table M_Groups M_Tth M_Info M_FontInfo M_Designspace M_Builder M_Master M_Features M_Build M_Labels M_PsHints M_Paths M_Guides M_Export M_Ufo M_Document M_Tools M_Vfb2ufo.
From Verif Require Import S_File S_Build S_Tools S_Vfb2ufo P_Ufo P_Ufo2 P_Tools P_JsonFile Prop_Container Prop_Cu2qu.
Local Open Scope list_scope.
Local Open Scope Z_scope.

Lemma suffix_is : forall a, ufo_suffix (a_json a) (out_of a) = if a_json a then py ".json" else if a_zip a then py ".ufoz" else py ".ufo".
Proof. intros a. unfold ufo_suffix, out_of, vfb2ufo_out. destruct (a_json a), (a_zip a), (a_folder a); reflexivity. Qed.
Lemma suffix_not : forall a, ufo_suffix (a_json a) (out_of a) <> py ".designspace".
Proof. intros a. rewrite suffix_is. destruct (a_json a), (a_zip a); discriminate. Qed.
Lemma ufo_named : forall a i, ufo_file (out_of a) (ufo_suffix (a_json a) (out_of a)) i = ufo_name a i.
Proof.
  intros a i. rewrite suffix_is. unfold ufo_file, ufo_name, out_name, out_folder, out_of, vfb2ufo_out. destruct (a_folder a); reflexivity.
Qed.
Lemma design_named : forall a, ds_file (out_of a) = design_name a.
Proof. intros a. unfold ds_file, design_name, out_name, out_folder, out_of, vfb2ufo_out. destruct (a_folder a); reflexivity. Qed.
Lemma target_among : forall C a (ufos : list C) ds p, target (a_json a) (out_of a) ufos ds p <->
  among a (List.length ufos) (match ds with Some _ => true | None => false end) p.
Proof.
  intros C a ufos ds p. unfold target, among. rewrite design_named. split; intros [(i & I & E)|(D & E)].
  - left. exists i. rewrite <- ufo_named. auto.
  - right. destruct ds; [auto|congruence].
  - left. exists i. rewrite ufo_named. auto.
  - right. destruct ds; [split; [discriminate|exact E]|discriminate].
Qed.

(** the entries that are dropped play no part *)
Lemma decompile_filter : forall D (T : codecs D) c dropk es es' err,
  decompile_entries T c [] es = (es', err, Ok tt) ->
  exists err', decompile_entries T c dropk (filter (not_dropped dropk) es) = (filter (not_dropped dropk) es', err', Ok tt).
Proof.
  intros D T c dropk. induction es as [|e es IH]; intros es' err H; cbn [decompile_entries] in H.
  - injection H as <- <-. eexists. reflexivity.
  - destruct (match e_id e with Some i => zmem i [] | None => false end) eqn:Z; [destruct (e_id e); discriminate Z|]. clear Z.
    destruct (entry_decompile T c e) as [[e1 err1] o1] eqn:E. destruct o1; [|discriminate].
    destruct (decompile_entries T c [] es) as [[es2 err2] o2] eqn:E2. injection H as <- <- ->.
    destruct (IH _ _ eq_refl) as (err' & X). cbn [filter].
    assert (I : not_dropped dropk e1 = not_dropped dropk e).
    { unfold entry_decompile in E. unfold not_dropped. destruct (e_id e) as [i|] eqn:Ei; [|discriminate].
      destruct (e_data e); [|injection E as <- <-; rewrite Ei; reflexivity|discriminate].
      destruct (cd_parse T i c b); [|discriminate]. injection E as <- <-. cbn [set_data e_id]. rewrite Ei. reflexivity. }
    rewrite I. destruct (not_dropped dropk e) eqn:N; [|exists err'; exact X].
    exists (err1 || err'). cbn [decompile_entries].
    replace (match e_id e with Some i => zmem i dropk | None => false end) with false.
    2:{ unfold not_dropped in N. destruct (e_id e); [|reflexivity]. unfold zmem. destruct (existsb _ _); [discriminate|reflexivity]. }
    rewrite E, X. destruct a. reflexivity.
Qed.
Lemma entries_filter : forall dropk es, entries_of (filter (not_dropped dropk) es) = filter (fun p => negb (existsb (Z.eqb (fst p)) dropk)) (entries_of es).
Proof.
  intros dropk. induction es as [|e es IH]; [reflexivity|]. cbn [filter]. unfold not_dropped at 1. destruct (e_id e) as [i|] eqn:E.
  - assert (X : entries_of (e :: es) = (i, match e_data e with Dec d => Some d | _ => None end) :: entries_of es).
    { unfold entries_of. cbn [flat_map]. rewrite E. reflexivity. }
    rewrite X. cbn [filter fst]. destruct (existsb (Z.eqb i) dropk) eqn:N; cbn [negb].
    + exact IH.
    + rewrite <- IH. unfold entries_of. cbn [flat_map]. rewrite E. reflexivity.
  - unfold entries_of at 2. cbn [flat_map]. rewrite E. cbn [app]. fold (entries_of es). rewrite <- IH.
    unfold entries_of. cbn [flat_map]. rewrite E. reflexivity.
Qed.
Lemma build_without : forall c es s, res_fold (build_step c) s (filter (fun p => negb (existsb (Z.eqb (fst p)) dropped_keys)) es) = res_fold (build_step c) s es.
Proof.
  intros c. induction es as [|[k d] es IH]; intros s; [reflexivity|]. cbn [filter fst].
  destruct (existsb (Z.eqb k) dropped_keys) eqn:N; cbn [negb].
  - rewrite IH. cbn [res_fold]. unfold build_step at 2.
    assert (X : existsb (Z.eqb k) (skip_keys c) = true).
    { unfold skip_keys. cbn [dropped_keys existsb app] in *. destruct (k =? 1500); [reflexivity|]. destruct (k =? 1501); [reflexivity|discriminate]. }
    rewrite X. reflexivity.
  - cbn [res_fold]. destruct (build_step c s (k, d)); [|reflexivity]. cbn [rthen]. apply IH.
Qed.
Lemma exported_plain : forall L fuel a file v0 rest v,
  vfb_read_bytes (table (l_oracles L)) fuel (new_vfb [] false (a_unicode a)) file = (v0, ROk tt rest) ->
  vfb_decompile (table (l_oracles L)) v0 = (v, Ok tt) ->
  exported L fuel a file = rmap (fun p => (map (FUfo (form_of a)) (fst p), option_map FDesign (snd p)))
    (vfb_to_document (settings_of L a) (options_of L a) (a_json a) (out_of a) (entries_of (v_entries v))).
Proof.
  intros L fuel a file v0 rest v R D. unfold exported.
  destruct (vfb_read_bytes _ fuel (new_vfb dropped_keys false (a_unicode a)) file) as [w0 o] eqn:Rw.
  destruct (C18_drop_keys _ _ _ _ _ _ _ _ _ _ _ R Rw) as (<- & Ec & Eh & _ & _ & Ee).
  destruct (read_undropped _ _ _ _ _ _ _ _ Rw) as (Kw & _ & _).
  destruct (read_undropped _ _ _ _ _ _ _ _ R) as (Kv & _ & _).
  unfold vfb_decompile in *. cbn [v_header with_errors] in *. rewrite Eh.
  destruct (header_decompile (v_header v0)) as [h|]; [|discriminate].
  cbn [v_ctx v_drop v_entries with_header with_errors] in *. rewrite Kv in D. rewrite Kw, Ec, Ee.
  destruct (decompile_entries _ (v_ctx v0) [] (v_entries v0)) as [[es err] o] eqn:E. injection D as <- ->.
  destruct (decompile_filter _ _ _ dropped_keys _ _ _ E) as (err' & ->). cbn [v_entries with_errors with_entries].
  f_equal. rewrite entries_filter. unfold vfb_to_document, build_font. now rewrite build_without.
Qed.

(** writing *)
Lemma write_ufos_free : forall C json out (ufos : list C) i fs,
  (forall j, (j < List.length ufos)%nat -> content fs (ufo_file out (ufo_suffix json out) (i + j)) = None) ->
  snd (write_ufos json false (out_path_of json out) (Z.of_nat i) ufos fs) = Done.
Proof.
  intros C json out. induction ufos as [|u ufos IH]; intros i fs F; cbn [write_ufos]; [reflexivity|].
  rewrite out_text. replace (Z.of_nat i + 1) with (Z.of_nat (S i)) by lia.
  assert (K : snd (write_ufos json false (out_path_of json out) (Z.of_nat (S i)) ufos (aset str_eqb (ufo_file out (ufo_suffix json out) i) u fs)) = Done).
  { apply IH. intros j J. rewrite get_set_other; [|intros E; apply ufo_file_inj in E; lia]. rewrite Nat.add_succ_comm. apply F. cbn [List.length]. lia. }
  destruct json; [exact K|]. unfold save_ufo. rewrite out_text.
  specialize (F O). cbn [List.length] in F. rewrite Nat.add_0_r in F. specialize (F ltac:(lia)). unfold content in F. rewrite F. exact K.
Qed.
Lemma write_free : forall C json (ufos : list C) ds out fs, ufo_suffix json out <> py ".designspace" ->
  (forall p, target json out ufos ds p -> content fs p = None) ->
  snd (builder_write json false (Ok (ufos, ds)) out fs) = Done.
Proof.
  intros C json ufos ds out fs NS F. unfold builder_write.
  assert (D : snd (write_ufos json false (out_path_of json out) (Z.of_nat 0) ufos fs) = Done).
  { apply write_ufos_free. intros j J. apply F. left. exists j. auto. }
  change (Z.of_nat 0) with 0 in D. destruct (write_ufos json false (out_path_of json out) 0 ufos fs) as [fs1 o] eqn:E. cbn [snd] in D. subst o.
  change 0 with (Z.of_nat 0) in E. apply write_ufos_done in E. destruct E as (_ & E2 & _). cbn [Nat.add] in E2.
  unfold write_designspace. destruct ds as [d|]; [|reflexivity]. rewrite ds_text.
  assert (X : content fs1 (ds_file out) = None).
  { rewrite E2; [apply F; right; split; [discriminate|reflexivity]|]. intros j _ X. symmetry in X. revert X. apply ufo_not_ds. exact NS. }
  unfold content in X. rewrite X. reflexivity.
Qed.
Lemma write_ufos_other : forall C json ov out (ufos : list C) i fs p,
  (forall j, (j < List.length ufos)%nat -> p <> ufo_file out (ufo_suffix json out) (i + j)) ->
  content (fst (write_ufos json ov (out_path_of json out) (Z.of_nat i) ufos fs)) p = content fs p.
Proof.
  intros C json ov out. induction ufos as [|u ufos IH]; intros i fs p N; cbn [write_ufos]; [reflexivity|].
  rewrite out_text. replace (Z.of_nat i + 1) with (Z.of_nat (S i)) by lia.
  assert (N0 : p <> ufo_file out (ufo_suffix json out) i). { specialize (N O). cbn [List.length] in N. rewrite Nat.add_0_r in N. apply N. lia. }
  assert (K : content (fst (write_ufos json ov (out_path_of json out) (Z.of_nat (S i)) ufos (aset str_eqb (ufo_file out (ufo_suffix json out) i) u fs))) p = content fs p).
  { rewrite IH; [now apply get_set_other|]. intros j J. rewrite Nat.add_succ_comm. apply N. cbn [List.length]. lia. }
  destruct json; [exact K|]. unfold save_ufo. rewrite out_text. destruct (aget str_eqb _ fs); [destruct ov|]; [exact K|reflexivity|exact K].
Qed.
Lemma write_other : forall C json ov (ufos : list C) ds out fs p, ~ target json out ufos ds p ->
  content (fst (builder_write json ov (Ok (ufos, ds)) out fs)) p = content fs p.
Proof.
  intros C json ov ufos ds out fs p N. unfold builder_write.
  assert (K : content (fst (write_ufos json ov (out_path_of json out) (Z.of_nat 0) ufos fs)) p = content fs p).
  { apply write_ufos_other. intros j J E. apply N. left. exists j. auto. }
  change (Z.of_nat 0) with 0 in K. destruct (write_ufos json ov (out_path_of json out) 0 ufos fs) as [fs1 o]. cbn [fst] in K.
  destruct o; try exact K. unfold write_designspace. destruct ds as [d|]; [|exact K]. rewrite ds_text.
  assert (Np : p <> ds_file out) by (intros E; apply N; right; split; [discriminate|exact E]).
  destruct (aget str_eqb _ fs1); [destruct ov|]; cbn [fst]; rewrite ?get_set_other by exact Np; exact K.
Qed.

(** the sources of the document *)
Lemma masters_length : forall c o s us, get_ufo_masters c o s = Ok us -> List.length (bs_masters (fo_glyphs s)) = List.length us.
Proof.
  intros c o s us H. unfold get_ufo_masters in H. destruct (tt_glyph_lib _ _ _ _ _) as [t|]; [|discriminate]. cbn [rthen] in H.
  destruct (transform_groups _ _ _ _) as [tg|]; [|discriminate]. cbn [rthen] in H. destruct (export_shared _ _ _ _ _ _ _ _) as [sh|]; [|discriminate]. cbn [rthen] in H.
  change 0 with (Z.of_nat 0) in H. destruct (masters_nth _ _ _ _ _ _ _ _ _ _ H) as [L _]. now rewrite L.
Qed.
Lemma res_map_nth : forall A B (f : A -> res B) l l' i y, res_map f l = Ok l' -> nth_error l' i = Some y ->
  exists x, nth_error l i = Some x /\ f x = Ok y.
Proof.
  intros A B f. induction l as [|x l IH]; intros l' i y H N; cbn [res_map] in H.
  - apply Ok_inj in H. subst l'. destruct i; discriminate.
  - destruct (f x) as [z|] eqn:E; [|discriminate]. cbn [rthen] in H. destruct (res_map f l) as [r|] eqn:R; [|discriminate].
    cbn [rmap] in H. apply Ok_inj in H. subst l'. destruct i as [|i]; cbn [nth_error] in *; [injection N as <-; exists x; auto|].
    apply (IH _ _ _ eq_refl N).
Qed.
Lemma sources_numbered : forall c o json out es us d i s, vfb_to_document c o json out es = Ok (us, Some d) ->
  nth_error (ds_sources d) i = Some s -> (i < List.length us)%nat /\ so_filename s = ufo_file out (ufo_suffix json out) i.
Proof.
  intros c o json out es us d i s H N. unfold vfb_to_document in H. destruct (build_font c es) as [f|]; [|discriminate]. cbn [rthen] in H.
  unfold get_ufos_designspace in H. destruct (get_ufo_masters c o f) as [us'|] eqn:M; [|discriminate]. cbn [rthen] in H.
  apply masters_length in M. destruct us' as [|u us']; [discriminate|]. destruct (written_designspace _ _ _ _) as [w|] eqn:W; [|discriminate].
  cbn [rmap] in H. apply Ok_inj in H. injection H as <- ->. rewrite <- M.
  unfold written_designspace in W. destruct (b_axes _); [discriminate|].
  destruct (get_designspace _ _ _) as [d'|] eqn:G; [|discriminate]. cbn [rmap] in W. apply Ok_inj in W. injection W as ->.
  unfold get_designspace in G. destruct (if _ =? 1 then _ else _) as [axes|]; [|discriminate]. cbn [rthen] in G.
  destruct (b_num_masters _) as [n|]; [|discriminate]. cbn [rthen] in G. destruct (res_map _ (zrange n)) as [sources|] eqn:S; [|discriminate]. cbn [rthen] in G.
  destruct (res_map (get_instance _ _) _); [|discriminate]. cbn [rmap] in G. apply Ok_inj in G. subst d. cbn [ds_sources] in N.
  destruct (res_map_nth _ _ _ _ _ _ _ S N) as (x & X & E). unfold zrange in X. rewrite nth_error_map in X.
  destruct (nth_error (seq 0 (Z.to_nat n)) i) as [j|] eqn:J; [|discriminate]. cbn [option_map] in X. injection X as <-.
  pose proof (nth_error_nth _ _ O J) as J'. assert (Li : (i < List.length (seq 0 (Z.to_nat n)))%nat) by (apply nth_error_Some; congruence).
  rewrite seq_length in Li. rewrite seq_nth in J' by exact Li. cbn [Nat.add] in J'. subst j.
  unfold get_source in E. destruct (aget_res _ _ _); [|discriminate]. cbn [rthen] in E. destruct (get_ds_location _ _ _); [|discriminate]. cbn [rthen] in E.
  destruct (py_index _ _) as [nm|] eqn:P; [|discriminate]. cbn [rmap] in E. apply Ok_inj in E. subst s. cbn [so_filename]. split; [|apply out_text].
  unfold py_index, ds_data_of in P. cbn [b_masters] in P. cbv zeta in P. rewrite (proj2 (Z.ltb_ge (Z.of_nat i) 0)) in P by lia.
  destruct ((Z.of_nat i <? 0) || (Z.of_nat (List.length (bs_masters (fo_glyphs f))) <=? Z.of_nat i)) eqn:Q; [discriminate|]. lia.
Qed.

(** a file that is not written plays no part *)
Definition agree {C} (q : pystr) (fs fs' : files C) : Prop := forall p, p <> q -> content fs p = content fs' p.
Lemma agree_set : forall C q k (v : C) fs fs', agree q fs fs' -> agree q (aset str_eqb k v fs) (aset str_eqb k v fs').
Proof.
  intros C q k v fs fs' A p N. destruct (str_eqb p k) eqn:E.
  - apply str_eqb_eq in E. subst p. now rewrite !get_set_same.
  - rewrite !get_set_other; [now apply A| |]; intros ->; rewrite str_eqb_refl in E; discriminate.
Qed.
Lemma write_ufos_agree : forall C json ov out q (ufos : list C) i fs fs', agree q fs fs' ->
  (forall j, q <> ufo_file out (ufo_suffix json out) j) ->
  snd (write_ufos json ov (out_path_of json out) (Z.of_nat i) ufos fs) = snd (write_ufos json ov (out_path_of json out) (Z.of_nat i) ufos fs') /\
  agree q (fst (write_ufos json ov (out_path_of json out) (Z.of_nat i) ufos fs)) (fst (write_ufos json ov (out_path_of json out) (Z.of_nat i) ufos fs')).
Proof.
  intros C json ov out q. induction ufos as [|u ufos IH]; intros i fs fs' A N; cbn [write_ufos]; [split; [reflexivity|exact A]|].
  rewrite out_text. replace (Z.of_nat i + 1) with (Z.of_nat (S i)) by lia.
  pose proof (IH (S i) _ _ (agree_set _ _ (ufo_file out (ufo_suffix json out) i) u _ _ A) N) as K.
  destruct json; [exact K|]. unfold save_ufo. rewrite out_text.
  pose proof (A (ufo_file out (ufo_suffix false out) i) (fun E => N i (eq_sym E))) as X. unfold content in X. rewrite X.
  destruct (aget str_eqb _ fs'); [destruct ov|]; [exact K|split; [reflexivity|exact A]|exact K].
Qed.
Lemma write_agree : forall C json ov (built : res (list C * option C)) out q fs fs', agree q fs fs' ->
  (forall j, q <> ufo_file out (ufo_suffix json out) j) -> q <> ds_file out ->
  snd (builder_write json ov built out fs) = snd (builder_write json ov built out fs') /\
  agree q (fst (builder_write json ov built out fs)) (fst (builder_write json ov built out fs')).
Proof.
  intros C json ov built out q fs fs' A N D. unfold builder_write. destruct built as [[ufos ds]|e]; [|split; [reflexivity|exact A]].
  destruct (write_ufos_agree C json ov out q ufos 0 fs fs' A N) as [W1 W2]. change (Z.of_nat 0) with 0 in W1, W2.
  destruct (write_ufos json ov (out_path_of json out) 0 ufos fs) as [g o], (write_ufos json ov (out_path_of json out) 0 ufos fs') as [g' o'].
  cbn [fst snd] in W1, W2. subst o'. destruct o; try (split; [reflexivity|exact W2]).
  unfold write_designspace. destruct ds as [d|]; [|split; [reflexivity|exact W2]]. rewrite ds_text.
  pose proof (W2 (ds_file out) (fun E => D (eq_sym E))) as X. unfold content in X. rewrite X.
  destruct (aget str_eqb _ g'); [destruct ov|]; (split; [reflexivity|]); try exact W2; apply agree_set; exact W2.
Qed.
(** what is exported is determined by the entries that are not dropped *)
Lemma decompile_context : forall D (T : codecs D) v v' h h', v_header v = HDec h -> v_header v' = HDec h' -> v_ctx v = v_ctx v' -> v_drop v = v_drop v' -> v_entries v = v_entries v' ->
  snd (vfb_decompile T v) = snd (vfb_decompile T v') /\ v_entries (fst (vfb_decompile T v)) = v_entries (fst (vfb_decompile T v')).
Proof.
  intros D T v v' h h' H H' Ec Ed Ee. unfold vfb_decompile. cbn [v_header with_errors]. rewrite H, H'. cbn [header_decompile v_ctx v_drop v_entries with_errors with_header].
  rewrite Ec, Ed, Ee. destruct (decompile_entries T (v_ctx v') (v_drop v') (v_entries v')) as [[es err] o]. split; reflexivity.
Qed.
Lemma exported_others : forall L fuel a file file' v0 v0' rest rest',
  vfb_read_bytes (table (l_oracles L)) fuel (new_vfb [] false (a_unicode a)) file = (v0, ROk tt rest) ->
  vfb_read_bytes (table (l_oracles L)) fuel (new_vfb [] false (a_unicode a)) file' = (v0', ROk tt rest') ->
  v_ctx v0 = v_ctx v0' -> filter (not_dropped dropped_keys) (v_entries v0) = filter (not_dropped dropped_keys) (v_entries v0') ->
  exported L fuel a file = exported L fuel a file'.
Proof.
  intros L fuel a file file' v0 v0' rest rest' R R' Ec Ee. unfold exported.
  destruct (vfb_read_bytes _ fuel (new_vfb dropped_keys false (a_unicode a)) file) as [w o] eqn:Rw.
  destruct (vfb_read_bytes _ fuel (new_vfb dropped_keys false (a_unicode a)) file') as [w' o'] eqn:Rw'.
  destruct (C18_drop_keys _ _ _ _ _ _ _ _ _ _ _ R Rw) as (<- & C1 & _ & _ & _ & E1).
  destruct (C18_drop_keys _ _ _ _ _ _ _ _ _ _ _ R' Rw') as (<- & C2 & _ & _ & _ & E2).
  destruct (read_undropped _ _ _ _ _ _ _ _ Rw) as (K1 & _ & h & H1). destruct (read_undropped _ _ _ _ _ _ _ _ Rw') as (K2 & _ & h' & H2).
  destruct (decompile_context _ (table (l_oracles L)) w w' h h' H1 H2) as [X1 X2]; [congruence..|].
  destruct (vfb_decompile _ w) as [x ox], (vfb_decompile _ w') as [x' ox']. cbn [fst snd] in X1, X2. subst ox'. rewrite X2. reflexivity.
Qed.
