(** C96: the designspace document that a VFB is exported to. *)
From Coq Require Import String QArith ZifyBool ZifyNat.
From Verif Require Import Base Lib M_Py M_Helpers M_Simple M_Text M_TrueType M_Bitmap M_Glyph M_Options M_Container M_Table M_Groups M_Info M_FontInfo M_Tth M_Designspace M_Builder M_Master M_Features M_Build M_Labels M_PsHints M_Paths M_Guides M_Export M_Ufo M_Document.
From Verif Require Import S_Builder S_Designspace S_Info S_FontInfo S_Build S_Document P_Builder P_Build P_Designspace P_Document P_Ufo P_Ufo2 Prop_FontInfo Prop_Builder Prop_Designspace Prop_Build Prop_Ufo.
Local Open Scope list_scope.
Local Open Scope Z_scope.

Lemma masters_made : forall c o es us s, Forall typed es -> build_font c es = Ok s -> get_ufo_masters c o s = Ok us ->
  let l := used (st_vfb_minimal c) es in
  List.length (bs_masters (fo_glyphs s)) = List.length us /\
  exists more, bs_masters (fo_glyphs s) = master_names l ++ more.
Proof.
  intros c o es us s T B H l. split.
  - unfold get_ufo_masters in H. destruct (tt_glyph_lib _ _ _ _ _) as [t|]; [|discriminate]. cbn [rthen] in H.
    destruct (transform_groups _ _ _ _) as [tg|]; [|discriminate]. cbn [rthen] in H. destruct (export_shared _ _ _ _ _ _ _ _) as [sh|]; [|discriminate]. cbn [rthen] in H.
    change 0 with (Z.of_nat 0) in H. destruct (masters_nth _ _ _ _ _ _ _ _ _ _ H) as [L _]. now rewrite L.
  - destruct (C85_parts c es s T B) as [_ _ M _ _ _ _ _ _ _ _ _ _]. destruct (build_masters _ _ _ M) as [E _]. cbv zeta in E. rewrite E.
    eexists. apply (f_equal (fun q => q ++ _)). fold l. generalize (@None (list pystr * list pystr)). clear. induction l as [|[k d] l IH]; intros z; [reflexivity|].
    cbn [glyph_parts]. unfold entry_names, master_names, texts_said in *. rewrite map_app, concat_app. cbn [flat_map]. rewrite IH. f_equal.
    cbn [fst snd]. destruct (Z.eqb_spec k 1504) as [->|N]; [destruct d; reflexivity|].
    unfold glyph_part. destruct k as [|p|p]; try reflexivity. by_keys; destruct d; try reflexivity.
    + destruct (build_mm_glyph _ _ _) as [[? ?]|]; reflexivity.
    + destruct (gd_anchors x); reflexivity.
Qed.
Lemma tag_is : forall upper n, tag_shown upper n (axis_tag upper n).
Proof.
  intros upper n. unfold tag_shown, axis_tag, axis_tags. cbn [aget].
  destruct (str_eqb n (py "Weight")) eqn:E1; [apply str_eqb_eq in E1; auto|].
  destruct (str_eqb n (py "Width")) eqn:E2; [apply str_eqb_eq in E2; auto|].
  destruct (str_eqb n (py "Optical Size")) eqn:E3; [apply str_eqb_eq in E3; auto|].
  destruct (str_eqb n (py "Serif")) eqn:E4; [apply str_eqb_eq in E4; auto 10|].
  right. right. right. right. split; [|reflexivity]. cbn [In].
  assert (R : forall m, str_eqb n m = false -> m <> n) by (intros m R K; apply eq_sym, str_eqb_eq in K; congruence).
  intros [K|[K|[K|[K|[]]]]]; revert K; now apply R.
Qed.
Lemma last_map : forall A B (f : A -> B) l d, last_or (f d) (map f l) = f (last_or d l).
Proof. intros A B f. induction l as [|x l IH]; intros d; [reflexivity|]. cbn [map]. rewrite !last_cons. apply IH. Qed.
(** The document of a file with axes: it has the masters, instances and axes of the file. *)
Theorem C96_document : forall c o json out es us, Forall typed es -> vfb_to_ufos c o es = Ok us -> us <> [] ->
  let l := used (st_vfb_minimal c) es in design_complete l (List.length us) ->
  exists d family, vfb_to_document c o json out es = Ok (us, Some d) /\
    document_shown c l (List.length us) family json out d /\
    (forall name, Forall entry_data_ok (flat_map info_part l) -> name <> [] ->
       text_said (flat_map info_part l) 1024 name -> family = name) /\
    (forall style, Forall entry_data_ok (flat_map info_part l) ->
       says false (flat_map info_part l) (py "styleMapStyleName") (Some (IStr style)) ->
       Forall (fun i => in_map_style i = style) (ds_instances d)).
Proof.
  intros c o json out es us T H NE l (D1 & D2 & D3 & D4 & D5 & D6). unfold vfb_to_ufos in H.
  destruct (build_font c es) as [s|] eqn:B; [|discriminate]. cbn [rthen] in H.
  destruct (masters_made c o es us s T B H) as (M1 & more & M2). cbv zeta in M2. fold l in M2.
  destruct (C85_parts c es s T B) as [I _ _ _ _ _ _ _ _ _ _ Fd _]. fold l in I, Fd. apply design_fold in Fd.
  destruct Fd as [Fc Fm Fi _ Fl Fs _]. cbn [de_count de_masters de_instances de_locations de_axes] in *.
  assert (Nm : map ax_name (de_axes (fo_design s)) = axis_names l).
  { assert (X := f_equal (map (fun x => fst (fst x))) Fs). cbn [map app] in X. rewrite !map_map in X. cbn [shape new_shape fst] in X. rewrite map_id in X. exact X. }
  assert (Len : List.length (de_axes (fo_design s)) = List.length (axis_names l)) by (rewrite <- Nm; symmetry; apply map_length).
  assert (Loc : forall i, aget Z.eqb i (de_locations (fo_design s)) = option_map (map NBits) (location_said l i)).
  { intros i. rewrite Fl. cbn [aget]. unfold location_said. rewrite <- (last_map _ _ (option_map (map NBits)) _ None), map_map. reflexivity. }
  assert (Ins : de_instances (fo_design s) = map instance_data (instances_said l)).
  { rewrite Fi. apply (last_map _ _ (map instance_data) _ []). }
  destruct (C68_designspace num (st_ops c) (ds_data_of s) json out) as (d & W & Ws & Wn & Wst & Wi & Win & Wa & a & a' & rest & labels & A1 & A2 & A3 & A4 & A5);
    unfold ds_data_of in *; cbn [b_axes b_num_masters b_masters b_locations b_instances b_family b_axis_count b_map_style] in *.
  { intros E. rewrite E in Nm. cbn in Nm. congruence. }
  { unfold names_ok. rewrite Nm. now split. }
  { rewrite Fm, M1. exact D4. }
  { rewrite M1, Len. intros i R. destruct (D5 i R) as (loc & L1 & L2). exists (map NBits loc). rewrite Loc, L1. split; [reflexivity|]. now rewrite map_length. }
  { rewrite Ins, Len, Forall_map. eapply Forall_impl; [|exact D6]. intros p P. cbn. now rewrite map_length. }
  exists d, (ds_family_name (fo_info s)). split; [|split; [|split]].
  - unfold vfb_to_document. rewrite B. cbn [rthen]. unfold get_ufos_designspace. rewrite H. cbn [rthen]. destruct us as [|u us]; [congruence|].
    unfold ds_data_of. rewrite W. reflexivity.
  - assert (Lu : List.length (ds_sources d) = List.length us).
    { rewrite <- M1. apply (f_equal (@List.length _)) in Ws. rewrite !map_length in Ws. rewrite Ws. unfold ufo_paths, zrange.
      cbn [b_masters]. now rewrite !map_length, seq_length, Nat2Z.id. }
    assert (Ax : map ax_name (ds_axes d) = axis_names l).
    { rewrite <- Nm. clear - Wa. induction Wa as [|x y l l' (_ & S & _)]; [reflexivity|]. cbn [map]. now rewrite S, IHWa. }
    constructor.
    + exact Lu.
    + intros i x Hx. destruct (Wn i x Hx) as (name & loc & N1 & N2 & N3 & N4 & N5). rewrite Loc in N2.
      destruct (location_said l (Z.of_nat i + 1)) as [lo|] eqn:El; [|discriminate]. injection N2 as <-.
      split; [|split; [exact N3|split]].
      * apply (f_equal (fun q => nth_error q i)) in Ws. rewrite (map_nth_error _ _ _ Hx) in Ws. unfold ufo_paths in Ws. cbn [b_masters] in Ws.
        assert (R : (i < List.length us)%nat) by (rewrite <- Lu; apply nth_error_Some; congruence).
        assert (Z1 : nth_error (zrange (Z.of_nat (List.length (bs_masters (fo_glyphs s))))) i = Some (Z.of_nat i)).
        { unfold zrange. rewrite Nat2Z.id, M1. apply map_nth_error. rewrite (nth_error_nth' _ 0%nat) by (rewrite seq_length; lia). now rewrite seq_nth by lia. }
        rewrite (map_nth_error _ _ _ (map_nth_error _ _ _ Z1)) in Ws. injection Ws as ->. f_equal.
        unfold get_master_path, ufo_path, out_path_of, with_suffix. destruct i as [|i]; [cbn; destruct json, out; cbn; rewrite ?app_nil_r; reflexivity|].
        replace (0 <? Z.of_nat (Datatypes.S i)) with true by lia. destruct json; reflexivity.
      * intros nm Hn. rewrite M2 in N1. rewrite nth_error_app1 in N1 by (apply nth_error_Some; congruence). congruence.
      * exists lo. split; [exact El|]. rewrite N5. unfold location. now rewrite Nm, map_map.
    + match type of Wi with Forall2 (instance_of ?x) _ _ => set (b := x) in Wi end.
      assert (Bx : map ax_name (b_axes b) = axis_names l) by exact Nm. assert (Bf : b_family b = ds_family_name (fo_info s)) by reflexivity.
      rewrite Ins in Wi. clearbody b. revert Wi. generalize (instances_said l), (ds_instances d). clear - Bx Bf.
      induction l0 as [|p ps IH]; intros is Wi; inversion Wi as [|? ? ? ? W1 W2]; subst; constructor; [|now apply IH].
      destruct W1 as (V1 & V2 & V3 & _ & V4 & V5). cbn [fst snd instance_data] in *. rewrite Bf in *.
      repeat (split; [assumption|]). rewrite V5. unfold location. now rewrite Bx.
    + split; assumption.
    + exact Ax.
    + clear - Wa Fs. assert (Ft : Forall (fun a => ax_tag a = axis_tag (st_upper c) (ax_name a)) (de_axes (fo_design s))).
      { clear Wa. revert Fs. generalize (axis_names l). induction (de_axes (fo_design s)) as [|x axes IH]; intros ns E; constructor; destruct ns as [|n ns]; try discriminate; cbn in E; injection E as E1 E2 E3 E4.
        - congruence.
        - eapply IH. exact E4. }
      revert Ft. clear Fs. induction Wa as [|x y p q (S1 & S2 & _)]; intros Ft; constructor; inversion_clear Ft.
      * rewrite S1, S2, H. apply tag_is.
      * now apply IHWa.
    + rewrite A2. assert (Lb : Forall (fun a => ax_labels a = []) (a :: rest)).
      { rewrite <- A1. clear - Fs. revert Fs. generalize (axis_names l). induction (de_axes (fo_design s)) as [|x axes IH]; intros ns E; constructor; destruct ns as [|n ns]; try discriminate; cbn in E; injection E as E1 E2 E3 E4.
        - congruence.
        - eapply IH. exact E4. }
      inversion_clear Lb as [|? ? Lb1 Lb2]. intros [|i] y Hy; cbn [nth_error Nat.eqb andb] in *.
      * injection Hy as <-. rewrite Lb1 in A3. cbn [app] in A3. rewrite A3. rewrite Fc in A4, A5. fold (axes_said l) in A4, A5.
        destruct (Z.eqb_spec (axes_said l) 1) as [E|E]; [|now apply A5].
        specialize (A4 E). rewrite Ins in A4. clear - A4. revert A4. generalize (instances_said l). revert labels. intros labels l0. revert labels.
        induction l0 as [|p ps IH]; intros labels A; inversion A as [|? ? ? ? V1 V2]; subst; constructor; [|now apply IH].
        destruct V1 as [V1 V3]. cbn [fst snd instance_data] in *. split; [exact V1|]. destruct (in_values p) as [|x r]; [discriminate|]. injection V3 as V3. exists x, r. split; [reflexivity|congruence].
      * rewrite Forall_forall in Lb2. apply Lb2. eapply nth_error_In. exact Hy.
  - intros name F N X. destruct I as (i & I1 & I2). destruct (C83_family false _ name F N X) as (i' & J1 & J2 & _).
    rewrite I1 in J1. apply Ok_inj in J1. subst i'. rewrite <- J2. unfold ds_family_name, first_text, info_text. now rewrite I2.
  - intros style F X. destruct I as (i & I1 & I2). destruct (C82_attributes false _ F) as (i' & J1 & J2 & _).
    rewrite I1 in J1. apply Ok_inj in J1. subst i'. specialize (J2 (py "styleMapStyleName") _ ltac:(discriminate) X).
    assert (Tx : info_text (py "styleMapStyleName") (fo_info s) = style) by (unfold info_text; rewrite I2, J2; reflexivity).
    rewrite <- Tx. match type of Wi with Forall2 (instance_of ?x) _ _ => assert (Bm : b_map_style x = info_text (py "styleMapStyleName") (fo_info s)) by reflexivity end.
    revert Bm. clear - Wi. intros Bm. induction Wi as [|p i ps is (_ & _ & _ & V & _) W IH]; constructor; [congruence|assumption].
Qed.
(** Without axes there are the UFOs only. *)
Theorem C96_no_axes : forall c o json out es us, Forall typed es -> vfb_to_ufos c o es = Ok us -> us <> [] ->
  axis_names (used (st_vfb_minimal c) es) = [] -> vfb_to_document c o json out es = Ok (us, None).
Proof.
  intros c o json out es us T H NE A. unfold vfb_to_ufos in H. destruct (build_font c es) as [s|] eqn:B; [|discriminate]. cbn [rthen] in H.
  destruct (C85_parts c es s T B) as [_ _ _ _ _ _ _ _ _ _ _ Fd _]. apply design_fold in Fd. destruct Fd as [_ _ _ _ _ Fs _].
  rewrite A in Fs. cbn in Fs. apply map_eq_nil in Fs. unfold vfb_to_document. rewrite B. cbn [rthen]. unfold get_ufos_designspace. rewrite H. cbn [rthen].
  destruct us as [|u us]; [congruence|]. unfold written_designspace, ds_data_of. cbn [b_axes]. now rewrite Fs.
Qed.

Lemma parts_app : forall (k : Z) l1 l2, texts_said k (l1 ++ l2) = texts_said k l1 ++ texts_said k l2.
Proof. intros k l1 l2. apply flat_map_app. Qed.
Lemma mappings_made : forall c l d counts blocks, total_order (n_ltb (st_ops c)) -> axis_names l <> [] -> mappings_fit c l counts blocks ->
  res_fold (design_step c) (Design 0 [] None [] [] None) (flat_map design_part l) = Ok d ->
  forall i n b a, nth_error counts i = Some n -> nth_error blocks i = Some b -> nth_error (de_axes d) i = Some a ->
    mapping_shown (st_ops c) (firstn (Z.to_nat n) b) a.
Proof.
  intros c l d counts blocks TO NE (l1 & l2 & rest & -> & M1 & M2 & A2 & Ct & Cs & L1 & L2 & Fc & Fb) H.
  assert (Ea : axis_names (l1 ++ (1516, DDoublePairs (concat blocks ++ rest)) :: l2) = axis_names l1).
  { unfold axis_names in *. rewrite parts_app. change ((1516, DDoublePairs (concat blocks ++ rest)) :: l2) with ([(1516, DDoublePairs (concat blocks ++ rest))] ++ l2).
    rewrite parts_app, A2. cbn. now rewrite !app_nil_r. }
  rewrite Ea in *. rewrite flat_map_app, res_fold_app in H.
  destruct (res_fold (design_step c) _ (flat_map design_part l1)) as [d1|] eqn:E1; [|discriminate]. cbn [rthen flat_map] in H. apply design_fold in E1.
  destruct E1 as [F1 _ _ F4 _ _ F7]. specialize (F7 M1). cbn [de_count de_mappings de_axes app] in *.
  rewrite res_fold_app in H. cbn [design_part res_fold design_step rthen] in H. unfold set_mappings in H. rewrite F1, F4 in H. fold (axes_said l1) in H. rewrite Ct in H.
  change (last_or None (map Some (count_lists l1))) with (mapping_counts_said l1) in H. rewrite Cs in H.
  set (pairs := fun b : list (Z * Z) => map (fun p => (NBits (fst p), NBits (snd p))) b) in *.
  destruct (C68_mappings num (st_ops c) (de_axes d1) counts (map pairs blocks) (pairs rest)) as (axes' & E & La & R).
  { exact TO. } { rewrite F7. destruct (axis_names l1); [congruence|discriminate]. }
  { rewrite F7, map_length. exact L1. } { rewrite F7, !map_length. exact L2. } { exact Fc. }
  { rewrite Forall_map. eapply Forall_impl; [|exact Fb]. intros b (B1 & B2). unfold pairs. split; [now rewrite map_length|].
    intros ud I. apply in_map_iff in I. destruct I as (p & <- & I). now apply B2. }
  rewrite F7, map_length in E. assert (Ec : concat (map pairs blocks) ++ pairs rest = pairs (concat blocks ++ rest)) by (unfold pairs; now rewrite map_app, concat_map).
  rewrite Ec in E. rewrite F7 in H. unfold pairs in *. rewrite E in H. cbn [rthen rmap] in H. apply design_fold in H. destruct H as [_ _ _ _ _ _ G7]. specialize (G7 M2).
  cbn [de_axes] in G7. rewrite A2 in G7. cbn [map] in G7. rewrite app_nil_r in G7.
  intros i n b a N1 N2 N3. rewrite G7 in N3.
  destruct (nth_error (de_axes d1) i) as [a0|] eqn:N0.
  2:{ apply nth_error_None in N0. assert (i < List.length axes')%nat by (apply nth_error_Some; congruence). lia. }
  destruct (R i n _ a0 a N1 (map_nth_error _ _ _ N2) N0 N3) as [R0 R1].
  assert (Fr : ax_map a0 = [] /\ ax_min a0 = None /\ ax_default a0 = None /\ ax_max a0 = None).
  { rewrite F7 in N0. apply nth_error_In, in_map_iff in N0. destruct N0 as (x & <- & _). repeat split. }
  assert (Hn : 0 <= n <= 10) by (rewrite Forall_forall in Fc; apply Fc; eapply nth_error_In; exact N1).
  assert (Hb : List.length b = 10%nat) by (rewrite Forall_forall in Fb; apply Fb; eapply nth_error_In; exact N2).
  destruct (Z.eq_dec n 0) as [->|Nz]; [rewrite (R0 eq_refl); exact Fr|]. specialize (R1 Nz).
  destruct R1 as (_ & _ & _ & R2 & lo & hi & R3 & R4 & R5 & R6 & R7 & R8). rewrite firstn_map in R2, R6, R7, R8. rewrite map_map in R6, R7, R8. cbn [fst] in R6, R7, R8.
  assert (Np : firstn (Z.to_nat n) b <> []) by (intros K; apply (f_equal (@List.length _)) in K; rewrite firstn_length in K; cbn in K; lia).
  set (ps := firstn (Z.to_nat n) b) in *. unfold mapping_shown. destruct ps as [|p0 ps0]; [congruence|]. set (ps := p0 :: ps0) in *. clearbody ps.
  split.
  - clear - R2. revert R2. generalize (ax_map a). induction ps as [|p ps IH]; intros ms F; inversion F as [|? ? ? ? V1 V2]; subst; constructor; [exact V1|now apply IH].
  - apply in_map_iff in R6. destruct R6 as (pl & Pl & Il). apply in_map_iff in R7. destruct R7 as (ph & Ph & Ih). subst lo hi.
    exists (fst pl), (fst ph). repeat (split; [assumption|]). split; [now apply in_map|]. split; [now apply in_map|].
    intros u Iu. apply in_map_iff in Iu. destruct Iu as (p & <- & Iu). apply R8. apply in_map_iff. now exists p.
Qed.
Lemma update_all : forall A (R : A -> A -> Prop) l i f l', (forall a, R a a) -> (forall a, R a (f a)) -> py_update l i f = Ok l' -> Forall2 R l l'.
Proof.
  intros A R l i f l' R1 R2 U. unfold py_update in U. cbv zeta in U. destruct (in_range _ _ _); [|discriminate]. apply Ok_inj in U. subst l'.
  set (j := Z.to_nat _). clearbody j. clear i.
  assert (Rr : forall q, Forall2 R q q) by (clear - R1; induction q; constructor; auto).
  revert j. induction l as [|x l IH]; intros j; [destruct j; constructor|]. destruct j as [|j]; cbn; constructor; auto. apply IH.
Qed.
Lemma labels_same : forall ps (axes axes' : list (axis num)), res_fold add_label axes ps = Ok axes' -> Forall2 same_axis axes axes'.
Proof.
  assert (Rf : forall a : axis num, same_axis a a) by (intros a; repeat split).
  induction ps as [|p ps IH]; intros axes axes' H; cbn [res_fold] in H.
  - apply Ok_inj in H. subst axes'. induction axes; constructor; auto.
  - destruct (add_label axes p) as [a1|] eqn:E; [|discriminate]. cbn [rthen] in H. apply IH in H. unfold add_label in E.
    destruct (py_index axes 0); [|discriminate]. cbn [rthen] in E. destruct (py_index (snd p) 0); [|discriminate]. cbn [rthen] in E.
    apply (update_all _ same_axis) in E; [|exact Rf|intros x; repeat split]. clear - E H. revert axes' H. induction E as [|x y l l' S]; intros axes' H; inversion H as [|? ? ? ? S1 S2]; subst; constructor; [|auto].
    destruct S as (X1 & X2 & X3 & X4 & X5 & X6), S1 as (Y1 & Y2 & Y3 & Y4 & Y5 & Y6). repeat split; congruence.
Qed.
(** The mappings of the axes in the document. *)
Theorem C96_mappings : forall c o json out es us d counts blocks, Forall typed es -> vfb_to_document c o json out es = Ok (us, Some d) ->
  let l := used (st_vfb_minimal c) es in axis_names l <> [] -> total_order (n_ltb (st_ops c)) -> mappings_fit c l counts blocks ->
  List.length (ds_axes d) = List.length (axis_names l) /\
  forall i n b a, nth_error counts i = Some n -> nth_error blocks i = Some b -> nth_error (ds_axes d) i = Some a ->
    mapping_shown (st_ops c) (firstn (Z.to_nat n) b) a.
Proof.
  intros c o json out es us d counts blocks T H l NE TO MF. unfold vfb_to_document in H.
  destruct (build_font c es) as [s|] eqn:B; [|discriminate]. cbn [rthen] in H. unfold get_ufos_designspace in H.
  destruct (get_ufo_masters c o s) as [us0|]; [|discriminate]. cbn [rthen] in H. destruct us0 as [|u us0]; [discriminate|].
  destruct (C85_parts c es s T B) as [_ _ _ _ _ _ _ _ _ _ _ Fd _]. fold l in Fd. assert (Mm := mappings_made c l _ _ _ TO NE MF Fd). apply design_fold in Fd.
  destruct Fd as [_ _ _ _ _ Fs _]. assert (La : List.length (de_axes (fo_design s)) = List.length (axis_names l)).
  { apply (f_equal (@List.length _)) in Fs. cbn [de_axes map app] in Fs. now rewrite !map_length in Fs. }
  destruct (written_designspace _ _ _ _) as [w|] eqn:W; [|discriminate]. cbn [rmap] in H. apply Ok_inj in H. injection H as _ ->.
  assert (Sa : Forall2 same_axis (de_axes (fo_design s)) (ds_axes d)).
  { unfold written_designspace, ds_data_of in W. cbn [b_axes] in W. destruct (de_axes (fo_design s)) as [|a0 axes0]; [discriminate|]. set (axes := a0 :: axes0) in *. clearbody axes.
    destruct (get_designspace _ _ _) as [d'|] eqn:G; [|discriminate]. cbn [rmap] in W. apply Ok_inj in W. injection W as ->.
    unfold get_designspace in G. cbn [b_axis_count b_axes b_instances b_num_masters] in G.
    destruct (if de_count (fo_design s) =? 1 then _ else _) as [axes'|] eqn:E; [|discriminate]. cbn [rthen] in G.
    destruct (de_masters (fo_design s)); [|discriminate]. cbn [rthen] in G. destruct (res_map _ _); [|discriminate]. cbn [rthen] in G.
    destruct (res_map _ _); [|discriminate]. cbn [rmap] in G. apply Ok_inj in G. subst d. cbn [ds_axes].
    destruct (_ =? 1); [eapply labels_same; exact E|]. apply Ok_inj in E. subst axes'. clear. induction axes; constructor; [repeat split|assumption]. }
  split; [rewrite <- La; clear - Sa; induction Sa; cbn; lia|].
  intros i n b a N1 N2 N3. destruct (Forall2_nth _ _ _ _ _ Sa i a N3) as (a0 & N0 & X1 & X2 & X3 & X4 & X5 & X6). specialize (Mm i n b a0 N1 N2 N0).
  unfold mapping_shown in *. now rewrite X3, X4, X5, X6.
Qed.

(** A font with two masters on one axis, with two mappings and an instance *)
Definition c96_key (x : num) : Z := match x with NBits b => b | NNum _ => 0 end.
Definition c96_ops : num_ops num := NumOps (fun x => x) (fun x => Ok (c96_key x)) (fun x y => c96_key x <? c96_key y) (NBits 0) (NBits 1000).
Definition c96_pairs : list (Z * Z) := (400, 0) :: (700, 0x3FF0000000000000) :: repeat (0, 0) 8.
Definition c96_entries : list (Z * option value) :=
  [(1024, Some (DStr (py "Test"))); (1503, Some (DInt 2)); (1504, Some (DStr (py "Light "))); (1504, Some (DStr (py "Bold")));
   (1513, Some (DInt 1)); (1514, Some (DStr (py "Weight"))); (1505, Some (DMasterLocation (1, [0; 0; 0; 0])));
   (1505, Some (DMasterLocation (2, [0x3FF0000000000000; 0; 0; 0]))); (1515, Some (DInts [2])); (1516, Some (DDoublePairs c96_pairs));
   (1254, Some (DInstances [M_Options.Instance (py "Medium") [M_Float.NInt 500]]));
   (1536, Some (DPSInfo (c86_psinfo 750))); (1536, Some (DPSInfo (c86_psinfo 760)));
   (2001, Some (DGlyph (Glyph (Some (py "A")) (Some 2) (Some []) (Some [(600, 0); (640, 0)]) None None None None None None)))].
Definition c96_settings asm : settings := Settings false false true c96_ops (fun x => x) asm.
Example c96_conditions : forall asm number, let c := c96_settings asm in let l := used false c96_entries in
  Forall typed c96_entries /\ (exists a b, vfb_to_ufos c (c86_options number) c96_entries = Ok [a; b]) /\
  design_complete l 2 /\ total_order (n_ltb (st_ops c)) /\ mappings_fit c l [2] [c96_pairs] /\
  text_said (flat_map info_part l) 1024 (py "Test") /\ Forall entry_data_ok (flat_map info_part l).
Proof.
  intros asm number c l. split; [|split; [|split; [|split; [|split; [|split]]]]].
  - unfold c96_entries, typed. repeat constructor; cbn [fst snd]; intros I; exfalso; cbn [In] in I; repeat (destruct I as [I|I]; [discriminate I|]); exact I.
  - do 2 eexists. vm_compute. reflexivity.
  - split; [discriminate|]. split; [vm_compute; repeat constructor; cbn [In]; tauto|]. split; [vm_compute; intuition discriminate|]. split; [reflexivity|]. split.
    + intros i R. assert (i = 1 \/ i = 2) as [-> | ->] by lia; eexists; (split; [vm_compute; reflexivity|cbn; lia]).
    + vm_compute. repeat constructor.
  - cbn [n_ltb st_ops c c96_settings c96_ops]. repeat split; intros; lia.
  - exists [(1024, DStr (py "Test")); (1503, DInt 2); (1504, DStr (py "Light ")); (1504, DStr (py "Bold"));
      (1513, DInt 1); (1514, DStr (py "Weight")); (1505, DMasterLocation (1, [0; 0; 0; 0]));
      (1505, DMasterLocation (2, [0x3FF0000000000000; 0; 0; 0])); (1515, DInts [2])].
    eexists _, []. split; [reflexivity|]. repeat (split; [reflexivity|]). split; [repeat constructor; lia|]. constructor; [|constructor].
    split; [reflexivity|]. intros p _. eexists. reflexivity.
  - exists [], []. split; [reflexivity|]. intros d [].
  - change (flat_map info_part l) with [(1024, Some (DVal (IStr (py "Test"))))]. constructor; [|constructor]. intros d E. cbn [fst snd] in *. injection E as <-.
    split; [intros; eexists; reflexivity|]. repeat split; intros E; try discriminate E. destruct E; discriminate.
Qed.
(** its document *)
Example c96_document : forall asm number, exists us d,
  vfb_to_document (c96_settings asm) (c86_options number) false (Path false [] (py "Test") (py ".ufo")) c96_entries = Ok (us, Some d) /\
  map so_filename (ds_sources d) = [py "Test.ufo"; py "Test-1.ufo"] /\ map so_name (ds_sources d) = [py "Light"; py "Bold"] /\
  map in_style (ds_instances d) = [py "Medium"] /\ map ax_map (ds_axes d) = [[(NBits 400, 0); (NBits 700, 0x3FF0000000000000)]] /\
  map ax_labels (ds_axes d) = [[(py "Medium", NNum (M_Float.NInt 500))]].
Proof. intros. do 2 eexists. split; [vm_compute; reflexivity|]. repeat split; vm_compute; reflexivity. Qed.

Print Assumptions C96_document.
Print Assumptions C96_no_axes.
Print Assumptions C96_mappings.
