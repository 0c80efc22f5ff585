(** C69: each master UFO has the glyph data of its master. C70: and the font info. C71: what the export
    leaves in the Vfb. *)
From Coq Require Import String ZifyBool.
From Verif Require Import Base M_Py M_Text M_Simple M_Glyph M_Tth M_Info M_Master S_Glyph S_Master Lib P_Glyph P_Tth P_Guides P_Master Prop_Glyph.
Local Open Scope list_scope.

(** ** C69 *)
(** A glyph with a name, nodes and metrics, a master [m] that the metrics have, as many anchors as there
    are positions for, positions and mask metrics for that master: the glyph in that master's UFO has
    the master's width and height, all code points, the anchors with the master's positions, and the
    mask the master's width and height, or those of the glyph if there are none. *)
Theorem C69_master : forall minimal hints d m es name metrics nodes wh,
  g_name d = Some name -> g_metrics d = Some metrics -> g_nodes d = Some nodes ->
  0 <= m -> nth_error metrics (Z.to_nat m) = Some wh ->
  (List.length (mm_anchors_of es) <= List.length (anchors_of es))%nat ->
  Forall (fun p => m < Z.of_nat (List.length (an_x p)) /\ m < Z.of_nat (List.length (an_y p))) (mm_anchors_of es) ->
  mask_of es = [] \/ m < Z.of_nat (List.length (mask_of es)) ->
  exists g d' r, build_mm_glyph minimal hints d = Ok (g, d') /\
    mg_name g = name /\ mg_nodes g = nodes /\
    build_master minimal m g (fold_left add_extra es no_extras) = Ok r /\
    um_metrics r = wh /\ um_unicodes r = unicodes_of es /\
    List.length (um_anchors r) = List.length (anchors_of es) /\
    (forall j a', nth_error (um_anchors r) j = Some a' -> anchor_in_master (Z.to_nat m) es j a') /\
    match um_mask_metrics r with
    | None => minimal = true
    | Some mask => minimal = false /\
        (mask_of es = [] /\ mask = wh \/ nth_error (mask_of es) (Z.to_nat m) = Some mask)
    end.
Proof.
  intros minimal hints d m es name metrics nodes wh En Em Eo Hm Ew L F M.
  destruct (extras_spec es) as (X1 & X2 & X3 & X4). cbv zeta in *.
  set (e := fold_left add_extra es no_extras) in *.
  unfold build_mm_glyph. rewrite En, Em, Eo. cbn [get_key rthen rmap].
  eexists. eexists.
  assert (MASK : exists mask, (if minimal then Ok None else rmap Some (extract_mask_metrics m metrics (ge_mask_metrics e))) = Ok mask /\
    match mask with
    | None => minimal = true
    | Some mask => minimal = false /\
        (mask_of es = [] /\ mask = wh \/ nth_error (mask_of es) (Z.to_nat m) = Some mask)
    end).
  { destruct minimal; [now exists None|]. unfold extract_mask_metrics. rewrite X4.
    destruct (mask_of es) as [|w l] eqn:Ek.
    - exists (Some wh). rewrite (py_index_some _ _ _ _ Hm Ew). split; [reflexivity|]. auto.
    - destruct M as [M|M]; [discriminate|].
      destruct (nth_error (w :: l) (Z.to_nat m)) as [mask|] eqn:Emk; [|apply nth_error_None in Emk; lia].
      replace (Z.of_nat (List.length (w :: l)) - 1 <? m) with false by lia.
      rewrite (py_index_some _ _ _ _ Hm Emk). exists (Some mask). split; [reflexivity|]. auto. }
  destruct MASK as (mask & E1 & H1).
  destruct (extract_anchors_ok m (ge_anchors e) (ge_mm_anchors e) Hm) as (r & E2 & L2 & H2).
  { rewrite X3. eapply Forall_impl; [|exact F]. cbn. lia. }
  { rewrite X3, X2. exact L. }
  exists (MasterGlyph wh r (ge_unicodes e) mask). split; [reflexivity|]. cbn [mg_name mg_nodes mg_metrics].
  split; [reflexivity|]. split; [reflexivity|]. split.
  { unfold build_master. cbn [mg_metrics]. rewrite E1. cbn [rthen]. rewrite E2. cbn [rthen].
    rewrite (py_index_some _ _ _ _ Hm Ew). reflexivity. }
  cbn [um_metrics um_unicodes um_anchors um_mask_metrics].
  split; [reflexivity|]. split; [exact X1|]. split; [now rewrite L2, X2|]. split; [|exact H1].
  intros j a' Ej. destruct (H2 j a' Ej) as (a & Ea & Na & Pa). rewrite X2 in Ea. rewrite X3 in Pa.
  exists a. auto.
Qed.

(** A minimal export leaves out the guides of the glyph, one without PostScript hints its hints; nothing else is left
    out. *)
Theorem C69_minimal : forall minimal hints d g d', build_mm_glyph minimal hints d = Ok (g, d') ->
  (minimal = true -> mg_guides g = None) /\ (minimal = false -> mg_guides g = g_guides d) /\
  (hints = false -> mg_h g = [] /\ mg_v g = [] /\ mg_masks g = []) /\
  (forall h, hints = true -> g_hints d = Some h -> mg_h g = mh_h h /\ mg_v g = mh_v h /\
     forall m, mh_masks h = Some m -> mg_masks g = m) /\
  (forall k, g_components d = Some k -> mg_components g = k) /\ mg_tth g = g_tth d.
Proof.
  intros minimal hints d g d' H. unfold build_mm_glyph in H. destruct (g_name d); [|discriminate]. cbn [get_key rthen] in H.
  destruct (g_metrics d); [|discriminate]. cbn [get_key rthen] in H. destruct (g_nodes d); [|discriminate].
  cbn [get_key rmap] in H. apply Ok_inj in H. injection H as <- <-.
  cbn [mg_guides mg_h mg_v mg_masks mg_components mg_tth].
  split; [intros ->; reflexivity|]. split; [intros ->; reflexivity|]. split; [intros ->; auto|].
  split; [intros h -> ->; split; [reflexivity|]; split; [reflexivity|]; intros m ->; reflexivity|].
  split; [intros k ->; reflexivity|reflexivity].
Qed.
Print Assumptions C69_minimal.

(** The entry for the first master before the one for the others, as a VFB has them: each master
    gets its own. *)
Theorem C69_mask : forall w h l, mask_of [XMaskMetrics w h; XMaskMetricsMM l] = (w, h) :: l.
Proof. intros. unfold mask_of. cbn. now rewrite app_nil_r. Qed.

(** Positions without an anchor in the GDEF data, which a VFB can hold, make the export fail. *)
Theorem C69_anchors_refuted : forall hints, exists d es,
  (exists g d', build_mm_glyph false hints d = Ok (g, d') /\
    build_master false 0 g (fold_left add_extra es no_extras) = Err IndexError) /\
  es = [XAnchorsMM [MMAnchor [10] [20]]].
Proof.
  intros hints. exists (Glyph (Some (py "A")) (Some 1) (Some []) (Some [(500, 0)]) None None None None None None).
  eexists. split; [|reflexivity]. destruct hints; do 2 eexists; (split; [reflexivity|]); vm_compute; reflexivity.
Qed.
(** Mask metrics for the first master only, in a font with two, make the export fail; those of the
    other masters before them go to the wrong masters. *)
Theorem C69_mask_refuted : forall hints, exists d g d',
  build_mm_glyph false hints d = Ok (g, d') /\
  build_master false 1 g (fold_left add_extra [XMaskMetrics 400 0] no_extras) = Err ValueError /\
  exists r, build_master false 0 g (fold_left add_extra [XMaskMetricsMM [(410, 0)]; XMaskMetrics 400 0] no_extras) = Ok r /\
    um_mask_metrics r = Some (410, 0).
Proof.
  intros hints. exists (Glyph (Some (py "A")) (Some 2) (Some []) (Some [(500, 0); (600, 0)]) None None None None None None).
  destruct hints; do 2 eexists; (split; [reflexivity|]); (split; [vm_compute; reflexivity|]); eexists;
    (split; [vm_compute; reflexivity|]); reflexivity.
Qed.

Example C69_ex :
  let es := [XUnicodes [65]; XGdef (Gdef None (Some [GdefAnchor (Some (py "top")) 1 2; GdefAnchor None 3 4]) None None);
             XNonBmp [66000]; XAnchorsMM [MMAnchor [10; 11] [20; 21]]; XMaskMetrics 400 0; XMaskMetricsMM [(410, 1)]] in
  (List.length (mm_anchors_of es) <= List.length (anchors_of es))%nat /\
  Forall (fun p => 1 < Z.of_nat (List.length (an_x p)) /\ 1 < Z.of_nat (List.length (an_y p))) (mm_anchors_of es) /\
  exists g d', build_mm_glyph false true sample_glyph = Ok (g, d') /\
  build_master false 1 g (fold_left add_extra es no_extras) =
    Ok (MasterGlyph (600, -1) [GdefAnchor (Some (py "top")) 11 21; GdefAnchor None 3 4] [65; 66000] (Some (410, 1))).
Proof.
  cbv zeta. split; [cbn; lia|]. split; [repeat constructor; cbn; lia|]. do 2 eexists. split; [reflexivity|]. reflexivity.
Qed.

(** ** C70 *)
(** In the info of master [m] the attributes that differ between masters have the values of that
    master, each list as many values as are used, and all other attributes are the font's. *)
Theorem C70_info : forall hints n infos m p i, counts_ok n -> 0 <= m -> nth_error infos (Z.to_nat m) = Some p ->
  exists i', get_master_info hints n infos m i = Ok i' /\
    (forall name v, In (name, v) (master_values hints n p) -> attr i' name = Some v) /\
    (forall name, ~ In name (map fst (master_values hints n p)) -> attr i' name = attr i name) /\
    if_lib i' = if_lib i.
Proof.
  intros hints n infos m p i C Hm E. rewrite (master_info_is hints n infos m p i C Hm E).
  eexists. split; [reflexivity|]. apply set_all_attr. apply master_values_nodup.
Qed.
(** A master without PostScript info makes the export fail. *)
Theorem C70_missing : forall hints n infos m i, Z.of_nat (List.length infos) <= m ->
  get_master_info hints n infos m i = Err IndexError.
Proof.
  intros hints n infos m i H. unfold get_master_info, py_index.
  replace (m <? 0) with false by lia.
  replace (Z.of_nat (List.length infos) <=? m) with true by lia. now rewrite Bool.orb_true_r.
Qed.
(** A negative count, which a VFB can hold, keeps values that are not used. *)
Theorem C70_negative_refuted : exists n p i',
  pn_blue_values n = -1 /\ get_master_info true n [p] 0 (mkInfo [] None) = Ok i' /\
  attr i' (py "postscriptBlueValues") = Some (IList [-10; 0; 500]).
Proof.
  exists (PsCounts (-1) 0 0 0 0 0),
    (PSInfo [] 0 [-10; 0; 500; 510] [] [] [] 0 0 0 0 0 [] [] 0 0 0 0 0 0 0 0 0 0 0).
  eexists. split; [reflexivity|]. split; [vm_compute; reflexivity|]. reflexivity.
Qed.
Example C70_ex :
  let p a := PSInfo [] 1 [-10; 0; 500; 510; 0; 0] [] [] [] 0x3FA44189374BC6A8 7 1 0 0 [80; 0] [] 0 0 0 0 0 0 0 a (-200) 500 700 in
  let n := PsCounts 4 0 0 0 1 0 in
  counts_ok n /\
  exists i', get_master_info true n [p 750; p 760] 1 (mkInfo [(py "familyName", IStr (py "F"))] None) = Ok i' /\
    attr i' (py "ascender") = Some (IInt 760) /\ attr i' (py "familyName") = Some (IStr (py "F")) /\
    attr i' (py "postscriptBlueValues") = Some (IList [-10; 0; 500; 510]) /\
    attr i' (py "postscriptStemSnapV") = None /\ attr i' (py "postscriptForceBold") = Some (IBool true).
Proof.
  cbv zeta. split; [repeat constructor; cbn; lia|]. eexists. split; [vm_compute; reflexivity|]. repeat split.
Qed.

(** ** C71 *)
(** The export leaves the data of a glyph entry as they are exactly if PostScript hints are not
    exported or there are no hint masks; otherwise the hint masks are gone, and nothing else. *)
Theorem C71_entry : forall minimal hints d g d', build_mm_glyph minimal hints d = Ok (g, d') ->
  (d' = d <-> (hints = false \/ ~ has_masks d)) /\ (d' <> d -> lost_masks d d').
Proof.
  intros minimal hints d g d' E. unfold build_mm_glyph in E.
  destruct (g_name d) as [name|]; [|discriminate]. cbn [get_key rthen] in E.
  destruct (g_metrics d) as [metrics|]; [|discriminate]. cbn [get_key rthen] in E.
  destruct (g_nodes d) as [nodes|]; [|discriminate]. cbn [get_key rmap] in E.
  apply Ok_inj in E. apply (f_equal snd) in E. cbn [snd] in E. subst d'.
  destruct hints; [|split; [tauto|congruence]].
  unfold without_masks, has_masks, lost_masks. destruct d as [a b c e [[h v [m|]]|] f k l p q]; cbn.
  - split; [|intros _; repeat split]. split; [discriminate|]. intros [H|H]; [discriminate|].
    exfalso. apply H. do 2 eexists. split; reflexivity.
  - split; [|intros N; exfalso; apply N; reflexivity]. split; [|reflexivity]. intros _. right. intros (? & ? & E1 & E2). injection E1 as <-. discriminate.
  - split; [|intros N; exfalso; apply N; reflexivity]. split; [|reflexivity]. intros _. right. intros (? & ? & E1 & _). discriminate.
Qed.

(** Exporting the same Vfb again gives the same glyph, except that it has no hint masks any more. *)
Theorem C71_again : forall minimal d g d', build_mm_glyph minimal true d = Ok (g, d') ->
  exists g', build_mm_glyph minimal true d' = Ok (g', d') /\
    mg_name g' = mg_name g /\ mg_guides g' = mg_guides g /\ mg_h g' = mg_h g /\ mg_v g' = mg_v g /\
    mg_metrics g' = mg_metrics g /\ mg_nodes g' = mg_nodes g /\ mg_components g' = mg_components g /\
    mg_tth g' = mg_tth g /\ mg_instructions g' = mg_instructions g /\ mg_masks g' = [].
Proof.
  intros minimal d g d' E. unfold build_mm_glyph in E.
  destruct (g_name d) as [name|] eqn:E1; [|discriminate]. cbn [get_key rthen] in E.
  destruct (g_metrics d) as [metrics|] eqn:E2; [|discriminate]. cbn [get_key rthen] in E.
  destruct (g_nodes d) as [nodes|] eqn:E3; [|discriminate]. cbn [get_key rmap] in E.
  apply Ok_inj in E. pose proof (f_equal snd E) as Ed. pose proof (f_equal fst E) as Eg. cbn [fst snd] in Ed, Eg. subst g d'. clear E.
  unfold build_mm_glyph, without_masks. destruct d as [a b c e [[h v m]|] f k l p q]; cbn in E1, E2, E3 |- *; subst;
    cbn; eexists; (split; [reflexivity|]); cbn; repeat split.
Qed.

(** A Vfb that is saved after the export of PostScript hints: the file has the glyph without hint
    masks. *)
Theorem C71_saved : forall o v n minimal d g d', wf_glyph o v n d -> on_some (exact_guides o) (g_guides d) ->
  build_mm_glyph minimal true d = Ok (g, d') ->
  exists bs r, compile_glyph o v d' = Ok bs /\ run_parser (parse_glyph o) bs = Ok r /\
    or_nil (mh_masks (hints_of r)) = [] /\
    mh_h (hints_of r) = mh_h (hints_of d) /\ mh_v (hints_of r) = mh_v (hints_of d) /\
    or_nil (g_nodes r) = or_nil (g_nodes d).
Proof.
  intros o v n minimal d g d' W X E.
  assert (D : d' = without_masks d).
  { unfold build_mm_glyph in E.
    destruct (g_name d) as [name|]; [|discriminate]. cbn [get_key rthen] in E.
    destruct (g_metrics d) as [metrics|]; [|discriminate]. cbn [get_key rthen] in E.
    destruct (g_nodes d) as [nodes|]; [|discriminate]. cbn [get_key rmap] in E.
    apply Ok_inj in E. now apply (f_equal snd) in E. }
  assert (W' : wf_glyph o v n d').
  { subst d'. unfold wf_glyph, without_masks in *. destruct d as [a b c e [[h w m]|] f k l p q]; [|exact W].
    unfold set_hints. cbn [g_name g_num_masters g_nodes g_metrics g_hints g_guides g_components g_kerning g_imported g_tth on_some mh_h mh_v mh_masks] in *.
    destruct W as (W1 & W2 & W3 & W4 & W5 & W6 & W7). repeat (split; [assumption|]). split; [|exact W7].
    unfold wf_hints in *. cbn [mh_h mh_v mh_masks or_nil] in *. destruct W6 as (V1 & V2 & V3 & V4 & _).
    repeat (split; [assumption|]). split; [reflexivity|constructor]. }
  assert (X' : on_some (exact_guides o) (g_guides d')).
  { subst d'. unfold without_masks. destruct (g_hints d); exact X. }
  destruct (C26_glyph_exact o v n d' W' X') as (bs & r & E1 & _ & E2 & S).
  exists bs, r. split; [exact E1|]. split; [exact E2|].
  destruct S as (_ & _ & S3 & _ & (S5 & S6 & S7) & _).
  assert (H : hints_of d' = MMHints (mh_h (hints_of d)) (mh_v (hints_of d)) None).
  { subst d'. unfold without_masks, hints_of. destruct (g_hints d) as [h|] eqn:Eh; cbn [set_hints g_hints]; [reflexivity|].
    rewrite Eh. reflexivity. }
  rewrite H in S5, S6, S7. cbn [mh_h mh_v mh_masks or_nil] in S5, S6, S7.
  assert (N : g_nodes d' = g_nodes d) by (subst d'; unfold without_masks; destruct (g_hints d); reflexivity).
  rewrite <- S5, <- S6, <- S7, <- S3, N. auto.
Qed.

(** So the export does not leave the Vfb as it was. *)
Theorem C71_refuted : forall minimal, exists g d', build_mm_glyph minimal true sample_glyph = Ok (g, d') /\
  d' <> sample_glyph /\ mg_masks g = [(py "h", 1); (py "r", 2)] /\
  exists g', build_mm_glyph minimal true d' = Ok (g', d') /\ mg_masks g' = [].
Proof.
  intros minimal. do 2 eexists. split; [reflexivity|]. split; [discriminate|]. split; [reflexivity|].
  eexists. split; reflexivity.
Qed.

Print Assumptions C69_master.
Print Assumptions C69_mask.
Print Assumptions C69_anchors_refuted.
Print Assumptions C69_mask_refuted.
Print Assumptions C70_info.
Print Assumptions C70_missing.
Print Assumptions C70_negative_refuted.
Print Assumptions C71_entry.
Print Assumptions C71_again.
Print Assumptions C71_saved.
Print Assumptions C71_refuted.
