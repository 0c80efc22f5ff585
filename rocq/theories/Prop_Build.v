(** C85: the whole export, from the entries of a VFB to the parts of the font. *)
From Coq Require Import String.
From Verif Require Import Base Lib M_Py M_Helpers M_Simple M_Text M_TrueType M_Bitmap M_Glyph M_Options M_Container M_Table M_Groups.
From Verif Require Import M_Info M_FontInfo M_Tth M_Programs M_Builder M_Master M_Features M_Designspace M_Classes M_Build.
From Verif Require Import S_Builder S_Info S_FontInfo S_Entry S_Table S_Build P_File P_Build P_Build2 P_Build3 Prop_Builder Prop_FontInfo.
Local Open Scope list_scope.

Lemma used_typed : forall m es, Forall typed es -> Forall (fun e => typed (fst e, Some (snd e))) (used m es).
Proof.
  intros m es H. unfold used. apply Forall_flat_map. eapply Forall_impl; [|exact H]. intros [k [d|]] T; cbn [fst snd]; [|constructor].
  destruct (counts m k); constructor; [exact T|constructor].
Qed.
Lemma complete_ok : forall minimal hints x, complete x -> exists r, build_mm_glyph minimal hints x = Ok r.
Proof.
  intros minimal hints x (A & B & C). unfold build_mm_glyph. destruct (g_name x); [|congruence]. destruct (g_metrics x); [|congruence].
  destruct (g_nodes x); [|congruence]. cbn [get_key rthen rmap]. eexists. reflexivity.
Qed.
Lemma ok_complete : forall minimal hints x r, build_mm_glyph minimal hints x = Ok r -> complete x.
Proof.
  intros minimal hints x r H. unfold build_mm_glyph in H. unfold complete. destruct (g_name x); [|discriminate].
  cbn [get_key rthen] in H. destruct (g_metrics x); [|discriminate]. cbn [get_key rthen] in H. destruct (g_nodes x); [|discriminate].
  repeat split; discriminate.
Qed.
Lemma complete_glyphs_ok : forall c l, glyphs_complete l -> Forall (glyph_ok c) l.
Proof.
  intros c l H. apply Forall_forall. intros [k d] I. unfold glyph_ok.
  destruct (Z.eq_dec k 2001) as [->|N].
  - destruct d; try exact Coq.Init.Logic.I. apply complete_ok. apply H. exact I.
  - destruct k as [|p|p]; try exact Coq.Init.Logic.I.
    repeat (match goal with |- context [match ?p with xH => _ | xO _ => _ | xI _ => _ end] => destruct p end; try exact Coq.Init.Logic.I; try congruence).
Qed.
(** a build that succeeds has taken all glyphs *)
Lemma built_complete : forall c es s s', res_fold (build_step c) s es = Ok s' -> glyphs_complete (used (st_vfb_minimal c) es).
Proof.
  intros c. induction es as [|[k o] es IH]; intros s s' H x I; [destruct I|].
  cbn [res_fold] in H. destruct (build_step c s (k, o)) as [s1|e] eqn:B; cbn [rthen] in H; [|discriminate].
  unfold used in I. cbn [flat_map fst snd] in I. apply in_app_or in I. destruct I as [I|I]; [|eapply IH; eassumption].
  destruct o as [d|]; [|destruct I]. destruct (counts (st_vfb_minimal c) k) eqn:C; [|destruct I].
  destruct I as [E|[]]. injection E as -> ->.
  unfold build_step in B. rewrite skip_counts, C in B. cbn [negb] in B.
  change (aget Z.eqb 2001 info_mapping) with (@None pystr) in B. cbn [aget cases Z.eqb Pos.eqb] in B. unfold glyph_entry in B.
  destruct (build_mm_glyph (st_minimal c) (st_ps_hints c) x) as [r|e] eqn:G; [|discriminate]. eapply ok_complete. exact G.
Qed.
Lemma last_or_flat : forall A (f : Z * value -> list A) l d,
  fold_left (fun a e => last_or a (f e)) l d = last_or d (flat_map f l).
Proof.
  intros A f. induction l as [|e l IH]; intros d; [reflexivity|]. cbn [fold_left flat_map]. rewrite IH, last_or_app. reflexivity.
Qed.
Lemma counts_flat : forall l p, fold_left set_count l p =
  PsCounts (last_or (pn_blue_values p) (flat_map (int_part 1530) l)) (last_or (pn_other_blues p) (flat_map (int_part 1531) l))
    (last_or (pn_family_blues p) (flat_map (int_part 1532) l)) (last_or (pn_family_other_blues p) (flat_map (int_part 1533) l))
    (last_or (pn_stem_snap_h p) (flat_map (int_part 1534) l)) (last_or (pn_stem_snap_v p) (flat_map (int_part 1535) l)).
Proof.
  induction l as [|e l IH]; intros p; [destruct p; reflexivity|]. cbn [fold_left flat_map]. rewrite IH, !last_or_app. reflexivity.
Qed.
Lemma lib_flat : forall l lib key, aget str_eqb key (fold_left set_lib l lib) =
  if str_eqb key (py "com.fontlab.v5.userData") then last_or (aget str_eqb key lib) (map Some (flat_map (data_part 2016) l))
  else if str_eqb key (py "com.fontlab.v5.metricsClassFlags") then last_or (aget str_eqb key lib) (map Some (flat_map (data_part 2024) l))
  else aget str_eqb key lib.
Proof.
  induction l as [|[k d] l IH]; intros lib key.
  { cbn [fold_left flat_map map last_or last]. destruct (str_eqb _ _); [reflexivity|]. destruct (str_eqb _ _); reflexivity. }
  cbn [fold_left flat_map]. rewrite IH, !map_app, !last_or_app. unfold set_lib, data_part. cbn [fst snd].
  destruct (str_eqb key (py "com.fontlab.v5.userData")) eqn:E1.
  - apply str_eqb_eq in E1. subst key. destruct (Z.eqb_spec k 2016) as [->|N].
    + rewrite (aget_aset str_eqb str_eqb_eq). rewrite str_eqb_refl. reflexivity.
    + destruct (k =? 2024); [|reflexivity]. rewrite (aget_aset str_eqb str_eqb_eq). reflexivity.
  - destruct (str_eqb key (py "com.fontlab.v5.metricsClassFlags")) eqn:E2.
    + apply str_eqb_eq in E2. subst key. destruct (Z.eqb_spec k 2016) as [->|N].
      * rewrite (aget_aset str_eqb str_eqb_eq). reflexivity.
      * destruct (k =? 2024); [|reflexivity]. rewrite (aget_aset str_eqb str_eqb_eq). rewrite str_eqb_refl. reflexivity.
    + destruct (k =? 2016); [rewrite (aget_aset str_eqb str_eqb_eq); rewrite E1; reflexivity|].
      destruct (k =? 2024); [rewrite (aget_aset str_eqb str_eqb_eq); rewrite E2; reflexivity|]. reflexivity.
Qed.
Lemma whole : forall c es, Forall typed es -> glyphs_complete (used (st_vfb_minimal c) es) ->
  match build_font c es with
  | Ok s => made_of c (used (st_vfb_minimal c) es) s
  | Err x => ~ can_be_made c (used (st_vfb_minimal c) es)
  end.
Proof.
  intros c es T G. set (l := used (st_vfb_minimal c) es) in *.
  pose proof (loop_parts c es new_font T (complete_glyphs_ok c _ G)) as P. fold l in P.
  pose proof (info_parts c l (used_typed _ _ T)) as I.
  unfold build_font. destruct (res_fold (build_step c) new_font es) as [s|x]; cbn [rthen].
  - destruct P. unfold finish, on_info. cbn [fo_info].
    change (fo_info new_font) with new_info in l_info. rewrite l_info in I. cbn [rthen] in I.
    destruct (fix_underline_position (drop_default (fo_info s))) as [i|x]; cbn [rmap].
    + destruct I as ((a & A1 & A2) & (p & P1 & P2)). constructor; cbn [fo_info fo_glyphs fo_tt fo_options fo_features fo_groups fo_flags fo_guides fo_props fo_counts fo_design fo_lib].
      * exists a. auto.
      * exists p. auto.
      * unfold build. rewrite b_loop_fold. change (fo_glyphs new_font) with (@b_start gvalue) in l_glyphs.
        change (ex_side_names (fo_tt new_font)) with (@None (list pystr * list pystr)) in l_glyphs. rewrite l_glyphs. reflexivity.
      * exact l_tt.
      * exact l_options.
      * exact l_features.
      * exact l_groups.
      * exact l_flags.
      * exact l_guides.
      * exact l_props.
      * rewrite l_counts. apply counts_flat.
      * exact l_design.
      * intros key. rewrite l_lib. apply lib_flat.
    + intros (_ & (a & A) & (p & Q) & _). destruct I as [I|I]; congruence.
  - intros (_ & (a & A) & (p & Q) & (g & Gl) & (t & Tt) & (gr & Gr) & (d & D)).
    destruct P as [P|P|P|P|P].
    + change (fo_info new_font) with new_info in P. rewrite P in I. cbn [rthen] in I. destruct I as [I|I]; congruence.
    + unfold build in Gl. rewrite b_loop_fold in Gl. change (fo_glyphs new_font) with (@b_start gvalue) in P.
      change (ex_side_names (fo_tt new_font)) with (@None (list pystr * list pystr)) in P. rewrite P in Gl. discriminate.
    + unfold M_Tth.tt_build in Tt. change (fo_tt new_font) with tt_start in P. congruence.
    + unfold class_entries in Gr. change (fo_groups new_font) with (@nil (pystr * list pystr)) in P. congruence.
    + change (fo_design new_font) with (Design 0 [] None [] [] None) in P. congruence.
Qed.

(** ** C85 *)
(** Every part of the font is what the entries about it say, in the order of the file, whatever the other entries
    are. *)
Theorem C85_parts : forall c es s, Forall typed es -> build_font c es = Ok s ->
  made_of c (used (st_vfb_minimal c) es) s.
Proof.
  intros c es s T B.
  assert (G : glyphs_complete (used (st_vfb_minimal c) es)).
  { unfold build_font in B. destruct (res_fold (build_step c) new_font es) eqn:F; [|discriminate]. eapply built_complete. exact F. }
  pose proof (whole c es T G) as W. rewrite B in W. exact W.
Qed.
(** The build fails only if a glyph lacks its name, metrics or nodes, or if one of the parts cannot be made. *)
Theorem C85_succeeds : forall c es, Forall typed es ->
  (exists s, build_font c es = Ok s) <-> can_be_made c (used (st_vfb_minimal c) es).
Proof.
  intros c es T. split.
  - intros (s & B). destruct (C85_parts c es s T B).
    assert (G : glyphs_complete (used (st_vfb_minimal c) es)).
    { unfold build_font in B. destruct (res_fold (build_step c) new_font es) eqn:F; [|discriminate]. eapply built_complete. exact F. }
    destruct from_info as (i & I & _), from_programs as (p & P & _). split; [exact G|]. split; [exists i; exact I|]. split; [exists p; exact P|].
    split; [eexists; eassumption|]. split; [eexists; eassumption|]. split; [eexists; eassumption|eexists; eassumption].
  - intros C. pose proof (whole c es T (proj1 C)) as W. destruct (build_font c es) as [s|x]; [exists s; reflexivity|contradiction].
Qed.
(** A part of the font depends on its own entries alone. *)
Theorem C85_independent : forall c es es' s s', Forall typed es -> Forall typed es' ->
  build_font c es = Ok s -> build_font c es' = Ok s' ->
  let l := used (st_vfb_minimal c) es in let l' := used (st_vfb_minimal c) es' in
  (flat_map info_part l = flat_map info_part l' -> if_attrs (fo_info s) = if_attrs (fo_info s')) /\
  (flat_map program_part l = flat_map program_part l' -> if_lib (fo_info s) = if_lib (fo_info s')) /\
  (glyph_parts c None l = glyph_parts c None l' -> fo_glyphs s = fo_glyphs s') /\
  (flat_map tt_part l = flat_map tt_part l' -> fo_tt s = fo_tt s') /\
  (flat_map option_part l = flat_map option_part l' -> fo_options s = fo_options s') /\
  (flat_map feature_part l = flat_map feature_part l' -> fo_features s = fo_features s') /\
  (flat_map class_part l = flat_map class_part l' -> fo_groups s = fo_groups s') /\
  (flat_map flags_part l = flat_map flags_part l' -> fo_flags s = fo_flags s') /\
  (flat_map guides_part l = flat_map guides_part l' -> fo_guides s = fo_guides s') /\
  (flat_map props_part l = flat_map props_part l' -> fo_props s = fo_props s') /\
  (flat_map design_part l = flat_map design_part l' -> fo_design s = fo_design s').
Proof.
  intros c es es' s s' T T' B B' l l'. pose proof (C85_parts c es s T B) as M. pose proof (C85_parts c es' s' T' B') as M'.
  fold l in M. fold l' in M'. destruct M, M'. clear B B' T T'.
  destruct from_info as (i & I & Ai), from_info0 as (i' & I' & Ai'), from_programs as (p & P & Pi), from_programs0 as (p' & P' & Pi').
  repeat split; intros E; try congruence; rewrite E in *; congruence.
Qed.

(** *** Glyphs *)
Definition glyph_item {V} (e : b_entry V) : list (pystr * list (Z * list Z) * V) :=
  match e with BGlyphE n k v => [(n, k, v)] | _ => [] end.
Definition block_item {V} (b : block V) : pystr * list (Z * list Z) * V := (bl_name b, bl_kerning b, bl_data b).
Lemma as_file : forall V (es : list (b_entry V)), exists front blocks, es = file front blocks /\
  Forall no_glyph front /\ Forall (fun b => Forall no_glyph (bl_rest b)) blocks /\
  map block_item blocks = flat_map glyph_item es.
Proof.
  intros V. induction es as [|e es (front & blocks & -> & F & B & M)].
  { exists [], []. repeat split; constructor. }
  destruct e as [n k v| | | | | | | |]; [exists [], (Block n k v front :: blocks)|..];
    try (eexists (_ :: front), blocks; split; [reflexivity|]; split; [constructor; [exact Coq.Init.Logic.I|exact F]|];
         split; [exact B|]; rewrite M; reflexivity).
  split; [reflexivity|]. split; [constructor|]. split; [constructor; [exact F|exact B]|]. cbn [map flat_map glyph_item app]. rewrite M. reflexivity.
Qed.
Ltac other_key N := match goal with k : Z |- _ => destruct k as [|p|p]; try solve [constructor] end;
  repeat (match goal with |- context [match ?p with xH => _ | xO _ => _ | xI _ => _ end] => destruct p end;
          try solve [constructor]; try (exfalso; apply N; cbn [In glyph_details]; tauto)).
Lemma no_items : forall c z k d, k <> 2001 -> flat_map glyph_item (glyph_part c z (k, d)) = [].
Proof.
  intros c z k d N. unfold glyph_part. destruct k as [|p|p]; try reflexivity.
  repeat (match goal with |- context [match ?p with xH => _ | xO _ => _ | xI _ => _ end] => destruct p end; try reflexivity; try congruence);
    destruct d; try reflexivity. destruct (gd_anchors x); reflexivity.
Qed.
Lemma front_part : forall c z k d, k <> 2001 -> ~ In k glyph_details -> Forall no_part (glyph_part c z (k, d)).
Proof.
  intros c z k d N D. unfold glyph_part. destruct k as [|p|p]; try solve [constructor].
  repeat (match goal with |- context [match ?p with xH => _ | xO _ => _ | xI _ => _ end] => destruct p end;
          try solve [constructor]; try congruence; try (exfalso; apply D; cbn [In glyph_details]; tauto));
    destruct d; repeat constructor.
Qed.
Definition item_from (x : glyph) (i : pystr * list (Z * list Z) * gvalue) : Prop :=
  g_name x = Some (fst (fst i)) /\ snd (fst i) = kerning_of x /\
  exists m z, snd i = VGlyph m z /\ g_name x = Some (mg_name m) /\ g_nodes x = Some (mg_nodes m) /\
    g_metrics x = Some (mg_metrics m) /\ match g_components x with Some k => k | None => [] end = mg_components m.
Lemma items_from : forall c l z, Forall (fun e => type_of_key (fst e) (snd e) = true) l -> glyphs_complete l ->
  Forall2 item_from (glyph_entries l) (flat_map glyph_item (glyph_parts c z l)).
Proof.
  intros c. induction l as [|[k d] l IH]; intros z T G; cbn [glyph_parts glyph_entries flat_map]; [constructor|].
  inversion_clear T as [|? ? T1 T2]. cbn [fst snd] in T1 |- *. rewrite flat_map_app.
  assert (X : Forall2 item_from (glyph_entries l) (flat_map glyph_item (glyph_parts c (zones_of (k, d) z) l))).
  { apply IH; [exact T2|]. intros x I. apply G. right. exact I. }
  destruct (Z.eqb_spec k 2001) as [->|N].
  - change (type_of_key 2001 d) with (match d with DGlyph _ => true | _ => false end) in T1. destruct d; try discriminate T1.
    assert (C : complete x) by (apply G; left; reflexivity).
    destruct C as (C1 & C2 & C3). cbn [glyph_part]. unfold build_mm_glyph.
    destruct (g_name x) as [n|] eqn:En; [|congruence]. destruct (g_metrics x) as [m|] eqn:Em; [|congruence].
    destruct (g_nodes x) as [o|] eqn:Eo; [|congruence]. cbn [get_key rthen rmap flat_map glyph_item app mg_name].
    constructor; [|exact X]. unfold item_from. cbn [fst snd]. split; [exact En|]. split; [reflexivity|].
    do 2 eexists. split; [reflexivity|]. cbn [mg_name mg_nodes mg_metrics mg_components]. auto.
  - rewrite no_items by exact N. exact X.
Qed.
Lemma front_ok : forall c l z front blocks, details_follow l -> glyph_parts c z l = file front blocks -> Forall no_glyph front ->
  Forall (fun b => Forall no_glyph (bl_rest b)) blocks -> glyphs_complete l -> Forall (fun e => type_of_key (fst e) (snd e) = true) l ->
  Forall no_part front.
Proof.
  intros c. induction l as [|[k d] l IH]; intros z front blocks D E F B G T.
  { cbn [glyph_parts] in E. unfold file in E. symmetry in E. apply app_eq_nil in E. destruct E as (-> & _). constructor. }
  inversion_clear T as [|? ? T1 T2]. cbn [fst snd] in T1. cbn [glyph_parts] in E. destruct (Z.eq_dec k 2001) as [->|N].
  - change (type_of_key 2001 d) with (match d with DGlyph _ => true | _ => false end) in T1. destruct d; try discriminate T1.
    destruct (complete_ok (st_minimal c) (st_ps_hints c) x (G x (or_introl eq_refl))) as ((m & y) & R).
    cbn [glyph_part] in E. rewrite R in E. cbn [app] in E. destruct front as [|e front]; [constructor|].
    unfold file in E. cbn [app] in E. injection E as E _. inversion_clear F as [|? ? F1 _]. rewrite <- E in F1. destruct F1.
  - cbn [details_follow fst] in D. destruct D as [D|(D1 & D2)]; [contradiction|].
    pose proof (front_part c z k d N D1) as P. set (q := glyph_part c z (k, d)) in *. clearbody q.
    revert front E F. induction q as [|e q IHq]; intros front E F.
    + cbn [app] in E. eapply IH; [exact D2|exact E|exact F|exact B| |exact T2]. intros x I. apply G. right. exact I.
    + inversion_clear P as [|? ? P1 P2]. destruct front as [|f front]; [constructor|]. unfold file in E. cbn [app] in E.
      injection E as -> E. inversion_clear F as [|? ? F1 F2]. constructor; [exact P1|]. apply IHq; assumption.
Qed.
(** The font has one glyph per glyph entry, in the order of the file, with the name, outline, metrics and components
    of the entry, and the kerning pairs of the glyph entries and no others. *)
Theorem C85_glyphs : forall c es s, Forall typed es -> build_font c es = Ok s ->
  let l := used (st_vfb_minimal c) es in
  let names := flat_map name_of (glyph_entries l) in
  details_follow l -> names <> [] -> NoDup names -> not_crowded (removelast names) ->
  Forall (fun x => NoDup (map fst (kerning_of x))) (glyph_entries l) ->
  map fst (bs_glyphs (fo_glyphs s)) = names /\ bs_order (fo_glyphs s) = names /\
  Forall2 glyph_from (glyph_entries l) (map snd (bs_glyphs (fo_glyphs s))) /\
  forall left right values, In ((left, right), values) (bs_kerning (fo_glyphs s)) <->
    exists x, In x (glyph_entries l) /\ g_name x = Some left /\ In (right, values) (kerning_of x).
Proof.
  intros c es s T Bu l names D Ne Nd Nc K.
  assert (G : glyphs_complete l).
  { unfold build_font in Bu. destruct (res_fold (build_step c) new_font es) eqn:F; [|discriminate]. eapply built_complete. exact F. }
  pose proof (C85_parts c es s T Bu) as M. fold l in M. destruct M as [_ _ M _ _ _ _ _ _ _ _ _ _].
  assert (Tl : Forall (fun e => type_of_key (fst e) (snd e) = true) l).
  { eapply Forall_impl; [|apply used_typed; exact T]. intros e X. exact (proj1 X). }
  destruct (as_file _ (glyph_parts c None l)) as (front & blocks & E & F & B & I).
  pose proof (front_ok c l None front blocks D E F B G Tl) as P.
  pose proof (items_from c l None Tl G) as X. rewrite <- I in X.
  assert (N : map bl_name blocks = names).
  { unfold names. clear - X. revert X. generalize (glyph_entries l). induction blocks as [|b blocks IH]; intros xs X; inversion X; subst; [reflexivity|].
    cbn [map flat_map]. rewrite <- (IH _ H3). destruct H2 as (Hn & _). unfold name_of. rewrite Hn. reflexivity. }
  assert (Kb : Forall (fun b => NoDup (map fst (bl_kerning b))) blocks).
  { clear - X K. revert X K. generalize (glyph_entries l). induction blocks as [|b blocks IH]; intros xs X K; [constructor|].
    inversion X; subst. inversion_clear K as [|? ? K1 K2]. constructor; [|eapply IH; eassumption].
    destruct H2 as (_ & Hk & _). cbn [block_item fst snd] in Hk. rewrite Hk. exact K1. }
  destruct (C54_distinct gvalue front blocks) as (s' & E' & R1 & R2 & R3 & R4).
  { split; assumption. }
  { intros ->. apply Ne. rewrite <- N. reflexivity. }
  { rewrite <- N in Nc. clear - Nc. replace (map bl_name (removelast blocks)) with (removelast (map bl_name blocks)); [exact Nc|].
    clear Nc. induction blocks as [|b [|b' blocks] IH]; [reflexivity|reflexivity|].
    change (removelast (map bl_name (b :: b' :: blocks))) with (bl_name b :: removelast (map bl_name (b' :: blocks))).
    rewrite IH. reflexivity. }
  { rewrite N. exact Nd. }
  { exact Kb. }
  rewrite <- E in E'. rewrite M in E'. apply Ok_inj in E'. subst s'. rewrite N in R1, R2.
  split; [exact R1|]. split; [exact R2|]. split.
  - clear - X R3. revert X R3. generalize (glyph_entries l). generalize (map snd (bs_glyphs (fo_glyphs s))).
    induction blocks as [|b blocks IH]; intros gs xs X R; inversion X; inversion R; subst; [constructor|].
    constructor; [|apply IH; assumption]. destruct H2 as (Hn & _ & m & z & Hm & H). cbn [block_item fst snd] in Hn, Hm.
    destruct H6 as (Gn & Gd & _). exists m, z. rewrite Gd, Gn. split; [exact Hm|]. split; [exact Hn|exact H].
  - intros left right values. rewrite R4. clear - X. split.
    + intros (b & Ib & <- & Hk). revert X. generalize (glyph_entries l). induction blocks as [|b' blocks IH]; intros xs X; [destruct Ib|].
      inversion X as [|x i xs' is Hx Hxs E1 E2]; subst. destruct Ib as [->|Ib].
      * exists x. split; [left; reflexivity|]. destruct Hx as (Hn & Hk' & _). cbn [block_item fst snd] in Hn, Hk'. rewrite <- Hk'. auto.
      * destruct (IH Ib _ Hxs) as (y & Y & Z). exists y. split; [right; exact Y|exact Z].
    + intros (x & Ix & Hn & Hk). revert X Ix. generalize (glyph_entries l). induction blocks as [|b' blocks IH]; intros xs X Ix.
      * inversion X; subst. destruct Ix.
      * inversion X as [|x' i xs' is Hx Hxs E1 E2]; subst. destruct Ix as [->|Ix].
        -- exists b'. split; [left; reflexivity|]. destruct Hx as (Hn' & Hk' & _). cbn [block_item fst snd] in Hn', Hk'.
           split; [congruence|]. rewrite Hk'. exact Hk.
        -- destruct (IH _ Hxs Ix) as (b & Y & Z). exists b. split; [right; exact Y|exact Z].
Qed.

(** From the bytes of a file: the entries that are read have the types that the export expects, so all of the above
    holds for them. *)
Theorem C85_file : forall o file fuel uni v0 rest v c, bytes_ok file -> Z.of_nat (List.length file) < 2 ^ 31 ->
  vfb_read_bytes (table o) fuel (new_vfb [] false uni) file = (v0, ROk tt rest) -> vfb_decompile (table o) v0 = (v, Ok tt) ->
  Forall typed (entries_of (v_entries v)) /\
  ((exists s, build_font c (entries_of (v_entries v)) = Ok s) <->
     can_be_made c (used (st_vfb_minimal c) (entries_of (v_entries v)))) /\
  forall s, build_font c (entries_of (v_entries v)) = Ok s ->
    made_of c (used (st_vfb_minimal c) (entries_of (v_entries v))) s.
Proof.
  intros o file fuel uni v0 rest v c Hf L E D.
  destruct (file_reads o _ _ _ _ _ _ Hf L E D) as (minor & l & _ & _ & He & _ & _ & _ & HP).
  assert (T : Forall typed (entries_of (v_entries v))).
  { rewrite He. unfold entries_of, decompiled. apply Forall_flat_map. apply Forall_map. eapply Forall_impl; [|exact HP].
    intros [i x] (b & (Hb & _) & Eb). cbn [fst snd e_id e_data] in *. constructor; [|constructor].
    eapply parsed_typed; eassumption. }
  split; [exact T|]. split; [apply C85_succeeds; exact T|]. intros s B. apply C85_parts; assumption.
Qed.
(** The attributes of [fontinfo.plist], as in C82. *)
Theorem C85_attributes : forall c es s a v, Forall typed es -> build_font c es = Ok s ->
  let l := flat_map info_part (used (st_vfb_minimal c) es) in Forall entry_data_ok l ->
  a <> py "postscriptUnderlinePosition" -> says false l a v -> aget str_eqb a (if_attrs (fo_info s)) = v.
Proof.
  intros c es s a v T B l D N S. destruct (C85_parts c es s T B) as [(i & I & A) _ _ _ _ _ _ _ _ _ _ _ _].
  destruct (C82_attributes false l D) as (i' & I' & R & _). fold l in I. rewrite I in I'. apply Ok_inj in I'. subst i'.
  rewrite A. apply R; assumption.
Qed.

(** But the TrueType zones of a glyph are those of the zones entry before it: where that entry is matters. *)
Definition c85_glyph : glyph := Glyph (Some (py "A")) (Some 1) (Some []) (Some [(600, 0)]) None None None None None (Some []).
Definition c85_zones : tt_zones := TTZones (Some [TTZone 700 10 (py "cap")]) (Some [TTZone 0 10 (py "base")]).
Theorem C85_zones_refuted : forall c, exists s s', 
  build_font c [(1255, Some (DZones c85_zones)); (2001, Some (DGlyph c85_glyph))] = Ok s /\
  build_font c [(2001, Some (DGlyph c85_glyph)); (1255, Some (DZones c85_zones))] = Ok s' /\
  fo_tt s = fo_tt s' /\
  (exists m, map (fun p => bg_data (snd p)) (bs_glyphs (fo_glyphs s)) = [VGlyph m (Some ([py "cap"], [py "base"]))]) /\
  (exists m, map (fun p => bg_data (snd p)) (bs_glyphs (fo_glyphs s')) = [VGlyph m None]).
Proof.
  intros [[] mi ps ops up asm]; do 2 eexists; (split; [vm_compute; reflexivity|]); (split; [vm_compute; reflexivity|]);
    (split; [reflexivity|]); split; eexists; reflexivity.
Qed.

(** A file with entries of most parts. *)
Definition c85_entries : list (Z * option value) :=
  [(1024, Some (DStr (py "Test"))); (1137, Some (DStr (py "Bold"))); (1048, Some (DInt 700)); (1030, Some (DInt (-100)));
   (1031, Some (DInt 50)); (1500, Some (DEncoding (65, py "A"))); (1261, Some (DStr (py "0100ffff")));
   (1255, Some (DZones c85_zones)); (1277, Some (DStr (py "_A: A' Aacute"))); (1276, Some (DLines [py "feature kern {}"]));
   (1530, Some (DInt 4)); (1513, Some (DInt 0)); (1503, Some (DInt 1)); (2023, None);
   (2001, Some (DGlyph c85_glyph)); (1250, Some (DInts [65]));
   (2001, Some (DGlyph (Glyph (Some (py "B")) (Some 1) (Some []) (Some [(500, 0)]) None None None (Some [(0, [-20])]) None None)));
   (1253, Some (DInts [66; 946])); (2017, Some (DStr (py "note"))); (2016, Some (DStr (py "data")))].
Example c85_typed : Forall typed c85_entries.
Proof.
  unfold c85_entries, typed. repeat constructor; cbn [fst snd]; intros I;
    try (exfalso; cbn [In] in I; repeat (destruct I as [I|I]; [discriminate I|]); exact I).
  exists [1; 0; 255; 255]. split; [|reflexivity]. unfold bytes_ok, is_byte. repeat (apply Forall_cons; [lia|]). apply Forall_nil.
Qed.
Example c85_built : forall c, exists s, build_font c c85_entries = Ok s /\
  map fst (bs_glyphs (fo_glyphs s)) = [py "A"; py "B"] /\
  aget str_eqb (py "openTypeOS2WeightClass") (if_attrs (fo_info s)) = Some (IInt 700) /\
  aget str_eqb (py "com.fontlab.v5.userData") (fo_lib s) = Some (DStr (py "data")).
Proof.
  intros [[] mi ps ops up asm]; eexists; (split; [vm_compute; reflexivity|]); (split; [vm_compute; reflexivity|]);
    split; vm_compute; reflexivity.
Qed.
Example c85_glyph_conditions : let l := used false c85_entries in let names := flat_map name_of (glyph_entries l) in
  details_follow l /\ names = [py "A"; py "B"] /\ NoDup names /\ not_crowded (removelast names) /\
  Forall (fun x => NoDup (map fst (kerning_of x))) (glyph_entries l).
Proof.
  cbv zeta. split; [|split; [vm_compute; reflexivity|split; [|split]]].
  - vm_compute. repeat first [left; reflexivity | right; split; [intros I; repeat (destruct I as [I|I]; [discriminate I|]); exact I|]].
  - vm_compute. repeat constructor; cbn [In]; intuition discriminate.
  - vm_compute. repeat constructor.
  - vm_compute. repeat constructor; cbn [In]; tauto.
Qed.
Print Assumptions C85_parts.
Print Assumptions C85_succeeds.
Print Assumptions C85_independent.
Print Assumptions C85_glyphs.
Print Assumptions C85_file.
Print Assumptions C85_attributes.
Print Assumptions C85_zones_refuted.
