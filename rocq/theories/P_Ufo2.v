(** Proofs about the UFOs: one glyph and all glyphs of a master. *)
From Coq Require Import String QArith Lia ZifyBool ZifyNat.
From Verif Require Import Base Lib M_Py M_Helpers M_Simple M_Text M_TrueType M_Bitmap M_Glyph M_Options M_Container M_Table M_Groups.
From Verif Require Import M_Info M_FontInfo M_Tth M_Programs M_Builder M_Master M_Features M_Designspace M_Build M_Labels M_PsHints.
From Verif Require Import M_Paths M_Guides M_Export M_Ufo S_Build S_Paths S_Guides S_Ufo S_Builder.
From Verif Require Import Prop_Paths Prop_Guides P_Ufo.
Local Open Scope list_scope.
Local Open Scope Z_scope.

(** contours are empty only without nodes *)
Lemma loop_contours : forall m labels nodes i st st', nodes_loop m labels i nodes st = Ok st' ->
  (ps_contours st <> [] -> ps_contours st' <> []) /\ (ps_contour st <> [] \/ nodes <> [] -> ps_contour st' <> []).
Proof.
  intros m labels. induction nodes as [|n nodes IH]; intros i st st' H; cbn [nodes_loop] in H.
  - apply Ok_inj in H. subst st'. split; [tauto|]. intros [X|X]; [exact X|congruence].
  - destruct (node_turn m (labels i) n st) as [s|] eqn:T; [|discriminate]. cbn [rthen] in H. destruct (IH _ _ _ H) as [A B].
    assert (C : (ps_contours st <> [] -> ps_contours s <> []) /\ ps_contour s <> []).
    { unfold node_turn in T. destruct (py_index (nd_points n) m) as [row|]; [|discriminate]. cbn [rthen] in T.
      destruct (py_index row 0) as [pt|]; [|discriminate]. cbn [rthen] in T.
      assert (Ap : forall (l : list upoint) x y, (l ++ x :: y) <> []) by (intros [|? ?] x y; discriminate).
      destruct (nd_type n).
      - apply Ok_inj in T. subst s. cbn [ps_contours ps_contour]. split; [|discriminate]. unfold append_contour. intros X.
        destruct (ps_contour st) as [|p0 rest]; [exact X|]. destruct (flush_contour _ _ _ _). cbn [ps_contours]. destruct (ps_contours st); discriminate.
      - apply Ok_inj in T. subst s. cbn [add_points ps_contours ps_contour]. split; [tauto|apply Ap].
      - destruct row as [|a [|b [|d [|? ?]]]]; try discriminate. apply Ok_inj in T. subst s. cbn [add_points ps_contours ps_contour]. split; [tauto|apply Ap].
      - apply Ok_inj in T. subst s. cbn [add_points ps_contours ps_contour]. split; [tauto|apply Ap]. }
    split; [tauto|]. intros _. apply B. left. tauto.
Qed.
Lemma contours_nil : forall m labels nodes cs ren, extract_contours m labels nodes = Ok (cs, ren) -> (cs = [] <-> nodes = []).
Proof.
  intros m labels nodes cs ren H. unfold extract_contours in H. destruct (nodes_loop _ _ _ _ _) as [st|] eqn:E; [|discriminate].
  cbn [rmap] in H. apply Ok_inj in H. injection H as H _. split.
  - intros ->. destruct nodes as [|n nodes]; [reflexivity|]. exfalso. destruct (loop_contours _ _ _ _ _ _ E) as [_ B].
    assert (N : ps_contour st <> []) by (apply B; right; discriminate). unfold append_contour in H. destruct (ps_contour st); [congruence|].
    destruct (flush_contour _ _ _ _). cbn [ps_contours] in H. destruct (ps_contours st); discriminate.
  - intros ->. cbn in E. apply Ok_inj in E. subst st. cbn in H. congruence.
Qed.
Lemma guides_ok : forall number m d props us, extract_guides number d props (Z.of_nat m) = Ok us -> guides_shown number m d props us.
Proof.
  intros number m d props us H A P. destruct (C67_guides number d props m A P) as (h & v & E & R). rewrite H in E. apply Ok_inj in E.
  exists h, v. split; [exact E|exact R].
Qed.

Definition mask_of_block (minimal : bool) (m : nat) (b : glyph * list (Z * value)) (k : option mask_glyph) : Prop :=
  if minimal then k = None
  else exists r, k = Some r /\ mask_shown m (fst b) (snd b) r /\ (ok_contours r = [] <-> said_mask (snd b) = []).
Lemma one_shown : forall c o order m name b g cmds st u k st', glyph_data c b g ->
  (g_tth (fst b) = None -> cmds = []) ->
  export_one c o order (Z.of_nat m) name g cmds st = Ok (u, k, st') ->
  glyph_shown c o order m (fst b) (snd b) u /\ mask_of_block (st_minimal c) m b k.
Proof.
  intros c o order m name [x D] g cmds st u k st' [(mg & y & z & R & Hd) Hf Ha Hu Hm] Ht H. cbn [fst snd] in *.
  unfold export_one in H. rewrite Hd in H.
  destruct (export_glyph _ _ _ _ _ _ _) as [[ex st1]|] eqn:E1; [|discriminate]. cbn [rthen fst snd] in H.
  destruct (tth_lib cmds) as [tth|] eqn:E2; [|discriminate]. cbn [rthen] in H.
  destruct (if st_minimal c then _ else _) as [mask|] eqn:E3 in H; [|discriminate]. cbn [rthen] in H.
  destruct (extract_components _ _ _ _) as [comps|] eqn:E4; [|discriminate]. cbn [rthen] in H.
  destruct (build_master _ _ _ _) as [d|] eqn:E5; [|discriminate]. cbn [rthen] in H.
  destruct (if st_minimal c then _ else _) as [gd|] eqn:E6 in H; [|discriminate]. cbn [rthen] in H.
  destruct (finalize_tth _ _) as [tt|] eqn:E7; [|discriminate]. cbn [rmap] in H. apply Ok_inj in H. injection H as Eu Ek _.
  (* the glyph entry *)
  unfold build_mm_glyph in R. destruct (g_name x) as [nm|] eqn:Gn; [|discriminate]. cbn [get_key rthen] in R.
  destruct (g_metrics x) as [ms|] eqn:Gm; [|discriminate]. cbn [get_key rthen] in R. destruct (g_nodes x) as [nodes|] eqn:Go; [|discriminate].
  cbn [get_key rmap] in R. apply Ok_inj in R. injection R as R _.
  assert (M1 : mg_metrics mg = ms) by (subst mg; reflexivity). assert (M2 : mg_nodes mg = nodes) by (subst mg; reflexivity).
  assert (M3 : mg_components mg = match g_components x with Some l => l | None => [] end) by (subst mg; reflexivity).
  assert (M4 : mg_guides mg = if st_minimal c then None else g_guides x) by (subst mg; reflexivity).
  assert (M5 : mg_instructions mg = set_instructions (g_imported x)) by (subst mg; reflexivity). clear R.
  (* the master *)
  unfold build_master in E5. destruct (if st_minimal c then _ else _) as [mm|] eqn:E8 in E5; [|discriminate]. cbn [rthen] in E5.
  destruct (extract_anchors _ _ _) as [an|] eqn:E9; [|discriminate]. cbn [rthen] in E5.
  destruct (py_index _ _) as [wh|] eqn:E10 in E5; [|discriminate]. cbn [rmap] in E5. apply Ok_inj in E5. subst d.
  apply py_index_of_nat in E10. rewrite M1 in E10.
  cbn [um_metrics um_anchors um_unicodes um_mask_metrics] in *. cbn [glyph_extras_of ge_anchors ge_mm_anchors ge_mask_metrics ge_unicodes] in *.
  apply anchors_shown in E9. rewrite Ha in E9.
  assert (Mm : match glyph_mm_anchors g with Some l => l | None => [] end = said_positions D).
  { unfold glyph_mm_anchors, said_positions. rewrite (Hf FMMAnchors 2029 eq_refl). destruct (said 2029 D) as [[]|]; reflexivity. }
  rewrite Mm in E9.
  (* contours *)
  unfold export_glyph in E1. destruct (if st_ps_hints c then _ else _) as [[hs st2]|] eqn:E11 in E1; [|discriminate]. cbn [rthen fst snd] in E1.
  destruct (aget_res _ _ _) as [lg|] in E1; [|discriminate]. cbn [rthen] in E1. cbn [eglyph_of eg_nodes] in E1. rewrite M2 in E1.
  destruct (extract_contours _ _ _) as [[cs ren]|] eqn:E12 in E1; [|discriminate]. cbn [rmap fst snd] in E1. apply Ok_inj in E1. injection E1 as <- _.
  cbn [ex_contours ex_hints] in Eu. split.
  - subst u. constructor; cbn [fst snd og_width og_height og_unicodes og_contours og_components og_anchors og_guidelines og_lib gl_program gl_hints gl_tth gl_user_data gl_mark gl_background gl_bitmaps].
    + exists ms. split; [exact Gm|]. rewrite <- surjective_pairing. exact E10.
    + exact Hu.
    + exists nodes. split; [exact Go|]. eapply drawn_ok. exact E12.
    + rewrite <- M3. apply components_ok. exact E4.
    + exact E9.
    + rewrite M4 in E6. destruct (st_minimal c); [apply Ok_inj in E6; auto|]. destruct (g_guides x); [|apply Ok_inj in E6; auto].
      apply guides_ok in E6. unfold glyph_props in E6. rewrite (Hf FGuides 2031 eq_refl) in E6. exact E6.
    + exact (Hf FUserData 2015 eq_refl).
    + rewrite (Hf FMark 2012 eq_refl). destruct (said 2012 D) as [[]|]; try reflexivity. eexists. split; [reflexivity|]. apply mark_shown.
    + rewrite (Hf FBackground 2007 eq_refl). destruct (said 2007 D) as [[]|]; reflexivity.
    + rewrite (Hf FBitmaps 2013 eq_refl). reflexivity.
    + rewrite M5. unfold set_instructions. destruct (g_imported x) as [i|]; [|reflexivity]. destruct (im_instructions i) as [[|a p]|]; reflexivity.
    + intros P. rewrite P in E11. apply Ok_inj in E11. injection E11 as <- _. reflexivity.
    + intros P. rewrite (Ht P) in E2. cbn in E2. apply Ok_inj in E2. subst tth. cbn in E7. apply Ok_inj in E7. congruence.
  - unfold mask_of_block. destruct (st_minimal c).
    + apply Ok_inj in E3. subst mask. symmetry. exact Ek.
    + destruct (extract_contours _ _ _) as [[kc kr]|] eqn:E13 in E3; [|discriminate]. cbn [rmap] in E3. apply Ok_inj in E3. subst mask.
      destruct (extract_mask_metrics _ _ _) as [[w h]|] eqn:E14 in E8; [|discriminate]. cbn [rmap] in E8. apply Ok_inj in E8. subst mm.
      exists (MaskGlyph w h kc). split; [symmetry; exact Ek|].
      assert (Mk : glyph_mask g = said_mask D).
      { unfold glyph_mask, said_mask. rewrite (Hf FMask 2009 eq_refl). reflexivity. }
      rewrite Mk in E13. split; [|cbn [ok_contours]; eapply contours_nil; exact E13]. constructor; cbn [fst snd ok_width ok_height ok_contours].
      * unfold extract_mask_metrics in E14. rewrite Hm, M1 in E14. destruct (mask_sizes D) as [|s sizes].
        -- exists ms. split; [exact Gm|]. now apply py_index_of_nat.
        -- destruct (_ <? _) in E14; [discriminate|]. now apply py_index_of_nat.
      * eapply drawn_ok. exact E13.
      * intros gs F C. destruct (C50_unnamed m _ gs F C) as (cs' & E' & Q). rewrite E13 in E'. apply Ok_inj in E'. injection E' as <- _. exact Q.
Qed.

(** all glyphs *)
Lemma all_shown : forall c o order m commands glyphs blocks st gs ks st',
  Forall2 (glyph_data c) blocks (map snd glyphs) ->
  Forall2 (fun b p => g_name (fst b) = Some (fst p)) blocks glyphs ->
  Forall2 (fun b p => g_tth (fst b) = None -> aget str_eqb (fst p) commands = None) blocks glyphs ->
  export_all c o order (Z.of_nat m) glyphs commands st = Ok (gs, ks, st') ->
  map fst gs = map fst glyphs /\ Forall2 (fun b q => glyph_shown c o order m (fst b) (snd b) (snd q)) blocks gs /\
  (if st_minimal c then ks = []
   else Forall2 (fun b q => g_name (fst b) = Some (fst q) /\ mask_shown m (fst b) (snd b) (snd q)) (filter has_mask blocks) ks).
Proof.
  intros c o order m commands. induction glyphs as [|[name g] glyphs IH]; intros blocks st gs ks st' G N T H; cbn [export_all] in H.
  - apply Ok_inj in H. injection H as <- <- _. inversion G; subst. split; [reflexivity|]. split; [constructor|]. destruct (st_minimal c); [reflexivity|constructor].
  - cbn [map snd] in G. inversion G as [|b ? bs ? G1 G2]; subst. inversion N as [|? ? ? ? N1 N2]; subst. inversion T as [|? ? ? ? T1 T2]; subst. cbn [fst snd] in *.
    destruct (export_one _ _ _ _ _ _ _ _) as [[[u k] st1]|] eqn:E1; [|discriminate]. cbn [rthen fst snd] in H.
    destruct (export_all _ _ _ _ _ _ _) as [[[gs1 ks1] st2]|] eqn:E2; [|discriminate]. cbn [rmap fst snd] in H. apply Ok_inj in H. injection H as Eg Ek _.
    assert (T0 : g_tth (fst b) = None -> match aget str_eqb name commands with Some l => l | None => [] end = []) by (intros P; rewrite (T1 P); reflexivity).
    destruct (one_shown _ _ _ _ _ b _ _ _ _ _ _ G1 T0 E1) as [S1 S2].
    destruct (IH bs _ _ _ _ G2 N2 T2 E2) as (I1 & I2 & I3). subst gs. cbn [map fst]. split; [congruence|]. split; [constructor; assumption|].
    unfold mask_of_block in S2. destruct (st_minimal c).
    + subst k ks1. now subst ks.
    + destruct S2 as (r & -> & Sr & Sn). cbn [filter]. unfold has_mask at 1. destruct (said_mask (snd b)) as [|n nodes] eqn:Em.
      * destruct (ok_contours r) as [|? ?]; [subst ks; exact I3|]. exfalso. assert (X : l :: l0 = []) by (now apply Sn). discriminate X.
      * destruct (ok_contours r) as [|? ?] eqn:Ec; [exfalso; assert (X : n :: nodes = []) by (now apply Sn); discriminate X|].
        subst ks. constructor; [|exact I3]. split; [exact N1|exact Sr].
Qed.
(** commands are exported for the glyphs that have commands *)
Lemma tt_lib_keys : forall o order t l st cmds st', tt_glyph_lib o order t l st = Ok (cmds, st') ->
  forall name, aget str_eqb name cmds <> None -> exists g x z, In (name, g) l /\ bg_data g = VGlyph x z /\ mg_tth x <> None.
Proof.
  intros o order t. induction l as [|[n g] l IH]; intros st cmds st' H name A; cbn [tt_glyph_lib] in H.
  - apply Ok_inj in H. injection H as <- _. cbn in A. congruence.
  - assert (Skip : forall st1, tt_glyph_lib o order t l st1 = Ok (cmds, st') -> exists g' x z, In (name, g') ((n, g) :: l) /\ bg_data g' = VGlyph x z /\ mg_tth x <> None).
    { intros st1 H1. destruct (IH _ _ _ H1 name A) as (g' & x & z & I & X). exists g', x, z. split; [now right|exact X]. }
    destruct (bg_data g) as [x z|d] eqn:Ed; [|eauto]. destruct (mg_tth x) as [l0|] eqn:Et; [|eauto].
    destruct (export_commands _ _ _ _ _ _) as [[a1 a2]|]; [|discriminate]. cbn [rthen fst snd] in H.
    destruct (tt_glyph_lib o order t l a2) as [[b1 b2]|] eqn:E; [|discriminate]. cbn [rmap fst snd] in H. apply Ok_inj in H. injection H as <- _.
    cbn [aget] in A. destruct (str_eqb name n) eqn:En.
    + apply str_eqb_eq in En. subst n. exists g, x, z. split; [now left|]. split; [exact Ed|congruence].
    + destruct (IH _ _ _ E name A) as (g' & x' & z' & I & X). exists g', x', z'. split; [now right|exact X].
Qed.
Lemma sorted_in : forall l p, In p (sorted_glyphs l) <-> In p l.
Proof.
  assert (X : forall x l p, In p (insert_glyph x l) <-> x = p \/ In p l).
  { intros x. induction l as [|y l IH]; intros p; cbn [insert_glyph In]; [tauto|]. destruct (glyph_ltb y x); cbn [In]; [rewrite IH; tauto|tauto]. }
  unfold sorted_glyphs. induction l as [|x l IH]; intros p; cbn [fold_right]; [tauto|]. rewrite X, IH. cbn [In]. tauto.
Qed.
Lemma masters_nth : forall c o s sh lib commands n m st us, ufo_masters c o s sh lib commands (Z.of_nat m) n st = Ok us ->
  List.length us = n /\
  forall k u, nth_error us k = Some u -> exists st1 st2, get_ufo_master c o s sh lib commands (Z.of_nat (m + k)) st1 = Ok (u, st2).
Proof.
  intros c o s sh lib commands. induction n as [|n IH]; intros m st us H; cbn [ufo_masters] in H.
  - apply Ok_inj in H. subst us. split; [reflexivity|]. intros [|k] u X; discriminate X.
  - destruct (get_ufo_master _ _ _ _ _ _ _ _) as [[u0 st1]|] eqn:E; [|discriminate]. cbn [rthen fst snd] in H.
    replace (Z.of_nat m + 1) with (Z.of_nat (S m)) in H by lia.
    destruct (ufo_masters _ _ _ _ _ _ _ _ _) as [us1|] eqn:E1; [|discriminate]. cbn [rmap] in H. apply Ok_inj in H. subst us.
    destruct (IH _ _ _ E1) as [L R]. split; [cbn; congruence|]. intros [|k] u X; cbn [nth_error] in X.
    + injection X as <-. rewrite Nat.add_0_r. eauto.
    + replace (m + S k)%nat with (S m + k)%nat by lia. eauto.
Qed.
