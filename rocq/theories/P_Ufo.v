(** Proofs about the UFOs. *)
From Coq Require Import String QArith Lia ZifyBool ZifyNat.
From Verif Require Import Base Lib M_Py M_Helpers M_Simple M_Text M_TrueType M_Bitmap M_Glyph M_Options M_Container M_Table M_Groups.
From Verif Require Import M_Info M_FontInfo M_Tth M_Programs M_Builder M_Master M_Features M_Designspace M_Build M_Labels M_PsHints.
From Verif Require Import M_Paths M_Guides M_Export M_Ufo S_Build S_Paths S_Guides S_Ufo S_Builder.
From Verif Require Import P_Builder P_Tth P_Guides P_Master P_Paths Prop_Paths Prop_Guides Prop_Builder Prop_Build.
Local Open Scope list_scope.
Local Open Scope Z_scope.

(** ** The entries of the builder, glyph by glyph *)
Definition fields_of {V} (f : field) (es : list (b_entry V)) : list V :=
  flat_map (fun e => match e with BField f' v => if field_eqb f f' then [v] else [] | _ => [] end) es.
Lemma last_app : forall A (a b : list A) d, last (a ++ b) d = last b (last a d).
Proof.
  induction a as [|x a IH]; intros b d; [reflexivity|]. destruct b as [|y b]; [now rewrite app_nil_r|].
  cbn [app]. destruct a as [|z a]; [cbn [app last]; destruct b; [reflexivity|]|].
  - assert (H : forall A (l : list A) x d d', last (x :: l) d = last (x :: l) d').
    { clear. intros A. induction l as [|y l IH]; intros x d d'; [reflexivity|]. cbn [last]. apply IH. }
    apply H.
  - cbn [last app] in *. rewrite IH. reflexivity.
Qed.
Lemma field_eqb_refl : forall f, field_eqb f f = true.
Proof. intros f. now apply field_eqb_eq. Qed.
Lemma last_value_iff : forall V f (es : list (b_entry V)) v,
  last_value f es v <-> last (map Some (fields_of f es)) None = Some v.
Proof.
  intros V f es v. split.
  - intros (a & b & -> & N). unfold fields_of. rewrite flat_map_app. cbn [flat_map]. rewrite field_eqb_refl.
    replace (flat_map _ b) with (@nil V); [rewrite app_nil_r, map_app, last_app; reflexivity|].
    symmetry. induction b as [|e b IH]; [reflexivity|]. cbn [flat_map]. rewrite IH; [|intros w I; apply (N w); now right].
    destruct e; try reflexivity. destruct (field_eqb f f0) eqn:E; [|reflexivity]. apply field_eqb_eq in E. subst f0.
    exfalso. apply (N v0). now left.
  - induction es as [|e es IH] using rev_ind; [discriminate|]. unfold fields_of in *. rewrite flat_map_app, map_app, last_app. cbn [flat_map].
    rewrite app_nil_r. intros H.
    assert (K : (forall w, e <> BField f w) -> last_value f (es ++ [e]) v).
    { intros N. assert (X : last (map Some (flat_map (fun e => match e with BField f' v => if field_eqb f f' then [v] else [] | _ => [] end) es)) None = Some v).
      { rewrite <- H. destruct e; try reflexivity. destruct (field_eqb f f0) eqn:E; [|reflexivity]. apply field_eqb_eq in E. subst f0. elim (N v0). reflexivity. }
      destruct (IH X) as (a & b & -> & M). exists a, (b ++ [e]). split; [now rewrite <- app_assoc|]. intros w I.
      apply in_app_or in I. destruct I as [I|[I|[]]]; [now apply (M w)|]. subst e. now apply (N w). }
    destruct e; try (apply K; discriminate). destruct (field_eqb f f0) eqn:E.
    + apply field_eqb_eq in E. subst f0. cbn [map last] in H. injection H as ->. exists es, []. split; [reflexivity|]. intros w [].
    + apply K. intros w X. injection X as <- _. rewrite field_eqb_refl in E. discriminate.
Qed.
Lemma field_is : forall V (b : block V) g f, glyph_of b g ->
  aget field_eqb f (bg_fields g) = last (map Some (fields_of f (bl_rest b))) None.
Proof.
  intros V b g f (_ & _ & _ & _ & H). destruct (aget field_eqb f (bg_fields g)) as [v|] eqn:A.
  - apply (aget_In field_eqb field_eqb_eq) in A. apply H in A. apply last_value_iff in A. congruence.
  - destruct (last (map Some (fields_of f (bl_rest b))) None) as [v|] eqn:L; [|reflexivity].
    apply last_value_iff in L. apply H in L. exfalso. clear - A L. induction (bg_fields g) as [|[f' w] l IH]; [destruct L|].
    cbn [aget] in A. destruct (field_eqb f f') eqn:E; [discriminate|]. destruct L as [L|L]; [|auto].
    injection L as -> ->. rewrite field_eqb_refl in E. discriminate.
Qed.

(** the number of the entry that sets a field *)
Definition key_of (f : field) : option Z :=
  match f with
  | FLinks => Some 2008 | FMark => Some 2012 | FUserData => Some 2015 | FNote => Some 2017 | FMMAnchors => Some 2029
  | FGuides => Some 2031 | FBackground => Some 2007 | FBitmaps => Some 2013 | FMask => Some 2009 | FAnchors => None
  end.
Ltac by_keys := repeat (match goal with |- context [match ?p with xH => _ | xO _ => _ | xI _ => _ end] => destruct p end; try reflexivity; try congruence).
Lemma part_field : forall c z f k e, key_of f = Some k -> fields_of f (glyph_part c z e) = map VData (data_part k e).
Proof.
  intros c z f k [j d] K. destruct (Z.eq_dec j 2001) as [->|N1].
  { cbn [glyph_part]. assert (data_part k (2001, d) = []) as -> by (destruct f; cbn in K; try discriminate; injection K as <-; reflexivity).
    destruct d; try reflexivity. destruct (build_mm_glyph _ _ _) as [[? ?]|]; reflexivity. }
  unfold data_part. cbn [fst snd]. unfold glyph_part. destruct (Z.eqb_spec j k) as [->|N2].
  - destruct f; cbn in K; try discriminate; injection K as <-; reflexivity.
  - destruct f; cbn in K; try discriminate; injection K as <-; destruct j as [|p|p]; try reflexivity;
      by_keys; destruct d; try reflexivity; destruct (gd_anchors x); reflexivity.
Qed.
Lemma flat_map_map : forall A B C (f : A -> B) (g : A -> list B) (h : B -> C) (l : list A), map h (flat_map g l) = flat_map (fun x => map h (g x)) l.
Proof. induction l as [|x l IH]; [reflexivity|]. cbn [flat_map]. now rewrite map_app, IH. Qed.
Lemma parts_field : forall c f k D z, key_of f = Some k -> fields_of f (glyph_parts c z D) = map VData (flat_map (data_part k) D).
Proof.
  intros c f k D. induction D as [|e D IH]; intros z K; [reflexivity|]. cbn [glyph_parts flat_map]. unfold fields_of in *.
  rewrite flat_map_app, map_app, IH by exact K. f_equal. now apply part_field.
Qed.
Definition gdef_part (e : Z * value) : list value :=
  match e with (2018, DGdef x) => match gd_anchors x with Some _ => [DGdef x] | None => [] end | _ => [] end.
Lemma part_anchors : forall c z e, fields_of FAnchors (glyph_part c z e) = map VData (gdef_part e).
Proof.
  intros c z [j d]. destruct (Z.eq_dec j 2001) as [->|N1].
  { cbn [glyph_part]. destruct d; try reflexivity. destruct (build_mm_glyph _ _ _) as [[? ?]|]; reflexivity. }
  unfold glyph_part, gdef_part. destruct j as [|p|p]; try reflexivity; by_keys; destruct d; try reflexivity. destruct (gd_anchors x); reflexivity.
Qed.
Lemma parts_anchors : forall c D z, fields_of FAnchors (glyph_parts c z D) = map VData (flat_map gdef_part D).
Proof.
  intros c D. induction D as [|e D IH]; intros z; [reflexivity|]. cbn [glyph_parts flat_map]. unfold fields_of in *.
  rewrite flat_map_app, map_app, IH. f_equal. apply part_anchors.
Qed.
Lemma parts_unicodes : forall c D z,
  concat (map (fun e : b_entry gvalue => match e with BUnicodes l => l | _ => [] end) (glyph_parts c z D)) = code_points D.
Proof.
  intros c. induction D as [|[j d] D IH]; intros z; [reflexivity|]. cbn [glyph_parts]. unfold code_points. cbn [flat_map].
  fold (code_points D). rewrite map_app, concat_app, IH. f_equal. clear IH. destruct (Z.eq_dec j 2001) as [->|N1].
  { cbn [glyph_part]. destruct d; try reflexivity. destruct (build_mm_glyph _ _ _) as [[? ?]|]; reflexivity. }
  unfold glyph_part. destruct j as [|p|p]; try reflexivity; by_keys; destruct d; cbn; try rewrite app_nil_r; try reflexivity.
  destruct (gd_anchors x); reflexivity.
Qed.
Lemma parts_mask : forall c D z,
  concat (map (fun e : b_entry gvalue => match e with BMask l => l | _ => [] end) (glyph_parts c z D)) = mask_sizes D.
Proof.
  intros c. induction D as [|[j d] D IH]; intros z; [reflexivity|]. cbn [glyph_parts]. unfold mask_sizes. cbn [flat_map].
  fold (mask_sizes D). rewrite map_app, concat_app, IH. f_equal. clear IH. destruct (Z.eq_dec j 2001) as [->|N1].
  { cbn [glyph_part]. destruct d; try reflexivity. destruct (build_mm_glyph _ _ _) as [[? ?]|]; reflexivity. }
  unfold glyph_part. destruct j as [|p|p]; try reflexivity; by_keys; destruct d; cbn; try rewrite app_nil_r; try reflexivity.
  destruct (gd_anchors x); reflexivity.
Qed.

Definition block_from (c : settings) (b : glyph * list (Z * value)) (k : block gvalue) : Prop :=
  exists m y z z', build_mm_glyph (st_minimal c) (st_ps_hints c) (fst b) = Ok (m, y) /\ bl_name k = mg_name m /\
    bl_kerning k = kerning_of (fst b) /\ bl_data k = VGlyph m z /\ bl_rest k = glyph_parts c z' (snd b).
Definition not_2001 (e : Z * value) : Prop := fst e <> 2001.
Lemma split_case : forall e l, (exists x, e = (2001, DGlyph x) /\ split_glyphs (e :: l) = ([], (x, fst (split_glyphs l)) :: snd (split_glyphs l))) \/
  split_glyphs (e :: l) = (e :: fst (split_glyphs l), snd (split_glyphs l)) /\ (type_of_key (fst e) (snd e) = true -> fst e <> 2001).
Proof.
  intros [j d] l. cbn [split_glyphs]. destruct (split_glyphs l) as [D B]. cbn [fst snd]. destruct (Z.eq_dec j 2001) as [->|N].
  - destruct d; try (right; split; [reflexivity|intros H; discriminate H]). left. exists x. split; reflexivity.
  - right. split; [|intros _; exact N]. destruct j as [|p|p]; try reflexivity; by_keys.
Qed.
Lemma as_blocks : forall c l z, Forall (fun e => type_of_key (fst e) (snd e) = true) l -> glyphs_complete l ->
  exists front blocks, glyph_parts c z l = file front blocks /\ front = glyph_parts c z (fst (split_glyphs l)) /\
    Forall2 (block_from c) (glyph_blocks l) blocks /\
    Forall2 (fun z k => exists m, bl_data k = VGlyph m z) (glyph_zones z l) blocks.
Proof.
  intros c. unfold glyph_blocks. induction l as [|e l IH]; intros z T G; [exists [], []; repeat split; constructor|].
  inversion_clear T as [|? ? T1 T2]. assert (G2 : glyphs_complete l) by (intros x I; apply G; right; exact I).
  destruct (split_case e l) as [(x & -> & ->)|(-> & N)]; cbn [fst snd].
  - destruct (complete_ok (st_minimal c) (st_ps_hints c) x (G x (or_introl eq_refl))) as ((m & y) & R).
    destruct (IH z T2 G2) as (front & blocks & E & Ef & F & Fz).
    exists [], (Block (mg_name m) (kerning_of x) (VGlyph m z) front :: blocks).
    cbn [glyph_parts glyph_part zones_of]. rewrite R, E. split; [reflexivity|]. split; [reflexivity|].
    split; [|cbn [glyph_zones]; constructor; [exists m; reflexivity|exact Fz]]. constructor; [|exact F].
    exists m, y, z, z. cbn [fst snd bl_name bl_kerning bl_data bl_rest]. auto.
  - cbn [glyph_parts]. destruct (IH (zones_of e z) T2 G2) as (front & blocks & E & Ef & F & Fz).
    exists (glyph_part c z e ++ front), blocks. rewrite E. unfold file. rewrite app_assoc. split; [reflexivity|]. split; [now subst front|]. split; [exact F|].
    assert (Ez : glyph_zones z (e :: l) = glyph_zones (zones_of e z) l).
    { specialize (N T1). destruct e as [j d]. cbn [fst] in N. cbn [glyph_zones]. destruct j as [|p|p]; try reflexivity; by_keys. }
    rewrite Ez. exact Fz.
Qed.
Lemma details_not : forall l, Forall (fun e => type_of_key (fst e) (snd e) = true) l ->
  Forall not_2001 (fst (split_glyphs l)) /\ Forall (fun b => Forall not_2001 (snd b)) (snd (split_glyphs l)).
Proof.
  induction l as [|e l IH]; intros T; [split; constructor|]. inversion_clear T as [|? ? T1 T2]. destruct (IH T2) as [A B].
  destruct (split_case e l) as [(x & -> & ->)|(-> & N)]; cbn [fst snd].
  - split; [constructor|]. constructor; [exact A|exact B].
  - split; [|exact B]. constructor; [exact (N T1)|exact A].
Qed.
Lemma parts_no_glyph : forall c D z, Forall not_2001 D -> Forall no_glyph (glyph_parts c z D).
Proof.
  intros c. induction D as [|[j d] D IH]; intros z H; [constructor|]. inversion_clear H as [|? ? H1 H2]. cbn [glyph_parts].
  apply Forall_app. split; [|now apply IH]. pose proof (no_items c z j d H1) as X. apply Forall_forall. intros e I.
  destruct e as [name kerning v| | | | | | | |]; try exact Coq.Init.Logic.I. exfalso. assert (Y : In (name, kerning, v) (flat_map glyph_item (glyph_part c z (j, d)))).
  { apply in_flat_map. eexists. split; [exact I|now left]. }
  rewrite X in Y. destruct Y.
Qed.
Lemma front_no_part : forall c l z, Forall (fun e => type_of_key (fst e) (snd e) = true) l -> details_follow l ->
  Forall no_part (glyph_parts c z (fst (split_glyphs l))).
Proof.
  intros c. induction l as [|e l IH]; intros z T D; [constructor|]. inversion_clear T as [|? ? T1 T2].
  destruct (split_case e l) as [(x & -> & ->)|(-> & N)]; cbn [fst snd]; [constructor|].
  cbn [details_follow] in D. destruct D as [D|(D1 & D2)]; [elim (N T1); exact D|]. cbn [glyph_parts]. apply Forall_app. split; [|now apply IH].
  destruct e as [j d]. apply front_part; [exact (N T1)|exact D1].
Qed.

(** the glyph of the builder has what its entries say *)
Record glyph_data (c : settings) (b : glyph * list (Z * value)) (g : bglyph gvalue) : Prop := GlyphData {
  gx_data : exists m y z, build_mm_glyph (st_minimal c) (st_ps_hints c) (fst b) = Ok (m, y) /\ bg_data g = VGlyph m z;
  gx_fields : forall f k, key_of f = Some k -> field_data f g = said k (snd b);
  gx_anchors : glyph_anchors g = said_anchors (snd b);
  gx_unicodes : bg_unicodes g = code_points (snd b);
  gx_mask : bg_mask g = mask_sizes (snd b) }.
Lemma last_map : forall A B (f : A -> B) l, last (map Some (map f l)) None = option_map f (last (map Some l) None).
Proof.
  intros A B f. induction l as [|x l IH] using rev_ind; [reflexivity|]. rewrite !map_app, !last_app. reflexivity.
Qed.
Lemma data_of : forall c b k g, block_from c b k -> glyph_of k g -> glyph_data c b g.
Proof.
  intros c b k g (m & y & z & z' & R & Hn & Hk & Hd & Hr) G. pose proof G as (G1 & G2 & G3 & G4 & _). constructor.
  - exists m, y, z. split; [exact R|congruence].
  - intros f j K. unfold field_data. rewrite (field_is _ _ _ f G), Hr, (parts_field c f j) by exact K. rewrite last_map.
    unfold said, last_or. destruct (last _ None); reflexivity.
  - unfold glyph_anchors, field_data. rewrite (field_is _ _ _ FAnchors G), Hr, parts_anchors, last_map. unfold said_anchors, last_or.
    clear. induction (snd b) as [|e D IH] using rev_ind; [reflexivity|].
    rewrite !flat_map_app, map_app, !last_app. cbn [flat_map]. rewrite !app_nil_r.
    destruct e as [j d]. unfold gdef_part at 1. destruct j as [|p|p]; try exact IH; by_keys; try exact IH.
    destruct d; try exact IH. destruct (gd_anchors x) eqn:A; [|exact IH]. cbn [map last option_map]. rewrite A. reflexivity.
  - rewrite G3, Hr. apply parts_unicodes.
  - rewrite G4, Hr. apply parts_mask.
Qed.
Lemma glyphs_of_file : forall c es s, Forall typed es -> build_font c es = Ok s ->
  let l := used (st_vfb_minimal c) es in
  let names := flat_map name_of (glyph_entries l) in
  details_follow l -> names <> [] -> NoDup names -> not_crowded (removelast names) ->
  Forall (fun x => NoDup (map fst (kerning_of x))) (glyph_entries l) ->
  map fst (bs_glyphs (fo_glyphs s)) = names /\ bs_order (fo_glyphs s) = names /\
  Forall2 (glyph_data c) (glyph_blocks l) (map snd (bs_glyphs (fo_glyphs s))) /\
  Forall2 (fun z g => exists m, bg_data g = VGlyph m z) (glyph_zones None l) (map snd (bs_glyphs (fo_glyphs s))).
Proof.
  intros c es s T Bu l names D Ne Nd Nc K.
  destruct (C85_glyphs c es s T Bu D Ne Nd Nc K) as (R1 & R2 & _ & _). split; [exact R1|]. split; [exact R2|].
  assert (G : glyphs_complete l).
  { unfold build_font in Bu. destruct (res_fold (build_step c) new_font es) eqn:F; [|discriminate]. eapply built_complete. exact F. }
  pose proof (C85_parts c es s T Bu) as M. fold l in M. destruct M as [_ _ M _ _ _ _ _ _ _ _ _ _].
  assert (Tl : Forall (fun e => type_of_key (fst e) (snd e) = true) l).
  { eapply Forall_impl; [|apply used_typed; exact T]. intros e X. exact (proj1 X). }
  destruct (as_blocks c l None Tl G) as (front & blocks & E & Ef & X & Xz).
  assert (P : Forall no_part front) by (subst front; now apply front_no_part).
  assert (B : Forall (fun b => Forall no_glyph (bl_rest b)) blocks).
  { destruct (details_not l Tl) as [_ Dn]. fold (glyph_blocks l) in Dn. clear - X Dn. induction X as [|b k bs ks (m & y & z & z' & _ & _ & _ & _ & Hr) X IH]; [constructor|].
    inversion_clear Dn as [|? ? D1 D2]. constructor; [rewrite Hr; now apply parts_no_glyph|now apply IH]. }
  assert (Eb : map fst (glyph_blocks l) = glyph_entries l).
  { unfold glyph_blocks. clear. induction l as [|[j d] l IH]; [reflexivity|]. unfold glyph_entries in *. cbn [flat_map fst snd].
    rewrite <- IH. cbn [split_glyphs]. destruct (split_glyphs l) as [D B]. cbn [fst snd]. destruct (Z.eqb_spec j 2001) as [->|N].
    - destruct d; reflexivity.
    - destruct j as [|p|p]; try reflexivity; by_keys. }
  assert (N : map bl_name blocks = names).
  { unfold names. rewrite <- Eb. clear - X. induction X as [|b k bs ks (m & y & z & z' & R & Hn & _) X IH]; [reflexivity|].
    cbn [map flat_map]. rewrite IH. unfold build_mm_glyph in R. unfold name_of. destruct (g_name (fst b)); [|discriminate]. cbn [get_key rthen] in R.
    destruct (g_metrics (fst b)); [|discriminate]. cbn [get_key rthen] in R. destruct (g_nodes (fst b)); [|discriminate]. cbn [get_key rmap] in R.
    apply Ok_inj in R. injection R as R _. rewrite Hn, <- R. reflexivity. }
  assert (Kb : Forall (fun b => NoDup (map fst (bl_kerning b))) blocks).
  { rewrite <- Eb in K. clear - X K. induction X as [|b k bs ks (m & y & z & z' & R & Hn & Hk & _) X IH]; [constructor|].
    cbn [map] in K. inversion_clear K as [|? ? K1 K2]. constructor; [rewrite Hk; exact K1|now apply IH]. }
  destruct (C54_distinct gvalue front blocks) as (s' & E' & _ & _ & R3 & _).
  { split; assumption. }
  { intros ->. apply Ne. rewrite <- N. reflexivity. }
  { rewrite <- N in Nc. clear - Nc. replace (map bl_name (removelast blocks)) with (removelast (map bl_name blocks)); [exact Nc|].
    clear Nc. induction blocks as [|b [|b' blocks] IH]; [reflexivity|reflexivity|].
    change (removelast (map bl_name (b :: b' :: blocks))) with (bl_name b :: removelast (map bl_name (b' :: blocks))).
    rewrite IH. reflexivity. }
  { rewrite N. exact Nd. }
  { exact Kb. }
  rewrite <- E in E'. rewrite M in E'. apply Ok_inj in E'. subst s'.
  split.
  - clear - X R3. revert R3. generalize (map snd (bs_glyphs (fo_glyphs s))). induction X as [|b k bs ks H X IH]; intros gs R3; inversion R3; subst; constructor.
    + eapply data_of; eassumption.
    + now apply IH.
  - clear - Xz R3. revert R3. generalize (map snd (bs_glyphs (fo_glyphs s))). induction Xz as [|z k zs ks (m & H) X IH]; intros gs R3; inversion R3 as [|? g ? ? (G1 & G2 & _)]; subst; constructor.
    + exists m. congruence.
    + now apply IH.
Qed.

(** ** Outlines *)
Lemma drawn_ok : forall m labels nodes cs ren, extract_contours (Z.of_nat m) labels nodes = Ok (cs, ren) -> outline_shown m nodes cs.
Proof.
  intros m labels nodes cs ren E gs F C.
  destruct (C50_contours m labels nodes gs F C) as (cs1 & r1 & E1 & L & _). rewrite E in E1. apply Ok_inj in E1. injection E1 as <- <-.
  destruct (C50_path m labels nodes gs F C) as (cs2 & r2 & E2 & P). rewrite E in E2. apply Ok_inj in E2. injection E2 as <- <-.
  assert (S : forall k n, nth_error gs k = Some [n] -> exists p, nth_error cs k = Some [p] /\ up_type p = Some SMove /\ up_pt p = node_pt m n).
  { intros k n H. destruct (C50_single m labels nodes gs k n F C H) as (cs3 & r3 & c & p & E3 & Hc & -> & T & Q).
    rewrite E in E3. apply Ok_inj in E3. injection E3 as <- <-. exists p. auto. }
  assert (Ne : Forall (fun g => g <> []) gs).
  { destruct C as [_ C]. eapply Forall_impl; [|exact C]. intros g (n & rest & -> & _). discriminate. }
  clear E F C. revert cs L P S. induction gs as [|g gs IH]; intros [|c cs] L P S; try discriminate L; [constructor|].
  inversion_clear Ne as [|? ? N1 N2]. constructor.
  - destruct g as [|n [|n' rest]]; [congruence| |].
    + destruct (S 0%nat n eq_refl) as (p & H & T & Q). injection H as ->. exists p. auto.
    + cbn [drawn]. exact (P 0%nat n (n' :: rest) c eq_refl eq_refl ltac:(discriminate)).
  - apply IH; [exact N2|now injection L| |].
    + intros k n rest d Hg Hd. exact (P (Datatypes.S k) n rest d Hg Hd).
    + intros k n Hg. exact (S (Datatypes.S k) n Hg).
Qed.
Lemma py_index_of_nat : forall A (l : list A) m x, py_index l (Z.of_nat m) = Ok x -> nth_error l m = Some x.
Proof.
  intros A l m x H. unfold py_index in H. replace (Z.of_nat m <? 0) with false in H by lia.
  destruct (_ || _) in H; [discriminate|]. rewrite Nat2Z.id in H. destruct (nth_error l m); [|discriminate]. apply Ok_inj in H. congruence.
Qed.
Lemma py_index_pos : forall A (l : list A) i x, 0 <= i -> py_index l i = Ok x -> nth_error l (Z.to_nat i) = Some x.
Proof. intros A l i x H E. apply py_index_of_nat. rewrite Z2Nat.id by exact H. exact E. Qed.
Lemma components_ok : forall round15 names m l us,
  extract_components round15 names (Z.of_nat m) (map component_of l) = Ok us -> Forall2 (component_shown round15 names m) l us.
Proof.
  intros round15 names m. unfold extract_components. induction l as [|k l IH]; intros us H; cbn [map res_map] in H.
  - apply Ok_inj in H. subst us. constructor.
  - unfold extract_component in H at 1. cbn [component_of M_Paths.co_gid co_scale_x co_scale_y co_offset_x co_offset_y] in H.
    destruct (py_index (co_sx k) _) as [xx|] eqn:A; [|discriminate]. cbn [rthen] in H.
    destruct (py_index (co_sy k) _) as [yy|] eqn:B; [|discriminate]. cbn [rthen] in H.
    destruct (py_index (co_x k) _) as [dx|] eqn:C; [|discriminate]. cbn [rthen] in H.
    destruct (py_index (co_y k) _) as [dy|] eqn:D; [|discriminate]. cbn [rthen] in H.
    destruct (py_index names _) as [name|] eqn:E; [|discriminate]. cbn [rthen] in H.
    destruct (res_map _ _) as [us'|] eqn:R; [|discriminate]. cbn [rmap] in H. apply Ok_inj in H. subst us.
    constructor; [|now apply IH]. unfold component_shown. cbn [uc_name uc_dx uc_dy uc_xx uc_yy].
    split; [intros P; now apply py_index_pos|]. split; [now apply py_index_of_nat|]. split; [now apply py_index_of_nat|].
    split; eexists; (split; [apply py_index_of_nat; eassumption|reflexivity]).
Qed.
Lemma anchors_inv : forall m mm pre anchors r,
  res_fold (apply_anchor (Z.of_nat m)) (pre ++ anchors) (enumerate_from (Z.of_nat (List.length pre)) mm) = Ok r ->
  Forall (fun p => (m < List.length (an_x p))%nat /\ (m < List.length (an_y p))%nat) mm /\ (List.length mm <= List.length anchors)%nat.
Proof.
  intros m. induction mm as [|p mm IH]; intros pre anchors r H; [split; [constructor|cbn; lia]|].
  cbn [enumerate_from res_fold] in H. unfold apply_anchor at 1 in H.
  destruct (py_index (an_x p) _) as [x|] eqn:Ex; [|discriminate]. cbn [rthen] in H.
  destruct anchors as [|a anchors].
  { exfalso. rewrite app_nil_r in H. unfold py_update at 1 in H. replace (Z.of_nat (List.length pre) <? 0) with false in H by lia.
    unfold in_range in H. replace (Z.of_nat (List.length pre) <? Z.of_nat (List.length pre)) with false in H by lia.
    rewrite Bool.andb_false_r in H. discriminate H. }
  rewrite py_update_mid in H. cbn [rthen] in H. destruct (py_index (an_y p) _) as [y|] eqn:Ey; [|discriminate]. cbn [rthen] in H.
  rewrite py_update_mid in H. cbn [rthen ga_name ga_x ga_y] in H.
  replace (Z.of_nat (List.length pre) + 1) with (Z.of_nat (List.length (pre ++ [GdefAnchor (ga_name a) x y]))) in H
      by (rewrite app_length; cbn; lia).
  change (pre ++ GdefAnchor (ga_name a) x y :: anchors) with (pre ++ [GdefAnchor (ga_name a) x y] ++ anchors) in H.
  rewrite app_assoc in H. apply IH in H. destruct H as [F L]. split; [|cbn [List.length]; lia]. constructor; [|exact F].
  apply py_index_of_nat in Ex, Ey. split; apply nth_error_Some; congruence.
Qed.
Lemma anchors_shown : forall m anchors mm r, extract_anchors (Z.of_nat m) anchors mm = Ok r ->
  List.length r = List.length anchors /\ forall j a, nth_error r j = Some a -> anchor_shown m anchors (match mm with Some l => l | None => [] end) j a.
Proof.
  intros m anchors mm r H.
  assert (X : Forall (fun p => (m < List.length (an_x p))%nat /\ (m < List.length (an_y p))%nat) (match mm with Some l => l | None => [] end) /\
              (List.length (match mm with Some l => l | None => [] end) <= List.length anchors)%nat).
  { destruct mm as [mm|]; [|split; [constructor|cbn; lia]]. exact (anchors_inv m mm [] anchors r H). }
  destruct X as [F L]. destruct (extract_anchors_ok (Z.of_nat m) anchors mm) as (r' & E & Lr & R); [lia|now rewrite Nat2Z.id|exact L|].
  rewrite H in E. apply Ok_inj in E. subst r'. split; [exact Lr|]. intros j a Ha. rewrite Nat2Z.id in R. exact (R j a Ha).
Qed.

(** ** Colours *)
Definition digits4 (n : Z) : pystr := dec_str (n / 10000) ++ py "." ++ dec_pad4 (n mod 10000).
Definition digits_check (q : Q) (s : pystr) : bool :=
  match s with
  | [a; 46; b; c; d; e] =>
      forallb (fun x => (48 <=? x) && (x <=? 57)) [a; b; c; d; e] &&
      Qle_bool (Qabs.Qabs ((10000 * (a - 48) + 1000 * (b - 48) + 100 * (c - 48) + 10 * (d - 48) + (e - 48) # 10000) - q)) (1 # 20000)
  | _ => false
  end.
Lemma digits_check_ok : forall q s, digits_check q s = true -> four_digits q s.
Proof.
  intros q s H. unfold digits_check in H. destruct s as [|a [|p s]]; try discriminate H.
  assert (p = 46) as -> by (destruct p as [|p|p]; try discriminate H; repeat (destruct p; try discriminate H); reflexivity).
  destruct s as [|b [|c [|d [|e [|? ?]]]]]; try discriminate H.
  apply andb_true_iff in H. destruct H as [H Q]. cbn [forallb] in H. apply Qle_bool_iff in Q.
  exists (a - 48), (b - 48), (c - 48), (d - 48), (e - 48). split; [repeat f_equal; lia|]. split; [|exact Q].
  repeat (apply Forall_cons; [lia|]). apply Forall_nil.
Qed.
Lemma channel_mod : forall h, channel h = channel (h mod 255).
Proof. intros h. unfold channel. now rewrite Z.mod_mod by lia. Qed.
Lemma channel_ok : forall h, four_digits (hls_channel (h mod 255 # 255)) (digits4 (channel h)).
Proof.
  intros h. rewrite channel_mod. assert (R : 0 <= h mod 255 < 255) by (apply Z.mod_pos_bound; lia). revert R. generalize (h mod 255). clear h. intros h R.
  apply digits_check_ok.
  assert (A : forallb (fun k => digits_check (hls_channel (Z.of_nat k # 255)) (digits4 (channel (Z.of_nat k)))) (seq 0 255) = true)
    by (vm_compute; reflexivity).
  rewrite forallb_forall in A. specialize (A (Z.to_nat h)). rewrite Z2Nat.id in A by lia. apply A. apply in_seq. lia.
Qed.
Lemma mark_shown : forall hue, hue_color hue (mark_color hue).
Proof.
  intros hue. exists (digits4 (channel (hue + 85))), (digits4 (channel hue)), (digits4 (channel (hue - 85))).
  split; [reflexivity|]. split; [apply channel_ok|]. split; apply channel_ok.
Qed.
