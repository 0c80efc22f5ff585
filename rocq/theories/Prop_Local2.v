(** C117, second part: code points, anchors, guides and masks. *)
From Coq Require Import String ZifyBool QArith.
From Verif Require Import Base M_Py M_Helpers M_Simple M_Text M_TrueType M_Glyph M_Options M_Container M_Table M_Groups M_Info M_FontInfo M_Tth M_Programs.
From Verif Require Import M_Builder M_Master M_Features M_Designspace M_Build M_Labels M_PsHints M_Paths M_Guides M_Export M_Ufo.
From Verif Require Import M_Document M_Tools M_Vfb2ufo S_Build Lib P_Build Prop_Local.
Local Open Scope list_scope.
Local Open Scope Z_scope.

(** ** The statement *)
Definition is_in (key : Z) (l : list Z) : bool := existsb (Z.eqb key) l.
(** the entries: code points (two), anchors, their positions, guides; the mask and its metrics (two) *)
Definition other_keys : list Z := [1250; 1253; 2018; 2029; 2031; 2009; 2011; 2028].
(** a glyph without what one of them says *)
Definition elsewhere (key : Z) (g : ufo_glyph) : ufo_glyph :=
  UfoGlyph (og_width g) (og_height g) (if is_in key [1250; 1253] then [] else og_unicodes g) (og_contours g) (og_components g)
    (if is_in key [2018; 2029] then [] else og_anchors g) (if is_in key [2031] then [] else og_guidelines g) (og_note g) (og_lib g).
(** two UFOs that differ at most in that part of one glyph or, for the mask, in the background of one glyph *)
Definition same_except (key : Z) (name : pystr) (u u' : ufo) : Prop :=
  Forall2 (fun p q => fst p = fst q /\ elsewhere key (snd p) = elsewhere key (snd q) /\ (fst p <> name -> snd p = snd q)) (uf_glyphs u) (uf_glyphs u') /\
  (if is_in key [2009; 2011; 2028]
   then let others := filter (fun p => negb (str_eqb (fst p) name)) in others (uf_background u) = others (uf_background u')
   else uf_background u = uf_background u') /\
  u' = Ufo (uf_features u) (uf_groups u) (uf_info u) (uf_guidelines u) (uf_kerning u) (uf_lib u) (uf_glyphs u') (uf_background u').

(** ** Glyphs *)
Definition key_field (key : Z) : option field :=
  if key =? 2018 then Some FAnchors else if key =? 2029 then Some FMMAnchors else if key =? 2031 then Some FGuides
  else if key =? 2009 then Some FMask else None.
Definition diff2 (key : Z) (g g' : bglyph gvalue) : Prop :=
  bg_name g' = bg_name g /\ bg_data g' = bg_data g /\ (is_in key [1250; 1253] = false -> bg_unicodes g' = bg_unicodes g) /\
  (is_in key [2011; 2028] = false -> bg_mask g' = bg_mask g) /\
  forall x, key_field key <> Some x -> aget field_eqb x (bg_fields g') = aget field_eqb x (bg_fields g).
Lemma diff2_kept : forall key, kept (diff2 key).
Proof.
  intros key. constructor.
  - intros g. repeat split.
  - intros g g' D. apply D.
  - intros g g' l (A & B & C & D & E). repeat split; cbn [bg_name bg_data bg_unicodes bg_mask bg_fields]; try assumption. intros X. now rewrite (C X).
  - intros g g' l (A & B & C & D & E). repeat split; cbn [bg_name bg_data bg_unicodes bg_mask bg_fields]; try assumption. intros X. now rewrite (D X).
  - intros g g' y v (A & B & C & D & E). repeat split; cbn [bg_name bg_data bg_unicodes bg_mask bg_fields]; try assumption.
    intros x X. specialize (E x X). rewrite !(aget_aset field_eqb) by (intros [] []; split; (discriminate || reflexivity)). now rewrite E.
Qed.

(** ** The export *)
Section Export.
  Variables (key : Z) (c : settings) (o : options) (order : list pystr).
  Hypothesis Hkey : In key other_keys.
  Lemma export_one_both : forall m name g g' cmds st r r', diff2 key g g' ->
    export_one c o order m name g cmds st = Ok r -> export_one c o order m name g' cmds st = Ok r' ->
    snd r = snd r' /\ elsewhere key (fst (fst r)) = elsewhere key (fst (fst r')) /\
    (is_in key [2009; 2011; 2028] = false -> snd (fst r) = snd (fst r')).
  Proof.
    intros m name g g' cmds st r r' (_ & Dd & Du & Dm & Df) H H'.
    assert (Y : forall x, key_field key <> Some x -> field_data x g' = field_data x g) by (intros x X; unfold field_data; now rewrite (Df x X)).
    clear Df. unfold export_one, eglyph_of, glyph_extras_of, glyph_links, glyph_mask, glyph_props, glyph_anchors, glyph_mm_anchors, build_master in H, H'.
    cbn [ge_unicodes ge_anchors ge_mm_anchors ge_mask_metrics] in H, H'.
    assert (K : key_field key <> Some FLinks /\ key_field key <> Some FUserData /\ key_field key <> Some FMark /\ key_field key <> Some FBackground /\ key_field key <> Some FBitmaps)
      by (destruct Hkey as [<-|[<-|[<-|[<-|[<-|[<-|[<-|[<-|[]]]]]]]]]; vm_compute; repeat split; discriminate).
    destruct K as (K1 & K2 & K3 & K4 & K5). rewrite Dd, (Y _ K1), (Y _ K2), (Y _ K3), (Y _ K4), (Y _ K5) in H'. clear K1 K2 K3 K4 K5.
    destruct (bg_data g) as [x z|d]; [|discriminate]. 
    destruct (export_glyph _ _ _ _ _ _ _) as [e|]; [|discriminate]. cbn [rthen] in H, H'.
    destruct (tth_lib cmds) as [tth|]; [|discriminate]. cbn [rthen] in H, H'.
    destruct (py_index (mg_metrics x) m) as [wh|] eqn:Em.
    2: { exfalso. destruct (if st_minimal c then _ else _) in H; [|discriminate]. cbn [rthen] in H. destruct (extract_components _ _ _ _) in H; [|discriminate]. cbn [rthen] in H.
         destruct (if st_minimal c then _ else _) in H; [|discriminate]. cbn [rthen] in H. destruct (extract_anchors _ _ _) in H; discriminate. }
    destruct (extract_components _ _ _ _) as [ks|]; [|exfalso; destruct (if st_minimal c then _ else _) in H; discriminate].
    destruct (finalize_tth _ _) as [tt|].
    2: { exfalso. destruct (if st_minimal c then _ else _) in H; [|discriminate]. cbn [rthen rmap] in H.
         destruct (if st_minimal c then _ else _) in H; [|discriminate]. cbn [rthen] in H. destruct (extract_anchors _ _ _) in H; [|discriminate]. cbn [rthen rmap] in H.
         destruct (if st_minimal c then _ else _) in H; discriminate. }
    destruct Hkey as [<-|[<-|[<-|[<-|[<-|[<-|[<-|[<-|[]]]]]]]]];
      try rewrite (Du eq_refl) in H'; try rewrite (Dm eq_refl) in H';
      try rewrite (Y FMask) in H' by discriminate; try rewrite (Y FAnchors) in H' by discriminate;
      try rewrite (Y FMMAnchors) in H' by discriminate; try rewrite (Y FGuides) in H' by discriminate; clear Y Du Dm Dd.
    all: repeat match goal with
         | H : rthen (rthen ?a _) _ = Ok _ |- _ => destruct a; [cbn [rthen rmap] in *|discriminate H]
         | H : rthen ?a _ = Ok _ |- _ => destruct a; [cbn [rthen rmap] in *|discriminate H]
         end.
    all: apply Ok_inj in H; apply Ok_inj in H'; subst r r'; unfold elsewhere;
      cbn [fst snd um_metrics um_anchors um_unicodes um_mask_metrics og_width og_height og_unicodes og_contours og_components og_anchors og_guidelines og_note og_lib];
      repeat split; try (intros X; discriminate X); reflexivity.
  Qed.
  Definition differ_at (k : pystr) (p q : pystr * ufo_glyph) : Prop :=
    fst p = fst q /\ elsewhere key (snd p) = elsewhere key (snd q) /\ (fst p <> k -> snd p = snd q).
  Definition masks_same (k : pystr) (l l' : list (pystr * mask_glyph)) : Prop :=
    if is_in key [2009; 2011; 2028]
    then let others := filter (fun p => negb (str_eqb (fst p) k)) in others l = others l'
    else l = l'.
  Lemma export_all_both : forall k m cmds gl gl' st r r', one (diff2 key) k gl gl' ->
    export_all c o order m gl cmds st = Ok r -> export_all c o order m gl' cmds st = Ok r' ->
    snd r = snd r' /\ Forall2 (differ_at k) (fst (fst r)) (fst (fst r')) /\ masks_same k (snd (fst r)) (snd (fst r')).
  Proof.
    intros k m cmds gl gl' st r r' F. revert st r r'. induction F as [|[a g] [a' g'] l l' (N & D & E) F IH]; intros st r r' H H'; cbn [export_all] in H, H'.
    - apply Ok_inj in H. apply Ok_inj in H'. subst r r'. split; [reflexivity|]. split; [constructor|]. unfold masks_same. destruct (is_in key _); reflexivity.
    - cbn [fst snd] in *. subst a'. set (cm := match aget str_eqb a cmds with Some l => l | None => [] end) in *.
      destruct (export_one c o order m a g cm st) as [x|] eqn:X; [|discriminate]. destruct (export_one c o order m a g' cm st) as [x'|] eqn:X'; [|discriminate].
      cbn [rthen] in H, H'. destruct (export_one_both m a g g' cm st x x' D X X') as (S & L & M). rewrite <- S in H'.
      destruct (export_all c o order m l cmds (snd x)) as [q|] eqn:Q; [|discriminate]. destruct (export_all c o order m l' cmds (snd x)) as [q'|] eqn:Q'; [|discriminate].
      cbn [rmap] in H, H'. apply Ok_inj in H. apply Ok_inj in H'. subst r r'. destruct (IH _ _ _ Q Q') as (I1 & I2 & I3). cbn [fst snd].
      split; [exact I1|]. assert (Eq : a <> k -> x = x') by (intros A; specialize (E A); subst g'; congruence). split.
      + constructor; [|exact I2]. repeat split; cbn [fst snd]; [exact L|]. intros A. now rewrite (Eq A).
      + unfold masks_same in *. destruct (is_in key _) eqn:K.
        * cbv zeta in *. destruct (str_eqb a k) eqn:A.
          -- assert (P : forall (y : option mask_glyph) l0, filter (fun p => negb (str_eqb (fst p) k))
                 (match y with Some w => match ok_contours w with [] => l0 | _ => (a, w) :: l0 end | None => l0 end)
               = filter (fun p => negb (str_eqb (fst p) k)) l0).
             { intros [w|] l0; [|reflexivity]. destruct (ok_contours w); [reflexivity|]. cbn [filter fst]. now rewrite A. }
             now rewrite !P.
          -- assert (Ne : a <> k) by (intros ->; rewrite str_eqb_refl in A; discriminate). rewrite (Eq Ne).
             destruct (snd (fst x')) as [w|]; [|exact I3]. destruct (ok_contours w); [exact I3|]. cbn [filter fst]. rewrite A. cbn [negb]. now rewrite I3.
        * rewrite (M eq_refl), I3. reflexivity.
  Qed.
  Lemma first_same : forall k gl gl', one (diff2 key) k gl gl' -> first_store gl' = first_store gl.
  Proof.
    intros k gl gl' F. unfold first_store. induction F as [|[a g] [a' g'] l l' (N & (_ & D & _) & _) F IH]; cbn [map fst snd] in *; [reflexivity|].
    now rewrite IH, D, N.
  Qed.
  Lemma insert_same : forall k p q gl gl', fst p = fst q /\ diff2 key (snd p) (snd q) /\ (fst p <> k -> snd p = snd q) -> one (diff2 key) k gl gl' ->
    one (diff2 key) k (insert_glyph p gl) (insert_glyph q gl').
  Proof.
    intros k p q gl gl' P F. induction F as [|x y l l' X F IH]; cbn [insert_glyph]; [constructor; [exact P|constructor]|].
    assert (glyph_ltb y q = glyph_ltb x p) as ->.
    { destruct P as (_ & (A & B & _) & _). destruct X as (_ & (A' & B' & _) & _). unfold glyph_ltb, components_count. now rewrite A, B, A', B'. }
    destruct (glyph_ltb x p); constructor; try assumption. constructor; assumption.
  Qed.
  Lemma sorted_same : forall k gl gl', one (diff2 key) k gl gl' -> one (diff2 key) k (sorted_glyphs gl) (sorted_glyphs gl').
  Proof.
    intros k gl gl' F. unfold sorted_glyphs. induction F as [|x y l l' X F IH]; cbn [fold_right]; [constructor|]. now apply insert_same.
  Qed.
  Lemma tt_same : forall k t gl gl' st, one (diff2 key) k gl gl' -> tt_glyph_lib o order t gl' st = tt_glyph_lib o order t gl st.
  Proof.
    intros k t gl gl' st F. revert st. induction F as [|[a g] [a' g'] l l' (N & (_ & D & _) & _) F IH]; intros st; cbn [tt_glyph_lib]; [reflexivity|].
    cbn [fst snd] in *. subst a'. rewrite D. destruct (bg_data g) as [x z|d]; [|apply IH]. destruct (mg_tth x); [|apply IH].
    destruct (export_commands _ _ _ _ _ _) as [r|e]; cbn [rthen]; [|reflexivity]. now rewrite IH.
  Qed.
End Export.
Lemma masters_both : forall key c o s b b' k sh lib cmds n m st us us', In key other_keys -> one (diff2 key) k (bs_glyphs b) (bs_glyphs b') ->
  bs_order b' = bs_order b -> bs_infos b' = bs_infos b ->
  ufo_masters c o (wg b s) sh lib cmds m n st = Ok us -> ufo_masters c o (wg b' s) sh lib cmds m n st = Ok us' -> Forall2 (same_except key k) us us'.
Proof.
  intros key c o s b b' k sh lib cmds n m st us us' K F O I. revert m st us us'. induction n as [|n IH]; intros m st us us' H H'; cbn [ufo_masters] in H, H'.
  - apply Ok_inj in H. apply Ok_inj in H'. subst us us'. constructor.
  - unfold get_ufo_master, ps_infos, font_guides in H, H'. cbn [wg fo_glyphs fo_counts fo_info fo_guides fo_props] in H, H'. rewrite O, I in H'.
    destruct (get_master_kerning _ _) as [kn|]; [|discriminate]. cbn [rthen] in H, H'.
    destruct (get_master_info _ _ _ _ _) as [i|]; [|discriminate]. cbn [rthen] in H, H'.
    destruct (if st_minimal c then _ else _) as [gs|]; [|discriminate]. cbn [rthen] in H, H'.
    destruct (export_all c o (bs_order b) m (bs_glyphs b) cmds st) as [r|] eqn:R; [|discriminate].
    destruct (export_all c o (bs_order b) m (bs_glyphs b') cmds st) as [r'|] eqn:R'; [|discriminate].
    destruct (export_all_both key c o (bs_order b) K k m cmds _ _ _ _ _ F R R') as (S & G & M). cbn [rmap rthen fst snd] in H, H'. rewrite <- S in H'.
    fold (wg b s) in H. fold (wg b' s) in H'.
    destruct (ufo_masters c o (wg b s) sh lib cmds (m + 1) n (snd r)) as [q|] eqn:Q; [|discriminate].
    destruct (ufo_masters c o (wg b' s) sh lib cmds (m + 1) n (snd r)) as [q'|] eqn:Q'; [|discriminate].
    cbn [rmap] in H, H'. apply Ok_inj in H. apply Ok_inj in H'. subst us us'. constructor; [|exact (IH _ _ _ _ Q Q')].
    split; [exact G|]. split; [exact M|reflexivity].
Qed.

(** ** The theorem *)
Lemma except_refl : forall key k u, same_except key k u u.
Proof.
  intros key k [a b i g kn l gl bg]. split; [|split; [|reflexivity]].
  - cbn [uf_glyphs]. induction gl; constructor; [|assumption]. repeat split.
  - destruct (is_in key _); reflexivity.
Qed.
Definition others_step (key : Z) (d : value) (s : font) : res font :=
  let add e := on_glyphs (fun b => b_add b e) s in
  match d with
  | DInts l => if is_in key [1250; 1253] then add (BUnicodes l) else
               match key_field key with Some FAnchors => bad | Some f => glyph_field f d s | None => bad end
  | DPair wh => if key =? 2011 then add (BMask [wh]) else match key_field key with Some FAnchors => bad | Some f => glyph_field f d s | None => bad end
  | DPairs l => if key =? 2028 then add (BMask l) else match key_field key with Some FAnchors => bad | Some f => glyph_field f d s | None => bad end
  | DGdef x => match key_field key with
               | Some FAnchors => match gd_anchors x with Some _ => glyph_field FAnchors d s | None => Ok s end
               | Some f => glyph_field f d s | None => bad
               end
  | _ => match key_field key with Some FAnchors => bad | Some f => glyph_field f d s | None => bad end
  end.
Lemma others_is : forall c s key d, In key other_keys ->
  build_step c s (key, Some d) = if existsb (Z.eqb key) (skip_keys c) then Ok s else others_step key d s.
Proof.
  intros c s key d H. unfold build_step. destruct (existsb (Z.eqb key) (skip_keys c)); [reflexivity|].
  destruct H as [<-|[<-|[<-|[<-|[<-|[<-|[<-|[<-|[]]]]]]]]]; destruct d; reflexivity.
Qed.
(** what one of the entries does with the glyph *)
Lemma others_effect : forall key d s s1, In key other_keys -> others_step key d s = Ok s1 ->
  s1 = s \/ exists g g1, bs_current (fo_glyphs s) = Some g /\ diff2 key g g1 /\
    s1 = wg (BState (Some g1) (bs_glyphs (fo_glyphs s)) (bs_order (fo_glyphs s)) (bs_kerning (fo_glyphs s)) (bs_masters (fo_glyphs s))
                    (bs_axes (fo_glyphs s)) (bs_infos (fo_glyphs s))) s.
Proof.
  intros key d s s1 K H.
  assert (W : forall h, (forall g, diff2 key g (h g)) -> on_glyphs (with_glyph h) s = Ok s1 -> exists g g1, bs_current (fo_glyphs s) = Some g /\ diff2 key g g1 /\
    s1 = wg (BState (Some g1) (bs_glyphs (fo_glyphs s)) (bs_order (fo_glyphs s)) (bs_kerning (fo_glyphs s)) (bs_masters (fo_glyphs s))
                    (bs_axes (fo_glyphs s)) (bs_infos (fo_glyphs s))) s).
  { intros h Hh E. unfold on_glyphs, with_glyph in E. destruct (bs_current (fo_glyphs s)) as [g|]; [|discriminate]. cbn [rmap] in E. apply Ok_inj in E.
    exists g, (h g). split; [reflexivity|]. split; [apply Hh|]. symmetry. exact E. }
  assert (Wf : forall f v, key_field key = Some f -> glyph_field f v s = Ok s1 -> exists g g1, bs_current (fo_glyphs s) = Some g /\ diff2 key g g1 /\
    s1 = wg (BState (Some g1) (bs_glyphs (fo_glyphs s)) (bs_order (fo_glyphs s)) (bs_kerning (fo_glyphs s)) (bs_masters (fo_glyphs s))
                    (bs_axes (fo_glyphs s)) (bs_infos (fo_glyphs s))) s).
  { intros f v Kf E. unfold glyph_field in E. cbn [b_add] in E. apply (W _) in E; [exact E|]. intros g. repeat split. cbn [bg_fields]. intros x X.
    rewrite (aget_aset field_eqb) by (intros [] []; split; (discriminate || reflexivity)). destruct (field_eqb x f) eqn:Q; [|reflexivity].
    exfalso. apply X. rewrite Kf. destruct x, f; (discriminate || reflexivity). }
  assert (Wu : forall l, is_in key [1250; 1253] = true -> on_glyphs (fun b => b_add b (BUnicodes l)) s = Ok s1 -> exists g g1, bs_current (fo_glyphs s) = Some g /\ diff2 key g g1 /\
    s1 = wg (BState (Some g1) (bs_glyphs (fo_glyphs s)) (bs_order (fo_glyphs s)) (bs_kerning (fo_glyphs s)) (bs_masters (fo_glyphs s))
                    (bs_axes (fo_glyphs s)) (bs_infos (fo_glyphs s))) s).
  { intros l Kf E. cbn [b_add] in E. apply (W _) in E; [exact E|]. intros g. repeat split. intros X. congruence. }
  assert (Wm : forall l, is_in key [2011; 2028] = true -> on_glyphs (fun b => b_add b (BMask l)) s = Ok s1 -> exists g g1, bs_current (fo_glyphs s) = Some g /\ diff2 key g g1 /\
    s1 = wg (BState (Some g1) (bs_glyphs (fo_glyphs s)) (bs_order (fo_glyphs s)) (bs_kerning (fo_glyphs s)) (bs_masters (fo_glyphs s))
                    (bs_axes (fo_glyphs s)) (bs_infos (fo_glyphs s))) s).
  { intros l Kf E. cbn [b_add] in E. apply (W _) in E; [exact E|]. intros g. repeat split. intros X. congruence. }
  clear W. unfold others_step in H.
  destruct K as [<-|[<-|[<-|[<-|[<-|[<-|[<-|[<-|[]]]]]]]]]; destruct d; try discriminate H; cbv zeta in H; cbn [is_in existsb key_field Z.eqb Pos.eqb orb] in H;
    try (right; exact (Wu _ eq_refl H)); try (right; exact (Wm _ eq_refl H)); try (right; exact (Wf _ _ eq_refl H)).
  all: match type of H with match gd_anchors ?x with _ => _ end = _ => destruct (gd_anchors x) end; [right; exact (Wf _ _ eq_refl H)|left; apply Ok_inj in H; now symmetry].
Qed.
Lemma diff2_sides : forall key g a b, diff2 key g a -> diff2 key g b -> diff2 key a b.
Proof.
  intros key g a b (A & B & C & D & E) (A' & B' & C' & D' & E'). repeat split; try congruence; intros X.
  - now rewrite (C' X), (C X).
  - now rewrite (D' X), (D X).
  - intros Y. now rewrite (E' X Y), (E X Y).
Qed.
(** For all entries, settings and paths, and all data [d] and [d'] of an entry about the code points, the anchors, the
    guides or the mask of a glyph: if the entries are exported with [d] and with [d'] in its place, the documents are
    the same, and so are the UFOs except for that part of at most one glyph, the one that the entry follows. *)
Theorem C117_others : forall c o json out key d d' before after us ds us' ds',
  In key other_keys ->
  vfb_to_document c o json out (before ++ (key, Some d) :: after) = Ok (us, ds) ->
  vfb_to_document c o json out (before ++ (key, Some d') :: after) = Ok (us', ds') ->
  ds' = ds /\ exists name, Forall2 (same_except key name) us us' /\ (forall n, last_name before = Some n -> exported_name n name).
Proof.
  intros c o json out key d d' before after us ds us' ds' K. unfold vfb_to_document, build_font. rewrite !res_fold_app.
  destruct (res_fold (build_step c) new_font before) as [s|] eqn:B; cbn [rthen]; [|discriminate]. cbn [res_fold]. rewrite !others_is by exact K.
  assert (Same : forall (x : res (list ufo * option (designspace num))), x = Ok (us, ds) -> x = Ok (us', ds') ->
    ds' = ds /\ exists name, Forall2 (same_except key name) us us' /\ (forall n, last_name before = Some n -> exported_name n name)).
  { intros x E E'. rewrite E in E'. apply Ok_inj in E'. injection E' as <- <-. split; [reflexivity|].
    exists (match last_name before with Some n => n | None => [] end). split.
    - clear. induction us; constructor; [apply except_refl|assumption].
    - intros n ->. now left. }
  destruct (existsb (Z.eqb key) (skip_keys c)); [cbn [rthen]; apply Same|].
  destruct (others_step key d s) as [s1|] eqn:E1; [|discriminate]. destruct (others_step key d' s) as [s2|] eqn:E2; [|discriminate]. cbn [rthen].
  assert (Main : s1 = s2 \/ exists g b b', bs_current (fo_glyphs s) = Some g /\ s1 = wg b s /\ s2 = wg b' s /\ differs (diff2 key) (bg_name g) b b').
  { destruct (others_effect key d s s1 K E1) as [->|(g & g1 & C & D & ->)]; destruct (others_effect key d' s s2 K E2) as [->|(g' & g2 & C' & D' & ->)].
    - now left.
    - right. exists g', (fo_glyphs s). eexists. split; [exact C'|]. split; [symmetry; apply wg_own|]. split; [reflexivity|]. left. exists g', g2.
      split; [exact C'|]. split; [exact D'|]. split; reflexivity.
    - right. exists g. eexists. exists (fo_glyphs s). split; [exact C|]. split; [reflexivity|]. split; [symmetry; apply wg_own|]. left. exists g1, g.
      split; [reflexivity|]. split; [apply (diff2_sides key g); [exact D|apply (k_refl _ (diff2_kept key))]|]. split; [apply D|].
      cbn [bs_glyphs bs_order bs_kerning bs_masters bs_axes bs_infos]. rewrite <- C. destruct (fo_glyphs s); reflexivity.
    - right. assert (g' = g) by congruence. subst g'. exists g. do 2 eexists. split; [exact C|]. split; [reflexivity|]. split; [reflexivity|]. left. exists g1, g2.
      split; [reflexivity|]. split; [exact (diff2_sides key g _ _ D D')|]. split; [apply D|]. reflexivity. }
  clear E1 E2. destruct Main as [<-|(g & b & b' & C & -> & -> & D)]; [apply Same|]. clear Same.
  pose proof (fold_name c before new_font s B) as N. cbn [new_font fo_glyphs b_start bs_current option_map] in N. rewrite C in N. cbn [option_map] in N.
  pose proof (fold_differs _ c after (bg_name g) s b b' (diff2_kept key) D) as H. destruct (res_fold (build_step c) (wg b s) after) as [t|]; [|discriminate].
  destruct H as (t0 & x & x' & -> & -> & D'). cbn [rthen]. destruct (finish_differs _ (diff2_kept key) _ _ _ D') as (k & X & F & O & Kn & M & I). cbv zeta in *.
  unfold finish, on_info. cbn [fo_info wg fo_glyphs fo_tt fo_options fo_features fo_groups fo_flags fo_guides fo_props fo_counts fo_design fo_lib].
  destruct (fix_underline_position _) as [i|]; cbn [rmap rthen]; [|discriminate].
  set (y := fix_masters_count (store_last x)) in *. set (y' := fix_masters_count (store_last x')) in *.
  set (t1 := Font i y (fo_tt t0) (fo_options t0) (fo_features t0) (fo_groups t0) (fo_flags t0) (fo_guides t0) (fo_props t0) (fo_counts t0) (fo_design t0) (fo_lib t0)).
  change (Font i y' _ _ _ _ _ _ _ _ _ _) with (wg y' t1). change t1 with (wg y t1) at 1. clearbody t1 y y'.
  unfold get_ufos_designspace, get_ufo_masters.
  change (ds_data_of (wg y' t1)) with (DsData (de_count (fo_design t1)) (de_axes (fo_design t1)) (de_masters (fo_design t1)) (bs_masters y') (de_locations (fo_design t1)) (de_instances (fo_design t1))
         (ds_family_name (fo_info t1)) (info_text (py "styleMapStyleName") (fo_info t1))).
  rewrite M. change (DsData _ _ _ (bs_masters y) _ _ _ _) with (ds_data_of (wg y t1)).
  change (hinting_lib (wg y' t1)) with (hinting_lib (wg y t1)).
  cbn [wg fo_glyphs fo_tt fo_groups fo_flags fo_features fo_info fo_lib]. fold (wg y t1). fold (wg y' t1). rewrite M, O, Kn.
  rewrite (first_same key k _ _ F), (tt_same key o (bs_order y) k _ _ _ _ (sorted_same key k _ _ F)).
  destruct (tt_glyph_lib _ _ _ _ _) as [tl|]; cbn [rthen]; [|discriminate].
  destruct (transform_groups _ _ _ _) as [tg|]; cbn [rthen]; [|discriminate].
  destruct (export_shared _ _ _ _ _ _ _ _) as [sh|]; cbn [rthen]; [|discriminate].
  destruct (ufo_masters c o (wg y t1) _ _ _ _ _ _) as [q|] eqn:Q; [|discriminate]. destruct (ufo_masters c o (wg y' t1) _ _ _ _ _ _) as [q'|] eqn:Q'; [|discriminate].
  pose proof (masters_both key c o t1 y y' k _ _ _ _ _ _ _ _ K F O I Q Q') as G. cbn [rthen].
  destruct (written_designspace _ _ _ _) as [dd|]; cbn [rmap]; [|destruct q; discriminate].
  intros E E'. destruct G as [|u u' q q' Y G]; [discriminate|]. apply Ok_inj in E. apply Ok_inj in E'. injection E as <- <-. injection E' as <- <-.
  split; [reflexivity|]. exists k. split; [constructor; assumption|]. intros n L. unfold last_name in L. rewrite <- N in L. apply Some_inj in L. now subst n.
Qed.

(** ** Entries: the mask, the anchors and the code points of the first of two glyphs *)
From Verif Require Import Prop_Ufo.
Definition c117_others ops up asm number (at_ : nat) (e : Z * option value) :=
  rmap (fun r => map (fun u => (map (fun p => (fst p, og_unicodes (snd p), og_anchors (snd p))) (uf_glyphs u),
                                map (fun p => (fst p, List.length (concat (ok_contours (snd p))))) (uf_background u))) (fst r))
    (vfb_to_document (Settings false false false ops up asm) (c86_options number) false (Path true [] (py "Test") (py ".ufo"))
       (firstn at_ c86_entries ++ e :: skipn (S at_) c86_entries)).
Definition c117_ufo (codes : list Z) (name : pystr) (mask : nat) (x y : Z) :=
  ([(py "A", codes, [GdefAnchor (Some name) x y]); (py "Aacute", [193], [])], [(py "A", mask)]).
Example C117_others_meets : forall ops up asm number, let out := c117_others ops up asm number in
  out 9%nat (1250, Some (DInts [65])) = Ok [c117_ufo [65] (py "top") 2 300 700; c117_ufo [65] (py "top") 2 320 710] /\
  out 9%nat (1250, Some (DInts [66; 67])) = Ok [c117_ufo [66; 67] (py "top") 2 300 700; c117_ufo [66; 67] (py "top") 2 320 710] /\
  out 13%nat (2018, Some (DGdef (Gdef None (Some [GdefAnchor (Some (py "up")) 1 2]) None None)))
    = Ok [c117_ufo [65] (py "up") 2 300 700; c117_ufo [65] (py "up") 2 320 710] /\
  out 15%nat (2009, Some (DMask (Mask [] (MaskOutlines 2 (Some [c86_node Move 0 0 0 0; c86_node Line 1 1 1 1; c86_node Line 2 1 2 1])))))
    = Ok [c117_ufo [65] (py "top") 3 300 700; c117_ufo [65] (py "top") 3 320 710].
Proof. intros. split; [vm_compute; reflexivity|]. split; [vm_compute; reflexivity|]. split; vm_compute; reflexivity. Qed.
Print Assumptions C117_others.
