(** C117: what an entry says about one glyph stays with that glyph. *)
From Coq Require Import String ZifyBool QArith.
From Verif Require Import Base M_Py M_Helpers M_Simple M_Text M_TrueType M_Glyph M_Options M_Container M_Table M_Groups M_Info M_FontInfo M_Tth M_Programs.
From Verif Require Import M_Builder M_Master M_Features M_Designspace M_Build M_Labels M_PsHints M_Paths M_Guides M_Export M_Ufo.
From Verif Require Import M_Document M_Tools M_Vfb2ufo S_Build Lib P_Build.
Local Open Scope list_scope.
Local Open Scope Z_scope.

(** ** The statement *)
(** the entries: mark colour, user data, background image and bitmaps of a glyph *)
Definition part_keys : list Z := [2012; 2015; 2007; 2013].
(** a glyph without what one of them says *)
Definition without (key : Z) (g : ufo_glyph) : ufo_glyph :=
  let l := og_lib g in
  UfoGlyph (og_width g) (og_height g) (og_unicodes g) (og_contours g) (og_components g) (og_anchors g) (og_guidelines g) (og_note g)
    (GlyphLib (gl_program l) (gl_hints l) (gl_tth l) (if key =? 2015 then None else gl_user_data l) (if key =? 2012 then None else gl_mark l)
              (if key =? 2007 then None else gl_background l) (if key =? 2013 then None else gl_bitmaps l)).
(** two UFOs that differ at most in that part of one glyph *)
Definition same_but (key : Z) (name : pystr) (u u' : ufo) : Prop :=
  Forall2 (fun p q => fst p = fst q /\ without key (snd p) = without key (snd q) /\ (fst p <> name -> snd p = snd q)) (uf_glyphs u) (uf_glyphs u') /\
  u' = Ufo (uf_features u) (uf_groups u) (uf_info u) (uf_guidelines u) (uf_kerning u) (uf_lib u) (uf_glyphs u') (uf_background u).
(** the name of the last glyph of some entries *)
Definition entry_name (e : Z * option value) : option pystr :=
  match e with (2001, Some (DGlyph x)) => g_name x | _ => None end.
Definition last_name (es : list (Z * option value)) : option pystr :=
  fold_left (fun n e => match entry_name e with Some m => Some m | None => n end) es None.
(** the name under which a glyph is exported: its own, or with a number if there is another one of that name *)
Definition exported_name (n name : pystr) : Prop := name = n \/ exists i, name = n ++ py "#" ++ dec_str i.

(** ** Glyphs that differ in one field *)
Definition part_field (key : Z) : field :=
  if key =? 2012 then FMark else if key =? 2015 then FUserData else if key =? 2007 then FBackground else FBitmaps.
Lemma Some_inj : forall A (a b : A), Some a = Some b -> a = b.
Proof. congruence. Qed.
Definition diff (f : field) (g g' : bglyph gvalue) : Prop :=
  bg_name g' = bg_name g /\ bg_data g' = bg_data g /\ bg_unicodes g' = bg_unicodes g /\ bg_mask g' = bg_mask g /\
  forall x, x <> f -> aget field_eqb x (bg_fields g') = aget field_eqb x (bg_fields g).
(** a relation of glyphs that the entries keep *)
Record kept (R : bglyph gvalue -> bglyph gvalue -> Prop) : Prop := Kept {
  k_refl : forall g, R g g;
  k_name : forall g g', R g g' -> bg_name g' = bg_name g;
  k_unicodes : forall g g' l, R g g' -> R (BGlyph (bg_name g) (bg_data g) (bg_unicodes g ++ l) (bg_mask g) (bg_fields g))
                                          (BGlyph (bg_name g') (bg_data g') (bg_unicodes g' ++ l) (bg_mask g') (bg_fields g'));
  k_mask : forall g g' l, R g g' -> R (BGlyph (bg_name g) (bg_data g) (bg_unicodes g) (bg_mask g ++ l) (bg_fields g))
                                      (BGlyph (bg_name g') (bg_data g') (bg_unicodes g') (bg_mask g' ++ l) (bg_fields g'));
  k_field : forall g g' x v, R g g' -> R (BGlyph (bg_name g) (bg_data g) (bg_unicodes g) (bg_mask g) (aset field_eqb x v (bg_fields g)))
                                         (BGlyph (bg_name g') (bg_data g') (bg_unicodes g') (bg_mask g') (aset field_eqb x v (bg_fields g'))) }.
Lemma diff_kept : forall f, kept (diff f).
Proof.
  intros f. constructor.
  - intros g. repeat split.
  - intros g g' D. apply D.
  - intros g g' l (A & B & C & D & E). repeat split; cbn [bg_name bg_data bg_unicodes bg_mask bg_fields]; congruence || assumption.
  - intros g g' l (A & B & C & D & E). repeat split; cbn [bg_name bg_data bg_unicodes bg_mask bg_fields]; congruence || assumption.
  - intros g g' y v (A & B & C & D & E). repeat split; cbn [bg_name bg_data bg_unicodes bg_mask bg_fields]; try assumption.
    intros x X. specialize (E x X). rewrite !(aget_aset field_eqb) by (intros [] []; split; (discriminate || reflexivity)). now rewrite E.
Qed.
Section One.
  Variable diff : bglyph gvalue -> bglyph gvalue -> Prop.
  Hypothesis Hdiff : kept diff.
  Definition one (k : pystr) : list (pystr * bglyph gvalue) -> list (pystr * bglyph gvalue) -> Prop :=
    Forall2 (fun p q => fst p = fst q /\ diff (snd p) (snd q) /\ (fst p <> k -> snd p = snd q)).
  (** the current glyph differs *)
  Definition differs_now (n : pystr) (b b' : bstate gvalue) : Prop := exists g g',
    bs_current b = Some g /\ diff g g' /\ bg_name g = n /\
    b' = BState (Some g') (bs_glyphs b) (bs_order b) (bs_kerning b) (bs_masters b) (bs_axes b) (bs_infos b).
  (** a stored glyph differs *)
  Definition differs_at (k : pystr) (b b' : bstate gvalue) : Prop :=
    one k (bs_glyphs b) (bs_glyphs b') /\
    b' = BState (bs_current b) (bs_glyphs b') (bs_order b) (bs_kerning b) (bs_masters b) (bs_axes b) (bs_infos b).
  Definition differs (n : pystr) (b b' : bstate gvalue) : Prop :=
    differs_now n b b' \/ exists k, exported_name n k /\ differs_at k b b'.

  Lemma one_refl : forall k l, one k l l.
  Proof. intros k l. induction l as [|p l IH]; constructor; [|exact IH]. split; [reflexivity|]. split; [apply (k_refl _ Hdiff)|reflexivity]. Qed.
  Lemma one_get : forall k n l l', one k l l' -> match aget str_eqb n l, aget str_eqb n l' with Some _, Some _ | None, None => True | _, _ => False end.
  Proof.
    intros k n l l' F. induction F as [|[a g] [a' g'] l l' (E & _) F IH]; cbn [aget]; [exact I|]. cbn [fst] in E. subst a'.
    destruct (str_eqb n a); [exact I|exact IH].
  Qed.
  Lemma one_free : forall k name n i l l', one k l l' -> free_name l' name n i = free_name l name n i.
  Proof.
    intros k name n. induction n as [|n IH]; intros i l l' F; cbn [free_name]; [reflexivity|].
    pose proof (one_get k (name ++ py "#" ++ dec_str i) l l' F) as G.
    destruct (aget str_eqb _ l), (aget str_eqb _ l'); try contradiction; [now apply IH|reflexivity].
  Qed.
  Lemma one_set : forall k n g g' l l', one k l l' -> diff g g' -> (n <> k -> g = g') -> one k (aset str_eqb n g l) (aset str_eqb n g' l').
  Proof.
    intros k n g g' l l' F D E. induction F as [|[a x] [a' x'] l l' (N & H) F IH]; cbn [aset].
    - constructor; [|constructor]. split; [reflexivity|]. split; [exact D|exact E].
    - cbn [fst] in N. subst a'. destruct (str_eqb n a) eqn:Q.
      + apply str_eqb_eq in Q. subst a. constructor; [|exact F]. split; [reflexivity|]. split; [exact D|exact E].
      + constructor; [|exact IH]. split; [reflexivity|exact H].
  Qed.
  Lemma free_is : forall l name n i k, free_name (V := gvalue) l name n i = Some k -> exists j, k = name ++ py "#" ++ dec_str j.
  Proof.
    intros l name n. induction n as [|n IH]; intros i k E; cbn [free_name] in E; [discriminate|].
    destruct (aget str_eqb _ l); [exact (IH _ _ E)|]. apply Some_inj in E. exists i. now symmetry.
  Qed.
  Lemma store_differs : forall n b b', differs n b b' -> exists k, exported_name n k /\
    one k (bs_glyphs (store_glyph b)) (bs_glyphs (store_glyph b')) /\ bs_order (store_glyph b') = bs_order (store_glyph b) /\
    bs_kerning (store_glyph b') = bs_kerning (store_glyph b) /\ bs_masters (store_glyph b') = bs_masters (store_glyph b) /\
    bs_axes (store_glyph b') = bs_axes (store_glyph b) /\ bs_infos (store_glyph b') = bs_infos (store_glyph b).
  Proof.
    intros n [cur gl od kn ms ax inf] b' [(g & g' & C & D & N & ->)|(k & X & F & ->)]; cbn [bs_current bs_glyphs bs_order bs_kerning bs_masters bs_axes bs_infos] in *.
    - subst cur. unfold store_glyph. cbn [bs_current bs_glyphs bs_order bs_kerning bs_masters bs_axes bs_infos].
      rewrite (k_name _ Hdiff _ _ D).
      destruct (aget str_eqb (bg_name g) gl).
      + destruct (free_name gl (bg_name g) 255 0) as [k|] eqn:Fr.
        * exists k. split; [right; rewrite <- N; exact (free_is _ _ _ _ _ Fr)|]. cbn [bs_glyphs bs_order bs_kerning bs_masters bs_axes bs_infos].
          split; [|repeat split]. apply one_set; [apply one_refl|exact D|congruence].
        * exists n. split; [now left|]. split; [apply one_refl|repeat split].
      + exists n. split; [now left|]. cbn [bs_glyphs bs_order bs_kerning bs_masters bs_axes bs_infos].
        split; [|repeat split]. apply one_set; [apply one_refl|exact D|congruence].
    - exists k. split; [exact X|]. unfold store_glyph. cbn [bs_current bs_glyphs bs_order bs_kerning bs_masters bs_axes bs_infos].
      destruct cur as [g|]; [|repeat split; exact F]. rewrite (one_free k _ _ _ _ _ F).
      pose proof (one_get k (bg_name g) _ _ F) as G. generalize dependent (bs_glyphs b'). intros gl' F G.
      destruct (aget str_eqb (bg_name g) gl), (aget str_eqb (bg_name g) gl'); try contradiction;
        [destruct (free_name gl (bg_name g) 255 0)|]; cbn [bs_glyphs bs_order bs_kerning bs_masters bs_axes bs_infos];
        (split; [|repeat split]); try exact F; (apply one_set; [exact F|apply (k_refl _ Hdiff)|reflexivity]).
  Qed.
  Lemma with_differs : forall n h b b', differs n b b' ->
    (forall g g', diff g g' -> diff (h g) (h g')) -> (forall g, bg_name (h g) = bg_name g) ->
    match with_glyph h b with
    | Ok x => exists x', with_glyph h b' = Ok x' /\ differs n x x'
    | Err e => with_glyph h b' = Err e
    end.
  Proof.
    intros n h [cur gl od kn ms ax inf] b' [(g & g' & C & D & N & ->)|(k & X & F & ->)] H K; unfold with_glyph;
      cbn [bs_current bs_glyphs bs_order bs_kerning bs_masters bs_axes bs_infos] in *.
    - subst cur. eexists. split; [reflexivity|]. left. exists (h g), (h g'). cbn [bs_current bs_glyphs bs_order bs_kerning bs_masters bs_axes bs_infos].
      split; [reflexivity|]. split; [now apply H|]. split; [now rewrite K|reflexivity].
    - destruct cur as [g|]; [|reflexivity]. eexists. split; [reflexivity|]. right. exists k. split; [exact X|]. split; [exact F|reflexivity].
  Qed.
  Lemma add_differs : forall n e b b', differs n b b' ->
    match b_add b e with
    | Ok x => exists x', b_add b' e = Ok x' /\ differs n x x'
    | Err e' => b_add b' e = Err e'
    end.
  Proof.
    intros n e b b' H. destruct e; cbn [b_add].
    - eexists. split; [reflexivity|]. right. destruct (store_differs n b b' H) as (k & X & F & O & K & M & A & I). exists k. split; [exact X|].
      unfold differs_at, new_glyph. cbn [bs_current bs_glyphs bs_order bs_kerning bs_masters bs_axes bs_infos]. split; [exact F|]. congruence.
    - apply with_differs; [exact H| |reflexivity]. intros g g' D. now apply (k_unicodes _ Hdiff).
    - apply with_differs; [exact H| |reflexivity]. intros g g' D. now apply (k_mask _ Hdiff).
    - apply with_differs; [exact H| |reflexivity]. intros g g' D. now apply (k_field _ Hdiff).
    - apply with_differs; [exact H| |reflexivity]. intros g g' D. exact D.
    - eexists. split; [reflexivity|]. destruct H as [(g & g' & C & D & N & ->)|(k & X & F & ->)]; [left|right].
      + exists g, g'. repeat split; assumption.
      + exists k. split; [exact X|]. split; [exact F|reflexivity].
    - eexists. split; [reflexivity|]. destruct H as [(g & g' & C & D & N & ->)|(k & X & F & ->)]; [left|right].
      + exists g, g'. repeat split; assumption.
      + exists k. split; [exact X|]. split; [exact F|reflexivity].
    - eexists. split; [reflexivity|]. destruct H as [(g & g' & C & D & N & ->)|(k & X & F & ->)]; [left|right].
      + exists g, g'. repeat split; assumption.
      + exists k. split; [exact X|]. split; [exact F|reflexivity].
    - eexists. split; [reflexivity|]. exact H.
  Qed.
  Lemma finish_differs : forall n b b', differs n b b' -> exists k, exported_name n k /\
    let x := fix_masters_count (store_last b) in let x' := fix_masters_count (store_last b') in
    one k (bs_glyphs x) (bs_glyphs x') /\ bs_order x' = bs_order x /\ bs_kerning x' = bs_kerning x /\ bs_masters x' = bs_masters x /\
    bs_infos x' = bs_infos x.
  Proof.
    intros n [cur gl od kn ms ax inf] b' H. cbv zeta. unfold fix_masters_count.
    assert (L : exists k, exported_name n k /\ exists gl0 cur0 gl' cur' od', one k gl0 gl' /\
      store_last (BState cur gl od kn ms ax inf) = BState cur0 gl0 od' kn ms ax inf /\ store_last b' = BState cur' gl' od' kn ms ax inf).
    { destruct H as [(g & g' & C & D & N & ->)|(k & X & F & ->)]; cbn [bs_current bs_glyphs bs_order bs_kerning bs_masters bs_axes bs_infos] in *.
      - subst cur. exists n. split; [now left|]. unfold store_last. cbn [bs_current bs_glyphs bs_order bs_kerning bs_masters bs_axes bs_infos].
        rewrite (k_name _ Hdiff _ _ D), N. do 5 eexists. split; [|split; reflexivity]. apply one_set; [apply one_refl|exact D|congruence].
      - exists k. split; [exact X|]. unfold store_last. destruct cur as [g|]; cbn [bs_current bs_glyphs bs_order bs_kerning bs_masters bs_axes bs_infos].
        + do 5 eexists. split; [|split; reflexivity]. apply one_set; [exact F|apply (k_refl _ Hdiff)|reflexivity].
        + do 5 eexists. split; [|split; reflexivity]. exact F. }
    destruct L as (k & X & gl0 & cur0 & gl' & cur' & od' & F & -> & ->). exists k. split; [exact X|].
    cbn [bs_current bs_glyphs bs_order bs_kerning bs_masters bs_axes bs_infos].
    destruct (_ <? _); cbn [bs_current bs_glyphs bs_order bs_kerning bs_masters bs_axes bs_infos]; auto.
  Qed.
End One.

(** ** The loop *)
Definition wg (b : bstate gvalue) (s : font) : font :=
  Font (fo_info s) b (fo_tt s) (fo_options s) (fo_features s) (fo_groups s) (fo_flags s) (fo_guides s) (fo_props s) (fo_counts s)
       (fo_design s) (fo_lib s).
Lemma wg_wg : forall b b' s, wg b (wg b' s) = wg b s.
Proof. reflexivity. Qed.
Lemma wg_own : forall s, wg (fo_glyphs s) s = s.
Proof. intros []. reflexivity. Qed.
Definition be_name (e : b_entry gvalue) : option pystr := match e with BGlyphE n _ _ => Some n | _ => None end.
(** an entry does one thing with the glyphs, and what it does does not depend on them *)
Definition acts (name : option pystr) (h : font -> res font) : Prop :=
  forall s, exists e r, (forall b, h (wg b s) = rthen r (fun s0 => rmap (fun x => wg x s0) (b_add b e))) /\ (forall s0, r = Ok s0 -> be_name e = name).
Lemma acts_on_glyphs : forall name e, be_name e = name -> acts name (on_glyphs (fun b => b_add b e)).
Proof.
  intros name e N s. exists e, (Ok s). split; [|intros; exact N]. intros b. cbn [rthen]. unfold on_glyphs. reflexivity.
Qed.
Lemma acts_other : forall h, (forall s, exists r, forall b, h (wg b s) = rmap (wg b) r) -> acts None h.
Proof.
  intros h H s. destruct (H s) as (r & E). exists BOther, r. split; [|reflexivity]. intros b. rewrite E. destruct r; reflexivity.
Qed.
Lemma acts_err : forall name e, acts name (fun _ => Err e).
Proof. intros name e s. exists BOther, (Err e). split; [reflexivity|discriminate]. Qed.
Lemma acts_id : acts None (fun s => Ok s).
Proof. apply acts_other. intros s. exists (Ok s). reflexivity. Qed.
Lemma acts_info : forall f, acts None (on_info f).
Proof. intros f. apply acts_other. intros s. exists (on_info f s). intros b. unfold on_info. cbn [wg fo_info]. destruct (f (fo_info s)); reflexivity. Qed.
Lemma acts_tt : forall f, acts None (on_tt f).
Proof. intros f. apply acts_other. intros s. exists (on_tt f s). intros b. unfold on_tt. cbn [wg fo_tt]. destruct (f (fo_tt s)); reflexivity. Qed.
Lemma acts_groups : forall f, acts None (on_groups f).
Proof. intros f. apply acts_other. intros s. exists (on_groups f s). intros b. unfold on_groups. cbn [wg fo_groups]. destruct (f (fo_groups s)); reflexivity. Qed.
Lemma acts_design : forall f, acts None (on_design f).
Proof. intros f. apply acts_other. intros s. exists (on_design f s). intros b. unfold on_design. cbn [wg fo_design]. destruct (f (fo_design s)); reflexivity. Qed.
Lemma acts_option : forall e, acts None (on_option e).
Proof. intros e. apply acts_other. intros s. exists (on_option e s). reflexivity. Qed.
Lemma acts_features : forall x, acts None (on_features x).
Proof. intros e. apply acts_other. intros s. exists (on_features e s). reflexivity. Qed.
Lemma acts_flags : forall x, acts None (on_flags x).
Proof. intros e. apply acts_other. intros s. exists (on_flags e s). reflexivity. Qed.
Lemma acts_guides : forall x, acts None (on_guides x).
Proof. intros e. apply acts_other. intros s. exists (on_guides e s). reflexivity. Qed.
Lemma acts_props : forall x, acts None (on_props x).
Proof. intros e. apply acts_other. intros s. exists (on_props e s). reflexivity. Qed.
Lemma acts_counts : forall x, acts None (on_counts x).
Proof. intros e. apply acts_other. intros s. exists (on_counts e s). reflexivity. Qed.
Lemma acts_lib : forall k v, acts None (on_lib k v).
Proof. intros k v. apply acts_other. intros s. exists (on_lib k v s). reflexivity. Qed.
Lemma acts_axes : forall n, acts None (fun s => rthen (on_design (set_axis_count n) s) (on_glyphs (fun b => b_add b (BAxisCount n)))).
Proof. intros n s. exists (BAxisCount n), (on_design (set_axis_count n) s). split; [|reflexivity]. intros b. reflexivity. Qed.
Lemma acts_glyph : forall c x, acts (g_name x) (glyph_entry c x).
Proof.
  intros c x s. unfold glyph_entry. destruct (build_mm_glyph (st_minimal c) (st_ps_hints c) x) as [[y d]|e] eqn:E; cbn [rthen fst].
  - exists (BGlyphE (mg_name y) (match g_kerning x with Some k => k | None => [] end) (VGlyph y (ex_side_names (fo_tt s)))), (Ok s).
    split; [reflexivity|]. intros _ _. cbn [be_name]. unfold build_mm_glyph in E. destruct (g_name x) as [n|]; [|discriminate].
    cbn [get_key rthen] in E. destruct (get_key (g_metrics x)); [|discriminate]. cbn [rthen] in E. destruct (get_key (g_nodes x)); [|discriminate].
    cbn [rmap] in E. apply Ok_inj in E. injection E as <- _. reflexivity.
  - exists BOther, (Err e). split; [reflexivity|discriminate].
Qed.
Lemma acts_ext : forall name h h', acts name h -> (forall s, h' s = h s) -> acts name h'.
Proof. intros name h h' H E s. destruct (H s) as (e & r & A & B). exists e, r. split; [|exact B]. intros b. now rewrite E. Qed.
Lemma cases_act : forall c, Forall (fun p => forall d, acts (entry_name (fst p, Some d)) (snd p d)) (cases c).
Proof.
  intros c. unfold cases.
  repeat (apply Forall_cons; [intros d; cbn [snd fst entry_name]|]); [..|constructor];
    try (destruct d; try apply acts_err);
    try apply acts_glyph; try (now apply acts_on_glyphs); try apply acts_info; try apply acts_tt; try apply acts_groups;
    try apply acts_design; try apply acts_option; try apply acts_features; try apply acts_flags; try apply acts_guides;
    try apply acts_props; try apply acts_counts; try apply acts_lib; try apply acts_axes.
  all: idtac.
  match goal with |- context [gd_anchors ?x] => destruct (gd_anchors x) end; [now apply acts_on_glyphs|apply acts_id].
Qed.
Lemma step_acts : forall c en, acts (entry_name en) (fun s => build_step c s en).
Proof.
  intros c [key data]. unfold build_step. destruct (existsb (Z.eqb key) (skip_keys c)) eqn:S.
  - assert (entry_name (key, data) = None) as ->.
    { destruct (key =? 2001) eqn:K; [|].
      - assert (key = 2001) by lia. subst key. exfalso. revert S. unfold skip_keys. destruct (st_vfb_minimal c); vm_compute; discriminate.
      - unfold entry_name. destruct key as [|p|p]; try reflexivity. do 11 (destruct p as [p|p|]; try reflexivity). discriminate K. }
    apply acts_id.
  - destruct data as [d|].
    + destruct (aget Z.eqb key info_mapping) as [attr|] eqn:I.
      * assert (entry_name (key, Some d) = None) as ->.
        { destruct (key =? 2001) eqn:K; [|].
          - assert (key = 2001) by lia. subst key. discriminate I.
          - unfold entry_name. destruct key as [|p|p]; try reflexivity. do 11 (destruct p as [p|p|]; try reflexivity). discriminate K. }
        destruct (as_val (info_data d)); [apply acts_info|apply acts_err].
      * destruct (aget Z.eqb key (cases c)) as [f|] eqn:A.
        -- pose proof (cases_act c) as F. clear S I. induction F as [|[k h] l H F IH]; cbn [aget] in A; [discriminate|].
           destruct (key =? k) eqn:K; [|exact (IH A)]. apply Some_inj in A. subst h. assert (key = k) by lia. subst k. exact (H d).
        -- assert (entry_name (key, Some d) = None) as ->.
           { destruct (key =? 2001) eqn:K; [|].
             - assert (key = 2001) by lia. subst key. discriminate A.
             - unfold entry_name. destruct key as [|p|p]; try reflexivity. do 11 (destruct p as [p|p|]; try reflexivity). discriminate K. }
           apply acts_id.
    + assert (entry_name (key, None) = None) as -> by (unfold entry_name; destruct key as [|p|p]; try reflexivity; do 11 (destruct p as [p|p|]; try reflexivity)).
      apply acts_id.
Qed.
Lemma fold_differs : forall R c es n s b b', kept R -> differs R n b b' ->
  match res_fold (build_step c) (wg b s) es with
  | Ok t => exists t0 x x', t = wg x t0 /\ res_fold (build_step c) (wg b' s) es = Ok (wg x' t0) /\ differs R n x x'
  | Err e => res_fold (build_step c) (wg b' s) es = Err e
  end.
Proof.
  intros R c es. induction es as [|en es IH]; intros n s b b' Hd D; cbn [res_fold].
  - exists s, b, b'. auto.
  - destruct (step_acts c en s) as (e & r & A & _). rewrite !A. destruct r as [s0|]; cbn [rthen]; [|reflexivity].
    pose proof (add_differs R Hd n e b b' D) as H. destruct (b_add b e) as [x|e']; [destruct H as (x' & -> & D')|rewrite H; reflexivity].
    cbn [rmap rthen]. exact (IH n s0 x x' Hd D').
Qed.
Lemma add_name : forall b e x, b_add (V := gvalue) b e = Ok x ->
  option_map bg_name (bs_current x) = match be_name e with Some n => Some n | None => option_map bg_name (bs_current b) end.
Proof.
  intros b e x H. destruct e; cbn [b_add be_name] in *; unfold with_glyph in H; try (destruct (bs_current b) as [g|]; [|discriminate]);
    apply Ok_inj in H; subst x; reflexivity.
Qed.
Lemma fold_name : forall c es s t, res_fold (build_step c) s es = Ok t ->
  option_map bg_name (bs_current (fo_glyphs t)) =
    fold_left (fun n e => match entry_name e with Some m => Some m | None => n end) es (option_map bg_name (bs_current (fo_glyphs s))).
Proof.
  intros c es. induction es as [|en es IH]; intros s t H; cbn [res_fold fold_left] in *.
  - apply Ok_inj in H. now subst t.
  - destruct (step_acts c en s) as (e & r & A & N). specialize (A (fo_glyphs s)). rewrite wg_own in A. rewrite A in H.
    destruct r as [s0|]; [|discriminate]. cbn [rthen] in H. destruct (b_add (fo_glyphs s) e) as [x|] eqn:B; [|discriminate]. cbn [rmap rthen] in H.
    rewrite (IH _ _ H). f_equal. cbn [wg fo_glyphs]. rewrite (add_name _ _ _ B), (N s0 eq_refl). reflexivity.
Qed.

(** ** The export *)
Section Export.
  Variables (key : Z) (c : settings) (o : options) (order : list pystr).
  Hypothesis Hkey : In key part_keys.
  Let f := part_field key.
  Definition glyph_but (k : pystr) (p q : pystr * ufo_glyph) : Prop :=
    fst p = fst q /\ without key (snd p) = without key (snd q) /\ (fst p <> k -> snd p = snd q).
  Lemma field_same : forall x g g', diff f g g' -> x <> f -> field_data x g' = field_data x g.
  Proof. intros x g g' (_ & _ & _ & _ & D) X. unfold field_data. now rewrite D. Qed.
  Lemma part_is : f = FMark \/ f = FUserData \/ f = FBackground \/ f = FBitmaps.
  Proof. unfold f. destruct Hkey as [<-|[<-|[<-|[<-|[]]]]]; vm_compute; auto. Qed.
  Lemma export_one_diff : forall m name g g' cmds st, diff f g g' ->
    match export_one c o order m name g cmds st with
    | Ok r => exists u, export_one c o order m name g' cmds st = Ok (u, snd (fst r), snd r) /\ without key (fst (fst r)) = without key u
    | Err e => export_one c o order m name g' cmds st = Err e
    end.
  Proof.
    intros m name g g' cmds st D. pose proof part_is as P.
    assert (X : forall x, x <> FMark -> x <> FUserData -> x <> FBackground -> x <> FBitmaps -> field_data x g' = field_data x g).
    { intros x A B C E. apply field_same; [exact D|]. intros ->. destruct P as [P|[P|[P|P]]]; contradiction. }
    unfold export_one, eglyph_of, glyph_extras_of, glyph_links, glyph_mask, glyph_props, glyph_anchors, glyph_mm_anchors.
    rewrite (X FLinks), (X FMask), (X FGuides), (X FAnchors), (X FMMAnchors) by discriminate.
    pose proof (fun x => field_same x g g' D) as Y. destruct D as (_ & -> & -> & -> & _).
    destruct (bg_data g) as [x z|d]; [|reflexivity].
    destruct (export_glyph _ _ _ _ _ _ _) as [r|e]; cbn [rthen]; [|reflexivity].
    destruct (tth_lib cmds) as [tth|e]; cbn [rthen]; [|reflexivity].
    destruct (if st_minimal c then _ else _) as [mask|e]; cbn [rthen]; [|reflexivity].
    destruct (extract_components _ _ _ _) as [ks|e]; cbn [rthen]; [|reflexivity].
    destruct (build_master _ _ _ _) as [d|e]; cbn [rthen]; [|reflexivity].
    destruct (if st_minimal c then _ else _) as [gs|e]; cbn [rthen]; [|reflexivity].
    destruct (finalize_tth _ _) as [t|e]; cbn [rmap]; [|reflexivity].
    eexists. split; [cbn [fst snd]; reflexivity|]. unfold without. cbn [fst og_lib og_width og_height og_unicodes og_contours og_components og_anchors og_guidelines og_note gl_program gl_hints gl_tth gl_user_data gl_mark gl_background gl_bitmaps].
    unfold f in Y. destruct Hkey as [<-|[<-|[<-|[<-|[]]]]]; cbn [Z.eqb Pos.eqb]; vm_compute part_field in Y; rewrite ?(Y FMark), ?(Y FUserData), ?(Y FBackground), ?(Y FBitmaps) by discriminate; reflexivity.
  Qed.
  Lemma export_all_one : forall k m gl gl' cmds st, one (diff f) k gl gl' ->
    match export_all c o order m gl cmds st with
    | Ok r => exists us, export_all c o order m gl' cmds st = Ok (us, snd (fst r), snd r) /\ Forall2 (glyph_but k) (fst (fst r)) us
    | Err e => export_all c o order m gl' cmds st = Err e
    end.
  Proof.
    intros k m gl gl' cmds st F. revert st. induction F as [|[a g] [a' g'] l l' (N & D & E) F IH]; intros st; cbn [export_all].
    - eexists. split; [reflexivity|constructor].
    - cbn [fst snd] in *. subst a'. set (cm := match aget str_eqb a cmds with Some l => l | None => [] end).
      pose proof (export_one_diff m a g g' cm st D) as H. destruct (export_one c o order m a g cm st) as [r|e] eqn:X.
      + destruct H as (u & H & W). rewrite H. cbn [rthen fst snd]. specialize (IH (snd r)).
        destruct (export_all c o order m l cmds (snd r)) as [q|e]; [destruct IH as (us & -> & G)|rewrite IH; reflexivity].
        cbn [rmap fst snd]. eexists. split; [reflexivity|]. constructor; [|exact G]. repeat split; cbn [fst snd]; [exact W|].
        intros K. specialize (E K). subst g'. rewrite X in H. apply Ok_inj in H. rewrite H. reflexivity.
      + rewrite H. reflexivity.
  Qed.
  Lemma first_one : forall k gl gl', one (diff f) k gl gl' -> first_store gl' = first_store gl.
  Proof.
    intros k gl gl' F. unfold first_store. induction F as [|[a g] [a' g'] l l' (N & (_ & D & _) & _) F IH]; cbn [map fst snd] in *; [reflexivity|].
    now rewrite IH, D, N.
  Qed.
  Lemma insert_one : forall k p q gl gl', fst p = fst q /\ diff f (snd p) (snd q) /\ (fst p <> k -> snd p = snd q) -> one (diff f) k gl gl' ->
    one (diff f) k (insert_glyph p gl) (insert_glyph q gl').
  Proof.
    intros k p q gl gl' P F. induction F as [|x y l l' X F IH]; cbn [insert_glyph]; [constructor; [exact P|constructor]|].
    assert (glyph_ltb y q = glyph_ltb x p) as ->.
    { destruct P as (_ & (A & B & _) & _). destruct X as (_ & (A' & B' & _) & _). unfold glyph_ltb, components_count. now rewrite A, B, A', B'. }
    destruct (glyph_ltb x p); constructor; try assumption. constructor; assumption.
  Qed.
  Lemma sorted_one : forall k gl gl', one (diff f) k gl gl' -> one (diff f) k (sorted_glyphs gl) (sorted_glyphs gl').
  Proof.
    intros k gl gl' F. unfold sorted_glyphs. induction F as [|x y l l' X F IH]; cbn [fold_right]; [constructor|]. now apply insert_one.
  Qed.
  Lemma tt_one : forall k t gl gl' st, one (diff f) k gl gl' -> tt_glyph_lib o order t gl' st = tt_glyph_lib o order t gl st.
  Proof.
    intros k t gl gl' st F. revert st. induction F as [|[a g] [a' g'] l l' (N & (_ & D & _) & _) F IH]; intros st; cbn [tt_glyph_lib]; [reflexivity|].
    cbn [fst snd] in *. subst a'. rewrite D. destruct (bg_data g) as [x z|d]; [|apply IH]. destruct (mg_tth x); [|apply IH].
    destruct (export_commands _ _ _ _ _ _) as [r|e]; cbn [rthen]; [|reflexivity]. now rewrite IH.
  Qed.
End Export.
Lemma masters_one : forall key c o s b b' k sh lib cmds n m st, In key part_keys -> one (diff (part_field key)) k (bs_glyphs b) (bs_glyphs b') ->
  bs_order b' = bs_order b -> bs_infos b' = bs_infos b ->
  match ufo_masters c o (wg b s) sh lib cmds m n st with
  | Ok us => exists us', ufo_masters c o (wg b' s) sh lib cmds m n st = Ok us' /\ Forall2 (same_but key k) us us'
  | Err e => ufo_masters c o (wg b' s) sh lib cmds m n st = Err e
  end.
Proof.
  intros key c o s b b' k sh lib cmds n m st K F O I. revert m st. induction n as [|n IH]; intros m st; cbn [ufo_masters]; [eexists; split; [reflexivity|constructor]|].
  unfold get_ufo_master. cbn [wg fo_glyphs fo_counts fo_info]. unfold ps_infos, font_guides. cbn [wg fo_glyphs fo_guides fo_props]. rewrite O, I.
  destruct (get_master_kerning _ _) as [kn|e]; cbn [rthen]; [|reflexivity].
  destruct (get_master_info _ _ _ _ _) as [i|e]; cbn [rthen]; [|reflexivity].
  destruct (if st_minimal c then _ else _) as [gs|e]; cbn [rthen]; [|reflexivity].
  pose proof (export_all_one key c o (bs_order b) K k m _ _ cmds st F) as H.
  destruct (export_all c o (bs_order b) m (bs_glyphs b) cmds st) as [r|e]; [destruct H as (us & -> & G)|rewrite H; reflexivity].
  cbn [rmap rthen fst snd]. specialize (IH (m + 1) (snd r)).
  destruct (ufo_masters c o (wg b s) sh lib cmds (m + 1) n (snd r)) as [q|e]; [destruct IH as (q' & -> & G')|rewrite IH; reflexivity].
  cbn [rmap]. eexists. split; [reflexivity|]. constructor; [|exact G']. split; [exact G|reflexivity].
Qed.
Lemma export_differs : forall key c o json out s b b' k us d, In key part_keys -> one (diff (part_field key)) k (bs_glyphs b) (bs_glyphs b') ->
  bs_order b' = bs_order b -> bs_kerning b' = bs_kerning b -> bs_masters b' = bs_masters b -> bs_infos b' = bs_infos b ->
  get_ufos_designspace c o json out (wg b s) = Ok (us, d) ->
  exists us', get_ufos_designspace c o json out (wg b' s) = Ok (us', d) /\ Forall2 (same_but key k) us us'.
Proof.
  intros key c o json out s b b' k us d K F O Kn M I. unfold get_ufos_designspace, get_ufo_masters. 
  change (ds_data_of (wg b' s)) with (DsData (de_count (fo_design s)) (de_axes (fo_design s)) (de_masters (fo_design s)) (bs_masters b') (de_locations (fo_design s)) (de_instances (fo_design s))
         (ds_family_name (fo_info s)) (info_text (py "styleMapStyleName") (fo_info s))).
  rewrite M. change (DsData _ _ _ (bs_masters b) _ _ _ _) with (ds_data_of (wg b s)).
  change (hinting_lib (wg b' s)) with (hinting_lib (wg b s)).
  cbn [wg fo_glyphs fo_tt fo_groups fo_flags fo_features fo_info fo_lib]. fold (wg b s). fold (wg b' s). rewrite M, O, Kn.
  rewrite (first_one key k _ _ F), (tt_one key o (bs_order b) k _ _ _ _ (sorted_one key k _ _ F)).
  destruct (tt_glyph_lib _ _ _ _ _) as [t|]; cbn [rthen]; [|discriminate].
  destruct (transform_groups _ _ _ _) as [tg|]; cbn [rthen]; [|discriminate].
  destruct (export_shared _ _ _ _ _ _ _ _) as [sh|]; cbn [rthen]; [|discriminate].
  match goal with |- context [ufo_masters c o (wg b s) sh ?lib ?cm ?m ?n ?st] => pose proof (masters_one key c o s b b' k sh lib cm n m st K F O I) as H;
    destruct (ufo_masters c o (wg b s) sh lib cm m n st) as [q|e] end; [|discriminate].
  destruct H as (q' & -> & G). cbn [rthen]. destruct G as [|u u' q q' X G]; [discriminate|].
  destruct (written_designspace _ _ _ _) as [ds|]; cbn [rmap]; [|discriminate]. intros E. apply Ok_inj in E. injection E as <- <-.
  eexists. split; [reflexivity|]. constructor; assumption.
Qed.

(** ** The theorem *)
Lemma same_refl : forall key k u, same_but key k u u.
Proof.
  intros key k [a b i g kn l gl bg]. split; [|reflexivity]. cbn [uf_glyphs]. induction gl; constructor; [|assumption]. repeat split.
Qed.
Lemma part_step : forall c s key d, In key part_keys ->
  build_step c s (key, Some d) = if existsb (Z.eqb key) (skip_keys c) then Ok s else glyph_field (part_field key) d s.
Proof.
  intros c s key d H. unfold build_step. destruct (existsb (Z.eqb key) (skip_keys c)); [reflexivity|].
  destruct H as [<-|[<-|[<-|[<-|[]]]]]; reflexivity.
Qed.
(** For all entries, settings and paths, and all data [d] and [d'] of an entry about the mark, the user data, the
    background image or the bitmaps of a glyph: if the entries with [d] are exported, they are with [d'] in its
    place, with the same document, and to UFOs which are the same except for that part of at most one glyph, the one
    that the entry follows. *)
Theorem C117_local : forall c o json out key d d' before after us ds,
  In key part_keys ->
  vfb_to_document c o json out (before ++ (key, Some d) :: after) = Ok (us, ds) ->
  exists us' name,
    vfb_to_document c o json out (before ++ (key, Some d') :: after) = Ok (us', ds) /\
    Forall2 (same_but key name) us us' /\
    (forall n, last_name before = Some n -> exported_name n name).
Proof.
  intros c o json out key d d' before after us ds K. unfold vfb_to_document, build_font. rewrite !res_fold_app.
  destruct (res_fold (build_step c) new_font before) as [s|] eqn:B; cbn [rthen]; [|discriminate]. cbn [res_fold]. rewrite !part_step by exact K.
  destruct (existsb (Z.eqb key) (skip_keys c)); cbn [rthen].
  - intros E. exists us, (match last_name before with Some n => n | None => [] end). split; [exact E|]. split.
    + clear E. induction us; constructor; [apply same_refl|assumption].
    + intros n ->. now left.
  - pose proof (fold_name c before new_font s B) as N. cbn [new_font fo_glyphs b_start bs_current option_map] in N.
    unfold glyph_field, on_glyphs. cbn [b_add]. unfold with_glyph at 1. destruct (bs_current (fo_glyphs s)) as [g|] eqn:C; [|discriminate].
    unfold with_glyph. rewrite C. cbn [rmap rthen option_map] in *.
    match goal with |- rthen (rthen (res_fold _ (Font _ ?b _ _ _ _ _ _ _ _ _ _) _) _) _ = _ -> exists _ _, rthen (rthen (res_fold _ (Font _ ?b' _ _ _ _ _ _ _ _ _ _) _) _) _ = _ /\ _ =>
      assert (D : differs (diff (part_field key)) (bg_name g) b b');
      [|change (Font _ b _ _ _ _ _ _ _ _ _ _) with (wg b s); change (Font _ b' _ _ _ _ _ _ _ _ _ _) with (wg b' s);
        pose proof (fold_differs _ c after (bg_name g) s b b' (diff_kept _) D) as H; destruct (res_fold (build_step c) (wg b s) after) as [t|]; [|discriminate]] end.
    { left. do 2 eexists. cbn [bs_current bs_glyphs bs_order bs_kerning bs_masters bs_axes bs_infos]. split; [reflexivity|].
      split; [|split; [|reflexivity]]; [|reflexivity]. repeat split. cbn [bg_fields]. intros x X.
      rewrite !(aget_aset field_eqb) by (intros [] []; split; (discriminate || reflexivity)).
      destruct (field_eqb x (part_field key)) eqn:Q; [|reflexivity]. exfalso. apply X. destruct x, (part_field key); (discriminate || reflexivity). }
    destruct H as (t0 & x & x' & -> & -> & D'). cbn [rthen]. destruct (finish_differs _ (diff_kept _) _ _ _ D') as (k & X & F & O & Kn & M & I). cbv zeta in *.
    unfold finish, on_info. cbn [fo_info wg fo_glyphs fo_tt fo_options fo_features fo_groups fo_flags fo_guides fo_props fo_counts fo_design fo_lib].
    destruct (fix_underline_position _) as [i|]; cbn [rmap rthen]; [|discriminate].
    set (y := fix_masters_count (store_last x)) in *. set (y' := fix_masters_count (store_last x')) in *.
    set (t1 := Font i y (fo_tt t0) (fo_options t0) (fo_features t0) (fo_groups t0) (fo_flags t0) (fo_guides t0) (fo_props t0) (fo_counts t0) (fo_design t0) (fo_lib t0)).
    change (Font i y' _ _ _ _ _ _ _ _ _ _) with (wg y' t1). change t1 with (wg y t1) at 1. intros E.
    destruct (export_differs key c o json out t1 y y' k us ds K F O Kn M I E) as (us' & E' & G). exists us', k. split; [exact E'|].
    split; [exact G|]. intros n L. unfold last_name in L. rewrite <- N in L. apply Some_inj in L. now subst n.
Qed.

(** ** Entries: the mark of the first of two glyphs *)
From Verif Require Import Prop_Ufo.
Definition c117_marks ops up asm number (hue : Z) :=
  rmap (fun r => map (fun u => map (fun p => (fst p, gl_mark (og_lib (snd p)))) (uf_glyphs u)) (fst r))
    (vfb_to_document (Settings false false false ops up asm) (c86_options number) false (Path true [] (py "Test") (py ".ufo"))
       (firstn 10 c86_entries ++ (2012, Some (DInt hue)) :: skipn 11 c86_entries)).
Example C117_meets : forall ops up asm number,
  firstn 10 c86_entries ++ (2012, Some (DInt 10)) :: skipn 11 c86_entries = c86_entries /\ last_name (firstn 10 c86_entries) = Some (py "A") /\
  (let u := [(py "A", Some (py "0.9520,0.7195,0.6480,1")); (py "Aacute", None)] in c117_marks ops up asm number 10 = Ok [u; u]) /\
  (let u := [(py "A", Some (py "0.6480,0.9127,0.9520,1")); (py "Aacute", None)] in c117_marks ops up asm number 133 = Ok [u; u]).
Proof. intros. split; [reflexivity|]. split; [reflexivity|]. split; vm_compute; reflexivity. Qed.
Print Assumptions C117_local.
