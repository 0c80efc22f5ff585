(** C116: the option --minimal of vfb2ufo. *)
From Coq Require Import String ZifyBool QArith.
From Verif Require Import Base M_Py M_Helpers M_Simple M_Text M_TrueType M_Glyph M_Options M_Container M_Table M_Groups M_Info M_FontInfo M_Tth M_Programs.
From Verif Require Import M_Builder M_Master M_Features M_Designspace M_Build M_Labels M_PsHints M_Paths M_Guides M_Export M_Ufo.
From Verif Require Import M_Document M_Tools M_Vfb2ufo S_Build Lib.
Local Open Scope list_scope.
Local Open Scope Z_scope.

(** the same arguments with and without the option *)
Definition set_minimal (on : bool) (a : args) : args :=
  Args (a_input a) (a_output a) (a_folder a) (a_json a) (a_zip a) (a_force a) on (a_unicode a)
       (a_base64 a) (a_no_hints a) (a_kerning_groups a) (a_keep_groups a).

(** ** What the option leaves out *)
(** of a glyph: its guidelines, and in its lib the mark colour, the background image and the bitmaps *)
Definition minimal_glyph (g : ufo_glyph) : ufo_glyph :=
  UfoGlyph (og_width g) (og_height g) (og_unicodes g) (og_contours g) (og_components g) (og_anchors g) [] (og_note g)
    (GlyphLib (gl_program (og_lib g)) (gl_hints (og_lib g)) (gl_tth (og_lib g)) (gl_user_data (og_lib g)) None None None).
(** of the font info: its note *)
Definition minimal_info (i : info) : info :=
  mkInfo (filter (fun p => negb (str_eqb (py "note") (fst p))) (if_attrs i)) (if_lib i).
(** of a UFO: its guidelines and the layer of the masks *)
Definition minimal_ufo (features : pystr) (gs : groups) (kerning : pair_kerning Z) (u : ufo) : ufo :=
  Ufo features gs (minimal_info (uf_info u)) [] kerning (uf_lib u) (map (fun p => (fst p, minimal_glyph (snd p))) (uf_glyphs u)) [].

(** ** Building *)
Notation kv_map h l := (map (fun p => (fst p, h (snd p))) l).
Lemma aget_kv : forall K A eqb (h : A -> A) (k : K) l, aget eqb k (kv_map h l) = option_map h (aget eqb k l).
Proof. intros K A eqb h k l. induction l as [|[k' v] l IH]; cbn; [reflexivity|]. now destruct (eqb k k'). Qed.
Lemma aset_kv : forall K A eqb (h : A -> A) (k : K) v l, aset eqb k (h v) (kv_map h l) = kv_map h (aset eqb k v l).
Proof. intros K A eqb h k v l. induction l as [|[k' v'] l IH]; cbn; [reflexivity|]. destruct (eqb k k'); cbn; [reflexivity|]. f_equal. exact IH. Qed.

Definition min_mm (x : mm_glyph) : mm_glyph :=
  MMGlyph (mg_name x) None (mg_h x) (mg_v x) (mg_masks x) (mg_metrics x) (mg_nodes x) (mg_components x) (mg_tth x) (mg_instructions x).
Definition min_value (v : gvalue) : gvalue := match v with VGlyph x z => VGlyph (min_mm x) z | VData d => VData d end.
Definition kept (f : field) : bool :=
  match f with FMark | FNote | FGuides | FBackground | FBitmaps | FMask => false | _ => true end.
Definition bg_min (g : bglyph gvalue) : bglyph gvalue :=
  BGlyph (bg_name g) (min_value (bg_data g)) (bg_unicodes g) (bg_mask g) (filter (fun p => kept (fst p)) (bg_fields g)).
Definition bs_min (b : bstate gvalue) : bstate gvalue :=
  BState (option_map bg_min (bs_current b)) (kv_map bg_min (bs_glyphs b)) (bs_order b) (bs_kerning b)
         (bs_masters b) (bs_axes b) (bs_infos b).
Definition be_min (e : b_entry gvalue) : b_entry gvalue :=
  match e with BGlyphE n k d => BGlyphE n k (min_value d) | e => e end.
Definition dropped_entry (e : b_entry gvalue) : bool := match e with BField f _ => negb (kept f) | _ => false end.

Lemma field_eqb_eq : forall a b, field_eqb a b = true -> a = b.
Proof. intros [] [] H; try discriminate; reflexivity. Qed.
Lemma aset_kept : forall (f : field) (v : gvalue) l, kept f = true ->
  aset field_eqb f v (filter (fun p => kept (fst p)) l) = filter (fun p => kept (fst p)) (aset field_eqb f v l).
Proof.
  intros f v l K. induction l as [|[k w] l IH]; cbn [filter aset fst]; [now rewrite K|].
  destruct (field_eqb f k) eqn:E.
  - apply field_eqb_eq in E. subst k. cbn [filter fst]. rewrite K. cbn [aset]. now destruct f.
  - cbn [filter fst]. destruct (kept k); [|exact IH]. cbn [aset]. rewrite E. f_equal. exact IH.
Qed.
Lemma aset_dropped : forall (f : field) (v : gvalue) l, kept f = false ->
  filter (fun p => kept (fst p)) (aset field_eqb f v l) = filter (fun p => kept (fst p)) l.
Proof.
  intros f v l K. induction l as [|[k w] l IH]; cbn [filter aset fst]; [now rewrite K|].
  destruct (field_eqb f k) eqn:E.
  - apply field_eqb_eq in E. subst k. cbn [filter fst]. now rewrite K.
  - cbn [filter fst]. now rewrite IH.
Qed.
Lemma free_name_min : forall name n i l, free_name (kv_map bg_min l) name n i = free_name l name n i.
Proof.
  intros name n. induction n as [|n IH]; intros i l; cbn [free_name]; [reflexivity|]. rewrite aget_kv.
  destruct (aget str_eqb _ l); cbn [option_map]; [apply IH|reflexivity].
Qed.
Lemma store_glyph_min : forall b, store_glyph (bs_min b) = bs_min (store_glyph b).
Proof.
  intros [[g|] gl od kn ms ax inf]; [|reflexivity]. unfold store_glyph. cbn [bs_min bs_current option_map bs_glyphs].
  change (bg_name (bg_min g)) with (bg_name g). rewrite aget_kv, free_name_min.
  destruct (aget str_eqb (bg_name g) gl); cbn [option_map].
  - destruct (free_name gl (bg_name g) 255 0); unfold bs_min; cbn [bs_current bs_glyphs bs_order bs_kerning bs_masters bs_axes bs_infos option_map];
      [now rewrite aset_kv|reflexivity].
  - unfold bs_min; cbn [bs_current bs_glyphs bs_order bs_kerning bs_masters bs_axes bs_infos option_map]. now rewrite aset_kv.
Qed.
Lemma b_add_min : forall b e, dropped_entry e = false -> b_add (bs_min b) (be_min e) = rmap bs_min (b_add b e).
Proof.
  intros b e K. destruct e; cbn [be_min b_add rmap]; try reflexivity.
  - rewrite store_glyph_min. reflexivity.
  - unfold with_glyph. now destruct b as [[g|] ? ? ? ? ? ?].
  - unfold with_glyph. now destruct b as [[g|] ? ? ? ? ? ?].
  - unfold with_glyph. destruct b as [[g|] ? ? ? ? ? ?]; [|reflexivity]. cbn [bs_min bs_current option_map rmap].
    unfold bs_min, bg_min. cbn [bs_current option_map bg_fields bg_name bg_data bg_unicodes bg_mask dropped_entry] in *.
    rewrite aset_kept; [reflexivity|]. now destruct (kept f).
  - unfold with_glyph. now destruct b as [[g|] ? ? ? ? ? ?].
Qed.
Lemma b_add_dropped : forall b e b', dropped_entry e = true -> b_add b e = Ok b' -> bs_min b' = bs_min b.
Proof.
  intros b e b' K E. destruct e; try discriminate. cbn [b_add] in E. unfold with_glyph in E.
  destruct b as [[g|] gl od kn ms ax inf]; [|discriminate]. cbn [bs_current] in E. apply Ok_inj in E. subst b'.
  unfold bs_min, bg_min. cbn [bs_current option_map bg_fields bg_name bg_data bg_unicodes bg_mask dropped_entry
    bs_glyphs bs_order bs_kerning bs_masters bs_axes bs_infos] in *.
  rewrite aset_dropped; [reflexivity|]. now destruct (kept f).
Qed.
Lemma finish_min : forall b, fix_masters_count (store_last (bs_min b)) = bs_min (fix_masters_count (store_last b)).
Proof.
  intros [[g|] gl od kn ms ax inf]; cbn [bs_min store_last bs_current option_map]; unfold fix_masters_count, bs_min;
    cbn [bs_infos bs_current bs_glyphs bs_order bs_kerning bs_masters bs_axes option_map];
    try change (bg_name (bg_min g)) with (bg_name g); rewrite ?aset_kv; destruct (_ <? _); reflexivity.
Qed.

(** ** The font info *)
Notation note := (py "note").
Lemma setattr_min : forall a v i, str_eqb note a = false -> setattr a v (minimal_info i) = minimal_info (setattr a v i).
Proof.
  intros a v [attrs lib] N. unfold setattr, minimal_info. cbn [if_attrs if_lib]. f_equal.
  induction attrs as [|[k w] attrs IH]; cbn [filter aset fst]; [now rewrite N|]. destruct (str_eqb a k) eqn:E.
  - apply str_eqb_eq in E. subst k. cbn [filter fst]. rewrite N. cbn [negb aset]. now rewrite str_eqb_refl.
  - cbn [filter fst]. destruct (negb (str_eqb note k)); [|exact IH]. cbn [aset]. rewrite E. f_equal. exact IH.
Qed.
Lemma setattr_note : forall v i, minimal_info (setattr note v i) = minimal_info i.
Proof.
  intros v [attrs lib]. unfold setattr, minimal_info. cbn [if_attrs if_lib]. f_equal.
  induction attrs as [|[k w] attrs IH]; cbn [filter aset fst]; [now rewrite str_eqb_refl|]. destruct (str_eqb note k) eqn:E.
  - cbn [filter fst]. rewrite ?str_eqb_refl, ?E. reflexivity.
  - cbn [filter fst]. rewrite E. cbn [negb]. f_equal. exact IH.
Qed.
Lemma aget_info : forall k i, str_eqb note k = false -> aget str_eqb k (if_attrs (minimal_info i)) = aget str_eqb k (if_attrs i).
Proof.
  intros k [attrs lib] N. cbn [minimal_info if_attrs]. induction attrs as [|[a w] attrs IH]; [reflexivity|]. cbn [filter aget fst].
  destruct (str_eqb k a) eqn:E.
  - apply str_eqb_eq in E. subst a. rewrite N. cbn [negb aget]. now rewrite str_eqb_refl.
  - destruct (negb (str_eqb note a)); [|exact IH]. cbn [aget]. rewrite E. exact IH.
Qed.
Ltac no_note := vm_compute; reflexivity.
Lemma table_note : forall K (eqb : K -> K -> bool) l (k : K) a, (forall x y, eqb x y = true <-> x = y) ->
  forallb (fun p : K * pystr => negb (str_eqb note (snd p))) l = true -> aget eqb k l = Some a -> str_eqb note a = false.
Proof.
  intros K eqb l k a H F E. apply (aget_In eqb H) in E. rewrite forallb_forall in F. apply F in E. cbn [snd] in E. now apply negb_true_iff in E.
Qed.
Lemma set_tt_item_min : forall i kv, set_tt_item (minimal_info i) kv = rmap minimal_info (set_tt_item i kv).
Proof.
  intros i [k v]. unfold set_tt_item. destruct v as [v|flags ops|l|r1 r2].
  - destruct (aget str_eqb k mapping_int) as [attr|] eqn:A.
    + cbn [rmap]. rewrite setattr_min; [reflexivity|]. exact (table_note _ str_eqb mapping_int k attr str_eqb_eq eq_refl A).
    + repeat match goal with |- (if ?b then _ else _) = _ => destruct b end; try reflexivity;
        try (cbn [rmap]; rewrite setattr_min by no_note; reflexivity).
      * unfold set_created_timestamp. destruct (convert_timestamp v); cbn [rmap]; [|reflexivity]. now rewrite setattr_min by no_note.
      * destruct (binaryToIntList v 0); cbn [rmap]; [|reflexivity]. now rewrite setattr_min by no_note.
      * destruct (aget str_eqb k maxp_keys); [reflexivity|]. destruct (str_eqb k _); [|reflexivity]. cbn [rmap].
        destruct (v =? 0); [reflexivity|]. now rewrite setattr_min by no_note.
  - destruct (str_eqb k _); [|reflexivity]. cbn [rmap]. now rewrite setattr_min by no_note.
  - reflexivity.
  - destruct (str_eqb k _); [cbn [rmap]; now rewrite setattr_min by no_note|]. destruct (str_eqb k _); [|reflexivity].
    destruct (code_pages r1 r2) as [l|]; cbn [rmap]; [|reflexivity]. destruct l; [reflexivity|]. now rewrite setattr_min by no_note.
Qed.
Lemma set_tt_info_min : forall l i, set_tt_info (minimal_info i) l = rmap minimal_info (set_tt_info i l).
Proof.
  intros l. induction l as [|kv l IH]; intros i; cbn [set_tt_info]; [reflexivity|]. rewrite set_tt_item_min.
  destruct (set_tt_item i kv); cbn [rmap rthen]; [apply IH|reflexivity].
Qed.
Lemma info_case_min : forall key d i, info_case key d (minimal_info i) = rmap minimal_info (info_case key d i).
Proof.
  intros key d i. unfold info_case, set_fixed_pitch, set_weight_class.
  repeat match goal with |- (if ?b then _ else _) = _ => destruct b end;
    try (destruct (as_val d); cbn [rmap]; [now rewrite !setattr_min by no_note|reflexivity]);
    try (destruct d as [v|t|l|l]; try reflexivity; try (destruct v; try reflexivity));
    try reflexivity;
    try (cbn [rmap]; now rewrite setattr_min by no_note).
  - apply set_tt_info_min.
  - unfold set_tt_gasp. destruct (gasp_records l); cbn [rmap]; [|reflexivity]. now rewrite setattr_min by no_note.
  - unfold set_selection. destruct (binaryToIntList z 0) as [l|]; cbn [rmap]; [|reflexivity].
    destruct (style_parts l); now rewrite !setattr_min by no_note.
Qed.
Lemma finish_info_min : forall i, fix_underline_position (drop_default (minimal_info i)) =
  rmap minimal_info (fix_underline_position (drop_default i)).
Proof.
  intros i. assert (D : drop_default (minimal_info i) = minimal_info (drop_default i)).
  { unfold drop_default. change (if_lib (minimal_info i)) with (if_lib i). destruct (if_lib i); [|reflexivity]. now destruct (dict_eqb _ _). }
  rewrite D. generalize (drop_default i). clear. intros i. unfold fix_underline_position. rewrite !aget_info by no_note.
  destruct (aget str_eqb (py "postscriptUnderlinePosition") (if_attrs i)) as [[]|];
    try (destruct (aget str_eqb (py "postscriptUnderlineThickness") (if_attrs i)) as [[]|]); try reflexivity.
  cbn [rmap]. now rewrite setattr_min by no_note.
Qed.
Lemma clipped_min : forall a n l i, str_eqb note a = false -> set_clipped a n l (minimal_info i) = minimal_info (set_clipped a n l i).
Proof. intros a n l i N. unfold set_clipped. destruct (n =? 0); [reflexivity|now apply setattr_min]. Qed.
Lemma master_info_min : forall ps counts infos m i,
  get_master_info ps counts infos m (minimal_info i) = rmap minimal_info (get_master_info ps counts infos m i).
Proof.
  intros ps counts infos m i. unfold get_master_info. destruct (py_index infos m) as [p|]; cbn [rmap]; [|reflexivity]. cbv zeta.
  f_equal. rewrite !setattr_min by no_note. destruct ps; [|reflexivity]. now rewrite !clipped_min by no_note.
Qed.
Lemma info_text_min : forall a i, str_eqb note a = false -> info_text a (minimal_info i) = info_text a i.
Proof. intros a i N. unfold info_text. now rewrite aget_info. Qed.
Lemma family_min : forall i, ds_family_name (minimal_info i) = ds_family_name i.
Proof. intros i. unfold ds_family_name, first_text. cbn [map]. now rewrite !info_text_min by no_note. Qed.

Definition min_font (s : font) : font :=
  Font (minimal_info (fo_info s)) (bs_min (fo_glyphs s)) (fo_tt s) (fo_options s) (fo_features s) (fo_groups s) (fo_flags s)
       None (fo_props s) (fo_counts s) (fo_design s) (fo_lib s).
Definition min_settings (c : settings) : settings :=
  Settings true true (st_ps_hints c) (st_ops c) (st_upper c) (st_asm c).

Lemma on_glyphs_min : forall e e' s, dropped_entry e = false -> e' = be_min e ->
  on_glyphs (fun b => b_add b e') (min_font s) = rmap min_font (on_glyphs (fun b => b_add b e) s).
Proof.
  intros e e' s K ->. unfold on_glyphs. cbn [min_font fo_glyphs]. rewrite b_add_min by exact K.
  destruct (b_add (fo_glyphs s) e); reflexivity.
Qed.
Lemma build_mm_min : forall min ps d, build_mm_glyph true ps d =
  match build_mm_glyph min ps d with Ok r => Ok (min_mm (fst r), snd r) | Err e => Err e end.
Proof.
  intros min ps d. unfold build_mm_glyph. destruct (get_key (g_name d)); cbn [rthen]; [|reflexivity].
  destruct (get_key (g_metrics d)); cbn [rthen]; [|reflexivity]. destruct (get_key (g_nodes d)); reflexivity.
Qed.
Lemma glyph_entry_min : forall c x s, glyph_entry (min_settings c) x (min_font s) = rmap min_font (glyph_entry c x s).
Proof.
  intros c x s. unfold glyph_entry. cbn [min_settings st_minimal st_ps_hints]. rewrite (build_mm_min (st_minimal c)).
  destruct (build_mm_glyph _ _ x) as [[y d]|e]; cbn [rthen fst]; [|reflexivity]. now apply on_glyphs_min.
Qed.
Definition agrees (f f' : value -> font -> res font) : Prop := forall d s, f' d (min_font s) = rmap min_font (f d s).
Lemma cases_min : forall c, Forall2 (fun p q => fst p = fst q /\
    (existsb (Z.eqb (fst p)) ignore_minimal_keys = false -> agrees (snd p) (snd q))) (cases c) (cases (min_settings c)).
Proof.
  intros c. unfold cases.
  repeat (apply Forall2_cons; [split; [reflexivity|]; intros K d s; cbn [snd fst] in *; try discriminate K; clear K|]); [..|constructor];
    try (destruct d; try reflexivity);
    try (unfold glyph_field; now apply on_glyphs_min);
    try apply glyph_entry_min;
    try (unfold on_info; cbn [min_font fo_info]; rewrite info_case_min;
         match goal with |- rmap _ (rmap _ ?y) = _ => destruct y; reflexivity end);
    try (unfold set_tt_cvt, set_tt_program, on_info; cbn [min_font fo_info]; destruct (deHexStr _); cbn [rthen rmap]; [|reflexivity];
         match goal with |- rmap _ (rmap _ ?y) = _ => destruct y; reflexivity end);
    try (unfold on_tt, on_groups, on_design; cbn [min_font fo_info fo_tt fo_groups fo_design];
         match goal with |- rmap _ ?x = rmap _ (rmap _ ?y) => change x with y; destruct y; reflexivity end).
  match goal with |- context [gd_anchors ?x] => destruct (gd_anchors x) end; [unfold glyph_field; now apply on_glyphs_min|reflexivity].
  all: unfold set_tt_program, on_info; cbn [min_font fo_info min_settings st_asm]; destruct (deHexStr x) as [b|]; cbn [rthen rmap]; [|reflexivity];
    destruct (format_bytes (st_asm c) b); reflexivity.
Qed.
Lemma cases_get : forall key l l', existsb (Z.eqb key) ignore_minimal_keys = false ->
  Forall2 (fun p q : Z * (value -> font -> res font) => fst p = fst q /\
    (existsb (Z.eqb (fst p)) ignore_minimal_keys = false -> agrees (snd p) (snd q))) l l' ->
  match aget Z.eqb key l with
  | Some f => exists f', aget Z.eqb key l' = Some f' /\ agrees f f'
  | None => aget Z.eqb key l' = None
  end.
Proof.
  intros key l l' K F. induction F as [|[k f] [k' f'] l l' (E & H) F IH]; cbn [aget]; [reflexivity|].
  cbn [fst snd] in *. subst k'. destruct (key =? k) eqn:Q; [|exact IH]. apply Z.eqb_eq in Q. subst. eauto.
Qed.
(** what the dropped entries do is not seen *)
Lemma dropped_step : forall c s key data s', existsb (Z.eqb key) ignore_minimal_keys = true ->
  build_step c s (key, data) = Ok s' -> min_font s' = min_font s.
Proof.
  intros c s key data s' K E. unfold build_step in E.
  destruct (existsb (Z.eqb key) (skip_keys c)); [apply Ok_inj in E; now subst|]. destruct data as [d|]; [|apply Ok_inj in E; now subst].
  apply existsb_exists in K. destruct K as (k & I & Q). apply Z.eqb_eq in Q. subst k.
  assert (G : forall f, kept f = false -> glyph_field f d s = Ok s' -> min_font s' = min_font s).
  { intros f K G. unfold glyph_field, on_glyphs in G. destruct (b_add (fo_glyphs s) (BField f (VData d))) as [b|] eqn:B; [|discriminate].
    cbn [rmap] in G. apply Ok_inj in G. subst s'. unfold min_font. cbn [fo_glyphs fo_info fo_tt fo_options fo_features fo_groups fo_flags fo_props fo_counts fo_design fo_lib].
    rewrite (b_add_dropped (fo_glyphs s) (BField f (VData d)) b); [reflexivity| |exact B]. cbn [dropped_entry]. now rewrite K. }
  unfold ignore_minimal_keys in I. cbn [In] in I.
  repeat (destruct I as [<-|I]); [..|contradiction];
    match type of E with context [aget Z.eqb ?k info_mapping] =>
      first [replace (aget Z.eqb k info_mapping) with (@None pystr) in E by (vm_compute; reflexivity)
            |replace (aget Z.eqb k info_mapping) with (Some note) in E by (vm_compute; reflexivity);
             destruct (as_val (info_data d)); [|discriminate]; unfold on_info in E; cbn [rmap] in E; apply Ok_inj in E; subst s';
             unfold min_font; cbn [fo_glyphs fo_info fo_tt fo_options fo_features fo_groups fo_flags fo_props fo_counts fo_design fo_lib];
             now rewrite setattr_note] end;
    match type of E with context [aget Z.eqb ?k (cases c)] =>
      let x := constr:(aget Z.eqb k (cases c)) in let y := eval cbv [aget cases Z.eqb Pos.eqb] in x in change x with y in E end;
    cbv beta iota in E;
    first [apply Ok_inj in E; now subst | (eapply G; [|exact E]; reflexivity) | (destruct d; try discriminate; unfold on_guides in E; apply Ok_inj in E; now subst)].
Qed.
Lemma build_step_min : forall c s e s', build_step c s e = Ok s' -> build_step (min_settings c) (min_font s) e = Ok (min_font s').
Proof.
  intros c s [key data] s' E. destruct (existsb (Z.eqb key) ignore_minimal_keys) eqn:K.
  - rewrite (dropped_step c s key data s' K E). unfold build_step, skip_keys. cbn [min_settings st_vfb_minimal].
    rewrite existsb_app, K, orb_true_r. reflexivity.
  - unfold build_step in *. assert (S : existsb (Z.eqb key) (skip_keys (min_settings c)) = existsb (Z.eqb key) (skip_keys c)).
    { unfold skip_keys. cbn [min_settings st_vfb_minimal]. rewrite !existsb_app, K. destruct (st_vfb_minimal c); [now rewrite K|reflexivity]. }
    rewrite S. destruct (existsb (Z.eqb key) (skip_keys c)); [apply Ok_inj in E; now subst|].
    destruct data as [d|]; [|apply Ok_inj in E; now subst].
    destruct (aget Z.eqb key info_mapping) as [attr|] eqn:A.
    + destruct (as_val (info_data d)); [|discriminate]. unfold on_info in *. cbn [rmap] in *. apply Ok_inj in E. subst s'.
      unfold min_font. cbn [fo_glyphs fo_info fo_tt fo_options fo_features fo_groups fo_flags fo_props fo_counts fo_design fo_lib].
      rewrite setattr_min; [reflexivity|].
      assert (F : forallb (fun p => existsb (Z.eqb (fst p)) ignore_minimal_keys || negb (str_eqb note (snd p))) info_mapping = true)
        by (vm_compute; reflexivity).
      apply (aget_In Z.eqb Z.eqb_eq) in A. rewrite forallb_forall in F. apply F in A. cbn [fst snd] in A. rewrite K in A.
      now apply negb_true_iff in A.
    + pose proof (cases_get key _ _ K (cases_min c)) as H. destruct (aget Z.eqb key (cases c)) as [f|].
      * destruct H as (f' & -> & H). rewrite H, E. reflexivity.
      * rewrite H. apply Ok_inj in E. now subst.
Qed.
Lemma build_font_min : forall c es s, build_font c es = Ok s -> build_font (min_settings c) es = Ok (min_font s).
Proof.
  intros c es s E. unfold build_font in *.
  assert (F : forall es s s', res_fold (build_step c) s es = Ok s' -> res_fold (build_step (min_settings c)) (min_font s) es = Ok (min_font s')).
  { clear. intros es. induction es as [|e es IH]; intros s s' F; cbn [res_fold] in *; [apply Ok_inj in F; now subst|].
    destruct (build_step c s e) as [s1|] eqn:B; [|discriminate]. cbn [rthen] in F. rewrite (build_step_min c s e s1 B). cbn [rthen]. now apply IH. }
  destruct (res_fold (build_step c) new_font es) as [s1|] eqn:B; [|discriminate]. cbn [rthen] in E.
  apply F in B. change (min_font new_font) with new_font in B. rewrite B. cbn [rthen].
  unfold finish, on_info in *. cbn [min_font fo_info fo_glyphs] in *. rewrite finish_info_min. destruct (fix_underline_position _); [|discriminate]. cbn [rmap] in *.
  apply Ok_inj in E. subst s. unfold min_font.
  cbn [fo_info fo_glyphs fo_tt fo_options fo_features fo_groups fo_flags fo_guides fo_props fo_counts fo_design fo_lib].
  now rewrite finish_min.
Qed.

(** ** One glyph *)
Lemma field_kept : forall f g, kept f = true -> field_data f (bg_min g) = field_data f g.
Proof.
  intros f g K. unfold field_data. cbn [bg_min bg_fields]. replace (aget field_eqb f (filter _ (bg_fields g))) with (aget field_eqb f (bg_fields g)); [reflexivity|].
  induction (bg_fields g) as [|[k v] l IH]; [reflexivity|]. cbn [aget filter fst]. destruct (field_eqb f k) eqn:E.
  - apply field_eqb_eq in E. subst k. rewrite K. cbn [aget]. now destruct f.
  - destruct (kept k); [|exact IH]. cbn [aget]. rewrite E. exact IH.
Qed.
Lemma field_dropped : forall f g, kept f = false -> field_data f (bg_min g) = None.
Proof.
  intros f g K. unfold field_data. cbn [bg_min bg_fields]. replace (aget field_eqb f (filter _ (bg_fields g))) with (@None gvalue); [reflexivity|].
  induction (bg_fields g) as [|[k v] l IH]; [reflexivity|]. cbn [filter fst]. destruct (kept k) eqn:K'; [|exact IH]. cbn [aget].
  destruct (field_eqb f k) eqn:E; [|exact IH]. apply field_eqb_eq in E. subst. congruence.
Qed.
Ltac next_ok E := match type of E with
  | rthen ?x _ = _ => let r := fresh "r" in let X := fresh "X" in destruct x as [r|] eqn:X; [|discriminate]; cbn [rthen] in E
  | rmap _ ?x = _ => let r := fresh "r" in let X := fresh "X" in destruct x as [r|] eqn:X; [|discriminate]; cbn [rmap] in E
  end.
Lemma extras_min : forall g, glyph_extras_of (bg_min g) = glyph_extras_of g.
Proof. intros g. unfold glyph_extras_of, glyph_anchors, glyph_mm_anchors. rewrite !field_kept by reflexivity. reflexivity. Qed.
Lemma build_master_min : forall b m x e d, build_master b m x e = Ok d ->
  build_master true m (min_mm x) e = Ok (MasterGlyph (um_metrics d) (um_anchors d) (um_unicodes d) None).
Proof.
  intros b m x e d E. unfold build_master in *. cbn [rthen]. next_ok E. next_ok E. cbn [rthen]. next_ok E.
  change (mg_metrics (min_mm x)) with (mg_metrics x). rewrite X1. apply Ok_inj in E. subst d. reflexivity.
Qed.
Lemma export_one_min : forall c o order m name g cmds st u k st1,
  export_one c o order m name g cmds st = Ok (u, k, st1) ->
  export_one (min_settings c) o order m name (bg_min g) cmds st = Ok (minimal_glyph u, None, st1).
Proof.
  intros c o order m name g cmds st u k st1 E. unfold export_one in *. cbn [bg_min bg_data].
  destruct (bg_data g) as [x z|d]; [|discriminate]. cbn [min_value].
  change (BGlyph _ _ _ _ _) with (bg_min g). rewrite extras_min. rewrite (field_kept FUserData) by reflexivity.
  rewrite (field_dropped FMark), (field_dropped FBackground), (field_dropped FBitmaps) by reflexivity.
  assert (G : eglyph_of (min_mm x) (bg_min g) = eglyph_of x g).
  { unfold eglyph_of, glyph_links. rewrite field_kept by reflexivity. reflexivity. }
  rewrite G. cbn [min_settings st_ps_hints st_minimal st_asm min_mm mg_components mg_instructions]. fold (min_mm x).
  next_ok E. cbn [rthen]. next_ok E. cbn [rthen]. next_ok E. next_ok E. cbn [rthen]. next_ok E.
  rewrite (build_master_min _ _ _ _ _ X3). cbn [rthen]. next_ok E. next_ok E. cbn [rmap].
  apply Ok_inj in E. injection E as <- <- <-. reflexivity.
Qed.
Lemma export_all_min : forall c o order m cmds glyphs st us ks st1,
  export_all c o order m glyphs cmds st = Ok (us, ks, st1) ->
  export_all (min_settings c) o order m (kv_map bg_min glyphs) cmds st = Ok (kv_map minimal_glyph us, [], st1).
Proof.
  intros c o order m cmds glyphs. induction glyphs as [|[name g] glyphs IH]; intros st us ks st1 E; cbn [export_all map fst snd] in *.
  - apply Ok_inj in E. injection E as <- <- <-. reflexivity.
  - next_ok E. next_ok E. apply Ok_inj in E. destruct r as [[u k] st2], r0 as [[us0 ks0] st3]. cbn [fst snd] in *.
    injection E as <- <- <-. rewrite (export_one_min _ _ _ _ _ _ _ _ _ _ _ X). cbn [rthen fst snd].
    rewrite (IH _ _ _ _ X0). reflexivity.
Qed.
Lemma count_min : forall g, components_count (bg_min g) = components_count g.
Proof. intros g. unfold components_count. cbn [bg_min bg_data]. now destruct (bg_data g). Qed.
Lemma sorted_min : forall l, sorted_glyphs (kv_map bg_min l) = kv_map bg_min (sorted_glyphs l).
Proof.
  assert (L : forall x y, glyph_ltb (fst x, bg_min (snd x)) (fst y, bg_min (snd y)) = glyph_ltb x y).
  { intros x y. unfold glyph_ltb. cbn [snd]. rewrite !count_min. reflexivity. }
  assert (In1 : forall x l, insert_glyph (fst x, bg_min (snd x)) (kv_map bg_min l) = kv_map bg_min (insert_glyph x l)).
  { intros x l. induction l as [|y l IH]; [reflexivity|]. cbn [map insert_glyph]. rewrite L.
    destruct (glyph_ltb y x); [|reflexivity]. cbn [map]. f_equal. exact IH. }
  intros l. induction l as [|x l IH]; [reflexivity|]. unfold sorted_glyphs in *. cbn [map fold_right]. rewrite IH. apply In1.
Qed.
Lemma first_min : forall l, first_store (kv_map bg_min l) = first_store l.
Proof.
  intros l. unfold first_store. rewrite map_map. apply map_ext. intros [n g]. cbn [fst snd bg_min bg_data].
  now destruct (bg_data g).
Qed.
Lemma glyph_lib_min : forall o order t l st, tt_glyph_lib o order t (kv_map bg_min l) st = tt_glyph_lib o order t l st.
Proof.
  intros o order t l. induction l as [|[name g] l IH]; intros st; cbn [map tt_glyph_lib fst snd]; [reflexivity|].
  cbn [bg_min bg_data]. destruct (bg_data g) as [x z|d]; cbn [min_value]; [|apply IH].
  cbn [min_mm mg_tth]. destruct (mg_tth x); [|apply IH].
  destruct (export_commands _ _ _ _ _ _); cbn [rthen]; [|reflexivity]. now rewrite IH.
Qed.

(** ** Classes *)
(** Missing glyphs do not change which groups there are, their order and their key glyphs *)
Lemma check_missing : forall gl order a b, snd (check_for_missing_glyphs gl order a) = snd (check_for_missing_glyphs gl order b).
Proof.
  intros gl order a b. unfold check_for_missing_glyphs. destruct (filter (fun n => negb (mem n order)) gl); [reflexivity|].
  destruct a, b; repeat match goal with |- context [match filter ?f ?l with _ => _ end] => destruct (filter f l) end; reflexivity.
Qed.
Definition same_names (a b : tg_state) : Prop :=
  map fst (tg_groups a) = map fst (tg_groups b) /\ tg_order a = tg_order b /\ tg_keys a = tg_keys b.
Lemma aget_names : forall k (a b : groups), map fst a = map fst b ->
  match aget str_eqb k a, aget str_eqb k b with Some _, Some _ | None, None => True | _, _ => False end.
Proof.
  intros k a. induction a as [|[n x] a IH]; intros [|[n' y] b] H; try discriminate; [exact I|]. cbn in H. injection H as <- H.
  cbn [aget]. destruct (str_eqb k n); [exact I|]. now apply IH.
Qed.
Lemma aset_names : forall k x y (a b : groups), map fst a = map fst b ->
  map fst (aset str_eqb k x a) = map fst (aset str_eqb k y b).
Proof.
  intros k x y a. induction a as [|[n u] a IH]; intros [|[n' v] b] H; try discriminate; [reflexivity|]. cbn in H. injection H as <- H.
  cbn [aset]. destruct (str_eqb k n); cbn [map fst]; [now rewrite H|]. f_equal. now apply IH.
Qed.
Lemma add_side_names : forall f side i name gl gl' key a b, same_names a b ->
  same_names (add_side f side i name gl key a) (add_side f side i name gl' key b).
Proof.
  intros f side i name gl gl' key a b (G & O & K). unfold add_side. destruct (Z.land f side =? 0); [repeat split; assumption|].
  pose proof (aget_names (kern_name i name) _ _ G) as H.
  destruct (aget str_eqb _ (tg_groups a)), (aget str_eqb _ (tg_groups b)); try contradiction; [repeat split; assumption|].
  split; cbn [tg_groups tg_order tg_keys]; [now apply aset_names|]. split; congruence.
Qed.
Lemma transform_names : forall flags order x y gs a b, same_names a b ->
  match transform_groups_from flags order x gs a with
  | Ok a' => exists b', transform_groups_from flags order y gs b = Ok b' /\ same_names a' b'
  | Err e => transform_groups_from flags order y gs b = Err e
  end.
Proof.
  intros flags order x y gs. induction gs as [|[name gl] gs IH]; intros a b H; cbn [transform_groups_from]; [eauto|].
  assert (S : match transform_group flags order x name gl a with
              | Ok a' => exists b', transform_group flags order y name gl b = Ok b' /\ same_names a' b'
              | Err e => transform_group flags order y name gl b = Err e
              end).
  { unfold transform_group. cbv zeta. set (l := map strip_quotes _ ++ _). pose proof (check_missing l order x y) as M.
    destruct (check_for_missing_glyphs l order x) as [g1 m1], (check_for_missing_glyphs l order y) as [g2 m2]. cbn [snd] in M. subst m2.
    destruct (starts (py "_") name).
    - destruct (aget str_eqb name flags) as [fl|]; [|eauto]. destruct (py_index fl 0); cbn [rmap]; [|reflexivity].
      eexists. split; [reflexivity|]. now apply add_side_names, add_side_names.
    - eexists. split; [reflexivity|]. destruct H as (G & O & K). split; cbn [tg_groups tg_order tg_keys]; [now apply aset_names|]. split; congruence. }
  destruct (transform_group flags order x name gl a) as [a1|]; cbn [rthen].
  - destruct S as (b1 & -> & S). cbn [rthen]. now apply IH.
  - now rewrite S.
Qed.
(** without missing glyphs the groups are the same *)
Definition plain_name (g : pystr) : pystr := if is_key_glyph g then strip_quotes g else g.
Definition classes_complete (s : font) : Prop :=
  forall name glyphs g, In (name, glyphs) (fo_groups s) -> In g glyphs -> In (plain_name g) (bs_order (fo_glyphs s)).
Lemma mem_In : forall n l, In n l -> mem n l = true.
Proof. intros n l I. unfold mem. apply existsb_exists. exists n. split; [exact I|apply str_eqb_refl]. Qed.
Lemma transform_complete : forall flags order x y gs a,
  (forall name gl g, In (name, gl) gs -> In g gl -> In (plain_name g) order) ->
  transform_groups_from flags order x gs a = transform_groups_from flags order y gs a.
Proof.
  intros flags order x y gs. induction gs as [|[name gl] gs IH]; intros a H; cbn [transform_groups_from]; [reflexivity|].
  replace (transform_group flags order x name gl a) with (transform_group flags order y name gl a).
  - destruct (transform_group flags order y name gl a); cbn [rthen]; [|reflexivity]. apply IH. intros n l g I J. exact (H n l g (or_intror I) J).
  - unfold transform_group. cbv zeta. set (l := map strip_quotes _ ++ _).
    assert (N : filter (fun n => negb (mem n order)) l = []).
    { assert (A : forall n, In n l -> mem n order = true).
      { intros n I. apply mem_In. unfold l in I. apply in_app_iff in I. destruct I as [I|I].
        - apply in_map_iff in I. destruct I as (g & <- & I). apply filter_In in I. destruct I as [I Q].
          specialize (H name gl g (or_introl eq_refl) I). unfold plain_name in H. now rewrite Q in H.
        - apply filter_In in I. destruct I as [I Q]. specialize (H name gl n (or_introl eq_refl) I). unfold plain_name in H.
          apply negb_true_iff in Q. now rewrite Q in H. }
      clearbody l. induction l as [|n l IHl]; [reflexivity|]. cbn [filter]. rewrite (A n (or_introl eq_refl)). cbn [negb].
      apply IHl. intros k I. exact (A k (or_intror I)). }
    unfold check_for_missing_glyphs. rewrite N. reflexivity.
Qed.

(** ** The UFOs *)
Lemma master_min : forall c o s sh sh' lib cmds m st u st1,
  get_ufo_master c o s sh lib cmds m st = Ok (u, st1) ->
  get_ufo_master (min_settings c) o (min_font s) sh' lib cmds m st =
    rmap (fun k => (minimal_ufo (us_features sh') (us_groups sh') k u, st1)) (get_master_kerning (us_kerning sh') m).
Proof.
  intros c o s sh sh' lib cmds m st u st1 E. unfold get_ufo_master in *.
  change (ps_infos (min_font s)) with (ps_infos s).
  cbn [min_settings st_ps_hints min_font fo_glyphs fo_counts fo_info bs_min bs_order bs_glyphs].
  next_ok E. next_ok E. next_ok E. next_ok E. destruct r2 as [[gs ks] st2]. cbn [fst snd] in *. apply Ok_inj in E. injection E as <- <-.
  destruct (get_master_kerning (us_kerning sh') m) as [k|]; cbn [rthen rmap]; [|reflexivity].
  rewrite master_info_min, X0. cbn [rmap rthen]. unfold font_guides. cbn [st_minimal rthen].
  change (Settings true true (st_ps_hints c) (st_ops c) (st_upper c) (st_asm c)) with (min_settings c).
  rewrite (export_all_min _ _ _ _ _ _ _ _ _ _ X2). reflexivity.
Qed.
Lemma masters_min : forall c o s sh sh' lib cmds n m st us us',
  ufo_masters c o s sh lib cmds m n st = Ok us ->
  ufo_masters (min_settings c) o (min_font s) sh' lib cmds m n st = Ok us' ->
  Forall2 (fun u u' => u' = minimal_ufo (us_features sh') (us_groups sh') (uf_kerning u') u) us us'.
Proof.
  intros c o s sh sh' lib cmds n. induction n as [|n IH]; intros m st us us' E E'; cbn [ufo_masters] in *.
  - apply Ok_inj in E, E'. subst. constructor.
  - next_ok E. next_ok E. apply Ok_inj in E. subst us. destruct r as [u st1]. cbn [fst snd] in *.
    rewrite (master_min _ _ _ _ sh' _ _ _ _ _ _ X) in E'. destruct (get_master_kerning (us_kerning sh') m) as [k|]; [|discriminate].
    cbn [rmap rthen fst snd] in E'. next_ok E'. apply Ok_inj in E'. subst us'. constructor; [reflexivity|]. exact (IH _ _ _ _ X0 X1).
Qed.
Lemma masters_same : forall c o s sh lib cmds n m st us,
  ufo_masters c o s sh lib cmds m n st = Ok us ->
  ufo_masters (min_settings c) o (min_font s) sh lib cmds m n st =
    Ok (map (fun u => minimal_ufo (uf_features u) (uf_groups u) (uf_kerning u) u) us).
Proof.
  intros c o s sh lib cmds n. induction n as [|n IH]; intros m st us E; cbn [ufo_masters] in *.
  - apply Ok_inj in E. now subst.
  - next_ok E. next_ok E. apply Ok_inj in E. subst us. destruct r as [u st1]. cbn [fst snd] in *.
    rewrite (master_min _ _ _ _ sh _ _ _ _ _ _ X). unfold get_ufo_master in X.
    next_ok X. cbn [rmap rthen fst snd]. rewrite (IH _ _ _ X0). cbn [rmap map]. do 2 f_equal.
    next_ok X. next_ok X. next_ok X. apply Ok_inj in X. injection X as <- _. reflexivity.
Qed.
Lemma kerning_named : forall order keys gs keys' gs' kerning acc acc' k, make_name_based_kerning order keys gs kerning acc = Ok k ->
  exists k', make_name_based_kerning order keys' gs' kerning acc' = Ok k'.
Proof.
  intros order keys gs keys' gs' kerning. induction kerning as [|[lr values] kerning IH]; intros acc acc' k E; cbn [make_name_based_kerning] in *; [eauto|].
  unfold name_pair in *. destruct (py_index order (snd lr)) as [r|]; [|discriminate]. cbn [rmap rthen] in *. exact (IH _ _ _ E).
Qed.
Lemma shared_named : forall gs flags order x y fea move kerning text sh,
  export_shared gs flags order x fea move kerning text = Ok sh -> exists sh', export_shared gs flags order y fea move kerning text = Ok sh'.
Proof.
  intros gs flags order x y fea move kerning text sh E. unfold export_shared in *. next_ok E. next_ok E.
  pose proof (transform_names flags order x y gs (mkTG [] [] []) (mkTG [] [] []) ltac:(repeat split)) as T. unfold transform_groups in *.
  rewrite X in T. destruct T as (b & -> & _). cbn [rthen]. unfold new_ufo_kerning in *.
  destruct (build_glyph_to_group_maps (tg_groups r)) as [[g1 m1] m2], (build_glyph_to_group_maps (tg_groups b)) as [[g1' m1'] m2'].
  next_ok X0.
  match goal with |- context [make_name_based_kerning order ?k ?g kerning []] =>
    destruct (kerning_named _ _ _ k g _ _ [] _ X1) as (k' & ->) end.
  cbn [rmap]. destruct (classes_to_features _ _ _ _ _). eauto.
Qed.
Lemma master_kerning_fails : forall k m e, get_master_kerning k m = Err e -> e = IndexError.
Proof.
  intros k m e. unfold get_master_kerning. generalize (@nil ((pystr * pystr) * Z)). induction (uk_kerning k) as [|[lr values] l IH]; intros acc E;
    cbn [master_kerning_from] in E; [discriminate|].
  destruct (py_index values m) as [v|e'] eqn:P; cbn [rthen] in E; [exact (IH _ E)|]. injection E as <-.
  unfold py_index in P. repeat match type of P with context [match ?x with _ => _ end] => destruct x end; congruence.
Qed.
Lemma masters_fail : forall c o s sh sh' lib cmds n m st us e,
  ufo_masters c o s sh lib cmds m n st = Ok us ->
  ufo_masters (min_settings c) o (min_font s) sh' lib cmds m n st = Err e -> e = IndexError.
Proof.
  intros c o s sh sh' lib cmds n. induction n as [|n IH]; intros m st us e E E'; cbn [ufo_masters] in *; [discriminate|].
  next_ok E. next_ok E. destruct r as [u st1]. cbn [fst snd] in *.
  rewrite (master_min _ _ _ _ sh' _ _ _ _ _ _ X) in E'. destruct (get_master_kerning (us_kerning sh') m) as [k|e'] eqn:K; cbn [rmap rthen fst snd] in E'.
  - destruct (ufo_masters (min_settings c) o (min_font s) sh' lib cmds (m + 1) n st1) as [us'|e'] eqn:U; [discriminate|]. cbn [rmap] in E'. injection E' as <-. exact (IH _ _ _ _ X0 U).
  - injection E' as <-. exact (master_kerning_fails _ _ _ K).
Qed.

Definition minimal_of (u u' : ufo) : Prop := u' = minimal_ufo (uf_features u') (uf_groups u') (uf_kerning u') u.
Lemma ufos_min : forall c o s us, st_minimal c = false -> get_ufo_masters c o s = Ok us ->
  (classes_complete s -> get_ufo_masters (min_settings c) o (min_font s) =
     Ok (map (fun u => minimal_ufo (uf_features u) (uf_groups u) (uf_kerning u) u) us)) /\
  match get_ufo_masters (min_settings c) o (min_font s) with
  | Ok us' => Forall2 minimal_of us us'
  | Err e => e = IndexError
  end.
Proof.
  intros c o s us Mi E. unfold get_ufo_masters in *.
  cbn [min_font fo_glyphs fo_groups fo_flags fo_tt fo_features fo_info fo_lib bs_min bs_order bs_glyphs bs_kerning bs_masters].
  rewrite sorted_min, first_min, glyph_lib_min. next_ok E. cbn [rthen]. change (st_minimal (min_settings c)) with true. rewrite Mi in E.
  change (hinting_lib _) with (hinting_lib s). change (if_lib (minimal_info (fo_info s))) with (if_lib (fo_info s)).
  next_ok E. next_ok E.
  match goal with |- context [ufo_masters (min_settings c) o ?t] => change t with (min_font s) end.
  split.
  - intros C. assert (T : transform_groups (fo_groups s) (fo_flags s) (bs_order (fo_glyphs s)) true =
                          transform_groups (fo_groups s) (fo_flags s) (bs_order (fo_glyphs s)) false)
      by (apply transform_complete; exact C).
    unfold export_shared in *. rewrite T, X0 in *. cbn [rthen] in *. rewrite X1. cbn [rthen].
    exact (masters_same _ _ _ _ _ _ _ _ _ _ E).
  - destruct (shared_named _ _ _ _ true _ _ _ _ _ X1) as (sh' & ->).
    pose proof (transform_names (fo_flags s) (bs_order (fo_glyphs s)) false true (fo_groups s) (mkTG [] [] []) (mkTG [] [] []) ltac:(repeat split)) as T.
    unfold transform_groups in *. rewrite X0 in T. destruct T as (tg & -> & _ & O & K). cbn [rthen]. rewrite <- O, <- K.
    destruct (ufo_masters (min_settings c) o (min_font s) sh' _ _ _ _ _) as [us'|e] eqn:U.
    + pose proof (masters_min _ _ _ _ _ _ _ _ _ _ _ _ E U) as F. clear - F.
      induction F as [|u u' l l' H F IH]; constructor; [|exact IH]. unfold minimal_of. rewrite H. reflexivity.
    + exact (masters_fail _ _ _ _ _ _ _ _ _ _ _ _ E U).
Qed.
Lemma document_min : forall c o json out es us d, st_minimal c = false -> vfb_to_document c o json out es = Ok (us, d) ->
  (forall s, build_font c es = Ok s -> classes_complete s ->
   vfb_to_document (min_settings c) o json out es = Ok (map (fun u => minimal_ufo (uf_features u) (uf_groups u) (uf_kerning u) u) us, d)) /\
  match vfb_to_document (min_settings c) o json out es with
  | Ok (us', d') => d' = d /\ Forall2 minimal_of us us'
  | Err e => e = IndexError
  end.
Proof.
  intros c o json out es us d Mi E. unfold vfb_to_document in *. destruct (build_font c es) as [s|] eqn:B; [|discriminate].
  rewrite (build_font_min c es s B). cbn [rthen] in *. unfold get_ufos_designspace in *.
  destruct (get_ufo_masters c o s) as [us0|] eqn:M; [|discriminate]. cbn [rthen] in E.
  destruct (ufos_min c o s us0 Mi M) as [H1 H2].
  assert (D : ds_data_of (min_font s) = ds_data_of s).
  { unfold ds_data_of. cbn [min_font fo_design fo_glyphs fo_info bs_min bs_masters]. now rewrite family_min, info_text_min by no_note. }
  rewrite D. change (st_ops (min_settings c)) with (st_ops c). destruct us0 as [|u0 us0]; [discriminate|].
  destruct (written_designspace (st_ops c) (ds_data_of s) json out) as [ds|]; [|discriminate]. cbn [rmap] in *.
  apply Ok_inj in E. injection E as <- <-. split.
  - intros s' S C. apply Ok_inj in S. subst s'. rewrite (H1 C). cbn [rthen map]. reflexivity.
  - destruct (get_ufo_masters (min_settings c) o (min_font s)) as [us'|e]; cbn [rthen]; [|exact H2].
    inversion H2; subst. cbn [rmap]. split; [reflexivity|exact H2].
Qed.

(** ** The tool *)
(** the font that the tool builds from a file before it writes anything *)
Definition built (L : libs) (fuel : nat) (a : args) (file : bytes) : res font :=
  let T := table (l_oracles L) in
  match vfb_read_bytes T fuel (new_vfb dropped_keys false (a_unicode a)) file with
  | (_, RErr e _) => Err e
  | (v, ROk _ _) =>
      match vfb_decompile T v with
      | (_, Err e) => Err e
      | (v, Ok _) => build_font (settings_of L a) (entries_of (v_entries v))
      end
  end.
Lemma tool_min : forall L fuel a file ufos d, exported L fuel (set_minimal false a) file = Ok (ufos, d) -> exists us,
  ufos = map (FUfo (form_of a)) us /\
  (forall s, built L fuel (set_minimal false a) file = Ok s -> classes_complete s ->
   exported L fuel (set_minimal true a) file =
     Ok (map (fun u => FUfo (form_of a) (minimal_ufo (uf_features u) (uf_groups u) (uf_kerning u) u)) us, d)) /\
  match exported L fuel (set_minimal true a) file with
  | Ok (ufos', d') => d' = d /\ exists us', ufos' = map (FUfo (form_of a)) us' /\ Forall2 minimal_of us us'
  | Err e => e = IndexError
  end.
Proof.
  intros L fuel a file ufos d E. unfold exported, built in *.
  change (a_unicode (set_minimal true a)) with (a_unicode a). change (a_json (set_minimal true a)) with (a_json a).
  change (out_of (set_minimal true a)) with (out_of a). change (form_of (set_minimal true a)) with (form_of a).
  change (options_of L (set_minimal true a)) with (options_of L a).
  change (a_unicode (set_minimal false a)) with (a_unicode a) in *. change (a_json (set_minimal false a)) with (a_json a) in E.
  change (out_of (set_minimal false a)) with (out_of a) in E. change (form_of (set_minimal false a)) with (form_of a) in E.
  change (options_of L (set_minimal false a)) with (options_of L a) in E.
  destruct (vfb_read_bytes _ _ _ file) as [v [n b|e b]]; [|discriminate].
  destruct (vfb_decompile _ v) as [v1 [u|e]]; [|discriminate].
  destruct (vfb_to_document (settings_of L (set_minimal false a)) _ _ _ _) as [[us ds]|] eqn:V; [|discriminate].
  cbn [rmap fst snd] in E. apply Ok_inj in E. injection E as <- <-. exists us. split; [reflexivity|].
  destruct (document_min (settings_of L (set_minimal false a)) (options_of L a) (a_json a) (out_of a) _ us ds eq_refl V) as [H1 H2].
  change (min_settings (settings_of L (set_minimal false a))) with (settings_of L (set_minimal true a)) in *. split.
  - intros s B C. rewrite (H1 s B C). cbn [rmap fst snd]. now rewrite map_map.
  - destruct (vfb_to_document (settings_of L (set_minimal true a)) _ _ _ _) as [[us' ds']|e]; cbn [rmap fst snd]; [|exact H2].
    destruct H2 as [-> F]. split; [reflexivity|]. exists us'. split; [reflexivity|exact F].
Qed.

(** For all files and arguments: what --minimal writes is what is written without it, but without guidelines, masks, mark
    colours, background images, bitmaps and the note of the font; only groups, kerning and the features, into which groups
    are moved, can differ otherwise, because missing glyphs are dropped from the groups. *)
Theorem C116_minimal : forall L fuel a file ufos d ufos' d',
  exported L fuel (set_minimal false a) file = Ok (ufos, d) -> exported L fuel (set_minimal true a) file = Ok (ufos', d') ->
  d' = d /\ Forall2 (fun f f' => exists k u u', f = FUfo k u /\ f' = FUfo k u' /\
                     u' = minimal_ufo (uf_features u') (uf_groups u') (uf_kerning u') u) ufos ufos'.
Proof.
  intros L fuel a file ufos d ufos' d' E E'. destruct (tool_min L fuel a file ufos d E) as (us & -> & _ & H). rewrite E' in H.
  destruct H as (-> & us' & -> & F). split; [reflexivity|]. clear E E'.
  induction F as [|u u' us us' H F IH]; cbn [map]; constructor; [|exact IH]. exists (form_of a), u, u'. split; [reflexivity|]. split; [reflexivity|exact H].
Qed.

(** For all files and arguments: if all glyphs of the classes are in the font and the export works, it works with
    --minimal, and groups, kerning and features are the same. *)
Theorem C116_complete : forall L fuel a file s ufos d,
  built L fuel (set_minimal false a) file = Ok s -> classes_complete s -> exported L fuel (set_minimal false a) file = Ok (ufos, d) ->
  exists us, ufos = map (FUfo (form_of a)) us /\
    exported L fuel (set_minimal true a) file =
      Ok (map (fun u => FUfo (form_of a) (minimal_ufo (uf_features u) (uf_groups u) (uf_kerning u) u)) us, d).
Proof.
  intros L fuel a file s ufos d B C E. destruct (tool_min L fuel a file ufos d E) as (us & -> & H & _). exists us. split; [reflexivity|].
  exact (H s B C).
Qed.

(** For all files and arguments: if the export works, it works with --minimal, or ends with an IndexError. *)
Theorem C116_fails : forall L fuel a file ufos d e,
  exported L fuel (set_minimal false a) file = Ok (ufos, d) -> exported L fuel (set_minimal true a) file = Err e -> e = IndexError.
Proof.
  intros L fuel a file ufos d e E E'. destruct (tool_min L fuel a file ufos d E) as (us & _ & _ & H). now rewrite E' in H.
Qed.

(** ** A file: guides, a mark, a note, and a class with a missing glyph *)
From Verif Require Import Prop_Glyph Prop_Resave Prop_Vfb2ufo Prop_NoHints Prop_Flags.
Definition c116_file (class : pystr) : bytes :=
  written sample_oracles ((2025, DStr (py "to do")) :: (1277, DStr class)
                          :: removelast c95_values ++ [(2012, DInt 100); (1294, DGuides (Guides [[GuideMaster 10 0; GuideMaster 20 0]] [])); (2, DStr [])]).
Definition c116_shown (f : file_content) :=
  match f with
  | FUfo _ u => Some (uf_groups u, aget str_eqb (py "note") (if_attrs (uf_info u)),
      map (fun p => (fst p, match gl_mark (og_lib (snd p)) with Some _ => true | None => false end,
                     Z.of_nat (List.length (og_guidelines (snd p))), Z.of_nat (List.length (og_contours (snd p))))) (uf_glyphs u),
      List.length (uf_guidelines u), List.length (uf_background u))
  | _ => None
  end.
Definition c116_args : args :=
  Args (Path true [py "fonts"] (py "Test") (py ".vfb")) None None false false false false false false false false true.
Definition c116_out ops up asm (on : bool) (class : pystr) :=
  rmap (fun r => map c116_shown (fst r)) (exported (c100_libs ops up asm) 60 (set_minimal on c116_args) (c116_file class)).
Definition c116_ufo (gs : groups) (n : option info_val) (mark : bool) (guides : nat) :=
  Some (gs, n, [(py "A", false, 0, 1); (py "Aacute", mark, 0, 0)], guides, O).
Example C116_meets : forall ops up asm, let out := c116_out ops up asm in
  (let u := c116_ufo [(py "caps", [py "A"; py "B"])] (Some (IStr (py "to do"))) true 1 in out false (py "caps: A B") = Ok [u; u]) /\
  (let u := c116_ufo [(py "caps", [py "A"])] None false 0 in out true (py "caps: A B") = Ok [u; u]) /\
  (let u := c116_ufo [(py "caps", [py "A"; py "Aacute"])] None false 0 in out true (py "caps: A Aacute") = Ok [u; u]) /\
  exists s, built (c100_libs ops up asm) 60 (set_minimal false c116_args) (c116_file (py "caps: A Aacute")) = Ok s /\ classes_complete s.
Proof.
  intros ops up asm out. split; [vm_compute; reflexivity|]. split; [vm_compute; reflexivity|]. split; [vm_compute; reflexivity|].
  set (b := built _ _ _ _).
  assert (H : rmap (fun s => (fo_groups s, bs_order (fo_glyphs s))) b = Ok ([(py "caps", [py "A"; py "Aacute"])], [py "A"; py "Aacute"]))
    by (vm_compute; reflexivity).
  clearbody b. destruct b as [s|e]; [|discriminate]. cbn [rmap] in H. apply Ok_inj in H. injection H as G O. exists s. split; [reflexivity|].
  unfold classes_complete. rewrite G, O. intros name gl g I J. destruct I as [I|[]]. injection I as <- <-. destruct J as [<-|[<-|[]]]; vm_compute; auto.
Qed.
Print Assumptions C116_minimal.
Print Assumptions C116_complete.
Print Assumptions C116_fails.
