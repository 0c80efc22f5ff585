(** C114: the option --no-postscript-hints. *)
From Coq Require Import String ZifyBool QArith.
From Verif Require Import Base M_Py M_Helpers M_Simple M_Text M_TrueType M_Glyph M_Options M_Container M_Table M_Groups M_Info M_FontInfo M_Tth M_Programs.
From Verif Require Import M_Builder M_Master M_Features M_Designspace M_Build M_Labels M_PsHints M_Paths M_Guides M_Export M_Ufo.
From Verif Require Import M_Document M_Tools M_Vfb2ufo S_Build Lib.
Local Open Scope list_scope.
Local Open Scope Z_scope.

(** the same arguments with and without the option *)
Definition set_hints_off (off : bool) (a : args) : args :=
  Args (a_input a) (a_output a) (a_folder a) (a_json a) (a_zip a) (a_force a) (a_minimal a) (a_unicode a)
       (a_base64 a) off (a_kerning_groups a) (a_keep_groups a).

(** ** What the option leaves out *)
(** the same points; names may differ, because the first point of a hint set gets one *)
Definition same_point (p q : upoint) : Prop := up_type p = up_type q /\ up_smooth p = up_smooth q /\ up_pt p = up_pt q.
Definition same_outline : list (list upoint) -> list (list upoint) -> Prop := Forall2 (Forall2 same_point).
Definition unhinted_glyph (g g' : ufo_glyph) : Prop :=
  same_outline (og_contours g) (og_contours g') /\
  g' = UfoGlyph (og_width g) (og_height g) (og_unicodes g) (og_contours g') (og_components g) (og_anchors g)
         (og_guidelines g) (og_note g)
         (GlyphLib (gl_program (og_lib g)) None (gl_tth (og_lib g)) (gl_user_data (og_lib g)) (gl_mark (og_lib g))
                   (gl_background (og_lib g)) (gl_bitmaps (og_lib g))).
(** the attributes of the font info that are about PostScript hints *)
Definition hint_attributes : list pystr :=
  map py ["postscriptBlueScale"; "postscriptBlueShift"; "postscriptBlueFuzz"; "postscriptForceBold"; "postscriptBlueValues";
          "postscriptOtherBlues"; "postscriptFamilyBlues"; "postscriptFamilyOtherBlues"; "postscriptStemSnapH"; "postscriptStemSnapV"]%string.
(** they have no value, or the one of an info without data; everything else is the same *)
Definition unhinted_info (i i' : info) : Prop :=
  if_lib i' = if_lib i /\
  forall k, aget str_eqb k (if_attrs i') =
            if existsb (str_eqb k) hint_attributes then aget str_eqb k info_defaults else aget str_eqb k (if_attrs i).
Definition unhinted_ufo (u u' : ufo) : Prop :=
  unhinted_info (uf_info u) (uf_info u') /\
  Forall2 (fun p q => fst p = fst q /\ unhinted_glyph (snd p) (snd q)) (uf_glyphs u) (uf_glyphs u') /\
  u' = Ufo (uf_features u) (uf_groups u) (uf_info u') (uf_guidelines u) (uf_kerning u) (uf_lib u) (uf_glyphs u') (uf_background u).

(** ** Building *)
Section Maps.
  Context {V : Type} (f : V -> V).
  Definition bg_map (g : bglyph V) : bglyph V :=
    BGlyph (bg_name g) (f (bg_data g)) (bg_unicodes g) (bg_mask g) (map (fun p => (fst p, f (snd p))) (bg_fields g)).
  Definition kv_map {K A} (h : A -> A) (l : list (K * A)) : list (K * A) := map (fun p => (fst p, h (snd p))) l.
  Definition bs_map (b : bstate V) : bstate V :=
    BState (option_map bg_map (bs_current b)) (kv_map bg_map (bs_glyphs b)) (bs_order b) (bs_kerning b)
           (bs_masters b) (bs_axes b) (map f (bs_infos b)).
  Definition be_map (e : b_entry V) : b_entry V :=
    match e with
    | BGlyphE n k d => BGlyphE n k (f d) | BField x v => BField x (f v) | BPsInfo v => BPsInfo (f v)
    | BUnicodes l => BUnicodes l | BMask l => BMask l | BVsb => BVsb | BMasterName n => BMasterName n
    | BAxisCount n => BAxisCount n | BOther => BOther
    end.
  Lemma aget_kv : forall K A eqb (h : A -> A) (k : K) l, aget eqb k (kv_map h l) = option_map h (aget eqb k l).
  Proof. intros K A eqb h k l. induction l as [|[k' v] l IH]; cbn; [reflexivity|]. now destruct (eqb k k'). Qed.
  Lemma aset_kv : forall K A eqb (h : A -> A) (k : K) v l, aset eqb k (h v) (kv_map h l) = kv_map h (aset eqb k v l).
  Proof. intros K A eqb h k v l. induction l as [|[k' v'] l IH]; cbn; [reflexivity|]. destruct (eqb k k'); cbn; [reflexivity|]. f_equal. exact IH. Qed.
  Lemma free_name_map : forall name n i l, free_name (kv_map bg_map l) name n i = free_name l name n i.
  Proof.
    intros name n. induction n as [|n IH]; intros i l; cbn [free_name]; [reflexivity|]. rewrite aget_kv.
    destruct (aget str_eqb _ l); cbn [option_map]; [apply IH|reflexivity].
  Qed.
  Lemma store_glyph_map : forall b, store_glyph (bs_map b) = bs_map (store_glyph b).
  Proof.
    intros [[g|] gl od kn ms ax inf]; [|reflexivity]. unfold store_glyph. cbn [bs_map bs_current option_map bs_glyphs bg_map bg_name].
    change (bg_name (bg_map g)) with (bg_name g). rewrite aget_kv, free_name_map.
    destruct (aget str_eqb (bg_name g) gl); cbn [option_map].
    - destruct (free_name gl (bg_name g) 255 0); unfold bs_map; cbn [bs_current bs_glyphs bs_order bs_kerning bs_masters bs_axes bs_infos option_map];
        [now rewrite aset_kv|reflexivity].
    - unfold bs_map; cbn [bs_current bs_glyphs bs_order bs_kerning bs_masters bs_axes bs_infos option_map]. now rewrite aset_kv.
  Qed.
  Lemma b_add_map : forall b e, b_add (bs_map b) (be_map e) = rmap bs_map (b_add b e).
  Proof.
    intros b e. destruct e; cbn [be_map b_add rmap]; try reflexivity.
    - rewrite store_glyph_map. unfold new_glyph, bs_map. reflexivity.
    - unfold with_glyph. now destruct b as [[g|] ? ? ? ? ? ?].
    - unfold with_glyph. now destruct b as [[g|] ? ? ? ? ? ?].
    - unfold with_glyph. destruct b as [[g|] ? ? ? ? ? ?]; [|reflexivity]. cbn [bs_map bs_current option_map rmap].
      unfold bs_map, bg_map. cbn [bs_current option_map bg_fields bg_name bg_data bg_unicodes bg_mask].
      change (map (fun p => (fst p, f (snd p))) (bg_fields g)) with (kv_map f (bg_fields g)). now rewrite aset_kv.
    - unfold with_glyph. now destruct b as [[g|] ? ? ? ? ? ?].
    - unfold bs_map. cbn [bs_infos bs_current bs_glyphs bs_order bs_kerning bs_masters bs_axes]. now rewrite map_app.
  Qed.
  Lemma finish_map : forall b, fix_masters_count (store_last (bs_map b)) = bs_map (fix_masters_count (store_last b)).
  Proof.
    intros [[g|] gl od kn ms ax inf]; cbn [bs_map store_last bs_current option_map]; unfold fix_masters_count, bs_map;
      cbn [bs_infos bs_current bs_glyphs bs_order bs_kerning bs_masters bs_axes option_map];
      try change (bg_name (bg_map g)) with (bg_name g); rewrite ?aset_kv; destruct (_ <? _); reflexivity.
  Qed.
End Maps.

Definition unhinted_mm (x : mm_glyph) : mm_glyph :=
  MMGlyph (mg_name x) (mg_guides x) [] [] [] (mg_metrics x) (mg_nodes x) (mg_components x) (mg_tth x) (mg_instructions x).
Definition unhinted_value (v : gvalue) : gvalue := match v with VGlyph x z => VGlyph (unhinted_mm x) z | VData d => VData d end.
Definition unhinted_font (s : font) : font :=
  Font (fo_info s) (bs_map unhinted_value (fo_glyphs s)) (fo_tt s) (fo_options s) (fo_features s) (fo_groups s) (fo_flags s)
       (fo_guides s) (fo_props s) (fo_counts s) (fo_design s) (fo_lib s).
Definition hints_off (c : settings) : settings :=
  Settings (st_vfb_minimal c) (st_minimal c) false (st_ops c) (st_upper c) (st_asm c).

Lemma on_glyphs_map : forall e e' s, e' = be_map unhinted_value e ->
  on_glyphs (fun b => b_add b e') (unhinted_font s) = rmap unhinted_font (on_glyphs (fun b => b_add b e) s).
Proof.
  intros e e' s ->. unfold on_glyphs. cbn [unhinted_font fo_glyphs]. rewrite b_add_map.
  destruct (b_add (fo_glyphs s) e); reflexivity.
Qed.
Lemma build_mm_off : forall min ps d, build_mm_glyph min false d =
  match build_mm_glyph min ps d with Ok r => Ok (unhinted_mm (fst r), d) | Err e => Err e end.
Proof.
  intros min ps d. unfold build_mm_glyph. destruct (get_key (g_name d)); cbn [rthen]; [|reflexivity].
  destruct (get_key (g_metrics d)); cbn [rthen]; [|reflexivity]. destruct (get_key (g_nodes d)); reflexivity.
Qed.
Lemma glyph_entry_off : forall c x s, glyph_entry (hints_off c) x (unhinted_font s) = rmap unhinted_font (glyph_entry c x s).
Proof.
  intros c x s. unfold glyph_entry. cbn [hints_off st_minimal st_ps_hints]. rewrite (build_mm_off _ (st_ps_hints c)).
  destruct (build_mm_glyph _ _ x) as [[y d]|e]; cbn [rthen fst]; [|reflexivity]. now apply on_glyphs_map.
Qed.
Lemma cases_off : forall c, Forall2 (fun p q => fst p = fst q /\
    forall d s, snd q d (unhinted_font s) = rmap unhinted_font (snd p d s)) (cases c) (cases (hints_off c)).
Proof.
  intros c. unfold cases.
  repeat (apply Forall2_cons; [split; [reflexivity|]; intros d s; cbn [snd]|]); [..|constructor];
    try (destruct d; try reflexivity);
    try (unfold glyph_field; now apply on_glyphs_map);
    try apply glyph_entry_off;
    try (unfold on_info, on_tt, on_groups, on_design; cbn [unhinted_font fo_info fo_tt fo_groups fo_design];
         match goal with |- rmap _ ?x = rmap _ (rmap _ ?y) => change x with y; destruct y; reflexivity end).
  match goal with |- context [gd_anchors ?x] => destruct (gd_anchors x) end; [unfold glyph_field; now apply on_glyphs_map|reflexivity].
Qed.

Lemma cases_get : forall key l l', Forall2 (fun p q : Z * (value -> font -> res font) => fst p = fst q /\
    forall d s, snd q d (unhinted_font s) = rmap unhinted_font (snd p d s)) l l' ->
  match aget Z.eqb key l with
  | Some f => exists f', aget Z.eqb key l' = Some f' /\ forall d s, f' d (unhinted_font s) = rmap unhinted_font (f d s)
  | None => aget Z.eqb key l' = None
  end.
Proof.
  intros key l l' F. induction F as [|[k f] [k' f'] l l' (E & H) F IH]; cbn [aget]; [reflexivity|].
  cbn [fst snd] in *. subst k'. destruct (key =? k); [eauto|exact IH].
Qed.
Lemma build_step_off : forall c s e, build_step (hints_off c) (unhinted_font s) e = rmap unhinted_font (build_step c s e).
Proof.
  intros c s [key data]. unfold build_step. change (skip_keys (hints_off c)) with (skip_keys c).
  destruct (existsb (Z.eqb key) (skip_keys c)); [reflexivity|]. destruct data as [d|]; [|reflexivity].
  destruct (aget Z.eqb key info_mapping) as [attr|].
  - destruct (as_val (info_data d)); reflexivity.
  - pose proof (cases_get key _ _ (cases_off c)) as H. destruct (aget Z.eqb key (cases c)) as [f|].
    + destruct H as (f' & -> & H). apply H.
    + now rewrite H.
Qed.
Lemma build_font_off : forall c es, build_font (hints_off c) es = rmap unhinted_font (build_font c es).
Proof.
  intros c es. unfold build_font.
  assert (F : forall es s, res_fold (build_step (hints_off c)) (unhinted_font s) es = rmap unhinted_font (res_fold (build_step c) s es)).
  { clear es. intros es. induction es as [|e es IH]; intros s; cbn [res_fold]; [reflexivity|]. rewrite build_step_off.
    destruct (build_step c s e); cbn [rthen rmap]; [apply IH|reflexivity]. }
  specialize (F es new_font). change (unhinted_font new_font) with new_font in F. rewrite F.
  destruct (res_fold (build_step c) new_font es) as [s|]; cbn [rmap rthen]; [|reflexivity].
  unfold finish, on_info. cbn [unhinted_font fo_info fo_glyphs]. destruct (fix_underline_position _); cbn [rmap]; [|reflexivity].
  unfold unhinted_font. cbn [fo_info fo_glyphs fo_tt fo_options fo_features fo_groups fo_flags fo_guides fo_props fo_counts fo_design fo_lib].
  now rewrite finish_map.
Qed.

(** ** The font info *)
Definition untouched (k : pystr) (i i' : info) : Prop := aget str_eqb k (if_attrs i') = aget str_eqb k (if_attrs i).
Lemma setattr_other : forall k a v i, In k hint_attributes -> existsb (str_eqb a) hint_attributes = false -> untouched k i (setattr a v i).
Proof.
  intros k a v i I N. unfold untouched, setattr. cbn [if_attrs]. rewrite (aget_aset str_eqb str_eqb_eq).
  destruct (str_eqb k a) eqn:E; [|reflexivity]. apply str_eqb_eq in E. subst.
  assert (X : existsb (str_eqb a) hint_attributes = true) by (apply existsb_exists; exists a; split; [exact I|apply str_eqb_refl]). congruence.
Qed.
Lemma setattr_both : forall k a b v i, In k hint_attributes -> existsb (str_eqb a) hint_attributes = false ->
  existsb (str_eqb b) hint_attributes = false -> untouched k i (setattr a v (setattr b v i)).
Proof.
  intros k a b v i I A B. pose proof (setattr_other k a v (setattr b v i) I A) as X. pose proof (setattr_other k b v i I B) as Y.
  unfold untouched in *. congruence.
Qed.
Ltac not_hint := vm_compute; reflexivity.
Lemma set_tt_item_other : forall k i kv i', In k hint_attributes -> set_tt_item i kv = Ok i' -> untouched k i i'.
Proof.
  intros k i [x v] i' I E. unfold set_tt_item in E. destruct v as [v|flags ops|l|r1 r2].
  - destruct (aget str_eqb x mapping_int) as [attr|] eqn:A.
    + apply Ok_inj in E. subst i'. apply setattr_other; [exact I|].
      apply (aget_In str_eqb str_eqb_eq) in A.
      assert (F : forallb (fun p => negb (existsb (str_eqb (snd p)) hint_attributes)) mapping_int = true) by (vm_compute; reflexivity).
      rewrite forallb_forall in F. apply F in A. cbn [snd] in A. now apply negb_true_iff in A.
    + repeat match type of E with (if ?b then _ else _) = _ => destruct b end;
        try (apply Ok_inj in E; subst i'; first [reflexivity|apply setattr_other; [exact I|not_hint]]).
      * unfold set_created_timestamp in E. destruct (convert_timestamp v); [|discriminate]. cbn in E. apply Ok_inj in E. subst.
        apply setattr_other; [exact I|not_hint].
      * destruct (binaryToIntList v 0); [|discriminate]. cbn in E. apply Ok_inj in E. subst. apply setattr_other; [exact I|not_hint].
      * destruct (aget str_eqb x maxp_keys); [apply Ok_inj in E; subst; reflexivity|].
        destruct (str_eqb x _); apply Ok_inj in E; subst; [|reflexivity].
        destruct (v =? 0); [reflexivity|]. apply setattr_other; [exact I|not_hint].
  - destruct (str_eqb x _); apply Ok_inj in E; subst; [apply setattr_other; [exact I|not_hint]|reflexivity].
  - apply Ok_inj in E. now subst.
  - destruct (str_eqb x _); [apply Ok_inj in E; subst; apply setattr_other; [exact I|not_hint]|].
    destruct (str_eqb x _); [|apply Ok_inj in E; now subst].
    destruct (code_pages r1 r2) as [l|]; [|discriminate]. cbn in E. apply Ok_inj in E. subst.
    destruct l; [reflexivity|]. apply setattr_other; [exact I|not_hint].
Qed.
Lemma set_tt_info_other : forall k l i i', In k hint_attributes -> set_tt_info i l = Ok i' -> untouched k i i'.
Proof.
  intros k l. induction l as [|kv l IH]; intros i i' I E; cbn [set_tt_info] in E; [apply Ok_inj in E; now subst|].
  destruct (set_tt_item i kv) as [i1|] eqn:S; [|discriminate]. cbn [rthen] in E. apply IH in E; [|exact I].
  apply (set_tt_item_other k) in S; [|exact I]. unfold untouched in *. congruence.
Qed.
Lemma info_case_other : forall k key d i i', In k hint_attributes -> info_case key d i = Ok i' -> untouched k i i'.
Proof.
  intros k key d i i' I E. unfold info_case in E.
  repeat match type of E with (if ?b then _ else _) = _ => destruct b end;
    try (destruct (as_val d); [|discriminate]; apply Ok_inj in E; subst i';
         first [apply setattr_other; [exact I|not_hint]|apply setattr_both; [exact I|not_hint|not_hint]]);
    try (destruct d as [v|t|l|l]; try discriminate; try (destruct v; try discriminate));
    try (apply Ok_inj in E; subst i');
    try reflexivity;
    try (apply setattr_other; [exact I|not_hint]).
  - now apply (set_tt_info_other k) in E.
  - unfold set_tt_gasp in E. destruct (gasp_records l); [|discriminate]. cbn in E. apply Ok_inj in E. subst.
    apply setattr_other; [exact I|not_hint].
  - unfold set_selection in E. destruct (binaryToIntList z 0) as [l|]; [|discriminate]. cbn [rmap] in E. apply Ok_inj in E. subst.
    assert (H : untouched k i (setattr (py "openTypeOS2Selection") (IList (filter (fun b => negb (has b [0; 5; 6])) l)) i))
      by (apply setattr_other; [exact I|not_hint]).
    destruct (style_parts l); [exact H|]. unfold untouched in *. rewrite <- H. apply setattr_other; [exact I|not_hint].
Qed.
Lemma cases_info : forall c k, In k hint_attributes ->
  Forall (fun p => forall d s s', snd p d s = Ok s' -> untouched k (fo_info s) (fo_info s')) (cases c).
Proof.
  intros c k I. unfold cases.
  assert (N : forall (x : res font) s s', x = Ok s' -> (forall s1, x = Ok s1 -> fo_info s1 = fo_info s) -> untouched k (fo_info s) (fo_info s')).
  { intros x s s' E H. unfold untouched. now rewrite (H s' E). }
  assert (G : forall f s s', on_glyphs f s = Ok s' -> untouched k (fo_info s) (fo_info s')).
  { intros f s s' E. unfold on_glyphs in E. destruct (f _); [|discriminate]. cbn in E. apply Ok_inj in E. now subst. }
  assert (T : forall f s s', on_tt f s = Ok s' -> untouched k (fo_info s) (fo_info s')).
  { intros f s s' E. unfold on_tt in E. destruct (f _); [|discriminate]. cbn in E. apply Ok_inj in E. now subst. }
  assert (D : forall f s s', on_design f s = Ok s' -> untouched k (fo_info s) (fo_info s')).
  { intros f s s' E. unfold on_design in E. destruct (f _); [|discriminate]. cbn in E. apply Ok_inj in E. now subst. }
  assert (P : forall f s s', on_groups f s = Ok s' -> untouched k (fo_info s) (fo_info s')).
  { intros f s s' E. unfold on_groups in E. destruct (f _); [|discriminate]. cbn in E. apply Ok_inj in E. now subst. }
  assert (F : forall f s s', (forall i i', f i = Ok i' -> untouched k i i') -> on_info f s = Ok s' -> untouched k (fo_info s) (fo_info s')).
  { intros f s s' H E. unfold on_info in E. destruct (f (fo_info s)) as [i|] eqn:X; [|discriminate]. cbn in E. apply Ok_inj in E. subst. cbn. now apply H. }
  assert (B : forall s s', bad = Ok s' -> untouched k (fo_info s) (fo_info s')) by discriminate.
  repeat (apply Forall_cons; [intros d s s' E; cbn [snd] in E|]); [..|constructor];
    try exact (G _ _ _ E);
    try (eapply F; [|exact E]; intros i i' X; revert X; apply info_case_other; exact I);
    try (apply Ok_inj in E; now subst);
    (destruct d; try exact (B _ _ E));
    try exact (G _ _ _ E); try exact (T _ _ _ E); try exact (D _ _ _ E); try exact (P _ _ _ E);
    try (apply Ok_inj in E; now subst).
  - unfold glyph_entry in E. destruct (build_mm_glyph _ _ _); [|discriminate]. exact (G _ _ _ E).
  - match type of E with context [gd_anchors ?x] => destruct (gd_anchors x) end; [exact (G _ _ _ E)|apply Ok_inj in E; now subst].
  - eapply F; [|exact E]. intros i i' X. unfold set_tt_cvt in X. destruct (deHexStr _); [|discriminate]. cbn [rthen] in X.
    destruct (unpack_h _); [|discriminate]. cbn [rmap] in X. apply Ok_inj in X. now subst.
  - eapply F; [|exact E]. intros i i' X. unfold set_tt_program in X. destruct (deHexStr _); [|discriminate]. cbn [rthen] in X.
    destruct (format_bytes _ _); [|discriminate]. cbn [rmap] in X. apply Ok_inj in X. now subst.
  - eapply F; [|exact E]. intros i i' X. unfold set_tt_program in X. destruct (deHexStr _); [|discriminate]. cbn [rthen] in X.
    destruct (format_bytes _ _); [|discriminate]. cbn [rmap] in X. apply Ok_inj in X. now subst.
Qed.
Lemma build_step_info : forall c k s e s', In k hint_attributes -> build_step c s e = Ok s' -> untouched k (fo_info s) (fo_info s').
Proof.
  intros c k s [key data] s' I E. unfold build_step in E. destruct (existsb (Z.eqb key) (skip_keys c)); [apply Ok_inj in E; now subst|].
  destruct data as [d|]; [|apply Ok_inj in E; now subst]. destruct (aget Z.eqb key info_mapping) as [attr|] eqn:A.
  - destruct (as_val (info_data d)); [|discriminate]. unfold on_info in E. cbn [rmap] in E. apply Ok_inj in E. subst s'. cbn [fo_info].
    apply setattr_other; [exact I|]. apply (aget_In Z.eqb Z.eqb_eq) in A.
    assert (F : forallb (fun p => negb (existsb (str_eqb (snd p)) hint_attributes)) info_mapping = true) by (vm_compute; reflexivity).
    rewrite forallb_forall in F. apply F in A. cbn [snd] in A. now apply negb_true_iff in A.
  - destruct (aget Z.eqb key (cases c)) as [f|] eqn:G; [|apply Ok_inj in E; now subst].
    apply (aget_In Z.eqb Z.eqb_eq) in G. pose proof (cases_info c k I) as F. rewrite Forall_forall in F. exact (F _ G d s s' E).
Qed.
Lemma build_font_info : forall c k es s, In k hint_attributes -> build_font c es = Ok s ->
  aget str_eqb k (if_attrs (fo_info s)) = aget str_eqb k info_defaults.
Proof.
  intros c k es s I E. unfold build_font in E. destruct (res_fold (build_step c) new_font es) as [s1|] eqn:F; [|discriminate].
  cbn [rthen] in E.
  assert (H : forall es s0 s1, res_fold (build_step c) s0 es = Ok s1 -> untouched k (fo_info s0) (fo_info s1)).
  { clear - I. intros es. induction es as [|e es IH]; intros s0 s1 F; cbn [res_fold] in F; [apply Ok_inj in F; now subst|].
    destruct (build_step c s0 e) as [s2|] eqn:B; [|discriminate]. cbn [rthen] in F. apply IH in F.
    apply (build_step_info c k) in B; [|exact I]. unfold untouched in *. congruence. }
  apply H in F. unfold finish, on_info in E. cbn [fo_info] in E.
  destruct (fix_underline_position _) as [i|] eqn:U; [|discriminate]. cbn [rmap] in E. apply Ok_inj in E. subst s. cbn [fo_info].
  change (aget str_eqb k info_defaults) with (aget str_eqb k (if_attrs (fo_info new_font))). rewrite <- F.
  assert (D : if_attrs (drop_default (fo_info s1)) = if_attrs (fo_info s1)).
  { unfold drop_default. destruct (if_lib _); [|reflexivity]. now destruct (dict_eqb _ _). }
  rewrite <- D. unfold fix_underline_position in U.
  destruct (aget str_eqb (py "postscriptUnderlinePosition") (if_attrs (drop_default (fo_info s1)))) as [[]|];
    try (destruct (aget str_eqb (py "postscriptUnderlineThickness") (if_attrs (drop_default (fo_info s1)))) as [[]|]); try discriminate;
    apply Ok_inj in U; subst i; try reflexivity. apply setattr_other; [exact I|not_hint].
Qed.
Lemma setattr_hint : forall k a v i, existsb (str_eqb k) hint_attributes = false -> existsb (str_eqb a) hint_attributes = true ->
  aget str_eqb k (if_attrs (setattr a v i)) = aget str_eqb k (if_attrs i).
Proof.
  intros k a v i K A. unfold setattr. cbn [if_attrs]. rewrite (aget_aset str_eqb str_eqb_eq). destruct (str_eqb k a) eqn:E; [|reflexivity].
  apply str_eqb_eq in E. subst. congruence.
Qed.
Lemma clipped_hint : forall k a n l i, existsb (str_eqb k) hint_attributes = false -> existsb (str_eqb a) hint_attributes = true ->
  aget str_eqb k (if_attrs (set_clipped a n l i)) = aget str_eqb k (if_attrs i).
Proof. intros k a n l i K A. unfold set_clipped. destruct (n =? 0); [reflexivity|now apply setattr_hint]. Qed.
Lemma clipped_lib : forall a n l i, if_lib (set_clipped a n l i) = if_lib i.
Proof. intros. unfold set_clipped. now destruct (n =? 0). Qed.
Lemma master_info_off : forall counts infos m i,
  (forall k, In k hint_attributes -> aget str_eqb k (if_attrs i) = aget str_eqb k info_defaults) ->
  match get_master_info true counts infos m i with
  | Ok x => exists x', get_master_info false counts infos m i = Ok x' /\ unhinted_info x x'
  | Err e => get_master_info false counts infos m i = Err e
  end.
Proof.
  intros counts infos m i D. unfold get_master_info. destruct (py_index infos m) as [p|]; cbn [rmap]; [|reflexivity].
  eexists. split; [reflexivity|]. split; [rewrite !clipped_lib; reflexivity|]. intros k.
  destruct (existsb (str_eqb k) hint_attributes) eqn:K.
  - assert (I : In k hint_attributes).
    { apply existsb_exists in K. destruct K as (x & I & K). apply str_eqb_eq in K. now subst. }
    rewrite <- (D k I).
    assert (X : forall a v j, existsb (str_eqb a) hint_attributes = false -> aget str_eqb k (if_attrs (setattr a v j)) = aget str_eqb k (if_attrs j))
      by (intros a v j; exact (setattr_other k a v j I)).
    rewrite !X by not_hint. reflexivity.
  - assert (X : forall a v j, existsb (str_eqb a) hint_attributes = true -> aget str_eqb k (if_attrs (setattr a v j)) = aget str_eqb k (if_attrs j))
      by (intros a v j; exact (setattr_hint k a v j K)).
    rewrite !(clipped_hint k) by (exact K || not_hint).
    rewrite (X (py "postscriptForceBold")), (X (py "postscriptBlueFuzz")), (X (py "postscriptBlueShift")), (X (py "postscriptBlueScale")) by not_hint.
    reflexivity.
Qed.

(** ** Outlines *)
Definition same_state (a b : pstate) : Prop :=
  same_outline (ps_contours a) (ps_contours b) /\ Forall2 same_point (ps_contour a) (ps_contour b) /\
  ps_open a = ps_open b /\ ps_qcurve a = ps_qcurve b.
Lemma same_last : forall l l' d d', Forall2 same_point l l' -> same_point d d' -> same_point (last l d) (last l' d').
Proof.
  intros l l' d d' F D. induction F as [|p q l l' P F IH]; [exact D|]. destruct F; [exact P|]. exact IH.
Qed.
Lemma same_removelast : forall l l', Forall2 same_point l l' -> Forall2 same_point (removelast l) (removelast l').
Proof. intros l l' F. induction F as [|p q l l' P F IH]; [constructor|]. destruct F; [constructor|]. constructor; [exact P|exact IH]. Qed.
Lemma flush_same : forall p q l l' op r r', same_point p q -> Forall2 same_point l l' ->
  Forall2 same_point (fst (flush_contour p l op r)) (fst (flush_contour q l' op r')).
Proof.
  intros p q l l' op r r' P F. unfold flush_contour. destruct op; [now constructor|].
  pose proof (same_last l l' p q F P) as (T & S & X). rewrite <- T.
  assert (C : Forall2 same_point (fst (apply_closepath p l r)) (fst (apply_closepath q l' r'))).
  { unfold apply_closepath. rewrite <- T, <- X. destruct P as (T0 & S0 & X0). rewrite <- X0.
    destruct (pt_eqb _ _ && _).
    - pose proof (same_removelast l l' F) as R.
      destruct (up_name p), (up_name q), (up_name (last l p)), (up_name (last l' q)); cbn [fst]; constructor; try exact R;
        repeat split; assumption.
    - cbn [fst]. constructor; [repeat split; assumption|exact F]. }
  destruct (up_type (last l p)) as [[]|]; try exact C; cbn [fst]; constructor; try assumption.
  destruct P as (T0 & S0 & X0). repeat split; assumption.
Qed.
Lemma append_same : forall a b, same_state a b -> same_state (append_contour a) (append_contour b).
Proof.
  intros a b (O & C & P & Q). unfold append_contour.
  destruct (ps_contour a) as [|p l] eqn:A; inversion C as [|? q ? l' PQ F]; subst.
  - split; [exact O|]. split; [rewrite A, <- H; constructor|]. split; assumption.
  - pose proof (flush_same p q l l' (ps_open a) (ps_renames a) (ps_renames b) PQ F) as X. rewrite <- P.
    destruct (flush_contour p l _ _) as [c r], (flush_contour q l' _ _) as [c' r']. cbn [fst] in X.
    split; cbn [ps_contours ps_contour ps_open ps_qcurve].
    + apply Forall2_app; [exact O|]. constructor; [exact X|constructor].
    + split; [now constructor|]. split; [reflexivity|exact Q].
Qed.
Lemma turn_same : forall m name name' n a b, same_state a b ->
  match node_turn m name n a with
  | Ok a' => exists b', node_turn m name' n b = Ok b' /\ same_state a' b'
  | Err e => node_turn m name' n b = Err e
  end.
Proof.
  intros m name name' n a b H. unfold node_turn. destruct (py_index (nd_points n) m) as [nodes|]; cbn [rthen]; [|reflexivity].
  destruct (py_index nodes 0) as [pt|]; cbn [rthen]; [|reflexivity]. destruct (nd_type n).
  - pose proof (append_same a b H) as (O & _). eexists. split; [reflexivity|]. split; [exact O|].
    split; [constructor; [repeat split|constructor]|]. split; reflexivity.
  - destruct H as (O & C & P & Q). rewrite <- Q. eexists. split; [reflexivity|]. split; [exact O|]. split; [|split; [exact P|reflexivity]].
    apply Forall2_app; [exact C|]. constructor; [repeat split|constructor].
  - destruct nodes as [|p0 [|c1 [|c2 [|]]]]; try reflexivity.
    destruct H as (O & C & P & Q). eexists. split; [reflexivity|]. split; [exact O|]. split; [|split; [exact P|reflexivity]].
    apply Forall2_app; [exact C|]. repeat constructor.
  - destruct H as (O & C & P & Q). eexists. split; [reflexivity|]. split; [exact O|]. split; [|split; [exact P|reflexivity]].
    apply Forall2_app; [exact C|]. repeat constructor.
Qed.
Lemma contours_same : forall m labels labels' nodes,
  match extract_contours m labels nodes with
  | Ok r => exists r', extract_contours m labels' nodes = Ok r' /\ same_outline (fst r) (fst r')
  | Err e => extract_contours m labels' nodes = Err e
  end.
Proof.
  intros m labels labels' nodes. unfold extract_contours.
  assert (L : forall nodes i a b, same_state a b ->
    match nodes_loop m labels i nodes a with
    | Ok a' => exists b', nodes_loop m labels' i nodes b = Ok b' /\ same_state a' b'
    | Err e => nodes_loop m labels' i nodes b = Err e
    end).
  { clear nodes. intros nodes. induction nodes as [|n nodes IH]; intros i a b H; cbn [nodes_loop]; [eauto|].
    pose proof (turn_same m (labels i) (labels' i) n a b H) as T.
    destruct (node_turn m (labels i) n a) as [a1|]; cbn [rthen]; [|now rewrite T].
    destruct T as (b1 & -> & T). cbn [rthen]. exact (IH (i + 1) a1 b1 T). }
  specialize (L nodes 0 (PState [] [] [] false false) (PState [] [] [] false false)).
  destruct (nodes_loop m labels 0 nodes _) as [a|].
  - destruct L as (b & -> & L); [repeat split; constructor|]. cbn [rmap]. eexists. split; [reflexivity|]. cbn [fst].
    apply (append_same a b L).
  - rewrite L by (repeat split; constructor). reflexivity.
Qed.

(** ** Labels *)
Definition keeps_keys (st st' : store) : Prop := forall n, In n (map fst st) -> In n (map fst st').
Lemma label_keys : forall fuel order st name i code start r, get_point_label fuel order st name i code start = Ok r -> keeps_keys st (snd r).
Proof.
  intros fuel order. induction fuel as [|fuel IH]; intros st name i code start r E; cbn [get_point_label] in E; [discriminate|].
  destruct (aget_res str_eqb name st) as [g|]; [|discriminate]. cbn [rthen] in E. destruct (lg_components g) as [|gid gids].
  - destruct (simple_label g i code start) as [[l x]|]; [|discriminate]. cbn [rmap fst snd] in E. apply Ok_inj in E. subst r. cbn [snd].
    intros n H. apply (aset_keys str_eqb str_eqb_eq). now right.
  - destruct (find_component st order (gid :: gids) 0 i 0) as [[[[j comp] i']|total]|]; [| |discriminate]; cbn [rthen] in E.
    + destruct (get_point_label fuel order st comp i' code 1) as [r1|] eqn:L; [|discriminate]. cbn [rmap] in E. apply Ok_inj in E. subst r.
      cbn [snd]. exact (IH _ _ _ _ _ _ L).
    + apply Ok_inj in E. subst r. intros n H. exact H.
Qed.
Lemma point_keys : forall fuel order name i attr param a r,
  add_point store (builder_label fuel order name) i attr param a = Ok r -> keeps_keys (snd a) (snd r).
Proof.
  intros fuel order name i attr param a r E. unfold add_point, builder_label in E. destruct (aget_res str_eqb param _); [|discriminate].
  cbn [rthen] in E. destruct (get_point_label fuel order (snd a) name _ _ 1) as [x|] eqn:L; [|discriminate]. cbn [rmap] in E.
  apply Ok_inj in E. subst r. cbn [snd]. exact (label_keys _ _ _ _ _ _ _ _ L).
Qed.
Lemma keys_trans : forall a b c, keeps_keys a b -> keeps_keys b c -> keeps_keys a c.
Proof. intros a b c H K n I. exact (K n (H n I)). Qed.
Ltac next_ok E := match type of E with
  | rthen ?x _ = _ => let r := fresh "r" in let X := fresh "X" in destruct x as [r|] eqn:X; [|discriminate]; cbn [rthen] in E
  | rmap _ ?x = _ => let r := fresh "r" in let X := fresh "X" in destruct x as [r|] eqn:X; [|discriminate]; cbn [rmap] in E
  end.
Lemma command_keys : forall fuel order name zone stems st i r,
  export_command store (builder_label fuel order name) zone stems st i = Ok r -> keeps_keys st (snd r).
Proof.
  intros fuel order name zone stems st i r E. unfold export_command in E.
  next_ok E.
  repeat match type of E with (if ?b then _ else _) = _ => destruct b end; [..|discriminate];
    repeat next_ok E; apply Ok_inj in E; subst r; cbn [snd];
    repeat match goal with
    | H : add_point _ _ _ _ _ ?a = Ok ?r |- keeps_keys _ (snd ?r) =>
        apply point_keys in H; cbn [snd] in H; first [exact H|eapply keys_trans; [|exact H]; clear H]
    end.
Qed.
Lemma commands_keys : forall fuel order name zone stems l st r,
  export_commands store (builder_label fuel order name) zone stems st l = Ok r -> keeps_keys st (snd r).
Proof.
  intros fuel order name zone stems l. induction l as [|i l IH]; intros st r E; cbn [export_commands] in E.
  - apply Ok_inj in E. subst r. intros n H. exact H.
  - next_ok E. next_ok E. apply Ok_inj in E. subst r. cbn [snd]. apply command_keys in X. apply IH in X0. exact (keys_trans _ _ _ X X0).
Qed.
Lemma glyph_lib_keys : forall o order t l st r, tt_glyph_lib o order t l st = Ok r -> keeps_keys st (snd r).
Proof.
  intros o order t l. induction l as [|[name g] l IH]; intros st r E; cbn [tt_glyph_lib] in E.
  - apply Ok_inj in E. subst r. intros n H. exact H.
  - destruct (bg_data g) as [x z|d]; [|exact (IH _ _ E)]. destruct (mg_tth x); [|exact (IH _ _ E)].
    next_ok E. next_ok E. apply Ok_inj in E. subst r. cbn [snd]. apply commands_keys in X. apply IH in X0. exact (keys_trans _ _ _ X X0).
Qed.

(** ** One glyph *)
Notation off := (bg_map unhinted_value).
Lemma field_off : forall f g, field_data f (off g) = field_data f g.
Proof.
  intros f g. unfold field_data. cbn [bg_map bg_fields].
  change (map (fun p => (fst p, unhinted_value (snd p))) (bg_fields g)) with (kv_map unhinted_value (bg_fields g)). rewrite aget_kv.
  destruct (aget field_eqb f (bg_fields g)) as [[]|]; reflexivity.
Qed.
Lemma extras_off : forall g, glyph_extras_of (off g) = glyph_extras_of g.
Proof. intros g. unfold glyph_extras_of, glyph_anchors, glyph_mm_anchors. rewrite !field_off. reflexivity. Qed.
Lemma export_one_off : forall c o order m name g cmds st st' u k st1, st_ps_hints c = true -> In name (map fst st') ->
  export_one c o order m name g cmds st = Ok (u, k, st1) ->
  exists u', export_one (hints_off c) o order m name (off g) cmds st' = Ok (u', k, st') /\ unhinted_glyph u u'.
Proof.
  intros c o order m name g cmds st st' u k st1 PS I E. unfold export_one in *. cbn [bg_map bg_data].
  destruct (bg_data g) as [x z|d]; [|discriminate]. cbn [unhinted_value].
  rewrite extras_off, !field_off. cbn [hints_off st_ps_hints st_minimal st_asm unhinted_mm mg_components mg_guides mg_instructions].
  unfold glyph_mask, glyph_props in *. rewrite !field_off.
  change (build_master (st_minimal c) m (unhinted_mm x)) with (build_master (st_minimal c) m x).
  rewrite PS in E.
  assert (A : exists lg, aget_res str_eqb name st' = Ok lg).
  { unfold aget_res. destruct (aget str_eqb name st') as [lg|] eqn:G; [eauto|]. apply (aget_None str_eqb str_eqb_eq) in G. contradiction. }
  destruct A as (lg' & A).
  next_ok E. unfold export_glyph in X |- *. cbn [rthen fst snd]. rewrite A. cbn [rthen].
  next_ok X. next_ok X. next_ok X. apply Ok_inj in X. subst r.
  pose proof (contours_same m (fun i => aget Z.eqb i (lg_points r1)) (fun i => aget Z.eqb i (lg_points lg')) (eg_nodes (eglyph_of x g))) as C.
  rewrite X2 in C. destruct C as (r' & C & SO).
  change (eg_nodes (eglyph_of (unhinted_mm x) (off g))) with (eg_nodes (eglyph_of x g)). rewrite C. cbn [rmap rthen fst snd ex_contours ex_hints] in *.
  next_ok E. cbn [rthen]. next_ok E. cbn [rthen]. next_ok E. cbn [rthen]. next_ok E. cbn [rthen]. next_ok E. cbn [rthen]. next_ok E. cbn [rmap].
  apply Ok_inj in E. injection E as <- <- <-. eexists. split; [reflexivity|]. split; [exact SO|]. reflexivity.
Qed.
Lemma export_all_off : forall c o order m cmds glyphs st st' us ks st1, st_ps_hints c = true -> incl (map fst glyphs) (map fst st') ->
  export_all c o order m glyphs cmds st = Ok (us, ks, st1) ->
  exists us', export_all (hints_off c) o order m (kv_map off glyphs) cmds st' = Ok (us', ks, st') /\
    Forall2 (fun p q => fst p = fst q /\ unhinted_glyph (snd p) (snd q)) us us'.
Proof.
  intros c o order m cmds glyphs. induction glyphs as [|[name g] glyphs IH]; intros st st' us ks st1 PS I E; cbn [export_all kv_map map fst snd] in *.
  - apply Ok_inj in E. injection E as <- <- <-. exists []. split; [reflexivity|constructor].
  - next_ok E. next_ok E. apply Ok_inj in E. destruct r as [[u k] st2], r0 as [[us0 ks0] st3]. cbn [fst snd] in *.
    injection E as <- <- <-.
    destruct (export_one_off c o order m name g _ st st' u k st2 PS (I name (or_introl eq_refl)) X) as (u' & E1 & U).
    rewrite E1. cbn [rthen fst snd].
    destruct (IH st2 st' us0 ks0 st3 PS (fun n H => I n (or_intror H)) X0) as (us' & E2 & F).
    unfold kv_map in E2. rewrite E2. cbn [rmap fst snd]. exists ((name, u') :: us'). split; [reflexivity|].
    constructor; [split; [reflexivity|exact U]|exact F].
Qed.
Lemma count_off : forall g, components_count (off g) = components_count g.
Proof. intros g. unfold components_count. cbn [bg_map bg_data]. now destruct (bg_data g). Qed.
Lemma sorted_off : forall l, sorted_glyphs (kv_map off l) = kv_map off (sorted_glyphs l).
Proof.
  assert (L : forall x y, glyph_ltb (fst x, off (snd x)) (fst y, off (snd y)) = glyph_ltb x y).
  { intros x y. unfold glyph_ltb. cbn [snd]. rewrite !count_off. reflexivity. }
  assert (In1 : forall x l, insert_glyph (fst x, off (snd x)) (kv_map off l) = kv_map off (insert_glyph x l)).
  { intros x l. induction l as [|y l IH]; [reflexivity|]. cbn [kv_map map insert_glyph]. rewrite L.
    destruct (glyph_ltb y x); [|reflexivity]. cbn [map]. f_equal. exact IH. }
  intros l. induction l as [|x l IH]; [reflexivity|]. unfold sorted_glyphs in *. cbn [kv_map map fold_right].
  change (map (fun p => (fst p, off (snd p))) l) with (kv_map off l). rewrite IH. apply In1.
Qed.
Lemma first_off : forall l, first_store (kv_map off l) = first_store l.
Proof.
  intros l. unfold first_store, kv_map. rewrite map_map. apply map_ext. intros [n g]. cbn [fst snd bg_map bg_data].
  now destruct (bg_data g).
Qed.
Lemma glyph_lib_off : forall o order t l st, tt_glyph_lib o order t (kv_map off l) st = tt_glyph_lib o order t l st.
Proof.
  intros o order t l. induction l as [|[name g] l IH]; intros st; cbn [kv_map map tt_glyph_lib fst snd]; [reflexivity|].
  unfold kv_map in IH. cbn [bg_map bg_data]. destruct (bg_data g) as [x z|d]; cbn [unhinted_value]; [|apply IH].
  cbn [unhinted_mm mg_tth]. destruct (mg_tth x); [|apply IH].
  destruct (export_commands _ _ _ _ _ _); cbn [rthen]; [|reflexivity]. now rewrite IH.
Qed.
Lemma infos_off : forall s, ps_infos (unhinted_font s) = ps_infos s.
Proof.
  intros s. unfold ps_infos. cbn [unhinted_font fo_glyphs bs_map bs_infos]. induction (bs_infos (fo_glyphs s)) as [|v l IH]; [reflexivity|].
  cbn [map flat_map]. rewrite IH. now destruct v.
Qed.

(** ** The UFOs *)
Lemma masters_off : forall c o s sh lib cmds n m st st' us, st_ps_hints c = true -> incl (map fst (bs_glyphs (fo_glyphs s))) (map fst st') ->
  (forall k, In k hint_attributes -> aget str_eqb k (if_attrs (fo_info s)) = aget str_eqb k info_defaults) ->
  ufo_masters c o s sh lib cmds m n st = Ok us ->
  exists us', ufo_masters (hints_off c) o (unhinted_font s) sh lib cmds m n st' = Ok us' /\ Forall2 unhinted_ufo us us'.
Proof.
  intros c o s sh lib cmds n. induction n as [|n IH]; intros m st st' us PS I D E; cbn [ufo_masters] in *.
  - apply Ok_inj in E. subst us. exists []. split; [reflexivity|constructor].
  - next_ok E. next_ok E. apply Ok_inj in E. subst us. unfold get_ufo_master in *. rewrite infos_off.
    cbn [hints_off st_ps_hints unhinted_font fo_glyphs fo_counts fo_info bs_map bs_order bs_glyphs].
    next_ok X. cbn [rthen]. rewrite PS in X.
    pose proof (master_info_off (fo_counts s) (ps_infos s) m (fo_info s) D) as MI.
    next_ok X. destruct MI as (i' & -> & UI). cbn [rthen].
    change (font_guides (hints_off c) o (unhinted_font s) m) with (font_guides c o s m). next_ok X. cbn [rthen].
    next_ok X. apply Ok_inj in X. subst r. cbn [fst snd] in *. destruct r4 as [[gs ks] st1]. cbn [fst snd] in *.
    destruct (export_all_off c o _ m cmds _ st st' gs ks st1 PS I X4) as (gs' & -> & F). cbn [rmap rthen fst snd].
    destruct (IH (m + 1) st1 st' r0 PS I D X0) as (us' & E2 & F2).
    change (unhinted_font s) with (unhinted_font s) in E2. fold (unhinted_font s). rewrite E2. cbn [rmap].
    eexists. split; [reflexivity|]. constructor; [|exact F2]. split; [exact UI|]. split; [exact F|reflexivity].
Qed.
Lemma document_off : forall c o json out es us d, st_ps_hints c = true ->
  vfb_to_document c o json out es = Ok (us, d) ->
  exists us', vfb_to_document (hints_off c) o json out es = Ok (us', d) /\ Forall2 unhinted_ufo us us'.
Proof.
  intros c o json out es us d PS E. unfold vfb_to_document in *. rewrite build_font_off.
  destruct (build_font c es) as [s|] eqn:B; [|discriminate]. cbn [rthen rmap] in *.
  assert (D : forall k, In k hint_attributes -> aget str_eqb k (if_attrs (fo_info s)) = aget str_eqb k info_defaults)
    by (intros k I; exact (build_font_info c k es s I B)).
  unfold get_ufos_designspace in *. destruct (get_ufo_masters c o s) as [us0|] eqn:M; [|discriminate]. cbn [rthen] in E.
  assert (M' : exists us', get_ufo_masters (hints_off c) o (unhinted_font s) = Ok us' /\ Forall2 unhinted_ufo us0 us').
  { unfold get_ufo_masters in *.
    cbn [unhinted_font fo_glyphs fo_groups fo_flags fo_tt fo_features fo_info fo_lib bs_map bs_order bs_glyphs bs_kerning bs_masters].
    rewrite sorted_off, first_off, glyph_lib_off. next_ok M. cbn [rthen]. change (st_minimal (hints_off c)) with (st_minimal c).
    next_ok M. cbn [rthen]. next_ok M. cbn [rthen].
    change (hinting_lib _) with (hinting_lib s). fold (unhinted_font s).
    refine (masters_off c o s r1 _ (fst r) _ 0 (snd r) (snd r) us0 PS _ D M).
    intros n I. apply (glyph_lib_keys _ _ _ _ _ _ X). unfold first_store. rewrite map_map. exact I. }
  destruct M' as (us' & -> & F). cbn [rthen]. change (ds_data_of (unhinted_font s)) with (ds_data_of s).
  change (st_ops (hints_off c)) with (st_ops c). destruct F as [|u u' us0 us' U F]; [discriminate|].
  destruct (written_designspace _ _ _ _) as [ds|]; [|discriminate]. cbn [rmap] in *. apply Ok_inj in E. injection E as <- <-.
  eexists. split; [reflexivity|]. now constructor.
Qed.

(** For all files and arguments: if the tool can export the file, it can with --no-postscript-hints, and writes the
    same, but no glyph has hints, the attributes of the font info about them have no values, and points may have
    other names. *)
Theorem C114_no_hints : forall L fuel a file ufos d,
  exported L fuel (set_hints_off false a) file = Ok (ufos, d) ->
  exists ufos', exported L fuel (set_hints_off true a) file = Ok (ufos', d) /\
    Forall2 (fun f f' => exists k u u', f = FUfo k u /\ f' = FUfo k u' /\ unhinted_ufo u u') ufos ufos'.
Proof.
  intros L fuel a file ufos d E. unfold exported in *.
  change (a_unicode (set_hints_off true a)) with (a_unicode a). change (a_json (set_hints_off true a)) with (a_json a).
  change (out_of (set_hints_off true a)) with (out_of a). change (form_of (set_hints_off true a)) with (form_of a).
  change (options_of L (set_hints_off true a)) with (options_of L a).
  change (a_unicode (set_hints_off false a)) with (a_unicode a) in E. change (a_json (set_hints_off false a)) with (a_json a) in E.
  change (out_of (set_hints_off false a)) with (out_of a) in E. change (form_of (set_hints_off false a)) with (form_of a) in E.
  change (options_of L (set_hints_off false a)) with (options_of L a) in E.
  destruct (vfb_read_bytes _ _ _ file) as [v [n b|e b]]; [|discriminate].
  destruct (vfb_decompile _ v) as [v1 [u|e]]; [|discriminate].
  destruct (vfb_to_document (settings_of L (set_hints_off false a)) _ _ _ _) as [[us ds]|] eqn:V; [|discriminate].
  cbn [rmap fst snd] in E. apply Ok_inj in E. injection E as <- <-.
  destruct (document_off (settings_of L (set_hints_off false a)) (options_of L a) (a_json a) (out_of a) _ us ds eq_refl V) as (us' & V' & F).
  change (hints_off (settings_of L (set_hints_off false a))) with (settings_of L (set_hints_off true a)) in V'. rewrite V'. cbn [rmap fst snd].
  eexists. split; [reflexivity|]. clear - F. induction F as [|x y us us' H F IH]; cbn [map]; constructor; [|exact IH].
  exists (form_of a), x, y. split; [reflexivity|]. split; [reflexivity|exact H].
Qed.
Print Assumptions C114_no_hints.
