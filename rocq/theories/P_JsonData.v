(** The JSON value of decompiled data determines it. *)
From Coq Require Import String Permutation ZifyBool ZifyNat.
From Verif Require Import Base M_Stream M_Py M_Helpers M_Text M_Simple M_Bitmap M_TrueType M_Glyph M_Float M_Options
  M_Container M_Table M_Tools M_Json S_Json S_Dump Lib P_Dec.
Local Open Scope list_scope.

Lemma JsInt_eq : forall a b, JsInt a = JsInt b -> a = b. Proof. congruence. Qed.
Lemma JsStr_eq : forall a b, JsStr a = JsStr b -> a = b. Proof. congruence. Qed.
Lemma JsDict_eq : forall a b, JsDict a = JsDict b -> a = b. Proof. congruence. Qed.
Lemma JsList_eq : forall a b, JsList a = JsList b -> a = b. Proof. congruence. Qed.
Lemma member_eq : forall (k k' : pystr) (x y : js) l m, (k, x) :: l = (k', y) :: m -> x = y /\ l = m.
Proof. intros. split; congruence. Qed.
Lemma item_eq : forall (x y : js) l m, x :: l = y :: m -> x = y /\ l = m.
Proof. intros. split; congruence. Qed.

(** the type of data *)
Definition tag (v : value) : nat :=
  match v with
  | DStr _ => 0
  | DInt _ => 1
  | DDouble _ => 2
  | DInts _ => 3
  | DDoubles _ => 4
  | DEncoding _ => 5
  | DFlags _ => 6
  | DMappingMode _ => 7
  | DOptionList _ => 8
  | DCmaps _ => 9
  | DAxes _ => 10
  | DDoublePairs _ => 11
  | DMasterLocation _ => 12
  | DKernPair _ => 13
  | DFLVersion _ => 14
  | DBinaryTable _ => 15
  | DPclt _ => 16
  | DPSInfo _ => 17
  | DPSOptions _ => 18
  | DGasp _ => 19
  | DTTInfo _ => 20
  | DStems _ => 21
  | DZones _ => 22
  | DDeltas _ => 23
  | DVdmx _ => 24
  | DNames _ => 25
  | DLines _ => 26
  | DBackground _ => 27
  | DBitmaps _ => 28
  | DAnchors _ => 29
  | DAnchorProps _ => 30
  | DGdef _ => 31
  | DPair _ => 32
  | DOrigin _ => 33
  | DSketch _ => 34
  | DLinks _ => 35
  | DPairs _ => 36
  | DGuides _ => 37
  | DGuideProps _ => 38
  | DGlyph _ => 39
  | DGlobalMask _ => 40
  | DMask _ => 41
  | DFontOptions _ => 42
  | DInstances _ => 43
  end.

Section data.
  Variable number : fval -> option pystr.
  Hypothesis Hbits : forall a b t, number (Bits a) = Some t -> number (Bits b) = Some t -> a = b.
  Hypothesis Hnums : forall a b t, number (Num a) = Some t -> number (Num b) = Some t -> a = b.
  Notation shown := (shown number). Notation finite := (finite number).

  Definition inj {A} (f : A -> pyval) : Prop := forall a b, shown (f a) = shown (f b) -> finite (f a) = true -> a = b.

  Lemma inj_int : inj PInt.
  Proof. intros a b E _. injection E as E. exact E. Qed.
  Lemma inj_str : inj PStr.
  Proof. intros a b E _. injection E as E. exact E. Qed.
  Lemma inj_double : inj pdouble.
  Proof.
    intros a b E F. unfold pdouble in *. cbn [S_Dump.shown S_Dump.finite] in *. destruct (number (Bits a)) as [t|] eqn:Ea; [|discriminate].
    destruct (number (Bits b)) as [u|] eqn:Eb; [|discriminate]. injection E as E. subst. eapply Hbits; eassumption.
  Qed.
  Lemma inj_float : inj (fun x => PFloat (Num x)).
  Proof.
    intros a b E F. cbn [S_Dump.shown S_Dump.finite] in *. destruct (number (Num a)) as [t|] eqn:Ea; [|discriminate].
    destruct (number (Num b)) as [u|] eqn:Eb; [|discriminate]. injection E as E. subst. eapply Hnums; eassumption.
  Qed.
  Lemma inj_map : forall A (f : A -> pyval), inj f -> forall l m, map (fun x => shown (f x)) l = map (fun x => shown (f x)) m ->
    forallb (fun x => finite (f x)) l = true -> l = m.
  Proof.
    intros A f I. induction l as [|a l IH]; intros [|b m] E F; try discriminate; [reflexivity|]. cbn [map forallb] in E, F.
    apply andb_prop in F. destruct F as (F1 & F2). injection E as E1 E2. f_equal; [now apply I|now apply IH].
  Qed.
  Lemma forallb_map : forall A B (f : A -> B) p l, forallb p (map f l) = forallb (fun x => p (f x)) l.
  Proof. intros A B f p l. induction l as [|a l IH]; [reflexivity|]. cbn [map forallb]. now rewrite IH. Qed.
  Lemma inj_plist : forall A (f : A -> pyval), inj f -> inj (plist f).
  Proof.
    intros A f I l m E F. unfold plist in *. cbn [S_Dump.shown S_Dump.finite] in *. injection E as E. rewrite !map_map in E. rewrite forallb_map in F.
    now apply (inj_map A f).
  Qed.
  Lemma inj_dict : forall K A (k : K -> pystr) (f : A -> pyval), (forall a b, k a = k b -> a = b) -> inj f ->
    inj (fun d => PDict (map (fun p => (k (fst p), f (snd p))) d)).
  Proof.
    intros K A k f Hk I l m E F. cbn [S_Dump.shown S_Dump.finite] in *. injection E as E. rewrite !map_map in E. rewrite forallb_map in F. cbn [fst snd] in *.
    revert m E F. induction l as [|[a x] l IH]; intros [|[b y] m] E F; try discriminate; [reflexivity|]. cbn [map forallb fst snd] in E, F.
    apply andb_prop in F. destruct F as (F1 & F2). injection E as E0 E1 E2. f_equal; [|now apply IH]. f_equal; [now apply Hk|now apply I].
  Qed.
  Lemma inj_int_dict : forall A (f : A -> pyval), inj f -> inj (pint_dict f).
  Proof. intros A f I. apply (inj_dict Z A dec_str f dec_str_inj I). Qed.
  Lemma inj_str_dict : forall A (f : A -> pyval), inj f -> inj (pstr_dict f).
  Proof. intros A f I. apply (inj_dict pystr A (fun k => k) f); [auto|assumption]. Qed.
  Hint Resolve inj_int inj_str inj_double inj_float inj_plist inj_int_dict inj_str_dict : inj.
  Lemma inj_ints : inj pints. Proof. unfold pints. auto with inj. Qed.
  Lemma inj_doubles : inj pdoubles. Proof. unfold pdoubles. auto with inj. Qed.
  Lemma inj_strs : inj pstrs. Proof. unfold pstrs. auto with inj. Qed.
  Hint Resolve inj_ints inj_doubles inj_strs : inj.

  Ltac conj := repeat match goal with H : _ && _ = true |- _ => apply andb_prop in H; destruct H end.
  Ltac parts := repeat match goal with
    | H : JsInt _ = JsInt _ |- _ => apply JsInt_eq in H; cbn in H; subst
    | H : JsStr _ = JsStr _ |- _ => apply JsStr_eq in H; cbn in H; subst
    | H : shown (?f ?a) = shown (?f ?b) |- _ =>
        let I := fresh "I" in assert (I : inj f) by (eauto with inj); specialize (I a b H); lapply I; [clear H I; intros H; cbn in H; subst|assumption]
    end.
  Ltac fields := cbn [pd opt map app fst snd S_Dump.shown S_Dump.finite forallb] in *; conj;
    match goal with E : JsDict _ = JsDict _ |- _ => apply JsDict_eq in E | E : JsList _ = JsList _ |- _ => apply JsList_eq in E end;
    repeat match goal with
    | H : (_, _) :: _ = (_, _) :: _ |- _ => apply member_eq in H; destruct H as (? & H)
    | H : _ :: _ = _ :: _ :> list js |- _ => apply item_eq in H; destruct H as (? & H)
    | H : JsDict _ = JsDict _ |- _ => apply JsDict_eq in H
    end; parts; try reflexivity; try congruence.

  Lemma inj_pair : inj ppair.
  Proof. intros [a b] [c d] E _. unfold ppair in E. cbn in E. congruence. Qed.
  Hint Resolve inj_pair : inj.
  Lemma inj_pairs : inj ppairs. Proof. unfold ppairs. auto with inj. Qed.
  Hint Resolve inj_pairs : inj.
  Lemma inj_num : inj pnum.
  Proof.
    intros [a|a] [b|b] E F; unfold pnum in *.
    - cbn in E. congruence.
    - cbn in E. destruct (number (Num b)); discriminate.
    - cbn in E. destruct (number (Num a)); discriminate.
    - f_equal. now apply inj_float.
  Qed.
  Hint Resolve inj_num : inj.
  Lemma inj_mapping_mode : inj mapping_mode_py.
  Proof. intros [] [] E F. unfold mapping_mode_py in *. fields. Qed.
  Lemma inj_option : inj option_py.
  Proof. intros [] [] E F; cbn in E; congruence. Qed.
  Lemma inj_cmap : inj cmap_py.
  Proof. intros [] [] E F. unfold cmap_py in *. fields. Qed.
  Lemma inj_kern_pair : inj kern_pair_py.
  Proof. intros [] [] E F. unfold kern_pair_py in *. fields. Qed.
  Lemma inj_fl_version : inj fl_version_py.
  Proof. intros [] [] E F. unfold fl_version_py in *. fields. Qed.
  Lemma inj_binary_table : inj binary_table_py.
  Proof. intros [] [] E F. unfold binary_table_py in *. fields. Qed.
  Lemma inj_pclt : inj pclt_py.
  Proof. intros [] [] E F. unfold pclt_py in *. fields. Qed.
  Lemma inj_ps_info : inj ps_info_py.
  Proof. intros [] [] E F. unfold ps_info_py in *. fields. Qed.
  Lemma inj_ps_options : inj ps_options_py.
  Proof.
    intros [a x] [b y] E F. unfold ps_options_py in *. cbn [po_named po_other S_Dump.shown S_Dump.finite] in *. injection E as E. rewrite !map_app in E.
    rewrite forallb_app in F. apply andb_prop in F. destruct F as (F1 & F2). apply app_inj_tail in E. destruct E as (E1 & E2).
    cbn [map forallb fst snd] in *. apply (f_equal snd) in E2. cbn [snd] in E2. conj. parts. f_equal.
    apply (inj_str_dict Z PInt inj_int); [unfold pstr_dict; cbn [S_Dump.shown]; now f_equal|exact F1].
  Qed.
  Lemma inj_gasp : inj gasp_py.
  Proof. intros [] [] E F. unfold gasp_py in *. fields. Qed.
  Lemma inj_tt_value : inj tt_value_py.
  Proof.
    intros [] [] E F; unfold tt_value_py in *; try discriminate; try (cbn in E; congruence); try solve [fields]. parts. congruence.
  Qed.
  Lemma inj_tt_stem : inj tt_stem_py.
  Proof. intros [[] [] [] r] [[] [] [] r'] E F; unfold tt_stem_py in *; cbn [ts_value ts_name ts_stem ts_round] in *; try discriminate; fields. Qed.
  Hint Resolve inj_mapping_mode inj_option inj_cmap inj_kern_pair inj_fl_version inj_binary_table inj_pclt inj_ps_info inj_ps_options
    inj_gasp inj_tt_value inj_tt_stem : inj.
  Lemma inj_tt_stems : inj tt_stems_py.
  Proof. intros [] [] E F. unfold tt_stems_py in *. fields. Qed.
  Lemma inj_tt_zone : inj tt_zone_py.
  Proof. intros [] [] E F. unfold tt_zone_py in *. fields. Qed.
  Hint Resolve inj_tt_stems inj_tt_zone : inj.
  Lemma inj_tt_zones : inj tt_zones_py.
  Proof. intros [[] []] [[] []] E F; unfold tt_zones_py in *; cbn [tz_top tz_bottom] in *; try discriminate; fields. Qed.
  Lemma inj_vdmx : inj vdmx_py.
  Proof. intros [] [] E F. unfold vdmx_py in *. fields. Qed.
  Lemma inj_name_record : inj name_record_py.
  Proof. intros [] [] E F. unfold name_record_py in *. fields. Qed.
  Lemma inj_bitmap : inj bitmap_py.
  Proof. intros [v1 []] [v2 []] E F; unfold bitmap_py in *; cbn [bm_data bm_preview] in *; try discriminate; fields. Qed.
  Hint Resolve inj_tt_zones inj_vdmx inj_name_record inj_bitmap : inj.
  Lemma inj_background : inj background_py.
  Proof. intros [] [] E F. unfold background_py in *. fields. Qed.
  Lemma inj_glyph_bitmap : inj glyph_bitmap_py.
  Proof. intros [] [] E F. unfold glyph_bitmap_py in *. fields. Qed.
  Lemma inj_anchor : inj anchor_py.
  Proof. intros [] [] E F. unfold anchor_py in *. fields. Qed.
  Lemma inj_anchor_props : inj anchor_props_py.
  Proof. intros [[] []] [[] []] E F; unfold anchor_props_py in *; cbn [ap_hue ap_data] in *; try discriminate; fields. Qed.
  Lemma inj_gdef_anchor : inj gdef_anchor_py.
  Proof. intros [[] v1 v2] [[] v3 v4] E F; unfold gdef_anchor_py in *; cbn [ga_name ga_x ga_y] in *; try discriminate; fields. Qed.
  Hint Resolve inj_background inj_glyph_bitmap inj_anchor inj_anchor_props inj_gdef_anchor : inj.
  Lemma inj_origin : inj origin_py.
  Proof. intros [] [] E F. unfold origin_py in *. fields. Qed.
  Lemma inj_sketch : inj sketch_py.
  Proof. intros [[] v1] [[] v2] E F. unfold sketch_py in *. fields. Qed.
  Lemma inj_links : inj links_py.
  Proof. intros [] [] E F. unfold links_py in *. fields. Qed.
  Lemma inj_guide : inj guide_py.
  Proof. intros [] [] E F. unfold guide_py in *. fields. Qed.
  Hint Resolve inj_origin inj_sketch inj_links inj_guide : inj.
  Lemma inj_guides : inj guides_py.
  Proof. intros [] [] E F. unfold guides_py in *. fields. Qed.
  Lemma inj_guide_prop : inj guide_prop_py.
  Proof. intros [v1 [] []] [v2 [] []] E F; unfold guide_prop_py in *; cbn [gp_index gp_color gp_name] in *; try discriminate; fields. Qed.
  Hint Resolve inj_guides inj_guide_prop : inj.
  Lemma inj_guide_props : inj guide_props_py.
  Proof. intros [] [] E F. unfold guide_props_py in *. fields. Qed.
  Lemma inj_path_cmd : inj path_cmd_py.
  Proof. intros [] [] E F; try reflexivity; discriminate. Qed.
  Hint Resolve inj_guide_props inj_path_cmd : inj.
  Lemma inj_node : inj node_py.
  Proof. intros [] [] E F. unfold node_py in *. fields. Qed.
  Lemma inj_hint : inj hint_py.
  Proof. intros [] [] E F. unfold hint_py in *. fields. Qed.
  Lemma inj_hintmask : inj hintmask_py.
  Proof. intros [] [] E F. unfold hintmask_py in *. fields. Qed.
  Hint Resolve inj_node inj_hint inj_hintmask : inj.
  Lemma inj_hints : inj hints_py.
  Proof. intros [v1 v2 []] [v3 v4 []] E F; unfold hints_py in *; cbn [mh_h mh_v mh_masks] in *; try discriminate; fields. Qed.
  Lemma inj_component : inj component_py.
  Proof. intros [] [] E F. unfold component_py in *. fields. Qed.
  Lemma inj_binary_node : inj binary_node_py.
  Proof. intros [] [] E F. unfold binary_node_py in *. fields. Qed.
  Lemma inj_instruction : inj instruction_py.
  Proof. intros [] [] E F. unfold instruction_py in *. fields. Qed.
  Lemma inj_outlines : inj (fun m => PDict (outlines_py m)).
  Proof. intros [v1 []] [v2 []] E F; unfold outlines_py in *; cbn [mo_num_masters mo_nodes] in *; try discriminate; fields. Qed.
  Lemma inj_mask : inj mask_py.
  Proof. intros [v1 [v2 []]] [v3 [v4 []]] E F; unfold mask_py, outlines_py in *; cbn [mk_weight_vector mk_outlines mo_num_masters mo_nodes] in *; try discriminate; fields. Qed.
  Lemma inj_opt_val : inj opt_val_py.
  Proof.
    intros [a|a|a] [b|b|b] E F; unfold opt_val_py in *; try (cbn in E; destruct (number _); discriminate); try discriminate.
    - cbn in E. congruence.
    - f_equal. now apply inj_float.
    - parts. congruence.
  Qed.
  Lemma inj_instance : inj instance_py.
  Proof. intros [] [] E F. unfold instance_py in *. fields. Qed.
  Hint Resolve inj_hints inj_component inj_binary_node inj_instruction inj_outlines inj_mask inj_opt_val inj_instance : inj.

  (** ** Dicts whose order is not known *)
  Definition flat (S : list (pystr * option pyval)) : list (pystr * pyval) :=
    flat_map (fun p => match snd p with Some v => [(fst p, v)] | None => [] end) S.
  Lemma flat_keys : forall S k, In k (map fst (flat S)) -> In k (map fst S).
  Proof.
    induction S as [|[k' [v|]] S IH]; intros k H; cbn in *; [assumption| |now right; apply IH]. destruct H as [H|H]; [now left|right; now apply IH].
  Qed.
  Lemma flat_nodup : forall S, NoDup (map fst S) -> NoDup (map fst (flat S)).
  Proof.
    induction S as [|[k [v|]] S IH]; intros N; cbn in *; [constructor| |apply IH; now inversion N]. apply NoDup_cons_iff in N. destruct N as (N1 & N2).
    constructor; [|now apply IH]. intros H. apply N1. now apply flat_keys.
  Qed.
  Lemma flat_get : forall S k o, NoDup (map fst S) -> In (k, o) S -> aget str_eqb k (flat S) = o.
  Proof.
    intros S k o N H. induction S as [|[k' o'] S IH]; [destruct H|]. cbn [map fst] in N. apply NoDup_cons_iff in N. destruct N as (N1 & N2).
    destruct H as [H|H].
    - injection H as -> ->. destruct o as [v|]; cbn [flat flat_map snd fst app].
      + cbn [aget]. now rewrite (proj2 (str_eqb_eq k k) eq_refl).
      + apply aget_None; [apply str_eqb_eq|]. intros H. apply N1. now apply flat_keys.
    - assert (k <> k') by (intros ->; apply N1; now apply (in_map fst _ _ H)).
      destruct o' as [v|]; cbn [flat flat_map snd fst app]; [|now apply IH]. cbn [aget]. destruct (str_eqb k k') eqn:E; [apply str_eqb_eq in E; congruence|now apply IH].
  Qed.
  Lemma perm_get : forall (d e : list (pystr * pyval)) k, NoDup (map fst e) -> Permutation d e -> aget str_eqb k d = aget str_eqb k e.
  Proof.
    intros d e k N P. assert (N' : NoDup (map fst d)) by (eapply Permutation_NoDup; [apply Permutation_sym, Permutation_map; exact P|exact N]).
    destruct (aget str_eqb k e) as [v|] eqn:E.
    - apply In_aget; [apply str_eqb_eq|assumption|]. eapply Permutation_in; [apply Permutation_sym; exact P|]. eapply aget_In; [apply str_eqb_eq|exact E].
    - apply aget_None; [apply str_eqb_eq|]. apply aget_None in E; [|apply str_eqb_eq]. intros H. apply E. eapply Permutation_in; [apply Permutation_map; exact P|exact H].
  Qed.
  (** two dicts that are shown the same have the same values of keys *)
  Lemma shown_get : forall d e k, map (fun p => (fst p, shown (snd p))) d = map (fun p => (fst p, shown (snd p))) e ->
    option_map shown (aget str_eqb k d) = option_map shown (aget str_eqb k e).
  Proof.
    induction d as [|[a x] d IH]; intros [|[b y] e] k E; try discriminate; [reflexivity|]. cbn [map fst snd] in E.
    assert (a = b) by congruence. assert (shown x = shown y) by congruence. subst b. cbn [aget]. destruct (str_eqb k a); [cbn; congruence|].
    apply IH. congruence.
  Qed.
  Lemma finite_get : forall d k x, forallb (fun p => finite (snd p)) d = true -> aget str_eqb k d = Some x -> finite x = true.
  Proof.
    intros d k x F H. apply aget_In in H; [|apply str_eqb_eq]. rewrite forallb_forall in F. exact (F _ H).
  Qed.
  Lemma flat_same : forall S S' d e, NoDup (map fst S) -> map fst S = map fst S' -> Permutation d (flat S) -> Permutation e (flat S') ->
    shown (PDict d) = shown (PDict e) -> finite (PDict d) = true ->
    forall k o o', In (k, o) S -> In (k, o') S' -> option_map shown o = option_map shown o' /\ (forall x, o = Some x -> finite x = true).
  Proof.
    intros S S' d e N ES Pd Pe E F k o o' H H'. apply JsDict_eq in E. cbn [S_Dump.finite] in F. assert (N' : NoDup (map fst S')) by (rewrite <- ES; assumption).
    pose proof (shown_get d e k E) as G. pose proof (finite_get d k) as Fg.
    rewrite (perm_get d (flat S)) in * by (try assumption; now apply flat_nodup). rewrite (perm_get e (flat S')) in G by (try assumption; now apply flat_nodup).
    rewrite (flat_get S k o N H) in *. rewrite (flat_get S' k o' N' H') in G. split; [assumption|]. intros x Hx. now apply Fg.
  Qed.
  Lemma field_inj : forall A (f : A -> pyval) a b, inj f -> option_map shown (option_map f a) = option_map shown (option_map f b) ->
    (forall x, option_map f a = Some x -> finite x = true) -> a = b.
  Proof.
    intros A f [a|] [b|] I E F; try discriminate; [|reflexivity]. cbn in E. f_equal. apply I; [congruence|now apply F].
  Qed.

  Lemma opt_flat : forall A k (f : A -> pyval) x l, opt k f x ++ flat l = flat ((py k, option_map f x) :: l).
  Proof. intros A k f [a|] l; reflexivity. Qed.
  Lemma opt_flat1 : forall A k (f : A -> pyval) x, opt k f x = flat [(py k, option_map f x)].
  Proof. intros A k f [a|]; reflexivity. Qed.
  Definition glyph_fields (g : glyph) (imp : option pyval) : list (pystr * option pyval) :=
    [(py "name", option_map PStr (g_name g)); (py "num_masters", option_map PInt (g_num_masters g));
     (py "nodes", option_map (plist node_py) (g_nodes g)); (py "metrics", option_map ppairs (g_metrics g));
     (py "hints", option_map hints_py (g_hints g)); (py "guides", option_map guides_py (g_guides g));
     (py "components", option_map (plist component_py) (g_components g)); (py "kerning", option_map (pint_dict pints) (g_kerning g));
     (py "imported", imp); (py "tth", option_map (plist instruction_py) (g_tth g))].
  Lemma glyph_items_flat : forall g imp, glyph_items g imp = flat (glyph_fields g imp).
  Proof.
    intros g imp. unfold glyph_items, glyph_fields. rewrite (opt_flat1 _ "tth"), !opt_flat. destruct imp; reflexivity.
  Qed.
  Definition imported_fields (i : imported) : list (pystr * option pyval) :=
    [(py "width", option_map (fun m => PInt (ib_width m)) (im_metrics i)); (py "lsb", option_map (fun m => PInt (ib_lsb m)) (im_metrics i));
     (py "unknown1", option_map (fun m => PInt (ib_unknown1 m)) (im_metrics i)); (py "unknown2", option_map (fun m => PInt (ib_unknown2 m)) (im_metrics i));
     (py "unknown3", option_map (fun m => PInt (ib_unknown3 m)) (im_metrics i)); (py "bbox", option_map (fun m => pints (ib_bbox m)) (im_metrics i));
     (py "num_contours", option_map (fun p => PInt (fst p)) (im_contours i)); (py "endpoints", option_map (fun p => pints (snd p)) (im_contours i));
     (py "nodes", option_map (plist binary_node_py) (im_nodes i)); (py "instructions", option_map pstrs (im_instructions i));
     (py "hdmx", option_map pints (im_hdmx i))].
  Lemma imported_items_flat : forall i, imported_items i = flat (imported_fields i).
  Proof.
    intros [[m|] [[c l]|] n a h]; unfold imported_items, imported_fields; cbn [im_metrics im_contours im_nodes im_instructions im_hdmx];
      rewrite (opt_flat1 _ "hdmx"), !opt_flat; reflexivity.
  Qed.
  Ltac nodup := repeat (apply NoDup_cons; [cbn; intros ?; repeat match goal with H : _ \/ _ |- _ => destruct H as [H|H]; [discriminate H|] end; assumption|]); apply NoDup_nil.
  Definition gdef_fields (g : gdef) : list (pystr * option pyval) :=
    [(py "glyph_class", option_map PStr (gd_class g)); (py "anchors", option_map (plist gdef_anchor_py) (gd_anchors g));
     (py "carets", option_map ppairs (gd_carets g)); (py "ot_classes", option_map pints (gd_ot_classes g))].
  Ltac field G k E := let F := fresh in destruct (G (py k) _ _ ltac:(cbn; tauto) ltac:(cbn; tauto)) as (E & F); apply field_inj in E; [|auto with inj|exact F]; clear F.
  Lemma inj_gdef : inj gdef_py.
  Proof.
    intros g g' E F. assert (X : forall g, gdef_py g = PDict (flat (gdef_fields g))).
    { intros h. unfold gdef_py, gdef_fields. now rewrite (opt_flat1 _ "ot_classes"), !opt_flat. }
    rewrite X in E, F. rewrite X in E. clear X. assert (N : NoDup (map fst (gdef_fields g))) by (cbn [map fst gdef_fields]; nodup).
    pose proof (flat_same _ _ _ _ N (eq_refl : map fst (gdef_fields g) = map fst (gdef_fields g')) (Permutation_refl _) (Permutation_refl _) E F) as G. clear N E F.
    field G "glyph_class"%string E1. field G "anchors"%string E2. field G "carets"%string E3. field G "ot_classes"%string E4.
    destruct g, g'; cbn in *; congruence.
  Qed.
  Hint Resolve inj_gdef : inj.
  Lemma imported_inj : forall i i' l l', Permutation l (imported_items i) -> Permutation l' (imported_items i') -> shown (PDict l) = shown (PDict l') ->
    finite (PDict l) = true -> i = i'.
  Proof.
    intros i i' l l' P P' E F. rewrite imported_items_flat in P, P'.
    assert (N : NoDup (map fst (imported_fields i))) by (cbn [map fst imported_fields]; nodup).
    pose proof (flat_same _ _ _ _ N (eq_refl : map fst (imported_fields i) = map fst (imported_fields i')) P P' E F) as G. clear N P P' E F.
    assert (M : im_metrics i = im_metrics i').
    { destruct (G (py "width") _ _ ltac:(cbn; tauto) ltac:(cbn; tauto)) as (E1 & _).
      destruct (G (py "lsb") _ _ ltac:(cbn; tauto) ltac:(cbn; tauto)) as (E2 & _).
      destruct (G (py "unknown1") _ _ ltac:(cbn; tauto) ltac:(cbn; tauto)) as (E3 & _).
      destruct (G (py "unknown2") _ _ ltac:(cbn; tauto) ltac:(cbn; tauto)) as (E4 & _).
      destruct (G (py "unknown3") _ _ ltac:(cbn; tauto) ltac:(cbn; tauto)) as (E5 & _).
      destruct (G (py "bbox") _ _ ltac:(cbn; tauto) ltac:(cbn; tauto)) as (E6 & F6).
      destruct (im_metrics i) as [[a1 a2 a3 a4 a5 a6]|], (im_metrics i') as [[b1 b2 b3 b4 b5 b6]|]; try discriminate; [|reflexivity].
      cbn [option_map ib_width ib_lsb ib_unknown1 ib_unknown2 ib_unknown3 ib_bbox] in *. apply (f_equal (fun o => match o with Some x => x | None => JsNull end)) in E6.
      assert (a6 = b6) by (apply inj_ints; [exact E6|now apply F6]). cbn in *. congruence. }
    assert (C : im_contours i = im_contours i').
    { destruct (G (py "num_contours") _ _ ltac:(cbn; tauto) ltac:(cbn; tauto)) as (E1 & _).
      destruct (G (py "endpoints") _ _ ltac:(cbn; tauto) ltac:(cbn; tauto)) as (E6 & F6).
      destruct (im_contours i) as [[a1 a2]|], (im_contours i') as [[b1 b2]|]; try discriminate; [|reflexivity].
      cbn [option_map fst snd] in *. apply (f_equal (fun o => match o with Some x => x | None => JsNull end)) in E6.
      assert (a2 = b2) by (apply inj_ints; [exact E6|now apply F6]). cbn in *. congruence. }
    destruct (G (py "nodes") _ _ ltac:(cbn; tauto) ltac:(cbn; tauto)) as (E1 & F1). apply field_inj in E1; [|auto with inj|assumption].
    destruct (G (py "instructions") _ _ ltac:(cbn; tauto) ltac:(cbn; tauto)) as (E2 & F2). apply field_inj in E2; [|auto with inj|assumption].
    destruct (G (py "hdmx") _ _ ltac:(cbn; tauto) ltac:(cbn; tauto)) as (E3 & F3). apply field_inj in E3; [|auto with inj|assumption].
    destruct i, i'; cbn in *; congruence.
  Qed.
  Lemma glyph_inj : forall g g' t t', glyph_py g t -> glyph_py g' t' -> shown t = shown t' -> finite t = true -> g = g'.
  Proof.
    intros g g' t t' (imp & d & -> & P & I) (imp' & d' & -> & P' & I') E F. rewrite glyph_items_flat in P, P'.
    assert (N : NoDup (map fst (glyph_fields g imp))) by (cbn [map fst glyph_fields]; nodup).
    pose proof (flat_same _ _ _ _ N (eq_refl : map fst (glyph_fields g imp) = map fst (glyph_fields g' imp')) P P' E F) as G. clear N P P' E F.
    field G "name"%string E1. field G "num_masters"%string E2. field G "nodes"%string E3. field G "metrics"%string E4. field G "hints"%string E5.
    field G "guides"%string E6. field G "components"%string E7. field G "kerning"%string E8. field G "tth"%string E9.
    destruct (G (py "imported") imp imp' ltac:(cbn; tauto) ltac:(cbn; tauto)) as (E0 & F0). clear G.
    assert (Ei : g_imported g = g_imported g').
    { destruct (g_imported g) as [i|], (g_imported g') as [i'|], imp as [x|], imp' as [x'|]; try contradiction; try discriminate; [|reflexivity].
      destruct I as (l & -> & P), I' as (l' & -> & P'). f_equal. eapply imported_inj; [exact P|exact P'| |now apply F0].
      apply (f_equal (fun o => match o with Some x => x | None => JsNull end)) in E0. exact E0. }
    destruct g, g'; cbn in *; congruence.
  Qed.
  Hint Resolve inj_tt_stems inj_tt_zones : inj.
  Lemma inj_encoding : inj (fun x => PList [PInt (fst x); PStr (snd x)]).
  Proof. intros [a b] [c d] E F. cbn in E. congruence. Qed.
  Lemma inj_double_pair : inj (fun p => PList [pdouble (fst p); pdouble (snd p)]).
  Proof.
    intros [a b] [c d] E F. cbn [fst snd] in *. change (shown (PList [pdouble a; pdouble b])) with (JsList [shown (pdouble a); shown (pdouble b)]) in E.
    change (shown (PList [pdouble c; pdouble d])) with (JsList [shown (pdouble c); shown (pdouble d)]) in E. cbn [S_Dump.finite forallb] in F. conj.
    apply JsList_eq in E. repeat match goal with H : _ :: _ = _ :: _ :> list js |- _ => apply item_eq in H; destruct H as (? & H) end. parts. reflexivity.
  Qed.
  Lemma inj_location : inj (fun x => PList [PInt (fst x); pdoubles (snd x)]).
  Proof. intros [a b] [c d] E F. cbn [fst snd] in *. fields. Qed.
  Hint Resolve inj_encoding inj_double_pair inj_location : inj.

  Lemma value_inj : forall v w t u, value_py v t -> value_py w u -> tag v = tag w -> shown t = shown u -> finite t = true -> v = w.
  Proof.
    assert (G : forall A (f : A -> pyval) a b, inj f -> shown (f a) = shown (f b) -> finite (f a) = true -> a = b) by (intros A f a b I; apply I).
    intros v w t u V W T E F. destruct v, w; try discriminate T; f_equal; try (eapply glyph_inj; eassumption); clear T;
      cbn [value_py plain_py] in V, W; subst t u;
      first [ exact (inj_encoding _ _ E F) | exact (inj_location _ _ E F) | exact (inj_outlines _ _ E F) | (eapply G; [|exact E|exact F]; solve [auto with inj|apply inj_str_dict; auto with inj])].
  Qed.
End data.
