(** Proofs about the keys of dicts in the JSON of a file (C97). *)
From Coq Require Import ZifyBool ZifyNat String Permutation.
From Verif Require Import Base M_Stream M_Py M_Helpers M_Text M_Simple M_Bitmap M_TrueType M_Glyph M_Float M_Options
  M_Container M_Table M_Tools M_Json S_Json S_Dump S_Keys Lib P_Dec P_Glyph3 P_JsonData P_JsonFile.
Local Open Scope list_scope.

(** ** Python values with distinct keys *)
Fixpoint keyed (v : pyval) : Prop :=
  match v with
  | PList l => fold_right (fun x p => keyed x /\ p) True l
  | PDict d => NoDup (map fst d) /\ fold_right (fun m p => keyed (snd m) /\ p) True d
  | _ => True
  end.
Lemma fold_and : forall A (P : A -> Prop) l, fold_right (fun x p => P x /\ p) True l <-> Forall P l.
Proof.
  intros A P l. induction l as [|a l IH]; cbn [fold_right]; [split; auto|]. rewrite IH. split.
  - intros (H & F). now constructor.
  - intros F. now apply Forall_cons_iff in F.
Qed.
Lemma keyed_list : forall l, Forall keyed l -> keyed (PList l).
Proof. intros l H. cbn [keyed]. now apply fold_and. Qed.
Lemma keyed_dict : forall d, NoDup (map fst d) -> Forall (fun p => keyed (snd p)) d -> keyed (PDict d).
Proof. intros d N H. cbn [keyed]. split; [assumption|]. now apply (fold_and _ (fun m => keyed (snd m))). Qed.
Lemma pyval_ind2 : forall P : pyval -> Prop, P PNone -> (forall b, P (PBool b)) -> (forall n, P (PInt n)) -> (forall x, P (PFloat x)) -> (forall s, P (PStr s)) ->
  (forall l, Forall P l -> P (PList l)) -> (forall d, Forall (fun p => P (snd p)) d -> P (PDict d)) -> forall v, P v.
Proof.
  intros P H1 H2 H3 H4 H5 H6 H7. fix IH 1. intros [| | | | |l|d]; [apply H1|apply H2|apply H3|apply H4|apply H5| |].
  - apply H6. induction l as [|a l IHl]; constructor; [apply IH|exact IHl].
  - apply H7. induction d as [|[k a] l IHl]; constructor; [apply IH|exact IHl].
Qed.
Lemma keyed_distinct : forall number v, keyed v -> distinct (shown number v).
Proof.
  intros number. induction v as [| | |x| |l IH|d IH] using pyval_ind2; intros K; cbn [shown distinct] in *; auto.
  - destruct (number x); exact Logic.I.
  - cbn [keyed] in K. apply fold_and in K. apply fold_and. rewrite Forall_map. rewrite Forall_forall in *. intros a Ha. apply IH; auto.
  - cbn [keyed] in K. destruct K as (N & K). split; [now rewrite map_map|]. apply (fold_and _ (fun m => keyed (snd m))) in K.
    apply (fold_and _ (fun m => distinct (snd m))). rewrite Forall_map. rewrite Forall_forall in *. intros a Ha. cbn [snd]. apply IH; auto.
Qed.
Lemma keyed_plist : forall A (f : A -> pyval) l, (forall a, keyed (f a)) -> keyed (plist f l).
Proof. intros A f l H. apply keyed_list. apply Forall_map, Forall_forall. auto. Qed.
Lemma keyed_plist_in : forall A (f : A -> pyval) l, Forall (fun a => keyed (f a)) l -> keyed (plist f l).
Proof. intros A f l H. apply keyed_list. now apply Forall_map. Qed.
Lemma keyed_str_dict : forall A (f : A -> pyval) d, NoDup (map fst d) -> Forall (fun p => keyed (f (snd p))) d -> keyed (pstr_dict f d).
Proof. intros A f d N H. apply keyed_dict; [now rewrite map_map|]. now apply Forall_map. Qed.
Lemma nodup_map : forall A B (f : A -> B) l, (forall a b, f a = f b -> a = b) -> NoDup l -> NoDup (map f l).
Proof. intros A B f l I N. apply FinFun.Injective_map_NoDup; [exact I|exact N]. Qed.
Lemma keyed_int_dict : forall A (f : A -> pyval) d, NoDup (map fst d) -> Forall (fun p => keyed (f (snd p))) d -> keyed (pint_dict f d).
Proof.
  intros A f d N H. apply keyed_dict; [|now apply Forall_map]. rewrite map_map. cbn [fst]. rewrite <- (map_map fst dec_str).
  apply nodup_map; [exact dec_str_inj|exact N].
Qed.
Lemma all_true : forall A (P : A -> Prop) l, (forall a, P a) -> Forall P l.
Proof. intros. apply Forall_forall. auto. Qed.

(** ** Data of fixed keys *)
Lemma keyed_int : forall z, keyed (PInt z). Proof. intros. exact Logic.I. Qed.
Lemma keyed_str : forall z, keyed (PStr z). Proof. intros. exact Logic.I. Qed.
Lemma keyed_float : forall z, keyed (PFloat z). Proof. intros. exact Logic.I. Qed.
Lemma keyed_double : forall z, keyed (pdouble z). Proof. intros. exact Logic.I. Qed.
Create HintDb keyed.
#[local] Hint Resolve keyed_int keyed_str keyed_float keyed_double keyed_plist all_true : keyed.
Lemma keyed_ints : forall l, keyed (pints l). Proof. intros. apply keyed_plist. auto with keyed. Qed.
Lemma keyed_doubles : forall l, keyed (pdoubles l). Proof. intros. apply keyed_plist. auto with keyed. Qed.
Lemma keyed_strs : forall l, keyed (pstrs l). Proof. intros. apply keyed_plist. auto with keyed. Qed.
Lemma keyed_pair : forall p, keyed (ppair p). Proof. intros. cbn. auto. Qed.
#[local] Hint Resolve keyed_ints keyed_doubles keyed_strs keyed_pair : keyed.
Lemma keyed_pairs : forall l, keyed (ppairs l). Proof. intros. apply keyed_plist. auto with keyed. Qed.
Lemma keyed_num : forall x, keyed (pnum x). Proof. intros []; exact Logic.I. Qed.
#[local] Hint Resolve keyed_pairs keyed_num : keyed.
Ltac nodup := cbn [map fst app]; repeat (apply NoDup_cons; [cbn; intros ?; repeat match goal with H : _ \/ _ |- _ => destruct H as [H|H]; [discriminate H|] end; assumption|]); apply NoDup_nil.
Ltac members := cbn [map snd app]; repeat (apply Forall_cons; [cbn [snd]; auto with keyed|]); apply Forall_nil.
Ltac rec := unfold pd; cbn [opt map fst snd app]; apply keyed_dict; [nodup|members].
Lemma keyed_mapping_mode : forall x, keyed (mapping_mode_py x). Proof. intros. rec. Qed.
Lemma keyed_option : forall x, keyed (option_py x). Proof. intros []; exact Logic.I. Qed.
Lemma keyed_cmap : forall x, keyed (cmap_py x). Proof. intros. rec. Qed.
Lemma keyed_kern_pair : forall x, keyed (kern_pair_py x). Proof. intros. rec. Qed.
Lemma keyed_fl_version : forall x, keyed (fl_version_py x). Proof. intros. rec. Qed.
Lemma keyed_binary_table : forall x, keyed (binary_table_py x). Proof. intros. rec. Qed.
Lemma keyed_pclt : forall x, keyed (pclt_py x). Proof. intros. rec. Qed.
Lemma keyed_ps_info : forall x, keyed (ps_info_py x).
Proof.
  intros. assert (B : forall a b c d, keyed (pd [("xMin", PInt a); ("yMin", PInt b); ("xMax", PInt c); ("yMax", PInt d)]%string)) by (intros; rec).
  unfold ps_info_py. match goal with |- context [pd [("xMin", ?a); ("yMin", ?b); ("xMax", ?c); ("yMax", ?d)]%string] => specialize (B (ps_xMin x) (ps_yMin x) (ps_xMax x) (ps_yMax x)); set (bb := pd _) in B |- * end.
  rec.
Qed.
Lemma keyed_gasp : forall x, keyed (gasp_py x). Proof. intros. rec. Qed.
Lemma keyed_tt_value : forall x, keyed (tt_value_py x). Proof. intros [|f o|l|a b]; unfold tt_value_py; auto with keyed; rec. Qed.
Lemma keyed_tt_zone : forall x, keyed (tt_zone_py x). Proof. intros. rec. Qed.
#[local] Hint Resolve keyed_mapping_mode keyed_option keyed_cmap keyed_kern_pair keyed_fl_version keyed_binary_table keyed_pclt keyed_ps_info keyed_gasp
  keyed_tt_value keyed_tt_zone : keyed.
Lemma keyed_tt_zones : forall x, keyed (tt_zones_py x). Proof. intros [[t|] [b|]]; unfold tt_zones_py; cbn [tz_top tz_bottom]; rec. Qed.
Lemma keyed_vdmx : forall x, keyed (vdmx_py x). Proof. intros. rec. Qed.
Lemma keyed_name_record : forall x, keyed (name_record_py x). Proof. intros. cbn. tauto. Qed.
Lemma keyed_bitmap : forall x, keyed (bitmap_py x). Proof. intros [d [p|]]; unfold bitmap_py; cbn [bm_data bm_preview]; rec. Qed.
#[local] Hint Resolve keyed_tt_zones keyed_vdmx keyed_name_record keyed_bitmap : keyed.
Lemma keyed_background : forall x, keyed (background_py x). Proof. intros. rec. Qed.
Lemma keyed_glyph_bitmap : forall x, keyed (glyph_bitmap_py x). Proof. intros. rec. Qed.
Lemma keyed_anchor : forall x, keyed (anchor_py x). Proof. intros. rec. Qed.
Lemma keyed_anchor_props : forall x, keyed (anchor_props_py x). Proof. intros [[h|] [d|]]; unfold anchor_props_py; cbn [ap_hue ap_data]; rec. Qed.
Lemma keyed_gdef_anchor : forall x, keyed (gdef_anchor_py x). Proof. intros [[n|] x y]; unfold gdef_anchor_py; cbn [ga_name ga_x ga_y]; rec. Qed.
#[local] Hint Resolve keyed_background keyed_glyph_bitmap keyed_anchor keyed_anchor_props keyed_gdef_anchor : keyed.
Lemma keyed_gdef : forall x, keyed (gdef_py x).
Proof. intros [[a|] [b|] [c|] [d|]]; unfold gdef_py; cbn [gd_class gd_anchors gd_carets gd_ot_classes]; rec. Qed.
Lemma keyed_origin : forall x, keyed (origin_py x). Proof. intros. rec. Qed.
Lemma keyed_sketch : forall x, keyed (sketch_py x). Proof. intros [[a b] c]. cbn. tauto. Qed.
Lemma keyed_links : forall x, keyed (links_py x). Proof. intros. rec. Qed.
Lemma keyed_guide : forall x, keyed (guide_py x). Proof. intros. rec. Qed.
#[local] Hint Resolve keyed_gdef keyed_origin keyed_sketch keyed_links keyed_guide : keyed.
Lemma keyed_guides : forall x, keyed (guides_py x). Proof. intros. rec. Qed.
Lemma keyed_guide_prop : forall x, keyed (guide_prop_py x). Proof. intros [i [c|] [n|]]; unfold guide_prop_py; cbn [gp_index gp_color gp_name]; rec. Qed.
#[local] Hint Resolve keyed_guides keyed_guide_prop : keyed.
Lemma keyed_guide_props : forall x, keyed (guide_props_py x). Proof. intros. rec. Qed.
Lemma keyed_path_cmd : forall x, keyed (path_cmd_py x). Proof. intros. exact Logic.I. Qed.
#[local] Hint Resolve keyed_guide_props keyed_path_cmd : keyed.
Lemma keyed_node : forall x, keyed (node_py x). Proof. intros. rec. Qed.
Lemma keyed_hint : forall x, keyed (hint_py x). Proof. intros. rec. Qed.
Lemma keyed_hintmask : forall x, keyed (hintmask_py x). Proof. intros. cbn. tauto. Qed.
#[local] Hint Resolve keyed_node keyed_hint keyed_hintmask : keyed.
Lemma keyed_hints : forall x, keyed (hints_py x). Proof. intros [v h [m|]]; unfold hints_py; cbn [mh_v mh_h mh_masks]; rec. Qed.
Lemma keyed_component : forall x, keyed (component_py x). Proof. intros. rec. Qed.
Lemma keyed_binary_node : forall x, keyed (binary_node_py x). Proof. intros. rec. Qed.
Lemma keyed_outlines : forall x, keyed (PDict (outlines_py x)). Proof. intros [n [l|]]; unfold outlines_py; cbn [mo_num_masters mo_nodes]; rec. Qed.
Lemma keyed_mask : forall x, keyed (mask_py x).
Proof. intros [w [n [l|]]]; unfold mask_py, outlines_py; cbn [mk_weight_vector mk_outlines mo_num_masters mo_nodes]; rec. Qed.
Lemma keyed_instance : forall x, keyed (instance_py x). Proof. intros. rec. Qed.
Lemma keyed_header : forall h, keyed (header_py h). Proof. intros. rec. Qed.
#[local] Hint Resolve keyed_hints keyed_component keyed_binary_node keyed_outlines keyed_mask keyed_instance keyed_header : keyed.

(** ** Data whose keys are read from the file *)
Definition stem_ok (s : tt_stem) : Prop := NoDup (map fst (ts_round s)).
Definition instruction_ok (i : instruction) : Prop := NoDup (map fst (in_params i)).
Definition opt_val_ok (v : opt_val) : Prop := match v with ODict d => NoDup (map fst d) | _ => True end.
Definition glyph_ok (g : glyph) : Prop :=
  match g_kerning g with Some k => NoDup (map fst k) | None => True end /\
  match g_tth g with Some l => Forall instruction_ok l | None => True end.
Definition value_ok (v : value) : Prop :=
  match v with
  | DFlags x => NoDup (map fst x)
  | DPSOptions x => NoDup (map fst (po_named x)) /\ ~ In (py "other") (map fst (po_named x))
  | DTTInfo x => NoDup (map fst x)
  | DStems x => Forall stem_ok (tts_v x) /\ Forall stem_ok (tts_h x)
  | DDeltas x => NoDup (map fst x) /\ Forall (fun p => NoDup (map fst (snd p))) x
  | DGlyph g => glyph_ok g
  | DFontOptions x => NoDup (map fst x) /\ Forall (fun p => opt_val_ok (snd p)) x
  | _ => True
  end.
Lemma keyed_stem : forall s, stem_ok s -> keyed (tt_stem_py s).
Proof.
  intros [v n t r] H. unfold stem_ok in H. cbn [ts_round] in H. assert (R : keyed (pint_dict PInt r)) by (apply keyed_int_dict; auto with keyed).
  destruct v, n, t; unfold tt_stem_py; cbn [ts_value ts_name ts_stem ts_round]; rec.
Qed.
Lemma keyed_instruction : forall i, instruction_ok i -> keyed (instruction_py i).
Proof.
  intros i H. assert (P : keyed (pstr_dict PInt (in_params i))) by (apply keyed_str_dict; auto with keyed). unfold instruction_py. rec.
Qed.
Lemma keyed_flat : forall S, NoDup (map fst S) -> Forall (fun p => forall v, snd p = Some v -> keyed v) S -> forall d, Permutation d (flat S) -> keyed (PDict d).
Proof.
  intros S N F d P. apply keyed_dict.
  - eapply Permutation_NoDup; [apply Permutation_sym, Permutation_map; exact P|now apply flat_nodup].
  - eapply Permutation_Forall; [apply Permutation_sym; exact P|]. apply Forall_forall. intros [k v] H. unfold flat in H. apply in_flat_map in H.
    destruct H as ([k' [w|]] & H1 & H2); [|destruct H2]. destruct H2 as [H2|[]]. cbn [fst] in H2. injection H2 as <- <-. rewrite Forall_forall in F.
    exact (F _ H1 _ eq_refl).
Qed.
Lemma keyed_opt : forall A (f : A -> pyval) x, (forall a, x = Some a -> keyed (f a)) -> forall v, option_map f x = Some v -> keyed v.
Proof. intros A f [a|] H v E; [|discriminate]. injection E as <-. auto. Qed.
Lemma keyed_glyph : forall g t, glyph_ok g -> glyph_py g t -> keyed t.
Proof.
  intros g t (K & T) (imp & d & -> & P & I). rewrite glyph_items_flat in P. eapply keyed_flat; [| |exact P]; [cbn [map fst glyph_fields]; nodup|].
  unfold glyph_fields. repeat (apply Forall_cons; [cbn [snd]|]); try apply Forall_nil; try (apply keyed_opt; auto with keyed).
  - intros k E. rewrite E in K. apply keyed_int_dict; auto with keyed.
  - intros v E. subst imp. destruct (g_imported g) as [i|]; [|destruct I]. destruct I as (l & -> & Q). rewrite imported_items_flat in Q.
    eapply keyed_flat; [| |exact Q]; [cbn [map fst imported_fields]; nodup|].
    unfold imported_fields. repeat (apply Forall_cons; [cbn [snd]; apply keyed_opt; auto with keyed|]). apply Forall_nil.
  - intros l E. rewrite E in T. apply keyed_plist_in. eapply Forall_impl; [|exact T]. exact keyed_instruction.
Qed.
Lemma keyed_opt_val : forall v, opt_val_ok v -> keyed (opt_val_py v).
Proof. intros [z|x|d] H; cbn [opt_val_py]; auto with keyed. apply keyed_str_dict; [exact H|]. apply all_true. auto with keyed. Qed.
Lemma keyed_value : forall v t, value_ok v -> value_py v t -> keyed t.
Proof.
  intros v t K V. destruct v; cbn [value_py plain_py value_ok] in *; try (eapply keyed_glyph; eassumption); subst t; auto with keyed.
  - cbn. auto.
  - apply keyed_str_dict; [exact K|]. apply all_true. auto with keyed.
  - apply keyed_plist. intros []. cbn. auto.
  - apply keyed_list. repeat (apply Forall_cons; [auto with keyed|]). apply Forall_nil.
  - destruct K as (N & O). unfold ps_options_py. apply keyed_dict.
    + rewrite map_app, map_map. cbn [map fst]. apply (Permutation_NoDup (Permutation_cons_append _ _)). now constructor.
    + apply Forall_app. split; [|repeat constructor; cbn [snd]; apply keyed_ints]. apply Forall_map, all_true. intros. exact Logic.I.
  - apply keyed_str_dict; [exact K|]. apply all_true. auto with keyed.
  - destruct K as (V & H). assert (keyed (plist tt_stem_py (tts_v x)) /\ keyed (plist tt_stem_py (tts_h x))) as (A & B).
    { split; apply keyed_plist_in; (eapply Forall_impl; [exact keyed_stem|assumption]). }
    unfold tt_stems_py. rec.
  - destruct K as (N & F). apply keyed_int_dict; [exact N|]. eapply Forall_impl; [|exact F]. intros [k d] H. cbn [snd] in *.
    apply keyed_int_dict; [exact H|]. apply all_true. auto with keyed.
  - destruct K as (N & F). apply keyed_str_dict; [exact N|]. eapply Forall_impl; [|exact F]. intros [k d] H. now apply keyed_opt_val.
Qed.

(** ** What the parsers make *)
Definition yields {A} (r : rd A) (P : A -> Prop) : Prop := forall s a s', r s = ROk a s' -> P a.
Lemma y_ret : forall A (a : A) (P : A -> Prop), P a -> yields (ret a) P.
Proof. intros A a P H s b s' E. injection E as <- _. exact H. Qed.
Lemma y_raise : forall A x (P : A -> Prop), yields (rraise x) P.
Proof. intros A x P s b s' E. discriminate. Qed.
Lemma y_bind : forall A B (r : rd A) (k : A -> rd B) P Q, yields r P -> (forall a, P a -> yields (k a) Q) -> yields (rbind r k) Q.
Proof.
  intros A B r k P Q Hr Hk s b s' E. unfold rbind in E. destruct (r s) as [a s1|] eqn:E1; [|discriminate].
  eapply Hk; [eapply Hr; exact E1|exact E].
Qed.
Lemma y_any : forall A B (r : rd A) (k : A -> rd B) Q, (forall a, yields (k a) Q) -> yields (rbind r k) Q.
Proof. intros A B r k Q H. apply (y_bind _ _ r k (fun _ => True)); [intros s a s' _; exact Logic.I|auto]. Qed.
Lemma y_lift : forall A (x : res A), yields (rlift x) (fun a => x = Ok a).
Proof. intros A [a|e] s b s' E; [injection E as <- _; reflexivity|discriminate]. Qed.
Lemma y_repeat : forall A (r : rd A) P n, yields r P -> yields (rrepeat n r) (Forall P).
Proof.
  intros A r P n H. induction n as [|n IH]; cbn [rrepeat]; [apply y_ret; constructor|]. eapply y_bind; [exact H|]. intros a Pa.
  eapply y_bind; [exact IH|]. intros l Pl. apply y_ret. now constructor.
Qed.
Lemma y_times : forall St (I : St -> Prop) f n st, I st -> (forall st, I st -> yields (f st) I) -> yields (rtimes n f st) I.
Proof.
  intros St I f. induction n as [|n IH]; intros st Hst H; cbn [rtimes]; [now apply y_ret|]. eapply y_bind; [now apply H|]. intros. now apply IH.
Qed.
Lemma y_fold : forall A St (I : St -> Prop) (f : St -> A -> rd St) l st, I st -> (forall st a, I st -> yields (f st a) I) -> yields (rfoldM f st l) I.
Proof.
  intros A St I f. induction l as [|a l IH]; intros st Hst H; cbn [rfoldM]; [now apply y_ret|]. eapply y_bind; [now apply H|]. intros. now apply IH.
Qed.
Lemma y_loop : forall St A (body : St -> rd (St + A)) (I : St -> Prop) (P : A -> Prop) st, I st ->
  (forall st, I st -> yields (body st) (fun x => match x with inl st' => I st' | inr a => P a end)) -> yields (rloop body st) P.
Proof.
  intros St A body I P st Hst H s a s' E. unfold rloop in E. revert E. generalize (Datatypes.S (List.length s)) as fuel.
  intros fuel. revert st Hst s. induction fuel as [|f IH]; intros st Hst s E; cbn [rwhile] in E; [discriminate|].
  unfold rbind in E. destruct (body st s) as [x s1|] eqn:E1; [|discriminate]. apply H in E1; [|exact Hst]. destruct x as [st'|b].
  - eapply IH; eassumption.
  - injection E as <- _. exact E1.
Qed.
Lemma y_if : forall A (b : bool) (r r' : rd A) P, yields r P -> yields r' P -> yields (if b then r else r') P.
Proof. intros. destruct b; assumption. Qed.
Notation aset_str := (aset_nodup str_eqb str_eqb_eq).
Notation aset_int := (aset_nodup Z.eqb Z.eqb_eq).

Lemma y_class_flags : forall n, yields (parse_class_flags n) (fun d => NoDup (map fst d)).
Proof.
  intros n. unfold parse_class_flags. apply y_any. intros c. apply (y_times _ (fun d => NoDup (map fst d))); [constructor|].
  intros d N. do 2 (apply y_any; intros ?). apply y_ret. apply aset_nodup; [exact str_eqb_eq|exact N].
Qed.
Lemma take_named_keys : forall opts bits, NoDup (map fst opts) ->
  NoDup (map fst (fst (take_named opts bits))) /\ forall k, In k (map fst (fst (take_named opts bits))) -> In k (map fst opts).
Proof.
  induction opts as [|[k b] opts IH]; intros bits N; cbn [take_named].
  - split; [constructor|auto].
  - cbn [map fst] in N. apply NoDup_cons_iff in N. destruct N as (N1 & N2). destruct (existsb (Z.eqb b) bits).
    + destruct (IH (filter (fun x => negb (x =? b)) bits) N2) as (I1 & I2). destruct (take_named opts _) as [d r]. cbn [map fst] in *.
      split; [constructor; [intros H; apply N1; auto|exact I1]|]. intros j [H|H]; [now left|right; auto].
    + destruct (IH bits N2) as (I1 & I2). split; [exact I1|]. intros j H. cbn [map fst]. right. auto.
Qed.
Lemma y_ps_options : forall opts r, NoDup (map fst opts) -> ~ In (py "other") (map fst opts) ->
  yields (parse_ps_options opts r) (fun x => NoDup (map fst (po_named x)) /\ ~ In (py "other") (map fst (po_named x))).
Proof.
  intros opts r N O. unfold parse_ps_options. do 2 (apply y_any; intros ?). destruct (take_named_keys opts a0 N) as (I1 & I2).
  destruct (take_named opts a0) as [d rest]. apply y_ret. cbn [po_named fst] in *. split; [exact I1|auto].
Qed.
Lemma y_tt_info : yields parse_tt_info (fun d => NoDup (map fst d)).
Proof.
  unfold parse_tt_info. apply (y_loop _ _ _ (fun d => NoDup (map fst d))); [constructor|]. intros d N. unfold tt_info_turn.
  apply y_any. intros k. repeat first [apply y_if | apply y_any; intros ?]; apply y_ret; try exact N; apply aset_nodup; (exact str_eqb_eq || exact N).
Qed.
Lemma y_stems : yields parse_tt_stems (fun x => Forall stem_ok (tts_v x) /\ Forall stem_ok (tts_h x)).
Proof.
  assert (S1 : yields parse_tt_stem stem_ok).
  { unfold parse_tt_stem. repeat (apply y_any; intros ?). apply y_ret. unfold stem_ok. cbn. repeat constructor. intros []. }
  unfold parse_tt_stems. apply y_any. intros nv. eapply y_bind; [unfold rrange; apply y_repeat; exact S1|]. intros v Hv.
  apply y_any. intros nh. eapply y_bind; [unfold rrange; apply y_repeat; exact S1|]. intros h Hh. apply y_ret. auto.
Qed.
Lemma y_ppems_dir : forall ks n, yields (parse_ppems_dir ks n) (Forall stem_ok).
Proof.
  intros ks n. unfold parse_ppems_dir. eapply y_bind with (P := fun st => Forall stem_ok (fst st) /\ NoDup (map fst (snd st))).
  - apply y_times; [split; constructor|]. intros [l d] (F & N). unfold ppems_turn. eapply y_bind with (P := fun d => NoDup (map fst d)).
    + apply y_fold; [exact N|]. intros e k Ne. apply y_any. intros ?. apply y_ret. apply aset_nodup; [exact Z.eqb_eq|exact Ne].
    + intros e Ne. apply y_ret. cbn [fst snd] in *. split; [|exact Ne]. apply Forall_app. split; [exact F|]. constructor; [exact Ne|constructor].
  - intros st (F & _). apply y_ret. exact F.
Qed.
Lemma y_ppems : forall ks, yields (parse_ppems ks) (fun x => Forall stem_ok (tts_v x) /\ Forall stem_ok (tts_h x)).
Proof.
  intros ks. unfold parse_ppems. apply y_any. intros nv. eapply y_bind; [apply y_ppems_dir|]. intros v Hv.
  apply y_any. intros nh. eapply y_bind; [apply y_ppems_dir|]. intros h Hh. apply y_ret. auto.
Qed.
Lemma y_ppems1 : forall a b, yields (parse_stem_ppems1 (Some a) (Some b)) (fun x => Forall stem_ok (tts_v x) /\ Forall stem_ok (tts_h x)).
Proof.
  intros a b. unfold parse_stem_ppems1. eapply y_bind; [apply y_ppems_dir|]. intros v Hv. eapply y_bind; [apply y_ppems_dir|]. intros h Hh.
  apply y_ret. auto.
Qed.
Lemma aset_all : forall K V (eqb : K -> K -> bool) (P : V -> Prop) k v d, Forall (fun p => P (snd p)) d -> P v -> Forall (fun p : K * V => P (snd p)) (aset eqb k v d).
Proof.
  intros K V eqb P k v. induction d as [|[a b] d IH]; intros F Hv; cbn [aset]; [repeat constructor; exact Hv|].
  apply Forall_cons_iff in F. destruct F as (F1 & F2). destruct (eqb k a); constructor; auto.
Qed.
Lemma y_deltas : yields parse_zone_deltas (fun x => NoDup (map fst x) /\ Forall (fun p => NoDup (map fst (snd p))) x).
Proof.
  unfold parse_zone_deltas. apply y_any. intros n. apply (y_times _ (fun x => NoDup (map fst x) /\ Forall (fun p => NoDup (map fst (snd p))) x)).
  - split; constructor.
  - intros d (N & F). unfold deltas_turn. repeat (apply y_any; intros ?). apply y_ret. destruct (aget Z.eqb a d) as [e|] eqn:E.
    + split; [apply aset_nodup; [exact Z.eqb_eq|exact N]|]. apply (aset_all _ _ _ (fun e => NoDup (map fst e))); [exact F|]. apply aset_nodup; [exact Z.eqb_eq|].
      apply (aget_In Z.eqb Z.eqb_eq) in E. rewrite Forall_forall in F. exact (F _ E).
    + split; [apply aset_nodup; [exact Z.eqb_eq|exact N]|]. apply (aset_all _ _ _ (fun e => NoDup (map fst e))); [exact F|]. repeat constructor. intros [].
Qed.
Lemma unpack_keys : forall t v, map fst (unpack_flags t v) = map fst t.
Proof. intros. unfold unpack_flags. now rewrite map_map. Qed.
Definition options_ok (x : font_options_dict) : Prop := NoDup (map fst x) /\ Forall (fun p => opt_val_ok (snd p)) x.
Lemma update_ok : forall k f d, options_ok d -> (forall v, opt_val_ok v -> opt_val_ok (f v)) -> options_ok (update_option k f d).
Proof.
  intros k f d (N & F) H. unfold update_option. destruct (aget str_eqb k d) as [v|] eqn:E; [|split; assumption].
  split; [apply aset_nodup; [exact str_eqb_eq|exact N]|]. apply aset_all; [exact F|]. apply H.
  apply (aget_In str_eqb str_eqb_eq) in E. rewrite Forall_forall in F. exact (F _ E).
Qed.
Lemma y_font_options : yields parse_font_options options_ok.
Proof.
  unfold parse_font_options. apply y_any. intros l. apply y_ret. unfold post_process.
  assert (C : options_ok (collect_options l)).
  { unfold collect_options. assert (O : options_ok []) by (split; constructor). revert O. generalize (@nil (pystr * opt_val)) as d.
    induction l as [|p l IH]; intros d O; cbn [fold_left]; [exact O|]. apply IH. destruct O as (N & F).
    split; [apply aset_nodup; [exact str_eqb_eq|exact N]|]. apply aset_all; [exact F|exact Logic.I]. }
  repeat apply update_ok; try exact C.
  - intros [] H; exact H || exact Logic.I.
  - intros [] H; exact H || exact Logic.I.
  - intros [] H; try exact H. cbn [to_autohint opt_val_ok]. unfold unpack_autohint. cbn [map fst]. rewrite unpack_keys. unfold precision_key. cbn [autohint_flags map fst]. nodup.
  - intros [] H; try exact H. cbn [to_expand_kern opt_val_ok]. rewrite unpack_keys. cbn [expand_kern_table map fst]. nodup.
Qed.
Lemma combine_keys : forall A B (l : list A) (m : list B), NoDup l -> NoDup (map fst (combine l m)).
Proof.
  intros A B. induction l as [|a l IH]; intros m N; [constructor|]. destruct m as [|b m]; [constructor|]. apply NoDup_cons_iff in N. destruct N as (N1 & N2).
  cbn [combine map fst]. constructor; [|now apply IH]. intros H. apply N1. apply in_map_iff in H. destruct H as ([x y] & E & H). cbn [fst] in E. subst x.
  now apply in_combine_l in H.
Qed.
Lemma y_instruction : yields parse_instruction instruction_ok.
Proof.
  unfold parse_instruction. apply y_any. intros cmd. eapply y_bind; [apply y_lift|]. intros c E. apply y_any. intros params. apply y_ret.
  unfold instruction_ok. cbn [in_params]. apply combine_keys. unfold aget_res in E. destruct (aget Z.eqb cmd tt_commands) as [c'|] eqn:G; [|discriminate].
  injection E as ->. apply (aget_In Z.eqb Z.eqb_eq) in G. eapply tt_params_nodup. exact G.
Qed.
Lemma y_instructions : yields parse_instructions (Forall instruction_ok).
Proof.
  unfold parse_instructions. do 2 (apply y_any; intros ?). eapply y_bind; [unfold rrange; apply y_repeat; exact y_instruction|]. intros l H.
  apply y_any. intros ?. now apply y_ret.
Qed.
Lemma y_kerning : forall nm, yields (parse_kerning nm) (fun d => NoDup (map fst d)).
Proof.
  intros nm. unfold parse_kerning. apply y_any. intros n. apply (y_times _ (fun d => NoDup (map fst d))); [constructor|]. intros d N. unfold kerning_turn.
  do 2 (apply y_any; intros ?). apply y_ret. apply aset_nodup; [exact Z.eqb_eq|exact N].
Qed.
Lemma y_glyph : forall o, yields (parse_glyph o) glyph_ok.
Proof.
  intros o. unfold parse_glyph. do 2 (apply y_any; intros ?). apply (y_loop _ _ _ glyph_ok); [split; exact Logic.I|]. intros g G. unfold glyph_turn.
  apply y_any. intros k.
  apply y_if; [apply y_any; intros ?; apply y_ret; exact G|].
  apply y_if; [apply y_any; intros ?; apply y_ret; exact G|].
  apply y_if; [apply y_any; intros ?; apply y_ret; unfold store_hints; repeat match goal with |- context [match ?x with _ => _ end] => destruct x end; exact G|].
  apply y_if; [destruct (g_num_masters g), (g_name g); try apply y_raise; apply y_any; intros ?; apply y_ret; exact G|].
  apply y_if; [apply y_any; intros ?; apply y_ret; exact G|].
  apply y_if; [eapply y_bind; [apply y_kerning|]; intros d N; apply y_ret; destruct G as (G1 & G2); split; [exact N|exact G2]|].
  apply y_if; [apply y_ret; exact G|].
  apply y_if; [apply y_any; intros ?; apply y_ret; exact G|].
  apply y_if; [apply y_any; intros ?; apply y_ret; exact G|].
  apply y_if; [eapply y_bind; [apply y_instructions|]; intros l N; apply y_ret; destruct G as (G1 & G2); destruct l; [split; assumption|]; split; [exact G1|exact N]|].
  apply y_if; [apply y_ret; exact G|]. apply y_any. intros ?. apply y_raise.
Qed.

Lemma plain_ok : forall A (C : A -> value) (r : rd A) (P : A -> Prop) b d, yields r P -> (forall x, P x -> value_ok (C x)) -> run_parser (plain C r) b = Ok d -> value_ok d.
Proof.
  intros A C r P b d H K. unfold run_parser, plain, rbind, ret. destruct (r b) as [a rest|] eqn:E; [|discriminate]. destruct rest; [|discriminate].
  intros X. apply Ok_inj in X. subst d. apply K. eapply H. exact E.
Qed.
Lemma plain_free : forall A (C : A -> value) (r : rd A) b d, (forall x, value_ok (C x)) -> run_parser (plain C r) b = Ok d -> value_ok d.
Proof. intros A C r b d K. apply (plain_ok A C r (fun _ => True)); [intros s a s' _; exact Logic.I|auto]. Qed.
Lemma row_ok : forall o, Forall (fun r => forall c b d, run_parser (snd (fst (snd r)) c) b = Ok d -> value_ok d) (parser_classes o).
Proof.
  intros o. unfold parser_classes.
  repeat first [apply Forall_nil | apply Forall_cons; [intros c b d; cbn [fst snd];
    first [apply plain_free; intros x; exact Logic.I
          |eapply plain_ok; [apply y_class_flags|intros x X; exact X]
          |eapply plain_ok; [apply y_ps_options; [nodup|cbn; intros X; repeat match goal with H : _ \/ _ |- _ => destruct H as [H|H]; [discriminate H|] end; exact X]|intros x X; exact X]
          |eapply plain_ok; [apply y_tt_info|intros x X; exact X]
          |eapply plain_ok; [apply y_stems|intros x X; exact X]
          |eapply plain_ok; [apply y_ppems1|intros x X; exact X]
          |eapply plain_ok; [apply y_ppems|intros x X; exact X]
          |eapply plain_ok; [apply y_deltas|intros x X; exact X]
          |eapply plain_ok; [apply y_font_options|intros x X; exact X]
          |eapply plain_ok; [apply y_glyph|intros x X; exact X]]|]].
Qed.
Lemma table_ok : forall o i c b d, cd_parse (table o) i c b = Ok d -> value_ok d.
Proof.
  intros o i c b d. cbn [cd_parse table]. unfold parser_of, row. destruct (aget Z.eqb i (parser_classes o)) as [[[k p] w]|] eqn:E.
  - apply (aget_In Z.eqb Z.eqb_eq) in E. pose proof (proj1 (Forall_forall _ _) (row_ok o) _ E) as H. cbn [fst snd] in H. apply H.
  - intros D. apply plain_made in D. destruct D as (x & ->). exact Logic.I.
Qed.
