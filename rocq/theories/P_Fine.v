(** Proofs about VFBs that can be exported. *)
From Coq Require Import String QArith Lia ZifyBool ZifyNat.
From Verif Require Import S_Tth.
From Verif Require Import Base Lib M_Py M_Helpers M_Simple M_Text M_TrueType M_Bitmap M_Glyph M_Options M_Container M_Table M_Groups.
From Verif Require Import M_Info M_FontInfo M_Tth M_Programs M_Builder M_Master M_Features M_Designspace M_Build M_Classes M_Labels M_PsHints.
From Verif Require Import M_Paths M_Guides M_Export M_Ufo S_FontInfo S_Programs S_Build S_Paths S_Guides S_Ufo S_Builder S_Labels S_PsHints S_Export S_Hinting S_Fine.
From Verif Require Import P_Helpers P_Glyph P_Guides P_Master P_Build P_Builder P_Labels P_Paths P_Export P_Tth P_Names P_Ufo P_Ufo2 P_Ufo3.
From Verif Require Import Prop_Tth Prop_Classes Prop_FontInfo Prop_Programs Prop_Builder Prop_Build Prop_Ufo Prop_Ufo2.
Local Open Scope list_scope.
Local Open Scope Z_scope.

(** ** The parts of the font *)
Lemma each_snoc : forall A (P : list A -> A -> Prop) l e, each P (l ++ [e]) -> each P l /\ P l e.
Proof.
  intros A P l e H. split; [|now apply (H l e [])]. intros before x after E. apply (H before x (after ++ [e])). rewrite E, <- app_assoc. reflexivity.
Qed.
Lemma some_fold : forall A B (f : A -> B -> res A) (Q : list B -> A -> Prop) a l, Q [] a ->
  (forall before e after x, l = before ++ e :: after -> Q before x -> exists y, f x e = Ok y /\ Q (before ++ [e]) y) ->
  exists z, res_fold f a l = Ok z /\ Q l z.
Proof.
  intros A B f Q a l Q0 H. induction l as [|e l IH] using rev_ind; [exists a; split; [reflexivity|exact Q0]|].
  destruct IH as (z & E & Qz).
  { intros before x after y El. apply (H before x (after ++ [e])). rewrite El, <- app_assoc. reflexivity. }
  rewrite res_fold_snoc, E. cbn [rthen]. apply (H l e []); [reflexivity|exact Qz].
Qed.

(** *** TrueType hinting *)
Lemma opt_some : forall A (o : option A), o <> None -> exists x, o = Some x.
Proof. intros A [x|] H; [eauto|congruence]. Qed.
Lemma nth_ext' : forall A (a b : list A), (forall j, nth_error a j = nth_error b j) -> a = b.
Proof.
  induction a as [|x a IH]; intros [|y b] H; [reflexivity|discriminate (H 0%nat)|discriminate (H 0%nat)|].
  pose proof (H 0%nat) as H0. cbn [nth_error] in H0. injection H0 as <-. f_equal. apply IH. intros j. exact (H (Datatypes.S j)).
Qed.
Lemma update_fst : forall (l l' : list (Z * rounds)) i f, (forall x, fst (f x) = fst x) -> List.length l' = List.length l ->
  (forall j, nth_error l' j = if Nat.eqb j i then option_map f (nth_error l j) else nth_error l j) -> map fst l' = map fst l.
Proof.
  intros l l' i f Hf L H. apply nth_ext'. intros j. rewrite !nth_error_map, H. destruct (Nat.eqb j i); [|reflexivity].
  destruct (nth_error l j); cbn [option_map]; [now rewrite Hf|reflexivity].
Qed.
Definition tt_inv (before : list M_Tth.tt_entry) (s : tt_state) : Prop :=
  map (fun p => Some (fst p)) (ex_ppms_h s) = stem_numbers true before /\
  map (fun p => Some (fst p)) (ex_ppms_v s) = stem_numbers false before /\
  ex_zone_names s = map tz_name (zone_list before) /\
  forall name, In name (ex_zone_names s) -> aget str_eqb name (ex_zones s) <> None.

Lemma ppms_of_ok : forall l, Forall (fun s => ts_stem s <> None) l -> exists r, ppms_of l = Ok r /\ map (fun p => Some (fst p)) r = map ts_stem l.
Proof.
  induction l as [|s l IH]; intros F; [exists []; split; reflexivity|]. inversion_clear F as [|? ? F1 F2]. destruct (IH F2) as (r & E & M).
  destruct (opt_some _ _ F1) as (i & Ei). unfold ppms_of in *. cbn [res_map]. rewrite Ei. cbn [opt_res rmap rthen]. rewrite E. cbn [rmap].
  eexists. split; [reflexivity|]. cbn [map fst]. now rewrite M, Ei.
Qed.
Lemma in_aget : forall k v (r : list (Z * Z)), In (k, v) r -> exists w, aget_res Z.eqb k r = Ok w.
Proof.
  intros k v r I. unfold aget_res. destruct (aget Z.eqb k r) eqn:A; [eauto|]. exfalso. induction r as [|[k' v'] r IH]; [destruct I|].
  cbn [aget] in A. destruct (Z.eqb_spec k k'); [discriminate|]. destruct I as [I|I]; [congruence|auto].
Qed.
Lemma ppms1_ok : forall ds l, Forall (fun s => exists i ppm, ts_stem s = Some i /\ 0 <= i < Z.of_nat (List.length l) /\ In (1, ppm) (ts_round s)) ds ->
  exists l', res_fold ppms1_turn l ds = Ok l' /\ map fst l' = map fst l.
Proof.
  induction ds as [|s ds IH]; intros l F; [exists l; split; reflexivity|]. inversion_clear F as [|? ? (i & ppm & Ei & R & I) F2].
  cbn [res_fold]. unfold ppms1_turn at 1. rewrite Ei. cbn [opt_res rthen].
  destruct (nth_error l (Z.to_nat i)) as [x0|] eqn:Ex; [|apply nth_error_None in Ex; lia].
  rewrite (py_index_some _ _ _ x0) by (lia || exact Ex). cbn [rthen]. destruct (in_aget _ _ _ I) as (w & ->). cbn [rthen].
  destruct (py_update_nth _ l i (fun x => (fst x, add_missing (dec_str w) 1 (snd x))) R) as (l1 & -> & L1 & N1). cbn [rthen].
  assert (M1 : map fst l1 = map fst l) by (eapply update_fst; [|exact L1|exact N1]; reflexivity). destruct (IH l1) as (l2 & E2 & M2).
  { eapply Forall_impl; [|exact F2]. intros t. now rewrite L1. }
  exists l2. split; [exact E2|congruence].
Qed.
Lemma stems_ok : forall hor ds ppms stems k,
  (forall j s, nth_error ds j = Some s -> ts_value s <> None /\ ts_name s <> None /\ ts_round s <> [] /\
     nth_error (map fst ppms) (k + j) = Some (Z.of_nat (k + j))) ->
  exists r, res_fold (stem_turn hor) (ppms, stems, Z.of_nat k) ds = Ok r /\ map fst (fst (fst r)) = map fst ppms.
Proof.
  intros hor. induction ds as [|s ds IH]; intros ppms stems k H; [eexists; split; reflexivity|].
  destruct (H 0%nat s eq_refl) as (H1 & H2 & H3 & H4). destruct (opt_some _ _ H1) as (v & Ev), (opt_some _ _ H2) as (n & En).
  rewrite Nat.add_0_r in H4. destruct (nth_map_inv _ _ _ _ _ _ H4) as (p & Ep & Fp).
  assert (Lk : (k < List.length ppms)%nat) by (apply nth_error_Some; congruence).
  cbn [res_fold]. unfold stem_turn at 1. destruct (ts_round s) as [|[rk rv] rr]; [congruence|].
  rewrite (py_index_some _ _ _ p) by (lia || now rewrite Nat2Z.id). cbn [rthen]. rewrite Fp, Z.eqb_refl, Ev, En. cbn [opt_res rthen].
  destruct (py_update_nth _ ppms (Z.of_nat k) (fun x => (fst x, aset str_eqb (dec_str rv) rk (snd x)))) as (l1 & -> & L1 & N1); [lia|]. cbn [rmap rthen].
  assert (M1 : map fst l1 = map fst ppms) by (eapply update_fst; [|exact L1|exact N1]; reflexivity).
  replace (Z.of_nat k + 1) with (Z.of_nat (Datatypes.S k)) by lia. destruct (IH l1 (stems ++ [UStem hor v n (Z.of_nat k)]) (Datatypes.S k)) as (r & E & M).
  { intros j t Ht. rewrite M1. replace (Datatypes.S k + j)%nat with (k + Datatypes.S j)%nat by lia. exact (H (Datatypes.S j) t Ht). }
  exists r. split; [exact E|congruence].
Qed.
Lemma zones_turn : forall top zs a, let r := fold_left (zone_turn top) zs a in
  snd r = snd a ++ map tz_name zs /\
  ((forall name, In name (snd a) -> aget str_eqb name (fst a) <> None) -> forall name, In name (snd r) -> aget str_eqb name (fst r) <> None).
Proof.
  intros top. induction zs as [|z zs IH]; intros a; cbv zeta in *; cbn [fold_left map]; [split; [now rewrite app_nil_r|auto]|].
  destruct (IH (zone_turn top a z)) as [A B]. split; [rewrite A; unfold zone_turn; cbn [snd]; now rewrite <- app_assoc|].
  intros H. apply B. unfold zone_turn. cbn [fst snd]. intros name I. rewrite (aget_aset str_eqb str_eqb_eq). destruct (str_eqb name (tz_name z)) eqn:E; [discriminate|].
  apply in_app_or in I. destruct I as [I|[I|[]]]; [now apply H|]. subst name. rewrite str_eqb_refl in E. discriminate.
Qed.
Lemma deltas_ok' : forall names ds zones, (forall name, In name names -> aget str_eqb name zones <> None) ->
  Forall (fun x => 0 <= fst x < Z.of_nat (List.length names)) ds ->
  exists z, res_fold (delta_turn names) zones ds = Ok z /\ forall name, In name names -> aget str_eqb name z <> None.
Proof.
  intros names. induction ds as [|x ds IH]; intros zones H F; [exists zones; split; [reflexivity|exact H]|]. inversion_clear F as [|? ? F1 F2].
  cbn [res_fold]. unfold delta_turn at 1. destruct (nth_error names (Z.to_nat (fst x))) as [n|] eqn:En; [|apply nth_error_None in En; lia].
  rewrite (py_index_some _ _ _ n) by (lia || exact En). cbn [rthen]. unfold aget_res. destruct (aget str_eqb n zones) as [z|] eqn:Ez.
  2:{ exfalso. exact (H n (nth_error_In _ _ En) Ez). }
  cbn [rmap rthen]. apply IH; [|exact F2]. intros name I. rewrite (aget_aset str_eqb str_eqb_eq). destruct (str_eqb name n); [discriminate|now apply H].
Qed.
Lemma fst_some : forall (l : list (Z * rounds)), map (fun p => Some (fst p)) l = map Some (map fst l).
Proof. intros l. now rewrite map_map. Qed.
Lemma tt_fine_ok : forall es, each tt_fine es -> exists t, M_Tth.tt_build es = Ok t.
Proof.
  intros es H. unfold M_Tth.tt_build.
  destruct (some_fold _ _ tt_add tt_inv tt_start es) as (z & E & _); [|intros before e after s El (I1 & I2 & I3 & I4); specialize (H _ _ _ El); clear El|eauto].
  { split; [reflexivity|]. split; [reflexivity|]. split; [reflexivity|]. intros name []. }
  assert (Keep : forall hor d, (forall x, d <> EPpms x) -> stem_numbers hor (before ++ [d]) = stem_numbers hor before).
  { intros hor d N. unfold stem_numbers. rewrite flat_map_app. cbn [flat_map]. rewrite app_nil_r. destruct d; try apply app_nil_r. now destruct (N d). }
  assert (KeepZ : forall d, (forall x, d <> EZones x) -> zone_list (before ++ [d]) = zone_list before).
  { intros d N. unfold zone_list. rewrite flat_map_app. cbn [flat_map]. rewrite app_nil_r. destruct d; try apply app_nil_r. now destruct (N d). }
  destruct e as [d|d|d|d|d]; cbn [tt_fine tt_add] in *.
  - unfold set_tt_stem_ppms. destruct (ppms_of_ok _ (H true)) as (h & Eh & Mh), (ppms_of_ok _ (H false)) as (v & Ev & Mv). cbn [side] in *. rewrite Eh. cbn [rthen]. rewrite Ev.
    eexists. split; [reflexivity|]. unfold tt_inv. cbn [ex_ppms_h ex_ppms_v ex_zone_names ex_zones]. rewrite KeepZ by discriminate.
    unfold stem_numbers. rewrite !flat_map_app. cbn [flat_map side]. rewrite !app_nil_r, !map_app, I1, I2, Mh, Mv. auto.
  - unfold set_tt_stem_ppms_1.
    destruct (ppms1_ok (tts_h d) (ex_ppms_h s)) as (h & Eh & Mh).
    { eapply Forall_impl; [|exact (H true)]. intros t. rewrite <- I1, map_length. auto. }
    destruct (ppms1_ok (tts_v d) (ex_ppms_v s)) as (v & Ev & Mv).
    { eapply Forall_impl; [|exact (H false)]. intros t. rewrite <- I2, map_length. auto. }
    rewrite Eh. cbn [rthen]. rewrite Ev. eexists. split; [reflexivity|]. unfold tt_inv. cbn [ex_ppms_h ex_ppms_v ex_zone_names ex_zones].
    rewrite !Keep, KeepZ by discriminate. rewrite !fst_some in *. rewrite Mh, Mv. auto.
  - unfold set_tt_stems. rewrite fst_some in I1, I2.
    destruct (stems_ok false (tts_h d) (ex_ppms_h s) (ex_stems_h s) 0) as (h & Eh & Mh).
    { intros j t Ht. destruct (H true j t Ht) as (A & B & C & D). split; [exact A|]. split; [exact B|]. split; [exact C|].
      rewrite <- I1 in D. destruct (nth_map_inv _ _ _ _ _ _ D) as (y & Hy & Ey). rewrite Nat.add_0_l, Hy. exact Ey. }
    destruct (stems_ok true (tts_v d) (ex_ppms_v s) (ex_stems_v s) 0) as (v & Ev & Mv).
    { intros j t Ht. destruct (H false j t Ht) as (A & B & C & D). split; [exact A|]. split; [exact B|]. split; [exact C|].
      rewrite <- I2 in D. destruct (nth_map_inv _ _ _ _ _ _ D) as (y & Hy & Ey). rewrite Nat.add_0_l, Hy. exact Ey. }
    cbn [Z.of_nat] in Eh, Ev. rewrite Eh. cbn [rthen]. rewrite Ev. eexists. split; [reflexivity|]. unfold tt_inv. cbn [ex_ppms_h ex_ppms_v ex_zone_names ex_zones].
    rewrite !Keep, KeepZ by discriminate. rewrite !fst_some, Mh, Mv. auto.
  - destruct d as [t b]. cbn [tz_top tz_bottom] in H. destruct H as [Ht Hb]. destruct (opt_some _ _ Ht) as (zt & ->), (opt_some _ _ Hb) as (zb & ->).
    unfold set_tt_zones. cbn [tz_bottom tz_top opt_res rthen rmap]. eexists. split; [reflexivity|]. unfold tt_inv. cbn [ex_ppms_h ex_ppms_v ex_zone_names ex_zones].
    rewrite !Keep by discriminate. split; [exact I1|]. split; [exact I2|].
    destruct (zones_turn false zb (ex_zones s, ex_zone_names s)) as [A B]. destruct (zones_turn true zt (fold_left (zone_turn false) zb (ex_zones s, ex_zone_names s))) as [A' B'].
    split; [rewrite A', A; cbn [snd]; unfold zone_list; rewrite flat_map_app, map_app; cbn [flat_map]; rewrite app_nil_r, I3, map_app, app_assoc; reflexivity|].
    apply B'. apply B. exact I4.
  - unfold set_tt_zone_deltas. destruct (deltas_ok' (ex_zone_names s) d (ex_zones s) I4) as (z & Ez & Hz).
    { eapply Forall_impl; [|exact H]. intros x. rewrite I3, map_length. auto. }
    rewrite Ez. eexists. split; [reflexivity|]. unfold tt_inv. cbn [ex_ppms_h ex_ppms_v ex_zone_names ex_zones]. rewrite !Keep, KeepZ by discriminate. auto.
Qed.

(** *** The designspace *)
Lemma last_snoc' : forall A (l : list A) x d, last_or d (l ++ [x]) = x.
Proof. intros A l x d. unfold last_or. apply last_last. Qed.
Definition design_inv (before : list design_entry) (d : design) : Prop :=
  de_count d = axes_before before /\ List.length (de_axes d) = List.length (names_before before) /\
  match de_mappings d with Some l => map_counts before = l | None => map_counts before = [] end.
Lemma set_mapping_ok : forall F (ops : num_ops F) ms a, Forall (fun p => exists d, n_design ops (snd p) = Ok d) ms -> exists a', set_mapping ops ms a = Ok a'.
Proof.
  intros F ops ms a H. unfold set_mapping.
  assert (X : exists r, res_map (fun ud => rmap (fun d => (fst ud, d)) (n_design ops (snd ud))) ms = Ok r).
  { induction H as [|p ms (d & E) H IH]; [eexists; reflexivity|]. cbn [res_map]. rewrite E. destruct IH as (r & ->). eexists. reflexivity. }
  destruct X as (r & ->). eexists. reflexivity.
Qed.
Lemma mappings_ok : forall F (ops : num_ops F) counts is axes data, Forall (fun p => exists d, n_design ops (snd p) = Ok d) data ->
  Forall (fun i => 0 <= i /\ exists n, nth_error counts (Z.to_nat i) = Some n /\ (0 < n -> i < Z.of_nat (List.length axes))) is ->
  exists r, res_fold (mapping_turn ops counts) (axes, data) is = Ok r /\ List.length (fst r) = List.length axes.
Proof.
  intros F ops counts. induction is as [|i is IH]; intros axes data D H; [eexists; split; reflexivity|]. apply Forall_cons_iff in H. destruct H as [(Hi & n & En & Hn) H'].
  cbn [res_fold]. unfold mapping_turn at 1. rewrite (py_index_some _ _ _ n) by (lia || exact En). cbn [rthen].
  assert (D' : Forall (fun p => exists d, n_design ops (snd p) = Ok d) (skipn 10 data)).
  { rewrite <- (firstn_skipn 10 data) in D. apply Forall_app in D. tauto. }
  destruct (0 <? n) eqn:Pn; cbn [rmap rthen]; [|apply IH; assumption].
  destruct (nth_error axes (Z.to_nat i)) as [ax|] eqn:Ea; [|apply nth_error_None in Ea; lia].
  rewrite (py_index_some _ _ _ ax) by (lia || exact Ea). cbn [rthen].
  destruct (set_mapping_ok F ops (firstn (Z.to_nat n) data) ax) as (ax' & ->).
  { rewrite <- (firstn_skipn (Z.to_nat n) data) in D. apply Forall_app in D. tauto. }
  cbn [rthen]. destruct (py_update_nth _ axes i (fun _ => ax')) as (axes' & -> & L & _); [lia|]. cbn [rmap rthen].
  destruct (IH axes' (skipn 10 data) D') as (r & E & Lr); [|exists r; split; [exact E|congruence]].
  eapply Forall_impl; [|exact H']. intros j. now rewrite L.
Qed.
Lemma zrange_in : forall n i, In i (zrange n) <-> 0 <= i < n.
Proof.
  intros n i. unfold zrange. rewrite in_map_iff. split.
  - intros (k & <- & I). apply in_seq in I. lia.
  - intros H. exists (Z.to_nat i). split; [lia|]. apply in_seq. lia.
Qed.
Lemma design_fine_ok : forall c es, each (design_fine c) es -> exists d, res_fold (design_step c) (Design 0 [] None [] [] None) es = Ok d.
Proof.
  intros c es H. destruct (some_fold _ _ (design_step c) design_inv (Design 0 [] None [] [] None) es) as (z & E & _); [|intros before e after d El (I1 & I2 & I3); specialize (H _ _ _ El); clear El|eauto].
  { split; [reflexivity|]. split; reflexivity. }
  unfold design_inv, axes_before, names_before, map_counts. rewrite !flat_map_app. cbn [flat_map]. rewrite !app_nil_r.
  destruct e; cbn [design_step design_fine] in *.
  - eexists. split; [reflexivity|]. cbn [de_count de_axes de_mappings]. rewrite last_snoc'. rewrite !app_nil_r. auto.
  - eexists. split; [reflexivity|]. cbn [de_count de_axes de_mappings]. rewrite !app_nil_r, !app_length. fold (names_before before). rewrite I2. auto.
  - eexists. split; [reflexivity|]. cbn [de_count de_axes de_mappings]. rewrite last_snoc', !app_nil_r. auto.
  - destruct H as (H1 & H2 & H3 & H4). unfold set_mappings, add_axis_mappings. destruct (de_mappings d) as [counts|]; [|congruence]. rewrite I3 in *.
    destruct counts as [|n0 counts]; [congruence|].
    destruct (mappings_ok num (st_ops c) (n0 :: counts) (zrange (de_count d)) (de_axes d) (map (fun x => (NBits (fst x), NBits (snd x))) l)) as (r & E & L).
    + rewrite Forall_map. exact H4.
    + apply Forall_forall. intros i I. apply (proj1 (zrange_in _ _)) in I. rewrite I1 in I. split; [lia|]. unfold covers in H2.
      destruct (nth_error (n0 :: counts) (Z.to_nat i)) as [n|] eqn:En; [|apply nth_error_None in En; lia]. exists n. split; [reflexivity|].
      intros Pn. specialize (H3 _ _ En ltac:(lia) Pn). lia.
    + rewrite E. eexists. split; [reflexivity|]. cbn [de_count de_axes de_mappings]. rewrite !app_nil_r, L. auto.
  - unfold check_anisotropic. destruct (existsb _ l) eqn:An.
    + assert (H' : covers (axes_before before) (names_before before) /\ covers (axes_before before) l).
      { apply H. apply existsb_exists in An. destruct An as (axis & I & An). apply existsb_exists in An. destruct An as ((x & y) & J & An). exists axis, x, y. split; [exact I|]. split; [exact J|]. cbn [fst snd] in An. lia. }
      destruct H' as (H1 & H2). assert (X : exists r, res_map (fun i => rthen (py_index (de_axes d) i) (fun _ => py_index l i)) (zrange (de_count d)) = Ok r).
      { assert (F : Forall (fun i => 0 <= i < Z.of_nat (List.length (de_axes d)) /\ i < Z.of_nat (List.length l)) (zrange (de_count d))).
        { apply Forall_forall. intros i I. apply (proj1 (zrange_in _ _)) in I. unfold covers in *. lia. }
        induction F as [|i is (F1 & F2) F IH]; [eexists; reflexivity|]. cbn [res_map].
        destruct (nth_error (de_axes d) (Z.to_nat i)) as [x|] eqn:Ex; [|apply nth_error_None in Ex; lia].
        destruct (nth_error l (Z.to_nat i)) as [y|] eqn:Ey; [|apply nth_error_None in Ey; lia].
        rewrite (py_index_some _ _ _ _ (proj1 F1) Ex). cbn [rthen]. rewrite (py_index_some _ _ _ _ (proj1 F1) Ey). destruct IH as (r & ->). eexists. reflexivity. }
      destruct X as (r & ->). eexists. split; [reflexivity|]. rewrite !app_nil_r. auto.
    + eexists. split; [reflexivity|]. rewrite !app_nil_r. auto.
  - eexists. split; [reflexivity|]. cbn [de_count de_axes de_mappings]. rewrite !app_nil_r. auto.
  - eexists. split; [reflexivity|]. cbn [de_count de_axes de_mappings]. rewrite !app_nil_r. auto.
  - eexists. split; [reflexivity|]. cbn [de_count de_axes de_mappings]. rewrite !app_nil_r. auto.
Qed.

(** *** Classes, programs, glyphs *)
Lemma in_split_first : forall (x : Z) l, In x l -> exists a b, l = a ++ x :: b /\ ~ In x a.
Proof.
  intros x. induction l as [|y l IH]; intros I; [destruct I|]. destruct (Z.eq_dec y x) as [->|N]; [exists [], l; split; [reflexivity|intros []]|].
  destruct I as [I|I]; [congruence|]. destruct (IH I) as (a & b & -> & Na). exists (y :: a), b. split; [reflexivity|]. intros [E|J]; auto.
Qed.
Lemma class_ok : forall t gs, (forall x y z, t <> x ++ 58 :: y ++ 58 :: z) -> exists gs', add_ot_class t gs = Ok gs'.
Proof.
  intros t gs H. unfold add_ot_class. destruct (existsb (Z.eqb 58) t) eqn:X; [|eauto].
  assert (I : In 58 t). { apply existsb_exists in X. destruct X as (c & I & E). apply Z.eqb_eq in E. now subst c. }
  apply in_split_first in I. destruct I as (a & b & -> & Na).
  assert (Nb : ~ In 58 b). { intros I. apply in_split in I. destruct I as (y & z & ->). now apply (H a y z). }
  unfold split_on. rewrite split_from_app by exact Na. rewrite split_from_none by exact Nb. cbn [app].
  destruct (aget str_eqb a gs); eauto.
Qed.
Lemma classes_ok : forall l, classes_fine l -> exists g, class_entries (flat_map class_part l) = Ok g.
Proof.
  intros l H. unfold class_entries. destruct (some_fold _ _ (fun gs data => add_ot_class data gs) (fun _ _ => True) [] (flat_map class_part l)) as (z & E & _); [exact Coq.Init.Logic.I| |eauto].
  intros before t after x El _. destruct (class_ok t x) as (gs & E); [|eauto]. intros a b d Et.
  assert (I : In t (flat_map class_part l)) by (rewrite El; apply in_or_app; right; now left).
  apply in_flat_map in I. destruct I as ([k v] & I & It). assert (k = 1277 /\ v = DStr t) as [-> ->].
  { revert It. unfold class_part. destruct k as [|p|p]; try (intros []; fail); by_keys; try (intros []; fail). destruct v; try (intros []; fail). intros [It|[]]. subst. auto. }
  exact (H t a b d I Et).
Qed.
Lemma programs_ok : forall c l, Forall (fun e => typed (fst e, Some (snd e))) l -> programs_fine c l ->
  exists i, M_Programs.tt_build (st_asm c) (flat_map program_part l) = Ok i.
Proof.
  intros c l T (P1 & P2).
  assert (From : forall e, In e (flat_map program_part l) -> match e with
    | TMax k _ => In k max_names
    | TCvt b => bytes_ok b /\ In (1261, DStr (hexStr b)) l
    | TPrep b => bytes_ok b /\ In (1262, DStr (hexStr b)) l
    | TFpgm b => bytes_ok b /\ In (1263, DStr (hexStr b)) l end).
  { intros e I. apply in_flat_map in I. destruct I as ([k v] & I & Ie). rewrite Forall_forall in T. pose proof (T _ I) as [_ Th]. cbn [fst snd] in Th.
    destruct (Z.eqb_spec k 1264) as [->|N0].
    { destruct v; try destruct Ie. cbn [program_part] in Ie. apply in_flat_map in Ie. destruct Ie as ([a w] & _ & Ie). unfold max_part in Ie. cbn [fst snd] in Ie.
      destruct (aget str_eqb a S_Info.tt_lib_keys) as [q|] eqn:A; [|destruct Ie]. destruct w; try (destruct Ie; fail). destruct Ie as [<-|[]]. apply (aget_In str_eqb str_eqb_eq) in A.
      unfold S_Info.tt_lib_keys in A. cbn [In] in A. unfold max_names. cbn [In].
      repeat (destruct A as [A|A]; [injection A as _ <-; tauto|]). destruct A. }
    assert (K : k = 1261 \/ k = 1262 \/ k = 1263).
    { clear - Ie N0. revert Ie N0. unfold program_part. destruct k as [|p|p]; try (intros []; fail); by_keys; try (intros []; fail); tauto. }
    assert (J : In k [1261; 1262; 1263]) by (destruct K as [->|[->| ->]]; cbn [In]; tauto). destruct (Th J) as (b & Ob & ->).
    destruct K as [->|[->| ->]]; cbn [program_part] in Ie; rewrite deHexStr_hexStr in Ie by exact Ob; destruct Ie as [<-|[]]; auto. }
  apply C72_succeeds.
  - apply Forall_forall. intros e I. specialize (From e I). destruct e; tauto.
  - intros b I. specialize (From _ I). cbn in From. now apply P1.
  - intros b [I|I]; specialize (From _ I); cbn in From; [apply (P2 1262)|apply (P2 1263)]; tauto.
Qed.
Lemma glyphs_build : forall c l, Forall (fun e => type_of_key (fst e) (snd e) = true) l -> glyphs_complete l -> good_glyphs l ->
  exists g, build (glyph_parts c None l) = Ok g.
Proof.
  intros c l Tl G (D & Ne & Nd & Nc & K). destruct (as_blocks c l None Tl G) as (front & blocks & E & Ef & X & Xz).
  assert (P : Forall no_part front) by (subst front; now apply front_no_part).
  assert (B : Forall (fun b => Forall no_glyph (bl_rest b)) blocks).
  { destruct (details_not l Tl) as [_ Dn]. fold (glyph_blocks l) in Dn. clear - X Dn. induction X as [|b k bs ks (m & y & z & z' & _ & _ & _ & _ & Hr) X IH]; [constructor|].
    inversion_clear Dn as [|? ? D1 D2]. constructor; [rewrite Hr; now apply parts_no_glyph|now apply IH]. }
  pose proof (blocks_entries l) as Eb.
  assert (N : map bl_name blocks = names_of l).
  { unfold names_of. rewrite <- Eb. clear - X. induction X as [|b k bs ks (m & y & z & z' & R & Hn & _) X IH]; [reflexivity|].
    cbn [map flat_map]. rewrite IH. unfold build_mm_glyph in R. unfold name_of. destruct (g_name (fst b)); [|discriminate]. cbn [get_key rthen] in R.
    destruct (g_metrics (fst b)); [|discriminate]. cbn [get_key rthen] in R. destruct (g_nodes (fst b)); [|discriminate]. cbn [get_key rmap] in R.
    apply Ok_inj in R. injection R as R _. rewrite Hn, <- R. reflexivity. }
  destruct (C54_distinct gvalue front blocks) as (s' & E' & _); [split; assumption| | | | |rewrite E; eauto].
  - intros ->. apply Ne. rewrite <- N. reflexivity.
  - rewrite <- N in Nc. clear - Nc. replace (map bl_name (removelast blocks)) with (removelast (map bl_name blocks)); [exact Nc|].
    clear Nc. induction blocks as [|b [|b' blocks] IH]; [reflexivity|reflexivity|].
    change (removelast (map bl_name (b :: b' :: blocks))) with (bl_name b :: removelast (map bl_name (b' :: blocks))).
    rewrite IH. reflexivity.
  - now rewrite N.
  - rewrite <- Eb in K. clear - X K. induction X as [|b k bs ks (m & y & z & z' & R & Hn & Hk & _) X IH]; [constructor|].
    cbn [map] in K. apply Forall_cons_iff in K. destruct K as [K1 K2]. constructor; [rewrite Hk; exact K1|now apply IH].
Qed.
Lemma font_made : forall c es, Forall typed es -> let l := used (st_vfb_minimal c) es in font_fine c l -> good_glyphs l -> exists s, build_font c es = Ok s.
Proof.
  intros c es T l (F1 & F2 & F3 & F4 & F5 & F6) G. apply (C85_succeeds c es T). fold l. pose proof (used_typed (st_vfb_minimal c) _ T) as Tu. fold l in Tu.
  split; [exact F1|]. split; [destruct (C82_attributes false _ F2) as (i & E & _); eauto|]. split; [now apply programs_ok|].
  split; [apply glyphs_build; [|exact F1|exact G]; eapply Forall_impl; [|exact Tu]; intros e X; exact (proj1 X)|].
  split; [now apply tt_fine_ok|]. split; [now apply classes_ok|now apply design_fine_ok].
Qed.

(** ** The TrueType programs of the glyphs *)
Lemma ascii_app : forall a b, ascii (a ++ b) <-> ascii a /\ ascii b.
Proof. intros a b. apply Forall_app. Qed.
Lemma ascii_dec : forall n, ascii (dec_str n).
Proof.
  assert (D : forall f n, ascii (dec_digits f n)).
  { induction f as [|f IH]; intros n; cbn [dec_digits]; [constructor|]. destruct (n <? 10) eqn:E; [constructor; [lia|constructor]|].
    apply ascii_app. split; [apply IH|]. constructor; [pose proof (Z.mod_pos_bound n 10); lia|constructor]. }
  intros n. unfold dec_str, dec_nat. destruct (n <? 0); [constructor; [lia|]|]; apply D.
Qed.
Ltac literal := match goal with |- ascii ?x => let y := eval vm_compute in x in change (ascii y); repeat (constructor; [lia|]); constructor end.
Lemma ascii_dec02 : forall i, ascii (dec02 i).
Proof.
  intros i. unfold dec02. destruct (in_range 0 10 i) eqn:E; [|apply ascii_dec]. unfold in_range in E. constructor; [lia|]. constructor; [lia|constructor].
Qed.
Lemma made_ascii : forall l, made l -> ascii l.
Proof.
  intros l (code & short & i & I & _ & ->). apply ascii_app. split; [|apply ascii_dec02].
  unfold label_codes in I. cbn [In] in I. repeat (destruct I as [I|I]; [injection I as _ <-; literal|]). destruct I.
Qed.
Lemma label_ascii : forall st order g i label, store_ok st -> labelled st order g i label -> ascii label.
Proof.
  intros st order g i label O [n index l _ _ S1|before c n after index l _ _ S1|n _|n _].
  - apply made_ascii. eapply stored_made; eauto.
  - apply ascii_app. split; [apply made_ascii; eapply stored_made; eauto|]. apply ascii_app. split; [literal|apply ascii_dec].
  - literal.
  - literal.
Qed.
Lemma escape_ascii : forall s, ascii s -> ascii (html_escape s).
Proof.
  unfold html_escape. induction s as [|ch s IH]; intros F; [constructor|]. apply Forall_cons_iff in F. destruct F as [F1 F2]. cbn [map concat].
  apply ascii_app. split; [|now apply IH]. unfold escape_char. repeat (destruct (ch =? _); [literal|]). constructor; [exact F1|constructor].
Qed.
Definition tval_ascii (v : tval) : Prop := ascii (tval_str v).
Lemma value_ascii : forall (point : Z -> tval -> Prop) (zone : bool -> Z -> pystr -> Prop) (stems : bool -> list pystr) i a v, (forall n t, point n t -> tval_ascii t) -> (forall top n z, zone top n z -> ascii z) ->
  (forall hor, Forall ascii (stems hor)) -> S_Tth.value point zone stems i a (Some v) -> tval_ascii v.
Proof.
  intros point zone stems i a v P Z S1 H. destruct a; cbn [S_Tth.value] in H.
  - destruct H as (n & l & _ & H & E). injection E as ->. eapply P; eauto.
  - destruct H as (n & z & _ & H & E). injection E as ->. eapply Z; eauto.
  - destruct H as (n & _ & H). destruct (n <? 0); [discriminate|]. destruct H as (s & E & N). injection E as ->. apply nth_error_In in N.
    specialize (S1 h). rewrite Forall_forall in S1. now apply S1.
  - destruct H as (n & _ & H). destruct (n <? -1); [|discriminate]. injection H as ->. unfold tval_ascii. literal.
  - destruct H as (n & _ & H). destruct (n <? 0); [discriminate|]. injection H as ->. unfold tval_ascii. cbn [tval_str].
    repeat (destruct (n =? _); [literal|]). literal.
  - destruct H as (n & _ & H). injection H as ->. apply ascii_dec.
Qed.
Lemma command_ascii : forall (point : Z -> tval -> Prop) (zone : bool -> Z -> pystr -> Prop) (stems : bool -> list pystr) i d, (forall n t, point n t -> tval_ascii t) -> (forall top n z, zone top n z -> ascii z) ->
  (forall hor, Forall ascii (stems hor)) -> exported_command point zone stems i d -> forall x, cmd_xml d = Ok x -> ascii x.
Proof.
  intros point zone stems i d P Z S1 (code & attrs & A & Nd & C & F & K) x H. unfold cmd_xml, aget_res in H. rewrite C in H. cbn [rmap tval_str] in H. apply Ok_inj in H. subst x.
  assert (Ac : ascii code).
  { unfold attributes in A. cbn [In] in A. repeat (destruct A as [A|A]; [injection A as _ <- _; literal|]). destruct A. }
  assert (V : forall key v, aget str_eqb key d = Some v -> tval_ascii v).
  { intros key v E. pose proof E as I. apply (aget_In str_eqb str_eqb_eq) in I. destruct (K key v I) as [->|Ik].
    - rewrite C in E. injection E as <-. exact Ac.
    - apply in_map_iff in Ik. destruct Ik as ([k a] & Ek & Ia). cbn [fst] in Ek. subst k. rewrite Forall_forall in F. specialize (F _ Ia). cbn [fst snd] in F. rewrite E in F.
      eapply value_ascii; eauto. }
  apply ascii_app. split; [literal|]. unfold quoted. apply ascii_app. split; [|apply ascii_app; split; [|literal]].
  - apply ascii_app. split; [literal|]. apply ascii_app. split; [exact Ac|literal].
  - assert (X : forall attr, In attr xml_attrs -> ascii (xml_attr d attr)).
    { intros attr I. unfold xml_attr. destruct (aget str_eqb attr d) as [v|] eqn:E; [|constructor]. apply ascii_app. split; [literal|]. apply ascii_app. split.
      - unfold xml_attrs in I. cbn [In] in I. repeat (destruct I as [I|I]; [subst attr; literal|]). destruct I.
      - apply ascii_app. split; [literal|]. unfold quoted. apply ascii_app. split; [literal|]. apply ascii_app. split; [|literal]. apply escape_ascii. exact (V _ _ E). }
    revert X. generalize xml_attrs. induction l as [|a l IH]; intros X; [constructor|]. cbn [map concat]. apply ascii_app. split; [apply X; now left|]. apply IH. intros b I. apply X. now right.
Qed.
Lemma text_ascii : forall (point : Z -> tval -> Prop) (zone : bool -> Z -> pystr -> Prop) (stems : bool -> list pystr) is ds t, (forall n t, point n t -> tval_ascii t) -> (forall top n z, zone top n z -> ascii z) ->
  (forall hor, Forall ascii (stems hor)) -> Forall2 (exported_command point zone stems) is ds -> tth_lib ds = Ok (Some t) -> ascii t.
Proof.
  intros point zone stems is ds t P Z S1 F H. unfold tth_lib in H. destruct (res_map cmd_xml ds) as [ls|] eqn:E; [|discriminate]. cbn [rmap] in H.
  assert (L : Forall ascii ls).
  { clear H. revert ls E. induction F as [|i d is ds X F IH]; intros ls E; cbn [res_map] in E; [apply Ok_inj in E; subst ls; constructor|].
    destruct (cmd_xml d) as [x|] eqn:Ex; [|discriminate]. cbn [rthen] in E. destruct (res_map cmd_xml ds) as [ls1|]; [|discriminate]. cbn [rmap] in E. apply Ok_inj in E. subst ls.
    constructor; [|now apply IH]. eapply command_ascii; eauto. }
  destruct ls as [|l ls]; [discriminate|]. apply (f_equal (fun r => match r with Ok (Some t) => t | _ => [] end)) in H. cbn beta iota in H. subst t.
  apply ascii_app. split; [literal|]. apply ascii_app. split; [literal|]. apply ascii_app. split; [|literal].
  clear - L. remember (l :: ls) as xs. clear Heqxs l ls. induction xs as [|x xs IH]; [constructor|]. apply Forall_cons_iff in L. destruct L as [L1 L2]. cbn [join_nl].
  destruct xs; [exact L1|]. apply ascii_app. split; [exact L1|]. constructor; [lia|]. now apply IH.
Qed.
Lemma finalize_ok : forall b t, (b = true -> ascii t) -> exists r, finalize_tth b (Some t) = Ok r.
Proof.
  intros b t H. cbn [finalize_tth]. destruct b; [|eauto]. replace (forallb (fun c => c <? 128) t) with true; [eauto|].
  symmetry. apply forallb_forall. intros ch I. specialize (H eq_refl). unfold ascii in H. rewrite Forall_forall in H. specialize (H ch I). cbn beta in H. lia.
Qed.
Lemma lib_made : forall o f order t stems st0 l st, op_fuel o = S (S f) -> (forall h, builder_stems t h = stems h) -> store_ok st -> extends st0 st ->
  (forall name g x z is, In (name, g) l -> bg_data g = VGlyph x z -> mg_tth x = Some is -> exists n, points_of st0 order name n /\ Forall (instruction_fine stems n z) is) ->
  exists r, tt_glyph_lib o order t l st = Ok r.
Proof.
  intros o f order t stems st0. induction l as [|[name g] l IH]; intros st Ef Es O X W; [eexists; reflexivity|].
  assert (W' : forall name g x z is, In (name, g) l -> bg_data g = VGlyph x z -> mg_tth x = Some is -> exists n, points_of st0 order name n /\ Forall (instruction_fine stems n z) is).
  { intros ? ? ? ? ? I. eapply W. right. exact I. }
  cbn [tt_glyph_lib]. destruct (bg_data g) as [x z|d] eqn:Ed; [|now apply IH]. destruct (mg_tth x) as [is|] eqn:Et; [|now apply IH].
  destruct (W name g x z is (or_introl eq_refl) Ed Et) as (n & Pn & Fi).
  destruct (one_commands f order t stems st0 st name z n is Es O X Pn Fi) as (ds & st1 & E1 & O1 & X1 & F1). rewrite Ef, E1. cbn [rthen fst snd].
  destruct (IH st1 Ef Es O1 (extends_trans _ _ _ X X1) W') as (r & ->). eexists. reflexivity.
Qed.

(** ** The parts of a master *)
Lemma index_ok : forall A (l : list A) n m, covers n l -> 0 <= m < n -> exists x, py_index l m = Ok x /\ nth_error l (Z.to_nat m) = Some x.
Proof.
  intros A l n m C R. unfold covers in C. destruct (nth_error l (Z.to_nat m)) as [x|] eqn:E.
  - exists x. split; [|reflexivity]. apply py_index_some; [lia|exact E].
  - apply nth_error_None in E. lia.
Qed.
Lemma groups_ok : forall flags order skip gs st, Forall (fun p => snd p <> []) flags ->
  exists st', transform_groups_from flags order skip gs st = Ok st'.
Proof.
  intros flags order skip. induction gs as [|[name glyphs] gs IH]; intros st F; [eexists; reflexivity|].
  cbn [transform_groups_from].
  assert (X : exists st1, transform_group flags order skip name glyphs st = Ok st1).
  { unfold transform_group. cbv zeta. destruct (check_for_missing_glyphs _ _ _) as [gl missing]. destruct (starts _ _); [|eauto].
    destruct (aget str_eqb name flags) as [fl|] eqn:E; [|eauto]. apply (aget_In str_eqb str_eqb_eq) in E. rewrite Forall_forall in F. specialize (F _ E). cbn [snd] in F.
    destruct fl as [|x fl]; [congruence|]. change (py_index (x :: fl) 0) with (Ok x). cbn [rmap]. eauto. }
  destruct X as (st1 & ->). cbn [rthen]. now apply IH.
Qed.
Lemma kerning_ok : forall n order keys gs kerning acc,
  Forall (fun p => 0 <= snd (fst p) < Z.of_nat (List.length order) /\ covers n (snd p)) kerning -> Forall (fun p : (pystr * pystr) * list Z => covers n (snd p)) acc ->
  exists r, make_name_based_kerning order keys gs kerning acc = Ok r /\ Forall (fun p => covers n (snd p)) r.
Proof.
  intros n order keys gs. induction kerning as [|[lr values] kerning IH]; intros acc F A; [exists acc; split; [reflexivity|exact A]|].
  apply Forall_cons_iff in F. destruct F as [[F1 F2] F3]. cbn [fst snd] in *. cbn [make_name_based_kerning]. unfold name_pair.
  destruct (index_ok _ order _ (snd lr) (Z.le_refl _) F1) as (r & -> & _). cbn [rmap rthen]. apply IH; [exact F3|].
  clear - A F2. induction acc as [|[k v] acc IHa]; cbn [aset]; [constructor; [exact F2|constructor]|]. apply Forall_cons_iff in A. destruct A as [A1 A2].
  destruct (M_Groups.pair_eqb _ k); constructor; auto.
Qed.
Lemma master_kerning_ok : forall n m k l acc, 0 <= m < n -> Forall (fun p : (pystr * pystr) * list Z => covers n (snd p)) l -> exists r, master_kerning_from k m l acc = Ok r.
Proof.
  intros n m k. induction l as [|[lr values] l IH]; intros acc R F; [eexists; reflexivity|]. apply Forall_cons_iff in F. destruct F as [F1 F2]. cbn [snd] in F1.
  cbn [master_kerning_from]. destruct (index_ok _ values n m F1 R) as (v & -> & _). cbn [rthen]. now apply IH.
Qed.
Lemma shared_ok : forall n gs flags order minimal add move kerning code, Forall (fun p => snd p <> []) flags ->
  Forall (fun p => 0 <= snd (fst p) < Z.of_nat (List.length order) /\ covers n (snd p)) kerning ->
  (exists tg, transform_groups gs flags order minimal = Ok tg) /\
  exists sh, export_shared gs flags order minimal add move kerning code = Ok sh /\
    forall m, 0 <= m < n -> exists r, get_master_kerning (us_kerning sh) m = Ok r.
Proof.
  intros n gs flags order minimal add move kerning code F K. unfold export_shared, transform_groups.
  destruct (groups_ok flags order minimal gs (mkTG [] [] []) F) as (tg & ->). split; [eauto|]. cbn [rthen]. unfold new_ufo_kerning.
  destruct (build_glyph_to_group_maps _) as [[gs' m1] m2].
  destruct (kerning_ok n order (reverse_key_glyphs (tg_keys tg)) gs' kerning [] K (Forall_nil _)) as (r & -> & R). cbn [rmap].
  destruct (classes_to_features _ _ _ _ _) as [text moved]. eexists. split; [reflexivity|]. cbn [us_kerning]. intros m Hm. unfold get_master_kerning. cbn [uk_kerning].
  eapply master_kerning_ok; eauto.
Qed.
Lemma guides_ok : forall number n d p m, guides_fine n d p -> 0 <= m < n -> exists r, extract_guides number d p m = Ok r.
Proof.
  intros number n d p m [G P] R. apply Forall_app in G, P. destruct G as [Gh Gv], P as [Ph Pv].
  assert (X : forall vertical l, Forall (covers n) l -> exists us, res_map (get_master_guide number vertical m) l = Ok us /\ Forall undecorated us).
  { intros vertical. induction l as [|g l IH]; intros F; [exists []; split; [reflexivity|constructor]|]. apply Forall_cons_iff in F. destruct F as [F1 F2].
    destruct (IH F2) as (us & E & U). cbn [res_map]. unfold get_master_guide at 1. destruct (index_ok _ g n m F1 R) as (mg & -> & _). cbn [rmap rthen]. rewrite E. cbn [rmap].
    eexists. split; [reflexivity|]. constructor; [|exact U]. destruct vertical; split; reflexivity. }
  unfold extract_guides, get_master_guides. destruct (X false _ Gh) as (h & -> & Uh). cbn [rthen]. destruct (X true _ Gv) as (v & -> & Uv). cbn [rmap rthen].
  unfold apply_guide_properties. cbn [fst snd]. destruct (apply_properties_ok h Uh _ Ph) as (h' & -> & _). cbn [rthen].
  destruct (apply_properties_ok v Uv _ Pv) as (v' & -> & _). cbn [rmap]. eauto.
Qed.
(** what is made besides contours and hints *)
Definition rest_made (c : settings) (o : options) (order : list pystr) (m : Z) (g : bglyph gvalue) : Prop :=
  forall x z, bg_data g = VGlyph x z ->
    (exists a, (if st_minimal c then Ok None else rmap Some (extract_contours m (fun _ => None) (glyph_mask g))) = Ok a) /\
    (exists b, extract_components (op_round15 o) order m (map component_of (mg_components x)) = Ok b) /\
    (exists d, build_master (st_minimal c) m x (glyph_extras_of g) = Ok d) /\
    (exists e, (if st_minimal c then Ok []
                else match mg_guides x with None => Ok [] | Some gs => extract_guides (op_number o) gs (glyph_props g) m end) = Ok e).
Lemma rest_ok : forall c o order n m b g, 0 <= m < n -> block_fine (st_minimal c) n (Z.of_nat (List.length order)) b -> glyph_data c b g -> rest_made c o order m g.
Proof.
  intros c o order n m [x details] g R (M & Co & A & P & _ & Mi) [(x' & y & z' & Rb & D') Hf Ha Hu Hm] mx z D. cbn [fst snd] in *.
  rewrite D in D'. injection D' as <- <-. destruct M as (metrics & Em & Cm).
  unfold build_mm_glyph in Rb. destruct (g_name x); [|discriminate]. cbn [get_key rthen] in Rb. rewrite Em in Rb. cbn [get_key rthen] in Rb.
  destruct (g_nodes x); [|discriminate]. cbn [get_key rmap] in Rb. apply Ok_inj in Rb. injection Rb as Rb _.
  assert (Eg : st_minimal c = false -> mg_guides mx = g_guides x) by (intros E; subst mx; cbn [mg_guides]; now rewrite E).
  assert (Ek : mg_components mx = components_of x) by (subst mx; reflexivity). assert (Ex : mg_metrics mx = metrics) by (subst mx; reflexivity). clear Rb.
  assert (Emask : glyph_mask g = said_mask details) by (unfold glyph_mask, said_mask; now rewrite (Hf FMask 2009 eq_refl)).
  assert (Ep : glyph_props g = said_props details) by (unfold glyph_props, said_props; now rewrite (Hf FGuides 2031 eq_refl)).
  split; [|split; [|split]].
  - destruct (st_minimal c); [eauto|]. destruct (Mi eq_refl) as ((gs & Cg) & No & _). rewrite Emask. rewrite <- (Z2Nat.id m) by lia.
    specialize (No (Z.to_nat m) ltac:(lia)). rewrite (extract_ok (Z.to_nat m) (fun _ => None) (said_mask details) gs No Cg). cbn [rmap]. eauto.
  - rewrite Ek. unfold extract_components. clear - Co R. induction (components_of x) as [|k ks IH]; [eexists; reflexivity|].
    apply Forall_cons_iff in Co. destruct Co as [(C1 & C2 & C3 & C4 & C5) Co]. cbn [map res_map]. unfold extract_component, component_of. cbn [co_scale_x co_scale_y co_offset_x co_offset_y M_Paths.co_gid].
    destruct (index_ok _ (co_sx k) n m C4 R) as (a1 & -> & _). cbn [rthen]. destruct (index_ok _ (co_sy k) n m C5 R) as (a2 & -> & _). cbn [rthen].
    destruct (index_ok _ (co_x k) n m C2 R) as (a3 & -> & _). cbn [rthen]. destruct (index_ok _ (co_y k) n m C3 R) as (a4 & -> & _). cbn [rthen].
    destruct (index_ok _ order _ (M_Glyph.co_gid k) (Z.le_refl _) C1) as (a5 & -> & _). cbn [rthen]. destruct (IH Co) as (r & E). unfold extract_component, component_of in E. rewrite E. eexists. reflexivity.
  - unfold build_master. rewrite Ex.
    assert (Mk : exists k, (if st_minimal c then Ok None else rmap Some (extract_mask_metrics m metrics (ge_mask_metrics (glyph_extras_of g)))) = Ok k).
    { destruct (st_minimal c); [eauto|]. destruct (Mi eq_refl) as (_ & _ & S & _). unfold extract_mask_metrics. cbn [glyph_extras_of ge_mask_metrics]. rewrite Hm.
      destruct S as [->|S]; [destruct (index_ok _ metrics n m Cm R) as (w & -> & _); cbn [rmap]; eauto|].
      destruct (index_ok _ _ n m S R) as (w & E & _). rewrite E. unfold covers in S. destruct (mask_sizes details) as [|s0 ss]; [cbn in S; lia|].
      replace (_ <? _) with false by lia. cbn [rmap]. eauto. }
    destruct Mk as (k & ->). cbn [rthen].
    assert (Ei : match ge_mm_anchors (glyph_extras_of g) with Some l => l | None => [] end = said_positions details).
    { cbn [glyph_extras_of ge_mm_anchors]. unfold glyph_mm_anchors, said_positions. rewrite (Hf FMMAnchors 2029 eq_refl). destruct (said 2029 details) as [[]|]; reflexivity. }
    destruct (extract_anchors_ok m (ge_anchors (glyph_extras_of g)) (ge_mm_anchors (glyph_extras_of g))) as (r & -> & _).
    + lia.
    + rewrite Ei. eapply Forall_impl; [|exact P]. intros p [P1 P2]. unfold covers in *. lia.
    + rewrite Ei. cbn [glyph_extras_of ge_anchors]. rewrite Ha. unfold covers in A. lia.
    + cbn [rthen]. destruct (index_ok _ metrics n m Cm R) as (w & -> & _). cbn [rmap]. eauto.
  - destruct (st_minimal c) eqn:Ec; [eauto|]. rewrite Eg by reflexivity. destruct (g_guides x) as [d|] eqn:Ed; [|eauto].
    destruct (Mi eq_refl) as (_ & _ & _ & Gd). rewrite Ep. eapply guides_ok; [apply Gd; reflexivity|exact R].
Qed.
(** ** The masters *)
Definition text_made (o : options) (commands : list (pystr * list command)) (name : pystr) : Prop :=
  exists t r, tth_lib (match aget str_eqb name commands with Some l => l | None => [] end) = Ok t /\ finalize_tth (op_base64 o) t = Ok r.
Lemma all_made : forall c o order m commands bs glyphs st outs st', Forall2 (built c) bs glyphs ->
  Forall (fun p => rest_made c o order m (snd p) /\ text_made o commands (fst p)) glyphs ->
  export_master (op_fuel o) order (st_ps_hints c) m (font_of c bs) st = Ok (outs, st') ->
  exists gs ks, export_all c o order m glyphs commands st = Ok (gs, ks, st').
Proof.
  intros c o order m commands bs glyphs st outs st' B. revert st outs st'. induction B as [|b [name g] bs glyphs (N & x & D & Nd & _ & _ & E) B IH]; intros st outs st' F H.
  - cbn in H. apply Ok_inj in H. injection H as _ <-. exists [], []. reflexivity.
  - apply Forall_cons_iff in F. destruct F as [[F1 (t & r & T1 & T2)] F2]. cbn [fst snd] in *. unfold font_of in H. cbn [map export_master] in H. rewrite N in H. fold (font_of c bs) in H.
    destruct (export_glyph _ _ _ _ _ _ _) as [[ex st3]|] eqn:A1; [|discriminate]. cbn [rthen fst snd] in H.
    destruct (export_master _ _ _ _ _ _) as [[outs1 st4]|] eqn:A2; [|discriminate]. cbn [rmap fst snd] in H. apply Ok_inj in H. injection H as _ <-.
    destruct (IH _ _ _ F2 A2) as (gs & ks & Ea). cbn [export_all]. unfold export_one. rewrite D.
    assert (A3 : export_glyph (op_fuel o) order (st_ps_hints c) m name (eglyph_of x g) st = Ok (ex, st3)).
    { rewrite bare_export. rewrite <- A1, <- E. destruct (st_ps_hints c); reflexivity. }
    rewrite A3. cbn [rthen fst snd]. rewrite T1. cbn [rthen]. destruct (F1 _ _ D) as ((a & ->) & (b1 & ->) & (d & ->) & (e & ->)). cbn [rthen].
    rewrite T2. cbn [rmap rthen fst snd]. rewrite Ea. cbn [rmap fst snd]. eauto.
Qed.
Lemma masters_made : forall c o s sh lib commands bs n k m st outs st', Forall2 (built c) bs (bs_glyphs (fo_glyphs s)) -> 0 <= m -> m + Z.of_nat k <= n ->
  (forall i, 0 <= i < n -> (exists r, get_master_kerning (us_kerning sh) i = Ok r) /\
    (exists r, get_master_info (st_ps_hints c) (fo_counts s) (ps_infos s) i (fo_info s) = Ok r) /\ (exists r, font_guides c o s i = Ok r) /\
    Forall (fun p => rest_made c o (bs_order (fo_glyphs s)) i (snd p) /\ text_made o commands (fst p)) (bs_glyphs (fo_glyphs s))) ->
  export_masters (op_fuel o) (bs_order (fo_glyphs s)) (st_ps_hints c) m k (font_of c bs) st = Ok (outs, st') ->
  exists us, ufo_masters c o s sh lib commands m k st = Ok us /\ List.length us = k.
Proof.
  intros c o s sh lib commands bs n. induction k as [|k IH]; intros m st outs st' B Hm Hn W H; [exists []; split; reflexivity|].
  cbn [export_masters] in H. destruct (export_master _ _ _ _ _ _) as [[out1 st1]|] eqn:E1; [|discriminate]. cbn [rthen fst snd] in H.
  destruct (export_masters _ _ _ _ _ _ _) as [[outs2 st2]|] eqn:E2; [|discriminate].
  destruct (W m ltac:(lia)) as ((r1 & K) & (r2 & Ki) & (r3 & Kg) & F). destruct (all_made _ _ _ _ _ _ _ _ _ _ B F E1) as (gs & ks & Ea).
  cbn [ufo_masters]. unfold get_ufo_master. rewrite K. cbn [rthen]. rewrite Ki. cbn [rthen]. rewrite Kg. cbn [rthen]. rewrite Ea. cbn [rmap rthen fst snd].
  destruct (IH (m + 1) st1 outs2 st2 B ltac:(lia) ltac:(lia) W E2) as (us & -> & L). cbn [rmap]. eexists. split; [reflexivity|]. cbn. lia.
Qed.
