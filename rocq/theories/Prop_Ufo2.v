(** C88: what the UFOs have besides glyphs, from the entries of a VFB. *)
From Coq Require Import String QArith Lia ZifyBool ZifyNat.
From Verif Require Import Base Lib M_Py M_Helpers M_Simple M_Text M_TrueType M_Bitmap M_Glyph M_Options M_Container M_Table M_Groups.
From Verif Require Import M_Info M_FontInfo M_Tth M_Programs M_Builder M_Master M_Features M_Designspace M_Build M_Labels M_PsHints.
From Verif Require Import M_Paths M_Guides M_Export M_Ufo S_Build S_Paths S_Guides S_Ufo S_Builder S_Groups S_Master S_FontInfo.
From Verif Require Import S_Labels S_Tth S_Programs Prop_Tth.
From Verif Require Import P_Builder Prop_Builder Prop_Build Prop_Groups Prop_Features Prop_Master P_Ufo P_Ufo2 Prop_Ufo.
Local Open Scope list_scope.
Local Open Scope Z_scope.

(** the steps of the export *)
Lemma export_inv : forall c o es ufos, vfb_to_ufos c o es = Ok ufos ->
  exists s commands st0 tg sh, build_font c es = Ok s /\
    tt_glyph_lib o (bs_order (fo_glyphs s)) (fo_tt s) (sorted_glyphs (bs_glyphs (fo_glyphs s))) (first_store (bs_glyphs (fo_glyphs s))) = Ok (commands, st0) /\
    transform_groups (fo_groups s) (fo_flags s) (bs_order (fo_glyphs s)) (st_minimal c) = Ok tg /\
    export_shared (fo_groups s) (fo_flags s) (bs_order (fo_glyphs s)) (st_minimal c) (op_kerning_fea o) (op_move_fea o)
      (bs_kerning (fo_glyphs s)) (fo_features s) = Ok sh /\
    let lib := FontLib (bs_order (fo_glyphs s)) (tg_order tg) (tg_keys tg) (hinting_lib s) (if_lib (fo_info s)) (fo_lib s) in
    forall m u, nth_error ufos m = Some u -> exists st1 st2 g kerning info guides,
      get_master_kerning (us_kerning sh) (Z.of_nat m) = Ok kerning /\
      get_master_info (st_ps_hints c) (fo_counts s) (ps_infos s) (Z.of_nat m) (fo_info s) = Ok info /\
      font_guides c o s (Z.of_nat m) = Ok guides /\
      export_all c o (bs_order (fo_glyphs s)) (Z.of_nat m) (bs_glyphs (fo_glyphs s)) commands st1 = Ok (g, st2) /\
      u = Ufo (us_features sh) (us_groups sh) info guides kerning lib (fst g) (snd g).
Proof.
  intros c o es ufos H. unfold vfb_to_ufos in H. destruct (build_font c es) as [s|] eqn:B; [|discriminate]. cbn [rthen] in H.
  unfold get_ufo_masters in H. destruct (tt_glyph_lib _ _ _ _ _) as [[commands st0]|] eqn:Et; [|discriminate]. cbn [rthen fst snd] in H.
  destruct (transform_groups _ _ _ _) as [tg|] eqn:Eg; [|discriminate]. cbn [rthen] in H.
  destruct (export_shared _ _ _ _ _ _ _ _) as [sh|] eqn:Es; [|discriminate]. cbn [rthen] in H.
  exists s, commands, st0, tg, sh. split; [reflexivity|]. split; [exact Et|]. split; [exact Eg|]. split; [exact Es|]. cbv zeta. intros m u Hu.
  change 0 with (Z.of_nat 0) in H. destruct (masters_nth _ _ _ _ _ _ _ _ _ _ H) as [_ R]. destruct (R m u Hu) as (st1 & st2 & E). clear H R.
  cbn [Nat.add] in E. unfold get_ufo_master in E. destruct (get_master_kerning _ _) as [k|] eqn:Ek; [|discriminate]. cbn [rthen] in E.
  destruct (get_master_info _ _ _ _ _) as [i|] eqn:Ei; [|discriminate]. cbn [rthen] in E. destruct (font_guides _ _ _ _) as [gd|] eqn:Ed; [|discriminate]. cbn [rthen] in E.
  destruct (export_all _ _ _ _ _ _ _) as [[g st3]|] eqn:Ee; [|discriminate]. cbn [rmap fst snd] in E. apply Ok_inj in E. injection E as E _.
  exists st1, st3, g, k, i, gd. repeat split; try assumption. symmetry. exact E.
Qed.

(** ** C88 *)
(** The masters have the same features, groups and lib. *)
Theorem C88_shared : forall c o es ufos u u', vfb_to_ufos c o es = Ok ufos -> In u ufos -> In u' ufos ->
  uf_features u = uf_features u' /\ uf_groups u = uf_groups u' /\ uf_lib u = uf_lib u'.
Proof.
  intros c o es ufos u u' H I I'. destruct (export_inv c o es ufos H) as (s & commands & st0 & tg & sh & _ & _ & _ & _ & R). cbv zeta in R.
  apply In_nth_error in I, I'. destruct I as (m & I), I' as (m' & I').
  destruct (R m u I) as (? & ? & ? & ? & ? & ? & _ & _ & _ & _ & ->), (R m' u' I') as (? & ? & ? & ? & ? & ? & _ & _ & _ & _ & ->). repeat split.
Qed.

Lemma bpair_eqb_eq : forall a b, M_Builder.pair_eqb a b = true <-> a = b.
Proof.
  intros [a i] [b j]. unfold M_Builder.pair_eqb. cbn [fst snd]. rewrite Bool.andb_true_iff, str_eqb_eq, Z.eqb_eq. split; [intros [-> ->]; reflexivity|].
  intros E. injection E as -> ->. split; reflexivity.
Qed.
Lemma kerning_nodup : forall V (es : list (b_entry V)) s, build es = Ok s -> NoDup (map fst (bs_kerning s)).
Proof.
  intros V es s H. unfold build in H. destruct (b_loop b_start es) as [s1|] eqn:E; [|discriminate]. cbn [rmap] in H. apply Ok_inj in H. subst s.
  assert (Fx : bs_kerning (fix_masters_count (store_last s1)) = bs_kerning s1).
  { unfold fix_masters_count, store_last. destruct (bs_current s1); cbv zeta; destruct (_ <? _); reflexivity. }
  rewrite Fx. clear Fx. assert (N : NoDup (map fst (bs_kerning (@b_start V)))) by constructor. revert N E. generalize (@b_start V).
  induction es as [|e es IH]; intros t N E; cbn [b_loop] in E; [apply Ok_inj in E; now subst|].
  destruct (b_add t e) as [t1|] eqn:A; [|discriminate]. cbn [rthen] in E. apply (IH t1); [|exact E]. clear E IH.
  assert (W : forall f, with_glyph f t = Ok t1 -> NoDup (map fst (bs_kerning t1))).
  { intros f X. unfold with_glyph in X. destruct (bs_current t); [|discriminate]. apply Ok_inj in X. now subst t1. }
  destruct e; cbn [b_add] in A; try (eapply W; exact A); apply Ok_inj in A; subst t1; try exact N.
  unfold new_glyph. cbn [bs_kerning].
  assert (S : bs_kerning (store_glyph t) = bs_kerning t).
  { unfold store_glyph. destruct (bs_current t); [|reflexivity]. destruct (aget _ _ _); [|reflexivity]. destruct (free_name _ _ _ _); reflexivity. }
  rewrite S. clear S W. revert N. generalize (bs_kerning t). induction kerning as [|x l IH]; intros d N; cbn [fold_left]; [exact N|].
  apply IH. apply (aset_nodup _ bpair_eqb_eq); exact N.
Qed.
(** The kerning of every master: the values that the glyph entries have for the master, between the groups of which the
    glyphs are key glyphs, or the glyphs themselves. Zeros are left out, but for exceptions to a group. *)
Theorem C88_kerning : forall c o es ufos m u, Forall typed es -> vfb_to_ufos c o es = Ok ufos ->
  let l := used (st_vfb_minimal c) es in good_glyphs l -> nth_error ufos m = Some u -> op_move_fea o = false ->
  Forall (fun n => ~ kerning_name n) (names_of l) ->
  Forall (fun x => Forall (fun p => 0 <= fst p < Z.of_nat (List.length (names_of l)) /\ (m < List.length (snd p))%nat) (kerning_of x)) (glyph_entries l) ->
  NoDup (map fst (uf_kerning u)) /\
  forall left right v, In ((left, right), v) (uf_kerning u) <->
    exists x L rid R values, In x (glyph_entries l) /\ g_name x = Some L /\ In (rid, values) (kerning_of x) /\
      nth_error (names_of l) (Z.to_nat rid) = Some R /\ nth_error values m = Some v /\
      kerned_as first_side (fl_key_glyphs (uf_lib u)) (uf_groups u) L left /\
      kerned_as second_side (fl_key_glyphs (uf_lib u)) (uf_groups u) R right /\
      (v <> 0 \/ excepted first_side (fl_key_glyphs (uf_lib u)) (uf_groups u) left \/
                 excepted second_side (fl_key_glyphs (uf_lib u)) (uf_groups u) right).
Proof.
  intros c o es ufos m u T H l (G1 & G2 & G3 & G4 & G5) Hu Mv Nk Kr.
  destruct (export_inv c o es ufos H) as (s & commands & st0 & tg & sh & B & _ & Eg & Es & R). cbv zeta in R.
  destruct (R m u Hu) as (st1 & st2 & g & K & info & gd & Ek & _ & _ & _ & ->). clear R. cbn [uf_kerning uf_lib uf_groups fl_key_glyphs].
  destruct (C85_glyphs c es s T B G1 G2 G3 G4 G5) as (_ & O & _ & Kg). fold l in O, Kg. fold (names_of l) in O.
  destruct (C85_parts c es s T B) as [_ _ M _ _ _ _ _ _ _ _ _ _]. pose proof (kerning_nodup _ _ _ M) as Kn.
  destruct (C65_export _ _ _ _ _ _ _ _ _ Es) as (st & classes & T1 & T2 & _ & _ & _ & _ & _).
  rewrite Eg in T1. apply Ok_inj in T1. subst st. rewrite O in *.
  assert (Kf : Forall (fun p => ~ kerning_name (fst (fst p)) /\ 0 <= snd (fst p) < Z.of_nat (List.length (names_of l)) /\
                   0 <= Z.of_nat m < Z.of_nat (List.length (snd p))) (bs_kerning (fo_glyphs s))).
  { apply Forall_forall. intros [[L rid] values] I. apply Kg in I. destruct I as (x & I1 & I2 & I3). cbn [fst snd].
    rewrite Forall_forall in Kr. specialize (Kr x I1). rewrite Forall_forall in Kr. specialize (Kr _ I3). cbn [fst snd] in Kr.
    split; [|lia]. rewrite Forall_forall in Nk. apply Nk. unfold names_of. apply in_flat_map. exists x. split; [exact I1|]. unfold name_of. rewrite I2. now left. }
  destruct (C47_kerning _ _ _ _ _ _ _ Eg G3 Nk Kn Kf) as (k & K' & E1 & E2 & E3 & E4). rewrite T2 in E1. apply Ok_inj in E1. subst k.
  rewrite Ek in E2. apply Ok_inj in E2. subst K'.
  assert (Gr : us_groups sh = uk_groups (us_kerning sh)).
  { unfold export_shared in Es. rewrite Eg in Es. cbn [rthen] in Es. destruct (new_ufo_kerning _ _ _ _) as [k0|]; [|discriminate]. cbn [rmap] in Es.
    rewrite Mv in Es. destruct (classes_to_features _ _ _ _ _) as [text moved]. apply Ok_inj in Es. subst sh. reflexivity. }
  rewrite Gr. split; [exact E3|]. intros left right v. rewrite E4. rewrite Nat2Z.id. split.
  - intros (L & rid & R & values & I & F1 & F2 & F3 & F4 & F5). apply Kg in I. destruct I as (x & I1 & I2 & I3). exists x, L, rid, R, values. tauto.
  - intros (x & L & rid & R & values & I1 & I2 & I3 & F1 & F4 & F2 & F3 & F5). exists L, rid, R, values. split; [apply Kg; exists x; auto|]. tauto.
Qed.

Lemma infos_parts : forall c l z, Forall (fun e => type_of_key (fst e) (snd e) = true) l ->
  flat_map (fun v => match v with VData (DPSInfo p) => [p] | _ => [] end) (entry_infos (glyph_parts c z l)) = infos_said l.
Proof.
  intros c. induction l as [|[k d] l IH]; intros z T; [reflexivity|]. inversion_clear T as [|? ? T1 T2]. cbn [fst snd] in T1.
  cbn [glyph_parts]. unfold entry_infos in *. rewrite map_app, concat_app, flat_map_app, IH by exact T2. unfold infos_said. cbn [flat_map]. f_equal. clear IH T2.
  destruct (Z.eqb_spec k 1536) as [->|N1].
  { change (type_of_key 1536 d) with (match d with DPSInfo _ => true | _ => false end) in T1. destruct d; try discriminate T1. reflexivity. }
  unfold glyph_part. destruct k as [|p|p]; try reflexivity.
  repeat (match goal with |- context [match ?p with xH => _ | xO _ => _ | xI _ => _ end] => destruct p end; try reflexivity; try congruence);
    destruct d; try reflexivity.
  - destruct (build_mm_glyph _ _ _) as [[? ?]|]; reflexivity.
  - destruct (gd_anchors x); reflexivity.
Qed.
(** The attributes of every master: the ones of the PostScript info of the master, else those of the font. There is an
    info for every master. *)
Theorem C88_info : forall c o es ufos m u, Forall typed es -> vfb_to_ufos c o es = Ok ufos ->
  let l := used (st_vfb_minimal c) es in nth_error ufos m = Some u -> counts_ok (counts_said l) ->
  exists p, nth_error (infos_said l) m = Some p /\
    let values := master_values (st_ps_hints c) (counts_said l) p in
    (forall a v, In (a, v) values -> aget str_eqb a (if_attrs (uf_info u)) = Some v) /\
    (Forall entry_data_ok (flat_map info_part l) -> forall a v, ~ In a (map fst values) -> a <> py "postscriptUnderlinePosition" ->
       says false (flat_map info_part l) a v -> aget str_eqb a (if_attrs (uf_info u)) = v).
Proof.
  intros c o es ufos m u T H l Hu Cn. destruct (export_inv c o es ufos H) as (s & commands & st0 & tg & sh & B & _ & _ & _ & R). cbv zeta in R.
  destruct (R m u Hu) as (st1 & st2 & g & K & info & gd & _ & Ei & _ & _ & ->). clear R. cbn [uf_info].
  destruct (C85_parts c es s T B) as [_ _ M _ _ _ _ _ _ _ Fc _ _]. fold l in M, Fc.
  assert (Tl : Forall (fun e => type_of_key (fst e) (snd e) = true) l).
  { eapply Forall_impl; [|apply used_typed; exact T]. intros e X. exact (proj1 X). }
  assert (Pi : ps_infos s = infos_said l).
  { unfold ps_infos. destruct (build_masters _ _ _ M) as (_ & ->). now apply infos_parts. }
  fold (counts_said l) in Fc. rewrite Fc, Pi in Ei.
  destruct (nth_error (infos_said l) m) as [p|] eqn:En.
  2:{ exfalso. apply nth_error_None in En. rewrite C70_missing in Ei by lia. discriminate Ei. }
  exists p. split; [reflexivity|]. destruct (C70_info (st_ps_hints c) (counts_said l) (infos_said l) (Z.of_nat m) p (fo_info s) Cn ltac:(lia)) as (i' & E1 & E2 & E3 & _).
  { rewrite Nat2Z.id. exact En. }
  rewrite Ei in E1. apply Ok_inj in E1. subst i'. split; [exact E2|]. intros Ed a v Na Nu Sy. unfold attr in E3. rewrite E3 by exact Na.
  eapply C85_attributes; eassumption.
Qed.
(** The lib of the font. *)
Theorem C88_lib : forall c o es ufos u, Forall typed es -> vfb_to_ufos c o es = Ok ufos ->
  let l := used (st_vfb_minimal c) es in In u ufos ->
  (good_glyphs l -> fl_order (uf_lib u) = names_of l) /\
  (exists i, M_Programs.tt_build (st_asm c) (flat_map program_part l) = Ok i /\ fl_programs (uf_lib u) = if_lib i) /\
  (forall key, aget str_eqb key (fl_other (uf_lib u)) =
    if str_eqb key (py "com.fontlab.v5.userData") then said 2016 l
    else if str_eqb key (py "com.fontlab.v5.metricsClassFlags") then said 2024 l
    else None).
Proof.
  intros c o es ufos u T H l I. destruct (export_inv c o es ufos H) as (s & commands & st0 & tg & sh & B & _ & _ & _ & R). cbv zeta in R.
  apply In_nth_error in I. destruct I as (m & I). destruct (R m u I) as (? & ? & ? & ? & ? & ? & _ & _ & _ & _ & ->). clear R.
  cbn [uf_lib fl_order fl_programs fl_other]. pose proof (C85_parts c es s T B) as M. fold l in M. destruct M. split; [|split].
  - intros (G1 & G2 & G3 & G4 & G5). destruct (C85_glyphs c es s T B G1 G2 G3 G4 G5) as (_ & O & _). exact O.
  - destruct from_programs as (i & P & E). exists i. split; [exact P|exact E].
  - exact from_lib.
Qed.
(** The lib has the TrueType hinting options, stems and zones of the file, if there is any of them, and nothing if not. *)
Theorem C88_hinting : forall c o es ufos u, Forall typed es -> vfb_to_ufos c o es = Ok ufos ->
  let l := used (st_vfb_minimal c) es in In u ufos ->
  forall v h first top bottom d, let parts := flat_map tt_part l in
  stem_history v h first (filter stem_part parts) -> zone_history top bottom d (filter zone_part parts) -> deltas_ok top bottom d ->
  NoDup (map tz_name (bottom ++ top)) -> NoDup (all_names v h) ->
  match fl_hinting (uf_lib u) with
  | None => v = [] /\ h = [] /\ top = [] /\ bottom = [] /\ opt_build (flat_map option_part l) = None
  | Some (options, stems, zones) =>
      (options, stems, zones) <> ([], [], []) /\
      (forall key def, opt_value (Some options) key def = opt_value (opt_build (flat_map option_part l)) key def) /\
      map fst stems = all_names v h /\ map fst zones = map tz_name (bottom ++ top) /\
      (exists t, M_Tth.tt_build parts = Ok t /\ Forall2 (exported_stem t first) (all_stems v h) (map snd stems)) /\
      (forall k z, nth_error (bottom ++ top) k = Some z -> nth_error zones k = Some (tz_name z, exported_zone top bottom d k z))
  end.
Proof.
  intros c o es ufos u T H l I v h first top bottom d parts Hs Hz Hd Nz Nn.
  destruct (export_inv c o es ufos H) as (s & commands & st0 & tg & sh & B & _ & _ & _ & R). cbv zeta in R.
  apply In_nth_error in I. destruct I as (m & I). destruct (R m u I) as (? & ? & ? & ? & ? & ? & _ & _ & _ & _ & ->). clear R.
  cbn [uf_lib fl_hinting]. pose proof (C85_parts c es s T B) as M. fold l in M. destruct M.
  destruct (C51_export _ _ _ _ _ _ _ Hs Hz Hd Nz) as (t & Et & Hst & Zn & Zk). unfold parts in Et. rewrite from_hinting in Et. apply Ok_inj in Et. subst t.
  destruct (Hst Nn) as [Sn Sk]. clear Hst. unfold hinting_lib. rewrite from_options. unfold opt_build, opt_value.
  assert (Empty : forall lib, map fst (lib : list (pystr * ustem)) = all_names v h -> lib = [] -> v = [] /\ h = []).
  { intros lib E ->. symmetry in E. unfold all_names in E. apply app_eq_nil in E. destruct E as [Eh Ev].
    destruct h as [|w h]; [|cbn in Eh; destruct (sm_name w); discriminate]. destruct v as [|w v]; [auto|cbn in Ev; destruct (sm_name w); discriminate]. }
  assert (EmptyZ : ex_zones (fo_tt s) = [] -> top = [] /\ bottom = []).
  { intros E. rewrite E in Zn. destruct bottom; [|discriminate]. destruct top; [auto|discriminate]. }
  destruct (build_tt_stems_lib (fo_tt s)) as [|st sts] eqn:Est.
  - destruct (Empty [] Sn eq_refl) as [-> ->]. destruct (ex_zones (fo_tt s)) as [|z zs] eqn:Ez.
    + destruct (EmptyZ eq_refl) as [-> ->].
      destruct (fold_left opt_step _ None) as [[|p ps]|]; [auto| |auto]. split; [discriminate|]. split; [reflexivity|]. split; [exact Sn|]. split; [exact Zn|]. split; [eauto|exact Zk].
    + destruct (fold_left opt_step _ None) as [[|p ps]|]; (split; [discriminate|]; split; [reflexivity|]; split; [exact Sn|]; split; [exact Zn|]; split; [eauto|exact Zk]).
  - destruct (fold_left opt_step _ None) as [[|p ps]|]; (split; [discriminate|]; split; [reflexivity|]; split; [exact Sn|]; split; [exact Zn|]; split; [eauto|exact Zk]).
Qed.
(** The guidelines of the font, as in C67. *)
Theorem C88_guides : forall c o es ufos m u, Forall typed es -> vfb_to_ufos c o es = Ok ufos ->
  let l := used (st_vfb_minimal c) es in nth_error ufos m = Some u ->
  if st_minimal c then uf_guidelines u = []
  else match last_or None (map Some (flat_map guides_part l)) with
       | None => uf_guidelines u = []
       | Some d => guides_shown (op_number o) m d (last_or (GuideProps [] []) (flat_map props_part l)) (uf_guidelines u)
       end.
Proof.
  intros c o es ufos m u T H l Hu. destruct (export_inv c o es ufos H) as (s & commands & st0 & tg & sh & B & _ & _ & _ & R). cbv zeta in R.
  destruct (R m u Hu) as (st1 & st2 & g & K & info & gd & _ & _ & Ed & _ & ->). clear R. cbn [uf_guidelines].
  pose proof (C85_parts c es s T B) as M. fold l in M. destruct M. unfold font_guides in Ed. rewrite from_guides, from_props in Ed.
  destruct (st_minimal c); [now apply Ok_inj in Ed|]. destruct (last_or None _); [|now apply Ok_inj in Ed]. now apply guides_ok.
Qed.

(** The hypotheses for the file of C86. *)
Example c88_conditions : let l := used false c86_entries in
  counts_ok (counts_said l) /\ Forall entry_data_ok (flat_map info_part l) /\
  Forall (fun n => ~ kerning_name n) (names_of l) /\
  Forall (fun x => Forall (fun p => 0 <= fst p < Z.of_nat (List.length (names_of l)) /\ (1 < List.length (snd p))%nat) (kerning_of x)) (glyph_entries l).
Proof.
  cbv zeta. split; [|split; [|split]].
  - assert (E : counts_said (used false c86_entries) = PsCounts 0 0 0 0 0 0) by (vm_compute; reflexivity). rewrite E. repeat constructor; cbn; lia.
  - assert (E : flat_map info_part (used false c86_entries) = [(1024, Some (DVal (IStr (py "Test"))))]) by (vm_compute; reflexivity). rewrite E.
    constructor; [|constructor]. intros d X. injection X as <-. unfold data_ok. cbn [fst]. split; [eauto|]. repeat split; intros Q; first [discriminate Q|destruct Q as [Q|Q]; discriminate Q].
  - assert (E : names_of (used false c86_entries) = [py "A"; py "Aacute"]) by (vm_compute; reflexivity). rewrite E.
    repeat constructor; intros (s & X); discriminate X.
  - assert (E : map kerning_of (glyph_entries (used false c86_entries)) = [[(1, [-10; -20])]; []]) by (vm_compute; reflexivity).
    assert (L : List.length (names_of (used false c86_entries)) = 2%nat) by (vm_compute; reflexivity). rewrite L.
    apply Forall_map with (f := kerning_of) (P := fun k => Forall (fun p => 0 <= fst p < 2 /\ (1 < List.length (snd p))%nat) k). rewrite E.
    repeat constructor; cbn; lia.
Qed.
Example c88_info : forall ops up asm number, exists a b,
  vfb_to_ufos (Settings false false true ops up asm) (c86_options number) c86_entries = Ok [a; b] /\
  aget str_eqb (py "ascender") (if_attrs (uf_info a)) = Some (IInt 750) /\
  aget str_eqb (py "ascender") (if_attrs (uf_info b)) = Some (IInt 760) /\
  aget str_eqb (py "openTypeNameDesigner") (if_attrs (uf_info b)) = None.
Proof. intros. do 2 eexists. split; [vm_compute; reflexivity|]. repeat split. Qed.
(** with a flag that makes the class a kerning class *)
Example c88_kerning : forall ops up asm number, exists a b,
  vfb_to_ufos (Settings false false true ops up asm) (c86_options number) ((2026, Some (DFlags [(py "_A", [1024])])) :: c86_entries) = Ok [a; b] /\
  uf_groups b = [(py "public.kern1._A", [py "A"; py "Aacute"])] /\
  uf_kerning b = [((py "public.kern1._A", py "Aacute"), -20)].
Proof. intros. do 2 eexists. split; [vm_compute; reflexivity|]. split; reflexivity. Qed.
Print Assumptions C88_shared.
Print Assumptions C88_kerning.
Print Assumptions C88_info.
Print Assumptions C88_lib.
Print Assumptions C88_hinting.
Print Assumptions C88_guides.
