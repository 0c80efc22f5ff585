(** C62: what is extracted of the TrueType hinting of a font. *)
From Coq Require Import String Permutation Sorted.
From Verif Require Import Base Lib M_Py M_Text M_Glyph M_Labels M_TrueType M_Tth M_TthExtract S_Tth S_TthExtract P_Dec P_Glyph P_Tth P_TthExtract Prop_Tth.
From Verif Require S_GlyphAccess.
Local Open Scope list_scope.

Lemma nth_some : forall A (l : list A) k, (k < List.length l)%nat -> exists x, nth_error l k = Some x.
Proof. intros A l k H. destruct (nth_error l k) eqn:E; [eauto|]. apply nth_error_None in E. lia. Qed.
Lemma with_keys_names : forall hor ks l, List.length ks = List.length l -> map es_name (with_keys (stem_of hor) ks l) = ks.
Proof. intros. now apply with_keys_map. Qed.
Lemma glyph_ok : forall v h top bottom vn hn tn bn g s, List.length vn = List.length v -> List.length hn = List.length h ->
  List.length tn = List.length top -> List.length bn = List.length bottom ->
  x_stems s = Some (with_keys (stem_of true) vn v, with_keys (stem_of false) hn h) ->
  x_names_t s = set_names (with_keys (zone_of true) tn top) [] -> x_names_b s = set_names (with_keys (zone_of false) bn bottom) [] ->
  x_glyph_ok top bottom v h g -> ~ In (fst g) (map fst (x_glyphs s)) ->
  exists x, x_add s (glyph_entry g) = Ok (XState (x_stems s) (x_zones s) (x_deltas s) (x_names_t s) (x_names_b s) (x_round_v s) (x_round_h s) (x_glyphs s ++ [x])) /\
    extracted_glyph tn bn vn hn g x.
Proof.
  intros v h top bottom vn hn tn bn [name l] s Lv Lh Lt Lb Es Et Eb (Ne & Io & Rf) Nn. cbn [fst snd] in *.
  cbn [x_add glyph_entry fst snd]. unfold extract_glyph. destruct l as [|i0 l0]; [contradiction|]. set (l := i0 :: l0) in *. rewrite Es.
  set (zone := fun (t : bool) i => aget_res Z.eqb i (if t then x_names_t s else x_names_b s)).
  set (stems := fun hor : bool => map es_name (if hor then with_keys (stem_of false) hn h else with_keys (stem_of true) vn v)).
  assert (St : forall hor : bool, stems hor = if hor then hn else vn) by (intros []; unfold stems; now apply with_keys_names).
  destruct (export_commands_ok unit index_label zone stems (fun _ => True) (fun _ _ => True) (fun _ n l => l = TInt n) (fun _ => True)
    (fun (t : bool) n name => 0 <= n /\ nth_error (if t then tn else bn) (Z.to_nat n) = Some name)) with (l := l) (st := tt) as (ds & st' & Ed & _ & _ & F); auto.
  - intros st n code _ _ _. exists (TInt n), tt. repeat split.
  - rewrite Forall_forall in Rf, Io |- *. intros i Ii. destruct (Rf i Ii) as (Rz & Rs). pose proof (Io i Ii) as Oi. split; [auto|]. split.
    + intros n t Pn Ec. destruct (Rz n t Pn Ec) as (R0 & R1). unfold zone. destruct t.
      * rewrite Et. destruct (set_names_ok true tn top n Lt) as (k & E & K); [lia|]. exists k. auto.
      * rewrite Eb. destruct (set_names_ok false bn bottom n Lb) as (k & E & K); [lia|]. exists k. auto.
    + intros n Pn R0. rewrite St. specialize (Rs n (is_one (in_cmd i) [py "SingleLinkH"; py "DoubleLinkH"]) Pn R0 (stem_command _ _ Oi Pn)).
      destruct (is_one _ _); intros ->; [destruct h|destruct v]; try discriminate; contradiction.
  - rewrite Ed. cbn [rmap fst]. rewrite (aset_notin str_eqb str_eqb_eq) by assumption. exists (name, ds). split; [reflexivity|]. split; [reflexivity|].
    cbn [snd]. eapply Forall2_mono; [|exact F]. intros i c (code & attrs & A & Nk & C & Fv & K). exists code, attrs. repeat (split; [assumption|]). split; [|assumption].
    eapply Forall_impl; [|exact Fv]. intros [k a]. cbn [fst snd]. destruct a; cbn [value]; auto. now rewrite St.
Qed.
Lemma glyphs_ok : forall v h top bottom vn hn tn bn gs s, List.length vn = List.length v -> List.length hn = List.length h ->
  List.length tn = List.length top -> List.length bn = List.length bottom ->
  x_stems s = Some (with_keys (stem_of true) vn v, with_keys (stem_of false) hn h) ->
  x_names_t s = set_names (with_keys (zone_of true) tn top) [] -> x_names_b s = set_names (with_keys (zone_of false) bn bottom) [] ->
  Forall (x_glyph_ok top bottom v h) gs -> NoDup (map fst (x_glyphs s) ++ map fst gs) ->
  exists xs, res_fold x_add s (map glyph_entry gs) = Ok (XState (x_stems s) (x_zones s) (x_deltas s) (x_names_t s) (x_names_b s) (x_round_v s) (x_round_h s) (x_glyphs s ++ xs)) /\
    Forall2 (extracted_glyph tn bn vn hn) gs xs.
Proof.
  intros v h top bottom vn hn tn bn. induction gs as [|g gs IH]; intros s Lv Lh Lt Lb Es Et Eb F N.
  - exists []. split; [|constructor]. cbn. rewrite app_nil_r. now destruct s.
  - inversion F as [|? ? G F2]; subst. cbn [map] in N.
    destruct (glyph_ok v h top bottom vn hn tn bn g s Lv Lh Lt Lb Es Et Eb G) as (x & E & X).
    { apply NoDup_remove_2 in N. intros I. apply N, in_or_app. now left. }
    cbn [map res_fold]. rewrite E. cbn [rthen]. edestruct IH as (xs & E2 & X2); [exact Lv|exact Lh|exact Lt|exact Lb| | | |exact F2| |].
    5: { exists (x :: xs). split; [|constructor; [exact X|exact X2]]. rewrite E2. cbn [x_stems x_zones x_deltas x_names_t x_names_b x_round_v x_round_h x_glyphs]. rewrite <- app_assoc. reflexivity. }
    all: cbn [x_stems x_zones x_deltas x_names_t x_names_b x_round_v x_round_h x_glyphs]; try assumption.
    rewrite map_app, <- app_assoc. destruct X as (Ex & _). cbn [map]. now rewrite Ex.
Qed.

(** Each stem comes out once, vertical ones first, with its width, its direction and its rounding, under its
    name or its name with a number; each zone once, bottom zones first, with position, width, side and deltas,
    under its name or its name with a number; each glyph with hints, with a command for each instruction. *)
Theorem C62_extract : forall v h top bottom d entries glyphs,
  font_entries v h top bottom d entries -> deltas_ok top bottom d ->
  Forall (x_glyph_ok top bottom v h) glyphs -> NoDup (map fst glyphs) ->
  exists vn hn tn bn stems zones commands,
    extract_truetype_hinting (entries ++ map glyph_entry glyphs) = Ok (stems, zones, commands) /\
    List.length vn = List.length v /\ List.length hn = List.length h /\
    made_unique [] (map sm_name (v ++ h)) (vn ++ hn) /\ NoDup (vn ++ hn) /\ map fst stems = vn ++ hn /\
    Forall2 extracted_stem (map (pair true) v ++ map (pair false) h) (map snd stems) /\
    List.length tn = List.length top /\ List.length bn = List.length bottom /\
    made_unique [] (map tz_name (top ++ bottom)) (tn ++ bn) /\ NoDup (tn ++ bn) /\ map fst zones = bn ++ tn /\
    (forall k z, nth_error (bottom ++ top) k = Some z ->
       exists f, nth_error (map snd zones) k = Some f /\ extracted_zone bottom d k z f) /\
    Forall2 (extracted_glyph tn bn vn hn) glyphs commands.
Proof.
  intros v h top bottom d entries glyphs Hf Hd Hg Ng.
  destruct (extract_stems_ok true v []) as (vn & Ev & Uv). destruct (extract_stems_ok false h (rev vn ++ [])) as (hn & Eh & Uh).
  destruct (extract_zones_ok true top []) as (tn & Et & Ut). destruct (extract_zones_ok false bottom (rev tn ++ [])) as (bn & Eb & Ub).
  pose proof (made_unique_length _ _ _ Uv) as Lv. pose proof (made_unique_length _ _ _ Uh) as Lh. pose proof (made_unique_length _ _ _ Ut) as Lt. pose proof (made_unique_length _ _ _ Ub) as Lb.
  rewrite map_length in Lv, Lh, Lt, Lb.
  assert (Us : made_unique [] (map sm_name (v ++ h)) (vn ++ hn)) by (rewrite map_app; now apply made_unique_app).
  assert (Uz : made_unique [] (map tz_name (top ++ bottom)) (tn ++ bn)) by (rewrite map_app; now apply made_unique_app).
  pose proof (made_unique_NoDup _ _ Us) as Ns. pose proof (made_unique_NoDup _ _ Uz) as Nz.
  assert (S1 : res_fold x_add x_start entries = Ok (font_state v h top bottom d vn hn tn bn)).
  { apply font_ok; [| |exact Hf].
    - unfold extract_tt_stems. cbn [tts_v tts_h]. rewrite Ev. cbn [rthen fst snd]. rewrite Eh. reflexivity.
    - unfold extract_tt_zones. cbn [tz_top tz_bottom some_list]. rewrite Et. cbn [rthen fst snd]. rewrite Eb. reflexivity. }
  destruct (glyphs_ok v h top bottom vn hn tn bn glyphs (font_state v h top bottom d vn hn tn bn)) as (xs & E2 & X2); auto.
  set (s := XState _ _ _ _ _ _ _ _) in E2.
  assert (Em : merge_stems s = Ok (with_keys (fun k s => (k, fstem_of true s)) vn v ++ with_keys (fun k s => (k, fstem_of false s)) hn h))
    by (apply merge_stems_ok; auto).
  destruct (merge_zones_ok s top bottom tn bn d) as (zones & Ez & Kz & Fz); auto.
  { eapply Permutation_NoDup; [|exact Nz]. apply Permutation_app_comm. }
  exists vn, hn, tn, bn. eexists. exists zones, xs. split.
  { unfold extract_truetype_hinting.
    assert (Ef : res_fold x_add x_start (entries ++ map glyph_entry glyphs) = Ok s).
    { assert (Y : forall a b (s0 s1 : xstate), res_fold x_add s0 a = Ok s1 -> res_fold x_add s0 (a ++ b) = res_fold x_add s1 b).
      { clear. induction a as [|e a IH]; intros b s0 s1 H; cbn [app res_fold] in *; [congruence|]. destruct (x_add s0 e); [|discriminate]. cbn [rthen] in *. now apply IH. }
      rewrite (Y _ _ _ _ S1). exact E2. }
    rewrite Ef. cbn [rthen]. rewrite Em. cbn [rthen]. rewrite Ez. cbn [rmap]. reflexivity. }
  repeat (split; [assumption|]). split; [now rewrite map_app, !with_keys_fst|]. split.
  - assert (Y : forall hor l ks, List.length ks = List.length l -> Forall2 extracted_stem (map (pair hor) l) (map snd (with_keys (fun k s => (k, fstem_of hor s)) ks l))).
    { clear. intros hor. induction l as [|s l IH]; intros [|k ks] L; try discriminate; cbn [map with_keys]; constructor; [|apply IH; cbn in L; lia].
      cbn [snd]. split; [reflexivity|]. split; [reflexivity|]. apply rounding_ok. }
    rewrite map_app. apply Forall2_app; now apply Y.
  - repeat (split; [assumption|]). assumption.
Qed.

(** ** What does not hold *)
Lemma fold_err : forall A B (f : A -> B -> res A) a l s x, (forall s, exists e, f s x = Err e) -> exists e, res_fold f s (a ++ x :: l) = Err e.
Proof.
  intros A B f. induction a as [|y a IH]; intros l s x H; cbn [app res_fold].
  - destruct (H s) as (e & E). rewrite E. cbn. eauto.
  - destruct (f s y) as [s'|e]; cbn [rthen]; [now apply IH|eauto].
Qed.
(** A font whose stems have a rounding for one pixel is never extracted. *)
Theorem C62_one_refuted : forall entries v h, In (x_one v h) entries -> v ++ h <> [] ->
  exists e, extract_truetype_hinting entries = Err e.
Proof.
  intros entries v h I N. apply in_split in I. destruct I as (a & b & ->). unfold extract_truetype_hinting.
  destruct (fold_err _ _ x_add a b x_start (x_one v h)) as (e & E).
  - intros s. exists KeyError. destruct v as [|x v]; [|reflexivity]. destruct h as [|x h]; [contradiction|reflexivity].
  - rewrite E. cbn. eauto.
Qed.
Lemma fold_keeps : forall (P : xstate -> Prop) l s s', P s -> (forall s s' e, In e l -> P s -> x_add s e = Ok s' -> P s') ->
  res_fold x_add s l = Ok s' -> P s'.
Proof.
  intros P. induction l as [|e l IH]; intros s s' H K E; cbn [res_fold] in E; [congruence|].
  destruct (x_add s e) as [s1|] eqn:E1; [|discriminate]. cbn [rthen] in E. apply (IH s1); auto.
  - apply (K s s1 e); auto. now left.
  - intros; eapply K; eauto. now right.
Qed.
Lemma keep_stems : forall s s' e, (forall d, e <> XStems d) -> x_add s e = Ok s' -> x_stems s' = x_stems s.
Proof.
  intros s s' [d|d|d|d|d|n t] H E; cbn [x_add] in E.
  - destruct (extract_ppems (x_round_v s) (tts_v d)) as [v|]; [|discriminate]. cbn [rthen] in E. destruct (extract_ppems (x_round_h s) (tts_h d)); [|discriminate]. apply Ok_inj in E. now subst.
  - destruct (extract_ppem_1 (tts_v d)); [|discriminate]. cbn [rthen] in E. destruct (extract_ppem_1 (tts_h d)); [|discriminate]. apply Ok_inj in E. now subst.
  - now destruct (H d).
  - destruct (extract_tt_zones d); [|discriminate]. apply Ok_inj in E. now subst.
  - apply Ok_inj in E. now subst.
  - unfold extract_glyph in E. destruct t as [[|i l]|]; try (apply Ok_inj in E; now subst). destruct (x_stems s) as [[v h]|] eqn:Es; [|discriminate].
    match type of E with rmap _ ?x = _ => destruct x; [|discriminate] end. apply Ok_inj in E. now subst.
Qed.
Lemma keep_zones : forall s s' e, (forall d, e <> XZones d) -> x_add s e = Ok s' -> x_zones s' = x_zones s.
Proof.
  intros s s' [d|d|d|d|d|n t] H E; cbn [x_add] in E.
  - destruct (extract_ppems (x_round_v s) (tts_v d)) as [v|]; [|discriminate]. cbn [rthen] in E. destruct (extract_ppems (x_round_h s) (tts_h d)); [|discriminate]. apply Ok_inj in E. now subst.
  - destruct (extract_ppem_1 (tts_v d)); [|discriminate]. cbn [rthen] in E. destruct (extract_ppem_1 (tts_h d)); [|discriminate]. apply Ok_inj in E. now subst.
  - destruct (extract_tt_stems d); [|discriminate]. apply Ok_inj in E. now subst.
  - now destruct (H d).
  - apply Ok_inj in E. now subst.
  - unfold extract_glyph in E. destruct t as [[|i l]|]; try (apply Ok_inj in E; now subst). destruct (x_stems s) as [[v h]|] eqn:Es; [|discriminate].
    match type of E with rmap _ ?x = _ => destruct x; [|discriminate] end. apply Ok_inj in E. now subst.
Qed.
Lemma keep_deltas : forall s s' e, (forall d, e <> XDeltas d) -> x_add s e = Ok s' -> x_deltas s' = x_deltas s.
Proof.
  intros s s' [d|d|d|d|d|n t] H E; cbn [x_add] in E.
  - destruct (extract_ppems (x_round_v s) (tts_v d)) as [v|]; [|discriminate]. cbn [rthen] in E. destruct (extract_ppems (x_round_h s) (tts_h d)); [|discriminate]. apply Ok_inj in E. now subst.
  - destruct (extract_ppem_1 (tts_v d)); [|discriminate]. cbn [rthen] in E. destruct (extract_ppem_1 (tts_h d)); [|discriminate]. apply Ok_inj in E. now subst.
  - destruct (extract_tt_stems d); [|discriminate]. apply Ok_inj in E. now subst.
  - destruct (extract_tt_zones d); [|discriminate]. apply Ok_inj in E. now subst.
  - now destruct (H d).
  - unfold extract_glyph in E. destruct t as [[|i l]|]; try (apply Ok_inj in E; now subst). destruct (x_stems s) as [[v h]|] eqn:Es; [|discriminate].
    match type of E with rmap _ ?x = _ => destruct x; [|discriminate] end. apply Ok_inj in E. now subst.
Qed.
Lemma merge_no_stems : forall s, x_stems s = None -> exists e, merge_stems s = Err e.
Proof.
  intros s E. unfold merge_stems. rewrite E. cbn [opt_res rmap rthen].
  destruct (x_round_v s) as [|x l]; [|cbn; eauto]. cbn [res_fold rthen]. destruct (x_round_h s) as [|x l]; cbn; eauto.
Qed.
(** A font without an entry for stems, for zones or for the deltas of zones is never extracted. *)
Theorem C62_missing_refuted : forall entries,
  (forall d, ~ In (XStems d) entries) \/ (forall d, ~ In (XZones d) entries) \/ (forall d, ~ In (XDeltas d) entries) ->
  exists e, extract_truetype_hinting entries = Err e.
Proof.
  intros entries H. unfold extract_truetype_hinting. destruct (res_fold x_add x_start entries) as [s|e] eqn:E; [|cbn; eauto]. cbn [rthen].
  destruct H as [H|H].
  - assert (N : x_stems s = None).
    { apply (fold_keeps (fun s => x_stems s = None) entries x_start s eq_refl) in E; [assumption|]. intros a b e I P Q. rewrite <- P. apply (keep_stems _ _ e); [|assumption]. intros d ->. now apply (H d). }
    destruct (merge_no_stems s N) as (e & Em). rewrite Em. cbn. eauto.
  - destruct (merge_stems s) as [st|e]; [|cbn; eauto]. cbn [rthen]. unfold merge_zones. destruct H as [H|H].
    + assert (N : x_zones s = None).
      { apply (fold_keeps (fun s => x_zones s = None) entries x_start s eq_refl) in E; [assumption|]. intros a b e I P Q. rewrite <- P. apply (keep_zones _ _ e); [|assumption]. intros d ->. now apply (H d). }
      rewrite N. cbn. eauto.
    + assert (N : x_deltas s = None).
      { apply (fold_keeps (fun s => x_deltas s = None) entries x_start s eq_refl) in E; [assumption|]. intros a b e I P Q. rewrite <- P. apply (keep_deltas _ _ e); [|assumption]. intros d ->. now apply (H d). }
      rewrite N. destruct (opt_res (x_zones s)) as [tb|]; [|cbn; eauto]. cbn [rthen res_fold opt_res rmap]. eauto.
Qed.
(** Nor is one with hints in a glyph before the entry for stems, whatever the hints are. *)
Theorem C62_early_refuted : forall before name i l after, (forall d, ~ In (XStems d) before) ->
  exists e, extract_truetype_hinting (before ++ XGlyph name (Some (i :: l)) :: after) = Err e.
Proof.
  intros before name i l after H. unfold extract_truetype_hinting.
  assert (X : exists e, res_fold x_add x_start (before ++ XGlyph name (Some (i :: l)) :: after) = Err e).
  { assert (Y : forall a s, (forall d, ~ In (XStems d) a) -> x_stems s = None -> exists e, res_fold x_add s (a ++ XGlyph name (Some (i :: l)) :: after) = Err e).
    { induction a as [|e a IH]; intros s N Es; cbn [app res_fold].
      - cbn [x_add]. unfold extract_glyph. rewrite Es. cbn. eauto.
      - destruct (x_add s e) as [s1|e1] eqn:E1; [|cbn; eauto]. cbn [rthen]. apply IH.
        + intros d I. apply (N d). now right.
        + rewrite <- Es. apply (keep_stems _ _ e); [|assumption]. intros d ->. apply (N d). now left. }
    now apply Y. }
  destruct X as (e & E). rewrite E. cbn. eauto.
Qed.
(** Stems without rounding for 2 to 5 pixels are dropped. *)
Theorem C62_dropped_refuted : forall v h top bottom, exists zones,
  extract_truetype_hinting [x_stems_of v h; x_zones_of top bottom; XDeltas []] = Ok ([], zones, []).
Proof.
  intros v h top bottom. destruct (extract_stems_ok true v []) as (vn & Ev & Uv). destruct (extract_stems_ok false h (rev vn ++ [])) as (hn & Eh & Uh).
  destruct (extract_zones_ok true top []) as (tn & Et & Ut). destruct (extract_zones_ok false bottom (rev tn ++ [])) as (bn & Eb & Ub).
  unfold extract_truetype_hinting, x_stems_of, x_zones_of. cbn [res_fold x_add]. unfold extract_tt_stems, extract_tt_zones. cbn [tts_v tts_h tz_top tz_bottom some_list].
  rewrite Ev. cbn [rthen fst snd]. rewrite Eh. cbn [rthen rmap fst snd]. rewrite Et. cbn [rthen fst snd]. rewrite Eb.
  cbn [rthen rmap fst snd x_stems x_zones x_deltas x_names_t x_names_b x_round_v x_round_h x_glyphs x_start].
  unfold merge_stems, merge_zones. cbn [rthen rmap res_fold opt_res x_stems x_zones x_deltas x_round_v x_round_h x_glyphs]. eauto.
Qed.
(** If rounding to 5 and to 6 pixels starts at the same ppm, 6 is lost; the export keeps 6, see C51. *)
Theorem C62_ties_refuted : forall s, sm_ppm s 5 = sm_ppm s 6 ->
  forall r, extracted_rounding s r -> ~ (exists ppm, In (ppm, 6) r) /\ ~ rounding s 2 r.
Proof.
  intros s E r (N & S & I). assert (K : forall ppm, ~ In (ppm, 6) r).
  { intros ppm H. apply I in H. destruct H as (_ & _ & H). destruct (H 5 ltac:(lia) E) as [F|F]; [discriminate|]. destruct F. congruence. }
  split; [intros (ppm & H); now apply (K ppm)|]. intros (_ & H). apply (K (dec_str (sm_ppm s 6))). apply H. split; [lia|]. split; [reflexivity|]. lia.
Qed.

(** ** Examples *)
Definition x_v : list stem := [Stem (py "a") 80 (fun px => 10 * px); Stem (py "a") 82 (fun px => if px =? 6 then 50 else 10 * px)].
Definition x_h : list stem := [Stem (py "a") 70 (fun px => 12 * px)].
Definition x_top : list tt_zone := [TTZone 500 10 (py "x"); TTZone 700 12 (py "H")].
Definition x_bottom : list tt_zone := [TTZone (-10) 10 (py "x")].
Definition x_entries : list x_entry :=
  [XDeltas [(0, [(12, 1); (9, -2)])]; x_zones_of x_top x_bottom; x_ppms x_v x_h; x_stems_of x_v x_h].
Definition x_glyphs_ex : list (pystr * list instruction) :=
  [(py "n", [Instruction (py "AlignTop") [(py "pt", 2); (py "zone", 1)]; link 0 1 0; link 2 4 (-2)])].
Example x_font : font_entries x_v x_h x_top x_bottom [(0, [(12, 1); (9, -2)])] x_entries.
Proof.
  unfold font_entries, x_entries.
  change [x_ppms x_v x_h; x_stems_of x_v x_h; x_zones_of x_top x_bottom; XDeltas [(0, [(12, 1); (9, -2)])]] with
    ([x_ppms x_v x_h; x_stems_of x_v x_h] ++ [x_zones_of x_top x_bottom] ++ [XDeltas [(0, [(12, 1); (9, -2)])]]).
  change [XDeltas [(0, [(12, 1); (9, -2)])]; x_zones_of x_top x_bottom; x_ppms x_v x_h; x_stems_of x_v x_h] with
    (([XDeltas [(0, [(12, 1); (9, -2)])]] ++ [x_zones_of x_top x_bottom]) ++ [x_ppms x_v x_h; x_stems_of x_v x_h]).
  etransitivity; [apply Permutation_app_comm|]. apply Permutation_app_head, Permutation_app_comm.
Qed.
Example x_deltas_ok : deltas_ok x_top x_bottom [(0, [(12, 1); (9, -2)])].
Proof.
  split; [repeat constructor; intros []|]. repeat constructor; cbn; try lia; intros [H|[]]; discriminate.
Qed.
Example x_glyphs_fine : Forall (x_glyph_ok x_top x_bottom x_v x_h) x_glyphs_ex.
Proof.
  unfold x_glyphs_ex. apply Forall_cons; [|apply Forall_nil]. split; [discriminate|]. cbn [snd]. split.
  - unfold link. repeat apply Forall_cons; try apply Forall_nil;
      [exists (nth 0 tt_commands (0, ([], []))) | exists (nth 2 tt_commands (0, ([], []))) | exists (nth 2 tt_commands (0, ([], [])))];
      (split; [unfold tt_commands; cbn [In]; has_it|split; reflexivity]).
  - unfold link. repeat apply Forall_cons; try apply Forall_nil; unfold x_refers, param; cbn [in_params in_cmd In];
      (split; [intros n t H E|intros n hor H _ _; destruct hor; discriminate]);
      (destruct t; try discriminate E; repeat (destruct H as [H|H]; [try discriminate H; injection H as <-; cbn; lia|]); contradiction).
Qed.
Example x_result :
  match extract_truetype_hinting (x_entries ++ map glyph_entry x_glyphs_ex) with
  | Ok (stems, zones, commands) => stems =
      [(py "a", FStem [(py "20", 2); (py "30", 3); (py "40", 4); (py "50", 5); (py "60", 6)] 80 true);
       (py "a#1", FStem [(py "20", 2); (py "30", 3); (py "40", 4); (py "50", 5)] 82 true);
       (py "a#2", FStem [(py "24", 2); (py "36", 3); (py "48", 4); (py "60", 5); (py "72", 6)] 70 false)] /\
      zones = [(py "x#1", FZone (-10) false 10 (Some [(py "9", -2); (py "12", 1)])); (py "x", FZone 500 true 10 None); (py "H", FZone 700 true 12 None)] /\
      map (fun x => (fst x, map (fun c => map (text_of c) attribute_names) (snd x))) commands =
      [(py "n", [[Some (py "alignt"); Some (py "2"); None; None; None; None; Some (py "H"); None; None; None; None];
                 [Some (py "singleh"); None; Some (py "0"); Some (py "1"); None; Some (py "a#2"); None; None; None; None; None];
                 [Some (py "singleh"); None; Some (py "2"); Some (py "4"); Some (py "true"); None; None; None; None; None; None]])]
  | Err _ => False
  end.
Proof. vm_compute. repeat split. Qed.

Print Assumptions C62_extract.
Print Assumptions C62_one_refuted.
Print Assumptions C62_missing_refuted.
Print Assumptions C62_early_refuted.
Print Assumptions C62_dropped_refuted.
Print Assumptions C62_ties_refuted.
