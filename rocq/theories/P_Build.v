(** Proofs about the whole export (C85). *)
From Coq Require Import String.
From Verif Require Import Base Lib M_Py M_Helpers M_Simple M_Text M_TrueType M_Bitmap M_Glyph M_Options M_Table M_Groups.
From Verif Require Import M_Info M_FontInfo M_Tth M_Programs M_Builder M_Master M_Features M_Designspace M_Classes M_Build.
From Verif Require Import P_Helpers S_Info S_Build.
Local Open Scope list_scope.

(** ** Lists of steps *)
Lemma res_fold_app : forall A B (f : A -> B -> res A) l l' a,
  res_fold f a (l ++ l') = rthen (res_fold f a l) (fun b => res_fold f b l').
Proof. induction l as [|x l IH]; intros l' a; cbn [app res_fold]; [reflexivity|]. destruct (f a x); cbn [rthen]; auto. Qed.
Lemma b_loop_fold : forall V es (s : bstate V), b_loop s es = res_fold b_add s es.
Proof. induction es as [|e es IH]; intros s; cbn [b_loop res_fold]; [reflexivity|]. destruct (b_add s e); cbn [rthen]; auto. Qed.

(** ** One entry *)
(** what an entry does to the font info *)
Definition info_turn (c : settings) (i : info) (e : Z * value) : res info :=
  let '(k, d) := e in
  if k =? 1261 then match d with DStr x => set_tt_cvt x i | _ => Err TypeError end
  else if k =? 1262 then match d with DStr x => set_tt_program (st_asm c) (py "controlValueProgram") x i | _ => Err TypeError end
  else if k =? 1263 then match d with DStr x => set_tt_program (st_asm c) (py "fontProgram") x i | _ => Err TypeError end
  else if existsb (Z.eqb k) info_keys then info_step false i (k, Some (info_data d)) else Ok i.

Definition set_count (p : ps_counts) (e : Z * value) : ps_counts :=
  PsCounts (last_or (pn_blue_values p) (int_part 1530 e)) (last_or (pn_other_blues p) (int_part 1531 e))
    (last_or (pn_family_blues p) (int_part 1532 e)) (last_or (pn_family_other_blues p) (int_part 1533 e))
    (last_or (pn_stem_snap_h p) (int_part 1534 e)) (last_or (pn_stem_snap_v p) (int_part 1535 e)).
Definition set_lib (l : list (pystr * value)) (e : Z * value) : list (pystr * value) :=
  if fst e =? 2016 then aset str_eqb (py "com.fontlab.v5.userData") (snd e) l
  else if fst e =? 2024 then aset str_eqb (py "com.fontlab.v5.metricsClassFlags") (snd e) l else l.

(** the parts after one entry *)
Record after (c : settings) (s : font) (e : Z * value) (s' : font) : Prop := After {
  a_info : info_turn c (fo_info s) e = Ok (fo_info s');
  a_glyphs : res_fold b_add (fo_glyphs s) (glyph_part c (ex_side_names (fo_tt s)) e) = Ok (fo_glyphs s');
  a_tt : res_fold tt_add (fo_tt s) (tt_part e) = Ok (fo_tt s');
  a_options : fo_options s' = fold_left opt_step (option_part e) (fo_options s);
  a_features : fo_features s' = last_or (fo_features s) (map set_feature_code (feature_part e));
  a_groups : res_fold (fun gs x => add_ot_class x gs) (fo_groups s) (class_part e) = Ok (fo_groups s');
  a_flags : fo_flags s' = last_or (fo_flags s) (flags_part e);
  a_guides : fo_guides s' = last_or (fo_guides s) (map Some (guides_part e));
  a_props : fo_props s' = last_or (fo_props s) (props_part e);
  a_counts : fo_counts s' = set_count (fo_counts s) e;
  a_design : res_fold (design_step c) (fo_design s) (design_part e) = Ok (fo_design s');
  a_lib : fo_lib s' = set_lib (fo_lib s) e }.
(** one of the parts fails *)
Inductive fails (c : settings) (s : font) (e : Z * value) (x : exn) : Prop :=
| f_info : info_turn c (fo_info s) e = Err x -> fails c s e x
| f_glyphs : res_fold b_add (fo_glyphs s) (glyph_part c (ex_side_names (fo_tt s)) e) = Err x -> fails c s e x
| f_tt : res_fold tt_add (fo_tt s) (tt_part e) = Err x -> fails c s e x
| f_groups : res_fold (fun gs x => add_ot_class x gs) (fo_groups s) (class_part e) = Err x -> fails c s e x
| f_design : res_fold (design_step c) (fo_design s) (design_part e) = Err x -> fails c s e x.

(** the entries of no part *)
Ltac no_key H := intros; match goal with |- ?f _ = _ => unfold f | |- ?f _ _ _ = _ => unfold f end;
  match goal with k : Z |- _ => destruct k as [|p|p]; try reflexivity end;
  repeat (match goal with
          | |- context [match ?p with xH => _ | xO _ => _ | xI _ => _ end] => destruct p
          end; try reflexivity; try (exfalso; vm_compute in H; discriminate H)).
Definition glyph_keys : list Z :=
  [2001; 2023; 1250; 1253; 2008; 2012; 2015; 2017; 2018; 2029; 2031; 2007; 2013; 2009; 2011; 2028; 1504; 1513; 1536].
Definition keys : list Z := glyph_keys ++ info_keys ++
  [1261; 1262; 1263; 1268; 1524; 1269; 1255; 1273; 1272; 1274; 1275; 1604; 1277; 1276; 2026; 1294; 1296; 1530; 1531; 1532;
   1533; 1534; 1535; 1514; 1515; 1516; 1523; 1505; 1254; 1503; 2016; 2024].
Section NoKey.
  Variables (k : Z) (d : value).
  Hypothesis H : existsb (Z.eqb k) keys = false.
  Lemma no_glyph_part : forall c z, glyph_part c z (k, d) = [].
  Proof. no_key H. Qed.
  Lemma no_tt_part : tt_part (k, d) = [].
  Proof. no_key H. Qed.
  Lemma no_option_part : option_part (k, d) = [].
  Proof. no_key H. Qed.
  Lemma no_class_part : class_part (k, d) = [].
  Proof. no_key H. Qed.
  Lemma no_feature_part : feature_part (k, d) = [].
  Proof. no_key H. Qed.
  Lemma no_flags_part : flags_part (k, d) = [].
  Proof. no_key H. Qed.
  Lemma no_guides_part : guides_part (k, d) = [].
  Proof. no_key H. Qed.
  Lemma no_props_part : props_part (k, d) = [].
  Proof. no_key H. Qed.
  Lemma no_design_part : design_part (k, d) = [].
  Proof. no_key H. Qed.
  Lemma no_program_part : program_part (k, d) = [].
  Proof. no_key H. Qed.
  Lemma not_key : forall j, In j keys -> (k =? j) = false.
  Proof.
    clear d. intros j I. destruct (Z.eqb_spec k j) as [->|]; [exfalso|reflexivity].
    assert (existsb (Z.eqb j) keys = true) by (apply existsb_exists; exists j; split; [exact I|apply Z.eqb_refl]).
    congruence.
  Qed.
  Lemma no_int_part : forall j, In j keys -> int_part j (k, d) = [].
  Proof. intros j I. unfold int_part. cbn [fst snd]. rewrite not_key by exact I. reflexivity. Qed.
  Lemma no_info_key : existsb (Z.eqb k) info_keys = false.
  Proof.
    clear d. unfold keys in H. rewrite !existsb_app in H. apply orb_false_iff in H. destruct H as [_ H']. apply orb_false_iff in H'. tauto.
  Qed.
  Lemma after_nothing : forall c s, after c s (k, d) s.
  Proof.
    intros c s. constructor.
    - unfold info_turn. rewrite !not_key by (vm_compute; tauto). rewrite no_info_key. reflexivity.
    - rewrite no_glyph_part. reflexivity.
    - rewrite no_tt_part. reflexivity.
    - rewrite no_option_part. reflexivity.
    - rewrite no_feature_part. reflexivity.
    - rewrite no_class_part. reflexivity.
    - rewrite no_flags_part. reflexivity.
    - rewrite no_guides_part. reflexivity.
    - rewrite no_props_part. reflexivity.
    - unfold set_count. rewrite !no_int_part by (vm_compute; tauto). destruct (fo_counts s); reflexivity.
    - rewrite no_design_part. reflexivity.
    - unfold set_lib. cbn [fst snd]. rewrite !not_key by (vm_compute; tauto). reflexivity.
  Qed.
End NoKey.
Lemma aget_none_all : forall A (l : list (Z * A)) k, (forall j, In j (map fst l) -> (k =? j) = false) -> aget Z.eqb k l = None.
Proof.
  induction l as [|[j v] l IH]; intros k H; cbn [aget]; [reflexivity|].
  rewrite H by (left; reflexivity). apply IH. intros i I. apply H. right. exact I.
Qed.

(** glyph entries that the exporter can take *)
Definition glyph_ok (c : settings) (e : Z * value) : Prop :=
  match e with
  | (2001, DGlyph x) => exists r, build_mm_glyph (st_minimal c) (st_ps_hints c) x = Ok r
  | _ => True
  end.

Ltac rest := constructor; try reflexivity;
  match goal with |- fo_counts _ = set_count (fo_counts ?s) _ => destruct s as [? ? ? ? ? ? ? ? ? [] ? ?]; reflexivity | _ => idtac end.
Ltac pick := cbn [aget cases Z.eqb Pos.eqb info_mapping as_val info_data].
Lemma keys_of_table : forall l, forallb (fun j => existsb (Z.eqb j) keys) l = true -> forall j : Z, In j l -> In j keys.
Proof.
  intros l F j I. rewrite forallb_forall in F. specialize (F j I). apply existsb_exists in F.
  destruct F as (j' & I' & E). apply Z.eqb_eq in E. subst. exact I'.
Qed.
(** a part that may fail *)
Ltac part l := unfold glyph_field, on_info, on_glyphs, on_tt, on_groups, on_design; cbn beta;
  match goal with |- match rmap _ ?x with _ => _ end => destruct x eqn:?E; cbn [rmap]; [rest|apply l] end.
Lemma case_step : forall c s k d, existsb (Z.eqb k) (skip_keys c) = false -> type_of_key k d = true -> glyph_ok c (k, d) ->
  match build_step c s (k, Some d) with Ok s' => after c s (k, d) s' | Err x => fails c s (k, d) x end.
Proof.
  intros c s k d Sk T G. unfold build_step. rewrite Sk. clear Sk. destruct (existsb (Z.eqb k) keys) eqn:K.
  2:{ rewrite !aget_none_all.
      - apply after_nothing. exact K.
      - intros j I. apply (not_key k K). revert I. apply keys_of_table. vm_compute. reflexivity.
      - intros j I. apply (not_key k K). revert I. apply keys_of_table. vm_compute. reflexivity. }
  apply existsb_exists in K. destruct K as (j & I & J). apply Z.eqb_eq in J. subst j.
  unfold keys in I. rewrite !in_app_iff in I. destruct I as [I|[I|I]].
  - unfold glyph_keys in I. cbn [In] in I.
    repeat (destruct I as [<-|I]; [pick; vm_compute in T; match type of T with true = true => idtac | _ => destruct d; try discriminate T end|]).
    all: try (part f_glyphs; [cbn [glyph_part res_fold]; rewrite E; reflexivity|cbn [glyph_part res_fold]; rewrite E; reflexivity]).
    + cbn [glyph_ok] in G. destruct G as (r & G). unfold glyph_entry. rewrite G. cbn [rthen]. unfold on_glyphs. cbn [b_add rmap].
      rest. cbn [glyph_part]. rewrite G. destruct r. reflexivity.
    + destruct (gd_anchors x) eqn:A; [part f_glyphs; cbn [glyph_part]; rewrite A; cbn [res_fold]; rewrite E; reflexivity|].
      rest. cbn [glyph_part]. rewrite A. reflexivity.
    + unfold on_design, set_axis_count. cbn [rmap rthen]. unfold on_glyphs. cbn [b_add rmap]. rest.
    + destruct I.
  - unfold info_keys in I. cbn [In] in I.
    repeat (destruct I as [<-|I]; [pick; vm_compute in T; match type of T with true = true => idtac | _ => destruct d; try discriminate T end|]).
    all: try (pick; part f_info; [exact E|exact E]).
    destruct I.
  - cbn [In] in I.
    repeat (destruct I as [<-|I]; [pick; vm_compute in T; match type of T with true = true => idtac | _ => destruct d; try discriminate T end|]).
    all: try (part f_info; [exact E|exact E]).
    all: try (part f_tt; [cbn [tt_part res_fold tt_add]; rewrite E; reflexivity|cbn [tt_part res_fold tt_add]; rewrite E; reflexivity]).
    all: try (part f_groups; [cbn [class_part res_fold]; rewrite E; reflexivity|cbn [class_part res_fold]; rewrite E; reflexivity]).
    all: try (part f_design; [cbn [design_part res_fold design_step]; rewrite E; reflexivity|cbn [design_part res_fold design_step]; rewrite E; reflexivity]).
    all: try solve [rest].
    + destruct x as [i l]. unfold on_design, set_location. cbn [rmap fst snd]. rest.
    + destruct I.
Qed.

(** ** All entries *)
Lemma last_or_app : forall A (a b : list A) d, last_or d (a ++ b) = last_or (last_or d a) b.
Proof.
  unfold last_or. induction a as [|x a IH]; intros b d; [reflexivity|]. destruct a as [|y a].
  - cbn [app last]. destruct b as [|z b]; [reflexivity|]. clear IH. cbn [last]. revert z. induction b as [|w b IHb]; intros z; [reflexivity|apply IHb].
  - change (last ((x :: y :: a) ++ b) d) with (last ((y :: a) ++ b) d). rewrite IH. reflexivity.
Qed.
Lemma zones_kept : forall c s k d s', type_of_key k d = true -> after c s (k, d) s' ->
  ex_side_names (fo_tt s') = zones_of (k, d) (ex_side_names (fo_tt s)).
Proof.
  intros c s k d s' T A. apply a_tt in A.
  destruct (existsb (Z.eqb k) [1268; 1524; 1269; 1255; 1273]) eqn:K.
  - apply existsb_exists in K. destruct K as (j & I & J). apply Z.eqb_eq in J. subst j. cbn [In] in I.
    repeat (destruct I as [<-|I]; [vm_compute in T; destruct d; try discriminate T; cbn [tt_part res_fold tt_add] in A|]); [..|destruct I].
    + unfold set_tt_stem_ppms in A. cbn [zones_of]. destruct (ppms_of (tts_h x)); [|discriminate]. cbn [rthen] in A.
      destruct (ppms_of (tts_v x)); [|discriminate]. cbn [rthen rmap] in A. apply Ok_inj in A. rewrite <- A. reflexivity.
    + cbn [zones_of]. unfold set_tt_stem_ppms_1 in A.
      destruct (res_fold ppms1_turn (ex_ppms_h (fo_tt s)) (tts_h x)); [|discriminate]. cbn [rthen] in A.
      destruct (res_fold ppms1_turn (ex_ppms_v (fo_tt s)) (tts_v x)); [|discriminate]. cbn [rthen rmap] in A. apply Ok_inj in A. rewrite <- A. reflexivity.
    + cbn [zones_of]. unfold set_tt_stems in A.
      destruct (res_fold (stem_turn false) _ (tts_h x)); [|discriminate]. cbn [rthen] in A.
      destruct (res_fold (stem_turn true) _ (tts_v x)); [|discriminate]. cbn [rthen rmap] in A. apply Ok_inj in A. rewrite <- A. reflexivity.
    + destruct x as [[t|] [b|]]; try discriminate T. cbn [set_tt_zones opt_res tz_bottom tz_top rthen rmap] in A.
      apply Ok_inj in A. rewrite <- A. reflexivity.
    + cbn [zones_of]. unfold set_tt_zone_deltas in A. destruct (res_fold (delta_turn _) _ x); [|discriminate]. cbn [rthen rmap] in A.
      apply Ok_inj in A. rewrite <- A. reflexivity.
  - assert (N : tt_part (k, d) = [] /\ forall z, zones_of (k, d) z = z).
    { clear A T. split; [|intros z]; (unfold tt_part || unfold zones_of); destruct k as [|p|p]; try reflexivity;
      repeat (match goal with |- context [match ?p with xH => _ | xO _ => _ | xI _ => _ end] => destruct p end;
              try reflexivity; try (exfalso; vm_compute in K; discriminate K)). }
    destruct N as [N1 N2]. rewrite N1 in A. cbn [res_fold] in A. apply Ok_inj in A. rewrite N2. congruence.
Qed.

Record afters (c : settings) (s : font) (l : list (Z * value)) (s' : font) : Prop := Afters {
  l_info : res_fold (info_turn c) (fo_info s) l = Ok (fo_info s');
  l_glyphs : res_fold b_add (fo_glyphs s) (glyph_parts c (ex_side_names (fo_tt s)) l) = Ok (fo_glyphs s');
  l_tt : res_fold tt_add (fo_tt s) (flat_map tt_part l) = Ok (fo_tt s');
  l_options : fo_options s' = fold_left opt_step (flat_map option_part l) (fo_options s);
  l_features : fo_features s' = last_or (fo_features s) (map set_feature_code (flat_map feature_part l));
  l_groups : res_fold (fun gs x => add_ot_class x gs) (fo_groups s) (flat_map class_part l) = Ok (fo_groups s');
  l_flags : fo_flags s' = last_or (fo_flags s) (flat_map flags_part l);
  l_guides : fo_guides s' = last_or (fo_guides s) (map Some (flat_map guides_part l));
  l_props : fo_props s' = last_or (fo_props s) (flat_map props_part l);
  l_counts : fo_counts s' = fold_left set_count l (fo_counts s);
  l_design : res_fold (design_step c) (fo_design s) (flat_map design_part l) = Ok (fo_design s');
  l_lib : fo_lib s' = fold_left set_lib l (fo_lib s) }.
Inductive failed (c : settings) (s : font) (l : list (Z * value)) (x : exn) : Prop :=
| g_info : res_fold (info_turn c) (fo_info s) l = Err x -> failed c s l x
| g_glyphs : res_fold b_add (fo_glyphs s) (glyph_parts c (ex_side_names (fo_tt s)) l) = Err x -> failed c s l x
| g_tt : res_fold tt_add (fo_tt s) (flat_map tt_part l) = Err x -> failed c s l x
| g_groups : res_fold (fun gs x => add_ot_class x gs) (fo_groups s) (flat_map class_part l) = Err x -> failed c s l x
| g_design : res_fold (design_step c) (fo_design s) (flat_map design_part l) = Err x -> failed c s l x.

Lemma afters_nil : forall c s, afters c s [] s.
Proof. intros. constructor; reflexivity. Qed.
Lemma afters_cons : forall c s k d s1 l s2, type_of_key k d = true -> after c s (k, d) s1 -> afters c s1 l s2 ->
  afters c s ((k, d) :: l) s2.
Proof.
  intros c s k d s1 l s2 T A B. pose proof (zones_kept c s k d s1 T A) as Z. destruct A, B.
  constructor; cbn [res_fold glyph_parts flat_map fold_left].
  - rewrite a_info0. exact l_info0.
  - rewrite res_fold_app, a_glyphs0. cbn [rthen]. rewrite <- Z. exact l_glyphs0.
  - rewrite res_fold_app, a_tt0. exact l_tt0.
  - rewrite fold_left_app, <- a_options0. exact l_options0.
  - rewrite map_app, last_or_app, <- a_features0. exact l_features0.
  - rewrite res_fold_app, a_groups0. exact l_groups0.
  - rewrite last_or_app, <- a_flags0. exact l_flags0.
  - rewrite map_app, last_or_app, <- a_guides0. exact l_guides0.
  - rewrite last_or_app, <- a_props0. exact l_props0.
  - rewrite <- a_counts0. exact l_counts0.
  - rewrite res_fold_app, a_design0. exact l_design0.
  - rewrite <- a_lib0. exact l_lib0.
Qed.
Lemma failed_here : forall c s e l x, fails c s e x -> failed c s (e :: l) x.
Proof.
  intros c s e l x [H|H|H|H|H].
  - apply g_info. cbn [res_fold]. rewrite H. reflexivity.
  - apply g_glyphs. cbn [glyph_parts]. rewrite res_fold_app, H. reflexivity.
  - apply g_tt. cbn [flat_map]. rewrite res_fold_app, H. reflexivity.
  - apply g_groups. cbn [flat_map]. rewrite res_fold_app, H. reflexivity.
  - apply g_design. cbn [flat_map]. rewrite res_fold_app, H. reflexivity.
Qed.
Lemma failed_later : forall c s k d s1 l x, type_of_key k d = true -> after c s (k, d) s1 -> failed c s1 l x ->
  failed c s ((k, d) :: l) x.
Proof.
  intros c s k d s1 l x T A [H|H|H|H|H]; pose proof (zones_kept c s k d s1 T A) as Z; destruct A.
  - apply g_info. cbn [res_fold]. rewrite a_info0. exact H.
  - apply g_glyphs. cbn [glyph_parts]. rewrite res_fold_app, a_glyphs0. cbn [rthen]. rewrite <- Z. exact H.
  - apply g_tt. cbn [flat_map]. rewrite res_fold_app, a_tt0. exact H.
  - apply g_groups. cbn [flat_map]. rewrite res_fold_app, a_groups0. exact H.
  - apply g_design. cbn [flat_map]. rewrite res_fold_app, a_design0. exact H.
Qed.

Lemma existsb_same : forall l l' k, forallb (fun j => existsb (Z.eqb j) l') l = true -> forallb (fun j => existsb (Z.eqb j) l) l' = true ->
  existsb (Z.eqb k) l = existsb (Z.eqb k) l'.
Proof.
  intros l l' k A B. rewrite forallb_forall in A, B. apply eq_true_iff_eq. rewrite !existsb_exists. split.
  - intros (j & I & E). apply Z.eqb_eq in E. subst j. specialize (A k I). apply existsb_exists in A. exact A.
  - intros (j & I & E). apply Z.eqb_eq in E. subst j. specialize (B k I). apply existsb_exists in B. exact B.
Qed.
Lemma skip_counts : forall c k, existsb (Z.eqb k) (skip_keys c) = negb (counts (st_vfb_minimal c) k).
Proof.
  intros c k. unfold skip_keys, counts. rewrite existsb_app. destruct (st_vfb_minimal c).
  - rewrite (existsb_same [1500; 1501; 1046; 1133; 2020; 2010; 2027] left_out), (existsb_same ignore_minimal_keys left_out_minimal) by reflexivity.
    destruct (existsb (Z.eqb k) left_out), (existsb (Z.eqb k) left_out_minimal); reflexivity.
  - rewrite (existsb_same [1500; 1501; 1046; 1133; 2020; 2010; 2027] left_out) by reflexivity.
    destruct (existsb (Z.eqb k) left_out); reflexivity.
Qed.
Lemma loop_parts : forall c es s, Forall typed es -> Forall (glyph_ok c) (used (st_vfb_minimal c) es) ->
  match res_fold (build_step c) s es with
  | Ok s' => afters c s (used (st_vfb_minimal c) es) s'
  | Err x => failed c s (used (st_vfb_minimal c) es) x
  end.
Proof.
  intros c. induction es as [|[k [d|]] es IH]; intros s T G; [apply afters_nil| |].
  - inversion_clear T as [|? ? T1 T2]. destruct T1 as [T1 _]. cbn [fst snd] in T1.
    unfold used in *. cbn [res_fold flat_map fst snd] in *. pose proof (skip_counts c k) as S.
    destruct (counts (st_vfb_minimal c) k) eqn:C; cbn [negb app] in *.
    + inversion_clear G as [|? ? G1 G2]. pose proof (case_step c s k d S T1 G1) as X.
      destruct (build_step c s (k, Some d)) as [s1|x] eqn:B; cbn [rthen]; [|apply failed_here; exact X].
      specialize (IH s1 T2 G2). destruct (res_fold (build_step c) s1 es); [eapply afters_cons|eapply failed_later]; eassumption.
    + assert (B : build_step c s (k, Some d) = Ok s) by (unfold build_step; rewrite S; reflexivity).
      rewrite B. apply IH; assumption.
  - inversion_clear T as [|? ? _ T2]. unfold used in *. cbn [res_fold flat_map fst snd app] in *.
    assert (B : build_step c s (k, None) = Ok s) by (unfold build_step; destruct (existsb _ _); reflexivity).
    rewrite B. apply IH; assumption.
Qed.
