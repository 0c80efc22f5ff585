(** C51, C61 and C63: TrueType hinting in the UFO export. *)
From Coq Require Import String.
From Verif Require Import Base M_Py M_Text M_Glyph M_Labels M_TrueType M_Tth M_Paths S_Labels S_Tth Lib P_Glyph P_Labels P_Tth P_TthXml.
Local Open Scope list_scope.

Lemma map_fst_combine : forall A B (a : list A) (b : list B), List.length a = List.length b -> map fst (combine a b) = a.
Proof. induction a as [|x a IH]; intros [|y b] E; try discriminate; cbn; [reflexivity|]. rewrite IH; auto. Qed.
Lemma map_snd_combine : forall A B (a : list A) (b : list B), List.length a = List.length b -> map snd (combine a b) = b.
Proof. induction a as [|x a IH]; intros [|y b] E; try discriminate; cbn; [reflexivity|]. rewrite IH; auto. Qed.
Lemma dir_ok : forall g first (hor : bool) l s, (if hor then ex_ppms_v s else ex_ppms_h s) = dir_ppms g l -> (forall s, rounding s first (g s)) ->
  Forall2 (exported_stem s first) (map (pair hor) l) (dir_stems hor l).
Proof.
  intros g first hor l s E R.
  assert (X : forall b a, dir_ppms g l = a ++ map (fun x => (fst x, g (snd x))) (enum (Z.of_nat (List.length a)) b) ->
    Forall2 (exported_stem s first) (map (pair hor) b)
      (map (fun x => UStem hor (sm_width (snd x)) (sm_name (snd x)) (fst x)) (enum (Z.of_nat (List.length a)) b))).
  { induction b as [|x b IH]; intros a Ea; cbn [enum map fst snd]; constructor.
    - split; [reflexivity|]. split; [reflexivity|]. unfold stem_round. cbn [us_horizontal us_round snd]. rewrite E, Ea. cbn [enum map fst snd].
      rewrite py_index_mid. cbn [rmap snd]. eauto.
    - specialize (IH (a ++ [(Z.of_nat (List.length a), g x)])). rewrite app_length in IH. cbn [List.length] in IH.
      replace (Z.of_nat (List.length a + 1)) with (Z.of_nat (List.length a) + 1) in IH by lia. apply IH.
      rewrite Ea. cbn [enum map fst snd]. now rewrite <- app_assoc. }
  exact (X l [] eq_refl).
Qed.

Lemma Forall2_mono : forall A B (P Q : A -> B -> Prop), (forall a b, P a b -> Q a b) -> forall l m, Forall2 P l m -> Forall2 Q l m.
Proof. intros A B P Q H l m F. induction F; constructor; auto. Qed.

(** ** C51 *)
(** Every stem of the file is in the lib under its name, or a number if it has none, and every zone under its
    name, with all data. *)
Theorem C51_export : forall entries v h first top bottom d,
  stem_history v h first (filter stem_part entries) ->
  zone_history top bottom d (filter zone_part entries) -> deltas_ok top bottom d ->
  NoDup (map tz_name (bottom ++ top)) ->
  exists s, tt_build entries = Ok s /\
    (NoDup (all_names v h) ->
       map fst (build_tt_stems_lib s) = all_names v h /\
       Forall2 (exported_stem s first) (all_stems v h) (map snd (build_tt_stems_lib s))) /\
    map fst (ex_zones s) = map tz_name (bottom ++ top) /\
    (forall k z, nth_error (bottom ++ top) k = Some z ->
       nth_error (ex_zones s) k = Some (tz_name z, exported_zone top bottom d k z)).
Proof.
  intros entries v h first top bottom d Hs Hz Hd N.
  destruct (stem_history_ok v h first _ Hs) as (g & Rg & Es). destruct (zone_history_ok top bottom d _ Hz N Hd) as (z & Ez & Kz & Nz).
  pose proof (interleave entries _ _ _ _ Es Ez) as E. change (put_zones tt_start tt_start) with tt_start in E.
  eexists. split; [exact E|]. unfold put_zones. cbn [ex_ppms_h ex_ppms_v ex_stems_h ex_stems_v ex_zones].
  split; [|split; assumption]. intros Nn.
  unfold build_tt_stems_lib. cbn [ex_stems_h ex_stems_v].
  assert (L : forall letter i l, List.length (export_names letter i l) = List.length l).
  { clear. intros letter i l. revert i. induction l as [|x l IH]; intros i; [reflexivity|]. cbn [export_names]. destruct (sm_name x); cbn; now rewrite IH. }
  assert (Le : forall A (l : list A) k, List.length (enum k l) = List.length l).
  { clear. intros A. induction l as [|x l IH]; intros k; cbn; [reflexivity|]. now rewrite IH. }
  assert (Hh : stems_lib false 0 [] (dir_stems false h) = combine (export_names (py "v") 0 h) (dir_stems false h)).
  { apply (stems_lib_ok false h 0 0 []). cbn. unfold all_names in Nn. now apply NoDup_left in Nn. }
  assert (Hv : stems_lib true 0 (stems_lib false 0 [] (dir_stems false h)) (dir_stems true v) =
               combine (export_names (py "v") 0 h) (dir_stems false h) ++ combine (export_names (py "h") 0 v) (dir_stems true v)).
  { rewrite Hh. apply (stems_lib_ok true v 0 0). rewrite map_fst_combine; [exact Nn|]. unfold dir_stems. now rewrite map_length, Le, L. }
  rewrite Hv. rewrite !map_app, !map_fst_combine, !map_snd_combine by (unfold dir_stems; now rewrite map_length, Le, L).
  split; [reflexivity|]. unfold all_stems. apply Forall2_app.
  - apply (dir_ok g); [reflexivity|assumption].
  - apply (dir_ok g); [reflexivity|assumption].
Qed.

(** With distinct names, stems keep their names. *)
Lemma named : forall letter i l, Forall (fun s => sm_name s <> []) l -> export_names letter i l = map sm_name l.
Proof.
  intros letter i l F. revert i. induction F as [|s l H F IH]; intros i; [reflexivity|]. cbn [export_names map]. destruct (sm_name s); [contradiction|].
  now rewrite IH.
Qed.
Theorem C51_named : forall entries v h first top bottom d,
  stem_history v h first (filter stem_part entries) ->
  zone_history top bottom d (filter zone_part entries) -> deltas_ok top bottom d ->
  NoDup (map tz_name (bottom ++ top)) ->
  Forall (fun s => sm_name s <> []) (h ++ v) -> NoDup (map sm_name (h ++ v)) ->
  exists s, tt_build entries = Ok s /\ map fst (build_tt_stems_lib s) = map sm_name (h ++ v) /\
    forall (vertical : bool) x, In x (if vertical then v else h) ->
      exists u, In (sm_name x, u) (build_tt_stems_lib s) /\ exported_stem s first (vertical, x) u.
Proof.
  intros entries v h first top bottom d Hs Hz Hd N F Nn.
  destruct (C51_export _ _ _ _ _ _ _ Hs Hz Hd N) as (s & E & H & _).
  assert (A : all_names v h = map sm_name (h ++ v)).
  { apply Forall_app in F. unfold all_names. rewrite !named by tauto. now rewrite map_app. }
  rewrite A in H. destruct (H Nn) as (K & X). exists s. split; [assumption|]. split; [assumption|].
  intros vertical x I.
  assert (G : forall lib (src : list (bool * stem)), Forall2 (exported_stem s first) src (map snd lib) -> map fst lib = map (fun y => sm_name (snd y)) src ->
    forall y, In y src -> exists u, In (sm_name (snd y), u) lib /\ exported_stem s first y u).
  { clear. intros lib. induction lib as [|[n u] lib IH]; intros [|y src] F E z I; cbn [map fst snd] in *; try discriminate; [contradiction|].
    inversion F; subst. injection E as -> E. destruct I as [<-|I].
    - exists u. split; [now left|assumption].
    - destruct (IH src ltac:(assumption) E z I) as (w & W & Hw). exists w. split; [now right|assumption]. }
  apply (G _ _ X) with (y := (vertical, x)).
  - rewrite K. unfold all_stems. rewrite !map_app, !map_map. reflexivity.
  - unfold all_stems. apply in_or_app. destruct vertical; [right|left]; now apply in_map.
Qed.

(** Three stems of the same name: one is lost. *)
Definition plain (n : string) (w : Z) : stem := Stem (py n) w (fun px => 10 * px).
Theorem C51_stem_refuted : exists v h, List.length (v ++ h) = 3%nat /\ NoDup (map sm_width (v ++ h)) /\ exists s,
  tt_build [ppms_entry v h; stems_entry v h] = Ok s /\ List.length (build_tt_stems_lib s) = 2%nat.
Proof.
  exists [], [plain "a" 20; plain "a" 30; plain "a" 40]. split; [reflexivity|].
  split; [repeat apply NoDup_cons; try apply NoDup_nil; cbn; intuition discriminate|].
  eexists. split; vm_compute; reflexivity.
Qed.
(** Two zones of the same name: one is lost. *)
Theorem C51_zone_refuted : exists top bottom, List.length (top ++ bottom) = 2%nat /\ NoDup (map tz_position (top ++ bottom)) /\ exists s,
  tt_build [EZones (TTZones (Some top) (Some bottom))] = Ok s /\ List.length (ex_zones s) = 1%nat.
Proof.
  exists [TTZone 500 10 (py "a")], [TTZone 0 (-10) (py "a")]. split; [reflexivity|].
  split; [repeat apply NoDup_cons; try apply NoDup_nil; cbn; intuition discriminate|].
  eexists. split; vm_compute; reflexivity.
Qed.

Lemma stem_command : forall i n, instruction_ok i -> param i (py "stem") n ->
  In (in_cmd i) (if is_one (in_cmd i) [py "SingleLinkH"; py "DoubleLinkH"] then [py "SingleLinkH"; py "DoubleLinkH"] else [py "SingleLinkV"; py "DoubleLinkV"]).
Proof.
  intros [cmd params] n (c & Hc & E & P) H. unfold param in H. cbn [in_cmd in_params] in *.
  assert (I : In (py "stem") (snd (snd c))) by (rewrite <- P; apply in_map_iff; exists (py "stem", n); auto).
  unfold tt_commands in Hc. cbn [In] in Hc.
  repeat (destruct Hc as [<-|Hc]; [cbn [fst snd In] in E, I; subst cmd;
    first [match goal with |- context[is_one ?a ?b] => let x := eval vm_compute in (is_one a b) in change (is_one a b) with x end; cbn [In]; tauto
          | exfalso; repeat (destruct I as [I|I]; [discriminate I|]); exact I]|]).
  destruct Hc.
Qed.
(** ** C61 *)
(** The commands of a glyph, whatever labels were given before: one for each instruction, with the labels of
    its points, the name of its zone, the name of its stem. *)
Theorem C61_commands : forall entries v h first top bottom d fuel order st0 requests labels st name points l,
  stem_history v h first (filter stem_part entries) ->
  zone_history top bottom d (filter zone_part entries) -> deltas_ok top bottom d ->
  NoDup (map tz_name (bottom ++ top)) ->
  fresh_store st0 -> Forall (good_request st0 order) requests -> (2 <= fuel)%nat ->
  run_requests fuel order st0 requests = Ok (labels, st) ->
  points_of st0 order name points ->
  Forall instruction_ok l -> Forall (refers points top bottom v h) l ->
  exists s commands st', tt_build entries = Ok s /\
    glyph_commands fuel order name s st l = Ok (commands, st') /\
    Forall2 (exported_command (fun i t => exists label, t = TStr label /\ labelled st' order name i label)
                              (zone_name top bottom) (fun hor => map sm_name (if hor then h else v))) l commands.
Proof.
  intros entries v h first top bottom d fuel order st0 requests labels st name points l Hs Hz Hd N Fr Gr Hf Run Pts Ok_l Rf.
  destruct (stem_history_ok v h first _ Hs) as (g & Rg & Es). destruct (zone_history_ok top bottom d _ Hz N Hd) as (z & Ez & Kz & Nz).
  pose proof (interleave entries _ _ _ _ Es Ez) as E. change (put_zones tt_start tt_start) with tt_start in E.
  eexists. unfold put_zones in E. cbn [ex_ppms_h ex_ppms_v ex_stems_h ex_stems_v ex_zones ex_zone_names ex_side_names] in E.
  set (s := TtState _ _ _ _ _ _ _) in E.
  destruct fuel as [|[|f]]; [lia|lia|].
  destruct (run_requests_ok f order requests st0 (fresh_ok _ Fr) Gr) as (ls & st1 & Run1 & O1 & X1 & _).
  rewrite Run in Run1. injection Run1 as <- <-.
  assert (Bs : builder_stems s = fun hor => map us_name (if hor then dir_stems false h else dir_stems true v)) by reflexivity.
  assert (Es2 : forall hor : bool, builder_stems s hor = map sm_name (if hor then h else v)).
  { intros hor. rewrite Bs. cbv beta. clear. unfold dir_stems.
    assert (X : forall b (l : list stem) k, map us_name (map (fun x => UStem b (sm_width (snd x)) (sm_name (snd x)) (fst x)) (enum k l)) = map sm_name l).
    { intros b. induction l as [|x l IH]; intros k; [reflexivity|]. cbn [enum map us_name snd]. now rewrite IH. }
    destruct hor; apply X. }
  destruct (export_commands_ok store (builder_label (S (S f)) order name) (builder_zone s) (builder_stems s)
    (fun st => store_ok st /\ extends st0 st) extends (fun st i t => exists label, t = TStr label /\ labelled st order name i label)
    (fun n => 0 <= n < points + 2) (zone_name top bottom) (fun a => extends_refl a) extends_trans) with (l := l) (st := st) as (ds & st' & Ed & _ & _ & F).
  - intros a b n t _ _ X (label & -> & H). exists label. split; [reflexivity|]. eapply labelled_ext; eauto.
  - intros a n code (Oa & Xa) R C.
    assert (G : good_request a order (Request name n code 1)).
    { split; [|split; [exact C|cbn; lia]]. exists points. split; [|exact R]. eapply points_ext; eauto. }
    destruct (get_point_label_ok f order a _ Oa G) as (lab & a' & Ea & Oa' & Xa' & La). cbn [rq_glyph rq_index rq_code rq_start] in *.
    exists (TStr lab), a'. unfold builder_label. rewrite Ea. split; [reflexivity|]. split; [split; [assumption|eapply extends_trans; eauto]|]. split; [assumption|eauto].
  - split; assumption.
  - assumption.
  - rewrite Forall_forall in Rf, Ok_l |- *. intros i Ii. destruct (Rf i Ii) as (Rp & Rz & Rs). pose proof (Ok_l i Ii) as Oi. split; [assumption|]. split.
    + intros n t Pn Et. destruct (Rz n t Pn Et) as (R0 & R1).
      destruct (nth_error (if t then top else bottom) (Z.to_nat n)) as [zz|] eqn:En; [|apply nth_error_None in En; lia].
      exists (tz_name zz). split; [|split; [assumption|exists zz; auto]].
      unfold builder_zone, s. cbn [ex_side_names]. replace (if t then map tz_name top else map tz_name bottom) with (map tz_name (if t then top else bottom)) by (destruct t; reflexivity).
      replace n with (Z.of_nat (Z.to_nat n)) by lia. rewrite (py_index_nth _ _ _ []) by (rewrite map_length; lia).
      f_equal. apply nth_error_nth. now rewrite nth_error_map, En.
    + intros n Pn R0. rewrite Es2. specialize (Rs n (is_one (in_cmd i) [py "SingleLinkH"; py "DoubleLinkH"]) Pn R0 (stem_command _ _ Oi Pn)).
      clear - Rs. destruct (is_one _ _); intros H; apply map_eq_nil in H; contradiction.
  - exists ds, st'. split; [exact E|]. split; [exact Ed|].
    eapply Forall2_mono; [|exact F]. intros i c (code & attrs & A & Nk & C & Fv & K). exists code, attrs. repeat (split; [assumption|]). split; [|assumption].
    eapply Forall_impl; [|exact Fv]. intros [k a]. cbn [fst snd]. destruct a; cbn [value]; auto. now rewrite Es2.
Qed.

(** With distinct names, the name of a stem in a command is a name in the lib, and the data there are those
    of the stem. *)
Theorem C61_stems : forall entries v h first top bottom d,
  stem_history v h first (filter stem_part entries) ->
  zone_history top bottom d (filter zone_part entries) -> deltas_ok top bottom d ->
  NoDup (map tz_name (bottom ++ top)) ->
  Forall (fun s => sm_name s <> []) (h ++ v) -> NoDup (map sm_name (h ++ v)) ->
  exists s, tt_build entries = Ok s /\
    forall (hor : bool) k name, nth_error (map sm_name (if hor then h else v)) k = Some name ->
      exists x u, nth_error (if hor then h else v) k = Some x /\ aget str_eqb name (build_tt_stems_lib s) = Some u /\
        exported_stem s first (negb hor, x) u.
Proof.
  intros entries v h first top bottom d Hs Hz Hd N F Nn.
  destruct (C51_named _ _ _ _ _ _ _ Hs Hz Hd N F Nn) as (s & E & K & H). exists s. split; [assumption|].
  intros hor k name Hk. rewrite nth_error_map in Hk. destruct (nth_error (if hor then h else v) k) as [x|] eqn:En; [|discriminate].
  cbn in Hk. injection Hk as <-. destruct (H (negb hor) x) as (u & U & X).
  { apply nth_error_In in En. destruct hor; exact En. }
  exists x, u. split; [reflexivity|]. split; [|assumption]. apply (In_aget str_eqb str_eqb_eq); [|assumption]. now rewrite K.
Qed.

(** A stem without a name: the lib has it as [v00], the command has an empty name. *)
Definition link (a b stem : Z) : instruction :=
  Instruction (py "SingleLinkH") [(py "pt1", a); (py "pt2", b); (py "stem", stem); (py "align", -1)].
Theorem C61_unnamed_refuted : exists x s c st', let h := [x] in
  tt_build [ppms_entry [] h; stems_entry [] h] = Ok s /\
  glyph_commands 2 [py "g"] (py "g") s [(py "g", LGlyph [] 4 [] [])] [link 0 1 0] = Ok ([c], st') /\
  exists n, aget str_eqb (py "stem") c = Some (TStr n) /\ ~ In n (map fst (build_tt_stems_lib s)).
Proof.
  exists (plain "" 20). do 3 eexists. split; [vm_compute; reflexivity|]. split; [vm_compute; reflexivity|].
  eexists. split; [vm_compute; reflexivity|]. vm_compute. intuition discriminate.
Qed.
(** The same for the second of two stems of the same name: the command names the first. *)
Theorem C61_duplicate_refuted : exists x y s c st' u, let h := [x; y] in
  sm_width x <> sm_width y /\
  tt_build [ppms_entry [] h; stems_entry [] h] = Ok s /\
  glyph_commands 2 [py "g"] (py "g") s [(py "g", LGlyph [] 4 [] [])] [link 0 1 1] = Ok ([c], st') /\
  exists n, aget str_eqb (py "stem") c = Some (TStr n) /\ aget str_eqb n (build_tt_stems_lib s) = Some u /\ us_width u = sm_width x.
Proof.
  exists (plain "a" 20), (plain "a" 30). do 4 eexists. split; [discriminate|]. split; [vm_compute; reflexivity|]. split; [vm_compute; reflexivity|].
  eexists. split; [vm_compute; reflexivity|]. split; vm_compute; reflexivity.
Qed.
(** The contour's last curve ends at its start, and both points are hinted: the two points become one, and
    the label of one of them, which is in the commands, is not in the outline. *)
Definition align (cmd : string) (p : Z) : instruction := Instruction (py cmd) [(py "pt", p); (py "align", -1)].
Theorem C61_closing_refuted : exists nodes instructions s c d st' g contours renames label,
  tt_build [] = Ok s /\
  glyph_commands 2 [py "g"] (py "g") s [(py "g", LGlyph [] (Z.of_nat (List.length nodes)) [] [])] instructions = Ok ([c; d], st') /\
  aget str_eqb (py "point") c = Some (TStr label) /\
  aget str_eqb (py "g") st' = Some g /\
  extract_contours 0 (fun i => aget Z.eqb i (lg_points g)) nodes = Ok (contours, renames) /\
  ~ In (Some label) (map up_name (concat contours)).
Proof.
  exists [MMNode Move 0 [[(0, 0)]]; MMNode Line 0 [[(100, 0)]]; MMNode Curve 0 [[(0, 0); (100, 50); (0, 50)]]].
  exists [align "AlignH" 0; align "AlignV" 2]. do 8 eexists.
  split; [reflexivity|]. split; [vm_compute; reflexivity|]. split; [vm_compute; reflexivity|]. split; [vm_compute; reflexivity|].
  split; [vm_compute; reflexivity|]. vm_compute. intuition discriminate.
Qed.

(** ** C63 *)
(** A reader of the XML gets what was written, and nothing else; the text has no quotes or angle brackets. *)
Theorem C63_value : forall s t, (reads (html_escape s) t <-> t = s) /\ forall c, In c (html_escape s) -> ~ In c [60; 62; 34; 39].
Proof.
  intros s t. split; [split|].
  - intros H. symmetry. apply (reads_det (html_escape s)); [apply reads_escape|assumption].
  - intros ->. apply reads_escape.
  - apply escape_plain.
Qed.
(** The text in the lib of a glyph tells how many commands there are and what their attributes are. *)
Theorem C63_text : forall a b t, Forall has_code a -> Forall has_code b ->
  tth_lib a = Ok (Some t) -> tth_lib b = Ok (Some t) ->
  Forall2 (fun d e => forall n, In n attribute_names -> text_of d n = text_of e n) a b.
Proof.
  intros a b t Fa Fb Ea Eb. unfold tth_lib in Ea, Eb.
  destruct (res_map cmd_xml a) as [la|] eqn:La; [|discriminate]. destruct (res_map cmd_xml b) as [lb|] eqn:Lb; [|discriminate].
  cbn [rmap] in Ea, Eb. destruct la as [|x la]; [discriminate|]. destruct lb as [|y lb]; [discriminate|].
  apply Ok_inj in Ea. apply Ok_inj in Eb.
  assert (E : join_nl (x :: la) ++ [10] ++ py "  </ttProgram>" ++ [10] = join_nl (y :: lb) ++ [10] ++ py "  </ttProgram>" ++ [10]).
  { assert (E : Some t = Some t) by reflexivity. rewrite <- Ea in E at 1. rewrite <- Eb in E.
    assert (I : forall u v : pystr, Some u = Some v -> u = v) by congruence. apply I in E. apply app_inv_head in E. now apply app_inv_head in E. }
  eapply lines_inj; eauto; intros ->; discriminate.
Qed.
(** There is a text for all commands of the export, unless there are none. *)
Theorem C63_exists : forall a, Forall has_code a ->
  (a = [] /\ tth_lib a = Ok None) \/ (a <> [] /\ exists t, tth_lib a = Ok (Some t)).
Proof.
  intros [|d a] F; [left; auto|right]. split; [discriminate|]. unfold tth_lib.
  assert (X : exists ls, res_map cmd_xml (d :: a) = Ok ls /\ ls <> []).
  { inversion F as [|? ? (c & E & _) F']; subst. cbn [res_map]. unfold cmd_xml at 1, aget_res. rewrite E. cbn [rmap rthen].
    assert (Y : exists ls, res_map cmd_xml a = Ok ls).
    { clear - F'. induction F' as [|d a (c & E & _) F IH]; [eexists; reflexivity|]. cbn [res_map]. unfold cmd_xml at 1, aget_res. rewrite E. cbn [rmap rthen].
      destruct IH as (ls & ->). eexists. reflexivity. }
    destruct Y as (ls & ->). eexists. split; [reflexivity|discriminate]. }
  destruct X as (ls & -> & N). cbn [rmap]. destruct ls; [contradiction|]. eauto.
Qed.
(** The commands of the export have codes. *)
Theorem C63_codes : forall point zone stems i d, exported_command point zone stems i d -> has_code d.
Proof.
  intros point zone stems i d (code & attrs & A & _ & C & _). exists code. split; [assumption|].
  unfold attributes in A. cbn [In] in A. repeat (destruct A as [A|A]; [injection A as _ <- _; vm_compute; intuition discriminate|]). destruct A.
Qed.

Print Assumptions C51_export. Print Assumptions C51_named. Print Assumptions C51_stem_refuted. Print Assumptions C51_zone_refuted.
Print Assumptions C61_commands. Print Assumptions C61_stems. Print Assumptions C61_unnamed_refuted. Print Assumptions C61_duplicate_refuted.
Print Assumptions C61_closing_refuted. Print Assumptions C63_value. Print Assumptions C63_text. Print Assumptions C63_exists. Print Assumptions C63_codes.

(** ** Examples *)
Definition ex_v : list stem := [plain "x" 80; Stem (py "y") 90 (fun px => if px <? 4 then 12 else 12 * px)].
Definition ex_h : list stem := [plain "" 70; plain "" 71].
Definition ex_top : list tt_zone := [TTZone 500 10 (py "xheight"); TTZone 700 12 (py "caps")].
Definition ex_bottom : list tt_zone := [TTZone 0 (-12) (py "base")].
Definition ex_entries : list tt_entry :=
  [EZones (TTZones (Some ex_top) (Some ex_bottom)); ppms_entry ex_v ex_h; EDeltas [(2, [(12, 1); (13, -1)])]; stems_entry ex_v ex_h; ppms1_entry ex_v ex_h].
Example ex_history : stem_history ex_v ex_h 1 (filter stem_part ex_entries) /\
  zone_history ex_top ex_bottom [(2, [(12, 1); (13, -1)])] (filter zone_part ex_entries) /\
  deltas_ok ex_top ex_bottom [(2, [(12, 1); (13, -1)])] /\ NoDup (map tz_name (ex_bottom ++ ex_top)) /\ NoDup (all_names ex_v ex_h).
Proof.
  split; [apply one_last|]. split; [apply deltas_last|]. split.
  { split; [repeat apply NoDup_cons; try apply NoDup_nil; cbn; intuition discriminate|]. apply Forall_cons; [|apply Forall_nil]. cbn [fst snd]. split; [cbn; lia|].
    repeat apply NoDup_cons; try apply NoDup_nil; cbn; intuition discriminate. }
  split; cbn; repeat apply NoDup_cons; try apply NoDup_nil; vm_compute; intuition discriminate.
Qed.
Example ex_lib : option_map (fun s => (map (fun x => (fst x, us_width (snd x), stem_round s (snd x))) (build_tt_stems_lib s)))
    (match tt_build ex_entries with Ok s => Some s | Err _ => None end) =
  let r := Ok [(py "20", 2); (py "30", 3); (py "40", 4); (py "50", 5); (py "60", 6); (py "10", 1)] in
  Some [(py "v00", 70, r); (py "v01", 71, r); (py "x", 80, r);
        (py "y", 90, Ok [(py "12", 3); (py "48", 4); (py "60", 5); (py "72", 6)])].
Proof. vm_compute. reflexivity. Qed.
Definition ex_instructions : list instruction :=
  [Instruction (py "AlignTop") [(py "pt", 2); (py "zone", 1)]; link 0 1 1; link 2 4 (-2);
   Instruction (py "MDeltaV") [(py "pt", 0); (py "shift", -3); (py "ppm1", 10); (py "ppm2", 12)]].
Ltac has_it := first [left; reflexivity | right; has_it].
Example ex_instructions_ok : Forall instruction_ok ex_instructions.
Proof.
  unfold ex_instructions, link. repeat apply Forall_cons; try apply Forall_nil;
    [exists (nth 0 tt_commands (0, ([], []))) | exists (nth 2 tt_commands (0, ([], []))) | exists (nth 2 tt_commands (0, ([], [])))
    | exists (nth 11 tt_commands (0, ([], [])))]; (split; [unfold tt_commands; cbn [In]; has_it|split; reflexivity]).
Qed.
Example ex_refers : Forall (refers 4 ex_top ex_bottom ex_v ex_h) ex_instructions.
Proof.
  unfold ex_instructions, link. repeat apply Forall_cons; try apply Forall_nil; unfold refers, param; cbn [in_params in_cmd In].
  all: split; [intros p n I H|split; [intros n t H E|intros n hor H _ _; destruct hor; discriminate]].
  all: try (destruct t; try discriminate E; repeat (destruct H as [H|H]; [try discriminate H; injection H as <-; cbn; lia|]); contradiction).
  all: repeat (destruct H as [H|H]; [injection H as <- <-; first [lia | exfalso; repeat (destruct I as [I|I]; [discriminate I|]); exact I]|]); contradiction.
Qed.
Example ex_commands : option_map (fun r => (map (fun d => map (fun n => text_of d n) attribute_names) (fst r)))
    (match tt_build ex_entries with
     | Ok s => match glyph_commands 2 [py "g"] (py "g") s [(py "g", LGlyph [] 4 [] [])] ex_instructions with Ok r => Some r | Err _ => None end
     | Err _ => None
     end) =
  Some [[Some (py "alignt"); Some (py "at01"); None; None; None; None; Some (py "caps"); None; None; None; None];
        [Some (py "singleh"); None; Some (py "sh01"); Some (py "sh02"); None; Some []; None; None; None; None; None];
        [Some (py "singleh"); None; Some (py "at01"); Some (py "lsb"); Some (py "true"); None; None; None; None; None; None];
        [Some (py "mdeltav"); Some (py "sh01"); None; None; None; None; None; None; Some (py "-3"); Some (py "10"); Some (py "12")]].
Proof. vm_compute. reflexivity. Qed.
