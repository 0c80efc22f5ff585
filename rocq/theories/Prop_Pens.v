(** C43, C44, C64: drawing glyphs, merging masters, drawing into glyphs. *)
From Coq Require Import String ZifyBool ZifyNat.
From Verif Require Import Base Lib M_Py M_Text M_Glyph M_Paths M_Pens S_Paths S_Pens P_Glyph P_Paths P_Pens Prop_Paths.
Local Open Scope list_scope.

Definition the {A} (o : option (list A)) : list A := match o with Some l => l | None => [] end.

(** ** C43: draw. Each contour is drawn from its moveTo to its closePath or endPath, and gives the path of its
    nodes; then the components follow. The control points of quadratic curves have to be followed by the node
    where the curve ends. *)
Theorem C43_draw : forall order m g gs, contours_of (the (g_nodes g)) gs -> Forall (node_ok m) (the (g_nodes g)) ->
  Forall qcurves_end gs -> Forall (component_ok order m) (the (g_components g)) ->
  exists css xs, draw order (Z.of_nat m) g = Ok (concat css ++ map (fun x => PComponent (fst x) (snd x)) xs) /\
    Forall2 (fun g calls => exists n rest, g = n :: rest /\ drawn calls = Some (source_path m (Z.odd (nd_flags n / 8)) n rest)) gs css /\
    Forall2 (component_drawn order m) (the (g_components g)) xs.
Proof.
  intros order m g gs (Eg & C) F Q Cs. unfold draw. fold (the (g_nodes g)). fold (the (g_components g)). rewrite <- Eg in *.
  assert (F' : Forall (Forall (node_ok m)) gs).
  { clear - F. induction gs as [|x gs IH]; constructor; cbn [concat] in F; apply Forall_app in F; [tauto|apply IH; tauto]. }
  destruct (draw_contours m gs draw_start C F' Q eq_refl) as (calls & st' & -> & Ec). cbn [rthen fst snd].
  destruct (components_drawn m order (the (g_components g)) Cs) as (xs & -> & Fx). cbn [rthen].
  exists (map (contour_calls m) gs), xs. split; [rewrite app_assoc, Ec; reflexivity|]. split; [|assumption].
  clear - C F' Q. induction gs as [|x gs IH]; constructor; inversion C as [|? ? (n & rest & -> & Tn & Tr) C']; inversion F'; inversion Q; subst; auto.
  exists n, rest. split; [reflexivity|]. now apply contour_drawn.
Qed.
(** What does not hold: the control points at the end of the last contour are not drawn, *)
Definition nd (t : path_cmd) (f : Z) (ps : list (Z * Z)) := MMNode t f [ps].
Definition with_nodes (l : list mm_node) : glyph := Glyph None None (Some l) None None None None None None None.
Theorem C43_last_refuted : forall order p q r, exists g, contours_of (the (g_nodes g)) [the (g_nodes g)] /\ Forall (node_ok 0) (the (g_nodes g)) /\
  In r (all_coords 0 (the (g_nodes g))) /\ draw order 0 g = Ok [PMove p; PLine q; PClose].
Proof.
  intros order p q r. exists (with_nodes [nd Move 0 [p]; nd Line 0 [q]; nd QCurve 0 [r]]). cbn [the g_nodes with_nodes]. split; [|split; [|split]].
  - split; [reflexivity|]. constructor; [|constructor]. do 2 eexists. split; [reflexivity|]. split; [reflexivity|]. repeat constructor; discriminate.
  - repeat apply Forall_cons; try apply Forall_nil; eexists; split; reflexivity.
  - cbn. auto.
  - reflexivity.
Qed.
(** and those at the end of an earlier contour are drawn as a curve to the start of the next contour. *)
Theorem C43_next_refuted : forall order p q r s, exists g, contours_of (the (g_nodes g)) [firstn 3 (the (g_nodes g)); skipn 3 (the (g_nodes g))] /\
  Forall (node_ok 0) (the (g_nodes g)) /\ node_pt 0 (nth 3 (the (g_nodes g)) (nd Move 0 [])) = s /\
  draw order 0 g = Ok [PMove p; PLine q; PQCurve [r; s]; PClose; PMove s; PClose].
Proof.
  intros order p q r s. exists (with_nodes [nd Move 0 [p]; nd Line 0 [q]; nd QCurve 0 [r]; nd Move 0 [s]]). cbn [the g_nodes with_nodes]. split; [|split; [|split]].
  - split; [reflexivity|]. constructor; [|constructor; [|constructor]]; do 2 eexists; (split; [reflexivity|]); (split; [reflexivity|]); repeat constructor; discriminate.
  - repeat apply Forall_cons; try apply Forall_nil; eexists; split; reflexivity.
  - reflexivity.
  - reflexivity.
Qed.

(** ** C43: drawPoints. The first call gives the contours of C50, each between one begin and one end; the glyph
    is not changed. *)
Theorem C43_points : forall m g gs, contours_of (the (g_nodes g)) gs -> Forall (node_ok m) (the (g_nodes g)) ->
  exists cs calls, draw_cached (Z.of_nat m) g None = (Some cs, Ok calls) /\ balanced calls cs /\ List.length cs = List.length gs /\
    forall k n rest c, nth_error gs k = Some (n :: rest) -> nth_error cs k = Some c ->
      (joined m (n :: rest) -> map up_pt c = removelast (all_coords m (n :: rest))) /\
      (~ joined m (n :: rest) -> map up_pt c = all_coords m (n :: rest)) /\
      (rest <> [] -> ufo_path c = Some (source_path m (Z.odd (nd_flags n / 8)) n rest)).
Proof.
  intros m g gs C F. destruct (C50_contours m (fun _ => None) _ gs F C) as (cs & ren & E & L & P). destruct (C50_path m (fun _ => None) _ gs F C) as (cs' & ren' & E' & P').
  rewrite E in E'. apply Ok_inj in E'. injection E' as <- <-. exists cs, (draw_points cs []). unfold draw_cached. fold (the (g_nodes g)). rewrite E. split; [reflexivity|]. split; [apply C50_draw|]. split; [assumption|].
  intros k n rest c Hg Hc. destruct (P k _ c Hg Hc) as (P1 & P2). split; [assumption|]. split; [assumption|]. intros Ne. now apply (P' k).
Qed.
(** What does not hold: a later call gives the contours of the first one, whatever the glyph is by then. *)
Theorem C43_stale_refuted : forall m g g' cs calls, draw_cached m g None = (Some cs, Ok calls) -> draw_cached m g' (Some cs) = (Some cs, Ok calls).
Proof.
  intros m g g' cs calls H. unfold draw_cached in *. destruct (extract_contours _ _ _) as [[cs' ren]|]; [|discriminate]. injection H as <- <-. reflexivity.
Qed.

(** ** C43: drawPointsDirect. Each contour is drawn between one begin and one end with all its coordinates in order,
    if the control points of quadratic curves are followed by the node where the curve ends, in all contours but
    the last. *)
Theorem C43_direct : forall order m g gs, contours_of (the (g_nodes g)) gs -> Forall (node_ok m) (the (g_nodes g)) ->
  Forall qcurves_end (removelast gs) -> Forall (component_ok order m) (the (g_components g)) ->
  exists ptss xs, draw_direct order (Z.of_nat m) g = Ok (concat (map (fun pts => DBegin :: map (fun x => DPoint (fst x) (snd x)) pts ++ [DEnd]) ptss) ++
      map (fun x => DComponent (fst x) (snd x)) xs) /\
    Forall2 (fun g pts => map fst pts = all_coords m g) gs ptss /\ Forall2 (component_drawn order m) (the (g_components g)) xs.
Proof.
  intros order m g gs (Eg & C) F Q Cs. unfold draw_direct. fold (the (g_nodes g)). fold (the (g_components g)). rewrite <- Eg in *.
  assert (F' : Forall (Forall (node_ok m)) gs).
  { clear - F. induction gs as [|x gs IH]; constructor; cbn [concat] in F; apply Forall_app in F; [tauto|apply IH; tauto]. }
  destruct (direct_contours m gs false C F' Q) as (calls & q' & ptss & -> & Ec & F2). cbn [rthen fst snd].
  destruct (components_drawn m order (the (g_components g)) Cs) as (xs & -> & Fx). cbn [rthen]. exists ptss, xs. split; [|split; assumption].
  rewrite app_assoc. f_equal. f_equal. cbn [app] in Ec. refine (eq_trans _ Ec). destruct gs; reflexivity.
Qed.
(** What does not hold: a closed contour is drawn as an open one, since its first point is of type move; and the
    start of the next contour is added to a contour that ends with control points. *)
Theorem C43_direct_refuted : forall order p q r s, exists g, contours_of (the (g_nodes g)) [firstn 3 (the (g_nodes g)); skipn 3 (the (g_nodes g))] /\
  Forall (node_ok 0) (the (g_nodes g)) /\ ~ open_contour (firstn 3 (the (g_nodes g))) /\
  draw_direct order 0 g = Ok [DBegin; DPoint p (Some SMove); DPoint q (Some SLine); DPoint r None; DPoint s (Some SQCurve); DEnd;
                              DBegin; DPoint s (Some SMove); DEnd].
Proof.
  intros order p q r s. exists (with_nodes [nd Move 0 [p]; nd Line 0 [q]; nd QCurve 0 [r]; nd Move 0 [s]]). cbn [the g_nodes with_nodes]. split; [|split; [|split]].
  - split; [reflexivity|]. constructor; [|constructor; [|constructor]]; do 2 eexists; (split; [reflexivity|]); (split; [reflexivity|]); repeat constructor; discriminate.
  - repeat apply Forall_cons; try apply Forall_nil; eexists; split; reflexivity.
  - intros (n & rest & E & O). injection E as <- _. discriminate O.
  - reflexivity.
Qed.

(** ** C44: merging. If it succeeds, the values of every master j >= 1 that has a source are those of the source,
    everything else stays; the types, flags and references agree. *)
Theorem C44_merge : forall masters d d', merge masters d = (d', Ok tt) -> merged masters d d'.
Proof.
  intros masters d d' H. unfold merge in H. destruct masters as [|t [|t2 ms]].
  - injection H as <-. apply (merged_refl 0).
  - injection H as <-. apply merged_short.
  - apply (merged_head TList). apply (merge_masters_ok (t2 :: ms) 1 d d' (le_n 1) H).
Qed.
(** It succeeds if every source of a master agrees and has the master. *)
Theorem C44_succeeds : forall masters d, (forall j t, (1 <= j)%nat -> nth_error masters j = Some t -> mergeable d j t) -> exists d', merge masters d = (d', Ok tt).
Proof.
  intros masters d H. unfold merge. destruct masters as [|t [|t2 ms]]; [eauto|eauto|].
  pose proof (merge_masters_can (t2 :: ms) 1 d) as M. destruct (merge_masters (Z.of_nat 1) (t2 :: ms) d) as [d' o] eqn:E. change (Z.of_nat 1) with 1 in E. rewrite E. exists d'. f_equal. apply M; [lia|].
  intros k x Hk. apply (H (S k) x); [lia|exact Hk].
Qed.
(** Else it fails: a source with another type or other flags at a place of the data, or one that is too short, is
    rejected. *)
Theorem C44_rejects : forall masters d j src tgt i a, (1 <= j)%nat -> option_map source_nodes (nth_error masters j) = Some (Some src) -> fst d = Some tgt -> nth_error tgt i = Some a ->
  (forall s, nth_error src i = Some s -> nd_type s <> nd_type a \/ nd_flags s <> nd_flags a) -> exists x, snd (merge masters d) = Err x.
Proof.
  intros masters d j src tgt i a Hj Hs Hd Ha N. destruct (merge masters d) as [d' [[]|x]] eqn:E; [exfalso|cbn; eauto]. apply C44_merge in E. destruct E as (E & _).
  rewrite Hd in E. destruct (fst d') as [l|]; [|destruct E]. cbn [optional] in E. destruct E as (_ & P). destruct (P i a Ha) as (b & _ & _ & _ & _ & A).
  rewrite <- nth_error_map in Hs. destruct (A j src Hj Hs) as (s & S1 & S2 & S3). destruct (N s S1); contradiction.
Qed.
(** It fails with [AssertionError] if types, flags, references or the presence of the lists differ, and with
    [IndexError] if a list is too short; there are no other exceptions. *)
Theorem C44_exceptions : forall masters d x, snd (merge masters d) = Err x -> In x [AssertionError; IndexError].
Proof.
  assert (I : forall A (l : list A) m x, py_index l m = Err x -> x = IndexError).
  { intros A l m x. unfold py_index. destruct (_ || _); [congruence|]. destruct (nth_error _ _); congruence. }
  assert (W : forall A (l : list A) m v x, py_assign l m v = Err x -> x = IndexError).
  { intros A l m v x. unfold py_assign. destruct (_ || _); congruence. }
  assert (T : forall A (l t : list A) m x, rthen (py_index l m) (py_assign t m) = Err x -> x = IndexError).
  { intros A l t m x. unfold rthen. destruct (py_index l m) eqn:E; [apply W|]. intros [= ->]. eapply I; exact E. }
  assert (N : forall m s t x, snd (merge_node' m s t) = Err x -> In x [AssertionError; IndexError]).
  { intros m s t x. unfold merge_node', merge_node. destruct (_ && _); cbn [rthen].
    - destruct (py_index (nd_points s) m) as [p|e] eqn:E; cbn [rthen snd]; [|intros [= ->]; apply I in E; subst; cbn; auto].
      destruct (py_assign (nd_points t) m p) as [p'|e] eqn:E'; cbn [rthen snd]; [discriminate|intros [= ->]; apply W in E'; subst; cbn; auto].
    - cbn [snd]. intros [= <-]. cbn. auto. }
  assert (C : forall m s t x, snd (merge_component m s t) = Err x -> In x [AssertionError; IndexError]).
  { intros m s t x. unfold merge_component. destruct (_ =? _); [|cbn [snd]; intros [= <-]; cbn; auto].
    repeat match goal with |- context [rthen ?a ?b] => let E := fresh in destruct (rthen a b) eqn:E; [|apply T in E; subst; cbn [snd]; intros [= <-]; cbn; auto] end.
    discriminate. }
  assert (L : forall A (f : A -> A -> A * res unit), (forall s t x, snd (f s t) = Err x -> In x [AssertionError; IndexError]) ->
    forall tgt src x, snd (merge_list f src tgt) = Err x -> In x [AssertionError; IndexError]).
  { intros A f Hf. induction tgt as [|t tgt IH]; intros src x; cbn [merge_list]; [discriminate|].
    destruct src as [|s src]; [intros [= <-]; cbn; auto|]. specialize (Hf s t). destruct (f s t) as [t' [u|e]]; [|apply Hf].
    specialize (IH src). destruct (merge_list f src tgt) as [l o]. apply IH. }
  assert (M : forall m s d x, snd (merge_master m s d) = Err x -> In x [AssertionError; IndexError]).
  { intros m [ns cs|] [dn dc] x; cbn [merge_master fst snd]; [|discriminate].
    assert (X : forall o, (let '(l, o) := match ns, dn with None, x => (x, Ok tt) | Some _, None => (None, Err AssertionError)
       | Some s, Some t => let '(l, o) := merge_list (merge_node' m) s t in (Some l, o) end in o) = o -> forall e, o = Err e -> In e [AssertionError; IndexError]).
    { intros o H e ->. destruct ns as [s|]; [|discriminate]. destruct dn as [t|]; [|injection H as <-; cbn; auto].
      specialize (L _ _ (N m) t s e). destruct (merge_list (merge_node' m) s t) as [l o]. apply L. exact H. }
    destruct (match ns, dn with None, x => (x, Ok tt) | Some _, None => (None, Err AssertionError)
       | Some s, Some t => let '(l, o) := merge_list (merge_node' m) s t in (Some l, o) end) as [nodes [u|e]].
    - destruct cs as [s|]; [|discriminate]. destruct dc as [t|]; [|intros [= <-]; cbn; auto].
      specialize (L _ _ (C m) t s x). destruct (merge_list (merge_component m) s t) as [l o]. exact L.
    - cbn [snd]. intros [= <-]. eapply X; reflexivity. }
  assert (MM : forall masters m d x, snd (merge_masters m masters d) = Err x -> In x [AssertionError; IndexError]).
  { induction masters as [|s ms IH]; intros m d x; cbn [merge_masters]; [discriminate|]. specialize (M m s d).
    destruct (merge_master m s d) as [d' [u|e]]; [apply IH|apply M]. }
  intros masters d x. unfold merge. destruct masters as [|t [|t2 ms]]; [discriminate|discriminate|apply MM].
Qed.
(** Compiling an entry merges the sources that were drawn into, and changes nothing if there is only one master or
    nothing was drawn. *)
Theorem C44_entry : forall n temp d d', merge_masters_data n temp d = (d', Ok tt) ->
  match temp with Some masters => n <> 1 -> merged masters d d' | None => d' = d end /\ (n = 1 -> d' = d).
Proof.
  intros n temp d d' H. unfold merge_masters_data in H. destruct temp as [t|]; [|injection H as <-; auto]. destruct (n =? 1) eqn:E.
  - injection H as <-. split; [lia|reflexivity].
  - split; [intros _; now apply C44_merge|lia].
Qed.
(** What does not hold: a source with more nodes than the data is accepted, its other nodes are ignored; *)
Theorem C44_longer_refuted : forall a b, nd_type b <> nd_type a -> (1 < List.length (nd_points a))%nat ->
  exists d', merge [TList; TDict (Some [a; b]) None] (Some [a], None) = (d', Ok tt) /\ merged [TList; TDict (Some [a]) None] (Some [a], None) d'.
Proof.
  intros a b N L.
  assert (M : forall j t, (1 <= j)%nat -> nth_error [TList; TDict (Some [a; b]) None] j = Some t -> mergeable (Some [a], None) j t).
  { intros [|[|[|j]]] t Hj H; try lia; try discriminate. injection H as <-. split; [|discriminate]. cbn [source_nodes]. intros src [= <-]. exists [a]. split; [reflexivity|]. split; [cbn; lia|].
    intros [|[|i]] x s Hx Hs; try discriminate. injection Hx as <-. injection Hs as <-. auto. }
  destruct (C44_succeeds _ _ M) as (d' & E). exists d'. split; [assumption|]. cbn [merge merge_masters merge_master fst snd merge_list] in E.
  apply (C44_merge [TList; TDict (Some [a]) None]). cbn [merge merge_masters merge_master fst snd merge_list]. destruct (merge_node' 1 a a) as [t' [u|x]]; exact E.
Qed.
(** a failed merge leaves the nodes before the one that is rejected changed; *)
Theorem C44_atomic_refuted : forall p q, exists masters d d' x, merge masters d = (d', Err x) /\
  option_map (map nd_points) (fst d) = Some [[[p]; [p]]; [[p]; [p]]] /\ option_map (map nd_points) (fst d') = Some [[[p]; [q]]; [[p]; [p]]].
Proof.
  intros p q. exists [TList; TDict (Some [MMNode Move 0 [[q]; [q]]; MMNode Line 1 [[q]; [q]]]) None], (Some [MMNode Move 0 [[p]; [p]]; MMNode Line 0 [[p]; [p]]], None).
  do 2 eexists. split; [reflexivity|]. split; reflexivity.
Qed.
(** and a point pen for another master than the first cannot be made unless the master was cleared before, nor can
    the master be cleared afterwards. *)
Theorem C44_pen_refuted : forall n m, 1 <= m -> exists temp, pen_target m None = (Some temp, Err IndexError) /\ snd (clear_temp n m (Some temp)) = Err IndexError.
Proof.
  assert (P : forall (x : target) m, 1 <= m -> py_index [x] m = Err IndexError).
  { intros x m H. unfold py_index. replace (m <? 0) with false by lia. cbv iota zeta. cbn [List.length]. replace ((m <? 0) || (Z.of_nat 1 <=? m)) with true by lia. reflexivity. }
  intros n m H. exists [TList]. unfold pen_target, clear_temp. replace (m =? 0) with false by lia. rewrite P by assumption. split; reflexivity.
Qed.
(** After clearing, it can, and starts without nodes. *)
Theorem C44_cleared : forall n m, 1 <= Z.of_nat m < n -> exists temp, clear_temp n (Z.of_nat m) None = (Some temp, Ok tt) /\
  List.length temp = Z.to_nat n /\ nth_error temp m = Some (TDict (Some []) None) /\ pen_target (Z.of_nat m) (Some temp) = (Some temp, Ok tt).
Proof.
  intros n m H. unfold clear_temp, pen_target. set (t := repeat (TDict None None) (Z.to_nat n)). assert (L : List.length t = Z.to_nat n) by apply repeat_length.
  rewrite (py_index_nth target t m (TDict None None)) by lia.
  replace (nth m t (TDict None None)) with (TDict None None) by (symmetry; apply nth_repeat). rewrite py_assign_ok by lia.
  eexists. split; [reflexivity|]. rewrite set_nth_length. split; [assumption|]. split; [apply set_nth_same; lia|]. replace (Z.of_nat m =? 0) with false by lia.
  rewrite (py_index_nth target _ m (TDict None None)) by (rewrite set_nth_length; lia). reflexivity.
Qed.

(** ** C64: drawing into a glyph. Contours of lines and quadratic curves are stored as nodes that give the same
    paths in all masters; nodes that were there before stay. *)
Theorem C64_contours : forall masters order css ns cs q, Forall quadratic_contour css ->
  exists gs st, pen_calls masters order (concat (map contour_pcalls css)) (PenSt None q ns cs) = Ok st /\
    the (pe_nodes st) = the ns ++ concat gs /\ pe_components st = cs /\ pe_path st = None /\
    Forall2 (fun c g => exists pa, ufo_path c = Some pa /\ nodes_draw masters g pa) css gs.
Proof.
  intros masters order css ns cs q F. destruct (pen_contours masters order css q ns cs [] F) as (q' & ns' & E & El). rewrite app_nil_r in E. cbn [pen_calls] in E.
  exists (map (new_nodes masters) css), (PenSt None q' ns' cs). split; [assumption|]. split; [exact El|]. split; [reflexivity|]. split; [reflexivity|]. clear - F.
  induction F as [|c css Q F IH]; constructor; [|assumption]. destruct c as [|p ps]; [destruct Q as (? & ? & ? & _); discriminate|].
  assert (U : exists pa, ufo_path (p :: ps) = Some pa).
  { destruct Q as (? & ? & [= <- <-] & H). unfold ufo_path. destruct (up_type p) as [t|]; [|destruct H as [(? & _)|(_ & ? & _)]; congruence]. destruct t; destruct (ufo_segments _ _); eauto. }
  destruct U as (pa & U). exists pa. split; [assumption|]. cbn [new_nodes]. split.
  - do 2 eexists. split; [reflexivity|]. split; [reflexivity|]. apply Forall_forall. intros n I. apply in_map_iff in I. destruct I as (x & <- & _). cbn [pen_node nd_type]. destruct (up_type x); discriminate.
  - intros m Hm. split.
    + constructor; [apply new_ok; [assumption|discriminate]|]. apply Forall_forall. intros n I. apply in_map_iff in I. destruct I as (x & <- & _). apply new_ok; [assumption|]. destruct (up_type x); discriminate.
    + do 2 eexists. split; [reflexivity|]. pose proof (new_path masters m Hm p ps Q) as N. rewrite U in N. injection N as <-. reflexivity.
Qed.
(** Redrawing what drawPoints gives for a glyph without cubic curves stores the same paths. *)
Theorem C64_redraw : forall masters order m nodes gs, contours_of nodes gs -> Forall (node_ok m) nodes ->
  Forall (fun g => (2 <= List.length g)%nat) gs -> Forall (fun n => nd_type n <> Curve) nodes ->
  exists css st gs', draw_cached (Z.of_nat m) (with_nodes nodes) None = (Some css, Ok (draw_points css [])) /\
    pen_calls masters order (concat (map contour_pcalls css)) (PenSt None false None None) = Ok st /\
    the (pe_nodes st) = concat gs' /\
    Forall2 (fun g g' => exists n rest, g = n :: rest /\ nodes_draw masters g' (source_path m (Z.odd (nd_flags n / 8)) n rest)) gs gs'.
Proof.
  intros masters order m nodes gs C F L N. destruct (C50_path m (fun _ => None) nodes gs F C) as (css & ren & E & P).
  pose proof (extract_ok m (fun _ => None) nodes gs F C) as E2. rewrite E in E2. apply Ok_inj in E2. destruct (flush_all_nth m (fun _ => None) gs 0 []) as (Lf & Nf). rewrite <- E2 in Lf, Nf. cbn [fst] in Lf, Nf.
  destruct C as (<- & C).
  assert (K : forall k g, nth_error gs k = Some g -> exists n rest, g = n :: rest /\ rest <> [] /\ Forall no_cubic rest).
  { intros k g Hg. pose proof (nth_error_In _ _ Hg) as I. rewrite Forall_forall in C, L. destruct (C g I) as (n & rest & -> & _ & Tr). exists n, rest. split; [reflexivity|]. split; [specialize (L _ I); destruct rest; [cbn in L; lia|discriminate]|].
    apply Forall_forall. intros x Hx. rewrite Forall_forall in Tr, N. specialize (Tr x Hx). assert (nd_type x <> Curve) by (apply N, in_concat; exists (n :: rest); split; [assumption|now right]). unfold no_cubic. destruct (nd_type x); auto; congruence. }
  assert (Q : Forall quadratic_contour css).
  { apply Forall_forall. intros c I. apply In_nth_error in I. destruct I as (k & Hk). destruct (nth_error gs k) as [g|] eqn:Hg; [|apply nth_error_None in Hg; assert (k < List.length css)%nat by (apply nth_error_Some; congruence); lia].
    rewrite (Nf k g Hg) in Hk. injection Hk as <-. destruct (K k g Hg) as (n & rest & -> & Ne & Nc). now apply flush_quadratic. }
  destruct (C64_contours masters order css None None false Q) as (gs' & st & Ep & En & _ & _ & F2). exists css, st, gs'. split; [unfold draw_cached; cbn [g_nodes with_nodes]; rewrite E; reflexivity|]. split; [assumption|]. split; [exact En|].
  assert (L2 : List.length gs' = List.length css) by (clear - F2; induction F2; cbn; congruence).
  assert (G : forall k g g', nth_error gs k = Some g -> nth_error gs' k = Some g' -> exists n rest, g = n :: rest /\ nodes_draw masters g' (source_path m (Z.odd (nd_flags n / 8)) n rest)).
  { intros k g g' Hg Hg'. destruct (K k g Hg) as (n & rest & -> & Ne & _). exists n, rest. split; [reflexivity|]. destruct (nth_error css k) as [c|] eqn:Hc; [|apply nth_error_None in Hc; assert (k < List.length gs')%nat by (apply nth_error_Some; congruence); lia].
    assert (X : exists pa, ufo_path c = Some pa /\ nodes_draw masters g' pa).
    { clear - F2 Hc Hg'. revert k Hc Hg'. induction F2; intros [|k] H1 H2; try discriminate; [injection H1 as <-; injection H2 as <-; assumption|cbn in *; eauto]. }
    destruct X as (pa & Hu & Hd). rewrite (P k n rest c Hg Hc Ne) in Hu. injection Hu as <-. assumption. }
  assert (Le : List.length gs = List.length gs') by lia. clear - G Le. revert gs' G Le. induction gs as [|g gs IH]; intros [|g' gs'] G Le; try discriminate; constructor.
  - apply (G 0%nat); reflexivity.
  - apply IH; [intros k a b Ha Hb; now apply (G (S k))|cbn in Le; lia].
Qed.
(** A cubic curve after the first point is rejected, *)
Theorem C64_cubic : forall masters order a path q ns cs p, M_Pens.pen_call masters order (CPoint p (Some SCurve)) (PenSt (Some (a :: path)) q ns cs) = Err ValueError.
Proof. reflexivity. Qed.
(** and a component refers to the first glyph of its name, and is rejected if there is none. *)
Lemma position_spec : forall order name k, match position_of name order k with
  | Some i => exists j, i = k + Z.of_nat j /\ nth_error order j = Some name /\ forall j', (j' < j)%nat -> nth_error order j' <> Some name
  | None => ~ In name order
  end.
Proof.
  induction order as [|x l IH]; intros name k; cbn [position_of]; [auto|]. destruct (str_eqb x name) eqn:E.
  - apply str_eqb_eq in E. subst. exists 0%nat. split; [lia|]. split; [reflexivity|]. intros j' H. lia.
  - assert (Ne : x <> name) by (intros ->; rewrite str_eqb_refl in E; discriminate). specialize (IH name (k + 1)). destruct (position_of name l (k + 1)) as [i|].
    + destruct IH as (j & -> & Hj & Hl). exists (S j). split; [lia|]. split; [exact Hj|]. intros [|j'] H; cbn [nth_error]; [congruence|apply Hl; lia].
    + intros [H|H]; auto.
Qed.
Theorem C64_component : forall masters order name xx xy yx yy dx dy q ns cs,
  let o := M_Pens.pen_call masters order (CComponent name xx xy yx yy dx dy) (PenSt None q ns cs) in
  (In name order -> exists c, o = Ok (PenSt None q ns (Some (the cs ++ [c]))) /\
     nth_error order (Z.to_nat (M_Glyph.co_gid c)) = Some name /\
     forall m, Z.of_nat m < masters -> component_ok order m c /\ component_drawn order m c (name, [xx; 0; 0; yy; dx; dy])) /\
  (~ In name order -> o = Err ValueError).
Proof.
  intros masters order name xx xy yx yy dx dy q ns cs. cbv zeta. pose proof (position_spec order name 0) as P. cbn [M_Pens.pen_call pe_path]. destruct (position_of name order 0) as [i|].
  - destruct P as (j & -> & Hj & _). split; [|intros H; exfalso; apply H; eapply nth_error_In; eauto]. intros _. eexists. split; [reflexivity|]. cbn [M_Glyph.co_gid]. rewrite Z.add_0_l, Nat2Z.id. split; [assumption|].
    intros m Hm. assert (J : (j < List.length order)%nat) by (apply nth_error_Some; congruence). unfold component_ok, component_drawn. cbn [M_Glyph.co_gid M_Glyph.co_x M_Glyph.co_y M_Glyph.co_sx M_Glyph.co_sy fst snd]. rewrite !repeat_length. split; [lia|]. rewrite Nat2Z.id. split; [assumption|].
    assert (R : forall x, nth m (repeat x (Z.to_nat masters)) 0 = x) by (intros x; apply nth_error_nth, nth_error_repeat; lia). now rewrite !R.
  - split; [contradiction|reflexivity].
Qed.
(** What does not hold: smoothness is lost, *)
Theorem C64_smooth_refuted : forall masters order css ns cs st gs, Forall quadratic_contour css ->
  pen_calls masters order (concat (map contour_pcalls css)) (PenSt None false ns cs) = Ok st -> the (pe_nodes st) = the ns ++ gs ->
  Forall (fun n => Z.odd (nd_flags n) = false) gs.
Proof.
  intros masters order css ns cs st gs F E G. destruct (pen_contours masters order css false ns cs [] F) as (q' & ns' & E' & El). rewrite app_nil_r, E in E'. cbn [pen_calls] in E'. apply Ok_inj in E'. subst st. cbn [pe_nodes] in G. unfold the in G. rewrite El in G. apply app_inv_head in G. subst gs.
  apply Forall_forall. intros n I. apply in_concat in I. destruct I as (l & Hl & I). apply in_map_iff in Hl. destruct Hl as ([|p ps] & <- & _); [destruct I|]. cbn [new_nodes] in I. destruct I as [<-|I].
  - cbn [pen_node nd_flags]. destruct (up_type p) as [[]|]; reflexivity.
  - apply in_map_iff in I. destruct I as (x & <- & _). reflexivity.
Qed.
(** and so is the skew of a component. *)
Theorem C64_skew_refuted : forall masters order name xx xy yx yy dx dy st, M_Pens.pen_call masters order (CComponent name xx xy yx yy dx dy) st = M_Pens.pen_call masters order (CComponent name xx 0 0 yy dx dy) st.
Proof. reflexivity. Qed.

(** ** Examples: the glyph of C50 with a component; two masters; a quadratic outline. *)
Example C43_example : let g := Glyph None None (Some ex_nodes) None None None (Some [M_Glyph.Component 1 [5] [6] [1] [1]]) None None None in
  let gs := [firstn 4 ex_nodes; firstn 3 (skipn 4 ex_nodes); skipn 7 ex_nodes] in
  contours_of (the (g_nodes g)) gs /\ Forall (node_ok 0) (the (g_nodes g)) /\ Forall qcurves_end gs /\
  Forall (component_ok [py "a"; py "b"] 0) (the (g_components g)) /\
  draw [py "a"; py "b"] 0 g = Ok [PMove (0, 0); PLine (10, 0); PLine (10, 10); PLine (0, 10); PClose;
    PMove (20, 0); PQCurve [(25, 5); (30, 0)]; PEnd;
    PMove (0, 50); PCurve (0, 55) (5, 60) (10, 60); PCurve (15, 60) (5, 45) (0, 50); PClose; PComponent (py "b") [1; 0; 0; 1; 5; 6]].
Proof.
  intros g gs. destruct C50_example as (A & B & _). split; [exact B|]. split; [exact A|]. split; [|split].
  - repeat apply Forall_cons; try apply Forall_nil; intros [|[|[|[|k]]]] n H T; cbn in H; try discriminate; try (destruct k; discriminate); injection H as <-; try discriminate T; try (eexists; split; [reflexivity|right; reflexivity]).
  - apply Forall_cons; [|apply Forall_nil]. repeat split; cbn; lia.
  - reflexivity.
Qed.
Example C44_example : let src := [MMNode Move 0 [[(0, 0)]; [(7, 7)]]; MMNode Line 0 [[(0, 0)]; [(8, 8)]]] in
  let d : data := (Some [MMNode Move 0 [[(1, 1)]; [(1, 1)]]; MMNode Line 0 [[(2, 2)]; [(2, 2)]]], None) in
  let masters := [TDict None None; TDict (Some src) None] in
  (forall j t, (1 <= j)%nat -> nth_error masters j = Some t -> mergeable d j t) /\
  merge masters d = ((Some [MMNode Move 0 [[(1, 1)]; [(7, 7)]]; MMNode Line 0 [[(2, 2)]; [(8, 8)]]], None), Ok tt).
Proof.
  intros src d masters. split; [|reflexivity]. intros [|[|[|j]]] t Hj H; try lia; try discriminate. injection H as <-. split; [|discriminate]. intros s E. injection E as <-. eexists. split; [reflexivity|]. split; [cbn; lia|].
  intros [|[|[|i]]] a x Ha Hx; try discriminate; injection Ha as <-; injection Hx as <-; cbn; repeat split; lia.
Qed.
Example C64_example : let pt t x y := UPoint t false None (x, y) in
  let c := [pt (Some SQCurve) 0 0; pt (Some SLine) 10 0; pt None 10 10; pt None 0 10] in
  quadratic_contour c /\
  pen_calls 2 [] (contour_pcalls c) (PenSt None false None None) =
    Ok (PenSt None true (Some [MMNode Move 0 [[(0, 0)]; [(0, 0)]]; MMNode Line 0 [[(10, 0)]; [(10, 0)]]; MMNode QCurve 0 [[(10, 10)]; [(10, 10)]]; MMNode QCurve 0 [[(0, 10)]; [(0, 10)]]]) None).
Proof.
  intros pt c. split; [|reflexivity]. do 2 eexists. split; [reflexivity|]. right. split; [discriminate|]. split; [discriminate|]. cbn. auto.
Qed.

Print Assumptions C43_draw.
Print Assumptions C43_last_refuted.
Print Assumptions C43_next_refuted.
Print Assumptions C43_points.
Print Assumptions C43_stale_refuted.
Print Assumptions C43_direct.
Print Assumptions C43_direct_refuted.
Print Assumptions C44_merge.
Print Assumptions C44_succeeds.
Print Assumptions C44_rejects.
Print Assumptions C44_exceptions.
Print Assumptions C44_entry.
Print Assumptions C44_longer_refuted.
Print Assumptions C44_atomic_refuted.
Print Assumptions C44_pen_refuted.
Print Assumptions C44_cleared.
Print Assumptions C64_contours.
Print Assumptions C64_redraw.
Print Assumptions C64_cubic.
Print Assumptions C64_component.
Print Assumptions C64_smooth_refuted.
Print Assumptions C64_skew_refuted.
