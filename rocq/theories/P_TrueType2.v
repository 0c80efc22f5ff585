(** Proofs about the TrueType zone deltas: nested mappings written as a sorted list of triples. *)
From Coq Require Import String Sorting.Sorted Permutation.
From Verif Require Import Base M_Stream M_Helpers M_Text M_Py M_Simple M_TrueType S_Bits S_Text S_Entry
  S_TrueType Lib P_Stream P_Helpers P_Text P_Text2 P_Loop P_Simple P_Simple2 P_Simple3 P_TrueType.
Local Open Scope list_scope.
Open Scope rd_scope.
From Coq Require Import ZifyBool ZifyNat.
Ltac Zify.zify_post_hook ::= Z.div_mod_to_equations.

(** ** Association lists keyed by integers *)
Lemma zget_set : forall V k k' (v : V) d,
  aget Z.eqb k (aset Z.eqb k' v d) = if k =? k' then Some v else aget Z.eqb k d.
Proof.
  induction d as [|[k2 v2] d IH]; cbn.
  - destruct (k =? k'); reflexivity.
  - destruct (k' =? k2) eqn:E; cbn.
    + destruct (k =? k') eqn:E1; destruct (k =? k2) eqn:E2; try reflexivity; lia.
    + rewrite IH. destruct (k =? k2) eqn:E2; destruct (k =? k') eqn:E1; try reflexivity; lia.
Qed.
Lemma zget_in : forall V k (v : V) d, aget Z.eqb k d = Some v -> In (k, v) d.
Proof.
  induction d as [|[k' v'] d IH]; cbn; [discriminate|]. destruct (k =? k') eqn:E; intros H.
  - inversion H; subst. left. f_equal. lia.
  - auto.
Qed.
Lemma in_zget : forall V k (v : V) d, NoDup (map fst d) -> In (k, v) d -> aget Z.eqb k d = Some v.
Proof.
  induction d as [|[k' v'] d IH]; cbn; [tauto|]. intros N [H|H].
  - inversion H; subst. rewrite Z.eqb_refl. reflexivity.
  - inversion N; subst. destruct (k =? k') eqn:E; [|auto].
    exfalso. apply H2. apply in_map_iff. exists (k, v). split; [cbn; lia|exact H].
Qed.

(** ** Sorting *)
Lemma insert_perm : forall x l, Permutation (insert_triple x l) (x :: l).
Proof.
  induction l as [|y l IH]; cbn; [apply Permutation_refl|]. destruct (triple_leb x y).
  - apply Permutation_refl.
  - apply Permutation_trans with (y :: x :: l); [apply perm_skip, IH|apply perm_swap].
Qed.
Lemma sort_perm : forall l, Permutation (sort_triples l) l.
Proof.
  induction l as [|x l IH]; cbn; [constructor|].
  apply Permutation_trans with (x :: sort_triples l); [apply insert_perm|apply perm_skip, IH].
Qed.
Definition tle (a b : triple) : Prop := triple_leb a b = true.
Lemma tle_total : forall a b, tle a b \/ tle b a.
Proof. intros [[a1 a2] a3] [[b1 b2] b3]. unfold tle, triple_leb. lia. Qed.
Lemma tle_trans : forall a b c, tle a b -> tle b c -> tle a c.
Proof. intros [[a1 a2] a3] [[b1 b2] b3] [[c1 c2] c3]. unfold tle, triple_leb. lia. Qed.
Lemma tle_antisym : forall a b, tle a b -> tle b a -> a = b.
Proof.
  intros [[a1 a2] a3] [[b1 b2] b3]. unfold tle, triple_leb. intros H1 H2.
  assert (a1 = b1) by lia. assert (a2 = b2) by lia. assert (a3 = b3) by lia. subst. reflexivity.
Qed.
Lemma insert_sorted : forall x l, StronglySorted tle l -> StronglySorted tle (insert_triple x l).
Proof.
  intros x. induction l as [|y s IH]; intros S; cbn; [repeat constructor|].
  inversion S as [|? ? Hs Hf]; subst. destruct (triple_leb x y) eqn:E.
  - constructor; [constructor; assumption|]. constructor; [exact E|].
    eapply Forall_impl; [|exact Hf]. intros z Hz. eapply tle_trans; [exact E|exact Hz].
  - constructor; [apply IH, Hs|]. apply Forall_forall. intros z Hz.
    apply (Permutation_in _ (insert_perm x s)) in Hz. destruct Hz as [<-|Hz].
    + destruct (tle_total x y) as [H|H]; [unfold tle in H; congruence|exact H].
    + rewrite Forall_forall in Hf. auto.
Qed.
Lemma sort_sorted : forall l, StronglySorted tle (sort_triples l).
Proof. induction l as [|x l IH]; cbn; [constructor|apply insert_sorted, IH]. Qed.
Lemma sorted_perm_eq : forall l1 l2, StronglySorted tle l1 -> StronglySorted tle l2 ->
  Permutation l1 l2 -> l1 = l2.
Proof.
  induction l1 as [|x l1 IH]; intros l2 S1 S2 P.
  - apply Permutation_nil in P. symmetry. exact P.
  - destruct l2 as [|y l2]; [apply Permutation_sym, Permutation_nil in P; discriminate|].
    inversion S1; subst. inversion S2; subst.
    assert (E : x = y).
    { apply tle_antisym.
      - assert (Hy : In y (x :: l1)) by (eapply Permutation_in; [apply Permutation_sym; exact P|left; auto]).
        destruct Hy as [E|Hy]; [rewrite <- E; destruct (tle_total x x); auto|]. rewrite Forall_forall in H2. auto.
      - assert (Hx : In x (y :: l2)) by (eapply Permutation_in; [exact P|left; auto]).
        destruct Hx as [E|Hx]; [rewrite E; destruct (tle_total x x); auto|]. rewrite Forall_forall in H4. auto. }
    subst. f_equal. apply IH; auto. eapply Permutation_cons_inv. exact P.
Qed.

(** ** The mapping that a list of triples stands for *)
Definition delta_store (d : zone_deltas) (t : triple) : zone_deltas :=
  let '(z, p, s) := t in
  match aget Z.eqb z d with
  | Some spec => aset Z.eqb z (aset Z.eqb p s spec) d
  | None => aset Z.eqb z [(p, s)] d
  end.
Lemma store_all : forall T, NoDup (map fst T) -> forall z,
  match aget Z.eqb z (fold_left delta_store T []) with
  | Some m => (exists p s, In (z, p, s) T) /\ NoDup (map fst m) /\ forall p s, aget Z.eqb p m = Some s <-> In (z, p, s) T
  | None => forall p s, ~ In (z, p, s) T
  end.
Proof.
  induction T as [|[[z0 p0] s0] T IH] using rev_ind; intros N z.
  - cbn. tauto.
  - rewrite map_app in N. cbn [map fst] in N.
    assert (N' : NoDup (map fst T)).
    { apply NoDup_remove_1 in N. rewrite app_nil_r in N. exact N. }
    assert (Hf : forall s, ~ In (z0, p0, s) T).
    { intros s H. apply NoDup_remove_2 in N. rewrite app_nil_r in N. apply N.
      apply in_map_iff. exists (z0, p0, s). auto. }
    specialize (IH N').
    assert (F : fold_left delta_store (T ++ [(z0, p0, s0)]) [] =
                delta_store (fold_left delta_store T []) (z0, p0, s0)) by apply fold_left_app.
    rewrite F. clear F.
    pose proof (IH z0) as I0. pose proof (IH z) as Iz.
    revert I0 Iz. generalize (fold_left delta_store T []). intros d I0 Iz. unfold delta_store.
    assert (NS : forall (m : list (Z * Z)) p s, NoDup (map fst m) -> NoDup (map fst (aset Z.eqb p s m))).
    { clear. intros m p s. induction m as [|[k v] m IH]; intros N; cbn; [repeat constructor; cbn; tauto|].
      inversion N; subst. destruct (p =? k) eqn:E; cbn; [constructor; auto|].
      constructor; [|auto]. intros H. apply H1. clear - H E. induction m as [|[k2 v2] m IH]; cbn in *.
      - destruct H as [H|[]]; lia.
      - destruct (p =? k2) eqn:E2; cbn in H; tauto. }
    destruct (aget Z.eqb z0 d) as [m0|] eqn:E0; rewrite zget_set; destruct (z =? z0) eqn:Ez; cbv iota.
    + assert (z = z0) by lia. subst z. split; [exists p0, s0; apply in_or_app; right; left; auto|].
      destruct I0 as (_ & Nm & I0). split; [apply NS, Nm|]. intros p s. rewrite zget_set, in_app_iff.
      destruct (p =? p0) eqn:Ep.
      * assert (p = p0) by lia. subst p. split.
        -- intros H. inversion H; subst. right. left. reflexivity.
        -- intros [H|[H|[]]]; [exfalso; eapply Hf; exact H|]. inversion H. reflexivity.
      * rewrite I0. split; [auto|]. intros [H|[H|[]]]; [exact H|]. inversion H. lia.
    + destruct (aget Z.eqb z d) as [m|].
      * destruct Iz as ((p & s & H) & Nm & Iz). split; [exists p, s; apply in_or_app; auto|].
        split; [exact Nm|]. intros p1 s1.
        rewrite Iz, in_app_iff. split; [auto|]. intros [H1|[H1|[]]]; [exact H1|]. inversion H1. lia.
      * intros p s. rewrite in_app_iff. intros [H|[H|[]]]; [eapply Iz; exact H|]. inversion H. lia.
    + assert (z = z0) by lia. subst z. split; [exists p0, s0; apply in_or_app; right; left; auto|].
      split; [repeat constructor; cbn; tauto|].
      intros p s. cbn [aget]. rewrite in_app_iff. destruct (p =? p0) eqn:Ep.
      * assert (p = p0) by lia. subst p. split.
        -- intros H. inversion H; subst. right. left. reflexivity.
        -- intros [H|[H|[]]]; [exfalso; eapply Hf; exact H|]. inversion H. reflexivity.
      * split; [discriminate|]. intros [H|[H|[]]]; [exfalso; eapply I0; exact H|]. inversion H. lia.
    + destruct (aget Z.eqb z d) as [m|].
      * destruct Iz as ((p & s & H) & Nm & Iz). split; [exists p, s; apply in_or_app; auto|].
        split; [exact Nm|]. intros p1 s1.
        rewrite Iz, in_app_iff. split; [auto|]. intros [H1|[H1|[]]]; [exact H1|]. inversion H1. lia.
      * intros p s. rewrite in_app_iff. intros [H|[H|[]]]; [eapply Iz; exact H|]. inversion H. lia.
Qed.
Lemma triples_in : forall d z p s, In (z, p, s) (delta_triples d) <->
  exists spec, In (z, spec) d /\ In (p, s) spec.
Proof.
  intros d z p s. unfold delta_triples. rewrite in_flat_map. split.
  - intros ([z' spec] & H1 & H2). cbn [fst snd] in H2. apply in_map_iff in H2.
    destruct H2 as ([p' s'] & E & H2). inversion E; subst. eauto.
  - intros (spec & H1 & H2). exists (z, spec). split; [exact H1|]. apply in_map_iff. exists (p, s). auto.
Qed.
Lemma triples_nodup : forall d, NoDup (map fst d) ->
  Forall (fun zs => NoDup (map fst (snd zs))) d -> NoDup (map fst (delta_triples d)).
Proof.
  induction d as [|[z spec] d IH]; intros N F; cbn; [constructor|].
  inversion N; subst. inversion F; subst. rewrite map_app. cbn [fst snd] in *.
  specialize (IH H2 H4). rewrite map_map. cbn [fst].
  assert (N1 : NoDup (map (fun x : Z * Z => (z, fst x)) spec)).
  { clear - H3. induction spec as [|[p s] spec IH]; cbn in *; [constructor|]. inversion H3; subst.
    constructor; [|auto]. intros H. apply in_map_iff in H. destruct H as ([p' s'] & E & H).
    inversion E; subst. apply H1. apply in_map_iff. exists (p, s'). auto. }
  assert (D : forall x, In x (map (fun x : Z * Z => (z, fst x)) spec) -> ~ In x (map fst (delta_triples d))).
  { intros x Hx Hx2. apply in_map_iff in Hx. destruct Hx as ([p s] & <- & _).
    apply in_map_iff in Hx2. destruct Hx2 as ([[z' p'] s'] & E & Hx2). inversion E; subst.
    apply triples_in in Hx2. destruct Hx2 as (spec' & Hin & _). apply H1. apply in_map_iff.
    exists (z, spec'). auto. }
  fold (delta_triples d). revert N1 D. generalize (map (fun x : Z * Z => (z, fst x)) spec).
  induction l as [|x l IHl]; intros N1 D; cbn; [exact IH|]. inversion N1; subst.
  constructor.
  - rewrite in_app_iff. intros [Hx|Hx]; [auto|]. eapply D; [left; reflexivity|exact Hx].
  - apply IHl; auto. intros y Hy. apply D. right. exact Hy.
Qed.
Lemma triples_length : forall d, length (delta_triples d) = length (flat_map snd d).
Proof.
  unfold delta_triples. induction d as [|[z spec] d IH]; cbn [flat_map fst snd]; [reflexivity|].
  rewrite !app_length, map_length, IH. reflexivity.
Qed.
Definition wf_triple (t : triple) : Prop := let '(z, p, s) := t in i32 z /\ i32 p /\ i32 s.
Definition write_triple (t : triple) : wr :=
  let '(zone_index, ppm, shift) := t in
  write_value zone_index +++ write_value ppm +++ write_value shift.

Lemma wrt_deltas : forall d, wf_deltas d ->
  wrt (compile_zone_deltas d) parse_zone_deltas
      (fold_left delta_store (sort_triples (delta_triples d)) []).
Proof.
  intros d (Hn & Hf & Hc). unfold compile_zone_deltas, parse_zone_deltas. cbv zeta.
  set (T := sort_triples (delta_triples d)).
  assert (Hp : Permutation T (delta_triples d)) by apply sort_perm.
  eapply wrt_bind.
  { apply wrt_value. rewrite (Permutation_length Hp), triples_length. apply count_i32. exact Hc. }
  rewrite Nat2Z.id. apply wrt_times with (f := delta_store).
  intros l1 [[z p] s] l2 E.
  assert (Hw : i32 z /\ i32 p /\ i32 s).
  { assert (Hin : In (z, p, s) (delta_triples d)).
    { apply (Permutation_in _ Hp). rewrite E. apply in_or_app. right. left. reflexivity. }
    apply triples_in in Hin. destruct Hin as (spec & H1 & H2).
    destruct (Forall_In _ _ _ _ Hf H1) as (Hz & _ & Hs). cbn [fst snd] in *.
    destruct (Forall_In _ _ _ _ Hs H2) as [Hp' Hs']. auto. }
  destruct Hw as (H1 & H2 & H3). rewrite fold_left_app. cbn [fold_left].
  unfold deltas_turn. eapply wrt_bind; [apply wrt_value, H1|]. eapply wrt_bind; [apply wrt_value, H2|].
  eapply wrt_bind_ret; [apply wrt_value, H3|]. intros r. unfold ret, delta_store at 2.
  reflexivity.
Qed.
Lemma deltas_lookup : forall d, wf_deltas d -> forall zone,
  let d' := fold_left delta_store (sort_triples (delta_triples d)) [] in
  match aget Z.eqb zone d' with
  | Some m' => exists m, aget Z.eqb zone d = Some m /\ m <> [] /\
                 forall ppm, aget Z.eqb ppm m = aget Z.eqb ppm m'
  | None => forall m, aget Z.eqb zone d = Some m -> m = []
  end.
Proof.
  intros d (Hn & Hf & Hc) z d'.
  pose proof (sort_perm (delta_triples d)) as Hp.
  assert (N : NoDup (map fst (sort_triples (delta_triples d)))).
  { eapply Permutation_NoDup; [apply Permutation_sym, Permutation_map, Hp|]. apply triples_nodup; auto.
    eapply Forall_impl; [|exact Hf]. cbn. tauto. }
  pose proof (store_all _ N z) as S. fold d' in S.
  destruct (aget Z.eqb z d') as [m'|].
  - destruct S as ((p & s & Hin) & _ & S).
    apply (Permutation_in _ Hp), triples_in in Hin. destruct Hin as (m & Hm & Hps).
    exists m. pose proof (in_zget _ _ _ _ Hn Hm) as G. split; [exact G|].
    split; [destruct m; [destruct Hps|discriminate]|].
    destruct (Forall_In _ _ _ _ Hf Hm) as (_ & Nm & _). cbn [snd] in Nm.
    intros ppm. destruct (aget Z.eqb ppm m') as [s'|] eqn:E'.
    + apply S in E'. apply (Permutation_in _ Hp), triples_in in E'. destruct E' as (m2 & Hm2 & H2).
      pose proof (in_zget _ _ _ _ Hn Hm2) as G2. rewrite G in G2. inversion G2; subst.
      apply in_zget; auto.
    + destruct (aget Z.eqb ppm m) as [s'|] eqn:E; [|reflexivity]. exfalso.
      apply zget_in in E.
      assert (In (z, ppm, s') (sort_triples (delta_triples d))).
      { apply (Permutation_in _ (Permutation_sym Hp)), triples_in. eauto. }
      apply S in H. congruence.
  - intros m G. apply zget_in in G. destruct m as [|[p s] m]; [reflexivity|]. exfalso.
    apply (S p s). apply (Permutation_in _ (Permutation_sym Hp)), triples_in.
    exists ((p, s) :: m). split; [exact G|left; reflexivity].
Qed.
(** equal mappings are written alike *)
Lemma compile_deltas_perm : forall d d', Permutation (delta_triples d) (delta_triples d') ->
  compile_zone_deltas d = compile_zone_deltas d'.
Proof.
  intros d d' H. unfold compile_zone_deltas.
  replace (sort_triples (delta_triples d')) with (sort_triples (delta_triples d)); [reflexivity|].
  apply sorted_perm_eq; try apply sort_sorted.
  eapply Permutation_trans; [apply sort_perm|]. eapply Permutation_trans; [exact H|].
  apply Permutation_sym, sort_perm.
Qed.
Lemma same_deltas_triples : forall d d', wf_deltas d -> wf_deltas d' -> same_deltas d d' ->
  Permutation (delta_triples d) (delta_triples d').
Proof.
  assert (G : forall d d', wf_deltas d -> wf_deltas d' -> same_deltas d d' -> forall t,
    In t (delta_triples d) -> In t (delta_triples d')).
  { intros d d' (N & F & _) (N' & F' & _) H [[z p] s] Hin. apply triples_in in Hin.
    destruct Hin as (m & Hm & Hps). specialize (H z). rewrite (in_zget _ _ _ _ N Hm) in H.
    destruct (aget Z.eqb z d') as [m'|] eqn:E; [|destruct H].
    apply triples_in. exists m'. split; [apply zget_in, E|]. apply zget_in. rewrite <- H.
    apply in_zget; [|exact Hps]. destruct (Forall_In _ _ _ _ F Hm) as (_ & Nm & _). exact Nm. }
  intros d d' H1 H2 H.
  assert (Nd : forall d, wf_deltas d -> NoDup (delta_triples d)).
  { intros x (N & F & _). eapply NoDup_map_inv with (f := fst). apply triples_nodup; [exact N|].
    eapply Forall_impl; [|exact F]. cbn. tauto. }
  apply NoDup_Permutation; auto. intros t. split; apply G; auto.
  intros z. specialize (H z). destruct (aget Z.eqb z d), (aget Z.eqb z d'); auto.
Qed.
Lemma tot_deltas : tot parse_zone_deltas.
Proof.
  unfold parse_zone_deltas, deltas_turn. apply tot_bind; [apply tot_value|]. intros n.
  apply tot_times. intros st. repeat (apply tot_bind; [apply tot_value|intros]). apply tot_ret.
Qed.
Lemma zset_nodup : forall V k (v : V) d, NoDup (map fst d) -> NoDup (map fst (aset Z.eqb k v d)).
Proof.
  intros V k v. induction d as [|[k' v'] d IH]; intros N; cbn; [repeat constructor; cbn; tauto|].
  inversion N; subst. destruct (k =? k') eqn:E; cbn; [constructor; auto|].
  constructor; [|auto]. intros H. apply H1. clear - H E. induction d as [|[k2 v2] d IH]; cbn in *.
  - destruct H as [H|[]]; lia.
  - destruct (k =? k2) eqn:E2; cbn in H; tauto.
Qed.
Lemma zset_Forall : forall V k (v : V) d (P : Z * V -> Prop), Forall P d -> P (k, v) ->
  Forall P (aset Z.eqb k v d).
Proof.
  intros V k v d P. induction 1 as [|[k' v'] d Hx H IH]; intros Hp; cbn; [auto|].
  destruct (k =? k') eqn:E; constructor; auto. assert (k' = k) by lia. subst. exact Hp.
Qed.
Lemma zset_some : forall k v (d : zone_deltas) m, aget Z.eqb k d = Some m ->
  (length (flat_map snd (aset Z.eqb k v d)) + length m = length (flat_map snd d) + length v)%nat.
Proof.
  induction d as [|[k' v'] d IH]; intros m E; cbn [aget aset] in *; [discriminate|].
  destruct (k =? k'); cbn [flat_map snd]; rewrite !app_length.
  - inversion E; subst. lia.
  - specialize (IH m E). lia.
Qed.
Lemma zset_none : forall k v (d : zone_deltas), aget Z.eqb k d = None ->
  (length (flat_map snd (aset Z.eqb k v d)) = length (flat_map snd d) + length v)%nat.
Proof.
  induction d as [|[k' v'] d IH]; intros E; cbn [aget aset] in *.
  - cbn [flat_map snd]. rewrite app_length. cbn. lia.
  - destruct (k =? k'); [discriminate|]. cbn [flat_map snd]. rewrite !app_length, IH by exact E. lia.
Qed.
Lemma zlen_set : forall k (v : Z) d, (length (aset Z.eqb k v d) <= S (length d))%nat.
Proof.
  induction d as [|[k' v'] d IH]; cbn; [lia|]. destruct (k =? k'); cbn; lia.
Qed.
Definition nonempty_deltas (d : zone_deltas) : Prop := Forall (fun zs => snd zs <> []) d.
Lemma rps_deltas : rps parse_zone_deltas (fun d => wf_deltas d /\ nonempty_deltas d).
Proof.
  unfold parse_zone_deltas. eapply rps_bind; [apply rps_value|]. intros n Hn.
  eapply rps_weaken.
  - apply rps_times_n with (k := 0%nat) (I := fun k d =>
      (length (flat_map snd d) <= k)%nat /\ NoDup (map fst d) /\
      Forall (fun zs => int32 (fst zs) /\ NoDup (map fst (snd zs)) /\
                    Forall (fun ps => int32 (fst ps) /\ int32 (snd ps)) (snd zs)) d /\ nonempty_deltas d).
    + cbn. repeat split; try constructor.
    + intros k d (H1 & H2 & H3 & H4). unfold deltas_turn.
      eapply rps_bind; [apply rps_value|]. intros z Hz. eapply rps_bind; [apply rps_value|]. intros p Hp.
      eapply rps_bind; [apply rps_value|]. intros s Hs. apply rps_ret.
      destruct (aget Z.eqb z d) as [m|] eqn:E.
      * pose proof (zget_in _ _ _ _ E) as Hin.
        destruct (Forall_In _ _ _ _ H3 Hin) as (_ & Nm & Fm). cbn [snd] in *.
        split.
        { pose proof (zset_some z (aset Z.eqb p s m) d m E).
          pose proof (zlen_set p s m). lia. }
        split; [apply zset_nodup, H2|]. split.
        { apply zset_Forall; [exact H3|]. cbn. split; [exact Hz|]. split; [apply zset_nodup, Nm|].
          apply zset_Forall; [exact Fm|]. cbn. auto. }
        apply zset_Forall; [exact H4|]. cbn. destruct m as [|[a b] m]; cbn; [discriminate|].
        destruct (p =? a); discriminate.
      * split.
        { rewrite zset_none by exact E. cbn [length]. lia. }
        split; [apply zset_nodup, H2|]. split.
        { apply zset_Forall; [exact H3|]. cbn. split; [exact Hz|]. split; [repeat constructor; cbn; tauto|].
          repeat constructor; cbn; auto; first [apply Hp|apply Hs]. }
        apply zset_Forall; [exact H4|]. cbn. discriminate.
  - cbn beta. intros d (H1 & H2 & H3 & H4). split; [|exact H4]. split; [exact H2|]. split; [exact H3|].
    unfold countable, i32 in *. lia.
Qed.
