(** Proofs about groups: the mappings, the rebuilt groups, the transformed classes. *)
From Coq Require Import String.
From Verif Require Import Base M_Py M_Text M_Groups S_Groups Lib.
Local Open Scope list_scope.

Lemma mem_In : forall x l, mem x l = true <-> In x l.
Proof.
  intros. unfold mem. rewrite existsb_exists. split.
  - intros [y [Hy E]]. apply str_eqb_eq in E. now subst.
  - intros. exists x. split; [assumption|apply str_eqb_refl].
Qed.
Lemma mem_notin : forall x l, mem x l = false <-> ~ In x l.
Proof. intros. rewrite <- mem_In. destruct (mem x l); split; intros; congruence. Qed.

Lemma starts_spec : forall p s, starts p s = true <-> exists t, s = p ++ t.
Proof.
  intros. unfold starts. rewrite str_eqb_eq. split.
  - intros E. exists (skipn (List.length p) s). rewrite <- E at 1. symmetry. apply firstn_skipn.
  - intros [t ->]. rewrite firstn_app, firstn_all, Nat.sub_diag. cbn. apply app_nil_r.
Qed.
Lemma starts_neg : forall p s, starts p s = false <-> ~ exists t, s = p ++ t.
Proof. intros. rewrite <- starts_spec. destruct (starts p s); split; intros; congruence. Qed.

Definition side1 n := starts (py "public.kern1") n.
Definition side2 n := starts (py "public.kern2") n.
Definition kern n := starts (py "public.kern") n.
Lemma side1_spec : forall n, side1 n = true <-> first_side n.
Proof. intros. apply starts_spec. Qed.
Lemma side2_spec : forall n, side2 n = true <-> second_side n.
Proof. intros. apply starts_spec. Qed.
Lemma kern_spec : forall n, kern n = true <-> kerning_name n.
Proof. intros. apply starts_spec. Qed.
Lemma side1_kern : forall n, side1 n = true -> kern n = true.
Proof. intros n H. apply starts_spec in H. destruct H as [t ->]. apply starts_spec. now exists (49 :: t). Qed.
Lemma side2_kern : forall n, side2 n = true -> kern n = true.
Proof. intros n H. apply starts_spec in H. destruct H as [t ->]. apply starts_spec. now exists (50 :: t). Qed.
Lemma side12 : forall n, side1 n = true -> side2 n = true -> False.
Proof.
  intros n H1 H2. apply starts_spec in H1. apply starts_spec in H2. destruct H1 as [t ->], H2 as [u E].
  cbn in E. discriminate.
Qed.

(** ** The mappings *)

(** the glyphs of [gl] that are not in [seen], first occurrences only *)
Fixpoint news (gl seen : list pystr) : list pystr :=
  match gl with
  | [] => []
  | g :: gl' => if mem g seen then news gl' seen else g :: news gl' (seen ++ [g])
  end.

(** the groups of one side with the glyphs they are the first to have *)
Fixpoint own (side : pystr -> bool) (gs : groups) (seen : list pystr) : groups :=
  match gs with
  | [] => []
  | (n, gl) :: gs' =>
      if side n then (n, news gl seen) :: own side gs' (seen ++ news gl seen)
      else own side gs' seen
  end.
Definition flat (gs : groups) : mapping :=
  flat_map (fun p => map (fun g => (g, fst p)) (snd p)) gs.
Definition nonempty (gs : groups) : groups :=
  filter (fun p => match snd p with [] => false | _ => true end) gs.

Lemma mem_keys : forall V g (m : list (pystr * V)),
  mem g (map fst m) = is_some (aget str_eqb g m).
Proof.
  induction m as [|[k v] m IH]; [reflexivity|]. cbn [map fst mem existsb aget].
  destruct (str_eqb g k); [reflexivity|]. apply IH.
Qed.

Lemma map_group_news : forall n gl m,
  map_group n gl m = m ++ map (fun g => (g, n)) (news gl (map fst m)).
Proof.
  induction gl as [|g gl IH]; intros m; cbn [map_group fold_left news map].
  - now rewrite app_nil_r.
  - fold (map_group n gl (map_glyph n m g)). rewrite IH. unfold map_glyph.
    pose proof (mem_keys _ g m) as E. destruct (aget str_eqb g m) as [v|] eqn:A; rewrite E; cbn [is_some].
    + reflexivity.
    + rewrite (aset_notin str_eqb str_eqb_eq) by (apply (aget_None str_eqb str_eqb_eq); assumption).
      rewrite map_app, <- app_assoc. cbn. reflexivity.
Qed.

Lemma map_groups_own : forall gs m1 m2,
  map_groups gs m1 m2 = (m1 ++ flat (own side1 gs (map fst m1)), m2 ++ flat (own side2 gs (map fst m2))).
Proof.
  assert (K : forall n l, map fst (map (fun g : pystr => (g, n : pystr)) l) = l)
    by (induction l; cbn; congruence).
  induction gs as [|[n gl] gs IH]; intros; cbn [map_groups own flat flat_map].
  - now rewrite !app_nil_r.
  - fold (side1 n). fold (side2 n). destruct (side1 n) eqn:S1.
    + destruct (side2 n) eqn:S2; [exfalso; eapply side12; eauto|].
      rewrite IH, map_group_news. f_equal. rewrite map_app, K. cbn [flat flat_map fst snd].
      now rewrite <- app_assoc.
    + destruct (side2 n) eqn:S2; [|apply IH].
      rewrite IH, map_group_news. f_equal. rewrite map_app, K. cbn [flat flat_map fst snd].
      now rewrite <- app_assoc.
Qed.

(** ** Rebuilt groups *)
Definition bstep := (fun (gs : groups) (p : pystr * pystr) => let '(name, group) := p in
    match aget str_eqb group gs with
    | Some l => aset str_eqb group (l ++ [name]) gs
    | None => aset str_eqb group [name] gs
    end).

Lemma aset_last : forall V k (v v' : V) d, ~ In k (map fst d) ->
  aset str_eqb k v' (d ++ [(k, v)]) = d ++ [(k, v')].
Proof.
  induction d as [|[k' w] d IH]; intros H; cbn [app aset].
  - now rewrite str_eqb_refl.
  - destruct (str_eqb k k') eqn:E.
    + exfalso. apply H. apply str_eqb_eq in E. subst. now left.
    + rewrite IH; [reflexivity|]. intro. apply H. now right.
Qed.
Lemma aget_last : forall V k (v : V) d, ~ In k (map fst d) ->
  aget str_eqb k (d ++ [(k, v)]) = Some v.
Proof.
  induction d as [|[k' w] d IH]; intros H; cbn [app aget].
  - now rewrite str_eqb_refl.
  - destruct (str_eqb k k') eqn:E.
    + exfalso. apply H. apply str_eqb_eq in E. subst. now left.
    + apply IH. intro. apply H. now right.
Qed.

Lemma build_block : forall n l acc gs, ~ In n (map fst gs) ->
  fold_left bstep (map (fun g => (g, n)) l) (gs ++ [(n, acc)]) = gs ++ [(n, acc ++ l)].
Proof.
  induction l as [|g l IH]; intros acc gs H; cbn [map fold_left].
  - now rewrite app_nil_r.
  - unfold bstep at 2. rewrite aget_last by assumption. rewrite aset_last by assumption.
    rewrite IH by assumption. now rewrite <- app_assoc.
Qed.

Lemma build_flat : forall os gs, NoDup (map fst gs ++ map fst os) ->
  fold_left bstep (flat os) gs = gs ++ nonempty os.
Proof.
  induction os as [|[n l] os IH]; intros gs ND; cbn [flat flat_map nonempty filter fst snd].
  - now rewrite app_nil_r.
  - rewrite fold_left_app. cbn [map fst] in ND.
    assert (N : ~ In n (map fst gs)).
    { apply NoDup_remove_2 in ND. intro. apply ND. apply in_or_app. now left. }
    fold (flat os). destruct l as [|g l]; cbn [map fold_left].
    + apply IH. now apply NoDup_remove_1 in ND.
    + unfold bstep at 3. rewrite (proj2 (aget_None str_eqb str_eqb_eq _ _) N).
      rewrite (aset_notin str_eqb str_eqb_eq) by assumption.
      rewrite build_block by assumption. rewrite IH; [now rewrite <- app_assoc|].
      rewrite map_app, <- app_assoc. exact ND.
Qed.

Lemma own_keys : forall side gs seen, map fst (own side gs seen) = filter side (map fst gs).
Proof.
  induction gs as [|[n gl] gs IH]; intros; cbn [own map fst filter]; [reflexivity|].
  destruct (side n); cbn [map fst]; now rewrite IH.
Qed.

Lemma build_groups_own : forall side gs seen, NoDup (map fst gs) ->
  build_groups (flat (own side gs seen)) = nonempty (own side gs seen).
Proof.
  intros. unfold build_groups. fold bstep. rewrite build_flat; [reflexivity|].
  cbn. rewrite own_keys. now apply NoDup_filter.
Qed.

Lemma dict_update_app : forall V (e d : list (pystr * V)), NoDup (map fst d ++ map fst e) ->
  dict_update d e = d ++ e.
Proof.
  induction e as [|[k v] e IH]; intros d ND.
  - cbn. now rewrite app_nil_r.
  - change (dict_update (aset str_eqb k v d) e = d ++ (k, v) :: e).
    cbn [map fst] in ND.
    rewrite (aset_notin str_eqb str_eqb_eq).
    + rewrite IH; [now rewrite <- app_assoc|]. rewrite map_app, <- app_assoc. exact ND.
    + apply NoDup_remove_2 in ND. intro. apply ND. apply in_or_app. now left.
Qed.

Lemma filter_map_fst : forall V (f : pystr -> bool) (l : list (pystr * V)),
  map fst (filter (fun p => f (fst p)) l) = filter f (map fst l).
Proof.
  induction l as [|[k v] l IH]; cbn; [reflexivity|]. destruct (f k); cbn; congruence.
Qed.
Lemma nonempty_keys : forall gs x, In x (map fst (nonempty gs)) -> In x (map fst gs).
Proof.
  intros gs x H. apply in_map_iff in H. destruct H as [p [E H]]. apply filter_In in H.
  apply in_map_iff. exists p. tauto.
Qed.
Lemma nonempty_nodup : forall gs, NoDup (map fst gs) -> NoDup (map fst (nonempty gs)).
Proof.
  induction gs as [|[k v] gs IH]; intros ND; [exact ND|]. cbn [map fst] in ND. apply NoDup_cons_iff in ND.
  destruct ND as [N ND]. cbn [nonempty filter snd]. destruct v; [now apply IH|].
  cbn [map fst]. constructor; [|now apply IH]. intro. apply N. now apply nonempty_keys.
Qed.

Lemma NoDup_app_intro : forall A (a b : list A), NoDup a -> NoDup b ->
  (forall x, In x a -> In x b -> False) -> NoDup (a ++ b).
Proof.
  induction a as [|x a IH]; intros b Ha Hb D; [exact Hb|]. apply NoDup_cons_iff in Ha.
  cbn. constructor.
  - rewrite in_app_iff. intros [H|H]; [tauto|]. eapply D; eauto. now left.
  - apply IH; [tauto|assumption|]. intros y H1 H2. eapply D; eauto. now right.
Qed.

Lemma NoDup_app_l : forall A (a b : list A), NoDup (a ++ b) -> NoDup a.
Proof.
  induction a as [|x a IH]; intros b H; [constructor|]. cbn in H. apply NoDup_cons_iff in H.
  constructor; [|eapply IH; apply H]. intro. apply H. apply in_or_app. now left.
Qed.

(** the groups of the UFO, exactly *)
Definition rebuilt (gs : groups) : groups :=
  filter (fun p => negb (kern (fst p))) gs ++ nonempty (own side1 gs []) ++ nonempty (own side2 gs []).

Lemma rebuilt_nodup : forall gs, NoDup (map fst gs) -> NoDup (map fst (rebuilt gs)).
Proof.
  intros gs ND. unfold rebuilt. rewrite !map_app.
  assert (K : forall side seen, NoDup (map fst (nonempty (own side gs seen)))).
  { intros. apply nonempty_nodup. rewrite own_keys. now apply NoDup_filter. }
  assert (S : forall side seen x, In x (map fst (nonempty (own side gs seen))) -> side x = true).
  { intros. apply nonempty_keys in H. rewrite own_keys in H. now apply filter_In in H. }
  apply NoDup_app_intro.
  - rewrite (filter_map_fst _ (fun n => negb (kern n))). now apply NoDup_filter.
  - apply NoDup_app_intro; [apply K|apply K|]. intros x H1 H2. apply S in H1. apply S in H2.
    eapply side12; eauto.
  - intros x H1 H2. rewrite (filter_map_fst _ (fun n => negb (kern n))) in H1. apply filter_In in H1.
    apply in_app_or in H2. destruct H1 as [_ H1].
    destruct H2 as [H2|H2]; apply S in H2; [apply side1_kern in H2|apply side2_kern in H2];
      rewrite H2 in H1; discriminate.
Qed.

Lemma maps_rebuilt : forall gs, NoDup (map fst gs) ->
  build_glyph_to_group_maps gs = (rebuilt gs, flat (own side1 gs []), flat (own side2 gs [])).
Proof.
  intros gs ND. unfold build_glyph_to_group_maps. rewrite map_groups_own. cbn [app map].
  f_equal. f_equal. unfold rebuild_kerning_groups. rewrite !build_groups_own by assumption.
  pose proof (rebuilt_nodup gs ND) as R. unfold rebuilt in *. rewrite !map_app in R.
  rewrite (dict_update_app _ (nonempty (own side1 gs []))).
  - rewrite dict_update_app; [|rewrite map_app, <- app_assoc; exact R].
    rewrite <- app_assoc. reflexivity.
  - rewrite app_assoc in R. eapply NoDup_app_l. exact R.
Qed.

(** ** What the glyphs of a group are *)
Lemma news_In : forall gl seen g, In g (news gl seen) <-> In g gl /\ ~ In g seen.
Proof.
  induction gl as [|x gl IH]; intros seen g; cbn [news In]; [tauto|].
  destruct (mem x seen) eqn:M.
  - apply mem_In in M. rewrite IH. split; [tauto|]. intros [[->|H] N]; [contradiction|tauto].
  - apply mem_notin in M. cbn [In]. rewrite IH, in_app_iff. cbn [In]. split.
    + intros [->|[H N]]; [tauto|]. split; [tauto|]. tauto.
    + intros [[->|H] N]; [now left|]. destruct (str_eqb x g) eqn:E.
      * apply str_eqb_eq in E. now left.
      * apply str_eqb_neq in E. right. split; [assumption|]. intros [?|[?|[]]]; congruence.
Qed.
Lemma news_nodup : forall gl seen, NoDup (news gl seen).
Proof.
  induction gl as [|x gl IH]; intros seen; cbn [news]; [constructor|].
  destruct (mem x seen); [apply IH|]. constructor; [|apply IH].
  rewrite news_In, in_app_iff. cbn. tauto.
Qed.
Lemma news_left_out : forall gl seen, left_out (news gl seen) gl.
Proof.
  induction gl as [|x gl IH]; intros seen; cbn [news]; [constructor|].
  destruct (mem x seen); [apply lo_drop|apply lo_keep]; apply IH.
Qed.
Lemma news_all : forall gl seen, NoDup gl -> (forall g, In g gl -> ~ In g seen) -> news gl seen = gl.
Proof.
  induction gl as [|x gl IH]; intros seen ND D; cbn [news]; [reflexivity|].
  apply NoDup_cons_iff in ND. rewrite (proj2 (mem_notin x seen)) by (apply D; now left).
  rewrite IH; [reflexivity|tauto|]. intros g H. rewrite in_app_iff. cbn. intros [K|[->|[]]].
  - eapply D; [right; exact H|exact K].
  - tauto.
Qed.

(** [before] a group, the glyphs [seen] are those of the earlier groups of the side *)
Definition seen_in (side : pystr -> bool) (gs : groups) (g : pystr) : Prop :=
  exists n gl, In (n, gl) gs /\ side n = true /\ In g gl.

Lemma own_In : forall side gs seen n l, In (n, l) (own side gs seen) <->
  exists before gl after seen', gs = before ++ (n, gl) :: after /\ side n = true /\ l = news gl seen' /\
    (forall g, In g seen' <-> In g seen \/ seen_in side before g).
Proof.
  induction gs as [|[m gm] gs IH]; intros seen n l; cbn [own].
  - cbn. split; [tauto|]. intros (b & gl & a & s & E & _). destruct b; discriminate.
  - destruct (side m) eqn:S; cbn [In]; rewrite IH; clear IH; split.
    + intros [E|(b & gl & a & s & E & Sn & El & Hs)].
      * injection E as -> <-. exists [], gm, gs, seen. repeat split; try assumption.
        -- tauto.
        -- intros [K|(x & y & [] & _)]. exact K.
      * exists ((m, gm) :: b), gl, a, s. split; [cbn; congruence|]. split; [assumption|]. split; [assumption|].
        intros g. rewrite Hs, in_app_iff, news_In. unfold seen_in. cbn [In]. split.
        -- intros [[K|[K1 K2]]|(x & y & K1 & K2 & K3)].
           ++ now left.
           ++ right. exists m, gm. auto.
           ++ right. exists x, y. auto.
        -- intros [K|(x & y & [K|K] & K2 & K3)].
           ++ tauto.
           ++ injection K as <- <-. destruct (mem g seen) eqn:M; [apply mem_In in M; tauto|].
              apply mem_notin in M. tauto.
           ++ right. exists x, y. auto.
    + intros (b & gl & a & s & E & Sn & El & Hs). destruct b as [|p b]; cbn in E.
      * injection E as -> -> ->. left. rewrite El. f_equal.
        assert (N : forall gl s1 s2, (forall g, In g s1 <-> In g s2) -> news gl s1 = news gl s2).
        { clear. induction gl as [|x gl IH]; intros s1 s2 H; cbn [news]; [reflexivity|].
          assert (mem x s1 = mem x s2) as ->.
          { destruct (mem x s2) eqn:M; [apply mem_In in M; apply mem_In; now apply H|].
            apply mem_notin in M. apply mem_notin. now rewrite H. }
          destruct (mem x s2); [now apply IH|]. f_equal. apply IH. intros. rewrite !in_app_iff, H. tauto. }
        apply N. intros g. rewrite Hs. split; [tauto|]. intros [K|(x & y & [] & _)]. exact K.
      * injection E as <- ->. right. exists b, gl, a, s. split; [reflexivity|]. split; [assumption|].
        split; [assumption|]. intros g. rewrite Hs, in_app_iff, news_In. unfold seen_in. cbn [In]. split.
        -- intros [K|(x & y & [K|K] & K2 & K3)].
           ++ tauto.
           ++ injection K as <- <-. destruct (mem g seen) eqn:M; [apply mem_In in M; tauto|].
              apply mem_notin in M. tauto.
           ++ right. exists x, y. auto.
        -- intros [[K|[K1 K2]]|(x & y & K1 & K2 & K3)].
           ++ now left.
           ++ right. exists m, gm. auto.
           ++ right. exists x, y. auto.
    + intros (b & gl & a & s & E & Sn & El & Hs). exists ((m, gm) :: b), gl, a, s.
      split; [cbn; congruence|]. split; [assumption|]. split; [assumption|]. intros g. rewrite Hs.
      unfold seen_in. cbn [In]. split.
      * intros [K|(x & y & K1 & K2 & K3)]; [tauto|]. right. exists x, y. auto.
      * intros [K|(x & y & [K|K] & K2 & K3)]; [tauto| |]; [injection K as <- <-; congruence|].
        right. exists x, y. auto.
    + intros (b & gl & a & s & E & Sn & El & Hs). destruct b as [|p b]; cbn in E.
      * injection E as -> -> ->. congruence.
      * injection E as <- ->. exists b, gl, a, s. split; [reflexivity|]. split; [assumption|].
        split; [assumption|]. intros g. rewrite Hs. unfold seen_in. cbn [In]. split.
        -- intros [K|(x & y & [K|K] & K2 & K3)]; [tauto| |]; [injection K as <- <-; congruence|].
           right. exists x, y. auto.
        -- intros [K|(x & y & K1 & K2 & K3)]; [tauto|]. right. exists x, y. auto.
Qed.

Lemma unique_key : forall V (gs : list (pystr * V)) n a b, NoDup (map fst gs) ->
  In (n, a) gs -> In (n, b) gs -> a = b.
Proof.
  intros V gs n a b ND Ha Hb.
  apply (In_aget str_eqb str_eqb_eq) in Ha; [|assumption].
  apply (In_aget str_eqb str_eqb_eq) in Hb; [|assumption]. congruence.
Qed.
