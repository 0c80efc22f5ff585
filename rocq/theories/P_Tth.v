(** Proofs about TrueType hinting in the export. *)
From Coq Require Import String ZifyBool ZifyNat.
From Verif Require Import Base M_Py M_Text M_Glyph M_Labels M_TrueType M_Tth S_Labels S_Tth Lib P_Dec P_Glyph P_Labels P_PsHints.
Local Open Scope list_scope.

(** ** Dicts *)
Lemma In_aset_nodup : forall K V (eqb : K -> K -> bool) (eqb_eq : forall a b, eqb a b = true <-> a = b) (d : list (K * V)) k v k' v',
  NoDup (map fst d) -> (In (k, v) (aset eqb k' v' d) <-> (k = k' /\ v = v') \/ (k <> k' /\ In (k, v) d)).
Proof.
  intros K V eqb eqb_eq d k v k' v' N. assert (N' : NoDup (map fst (aset eqb k' v' d))) by (now apply aset_nodup).
  assert (Y : forall e : list (K * V), NoDup (map fst e) -> (In (k, v) e <-> aget eqb k e = Some v)).
  { intros e Ne. split; [now apply In_aget|now apply aget_In]. }
  rewrite (Y _ N'), (Y _ N), aget_aset by assumption. destruct (eqb k k') eqn:E.
  - apply eqb_eq in E. split; [intros [= ->]; auto|]. intros [[_ ->]|[H _]]; [reflexivity|contradiction].
  - assert (k <> k') by (intros H; apply eqb_eq in H; congruence). split; [auto|]. intros [[H1 _]|[_ H1]]; [contradiction|assumption].
Qed.

(** ** Rounding *)
Definition round_ok (f : Z -> Z) (a b : Z) (r : rounds) : Prop :=
  NoDup (map fst r) /\ forall t px, In (t, px) r <-> a <= px <= b /\ t = dec_str (f px) /\ forall px', a <= px' <= b -> f px' = f px -> px' <= px.
Lemma round_nil : forall f a, round_ok f a (a - 1) [].
Proof. intros f a. split; [constructor|]. intros t px. split; [intros []|]. intros (H & _). lia. Qed.
Lemma step_big : forall f a b r, round_ok f a (b - 1) r -> a <= b -> round_ok f a b (aset str_eqb (dec_str (f b)) b r).
Proof.
  intros f a b r [N I] L. split; [apply aset_nodup; auto using str_eqb_eq|]. intros t px. rewrite In_aset_nodup, I by auto using str_eqb_eq. split.
  - intros [[-> ->]|(Nt & A & -> & C)].
    + split; [lia|]. split; [reflexivity|]. lia.
    + split; [lia|]. split; [reflexivity|]. intros px' H E. destruct (Z.eq_dec px' b) as [->|Nb]; [exfalso; apply Nt; now rewrite E|apply C; [lia|assumption]].
  - intros (A & -> & C). destruct (Z.eq_dec px b) as [->|Nb]; [auto|]. right. split.
    + intros E. apply dec_str_inj in E. specialize (C b). rewrite E in C. specialize (C ltac:(lia) eq_refl). lia.
    + split; [lia|]. split; [reflexivity|]. intros px' D. apply C. lia.
Qed.
Lemma biggest : forall (f : Z -> Z) c b n p, (Z.to_nat (b - p) <= n)%nat -> p <= b -> f p = c ->
  exists m, p <= m <= b /\ f m = c /\ forall m', m < m' <= b -> f m' <> c.
Proof.
  intros f c b n. induction n as [|n IH]; intros p Hn L E.
  - exists p. split; [lia|]. split; [assumption|]. lia.
  - destruct (Z.eq_dec p b) as [->|Nb]; [exists b; split; [lia|]; split; [assumption|]; lia|].
    (* is there a bigger one? *)
    assert (D : (exists q, p < q <= b /\ f q = c) \/ forall q, p < q <= b -> f q <> c).
    { clear - L. assert (X : forall k : nat, (exists q, p < q <= p + Z.of_nat k /\ f q = c) \/ forall q, p < q <= p + Z.of_nat k -> f q <> c).
      { induction k as [|k [(q & Hq & Eq)|Hk]]; [right; lia|left; exists q; split; [lia|assumption]|].
        destruct (Z.eq_dec (f (p + Z.of_nat (S k))) c) as [E|E]; [left; exists (p + Z.of_nat (S k)); split; [lia|assumption]|].
        right. intros q Hq. destruct (Z.eq_dec q (p + Z.of_nat (S k))) as [->|]; [assumption|]. apply Hk. lia. }
      specialize (X (Z.to_nat (b - p))). replace (p + Z.of_nat (Z.to_nat (b - p))) with b in X by lia. exact X. }
    destruct D as [(q & Hq & Eq)|D].
    + destruct (IH q) as (m & Hm & Em & Lm); [lia|lia|assumption|]. exists m. split; [lia|]. auto.
    + exists p. split; [lia|]. split; [assumption|]. intros m' Hm'. apply D. lia.
Qed.
Lemma step_small : forall f a b r, round_ok f (a + 1) b r -> a <= b -> round_ok f a b (add_missing (dec_str (f a)) a r).
Proof.
  intros f a b r [N I] L. unfold add_missing. destruct (aget str_eqb (dec_str (f a)) r) as [q|] eqn:E.
  - assert (Hq : In (dec_str (f a), q) r) by (now apply (aget_In str_eqb str_eqb_eq)). apply I in Hq. destruct Hq as (Pq & Eq & _).
    apply dec_str_inj in Eq. split; [assumption|]. intros t px. rewrite I. split.
    + intros (A & -> & C). split; [lia|]. split; [reflexivity|]. intros px' H F. destruct (Z.eq_dec px' a) as [->|]; [lia|]. apply C; [lia|assumption].
    + intros (A & -> & C). destruct (Z.eq_dec px a) as [->|].
      * specialize (C q ltac:(lia) (eq_sym Eq)). lia.
      * split; [lia|]. split; [reflexivity|]. intros px' D. apply C. lia.
  - assert (Nk : forall px, ~ In (dec_str (f a), px) r).
    { intros px H. apply (In_aget str_eqb str_eqb_eq) in H; [congruence|assumption]. }
    assert (Nf : forall p, a + 1 <= p <= b -> f p <> f a).
    { intros p Hp Ep. destruct (biggest f (f a) b (Z.to_nat (b - p)) p) as (m & Hm & Em & Lm); [lia|lia|assumption|].
      apply (Nk m). apply I. split; [lia|]. split; [now rewrite Em|]. intros px' H F. destruct (Z_le_gt_dec px' m); [assumption|].
      exfalso. apply (Lm px'); [lia|congruence]. }
    split; [apply aset_nodup; auto using str_eqb_eq|]. intros t px. rewrite In_aset_nodup by auto using str_eqb_eq. split.
    + intros [[-> ->]|(Nt & H)].
      * split; [lia|]. split; [reflexivity|]. intros px' H F. destruct (Z.eq_dec px' a) as [->|]; [lia|]. exfalso. apply (Nf px'); [lia|assumption].
      * apply I in H. destruct H as (A & -> & C). split; [lia|]. split; [reflexivity|]. intros px' D F.
        destruct (Z.eq_dec px' a) as [->|]; [lia|]. apply C; [lia|assumption].
    + intros (A & -> & C). destruct (Z.eq_dec px a) as [->|]; [auto|]. right. split.
      * intros F. apply dec_str_inj in F. apply (Nf px); [lia|assumption].
      * apply I. split; [lia|]. split; [reflexivity|]. intros px' D. apply C. lia.
Qed.
Definition rounds25 (s : stem) : rounds := transform_rounds (map (fun px => (px, sm_ppm s px)) [2; 3; 4; 5]).
Definition add6 (s : stem) (r : rounds) : rounds := aset str_eqb (dec_str (sm_ppm s 6)) 6 r.
Definition add1 (s : stem) (r : rounds) : rounds := add_missing (dec_str (sm_ppm s 1)) 1 r.
Lemma rounds25_ok : forall s, round_ok (sm_ppm s) 2 5 (rounds25 s).
Proof.
  intros s. unfold rounds25, transform_rounds. cbn [map fold_left fst snd].
  apply (step_big (sm_ppm s) 2 5); [|lia]. apply (step_big (sm_ppm s) 2 4); [|lia]. apply (step_big (sm_ppm s) 2 3); [|lia].
  apply (step_big (sm_ppm s) 2 2); [|lia]. apply (round_nil (sm_ppm s) 2).
Qed.
Lemma rounding_round : forall s first r, round_ok (sm_ppm s) first 6 r <-> rounding s first r.
Proof. intros. reflexivity. Qed.
Lemma round26 : forall s, rounding s 2 (add6 s (rounds25 s)).
Proof. intros s. apply rounding_round. apply step_big; [|lia]. apply rounds25_ok. Qed.
Lemma round16a : forall s, rounding s 1 (add1 s (add6 s (rounds25 s))).
Proof. intros s. apply rounding_round. apply (step_small (sm_ppm s) 1 6); [|lia]. apply round26. Qed.
Lemma round16b : forall s, rounding s 1 (add6 s (add1 s (rounds25 s))).
Proof. intros s. apply rounding_round. apply step_big; [|lia]. apply (step_small (sm_ppm s) 1 5); [|lia]. apply rounds25_ok. Qed.

(** ** Lists that are updated *)
Lemma py_update_mid : forall A (a : list A) x b f, py_update (a ++ x :: b) (Z.of_nat (List.length a)) f = Ok (a ++ f x :: b).
Proof.
  intros A a x b f. unfold py_update. assert (E0 : (Z.of_nat (List.length a) <? 0) = false) by lia. rewrite E0.
  unfold in_range. assert (E : ((0 <=? Z.of_nat (List.length a)) && (Z.of_nat (List.length a) <? Z.of_nat (List.length (a ++ x :: b)))) = true)
    by (rewrite app_length; cbn [List.length]; lia).
  rewrite E, Nat2Z.id.
  assert (F1 : firstn (List.length a) (a ++ x :: b) = a) by (rewrite firstn_app, Nat.sub_diag, firstn_all; apply app_nil_r).
  assert (F2 : skipn (List.length a) (a ++ x :: b) = x :: b) by (rewrite skipn_app, Nat.sub_diag, skipn_all; reflexivity).
  assert (F3 : skipn (S (List.length a)) (a ++ x :: b) = b).
  { clear. induction a as [|y a IH]; [reflexivity|exact IH]. }
  rewrite F1, F2, F3. reflexivity.
Qed.
Lemma py_index_mid : forall A (a : list A) x b, py_index (a ++ x :: b) (Z.of_nat (List.length a)) = Ok x.
Proof. intros A a x b. rewrite (py_index_nth _ _ _ x) by (rewrite app_length; cbn; lia). now rewrite nth_middle. Qed.
Lemma enum_map : forall A B (f : A -> B) l i, enum i (map f l) = map (fun x => (fst x, f (snd x))) (enum i l).
Proof. induction l as [|x l IH]; intros i; cbn; [reflexivity|]. now rewrite IH. Qed.
Lemma enum_length : forall A (l : list A) i, List.length (enum i l) = List.length l.
Proof. induction l as [|x l IH]; intros i; cbn; [reflexivity|]. now rewrite IH. Qed.

Lemma ppms_of_ok : forall l, ppms_of (numbered [2; 3; 4; 5] l) = Ok (map (fun x => (fst x, rounds25 (snd x))) (enum 0 l)).
Proof.
  intros l. unfold ppms_of, numbered. generalize 0. induction l as [|s l IH]; intros i; [reflexivity|].
  cbn [enum map res_map ts_stem ts_round opt_res rmap rthen]. rewrite IH. reflexivity.
Qed.
Lemma ppms1_ok : forall (g : stem -> rounds) l,
  res_fold ppms1_turn (map (fun x => (fst x, g (snd x))) (enum 0 l)) (numbered [1] l) =
  Ok (map (fun x => (fst x, add1 (snd x) (g (snd x)))) (enum 0 l)).
Proof.
  intros g l. unfold numbered.
  assert (X : forall l i (a : list (Z * rounds)), i = Z.of_nat (List.length a) ->
    res_fold ppms1_turn (a ++ map (fun x => (fst x, g (snd x))) (enum i l))
      (map (fun x => TTStem None None (Some (fst x)) (map (fun px => (px, sm_ppm (snd x) px)) [1])) (enum i l)) =
    Ok (a ++ map (fun x => (fst x, add1 (snd x) (g (snd x)))) (enum i l))).
  { clear l. induction l as [|s l IH]; intros i a ->; [reflexivity|]. cbn [enum map res_fold fst snd].
    unfold ppms1_turn at 1. cbn [ts_stem ts_round opt_res rthen]. rewrite py_index_mid. cbn [rthen aget_res aget Z.eqb Pos.eqb].
    rewrite py_update_mid. cbn [rthen fst snd].
    change (add_missing (dec_str (sm_ppm s 1)) 1 (g s)) with (add1 s (g s)).
    assert (A : forall x (b : list (Z * rounds)), a ++ x :: b = (a ++ [x]) ++ b) by (intros; now rewrite <- app_assoc).
    rewrite A, IH by (rewrite app_length; cbn; lia). now rewrite <- app_assoc. }
  exact (X l 0 [] eq_refl).
Qed.
Definition stem_data (s : stem) : tt_stem := TTStem (Some (sm_width s)) (Some (sm_name s)) None [(6, sm_ppm s 6)].
Lemma stems_ok : forall hor (g : stem -> rounds) l (before : list ustem),
  res_fold (stem_turn hor) (map (fun x => (fst x, g (snd x))) (enum 0 l), before, 0) (map stem_data l) =
  Ok (map (fun x => (fst x, add6 (snd x) (g (snd x)))) (enum 0 l),
      before ++ map (fun x => UStem hor (sm_width (snd x)) (sm_name (snd x)) (fst x)) (enum 0 l), Z.of_nat (List.length l)).
Proof.
  intros hor g.
  assert (X : forall l i (a : list (Z * rounds)) before, i = Z.of_nat (List.length a) ->
    res_fold (stem_turn hor) (a ++ map (fun x => (fst x, g (snd x))) (enum i l), before, i) (map stem_data l) =
    Ok (a ++ map (fun x => (fst x, add6 (snd x) (g (snd x)))) (enum i l),
        before ++ map (fun x => UStem hor (sm_width (snd x)) (sm_name (snd x)) (fst x)) (enum i l), i + Z.of_nat (List.length l))).
  { induction l as [|s l IH]; intros i a before ->.
    - cbn. now rewrite !app_nil_r, Z.add_0_r.
    - cbn [enum map res_fold fst snd]. unfold stem_turn at 1. cbn [stem_data ts_round ts_value ts_name opt_res]. rewrite py_index_mid. cbn [rthen fst].
      rewrite Z.eqb_refl, py_update_mid. cbn [rmap rthen fst snd].
      change (aset str_eqb (dec_str (sm_ppm s 6)) 6 (g s)) with (add6 s (g s)).
      assert (A : forall x (b : list (Z * rounds)), a ++ x :: b = (a ++ [x]) ++ b) by (intros; now rewrite <- app_assoc).
      rewrite A, IH by (rewrite app_length; cbn; lia). rewrite <- !app_assoc. cbn [app List.length]. do 2 f_equal. lia. }
  intros l before. exact (X l 0 [] before eq_refl).
Qed.

(** ** Stems and zones do not depend on each other *)
Definition put_zones (z s : tt_state) : tt_state :=
  TtState (ex_ppms_h s) (ex_ppms_v s) (ex_stems_h s) (ex_stems_v s) (ex_zones z) (ex_zone_names z) (ex_side_names z).
Lemma put_put : forall a b c, put_zones a (put_zones b c) = put_zones a c. Proof. reflexivity. Qed.
Lemma put_put2 : forall a b c, put_zones (put_zones a b) c = put_zones a c. Proof. reflexivity. Qed.
Lemma put_self : forall a, put_zones a a = a. Proof. now intros []. Qed.
Lemma stem_add : forall e z s, stem_part e = true -> tt_add (put_zones z s) e = rmap (put_zones z) (tt_add s e).
Proof.
  intros [d|d|d|d|d] z s H; try discriminate; cbn [tt_add].
  - unfold set_tt_stem_ppms. destruct (ppms_of (tts_h d)); [|reflexivity]. cbn [rthen]. destruct (ppms_of (tts_v d)); reflexivity.
  - unfold set_tt_stem_ppms_1. cbn [put_zones ex_ppms_h ex_ppms_v]. destruct (res_fold ppms1_turn (ex_ppms_h s) (tts_h d)); [|reflexivity].
    cbn [rthen]. destruct (res_fold ppms1_turn (ex_ppms_v s) (tts_v d)); reflexivity.
  - unfold set_tt_stems. cbn [put_zones ex_ppms_h ex_ppms_v ex_stems_h ex_stems_v].
    destruct (res_fold (stem_turn false) (ex_ppms_h s, ex_stems_h s, 0) (tts_h d)); [|reflexivity]. cbn [rthen].
    destruct (res_fold (stem_turn true) (ex_ppms_v s, ex_stems_v s, 0) (tts_v d)); reflexivity.
Qed.
Lemma zone_add : forall e z s, stem_part e = false -> tt_add (put_zones z s) e = rmap (fun z' => put_zones z' s) (tt_add z e).
Proof.
  intros [d|d|d|d|d] z s H; try discriminate; cbn [tt_add].
  - unfold set_tt_zones. destruct (opt_res (tz_bottom d)); [|reflexivity]. cbn [rthen]. destruct (opt_res (tz_top d)); reflexivity.
  - unfold set_tt_zone_deltas. cbn [put_zones ex_zones ex_zone_names]. destruct (res_fold (delta_turn (ex_zone_names z)) (ex_zones z) d); reflexivity.
Qed.
Lemma interleave : forall es z s z' s', res_fold tt_add s (filter stem_part es) = Ok s' -> res_fold tt_add z (filter zone_part es) = Ok z' ->
  res_fold tt_add (put_zones z s) es = Ok (put_zones z' s').
Proof.
  induction es as [|e es IH]; intros z s z' s' Hs Hz; cbn [filter res_fold] in *.
  - congruence.
  - unfold zone_part in Hz at 1. destruct (stem_part e) eqn:E; cbn [negb] in Hz.
    + cbn [res_fold] in Hs. rewrite stem_add by assumption. destruct (tt_add s e) as [s1|]; [|discriminate]. cbn [rthen rmap] in *. now apply IH.
    + cbn [res_fold] in Hz. rewrite zone_add by assumption. destruct (tt_add z e) as [z1|]; [|discriminate]. cbn [rthen rmap] in *. now apply IH.
Qed.

(** ** Stem entries *)
Definition dir_ppms (g : stem -> rounds) (l : list stem) : list (Z * rounds) := map (fun x => (fst x, g (snd x))) (enum 0 l).
Definition dir_stems (hor : bool) (l : list stem) : list ustem :=
  map (fun x => UStem hor (sm_width (snd x)) (sm_name (snd x)) (fst x)) (enum 0 l).
Lemma stem_history_ok : forall v h first es, stem_history v h first es -> exists g, (forall s, rounding s first (g s)) /\
  res_fold tt_add tt_start es = Ok (TtState (dir_ppms g h) (dir_ppms g v) (dir_stems false h) (dir_stems true v) [] [] None).
Proof.
  intros v h first es H.
  assert (P : set_tt_stem_ppms (TTStems (numbered [2; 3; 4; 5] v) (numbered [2; 3; 4; 5] h)) tt_start =
              Ok (TtState (dir_ppms rounds25 h) (dir_ppms rounds25 v) [] [] [] [] None)).
  { unfold set_tt_stem_ppms. cbn [tts_h tts_v]. rewrite !ppms_of_ok. reflexivity. }
  assert (S : forall g, set_tt_stems (TTStems (map stem_data v) (map stem_data h)) (TtState (dir_ppms g h) (dir_ppms g v) [] [] [] [] None) =
    Ok (TtState (dir_ppms (fun s => add6 s (g s)) h) (dir_ppms (fun s => add6 s (g s)) v) (dir_stems false h) (dir_stems true v) [] [] None)).
  { intros g. unfold set_tt_stems, dir_ppms. cbn [tts_h tts_v ex_ppms_h ex_ppms_v ex_stems_h ex_stems_v]. rewrite stems_ok. cbn [rthen].
    rewrite stems_ok. reflexivity. }
  assert (O : forall g a b, set_tt_stem_ppms_1 (TTStems (numbered [1] v) (numbered [1] h)) (TtState (dir_ppms g h) (dir_ppms g v) a b [] [] None) =
    Ok (TtState (dir_ppms (fun s => add1 s (g s)) h) (dir_ppms (fun s => add1 s (g s)) v) a b [] [] None)).
  { intros g a b. unfold set_tt_stem_ppms_1, dir_ppms. cbn [tts_h tts_v ex_ppms_h ex_ppms_v]. rewrite ppms1_ok. cbn [rthen]. rewrite ppms1_ok. reflexivity. }
  inversion H; subst; cbn [res_fold tt_add ppms_entry ppms1_entry stems_entry];
    change (fun s : stem => TTStem (Some (sm_width s)) (Some (sm_name s)) None [(6, sm_ppm s 6)]) with stem_data; rewrite P; cbn [rthen].
  - rewrite S. cbn [rthen]. eexists. split; [|reflexivity]. exact round26.
  - rewrite S. cbn [rthen]. rewrite O. cbn [rthen]. eexists. split; [|reflexivity]. exact round16a.
  - rewrite O. cbn [rthen]. rewrite S. cbn [rthen]. eexists. split; [|reflexivity]. exact round16b.
Qed.

(** ** The dict of stems *)
Lemma aget_notin : forall V k (d : list (pystr * V)), ~ In k (map fst d) -> aget str_eqb k d = None.
Proof.
  intros V k d H. destruct (aget str_eqb k d) as [v|] eqn:E; [|reflexivity]. apply (aget_In str_eqb str_eqb_eq) in E.
  exfalso. apply H. apply in_map_iff. exists (k, v). auto.
Qed.
Lemma stems_lib_ok : forall (hor : bool) l k i lib,
  NoDup (map fst lib ++ export_names (if hor then py "h" else py "v") i l) ->
  stems_lib hor i lib (map (fun x => UStem hor (sm_width (snd x)) (sm_name (snd x)) (fst x)) (enum k l)) =
  lib ++ combine (export_names (if hor then py "h" else py "v") i l)
                 (map (fun x => UStem hor (sm_width (snd x)) (sm_name (snd x)) (fst x)) (enum k l)).
Proof.
  intros hor. induction l as [|s l IH]; intros k i lib N; cbn [enum map stems_lib export_names fst snd us_name].
  - now rewrite app_nil_r.
  - cbn [export_names] in N. cbv zeta.
    assert (X : forall n i', NoDup (map fst lib ++ n :: export_names (if hor then py "h" else py "v") i' l) ->
      stems_lib hor i' (aset str_eqb (match aget str_eqb n lib with Some _ => n ++ py "#" ++ dec02 i' | None => n end)
         (UStem hor (sm_width s) (sm_name s) k) lib) (map (fun x => UStem hor (sm_width (snd x)) (sm_name (snd x)) (fst x)) (enum (k + 1) l)) =
      lib ++ combine (n :: export_names (if hor then py "h" else py "v") i' l)
         (UStem hor (sm_width s) (sm_name s) k :: map (fun x => UStem hor (sm_width (snd x)) (sm_name (snd x)) (fst x)) (enum (k + 1) l))).
    { intros n i' N'. assert (Nn : ~ In n (map fst lib)).
      { intros H. apply NoDup_remove_2 in N'. apply N'. apply in_or_app. now left. }
      rewrite aget_notin by assumption. rewrite aset_notin by (try assumption; apply str_eqb_eq).
      rewrite IH; [rewrite <- app_assoc; reflexivity|]. rewrite map_app. cbn [map fst]. rewrite <- app_assoc. exact N'. }
    destruct (sm_name s) as [|c n]; apply X; exact N.
Qed.

(** ** Zones *)
Lemma NoDup_left : forall A (a b : list A), NoDup (a ++ b) -> NoDup a.
Proof.
  induction a as [|x a IH]; intros b N; [constructor|]. inversion N as [|? ? H N']; subst. constructor; [|eauto].
  intros K. apply H, in_or_app. now left.
Qed.
Lemma zone_fold : forall top l d names, NoDup (map fst d ++ map tz_name l) ->
  fold_left (zone_turn top) l (d, names) =
  (d ++ map (fun z => (tz_name z, UZone (tz_position z) top (tz_value z) None)) l, names ++ map tz_name l).
Proof.
  intros top. induction l as [|z l IH]; intros d names N; cbn [fold_left map]; [now rewrite !app_nil_r|].
  cbn [map] in N. unfold zone_turn at 2. cbn [fst snd].
  assert (Nn : ~ In (tz_name z) (map fst d)).
  { intros H. apply NoDup_remove_2 in N. apply N. apply in_or_app. now left. }
  rewrite aset_notin by (try assumption; apply str_eqb_eq). rewrite IH.
  - now rewrite <- !app_assoc.
  - rewrite map_app. cbn [map fst]. rewrite <- app_assoc. exact N.
Qed.
Definition put_delta (l : list (Z * Z)) (z : uzone) : uzone := UZone (uz_position z) (uz_top z) (uz_width z) (Some (delta_texts l)).
Definition delta_at (d : zone_deltas) (k : nat) (z : uzone) : uzone :=
  match aget Z.eqb (Z.of_nat k) d with Some l => put_delta l z | None => z end.
Fixpoint mapi {A B} (k : nat) (f : nat -> A -> B) (l : list A) : list B := match l with [] => [] | x :: l => f k x :: mapi (S k) f l end.
Lemma mapi_ext : forall A B (f g : nat -> A -> B) l k, (forall j x, (k <= j < k + List.length l)%nat -> f j x = g j x) -> mapi k f l = mapi k g l.
Proof.
  induction l as [|x l IH]; intros k H; cbn; [reflexivity|]. f_equal; [apply H; cbn; lia|]. apply IH. intros j y Hj. apply H. cbn. lia.
Qed.
Lemma mapi_id : forall A (l : list A) k, mapi k (fun _ x => x) l = l.
Proof. induction l as [|x l IH]; intros k; cbn; [reflexivity|]. now rewrite IH. Qed.
Lemma mapi_mapi : forall A B C (f : nat -> A -> B) (g : nat -> B -> C) l k, mapi k g (mapi k f l) = mapi k (fun j x => g j (f j x)) l.
Proof. induction l as [|x l IH]; intros k; cbn; [reflexivity|]. now rewrite IH. Qed.
Lemma mapi_nth : forall A B (f : nat -> A -> B) l k j, nth_error (mapi k f l) j = option_map (f (k + j)%nat) (nth_error l j).
Proof.
  induction l as [|x l IH]; intros k [|j]; cbn; try reflexivity; [now rewrite Nat.add_0_r|]. rewrite IH. now rewrite Nat.add_succ_r.
Qed.
Lemma mapi_fst : forall A B C (f : nat -> A * B -> A * C) l k, (forall j x, fst (f j x) = fst x) -> map fst (mapi k f l) = map fst l.
Proof. induction l as [|x l IH]; intros k H; cbn; [reflexivity|]. now rewrite H, IH. Qed.
Lemma aset_mid : forall V (a : list (pystr * V)) n x b v, ~ In n (map fst a) -> aset str_eqb n v (a ++ (n, x) :: b) = a ++ (n, v) :: b.
Proof.
  induction a as [|[m y] a IH]; intros n x b v H; cbn [app aset].
  - now rewrite str_eqb_refl.
  - cbn [map fst In] in H. destruct (str_eqb n m) eqn:E; [apply str_eqb_eq in E; subst; tauto|]. rewrite IH; tauto.
Qed.
Lemma aget_mid : forall V (a : list (pystr * V)) n x b, ~ In n (map fst a) -> aget str_eqb n (a ++ (n, x) :: b) = Some x.
Proof.
  induction a as [|[m y] a IH]; intros n x b H; cbn [app aget].
  - now rewrite str_eqb_refl.
  - cbn [map fst In] in H. destruct (str_eqb n m) eqn:E; [apply str_eqb_eq in E; subst; tauto|]. apply IH; tauto.
Qed.
Lemma mapi_app : forall A B (f : nat -> A -> B) a b k, mapi k f (a ++ b) = mapi k f a ++ mapi (k + List.length a) f b.
Proof. induction a as [|x a IH]; intros b k; cbn; [now rewrite Nat.add_0_r|]. rewrite IH. now rewrite Nat.add_succ_r. Qed.
Lemma deltas_ok_fold : forall d zones, NoDup (map fst zones) -> NoDup (map fst d) ->
  Forall (fun x : Z * list (Z * Z) => 0 <= fst x < Z.of_nat (List.length zones)) d ->
  res_fold (delta_turn (map fst zones)) zones d = Ok (mapi 0 (fun k x => (fst x, delta_at d k (snd x))) zones).
Proof.
  induction d as [|[i l] d IH]; intros zones N Nd F; cbn [res_fold].
  - f_equal. rewrite (mapi_ext _ _ _ (fun _ x => x)); [now rewrite mapi_id|]. now intros j [n z] _.
  - inversion F as [|? ? R F2]; subst. inversion Nd as [|? ? Ni Nd2]; subst. cbn [fst] in *.
    destruct (nth_error zones (Z.to_nat i)) as [[n z]|] eqn:En; [|apply nth_error_None in En; lia].
    destruct (nth_error_split _ _ En) as (a & b & -> & La). 
    assert (Ei : i = Z.of_nat (List.length a)) by lia.
    rewrite map_app in N. cbn [map fst] in N. assert (Na : ~ In n (map fst a)) by (apply NoDup_remove_2 in N; intros H; apply N, in_or_app; now left).
    unfold delta_turn at 1. cbn [fst snd]. rewrite map_app. cbn [map fst].
    replace (py_index (map fst a ++ n :: map fst b) i) with (Ok n : res pystr)
      by (rewrite Ei, <- (map_length fst a); symmetry; apply py_index_mid).
    cbn [rthen]. unfold aget_res. rewrite aget_mid by assumption. cbn [rmap rthen]. rewrite aset_mid by assumption.
    change (UZone (uz_position z) (uz_top z) (uz_width z) (Some (delta_texts l))) with (put_delta l z).
    specialize (IH (a ++ (n, put_delta l z) :: b)). rewrite map_app in IH. cbn [map fst] in IH. rewrite IH.
    + f_equal. rewrite !mapi_app. cbn [mapi fst snd]. rewrite Nat.add_0_l.
      assert (Ed : forall k, k <> List.length a -> forall y, delta_at ((i, l) :: d) k y = delta_at d k y).
      { intros k Hk y. unfold delta_at. cbn [aget]. destruct (Z.of_nat k =? i) eqn:E; [lia|reflexivity]. }
      f_equal; [apply mapi_ext; intros j [? ?] Hj; cbn [fst snd]; now rewrite Ed by lia|].
      f_equal; [|apply mapi_ext; intros j [? ?] Hj; cbn [fst snd]; now rewrite Ed by lia].
      f_equal. unfold delta_at. cbn [aget]. rewrite <- Ei, Z.eqb_refl.
      destruct (aget Z.eqb i d) as [l'|] eqn:Ea; [|reflexivity]. exfalso. apply Ni. apply (aget_In Z.eqb Z.eqb_eq) in Ea. apply in_map_iff. exists (i, l'). auto.
    + exact N.
    + assumption.
    + eapply Forall_impl; [|exact F2]. intros x. cbn beta. rewrite !app_length. cbn [List.length]. lia.
Qed.
Lemma delta_texts_ok : forall l, NoDup (map fst l) -> delta_texts l = map (fun x => (dec_str (fst x), snd x)) l.
Proof.
  intros l N. unfold delta_texts.
  assert (X : forall l d, NoDup (map fst d ++ map (fun x : Z * Z => dec_str (fst x)) l) ->
    fold_left (fun d kv => aset str_eqb (dec_str (fst kv)) (snd kv) d) l d = d ++ map (fun x => (dec_str (fst x), snd x)) l).
  { clear. induction l as [|x l IH]; intros d N; cbn [fold_left map]; [now rewrite app_nil_r|]. cbn [map] in N.
    assert (Nn : ~ In (dec_str (fst x)) (map fst d)) by (apply NoDup_remove_2 in N; intros H; apply N, in_or_app; now left).
    rewrite aset_notin by (try assumption; apply str_eqb_eq). rewrite IH; [now rewrite <- app_assoc|]. rewrite map_app. cbn [map fst]. now rewrite <- app_assoc. }
  apply X. cbn [map app]. rewrite <- map_map. apply FinFun.Injective_map_NoDup; [|assumption]. intros a b. apply dec_str_inj.
Qed.
Lemma zone_history_ok : forall top bottom d es, zone_history top bottom d es -> NoDup (map tz_name (bottom ++ top)) -> deltas_ok top bottom d ->
  exists z, res_fold tt_add tt_start es = Ok (TtState [] [] [] [] z (map tz_name (bottom ++ top)) (Some (map tz_name top, map tz_name bottom))) /\
    map fst z = map tz_name (bottom ++ top) /\
    forall k s, nth_error (bottom ++ top) k = Some s -> nth_error z k = Some (tz_name s, exported_zone top bottom d k s).
Proof.
  intros top bottom d es H N (Nd & F).
  set (z0 := map (fun z => (tz_name z, UZone (tz_position z) false (tz_value z) None)) bottom ++
             map (fun z => (tz_name z, UZone (tz_position z) true (tz_value z) None)) top).
  assert (K : map fst z0 = map tz_name (bottom ++ top)) by (unfold z0; rewrite !map_app, !map_map; reflexivity).
  assert (E0 : tt_add tt_start (EZones (TTZones (Some top) (Some bottom))) =
               Ok (TtState [] [] [] [] z0 (map tz_name (bottom ++ top)) (Some (map tz_name top, map tz_name bottom)))).
  { cbn [tt_add]. unfold set_tt_zones. cbn [tz_bottom tz_top opt_res rthen rmap]. rewrite zone_fold, zone_fold.
    - cbn [fst snd app tt_start ex_ppms_h ex_ppms_v ex_stems_h ex_stems_v ex_zones ex_zone_names]. now rewrite map_app.
    - cbn. rewrite !map_map. cbn [fst]. now rewrite <- map_app.
    - cbn. rewrite map_app in N. now apply NoDup_left in N. }
  assert (L : List.length z0 = List.length (bottom ++ top)) by (rewrite <- (map_length fst), K; apply map_length).
  assert (N0 : forall k s, nth_error (bottom ++ top) k = Some s -> nth_error z0 k = Some (tz_name s, UZone (tz_position s) (Nat.leb (List.length bottom) k) (tz_value s) None)).
  { intros k s Hk. unfold z0. destruct (Nat.leb (List.length bottom) k) eqn:El; [apply Nat.leb_le in El|apply Nat.leb_gt in El].
    - rewrite nth_error_app2 in * by (rewrite ?map_length; lia). rewrite map_length, nth_error_map, Hk. reflexivity.
    - rewrite nth_error_app1 in * by (rewrite ?map_length; lia). rewrite nth_error_map, Hk. reflexivity. }
  inversion H; subst; cbn [res_fold]; rewrite E0; cbn [rthen].
  - exists z0. split; [reflexivity|]. split; [assumption|]. intros k s Hk. rewrite (N0 k s Hk). reflexivity.
  - cbn [tt_add]. unfold set_tt_zone_deltas. cbn [ex_zones ex_zone_names]. rewrite <- K, deltas_ok_fold.
    + cbn [rmap rthen ex_ppms_h ex_ppms_v ex_stems_h ex_stems_v ex_zone_names ex_side_names]. eexists. split; [reflexivity|].
      split; [now apply mapi_fst|]. intros k s Hk. rewrite mapi_nth, (N0 k s Hk). cbn [option_map fst snd Nat.add]. do 2 f_equal.
      unfold delta_at, exported_zone. destruct (aget Z.eqb (Z.of_nat k) d) as [l|] eqn:Ea; [|reflexivity].
      unfold put_delta. cbn [uz_position uz_top uz_width]. do 2 f_equal. apply delta_texts_ok.
      apply (aget_In Z.eqb Z.eqb_eq) in Ea. rewrite Forall_forall in F. now apply F in Ea.
    + now rewrite K.
    + assumption.
    + eapply Forall_impl; [|exact F]. intros x (R & _). now rewrite L.
Qed.

(** ** Commands *)
Section Commands.
  Variables (L : Type) (label : L -> Z -> pystr -> res (tval * L)) (zone : bool -> Z -> res pystr) (stems : bool -> list pystr).
  Variables (ok : L -> Prop) (ext : L -> L -> Prop) (point : L -> Z -> tval -> Prop) (good : Z -> Prop) (zoned : bool -> Z -> pystr -> Prop).
  Hypothesis ext_refl : forall a, ext a a.
  Hypothesis ext_trans : forall a b c, ext a b -> ext b c -> ext a c.
  Hypothesis point_ext : forall a b n l, ok a -> ok b -> ext a b -> point a n l -> point b n l.
  Hypothesis label_ok : forall st n code, ok st -> good n -> In code (map fst label_codes) ->
    exists l st', label st n code = Ok (l, st') /\ ok st' /\ ext st st' /\ point st' n l.

  (** what an instruction needs: points, zones and stems that are there *)
  Definition needs (i : instruction) : Prop :=
    (forall p n, In p [py "pt"; py "pt1"; py "pt2"; py "pti"] -> param i p n -> good n) /\
    (forall n (top : bool), param i (py "zone") n -> in_cmd i = (if top then py "AlignTop" else py "AlignBottom") -> exists z, zone top n = Ok z /\ zoned top n z) /\
    (forall n, param i (py "stem") n -> 0 <= n -> stems (is_one (in_cmd i) [py "SingleLinkH"; py "DoubleLinkH"]) <> []).

  Lemma add_point_ok : forall i attr p n d st, ok st -> aget_res str_eqb p (in_params i) = Ok n -> good n -> In (in_cmd i) (map fst label_codes) ->
    exists l st', add_point L label i attr p (d, st) = Ok (aset str_eqb attr l d, st') /\ ok st' /\ ext st st' /\ point st' n l.
  Proof.
    intros i attr p n d st O E G C. unfold add_point. rewrite E. cbn [rthen snd fst].
    destruct (label_ok st n (in_cmd i) O G C) as (l & st' & El & H). exists l, st'. rewrite El. auto.
  Qed.
  Definition align_name (n : Z) : pystr :=
    if n =? 1 then py "left" else if n =? 2 then py "right" else if n =? 3 then py "center" else if n =? 4 then py "double" else py "round".
  Lemma add_align_cases : forall i n d, aget str_eqb (py "align") (in_params i) = Some n ->
    add_align i d = if n <? 0 then d else aset str_eqb (py "align") (TStr (align_name n)) d.
  Proof.
    intros i n d E. unfold add_align. rewrite E. destruct (n <? 0) eqn:En.
    - destruct (n >? -1) eqn:E2; [lia|reflexivity].
    - destruct (n >? -1) eqn:E2; [|lia]. do 2 f_equal. unfold align_name, alignment_rev. cbn [aget].
      destruct (n =? -1) eqn:A; [lia|]. destruct (n =? 0) eqn:B.
      + assert (n = 0) by lia. subst n. reflexivity.
      + destruct (n =? 1), (n =? 2), (n =? 3), (n =? 4); reflexivity.
  Qed.
  Lemma add_stem_cases : forall hor i n d, aget str_eqb (py "stem") (in_params i) = Some n -> (0 <= n -> stems hor <> []) ->
    if n <? 0 then add_stem stems hor i d = Ok (if n <? -1 then aset str_eqb (py "round") TTrue d else d)
    else exists s, add_stem stems hor i d = Ok (aset str_eqb (py "stem") (TStr s) d) /\
                   nth_error (stems hor) (if n <? Z.of_nat (List.length (stems hor)) then Z.to_nat n else 0) = Some s.
  Proof.
    intros hor i n d E H. unfold add_stem. rewrite E. destruct (n <? 0) eqn:En.
    - destruct (n <=? -2) eqn:E2; [destruct (n <? -1) eqn:E3; [reflexivity|lia]|]. destruct (n =? -1) eqn:E4; [|lia]. destruct (n <? -1) eqn:E5; [lia|reflexivity].
    - destruct (n <=? -2) eqn:E2; [lia|]. destruct (n =? -1) eqn:E4; [lia|]. cbv zeta.
      set (k := if n <? Z.of_nat (List.length (stems hor)) then Z.to_nat n else 0%nat).
      assert (Ek : (if n >=? Z.of_nat (List.length (stems hor)) then 0 else n) = Z.of_nat k).
      { unfold k. destruct (n >=? Z.of_nat (List.length (stems hor))) eqn:A; destruct (n <? Z.of_nat (List.length (stems hor))) eqn:B; lia. }
      assert (Lk : (k < List.length (stems hor))%nat).
      { unfold k. destruct (n <? Z.of_nat (List.length (stems hor))) eqn:B; [lia|]. destruct (stems hor); [exfalso; apply H; [lia|reflexivity]|cbn; lia]. }
      rewrite Ek, (py_index_nth _ _ _ []) by assumption. cbn [rmap]. eexists. split; [reflexivity|].
      destruct (nth_error (stems hor) k) eqn:F; [|apply nth_error_None in F; lia]. f_equal. symmetry. now apply nth_error_nth.
  Qed.

  Ltac calc := repeat match goal with
    | |- context[is_one ?a ?b] => let x := eval vm_compute in (is_one a b) in change (is_one a b) with x
    end; cbn [in_cmd rthen rmap fst snd andb].
  Ltac has := first [left; reflexivity | right; has].
  Lemma codes_ok : forall n c a, In (n, (c, a)) attributes -> aget_res str_eqb n command_codes = Ok c.
  Proof.
    intros n c a H. unfold attributes in H. cbn [In] in H. repeat (destruct H as [H|H]; [injection H as <- <- _; reflexivity|]). destruct H.
  Qed.
  Lemma param_in : forall i p n, In (p, n) (in_params i) -> param i p n. Proof. auto. Qed.
  Ltac finish :=
    eexists _, _; (split; [has|]); (split; [lazy [map fst aset app]; repeat apply NoDup_cons; try apply NoDup_nil; vm_compute; intuition discriminate|]);
    (split; [reflexivity|]); (split; [repeat apply Forall_cons; try apply Forall_nil; cbn [fst snd value]|
       intros key v Hk; repeat (destruct Hk as [Hk|Hk]; [injection Hk as <- _; first [left; reflexivity | right; has]|]); destruct Hk]).
  Ltac pt := do 2 eexists; (split; [unfold param; cbn [in_params]; has|]); (split; [|reflexivity]); eauto.

  Ltac step NP Hl :=
    match goal with
    | |- context[add_point L label ?i ?attr ?p (?d, ?st)] =>
        let l := fresh "l" in let st' := fresh "st" in let E := fresh "E" in let O' := fresh "O" in let X := fresh "X" in let P := fresh "P" in
        let n := eval lazy in (match aget str_eqb p (in_params i) with Some n => n | None => 0 end) in
        destruct (add_point_ok i attr p n d st) as (l & st' & E & O' & X & P);
          [assumption|reflexivity|apply (NP p); [has|unfold param; cbn [in_params]; has]|exact Hl|];
        rewrite E; clear E; cbn [rthen rmap fst snd]
    | |- context[aget_res str_eqb ?a (in_params ?i)] =>
        let x := eval lazy in (aget_res str_eqb a (in_params i)) in change (aget_res str_eqb a (in_params i)) with x; cbn [rthen rmap fst snd]
    end.
  Ltac close := do 2 eexists; (split; [reflexivity|]); (split; [assumption|]); (split; [eauto|]).
  Ltac link NS n :=
    match goal with |- context[add_stem stems ?hor ?i ?d] =>
      let H := fresh "H" in pose proof (add_stem_cases hor i n d eq_refl) as H;
      assert (0 <= n -> stems hor <> []) as HS by (apply NS; unfold param; cbn [in_params]; has);
      specialize (H HS); destruct (n <? 0) eqn:?;
      [rewrite H; clear H; destruct (n <? -1) eqn:?|destruct H as (? & H & ?); rewrite H; clear H]; cbn [rmap fst snd]
    end.
  Ltac al n :=
    match goal with |- context[add_align ?i ?d] => rewrite (add_align_cases i n d eq_refl); destruct (n <? 0) eqn:? end.
  Ltac noal := match goal with |- context[add_align ?i ?d] => change (add_align i d) with d end.
  Ltac num := unfold add_param; repeat match goal with |- context[aget_res str_eqb ?a (in_params ?i)] =>
      let n := eval lazy in (match aget str_eqb a (in_params i) with Some n => n | None => 0 end) in
      change (aget_res str_eqb a (in_params i)) with (Ok n : res Z); cbn [rthen rmap fst snd] end.
  Ltac vals := first [pt | eexists; split; [unfold param; cbn [in_params]; has|];
    repeat match goal with H : (?a <? ?b) = _ |- context[?a <? ?b] => rewrite H end;
    first [reflexivity | match goal with |- context[?a <? ?b] => destruct (a <? b) eqn:?; first [reflexivity|exfalso; lia] end | eexists; split; [reflexivity|eassumption] | exfalso; lia]].
  Lemma export_command_ok : forall st i, ok st -> instruction_ok i -> needs i ->
    exists d st', export_command L label zone stems st i = Ok (d, st') /\ ok st' /\ ext st st' /\
      exported_command (point st') zoned stems i d.
  Proof.
    intros st [cmd params] O ([code [name names]] & Hc & En & Ep) (NP & NZ & NS). cbn [in_cmd in_params fst snd] in *.
    assert (Hl : In cmd (map fst label_codes)).
    { subst cmd. unfold tt_commands in Hc. cbn [In] in Hc. repeat (destruct Hc as [Hc|Hc]; [injection Hc as <- <- <-; unfold label_codes; cbn [map fst]; has|]). destruct Hc. }
    unfold tt_commands in Hc. cbn [In] in Hc.
    repeat (destruct Hc as [Hc|Hc]; [injection Hc as <- <- <-; subst cmd;
      repeat (destruct params as [|[? ?] params]; cbn [map fst] in Ep; try discriminate Ep; injection Ep as -> Ep); try (destruct params; [|discriminate Ep]); clear Ep|]);
      try (destruct Hc).
    all: unfold export_command; cbn [in_cmd]; match goal with |- context[aget_res str_eqb ?n command_codes] => erewrite (codes_ok n) by (unfold attributes; has) end; calc.
    all: repeat step NP Hl.
    - (* AlignTop *)
      destruct (NZ z0 true) as (zn & Ez & Zz); [unfold param; has|reflexivity|]. change (negb (str_eqb (py "AlignTop") (py "AlignBottom"))) with true.
      rewrite Ez. cbn [rmap]. close. finish; [pt|]. do 2 eexists. split; [unfold param; has|]. split; [exact Zz|reflexivity].
    - (* AlignBottom *)
      destruct (NZ z0 false) as (zn & Ez & Zz); [unfold param; has|reflexivity|]. change (negb (str_eqb (py "AlignBottom") (py "AlignBottom"))) with false.
      rewrite Ez. cbn [rmap]. close. finish; [pt|]. do 2 eexists. split; [unfold param; has|]. split; [exact Zz|reflexivity].
    - (* SingleLinkH *) link NS z1; al z2; close; finish; vals.
    - (* SingleLinkV *) link NS z1; al z2; close; finish; vals.
    - (* DoubleLinkH *) link NS z1; noal; close; finish; vals.
    - (* DoubleLinkV *) link NS z1; noal; close; finish; vals.
    - (* AlignH *) al z0; close; finish; vals.
    - (* AlignV *) al z0; close; finish; vals.
    - (* InterpolateH *) al z2; close; finish; vals.
    - (* InterpolateV *) al z2; close; finish; vals.
    - (* MDeltaH *) num; close; finish; vals.
    - (* MDeltaV *) num; close; finish; vals.
    - (* FDeltaH *) num; close; finish; vals.
    - (* FDeltaV *) num; close; finish; vals.
  Qed.

  Lemma command_ext : forall a b i d, ok a -> ok b -> ext a b -> exported_command (point a) zoned stems i d -> exported_command (point b) zoned stems i d.
  Proof.
    intros a b i d Oa Ob X (code & attrs & A & N & C & F & K). exists code, attrs. repeat (split; [assumption|]). split; [|assumption].
    eapply Forall_impl; [|exact F]. intros [k v]. cbn [fst snd]. destruct v; cbn [value]; auto. intros (n & l & P & Q & E). exists n, l. eauto.
  Qed.
  Lemma export_commands_ok : forall l st, ok st -> Forall instruction_ok l -> Forall needs l ->
    exists ds st', export_commands L label zone stems st l = Ok (ds, st') /\ ok st' /\ ext st st' /\ Forall2 (exported_command (point st') zoned stems) l ds.
  Proof.
    induction l as [|i l IH]; intros st O I N; cbn [export_commands].
    - exists [], st. repeat split; auto.
    - inversion I as [|? ? I1 I2]; subst. inversion N as [|? ? N1 N2]; subst.
      destruct (export_command_ok st i O I1 N1) as (d & st1 & E & O1 & X1 & C). rewrite E. cbn [rthen fst snd].
      destruct (IH st1 O1 I2 N2) as (ds & st2 & E2 & O2 & X2 & F). rewrite E2. cbn [rmap fst snd].
      exists (d :: ds), st2. split; [reflexivity|]. split; [assumption|]. split; [eauto|]. constructor; [|assumption].
      now apply (command_ext st1).
  Qed.
End Commands.

(** ** Stems and zones of the export *)
Lemma put_zones_start : put_zones tt_start tt_start = tt_start. Proof. reflexivity. Qed.
