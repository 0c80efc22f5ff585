(** Proofs about the extraction of TrueType hinting. *)
From Coq Require Import String FinFun Permutation Sorted.
From Verif Require Import Base Lib M_Py M_Text M_Glyph M_Labels M_TrueType M_Tth M_TthExtract S_Tth S_TthExtract P_Dec P_Glyph P_Tth.
From Verif Require S_GlyphAccess P_GlyphAccess.
Local Open Scope list_scope.

(** ** Names *)
Lemma existsb_In : forall n l, existsb (str_eqb n) l = true <-> In n l.
Proof.
  intros n l. rewrite existsb_exists. split.
  - intros (x & I & E). apply str_eqb_eq in E. now subst.
  - intros I. exists n. split; [assumption|apply str_eqb_refl].
Qed.
Lemma unique_loop_ok : forall fuel names name i, 1 <= i ->
  (forall j, 1 <= j < i -> In (S_GlyphAccess.numbered name j) names) -> (List.length names < Z.to_nat (i - 1) + fuel)%nat ->
  exists k, i <= k /\ unique_loop fuel names name i = Ok (S_GlyphAccess.numbered name k) /\ ~ In (S_GlyphAccess.numbered name k) names /\
    forall j, 1 <= j < k -> In (S_GlyphAccess.numbered name j) names.
Proof.
  induction fuel as [|fuel IH]; intros names name i Hi Hin L.
  - exfalso. set (n := Z.to_nat (i - 1)) in *.
    assert (I : incl (map (fun k => S_GlyphAccess.numbered name (Z.of_nat (S k))) (seq 0 n)) names).
    { intros x Hx. apply in_map_iff in Hx. destruct Hx as (k & <- & Hk). apply in_seq in Hk. apply Hin. lia. }
    apply NoDup_incl_length in I.
    + rewrite map_length, seq_length in I. lia.
    + apply Injective_map_NoDup; [|apply seq_NoDup]. intros a b E. apply P_GlyphAccess.numbered_inj in E; lia.
  - cbn [unique_loop]. fold (S_GlyphAccess.numbered name i). destruct (existsb (str_eqb (S_GlyphAccess.numbered name i)) names) eqn:E.
    + apply existsb_In in E. destruct (IH names name (i + 1)) as (k & Hk & R); [lia| |lia|].
      * intros j Hj. destruct (Z.eq_dec j i) as [->|]; [assumption|apply Hin; lia].
      * exists k. split; [lia|assumption].
    + exists i. repeat split; auto; [lia|]. rewrite <- existsb_In, E. discriminate.
Qed.
Lemma unique_ok : forall names name, exists key, unique_name names name = Ok key /\ S_GlyphAccess.disambiguated names name key.
Proof.
  intros names name. unfold unique_name. destruct (existsb (str_eqb name) names) eqn:E.
  - destruct (unique_loop_ok (S (List.length names)) names name 1) as (k & Hk & F & N & A); [lia|lia|lia|].
    exists (S_GlyphAccess.numbered name k). split; [assumption|]. right. split; [now apply existsb_In|]. exists k. auto.
  - exists name. split; [reflexivity|]. left. split; [|reflexivity]. rewrite <- existsb_In, E. discriminate.
Qed.
Lemma disambiguated_new : forall used n k, S_GlyphAccess.disambiguated used n k -> ~ In k used.
Proof. intros used n k [(N & ->)|(_ & i & _ & _ & N & _)]; assumption. Qed.
Lemma made_unique_nodup : forall used ns ks, made_unique used ns ks -> NoDup used -> NoDup (rev ks ++ used).
Proof.
  intros used ns ks H. induction H as [|used n k ns ks D U IH]; intros N; [assumption|]. cbn [rev]. rewrite <- app_assoc. cbn.
  apply IH. constructor; [now apply (disambiguated_new used n)|assumption].
Qed.
Lemma made_unique_NoDup : forall ns ks, made_unique [] ns ks -> NoDup ks.
Proof.
  intros ns ks H. apply made_unique_nodup in H; [|constructor]. rewrite app_nil_r in H.
  rewrite <- (rev_involutive ks). now apply NoDup_rev.
Qed.
Lemma made_unique_app : forall a used ka b kb, made_unique used a ka -> made_unique (rev ka ++ used) b kb -> made_unique used (a ++ b) (ka ++ kb).
Proof.
  intros a used ka b kb H. induction H as [|used n k ns ks D U IH]; intros Hb; [assumption|].
  cbn [app]. constructor; [assumption|]. apply IH. cbn [rev] in Hb. rewrite <- app_assoc in Hb. exact Hb.
Qed.
Lemma made_unique_length : forall used ns ks, made_unique used ns ks -> List.length ks = List.length ns.
Proof. intros used ns ks H. induction H; cbn; congruence. Qed.

(** ** Stems and zones *)
Definition stem_of (hor : bool) (k : pystr) (s : stem) : estem := EStem k [(6, sm_ppm s 6)] (sm_width s) hor.
Fixpoint with_keys {A B} (f : pystr -> A -> B) (ks : list pystr) (l : list A) : list B :=
  match ks, l with k :: ks, x :: l => f k x :: with_keys f ks l | _, _ => [] end.
Lemma extract_stems_ok : forall hor l names, exists ks, extract_stems hor names (stem_texts l) = Ok (with_keys (stem_of hor) ks l, rev ks ++ names) /\
  made_unique names (map sm_name l) ks.
Proof.
  intros hor. induction l as [|s l IH]; intros names; cbn [stem_texts map extract_stems ts_name ts_value ts_round opt_res rthen].
  - exists []. split; [reflexivity|constructor].
  - destruct (unique_ok names (sm_name s)) as (k & E & D). rewrite E. cbn [rthen]. destruct (IH (k :: names)) as (ks & E2 & U).
    unfold stem_texts in E2. rewrite E2. cbn [rmap fst snd]. exists (k :: ks). split; [|now constructor].
    cbn [with_keys rev]. rewrite <- app_assoc. reflexivity.
Qed.
Definition zone_of (top : bool) (k : pystr) (z : tt_zone) : ezone := EZone k (tz_position z) top (tz_value z) None.
Lemma extract_zones_ok : forall top l names, exists ks, extract_zones top names l = Ok (with_keys (zone_of top) ks l, rev ks ++ names) /\
  made_unique names (map tz_name l) ks.
Proof.
  intros top. induction l as [|z l IH]; intros names; cbn [extract_zones map].
  - exists []. split; [reflexivity|constructor].
  - destruct (unique_ok names (tz_name z)) as (k & E & D). rewrite E. cbn [rthen]. destruct (IH (k :: names)) as (ks & E2 & U).
    rewrite E2. cbn [rmap fst snd]. exists (k :: ks). split; [|now constructor].
    cbn [with_keys rev]. rewrite <- app_assoc. reflexivity.
Qed.
Lemma with_keys_length : forall A B (f : pystr -> A -> B) ks l, List.length ks = List.length l -> List.length (with_keys f ks l) = List.length l.
Proof. induction ks as [|k ks IH]; intros [|x l] H; cbn in *; try discriminate; [reflexivity|]. f_equal. apply IH. lia. Qed.
Lemma with_keys_map : forall A B (f : pystr -> A -> B) g ks l, (forall k x, g (f k x) = k) -> List.length ks = List.length l -> map g (with_keys f ks l) = ks.
Proof. induction ks as [|k ks IH]; intros [|x l] G H; cbn in *; try discriminate; [reflexivity|]. rewrite G. f_equal. apply IH; [assumption|lia]. Qed.
Lemma with_keys_map2 : forall A B C (f : pystr -> A -> B) (g : B -> C) ks l, map g (with_keys f ks l) = with_keys (fun k x => g (f k x)) ks l.
Proof. induction ks as [|k ks IH]; intros [|x l]; cbn; try reflexivity. now rewrite IH. Qed.
Lemma with_keys_nth : forall A B (f : pystr -> A -> B) ks l j k x, nth_error ks j = Some k -> nth_error l j = Some x -> nth_error (with_keys f ks l) j = Some (f k x).
Proof.
  induction ks as [|k ks IH]; intros [|x l] [|j] k' x' Hk Hx; cbn in *; try discriminate.
  - congruence.
  - now apply IH.
Qed.
Lemma with_keys_app : forall A B (f : pystr -> A -> B) ka a kb b, List.length ka = List.length a -> with_keys f (ka ++ kb) (a ++ b) = with_keys f ka a ++ with_keys f kb b.
Proof. induction ka as [|k ka IH]; intros [|x a] kb b H; cbn in *; try discriminate; [reflexivity|]. f_equal. apply IH. lia. Qed.

(** ** The state after the entries of the font *)
Definition dir_round (l : list stem) : list (Z * list (Z * Z)) :=
  map (fun x => (fst x, map (fun px => (px, sm_ppm (snd x) px)) [2; 3; 4; 5])) (enum 0 l).
Lemma aset_end : forall A k (v : A) d, (forall x, In x (map fst d) -> x < k) -> aset Z.eqb k v d = d ++ [(k, v)].
Proof.
  intros A k v d H. apply (aset_notin Z.eqb Z.eqb_eq). intros I. specialize (H _ I). lia.
Qed.
Definition put_round (d : list (Z * list (Z * Z))) (x : Z * list (Z * Z)) := aset Z.eqb (fst x) (snd x) d.
Lemma extract_ppems_ok : forall l a, extract_ppems a (numbered [2; 3; 4; 5] l) = Ok (fold_left put_round (dir_round l) a).
Proof.
  intros l. unfold extract_ppems, numbered, dir_round. generalize 0. induction l as [|s l IH]; intros i a; [reflexivity|].
  cbn [enum map res_fold ts_stem ts_round opt_res rmap rthen fold_left put_round fst snd]. apply IH.
Qed.
Lemma dir_round_fold : forall l, fold_left put_round (dir_round l) [] = dir_round l.
Proof.
  intros l. unfold dir_round.
  assert (X : forall l i a, (forall x, In x (map fst a) -> x < i) ->
    fold_left put_round (map (fun x => (fst x, map (fun px => (px, sm_ppm (snd x) px)) [2; 3; 4; 5])) (enum i l)) a =
    a ++ map (fun x => (fst x, map (fun px => (px, sm_ppm (snd x) px)) [2; 3; 4; 5])) (enum i l)).
  { clear. induction l as [|s l IH]; intros i a H; cbn [enum map fold_left]; [now rewrite app_nil_r|].
    unfold put_round at 2. cbn [fst snd]. rewrite aset_end by assumption. rewrite IH, <- app_assoc; [reflexivity|].
    intros x I. rewrite map_app in I. apply in_app_iff in I. destruct I as [I|[<-|[]]]; [specialize (H _ I); lia|cbn; lia]. }
  apply (X l 0 []). intros x [].
Qed.
Section Font.
  Variables (v h : list stem) (top bottom : list tt_zone) (d : zone_deltas) (vn hn tn bn : list pystr).
  Hypothesis Hstems : extract_tt_stems (TTStems (stem_texts v) (stem_texts h)) = Ok (with_keys (stem_of true) vn v, with_keys (stem_of false) hn h).
  Hypothesis Hzones : extract_tt_zones (TTZones (Some top) (Some bottom)) = Ok (with_keys (zone_of true) tn top, with_keys (zone_of false) bn bottom).
  Definition four : list x_entry := [x_ppms v h; x_stems_of v h; x_zones_of top bottom; XDeltas d].
  Definition upd (e : x_entry) (s : xstate) : xstate :=
    match e with
    | XPpms _ => XState (x_stems s) (x_zones s) (x_deltas s) (x_names_t s) (x_names_b s) (fold_left put_round (dir_round v) (x_round_v s)) (fold_left put_round (dir_round h) (x_round_h s)) (x_glyphs s)
    | XStems _ => XState (Some (with_keys (stem_of true) vn v, with_keys (stem_of false) hn h)) (x_zones s) (x_deltas s) (x_names_t s) (x_names_b s) (x_round_v s) (x_round_h s) (x_glyphs s)
    | XZones _ => XState (x_stems s) (Some (with_keys (zone_of true) tn top, with_keys (zone_of false) bn bottom)) (x_deltas s)
                    (set_names (with_keys (zone_of true) tn top) (x_names_t s)) (set_names (with_keys (zone_of false) bn bottom) (x_names_b s))
                            (x_round_v s) (x_round_h s) (x_glyphs s)
    | XDeltas _ => XState (x_stems s) (x_zones s) (Some d) (x_names_t s) (x_names_b s) (x_round_v s) (x_round_h s) (x_glyphs s)
    | _ => s
    end.
  Lemma upd_ok : forall e s, In e four -> x_add s e = Ok (upd e s).
  Proof.
    intros e s [<-|[<-|[<-|[<-|[]]]]]; cbn [x_add upd x_ppms x_stems_of x_zones_of].
    - cbn [tts_v tts_h]. rewrite !extract_ppems_ok. reflexivity.
    - rewrite Hstems. reflexivity.
    - rewrite Hzones. reflexivity.
    - reflexivity.
  Qed.
  Lemma upd_fold : forall l s, incl l four -> res_fold x_add s l = Ok (fold_left (fun s e => upd e s) l s).
  Proof.
    induction l as [|e l IH]; intros s H; [reflexivity|]. cbn [res_fold fold_left]. rewrite upd_ok by (apply H; now left).
    cbn [rthen]. apply IH. intros x I. apply H. now right.
  Qed.
  Lemma upd_comm : forall a b s, In a four -> In b four -> upd a (upd b s) = upd b (upd a s).
  Proof. intros a b s [<-|[<-|[<-|[<-|[]]]]] [<-|[<-|[<-|[<-|[]]]]]; reflexivity. Qed.
  Lemma upd_perm : forall l l', Permutation l l' -> incl l four -> forall s, fold_left (fun s e => upd e s) l s = fold_left (fun s e => upd e s) l' s.
  Proof.
    intros l l' P. induction P as [|x l l' P IH|x y l|a b c P1 IH1 P2 IH2]; intros H s.
    - reflexivity.
    - cbn [fold_left]. apply IH. intros z I. apply H. now right.
    - cbn [fold_left]. rewrite upd_comm; [reflexivity|apply H; cbn; auto|apply H; cbn; auto].
    - rewrite IH1 by assumption. apply IH2. intros z I. apply H. now apply (Permutation_in _ (Permutation_sym P1)).
  Qed.
  Definition font_state : xstate :=
    XState (Some (with_keys (stem_of true) vn v, with_keys (stem_of false) hn h)) (Some (with_keys (zone_of true) tn top, with_keys (zone_of false) bn bottom))
      (Some d) (set_names (with_keys (zone_of true) tn top) []) (set_names (with_keys (zone_of false) bn bottom) []) (dir_round v) (dir_round h) [].
  Lemma font_ok : forall l, Permutation l four -> res_fold x_add x_start l = Ok font_state.
  Proof.
    intros l P. assert (I : incl l four) by (intros x Hx; now apply (Permutation_in _ P)).
    rewrite upd_fold by assumption. rewrite (upd_perm l four P I). unfold four. cbn [fold_left upd x_ppms x_stems_of x_zones_of x_start x_stems x_zones x_deltas x_names_t x_names_b x_round_v x_round_h x_glyphs].
    rewrite !dir_round_fold. reflexivity.
  Qed.
End Font.

(** ** Sorting *)
Section Sort.
  Variables (A : Type) (key : A -> Z) (ins : A -> list A -> list A).
  Hypothesis ins_nil : forall x, ins x [] = [x].
  Hypothesis ins_cons : forall x y l, ins x (y :: l) = if key x <? key y then x :: y :: l else y :: ins x l.
  Lemma ins_perm : forall x l, Permutation (ins x l) (x :: l).
  Proof.
    intros x. induction l as [|y l IH]; [now rewrite ins_nil|]. rewrite ins_cons. destruct (key x <? key y); [reflexivity|].
    rewrite IH. apply perm_swap.
  Qed.
  Lemma ins_sorted : forall x l, StronglySorted (fun a b => key a < key b) l -> ~ In (key x) (map key l) ->
    StronglySorted (fun a b => key a < key b) (ins x l).
  Proof.
    intros x l S. induction S as [|y l S IH F]; intros N; [rewrite ins_nil; repeat constructor|]. rewrite ins_cons.
    cbn [map In] in N. destruct (key x <? key y) eqn:E.
    - constructor; [now constructor|]. constructor; [lia|]. eapply Forall_impl; [|exact F]. cbv beta. intros; lia.
    - constructor; [apply IH; tauto|]. eapply Permutation_Forall; [apply Permutation_sym, ins_perm|]. constructor; [|assumption].
      assert (key x <> key y) by (intros K; apply N; now left). lia.
  Qed.
  Lemma sort_ok : forall l a, NoDup (map key (a ++ l)) -> StronglySorted (fun a b => key a < key b) a ->
    Permutation (fold_left (fun a x => ins x a) l a) (a ++ l) /\ StronglySorted (fun a b => key a < key b) (fold_left (fun a x => ins x a) l a).
  Proof.
    induction l as [|x l IH]; intros a N S; cbn [fold_left]; [rewrite app_nil_r in *; auto|].
    assert (P : Permutation (a ++ x :: l) (ins x a ++ l)) by (rewrite ins_perm; apply Permutation_sym, Permutation_middle).
    destruct (IH (ins x a)) as (Q & R).
    - eapply Permutation_NoDup; [|exact N]. now apply Permutation_map.
    - apply ins_sorted; [assumption|]. rewrite map_app in N. cbn [map] in N. apply NoDup_remove_2 in N. intros I. apply N, in_or_app. now left.
    - split; [|assumption]. now rewrite Q, P.
  Qed.
End Sort.
Lemma sort_px_ok : forall l, NoDup (map snd l) -> Permutation (sort_px l) l /\ StronglySorted (fun a b => snd a < snd b) (sort_px l).
Proof. intros l N. apply (sort_ok _ snd insert_px); [reflexivity|reflexivity|assumption|constructor]. Qed.
Lemma sort_ppm_ok : forall l, NoDup (map fst l) -> Permutation (sort_ppm l) l /\ StronglySorted (fun a b => fst a < fst b) (sort_ppm l).
Proof. intros l N. apply (sort_ok _ fst insert_ppm); [reflexivity|reflexivity|assumption|constructor]. Qed.

(** ** Rounding *)
(** the last pixel number for a ppm counts *)
Definition last_px (f : Z -> Z) (l : list Z) (px : Z) : Prop :=
  exists a b, l = a ++ px :: b /\ Forall (fun q => f q <> f px) b.
Lemma transform_last : forall f l, NoDup l ->
  NoDup (map fst (transform_rounds (map (fun px => (px, f px)) l))) /\
  forall t px, In (t, px) (transform_rounds (map (fun px => (px, f px)) l)) <-> t = dec_str (f px) /\ last_px f l px.
Proof.
  intros f l. induction l as [|x l IH] using rev_ind; intros N.
  - cbn. split; [constructor|]. intros t px. split; [tauto|]. intros (_ & a & b & E & _). destruct a; discriminate.
  - assert (N1 : NoDup l) by (rewrite <- (app_nil_r l); now apply NoDup_remove_1 with x).
    destruct (IH N1) as (Nk & I). unfold transform_rounds in *. rewrite map_app, fold_left_app. cbn [map fold_left fst snd]. split; [apply aset_nodup; auto using str_eqb_eq|].
    intros t px. rewrite In_aset_nodup by auto using str_eqb_eq. rewrite I. split.
    + intros [(-> & ->)|(Nt & -> & a & b & E & F)].
      * split; [reflexivity|]. exists l, []. auto.
      * split; [reflexivity|]. exists a, (b ++ [x]). split; [now rewrite E, <- app_assoc|]. apply Forall_app. split; [assumption|]. constructor; [|constructor]. congruence.
    + intros (-> & a & b & E & F). destruct b as [|y b] using rev_ind.
      * apply app_inj_tail in E. destruct E as (-> & ->). now left.
      * clear IHb. rewrite app_comm_cons, app_assoc in E. apply app_inj_tail in E. destruct E as (-> & ->). apply Forall_app in F. destruct F as (F & F2).
        right. inversion F2 as [|? ? Fy _]; subst. split; [intros K; apply dec_str_inj in K; congruence|]. split; [reflexivity|]. exists a, b. auto.
Qed.
Lemma NoDup_snd : forall (f : Z -> pystr) (l : list (pystr * Z)), NoDup (map fst l) -> (forall t px, In (t, px) l -> t = f px) -> NoDup (map snd l).
Proof.
  induction l as [|[t px] l IH]; intros N F; cbn [map fst snd] in *; [constructor|]. inversion N as [|? ? H N']; subst. constructor.
  - intros I. apply in_map_iff in I. destruct I as ([t' px'] & E & I). cbn in E. subst. apply H. apply in_map_iff. exists (t', px). split; [|assumption]. cbn.
    rewrite (F t' px) by now right. symmetry. apply F. now left.
  - apply IH; [assumption|]. intros; apply F; now right.
Qed.
Lemma five : forall s, update [(6, sm_ppm s 6)] (map (fun px => (px, sm_ppm s px)) [2; 3; 4; 5]) = map (fun px => (px, sm_ppm s px)) [6; 2; 3; 4; 5].
Proof. intros s. reflexivity. Qed.
Lemma last_five : forall f px, last_px f [6; 2; 3; 4; 5] px <->
  2 <= px <= 6 /\ forall px', 2 <= px' <= 6 -> f px' = f px -> px' = 6 \/ (px <> 6 /\ px' <= px).
Proof.
  intros f px. split.
  - intros (a & b & E & F). rewrite Forall_forall in F.
    assert (C : (px = 6 /\ b = [2; 3; 4; 5]) \/ (px = 2 /\ b = [3; 4; 5]) \/ (px = 3 /\ b = [4; 5]) \/ (px = 4 /\ b = [5]) \/ (px = 5 /\ b = [])).
    { destruct a as [|a0 [|a1 [|a2 [|a3 [|a4 [|? ?]]]]]]; injection E; intros; try discriminate; subst; intuition congruence. }
    assert (G : forall q, In q b -> f q <> f px) by (intros q Hq; now apply F).
    destruct C as [(-> & ->)|[(-> & ->)|[(-> & ->)|[(-> & ->)|(-> & ->)]]]]; (split; [lia|]); intros px' R Ef;
      (destruct (Z.eq_dec px' 6) as [|N6]; [now left|]); cbn [In] in G;
      assert (O : px' = 2 \/ px' = 3 \/ px' = 4 \/ px' = 5) by lia;
      destruct O as [->|[->|[->| ->]]]; try (right; lia); exfalso; refine (G _ _ Ef); tauto.
  - intros (R & H). assert (O : px = 6 \/ px = 2 \/ px = 3 \/ px = 4 \/ px = 5) by lia.
    destruct O as [->|[->|[->|[->| ->]]]]; [exists [], [2; 3; 4; 5]|exists [6], [3; 4; 5]|exists [6; 2], [4; 5]|exists [6; 2; 3], [5]|exists [6; 2; 3; 4], []]; (split; [reflexivity|]);
      apply Forall_forall; intros q Hq Ef; cbn [In] in Hq; specialize (H q ltac:(lia) Ef); lia.
Qed.
Lemma rounding_ok : forall s, extracted_rounding s (sort_px (transform_rounds (update [(6, sm_ppm s 6)] (map (fun px => (px, sm_ppm s px)) [2; 3; 4; 5])))).
Proof.
  intros s. rewrite five. destruct (transform_last (sm_ppm s) [6; 2; 3; 4; 5]) as (N & I); [repeat constructor; cbn; lia|].
  set (r := transform_rounds _) in *. assert (N2 : NoDup (map snd r)) by (apply (NoDup_snd (fun px => dec_str (sm_ppm s px))); [assumption|]; intros t px H; now apply I in H).
  destruct (sort_px_ok r N2) as (P & S). split; [|split; [assumption|]].
  - eapply Permutation_NoDup; [|exact N]. now apply Permutation_map, Permutation_sym.
  - intros t px. split.
    + intros H. apply (Permutation_in _ P) in H. apply I in H. destruct H as (-> & L). pose proof L as L2. apply last_five in L2. tauto.
    + intros H. apply (Permutation_in _ (Permutation_sym P)). apply I. rewrite last_five. tauto.
Qed.

(** ** Merging *)
Definition fstem_of (hor : bool) (s : stem) : fstem :=
  FStem (sort_px (transform_rounds (update [(6, sm_ppm s 6)] (map (fun px => (px, sm_ppm s px)) [2; 3; 4; 5])))) (sm_width s) hor.
Lemma with_keys_snoc : forall A B (f : pystr -> A -> B) ka a k x kb b, List.length ka = List.length a ->
  with_keys f (ka ++ k :: kb) (a ++ x :: b) = with_keys f ka a ++ f k x :: with_keys f kb b.
Proof. intros. now rewrite with_keys_app. Qed.
Lemma merge_dir_ok : forall hor l ks (d : list (pystr * fstem)), List.length ks = List.length l -> NoDup (map fst d ++ ks) ->
  res_fold (merge_stem (with_keys (stem_of hor) ks l)) d (dir_round l) = Ok (d ++ with_keys (fun k s => (k, fstem_of hor s)) ks l).
Proof.
  intros hor.
  assert (X : forall l ks a ka d, List.length ka = List.length a -> List.length ks = List.length l -> NoDup (map fst d ++ ks) ->
    res_fold (merge_stem (with_keys (stem_of hor) (ka ++ ks) (a ++ l))) d
      (map (fun x => (fst x, map (fun px => (px, sm_ppm (snd x) px)) [2; 3; 4; 5])) (enum (Z.of_nat (List.length a)) l)) =
    Ok (d ++ with_keys (fun k s => (k, fstem_of hor s)) ks l)).
  { induction l as [|s l IH]; intros [|k ks] a ka d La Ls N; try discriminate; [cbn; now rewrite app_nil_r|].
    cbn [enum map res_fold fst snd]. unfold merge_stem at 1. cbn [fst snd]. rewrite with_keys_snoc by assumption.
    rewrite <- (with_keys_length _ _ (stem_of hor) ka a) at 1 by assumption. rewrite py_index_mid. cbn [rmap stem_of es_name es_round es_width es_horizontal rthen].
    fold (fstem_of hor s). rewrite (aset_notin str_eqb str_eqb_eq) by (apply NoDup_remove_2 in N; intros H; apply N, in_or_app; now left).
    cbn [with_keys]. change (stem_of hor k s :: with_keys (stem_of hor) ks l) with (with_keys (stem_of hor) (k :: ks) (s :: l)). rewrite <- with_keys_app by assumption.
    replace (ka ++ k :: ks) with ((ka ++ [k]) ++ ks) by now rewrite <- app_assoc. replace (a ++ s :: l) with ((a ++ [s]) ++ l) by now rewrite <- app_assoc.
    replace (Z.of_nat (List.length a) + 1) with (Z.of_nat (List.length (a ++ [s]))) by (rewrite app_length; cbn [List.length]; lia).
    rewrite IH.
    - now rewrite <- app_assoc.
    - rewrite !app_length. cbn. lia.
    - cbn in Ls. lia.
    - rewrite map_app, <- app_assoc. exact N. }
  intros l ks d L N. apply (X l ks [] [] d); auto.
Qed.
Lemma res_fold_ext : forall A B (f g : A -> B -> res A) l a, (forall a x, f a x = g a x) -> res_fold f a l = res_fold g a l.
Proof. intros A B f g. induction l as [|x l IH]; intros a H; [reflexivity|]. cbn [res_fold]. rewrite H. destruct (g a x); cbn [rthen]; auto. Qed.
Lemma with_keys_fst : forall A B (f : A -> B) ks l, List.length ks = List.length l -> map fst (with_keys (fun k s => (k, f s)) ks l) = ks.
Proof. intros. now apply with_keys_map. Qed.
Lemma merge_stems_ok : forall s v h vn hn, x_stems s = Some (with_keys (stem_of true) vn v, with_keys (stem_of false) hn h) ->
  x_round_v s = dir_round v -> x_round_h s = dir_round h -> List.length vn = List.length v -> List.length hn = List.length h -> NoDup (vn ++ hn) ->
  merge_stems s = Ok (with_keys (fun k s => (k, fstem_of true s)) vn v ++ with_keys (fun k s => (k, fstem_of false s)) hn h).
Proof.
  intros s v h vn hn Es Ev Eh Lv Lh N. unfold merge_stems. rewrite Es, Ev, Eh. cbn [opt_res rmap rthen fst snd].
  rewrite (res_fold_ext _ _ _ (merge_stem (with_keys (stem_of true) vn v)) (dir_round v)) by reflexivity.
  rewrite (merge_dir_ok true v vn []) by (auto; cbn; now apply NoDup_left in N). cbn [rthen app].
  rewrite (res_fold_ext _ _ _ (merge_stem (with_keys (stem_of false) hn h)) (dir_round h)) by reflexivity.
  rewrite (merge_dir_ok false h hn) by (auto; now rewrite with_keys_fst). cbn [rthen].
  match goal with |- match ?x with [] => _ | _ :: _ => _ end = _ => destruct x; reflexivity end.
Qed.

Definition put_delta_z (d : zone_deltas) (k : nat) (z : ezone) : ezone :=
  match aget Z.eqb (Z.of_nat k) d with
  | Some l => EZone (ez_name z) (ez_position z) (ez_top z) (ez_width z) (Some (delta_texts (sort_ppm l)))
  | None => z
  end.
Lemma mapi_length : forall A B (f : nat -> A -> B) l k, List.length (mapi k f l) = List.length l.
Proof. induction l as [|x l IH]; intros k; cbn; [reflexivity|]. now rewrite IH. Qed.
Lemma merge_deltas_ok : forall d zones, NoDup (map fst d) ->
  Forall (fun x : Z * list (Z * Z) => 0 <= fst x < Z.of_nat (List.length zones)) d ->
  res_fold merge_delta zones d = Ok (mapi 0 (put_delta_z d) zones).
Proof.
  induction d as [|[i l] d IH]; intros zones Nd F; cbn [res_fold].
  - f_equal. rewrite (mapi_ext _ _ _ (fun _ x => x)); [now rewrite mapi_id|]. reflexivity.
  - inversion F as [|? ? R F2]; subst. inversion Nd as [|? ? Ni Nd2]; subst. cbn [fst] in *.
    destruct (nth_error zones (Z.to_nat i)) as [z|] eqn:En; [|apply nth_error_None in En; lia].
    apply nth_error_split in En. destruct En as (a & b & Ez & La). subst zones. unfold merge_delta at 1. cbn [fst snd].
    replace i with (Z.of_nat (List.length a)) by lia. rewrite py_update_mid. cbn [rthen].
    set (z' := EZone _ _ _ _ _). rewrite IH.
    + f_equal. rewrite !mapi_app. cbn [mapi Nat.add]. f_equal; [|f_equal].
      * apply mapi_ext. intros j x Hj. unfold put_delta_z. cbn [aget]. assert (E : (Z.of_nat j =? Z.of_nat (List.length a)) = false) by lia. now rewrite E.
      * unfold put_delta_z. cbn [aget]. rewrite Z.eqb_refl.
        destruct (aget Z.eqb (Z.of_nat (List.length a)) d) as [l2|] eqn:E2; [|reflexivity].
        exfalso. apply Ni. apply (aget_In Z.eqb Z.eqb_eq) in E2. apply in_map_iff. eexists. split; [|exact E2]. cbn. lia.
      * apply mapi_ext. intros j x Hj. unfold put_delta_z. cbn [aget]. assert (E : (Z.of_nat j =? Z.of_nat (List.length a)) = false) by lia. now rewrite E.
    + assumption.
    + eapply Forall_impl; [|exact F2]. cbv beta. intros x. rewrite !app_length. cbn [List.length]. lia.
Qed.
Definition fzone_of (z : ezone) : fzone := FZone (ez_position z) (ez_top z) (ez_width z) (ez_deltas z).
Lemma zones_dict : forall l (d : list (pystr * fzone)), NoDup (map fst d ++ map ez_name l) ->
  fold_left (fun d z => aset str_eqb (ez_name z) (FZone (ez_position z) (ez_top z) (ez_width z) (ez_deltas z)) d) l d =
  d ++ map (fun z => (ez_name z, fzone_of z)) l.
Proof.
  induction l as [|z l IH]; intros d N; cbn [fold_left map]; [now rewrite app_nil_r|]. cbn [map] in N.
  rewrite (aset_notin str_eqb str_eqb_eq) by (apply NoDup_remove_2 in N; intros H; apply N, in_or_app; now left).
  rewrite IH; [now rewrite <- app_assoc|]. rewrite map_app, <- app_assoc. exact N.
Qed.
Lemma mapi_names : forall d l k, map ez_name (mapi k (put_delta_z d) l) = map ez_name l.
Proof.
  intros d. induction l as [|z l IH]; intros k; cbn [mapi map]; [reflexivity|]. rewrite IH. f_equal. unfold put_delta_z.
  destruct (aget Z.eqb (Z.of_nat k) d); reflexivity.
Qed.
Lemma merge_zones_ok : forall s top bottom tn bn d, x_zones s = Some (with_keys (zone_of true) tn top, with_keys (zone_of false) bn bottom) ->
  x_deltas s = Some d -> deltas_ok top bottom d -> List.length tn = List.length top -> List.length bn = List.length bottom -> NoDup (bn ++ tn) ->
  exists zones, merge_zones s = Ok zones /\ map fst zones = bn ++ tn /\
    forall k z, nth_error (bottom ++ top) k = Some z -> exists f, nth_error (map snd zones) k = Some f /\ extracted_zone bottom d k z f.
Proof.
  intros s top bottom tn bn d Ez Ed (Nd & Fd) Lt Lb N. unfold merge_zones. rewrite Ez, Ed. cbn [opt_res rthen fst snd].
  set (all := with_keys (zone_of false) bn bottom ++ with_keys (zone_of true) tn top).
  assert (La : List.length all = List.length (bottom ++ top)) by (unfold all; rewrite !app_length, !with_keys_length; auto).
  assert (Na : map ez_name all = bn ++ tn) by (unfold all; rewrite map_app, !with_keys_map by auto; reflexivity).
  rewrite merge_deltas_ok; [|assumption|eapply Forall_impl; [|exact Fd]; intros x (R & _); now rewrite La].
  cbn [rthen rmap]. rewrite zones_dict by (cbn; now rewrite mapi_names, Na). cbn [app]. eexists. split; [reflexivity|]. split; [rewrite map_map; cbn [fst]; now rewrite mapi_names, Na|].
  intros k z Hk. rewrite map_map. cbn [snd]. rewrite nth_error_map, mapi_nth. cbn [Nat.add].
  assert (Hz : exists n, nth_error all k = Some (zone_of (Nat.leb (List.length bottom) k) n z)).
  { unfold all. destruct (Nat.leb (List.length bottom) k) eqn:E; [apply Nat.leb_le in E|apply Nat.leb_gt in E].
    - rewrite nth_error_app2 in * by (rewrite ?with_keys_length; auto; lia). rewrite with_keys_length by assumption.
      assert (Hn : exists n, nth_error tn (k - List.length bottom) = Some n).
      { destruct (nth_error tn (k - List.length bottom)) as [n|] eqn:E2; [eauto|]. apply nth_error_None in E2. rewrite Lt in E2. apply nth_error_None in E2. congruence. }
      destruct Hn as (n & Hn). exists n. now apply with_keys_nth.
    - rewrite nth_error_app1 in * by (rewrite ?with_keys_length; auto; lia).
      assert (Hn : exists n, nth_error bn k = Some n).
      { destruct (nth_error bn k) as [n|] eqn:E2; [eauto|]. apply nth_error_None in E2. lia. }
      destruct Hn as (n & Hn). exists n. now apply with_keys_nth. }
  destruct Hz as (n & Hz). rewrite Hz. cbn [option_map]. eexists. split; [reflexivity|].
  unfold extracted_zone, put_delta_z. destruct (aget Z.eqb (Z.of_nat k) d) as [l|] eqn:E; cbn [fzone_of zone_of fz_position fz_top fz_width fz_deltas ez_position ez_top ez_width ez_deltas].
  - repeat (split; [reflexivity|]).
    assert (Nl : NoDup (map fst l)) by (apply (aget_In Z.eqb Z.eqb_eq) in E; rewrite Forall_forall in Fd; now apply Fd in E).
    destruct (sort_ppm_ok l Nl) as (P & S). exists (sort_ppm l). split; [assumption|]. split; [assumption|]. f_equal. apply delta_texts_ok.
    eapply Permutation_NoDup; [|exact Nl]. now apply Permutation_map, Permutation_sym.
  - auto.
Qed.

(** ** Glyphs *)
Lemma set_names_ok : forall top ks l n, List.length ks = List.length l -> 0 <= n < Z.of_nat (List.length l) ->
  exists k, aget_res Z.eqb n (set_names (with_keys (zone_of top) ks l) []) = Ok k /\ nth_error ks (Z.to_nat n) = Some k.
Proof.
  intros top ks l n L R. unfold set_names.
  assert (X : forall ks l i (d : list (Z * pystr)), List.length ks = List.length l -> (forall x, In x (map fst d) -> x < i) ->
    fold_left (fun d x => aset Z.eqb (fst x) (ez_name (snd x)) d) (number i (with_keys (zone_of top) ks l)) d = d ++ enum i ks).
  { clear. induction ks as [|k ks IH]; intros [|z l] i d L H; try discriminate; cbn [with_keys number fold_left enum]; [now rewrite app_nil_r|].
    cbn [fst snd zone_of ez_name]. rewrite aset_end by assumption. rewrite IH; [now rewrite <- app_assoc|cbn in L; lia|].
    intros x I. rewrite map_app in I. apply in_app_iff in I. destruct I as [I|[<-|[]]]; [specialize (H _ I); lia|cbn; lia]. }
  rewrite X by (auto; intros x []). cbn [app].
  destruct (nth_error ks (Z.to_nat n)) as [k|] eqn:E; [|apply nth_error_None in E; lia]. exists k. split; [|reflexivity].
  assert (Y : forall (ks : list pystr) i j k, nth_error ks j = Some k -> aget Z.eqb (i + Z.of_nat j) (enum i ks) = Some k).
  { clear. induction ks as [|x ks IH]; intros i [|j] k H; cbn [nth_error enum aget] in *; try discriminate.
    - rewrite Z.add_0_r, Z.eqb_refl. assumption.
    - assert (E : (i + Z.of_nat (S j) =? i) = false) by lia. rewrite E. replace (i + Z.of_nat (S j)) with (i + 1 + Z.of_nat j) by lia. now apply IH. }
  unfold aget_res. specialize (Y ks 0 (Z.to_nat n) k E). replace (0 + Z.of_nat (Z.to_nat n)) with n in Y by lia. rewrite Y. reflexivity.
Qed.
