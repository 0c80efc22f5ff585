(** Proofs about the font info. *)
From Coq Require Import String.
From Verif Require Import Base Lib M_Py M_Text M_TrueType M_Info M_Tth M_FontInfo S_Bits S_Info S_FontInfo
  P_Helpers P_Guides P_Info Prop_Info.
Local Open Scope list_scope.

Definition attrs_of (l : list (Z * string * pystr)) (k : Z) : list pystr :=
  map snd (filter (fun p => fst (fst p) =? k) l).
Definition plain_of (k : Z) : list pystr := attrs_of plain_attrs k.
Lemma attrs_of_in : forall l k n a, In (k, n, a) l -> In a (attrs_of l k).
Proof.
  intros l k n a H. unfold attrs_of. apply in_map_iff. exists (k, n, a). split; [reflexivity|].
  apply filter_In. split; [exact H|]. apply Z.eqb_refl.
Qed.
Lemma in_attrs_of : forall l k a, In a (attrs_of l k) -> exists n, In (k, n, a) l.
Proof.
  intros l k a H. apply in_map_iff in H. destruct H as ([[k' n] a'] & E & H). apply filter_In in H.
  destruct H as [H Q]. cbn [fst snd] in *. apply Z.eqb_eq in Q. subst k' a'. exists n. exact H.
Qed.
Lemma plain_of_in : forall k n a, In (k, n, a) plain_attrs -> In a (plain_of k).
Proof. intros k n a. exact (attrs_of_in plain_attrs k n a). Qed.
Lemma in_plain_of : forall k a, In a (plain_of k) -> exists n, In (k, n, a) plain_attrs.
Proof. intros k a. exact (in_attrs_of plain_attrs k a). Qed.
(** the keys with a case of their own *)
Definition case_keys : list Z := [1034; 1048; 1138; 1264; 1265; 1267].
Definition own_keys : list Z := [1024; 1127; 1137; 2021].

Lemma mapping_plain : forall k a, aget Z.eqb k info_mapping = Some a ->
  plain_of k = [a] /\ ~ In k case_keys.
Proof.
  assert (F : forallb (fun p => match plain_of (fst p) with [x] => str_eqb x (snd p) | _ => false end
                                && negb (existsb (Z.eqb (fst p)) case_keys)) info_mapping = true) by (vm_compute; reflexivity).
  intros k a H. apply (aget_In Z.eqb Z.eqb_eq) in H. rewrite forallb_forall in F.
  specialize (F _ H). cbn [fst snd] in F. apply andb_true_iff in F. destruct F as [F1 F2]. split.
  - destruct (plain_of k) as [|x [|y l]]; try discriminate. apply str_eqb_eq in F1. now subst x.
  - intros I. apply negb_true_iff in F2. assert (existsb (Z.eqb k) case_keys = true); [|congruence].
    apply existsb_exists. exists k. split; [exact I|apply Z.eqb_refl].
Qed.
Lemma not_mapping_plain : forall k, aget Z.eqb k info_mapping = None -> ~ In k own_keys -> plain_of k = [].
Proof.
  intros k M N. destruct (plain_of k) as [|a l] eqn:E; [reflexivity|].
  destruct (in_plain_of k a) as (n & I); [rewrite E; left; reflexivity|]. exfalso.
  assert (F : forallb (fun p => match aget Z.eqb (fst (fst p)) info_mapping with Some _ => true | None => false end
                                || existsb (Z.eqb (fst (fst p))) own_keys) plain_attrs = true) by (vm_compute; reflexivity).
  rewrite forallb_forall in F. specialize (F _ I). cbn [fst] in F. rewrite M in F. cbn [orb] in F.
  apply existsb_exists in F. destruct F as (k' & I' & Q). apply Z.eqb_eq in Q. subst k'. exact (N I').
Qed.

Lemma set_get : forall a k x (i : info), aget str_eqb a (if_attrs (setattr k x i)) =
  if str_eqb a k then Some x else aget str_eqb a (if_attrs i).
Proof. intros a k x i. cbn [setattr if_attrs]. apply (aget_aset str_eqb str_eqb_eq). Qed.
Lemma set_get_same : forall k x (i : info), aget str_eqb k (if_attrs (setattr k x i)) = Some x.
Proof. intros. rewrite set_get, str_eqb_refl. reflexivity. Qed.
Lemma set_get_other : forall a k x (i : info), a <> k ->
  aget str_eqb a (if_attrs (setattr k x i)) = aget str_eqb a (if_attrs i).
Proof. intros a k x i N. rewrite set_get. now rewrite (proj2 (str_eqb_neq _ _) N). Qed.

Lemma gasp_ok : forall l g, Forall (fun r => 0 <= gr_flags r) l ->
  Forall2 (fun r p => fst p = gr_ppem r /\ is_bit_list (gr_flags r) 0 (snd p)) l g -> gasp_records l = Ok g.
Proof.
  intros l g F H. induction H as [|r [p b] l g [E B] H IH]; [reflexivity|].
  cbn [gasp_records fst snd] in *. rewrite (binaryToIntList_is _ _ _ (Forall_inv F) B). cbn [rthen].
  rewrite (IH (Forall_inv_tail F)). cbn [rmap]. now rewrite E.
Qed.
Lemma gasp_exists : forall l, Forall (fun r => 0 <= gr_flags r) l ->
  exists g, Forall2 (fun r p => fst p = gr_ppem r /\ is_bit_list (gr_flags r) 0 (snd p)) l g.
Proof.
  induction l as [|r l IH]; intros F; [exists []; constructor|].
  destruct (IH (Forall_inv_tail F)) as (g & H).
  destruct (binaryToIntList_spec (gr_flags r) 0 (Forall_inv F)) as (b & _ & B).
  exists ((gr_ppem r, b) :: g). constructor; [split; [reflexivity|exact B]|exact H].
Qed.

(** what an entry of each kind writes *)
Lemma writes_cases : forall k d a x, writes k d a x ->
  (In a (plain_of k) /\ d = DVal x) \/
  (k = 1034 /\ a = py "postscriptIsFixedPitch" /\ exists v b, d = DVal (IInt v) /\ x = IBool b /\ (b = true <-> v <> 0)) \/
  (k = 1048 /\ a = py "openTypeOS2WeightClass" /\ exists v, d = DVal (IInt v) /\ x = IInt (weight_class v)) \/
  (k = 1138 /\ a = py "openTypeNameRecords" /\ exists l, d = DNames l /\ x = INames l) \/
  (k = 1264 /\ exists l k' v, d = DTT l /\ In (k', v) l /\ tt_sets k' v a x) \/
  (k = 1265 /\ a = py "openTypeGaspRangeRecords" /\ exists l g, d = DGasp l /\ x = IGasp g /\
     Forall2 (fun r p => fst p = gr_ppem r /\ is_bit_list (gr_flags r) 0 (snd p)) l g) \/
  (k = 1267 /\ a = py "openTypeOS2Selection" /\ exists v l, d = DVal (IInt v) /\ x = IList l /\ StronglySorted Z.lt l /\
     (forall b, In b l <-> 0 <= b /\ Z.testbit v b = true /\ b <> 0 /\ b <> 5 /\ b <> 6)) \/
  (k = 1267 /\ a = py "styleMapStyleName" /\ exists v s, d = DVal (IInt v) /\ x = IStr s /\ style_says v s).
Proof.
  intros k d a x W. destruct W as [k n a x I|v b B|v w B|l|l k' v a x I T|l g F|v l S B|v s S].
  - left. split; [exact (plain_of_in _ _ _ I)|reflexivity].
  - right; left. split; [reflexivity|]. split; [reflexivity|]. exists v, b. auto.
  - do 2 right; left. split; [reflexivity|]. split; [reflexivity|]. exists v. split; [reflexivity|].
    f_equal. unfold weight_class. lia.
  - do 3 right; left. split; [reflexivity|]. split; [reflexivity|]. exists l. auto.
  - do 4 right; left. split; [reflexivity|]. exists l, k', v. auto.
  - do 5 right; left. split; [reflexivity|]. split; [reflexivity|]. exists l, g. auto.
  - do 6 right; left. split; [reflexivity|]. split; [reflexivity|]. exists v, l. auto.
  - do 7 right. split; [reflexivity|]. split; [reflexivity|]. exists v, s. auto.
Qed.
Lemma style_of_says : forall v s, style_says v s <-> style_of v = Some s.
Proof.
  intros v s. unfold style_says, style_of.
  destruct (Z.testbit v 6), (Z.testbit v 5), (Z.testbit v 0); split; intros H;
    try (destruct H as [H|[H|[H|[H|H]]]]; decompose [and] H; try discriminate; subst; reflexivity);
    try discriminate; injection H as <-; tauto.
Qed.

Definition step_ok (k : Z) (d : fi_data) (f : info -> res info) : Prop :=
  forall i, exists i', f i = Ok i' /\
    (forall a x, writes k d a x -> aget str_eqb a (if_attrs i') = Some x) /\
    (forall a, (forall x, ~ writes k d a x) -> aget str_eqb a (if_attrs i') = aget str_eqb a (if_attrs i)).

Ltac wc H := apply writes_cases in H;
  destruct H as [[H ?]|[[? H]|[[? H]|[[? H]|[[? H]|[[? H]|[[? H]|[? H]]]]]]]]; try discriminate; try lia.

Lemma plain_one : forall k a0 v, plain_of k = [a0] -> ~ In k case_keys ->
  step_ok k (DVal v) (fun i => Ok (setattr a0 v i)).
Proof.
  intros k a0 v P N i. eexists. split; [reflexivity|].
  assert (C : k <> 1034 /\ k <> 1048 /\ k <> 1138 /\ k <> 1264 /\ k <> 1265 /\ k <> 1267).
  { repeat split; intros ->; apply N; cbn; tauto. }
  split.
  - intros a x W. wc W. rewrite P in W. destruct W as [<-|[]]. injection H as ->. apply set_get_same.
  - intros a W. apply set_get_other. intros ->. destruct (in_plain_of k a0) as (n & I); [rewrite P; left; reflexivity|].
    exact (W v (writes_plain _ _ _ _ I)).
Qed.
Lemma plain_two : forall k a0 a1 v, plain_of k = [a0; a1] -> a0 <> a1 -> ~ In k case_keys ->
  step_ok k (DVal v) (fun i => Ok (setattr a1 v (setattr a0 v i))).
Proof.
  intros k a0 a1 v P D N i. eexists. split; [reflexivity|].
  assert (C : k <> 1034 /\ k <> 1048 /\ k <> 1138 /\ k <> 1264 /\ k <> 1265 /\ k <> 1267).
  { repeat split; intros ->; apply N; cbn; tauto. }
  split.
  - intros a x W. wc W. rewrite P in W. injection H as ->. destruct W as [<-|[<-|[]]]; [|apply set_get_same].
    rewrite set_get_other by exact D. apply set_get_same.
  - intros a W. rewrite !set_get_other; [reflexivity| |]; intros ->.
    + destruct (in_plain_of k a0) as (n & I); [rewrite P; left; reflexivity|].
      exact (W v (writes_plain _ _ _ _ I)).
    + destruct (in_plain_of k a1) as (n & I); [rewrite P; right; left; reflexivity|].
      exact (W v (writes_plain _ _ _ _ I)).
Qed.
Lemma no_plain : forall k (a : pystr) (P : Prop), plain_of k = [] -> In a (plain_of k) -> P.
Proof. intros k a P E I. rewrite E in I. contradiction I. Qed.

Lemma step_of : forall minimal k d, data_ok k d -> ~ (minimal = true /\ k = 2025) ->
  step_ok k d (fun i => info_step minimal i (k, Some d)).
Proof.
  intros minimal k d (OP & O1 & O2 & O3 & O4 & O5 & O6 & _) V.
  assert (E0 : forall i, info_step minimal i (k, Some d) =
    match aget Z.eqb k info_mapping with
    | Some attr => match as_val d with Some v => Ok (setattr attr v i) | None => Err TypeError end
    | None => info_case k d i
    end).
  { intros i. unfold info_step. destruct (minimal && (k =? 2025)) eqn:Q; [|reflexivity].
    exfalso. apply V. apply andb_true_iff in Q. rewrite Z.eqb_eq in Q. exact Q. }
  assert (EXT : forall f, step_ok k d f -> (forall i, info_step minimal i (k, Some d) = f i) ->
    step_ok k d (fun i => info_step minimal i (k, Some d))).
  { intros f S Q i. rewrite Q. apply S. }
  destruct (aget Z.eqb k info_mapping) as [a0|] eqn:M.
  - destruct (mapping_plain k a0 M) as [P N].
    destruct (in_plain_of k a0) as (n & I); [rewrite P; left; reflexivity|].
    destruct (OP _ _ I) as (v & ->). apply (EXT _ (plain_one k a0 v P N)). exact E0.
  - unfold info_case in E0.
    destruct (Z.eqb_spec k 1024) as [->|K1].
    { assert (P : plain_of 1024 = [py "familyName"; py "openTypeNamePreferredFamilyName"]) by (vm_compute; reflexivity).
      destruct (in_plain_of 1024 (py "familyName")) as (n & I); [rewrite P; left; reflexivity|].
      destruct (OP _ _ I) as (v & ->). refine (EXT _ (plain_two _ _ _ v P _ _) E0); [discriminate|cbn; lia]. }
    destruct (Z.eqb_spec k 1034) as [->|K2].
    { destruct (O1 eq_refl) as (z & ->). assert (P : plain_of 1034 = []) by (vm_compute; reflexivity).
      apply (EXT (fun i => Ok (set_fixed_pitch z i))); [|exact E0]. intros i. eexists. split; [reflexivity|]. split.
      - intros a x W. wc W; try exact (no_plain _ _ _ P W). destruct W as (-> & v & b & Q & -> & B). injection Q as <-.
        unfold set_fixed_pitch. rewrite set_get_same. do 2 f_equal. destruct (Z.eqb_spec z 0) as [Z0|Z0]; destruct b; try reflexivity.
        + exfalso. apply B; auto. + symmetry. cbn. apply B. exact Z0.
      - intros a W. apply set_get_other. intros ->. apply (W (IBool (negb (z =? 0)))). constructor. lia. }
    destruct (Z.eqb_spec k 1048) as [->|K3].
    { destruct (O2 eq_refl) as (z & ->). assert (P : plain_of 1048 = []) by (vm_compute; reflexivity).
      apply (EXT (fun i => Ok (set_weight_class z i))); [|exact E0]. intros i. eexists. split; [reflexivity|]. split.
      - intros a x W. wc W; try exact (no_plain _ _ _ P W). destruct W as (-> & v & Q & ->). injection Q as <-.
        apply set_get_same.
      - intros a W. apply set_get_other. intros ->. apply (W (IInt (weight_class z))). constructor. unfold weight_class. lia. }
    destruct (Z.eqb_spec k 1127) as [->|K4].
    { assert (P : plain_of 1127 = [py "postscriptWeightName"]) by (vm_compute; reflexivity).
      destruct (in_plain_of 1127 (py "postscriptWeightName")) as (n & I); [rewrite P; left; reflexivity|].
      destruct (OP _ _ I) as (v & ->). refine (EXT _ (plain_one _ _ v P _) E0); cbn; lia. }
    destruct (Z.eqb_spec k 1137) as [->|K5].
    { assert (P : plain_of 1137 = [py "styleName"; py "openTypeNamePreferredSubfamilyName"]) by (vm_compute; reflexivity).
      destruct (in_plain_of 1137 (py "styleName")) as (n & I); [rewrite P; left; reflexivity|].
      destruct (OP _ _ I) as (v & ->). refine (EXT _ (plain_two _ _ _ v P _ _) E0); [discriminate|cbn; lia]. }
    destruct (Z.eqb_spec k 1138) as [->|K6].
    { destruct (O4 eq_refl) as (l & ->). assert (P : plain_of 1138 = []) by (vm_compute; reflexivity).
      apply (EXT (fun i => Ok (setattr (py "openTypeNameRecords") (INames l) i))); [|exact E0]. intros i. eexists. split; [reflexivity|]. split.
      - intros a x W. wc W; try exact (no_plain _ _ _ P W). destruct W as (-> & l' & Q & ->). injection Q as <-.
        apply set_get_same.
      - intros a W. apply set_get_other. intros ->. apply (W (INames l)). constructor. }
    destruct (Z.eqb_spec k 1264) as [->|K7].
    { destruct (O5 eq_refl) as (l & -> & ND & F). assert (P : plain_of 1264 = []) by (vm_compute; reflexivity).
      apply (EXT (fun i => set_tt_info i l)); [|exact E0]. intros i.
      destruct (C55_tt_info l i ND F) as (i' & E & S & K & _). exists i'. split; [exact E|]. split.
      - intros a x W. wc W; try exact (no_plain _ _ _ P W). destruct W as (l' & k' & v & Q & I & T). injection Q as <-.
        exact (S _ _ _ _ I T).
      - intros a W. apply K. intros k' v x I T. exact (W x (writes_tt _ _ _ _ _ I T)). }
    destruct (Z.eqb_spec k 1265) as [->|K8].
    { destruct (O6 eq_refl) as (l & -> & F). assert (P : plain_of 1265 = []) by (vm_compute; reflexivity).
      destruct (gasp_exists l F) as (g & G).
      apply (EXT (fun i => set_tt_gasp l i)); [|exact E0]. intros i. unfold set_tt_gasp. rewrite (gasp_ok l g F G).
      eexists. split; [reflexivity|]. split.
      - intros a x W. wc W; try exact (no_plain _ _ _ P W). destruct W as (-> & l' & g' & Q & -> & G'). injection Q as <-.
        rewrite set_get_same. pose proof (gasp_ok l g' F G') as H1. rewrite (gasp_ok l g F G) in H1. apply Ok_inj in H1. now subst g'.
      - intros a W. apply set_get_other. intros ->. apply (W (IGasp g)). constructor. exact G. }
    destruct (Z.eqb_spec k 1267) as [->|K9].
    { destruct (O3 eq_refl) as (z & -> & Hz). assert (P : plain_of 1267 = []) by (vm_compute; reflexivity).
      apply (EXT (fun i => set_selection z i)); [|exact E0]. intros i.
      destruct (C55_selection z i Hz) as (i' & l & E & S1 & S2 & S3 & S4 & S5 & _). exists i'. split; [exact E|]. split.
      - intros a x W. wc W; try exact (no_plain _ _ _ P W).
        + destruct W as (-> & v & l' & Q & -> & S' & B'). injection Q as <-. rewrite S1. do 2 f_equal.
          apply sorted_ext; [exact S2|exact S'|]. intros b. rewrite S3, B'. tauto.
        + destruct W as (-> & v & s & Q & -> & S'). injection Q as <-. apply style_of_says in S'. rewrite S4, S'. reflexivity.
      - intros a W. destruct (str_eqb a (py "openTypeOS2Selection")) eqn:A1.
        + apply str_eqb_eq in A1. subst a. exfalso. apply (W (IList l)). constructor; assumption.
        + destruct (str_eqb a (py "styleMapStyleName")) eqn:A2.
          * apply str_eqb_eq in A2. subst a. rewrite S4. destruct (style_of z) as [s|] eqn:St; [|reflexivity].
            exfalso. apply (W (IStr s)). constructor. apply style_of_says. exact St.
          * apply S5; apply str_eqb_neq; assumption. }
    destruct (Z.eqb_spec k 2021) as [->|K10].
    { assert (P : plain_of 2021 = [py "openTypeOS2UnicodeRanges"]) by (vm_compute; reflexivity).
      destruct (in_plain_of 2021 (py "openTypeOS2UnicodeRanges")) as (n & I); [rewrite P; left; reflexivity|].
      destruct (OP _ _ I) as (v & ->). refine (EXT _ (plain_one _ _ v P _) E0); cbn; lia. }
    apply (EXT (fun i => Ok i)); [|exact E0]. intros i. exists i. split; [reflexivity|]. split; [|reflexivity].
    intros a x W. wc W. assert (P : plain_of k = []).
    { apply not_mapping_plain; [exact M|]. cbn. lia. }
    exact (no_plain _ _ _ P W).
Qed.

(** which kind of entry an attribute belongs to *)
Definition owned : list (pystr * Z) :=
  map (fun p => (snd p, fst (fst p))) plain_attrs
  ++ [(py "postscriptIsFixedPitch", 1034); (py "openTypeOS2WeightClass", 1048); (py "openTypeNameRecords", 1138);
      (py "openTypeGaspRangeRecords", 1265); (py "openTypeOS2Selection", 1267); (py "styleMapStyleName", 1267)]
  ++ map (fun p => (snd p, 1264)) tt_int_attrs
  ++ [(py "openTypeHeadCreated", 1264); (py "openTypeOS2Type", 1264); (py "openTypeOS2FamilyClass", 1264);
      (py "postscriptNominalWidthX", 1264); (py "openTypeHeadFlags", 1264); (py "openTypeOS2CodePageRanges", 1264)].
Lemma in_mid : forall A (x : A) l1 l2 l3 l4, In x l2 -> In x (l1 ++ l2 ++ l3 ++ l4).
Proof. intros. rewrite !in_app_iff. tauto. Qed.
Lemma in_third : forall A (x : A) l1 l2 l3 l4, In x l3 -> In x (l1 ++ l2 ++ l3 ++ l4).
Proof. intros. rewrite !in_app_iff. tauto. Qed.
Lemma in_fourth : forall A (x : A) l1 l2 l3 l4, In x l4 -> In x (l1 ++ l2 ++ l3 ++ l4).
Proof. intros. rewrite !in_app_iff. tauto. Qed.
Lemma writes_owned : forall k d a x, writes k d a x -> In (a, k) owned.
Proof.
  intros k d a x W. unfold owned.
  destruct W as [k n a x I|v b B|v w B|l|l k' v a x I T|l g F|v l S B|v s S];
    [apply in_or_app; left; apply in_map_iff; exists (k, n, a); split; [reflexivity|exact I]| | | | | | |];
    try (apply in_mid; cbn [In]; tauto).
  destruct T; try (apply in_fourth; cbn [In]; tauto).
  apply in_third. apply in_map_iff. eexists. split; [|eassumption]. reflexivity.
Qed.
Lemma nodup_fst : forall A B (l : list (A * B)) a b b', NoDup (map fst l) -> In (a, b) l -> In (a, b') l -> b = b'.
Proof.
  intros A B l a b b' N. induction l as [|[x y] l IH]; [contradiction|]. cbn [map fst In] in *. inversion N as [|? ? N1 N2]; subst.
  intros [E|I] [E'|I'].
  - injection E as -> ->. now injection E' as ->.
  - injection E as -> ->. destruct N1. apply in_map_iff. exists (a, b'). auto.
  - injection E' as -> ->. destruct N1. apply in_map_iff. exists (a, b). auto.
  - auto.
Qed.
Lemma owned_nodup : NoDup (map fst owned).
Proof. apply nodupb_spec. vm_compute. reflexivity. Qed.
Lemma own_key : forall k d k' d' a x x', writes k d a x -> writes k' d' a x' -> k = k'.
Proof.
  intros k d k' d' a x x' W W'. apply (nodup_fst _ _ owned a k k' owned_nodup); eapply writes_owned; eassumption.
Qed.

(** the loop over the entries *)
Definition loop_says (minimal : bool) (i0 : info) (es : list fi_entry) (a : pystr) (v : option info_val) : Prop :=
  (exists pre e post x, es = pre ++ e :: post /\ entry_writes minimal e a x /\ v = Some x /\
     forall e' x', In e' post -> ~ entry_writes minimal e' a x') \/
  ((forall e x, In e es -> ~ entry_writes minimal e a x) /\ v = aget str_eqb a (if_attrs i0)).
Lemma entry_step : forall minimal i e, entry_data_ok e -> exists i', info_step minimal i e = Ok i' /\
  (forall a x, entry_writes minimal e a x -> aget str_eqb a (if_attrs i') = Some x) /\
  (forall a, (forall x, ~ entry_writes minimal e a x) -> aget str_eqb a (if_attrs i') = aget str_eqb a (if_attrs i)).
Proof.
  intros minimal i [k [d|]] O.
  - destruct (minimal && (k =? 2025)) eqn:Q.
    + exists i. unfold info_step. rewrite Q. apply andb_true_iff in Q. rewrite Z.eqb_eq in Q.
      split; [reflexivity|]. split; [|reflexivity]. intros a x (k' & d' & [E V] & _). injection E as <- <-. contradiction.
    + assert (V : ~ (minimal = true /\ k = 2025)).
      { intros [-> ->]. discriminate Q. }
      destruct (step_of minimal k d (O d eq_refl) V i) as (i' & E & S & K). exists i'. split; [exact E|]. split.
      * intros a x (k' & d' & [E' _] & W). injection E' as <- <-. exact (S _ _ W).
      * intros a W. apply K. intros x X. apply (W x). exists k, d. repeat split; assumption.
  - exists i. split; [unfold info_step; destruct (minimal && (k =? 2025)); reflexivity|]. split; [|reflexivity].
    intros a x (k' & d' & [E _] & _). discriminate E.
Qed.
Lemma loop_ok : forall minimal es i0, Forall entry_data_ok es ->
  exists i, res_fold (info_step minimal) i0 es = Ok i /\
    forall a v, loop_says minimal i0 es a v -> aget str_eqb a (if_attrs i) = v.
Proof.
  intros minimal es. induction es as [|e es IH]; intros i0 F.
  - exists i0. split; [reflexivity|]. intros a v [(pre & e & post & x & E & _)|[_ ->]]; [|reflexivity].
    destruct pre; discriminate E.
  - destruct (entry_step minimal i0 e (Forall_inv F)) as (i1 & E1 & S1 & K1).
    destruct (IH i1 (Forall_inv_tail F)) as (i & E & S). exists i. cbn [res_fold]. rewrite E1. cbn [rthen].
    split; [exact E|]. intros a v [(pre & e' & post & x & Q & W & -> & N)|[N ->]].
    + destruct pre as [|e0 pre]; cbn [app] in Q; injection Q as <- ->.
      * apply S. right. split; [intros; apply N; assumption|]. symmetry. exact (S1 _ _ W).
      * apply S. left. exists pre, e', post, x. auto.
    + apply S. right. split; [intros e' x I; apply N; right; exact I|].
      symmetry. apply K1. intros x. apply N. left. reflexivity.
Qed.
(** the two numbers of the underline are integers *)
Lemma underline_int : forall minimal a, a = py "postscriptUnderlinePosition" \/ a = py "postscriptUnderlineThickness" ->
  forall es i0 i, Forall entry_data_ok es ->
  (exists z, aget str_eqb a (if_attrs i0) = Some (IInt z)) -> res_fold (info_step minimal) i0 es = Ok i ->
  exists z, aget str_eqb a (if_attrs i) = Some (IInt z).
Proof.
  intros minimal a A es. induction es as [|e es IH]; intros i0 i F H E.
  - cbn [res_fold] in E. apply Ok_inj in E. now subst i.
  - cbn [res_fold] in E. destruct (entry_step minimal i0 e (Forall_inv F)) as (i1 & E1 & S1 & K1).
    rewrite E1 in E. cbn [rthen] in E. refine (IH _ _ (Forall_inv_tail F) _ E).
    destruct e as [k [d|]]; [|rewrite K1; [exact H|intros x (k' & d' & [Q _] & _); discriminate Q]].
    destruct (minimal && (k =? 2025)) eqn:Q.
    { apply andb_true_iff in Q. rewrite Z.eqb_eq in Q. rewrite K1; [exact H|].
      intros x (k' & d' & [Q' V] & _). injection Q' as <- <-. contradiction. }
    set (k0 := if str_eqb a (py "postscriptUnderlinePosition") then 1030 else 1031).
    assert (I : forall x, writes k0 (DVal x) a x).
    { intros x. unfold k0. destruct A as [-> | ->].
      - apply (writes_plain 1030 "underline_position"). apply (nth_error_In plain_attrs 5). vm_compute. reflexivity.
      - apply (writes_plain 1031 "underline_thickness"). apply (nth_error_In plain_attrs 6). vm_compute. reflexivity. }
    destruct (Z.eq_dec k k0) as [->|N].
    + destruct (Forall_inv F d eq_refl) as (_ & _ & _ & _ & _ & _ & _ & O).
      destruct O as (z & ->); [unfold k0; destruct A as [-> | ->]; [left|right]; reflexivity|].
      exists z. apply S1. exists k0, (DVal (IInt z)). split; [|apply I]. split; [reflexivity|].
      unfold k0. destruct (str_eqb _ _); lia.
    + rewrite K1; [exact H|]. intros x (k' & d' & [Q' V] & W). injection Q' as <- <-. apply N.
      exact (own_key _ _ _ _ _ _ _ W (I x)).
Qed.

Lemma info_val_dec : forall x y : info_val, {x = y} + {x <> y}.
Proof.
  assert (LZ : forall x y : list Z, {x = y} + {x <> y}) by (decide equality; apply Z.eq_dec).
  assert (NR : forall x y : name_record, {x = y} + {x <> y}) by (decide equality; try apply Z.eq_dec; apply LZ).
  assert (GP : forall x y : Z * list Z, {x = y} + {x <> y}) by (decide equality; apply Z.eq_dec).
  assert (DP : forall x y : pystr * Z, {x = y} + {x <> y}) by (decide equality; apply Z.eq_dec).
  decide equality; try apply Z.eq_dec; try apply LZ; try apply Bool.bool_dec; apply list_eq_dec; assumption.
Qed.
