(** C45, C46, C47: groups and kerning of the UFO. *)
From Coq Require Import String ZifyBool.
From Verif Require Import Base M_Py M_Text M_Groups S_Groups Lib P_Groups P_Groups2 P_Kerning.
Local Open Scope list_scope.

Definition ufo_groups_of (gs : groups) : groups := fst (fst (build_glyph_to_group_maps gs)).

Section Side.
  Variable s : Z.
  Hypothesis Hs : s = 1 \/ s = 2.

  Lemma side_members : forall gs, NoDup (map fst gs) -> forall n gl, side_p s n ->
    In (n, gl) (rebuilt gs) ->
    gl <> [] /\ NoDup gl /\ (forall g, In g gl <-> first_of (side_p s) gs g n) /\
    exists gl0, In (n, gl0) gs /\ left_out gl gl0.
  Proof.
    intros gs ND n gl Sn I. apply sideb_spec in Sn.
    assert (L : gl <> []).
    { intros ->. unfold rebuilt in I. rewrite !in_app_iff, filter_In in I. cbn [fst] in I.
      unfold nonempty in I. rewrite !filter_In in I. cbn [snd] in I.
      assert (kern n = true).
      { unfold sideb in Sn. destruct (s =? 1); [now apply side1_kern|now apply side2_kern]. }
      destruct I as [[_ K]|[[_ K]|[_ K]]]; [rewrite H in K| |]; discriminate. }
    assert (O : In (n, gl) (own (sideb s) gs [])) by (apply own_rebuilt; auto).
    apply own_In in O. destruct O as (b & gl0 & a & seen & E & _ & El & Hseen).
    split; [assumption|]. split; [subst gl; apply news_nodup|]. split.
    - intros g. rewrite El, news_In, Hseen. unfold first_of, seen_in. split.
      + intros [I1 I2]. exists b, gl0, a. split; [assumption|]. split; [now apply sideb_spec|]. split; [assumption|].
        intros m gm Im Sm Ig. apply I2. right. exists m, gm. repeat split; auto. now apply sideb_spec.
      + intros (b' & gl' & a' & E' & S' & I' & K').
        assert (In (n, gl') gs) by (rewrite E'; apply in_or_app; right; now left).
        assert (In (n, gl0) gs) by (rewrite E; apply in_or_app; right; now left).
        assert (gl' = gl0) by (eapply unique_key; eauto). subst gl'.
        assert (b' = b).
        { rewrite E in E'. revert E'. rewrite E in ND. clear - ND. revert b'.
          induction b as [|[k v] b IH]; intros [|[k' v'] b'] E'; cbn in *; auto.
          - injection E' as <- <- ->. exfalso. apply NoDup_cons_iff in ND. apply ND.
            rewrite map_app, in_app_iff. right. now left.
          - injection E' as -> -> <-. exfalso. apply NoDup_cons_iff in ND. apply ND.
            rewrite map_app, in_app_iff. right. now left.
          - injection E' as <- <- E'. f_equal. apply IH; [|assumption]. now apply NoDup_cons_iff in ND. }
        subst b'. split; [assumption|]. intros [[]|(m & gm & Im & Sm & Ig)].
        eapply K'; eauto. now apply sideb_spec.
    - exists gl0. split; [rewrite E; apply in_or_app; right; now left|]. subst gl. apply news_left_out.
  Qed.

  Lemma side_present : forall gs, NoDup (map fst gs) -> forall g n, first_of (side_p s) gs g n ->
    exists gl, In (n, gl) (rebuilt gs) /\ In g gl.
  Proof.
    intros gs ND g n (b & gl0 & a & E & Sn & Ig & K).
    assert (NS : forall g0 : pystr, In g0 (flat_map (fun p => if sideb s (fst p) then snd p else []) b) <->
                   In g0 [] \/ seen_in (sideb s) b g0).
    { intros h. rewrite in_flat_map. unfold seen_in. split.
      - intros ([m gm] & I & H). cbn [fst snd] in H. destruct (sideb s m) eqn:S; [|destruct H]. right.
        exists m, gm. auto.
      - intros [[]|(m & gm & I & S & H)]. exists (m, gm). cbn [fst snd]. rewrite S. auto. }
    set (seen := flat_map (fun p => if sideb s (fst p) then snd p else []) b) in *.
    exists (news gl0 seen).
    assert (In g (news gl0 seen)).
    { apply news_In. split; [assumption|]. rewrite NS. intros [[]|(m & gm & I & S & H)].
      eapply K; eauto. now apply sideb_spec. }
    split; [|assumption].
    apply (own_rebuilt s gs n (news gl0 seen) Hs).
    - intros Z. rewrite Z in H. destruct H.
    - apply own_In. exists b, gl0, a, seen. repeat split; auto.
      + now apply sideb_spec.
      + apply NS.
      + apply NS.
  Qed.

  (** a group that shares no glyph with an earlier one is kept as it is *)
  Lemma side_kept : forall gs, NoDup (map fst gs) -> forall b n gl a, gs = b ++ (n, gl) :: a ->
    side_p s n -> gl <> [] -> NoDup gl ->
    (forall m gm g, In (m, gm) b -> side_p s m -> In g gm -> ~ In g gl) ->
    In (n, gl) (rebuilt gs).
  Proof.
    intros gs ND b n gl a E Sn L N K.
    apply (own_rebuilt s gs n gl Hs L). apply own_In.
    exists b, gl, a, (flat_map (fun p => if sideb s (fst p) then snd p else []) b).
    split; [assumption|]. split; [now apply sideb_spec|]. split.
    - symmetry. apply news_all; [assumption|]. intros g Ig H. apply in_flat_map in H.
      destruct H as ([m gm] & I & H). cbn [fst snd] in H. destruct (sideb s m) eqn:S; [|destruct H].
      eapply K; eauto. now apply sideb_spec.
    - intros h. rewrite in_flat_map. unfold seen_in. split.
      + intros ([m gm] & I & H). cbn [fst snd] in H. destruct (sideb s m) eqn:S; [|destruct H]. right.
        exists m, gm. auto.
      + intros [[]|(m & gm & I & S & H)]. exists (m, gm). cbn [fst snd]. rewrite S. auto.
  Qed.
End Side.

(** ** C45: kerning groups are disjoint per side, the first group wins.
    For the groups of any VFB: in the groups of the UFO, the members of a kerning group are exactly
    the glyphs of which it is the first group of its side, once each and in their order; every glyph
    that is in a kerning group of a side stays in one; other groups are not changed. *)
Theorem C45_groups : forall gs, NoDup (map fst gs) -> let out := ufo_groups_of gs in
  NoDup (map fst out) /\
  (forall side, side = first_side \/ side = second_side ->
    (forall n gl, side n -> In (n, gl) out ->
       gl <> [] /\ NoDup gl /\ (forall g, In g gl <-> first_of side gs g n) /\
       exists gl0, In (n, gl0) gs /\ left_out gl gl0) /\
    (forall g n, first_of side gs g n -> exists gl, In (n, gl) out /\ In g gl) /\
    (forall before n gl after, gs = before ++ (n, gl) :: after -> side n -> gl <> [] -> NoDup gl ->
       (forall m gm g, In (m, gm) before -> side m -> In g gm -> ~ In g gl) -> In (n, gl) out)) /\
  (forall n gl, ~ kerning_name n -> (In (n, gl) out <-> In (n, gl) gs)) /\
  (forall n, In n (map fst out) -> kerning_name n -> first_side n \/ second_side n).
Proof.
  intros gs ND out. unfold out, ufo_groups_of. rewrite maps_rebuilt by assumption. cbn [fst].
  split; [now apply rebuilt_nodup|]. split.
  - intros side [->| ->].
    + split; [exact (side_members 1 (or_introl eq_refl) gs ND)|].
      split; [exact (side_present 1 (or_introl eq_refl) gs ND)|exact (side_kept 1 (or_introl eq_refl) gs ND)].
    + split; [exact (side_members 2 (or_intror eq_refl) gs ND)|].
      split; [exact (side_present 2 (or_intror eq_refl) gs ND)|exact (side_kept 2 (or_intror eq_refl) gs ND)].
  - assert (SD : forall side n l, In (n, l) (nonempty (own side gs [])) -> side n = true).
    { intros side n l H. apply (in_map fst) in H. apply nonempty_keys in H. rewrite own_keys in H.
      now apply filter_In in H. }
    split.
    + intros n gl K. unfold rebuilt. rewrite !in_app_iff, filter_In. cbn [fst].
      assert (Kn : kern n = false).
      { destruct (kern n) eqn:E; [|reflexivity]. elim K. now apply kern_spec. }
      split.
      * intros [[H _]|[H|H]]; [assumption| |]; apply SD in H; [apply side1_kern in H|apply side2_kern in H]; congruence.
      * intros H. left. rewrite Kn. auto.
    + intros n H K. apply in_map_iff in H. destruct H as ([m l] & E & H). cbn in E. subst m.
      unfold rebuilt in H. rewrite !in_app_iff, filter_In in H. cbn [fst] in H.
      destruct H as [[_ H]|[H|H]].
      * apply kern_spec in K. rewrite K in H. discriminate.
      * left. apply side1_spec. eapply SD; eauto.
      * right. apply side2_spec. eapply SD; eauto.
Qed.

(** In the exported UFO no glyph is in two kerning groups of a side. *)
Theorem C45_disjoint : forall gs flags order minimal kerning k,
  export_kerning gs flags order minimal kerning = Ok k ->
  forall side, side = first_side \/ side = second_side ->
  forall n m gn gm g, side n -> side m -> In (n, gn) (uk_groups k) -> In (m, gm) (uk_groups k) ->
    In g gn -> In g gm -> n = m.
Proof.
  intros gs flags order minimal kerning k E side Hside n m gn gm g Sn Sm In1 In2 G1 G2.
  unfold export_kerning in E. destruct (transform_groups gs flags order minimal) as [st|] eqn:T; [|discriminate].
  cbn [rthen] in E. unfold new_ufo_kerning in E.
  assert (ND : NoDup (map fst (tg_groups st))).
  { eapply transform_groups_nodup; [exact T|constructor]. }
  assert (U : uk_groups k = ufo_groups_of (tg_groups st)).
  { unfold ufo_groups_of. destruct (build_glyph_to_group_maps (tg_groups st)) as [[a b] c].
    destruct (make_name_based_kerning _ _ _ _ _); [|discriminate]. cbn in E. injection E as <-. reflexivity. }
  rewrite U in *. destruct (C45_groups _ ND) as (_ & H & _). destruct (H side Hside) as (M & _ & _).
  apply (M _ _ Sn In1) in G1. apply (M _ _ Sm In2) in G2.
  destruct G1 as (b & gl & a & E1 & _ & I1 & K1), G2 as (b' & gl' & a' & E2 & _ & I2 & K2).
  rewrite E1 in E2. revert E2 K1 K2. clear - I1 I2 Sn Sm. revert b'. induction b as [|p b IH]; intros [|q b'] E2 K1 K2; cbn in E2.
  - congruence.
  - injection E2 as <- E2. exfalso. eapply K2; [left; reflexivity| |]; assumption.
  - injection E2 as -> E2. exfalso. eapply K1; [left; reflexivity| |]; assumption.
  - injection E2 as <- E2. eapply IH; [exact E2| |].
    + intros x y Hx. apply K1. now right.
    + intros x y Hx. apply K2. now right.
Qed.

Definition ex_groups : groups :=
  [(py "public.kern1._A", [py "A"; py "Agrave"; py "A"]); (py "caps", [py "A"; py "B"]);
   (py "public.kern1._X", [py "Agrave"; py "X"]); (py "public.kern1._Y", [py "X"])].
Example C45_ex : ufo_groups_of ex_groups =
  [(py "caps", [py "A"; py "B"]); (py "public.kern1._A", [py "A"; py "Agrave"]);
   (py "public.kern1._X", [py "X"])].
Proof. vm_compute. reflexivity. Qed.
Example C45_hyp : NoDup (map fst ex_groups).
Proof. repeat constructor; cbn; intuition discriminate. Qed.

(** ** C46: what becomes of the classes.
    The groups, their order and their key glyphs, exactly, for classes with distinct names that do
    not look like UFO kerning groups already. *)
Theorem C46_classes : forall cs flags order skip,
  Forall wf_class cs -> NoDup (map cl_name cs) -> Forall (fun p => snd p <> []) flags ->
  exists st, transform_groups (map class_entry cs) flags order skip = Ok st /\
    tg_groups st = exported_groups flags order skip cs /\
    tg_order st = map fst (exported_groups flags order skip cs) /\
    tg_keys st = exported_keys flags order cs.
Proof.
  intros cs flags order skip W ND F. eexists. split.
  - unfold transform_groups. apply transform_all; try assumption. intros n _. split; intros [].
  - repeat split; reflexivity.
Qed.

(** In words: with [skip], the members of a UFO group that comes from a class with glyphs in the
    font are the glyphs of the class that are in the font, key glyph first. *)
Theorem C46_members_partial : forall cs flags order c n,
  Forall wf_class cs -> NoDup (map cl_name cs) -> Forall (fun p => snd p <> []) flags ->
  In c cs -> In n (group_names flags c) -> existing order (glyphs_of c) <> [] ->
  exists st, transform_groups (map class_entry cs) flags order true = Ok st /\
    In (n, existing order (glyphs_of c)) (tg_groups st).
Proof.
  intros cs flags order c n W ND F Ic In1 E.
  destruct (C46_classes cs flags order true W ND F) as (st & T & G & _). exists st. split; [assumption|].
  rewrite G. unfold exported_groups. apply in_flat_map. exists c. split; [assumption|].
  apply in_map_iff. exists n. split; [|assumption]. unfold exported_glyphs.
  destruct (existing order (glyphs_of c)); [congruence|reflexivity].
Qed.

(** A class without a glyph in the font is not omitted: the group is there with the missing glyphs. *)
Theorem C46_empty_refuted : exists cs flags order st n,
  Forall wf_class cs /\ NoDup (map cl_name cs) /\
  transform_groups (map class_entry cs) flags order true = Ok st /\
  In (n, [py "B"; py "C"]) (tg_groups st) /\ ~ In (py "B") order /\ ~ In (py "C") order.
Proof.
  exists [mkClass (py "c") [(py "B", false); (py "C", false)]], [], [py "A"].
  eexists. exists (py "c"). split; [|split; [|split; [vm_compute; reflexivity|]]].
  - constructor; [|constructor]. split.
    + repeat apply Forall_cons; try apply Forall_nil; (split; [discriminate|]; split;
        [intros s; discriminate|intros s E; destruct s as [|x [|y s]]; discriminate]).
    + intros [s E]. discriminate.
  - repeat constructor. intros [].
  - cbn. intuition discriminate.
Qed.

Example C46_ex : exists st,
  transform_groups [(py "_A", [py "Agrave"; py "A'"; py "Aacute"]); (py "sc", [py "a"; py "b"])]
    [(py "_A", [3072; 0])] [py "A"; py "Agrave"; py "b"] true = Ok st /\
  tg_groups st = [(py "public.kern1._A", [py "A"; py "Agrave"]); (py "public.kern2._A", [py "A"; py "Agrave"]);
                  (py "sc", [py "b"])] /\
  tg_keys st = [(py "public.kern1._A", py "A"); (py "public.kern2._A", py "A")].
Proof. eexists. split; [vm_compute; reflexivity|]. split; reflexivity. Qed.
Example C46_hyp : wf_class (mkClass (py "_A") [(py "Agrave", false); (py "A", true); (py "Aacute", false)]).
Proof.
  split.
  - repeat apply Forall_cons; try apply Forall_nil; (split; [discriminate|]; split;
      [intros s; discriminate|intros s E; cbn in E; do 8 (destruct s as [|? s]; [discriminate|try discriminate])]).
  - intros [s E]. discriminate.
Qed.

(** ** C47: kerning values.
    The kerning of a master has every pair of the VFB once, under the names of the groups whose key
    glyphs they are, with the value for the master, except zeros that are no exceptions; and nothing
    else. Needed: glyph names are distinct and do not look like kerning groups. *)
Theorem C47_kerning : forall gs flags order minimal kerning st m,
  transform_groups gs flags order minimal = Ok st ->
  NoDup order -> Forall (fun g => ~ kerning_name g) order -> NoDup (map fst kerning) ->
  Forall (fun p => ~ kerning_name (fst (fst p)) /\ 0 <= snd (fst p) < Z.of_nat (List.length order) /\
                   0 <= m < Z.of_nat (List.length (snd p))) kerning ->
  exists k K, export_kerning gs flags order minimal kerning = Ok k /\
    get_master_kerning k m = Ok K /\ NoDup (map fst K) /\
    forall left right v, In ((left, right), v) K <->
      exists L rid R values, In ((L, rid), values) kerning /\
        nth_error order (Z.to_nat rid) = Some R /\
        kerned_as first_side (tg_keys st) (uk_groups k) L left /\
        kerned_as second_side (tg_keys st) (uk_groups k) R right /\
        nth_error values (Z.to_nat m) = Some v /\
        (v <> 0 \/ excepted first_side (tg_keys st) (uk_groups k) left \/
                   excepted second_side (tg_keys st) (uk_groups k) right).
Proof.
  intros gs flags order minimal kerning st m T NO KO NK F.
  assert (NDg : NoDup (map fst (tg_groups st))) by (eapply transform_groups_nodup; [exact T|constructor]).
  assert (NDk : NoDup (map fst (tg_keys st))) by (eapply transform_keys_nodup; [exact T|constructor]).
  unfold export_kerning. rewrite T. cbn [rthen]. unfold new_ufo_kerning.
  rewrite maps_rebuilt by assumption.
  set (G := rebuilt (tg_groups st)). set (R := reverse_key_glyphs (tg_keys st)).
  assert (F' : Forall (fun p : (pystr * Z) * list Z => ~ kerning_name (fst (fst p)) /\
                    0 <= snd (fst p) < Z.of_nat (List.length order)) kerning).
  { eapply Forall_impl; [|exact F]. cbv beta. tauto. }
  assert (NN : NoDup (map fst (map (named order R G) kerning))) by (apply named_nodup; assumption).
  rewrite make_named; [| |exact NN].
  2:{ eapply Forall_impl; [|exact F]. cbv beta. tauto. }
  cbn [rmap app].
  set (k := mkUK G (flat (own side1 (tg_groups st) [])) (flat (own side2 (tg_groups st) [])) R (map (named order R G) kerning)).
  exists k, (map (at_master m) (filter (keep k m) (map (named order R G) kerning))).
  split; [reflexivity|].
  assert (E : get_master_kerning k m = Ok (map (at_master m) (filter (keep k m) (map (named order R G) kerning)))).
  { unfold get_master_kerning. rewrite master_kept; [reflexivity| |exact NN].
    cbn [uk_kerning k]. apply Forall_forall. intros q Hq. apply in_map_iff in Hq. destruct Hq as (p & <- & Hp).
    rewrite Forall_forall in F. apply F in Hp. unfold named. cbn [snd]. tauto. }
  split; [exact E|]. split.
  { rewrite map_map. cbn [at_master fst]. 
    assert (forall A B (f : A * B -> bool) l, NoDup (map fst l) -> NoDup (map fst (filter f l))) as NF.
    { clear. induction l as [|p l IH]; intros H; [constructor|]. cbn [map] in H. apply NoDup_cons_iff in H.
      cbn [filter]. destruct (f p); [|now apply IH]. cbn [map]. constructor; [|now apply IH].
      intro I. apply H. apply in_map_iff in I. destruct I as (q & Eq & I). apply filter_In in I.
      apply in_map_iff. exists q. tauto. }
    apply NF. exact NN. }
  intros left right v.
  assert (X : forall l r, is_exception k l r = true <->
    excepted first_side (tg_keys st) G l \/ excepted second_side (tg_keys st) G r).
  { intros l r. unfold is_exception. cbn [k uk_keys uk_group_1 uk_group_2].
    fold (is_keyb 1 R (flat (own side1 (tg_groups st) [])) l).
    fold (is_keyb 2 R (flat (own side2 (tg_groups st) [])) r).
    rewrite negb_true_iff, andb_false_iff.
    apply Morphisms_Prop.or_iff_morphism.
    - apply (is_keyb_spec 1 (tg_keys st) (tg_groups st) l). now left.
    - apply (is_keyb_spec 2 (tg_keys st) (tg_groups st) r). now right. }
  cbn [k uk_groups]. rewrite in_map_iff. split.
  - intros (q & Eq & Iq). apply filter_In in Iq. destruct Iq as [Iq Kq]. apply in_map_iff in Iq.
    destruct Iq as ([[L rid] values] & <- & Ip).
    rewrite Forall_forall in F. destruct (F _ Ip) as (F1 & F2 & F3). cbn [fst snd] in *.
    unfold at_master, named in Eq. cbn [fst snd] in Eq. injection Eq as <- <- <-.
    exists L, rid, (nth (Z.to_nat rid) order []), values. split; [assumption|].
    split; [apply nth_error_nth'; lia|].
    split; [apply (kerned_as_iff 1); [now left|reflexivity]|].
    split; [apply (kerned_as_iff 2); [now right|reflexivity]|].
    split; [apply nth_error_nth'; lia|].
    unfold keep, named in Kq. cbn [fst snd] in Kq. apply orb_true_iff in Kq. destruct Kq as [Kq|Kq].
    + left. lia.
    + right. now apply X.
  - intros (L & rid & Rn & values & Ip & ER & HL & HR & EV & HK).
    exists (named order R G ((L, rid), values)).
    apply (kerned_as_iff 1) in HL; [|now left]. apply (kerned_as_iff 2) in HR; [|now right].
    assert (ER' : nth (Z.to_nat rid) order [] = Rn) by (eapply nth_error_nth; exact ER).
    assert (EV' : nth (Z.to_nat m) values 0 = v) by (eapply nth_error_nth; exact EV).
    split.
    + unfold at_master, named. cbn [fst snd]. rewrite ER', EV'. fold R in HL, HR. congruence.
    + apply filter_In. split; [apply in_map; assumption|]. unfold keep, named. cbn [fst snd].
      rewrite ER', EV'. fold R in HL, HR. rewrite <- HL, <- HR. apply orb_true_iff.
      destruct HK as [HK|HK]; [left; lia|]. right. now apply X.
Qed.

(** the name under which a glyph is kerned exists and is unique *)
Theorem C47_names : forall side keys gs g, side = first_side \/ side = second_side ->
  exists x, kerned_as side keys gs g x /\ forall y, kerned_as side keys gs g y -> y = x.
Proof.
  intros side keys gs g [->| ->].
  - eexists. split; [apply (kerned_as_iff 1); [now left|reflexivity]|]. intros y H.
    apply (kerned_as_iff 1) in H; [exact H|now left].
  - eexists. split; [apply (kerned_as_iff 2); [now right|reflexivity]|]. intros y H.
    apply (kerned_as_iff 2) in H; [exact H|now right].
Qed.

(** Without distinct names a value is lost: the two right-hand glyphs named "a" get one pair. *)
Theorem C47_duplicate_refuted : exists order kerning k K,
  NoDup (map fst kerning) /\ export_kerning [] [] order false kerning = Ok k /\
  get_master_kerning k 0 = Ok K /\ List.length kerning = 2%nat /\ K = [((py "b", py "a"), 20)].
Proof.
  exists [py "a"; py "b"; py "a"], [((py "b", 0), [10]); ((py "b", 2), [20])].
  eexists. eexists. split; [repeat constructor; cbn; intuition discriminate|].
  split; [vm_compute; reflexivity|]. split; [vm_compute; reflexivity|]. split; reflexivity.
Qed.

Example C47_ex : exists k K,
  export_kerning [(py "_A", [py "A'"; py "Agrave"]); (py "_V", [py "V'"; py "W"])]
    [(py "_A", [1024]); (py "_V", [2048])] [py "A"; py "Agrave"; py "V"; py "W"] true
    [((py "A", 2), [-80; -60]); ((py "Agrave", 2), [0; 0]); ((py "A", 0), [0; 5])] = Ok k /\
  get_master_kerning k 0 = Ok K /\
  K = [((py "public.kern1._A", py "public.kern2._V"), -80); ((py "Agrave", py "public.kern2._V"), 0)].
Proof. eexists. eexists. split; [vm_compute; reflexivity|]. split; [vm_compute; reflexivity|]. reflexivity. Qed.

Print Assumptions C45_groups.
Print Assumptions C45_disjoint.
Print Assumptions C46_classes.
Print Assumptions C47_kerning.
