(** Proofs about the designspace export (M_Designspace). *)
From Coq Require Import String ZifyBool.
From Verif Require Import Base M_Py M_Text M_Groups M_Tth M_Designspace S_Designspace Lib P_Dec P_Glyph P_Tth P_Guides.
Local Open Scope list_scope.

Lemma aset_new : forall V k (v : V) d, ~ In k (map fst d) -> aset str_eqb k v d = d ++ [(k, v)].
Proof.
  intros V k v d. induction d as [|[k' v'] d IH]; intros N; [reflexivity|]. cbn [aset].
  destruct (str_eqb k k') eqn:E.
  - apply str_eqb_eq in E. subst. exfalso. apply N. now left.
  - cbn. f_equal. apply IH. intros H. apply N. now right.
Qed.

Section Locations.
  Context {F : Type}.
  Lemma ds_location_ok : forall (scale : F -> F) (axes : list (axis F)) pre loc acc,
    NoDup (map fst acc ++ map ax_name axes) -> ~ In [] (map ax_name axes) ->
    (List.length axes <= List.length loc)%nat ->
    ds_location_from scale (pre ++ loc) axes (Z.of_nat (List.length pre)) acc =
    Ok (acc ++ combine (map ax_name axes) (map scale loc)).
  Proof.
    intros scale axes. induction axes as [|a axes IH]; intros pre loc acc ND NE L.
    - cbn. now rewrite app_nil_r.
    - destruct loc as [|x loc]; [cbn in L; lia|]. cbn [ds_location_from]. cbn [map] in *.
      destruct (ax_name a) as [|c n] eqn:En; [exfalso; apply NE; now left|].
      rewrite py_index_mid. cbn [rthen].
      assert (Nn : ~ In (c :: n) (map fst acc)).
      { intros H. apply NoDup_remove_2 in ND. apply ND. apply in_or_app. now left. }
      rewrite aset_new by assumption.
      replace (Z.of_nat (List.length pre) + 1) with (Z.of_nat (List.length (pre ++ [x]))) by (rewrite app_length; cbn; lia).
      replace (pre ++ x :: loc) with ((pre ++ [x]) ++ loc) by (now rewrite <- app_assoc).
      rewrite IH.
      + cbn [combine map]. now rewrite <- app_assoc.
      + rewrite map_app. cbn [map fst]. rewrite <- app_assoc. exact ND.
      + intros H. apply NE. now right.
      + cbn in L. lia.
  Qed.
  Lemma get_ds_location_ok : forall (scale : F -> F) axes loc, names_ok axes ->
    (List.length axes <= List.length loc)%nat ->
    get_ds_location scale axes loc = Ok (location axes (map scale loc)).
  Proof. intros scale axes loc [ND NE] L. exact (ds_location_ok scale axes [] loc [] ND NE L). Qed.
End Locations.

Lemma zrange_length : forall n, List.length (zrange n) = Z.to_nat n.
Proof. intros. unfold zrange. now rewrite map_length, seq_length. Qed.
Lemma zrange_In : forall n i, In i (zrange n) <-> 0 <= i < n.
Proof.
  intros n i. unfold zrange. rewrite in_map_iff. split.
  - intros (k & <- & H). apply in_seq in H. lia.
  - intros H. exists (Z.to_nat i). split; [lia|]. apply in_seq. lia.
Qed.
Lemma zrange_nth : forall n i x, nth_error (zrange n) i = Some x -> x = Z.of_nat i.
Proof.
  intros n i x H. unfold zrange in H. rewrite nth_error_map in H.
  destruct (nth_error (seq 0 (Z.to_nat n)) i) as [k|] eqn:E; [|discriminate]. cbn in H. injection H as <-.
  assert (L : (i < List.length (seq 0 (Z.to_nat n)))%nat) by (apply nth_error_Some; congruence).
  rewrite seq_length in L. apply nth_error_nth with (d := 0%nat) in E. rewrite seq_nth in E by assumption. lia.
Qed.

Lemma res_map_ok : forall A B (f : A -> res B) (P : A -> B -> Prop) l,
  (forall x, In x l -> exists y, f x = Ok y /\ P x y) ->
  exists ys, res_map f l = Ok ys /\ Forall2 P l ys.
Proof.
  intros A B f P l. induction l as [|x l IH]; intros H.
  - exists []. split; [reflexivity|constructor].
  - destruct (H x) as (y & E & Py); [now left|]. destruct IH as (ys & Es & F); [intros z Hz; apply H; now right|].
    exists (y :: ys). cbn [res_map]. rewrite E. cbn [rthen]. rewrite Es. split; [reflexivity|now constructor].
Qed.

Lemma Forall2_nth : forall A B (P : A -> B -> Prop) l l', Forall2 P l l' ->
  forall i y, nth_error l' i = Some y -> exists x, nth_error l i = Some x /\ P x y.
Proof.
  intros A B P l l' F. induction F as [|x y l l' H F IH]; intros [|i] z E; try discriminate.
  - cbn in E. injection E as <-. exists x. now split.
  - apply IH. exact E.
Qed.
Lemma Forall2_same_length : forall A B (P : A -> B -> Prop) l l', Forall2 P l l' -> List.length l = List.length l'.
Proof. intros A B P l l' F. induction F; cbn; congruence. Qed.

(** ** Paths *)
Lemma master_path_inj : forall out i j, 0 <= i -> 0 <= j ->
  get_master_path out i = get_master_path out j -> i = j.
Proof.
  intros out i j Hi Hj E. unfold get_master_path in E. destruct out as [r d s x].
  destruct (0 <? i) eqn:Ei, (0 <? j) eqn:Ej; cbn [p_root p_dir p_stem p_suffix] in E.
  - apply (f_equal p_stem) in E. cbn [p_stem] in E. apply app_inv_head in E. apply app_inv_head in E.
    now apply dec_str_inj.
  - apply (f_equal p_stem) in E. cbn [p_stem] in E. apply (f_equal (@List.length Z)) in E. rewrite !app_length in E. cbn in E. lia.
  - apply (f_equal p_stem) in E. cbn [p_stem] in E. apply (f_equal (@List.length Z)) in E. rewrite !app_length in E. cbn in E. lia.
  - lia.
Qed.

(** ** Labels *)
Lemma add_labels_ok : forall F (l : list (pystr * list F)) (a : axis F) axes,
  Forall (fun p => snd p <> []) l ->
  exists a', res_fold add_label (a :: axes) l = Ok (a' :: axes) /\ same_axis a a' /\
    exists labels, ax_labels a' = ax_labels a ++ labels /\
      Forall2 (fun p v => fst v = fst p /\ hd_error (snd p) = Some (snd v)) l labels.
Proof.
  induction l as [|[n vs] l IH]; intros a axes H.
  - exists a. split; [reflexivity|]. split; [repeat split|]. exists []. split; [now rewrite app_nil_r|constructor].
  - inversion H as [|? ? Hn H']; subst. cbn [snd] in Hn. destruct vs as [|v vs]; [congruence|].
    cbn [res_fold]. unfold add_label at 1. cbn [fst snd]. change (py_index (a :: axes) 0) with (@Ok (axis F) a).
    cbn [rthen]. change (py_index (v :: vs) 0) with (@Ok F v). cbn [rthen].
    rewrite (py_update_mid _ [] a axes). cbn [rthen app].
    match goal with |- context [res_fold add_label (?x :: axes) l] => destruct (IH x axes H') as (a' & E & S & labels & L & F2) end.
    exists a'. split; [exact E|]. split; [exact S|]. cbn [ax_labels] in L. exists ((n, v) :: labels).
    split; [rewrite L, <- app_assoc; reflexivity|]. constructor; [|assumption]. split; reflexivity.
Qed.

(** ** Mappings *)
Section Mappings.
  Context {F : Type} (o : num_ops F).
  Hypothesis Ho : total_order (n_ltb o).
  Lemma py_min_ok : forall l (d : F), l <> [] -> In (py_min (n_ltb o) d l) l /\
    forall u, In u l -> n_ltb o u (py_min (n_ltb o) d l) = false.
  Proof.
    destruct Ho as (R & A & T).
    assert (K : forall l x, In (fold_left (fun m y => if n_ltb o y m then y else m) l x) (x :: l) /\
      forall u, In u (x :: l) -> n_ltb o u (fold_left (fun m y => if n_ltb o y m then y else m) l x) = false).
    { induction l as [|y l IH]; intros x; cbn [fold_left].
      - split; [now left|]. intros u [<-|[]]. apply R.
      - destruct (n_ltb o y x) eqn:E.
        + destruct (IH y) as [I M]. split; [right; exact I|]. intros u [<-|[<-|Hu]].
          * apply (T _ y); [apply M; now left|now apply A].
          * apply M. now left.
          * apply M. now right.
        + destruct (IH x) as [I M]. split; [destruct I as [I|I]; [now left|right; now right]|].
          intros u [<-|[<-|Hu]].
          * apply M. now left.
          * apply (T _ x); [apply M; now left|assumption].
          * apply M. now right. }
    intros [|x l] d N; [congruence|]. apply K.
  Qed.
  Lemma py_max_ok : forall l (d : F), l <> [] -> In (py_max (n_ltb o) d l) l /\
    forall u, In u l -> n_ltb o (py_max (n_ltb o) d l) u = false.
  Proof.
    destruct Ho as (R & A & T).
    assert (K : forall l x, In (fold_left (fun m y => if n_ltb o m y then y else m) l x) (x :: l) /\
      forall u, In u (x :: l) -> n_ltb o (fold_left (fun m y => if n_ltb o m y then y else m) l x) u = false).
    { induction l as [|y l IH]; intros x; cbn [fold_left].
      - split; [now left|]. intros u [<-|[]]. apply R.
      - destruct (n_ltb o x y) eqn:E.
        + destruct (IH y) as [I M]. split; [right; exact I|]. intros u [<-|[<-|Hu]].
          * apply (T _ y); [now apply A|apply M; now left].
          * apply M. now left.
          * apply M. now right.
        + destruct (IH x) as [I M]. split; [destruct I as [I|I]; [now left|right; now right]|].
          intros u [<-|[<-|Hu]].
          * apply M. now left.
          * apply (T _ x); [assumption|apply M; now left].
          * apply M. now right. }
    intros [|x l] d N; [congruence|]. apply K.
  Qed.

  Lemma set_mapping_ok : forall pairs (a : axis F), pairs <> [] ->
    (forall ud, In ud pairs -> exists k, n_design o (snd ud) = Ok k) ->
    exists a', set_mapping o pairs a = Ok a' /\ mapped_axis o pairs a a'.
  Proof.
    intros pairs a N D. unfold set_mapping.
    destruct (res_map_ok _ _ (fun ud => rmap (fun d => (fst ud, d)) (n_design o (snd ud)))
      (fun ud m => fst m = fst ud /\ n_design o (snd ud) = Ok (snd m)) pairs) as (ms & E & F2).
    { intros ud Iu. destruct (D ud Iu) as (k & Ek). exists (fst ud, k). rewrite Ek. repeat split. }
    rewrite E. cbn [rmap]. eexists. split; [reflexivity|]. unfold mapped_axis. cbn.
    assert (Nm : map fst pairs <> []) by (destruct pairs; [congruence|discriminate]).
    destruct (py_min_ok (map fst pairs) (n_zero o) Nm) as [I1 M1].
    destruct (py_max_ok (map fst pairs) (n_thousand o) Nm) as [I2 M2].
    repeat (split; [reflexivity|]). split; [assumption|]. do 2 eexists.
    repeat (split; [reflexivity|]). split; [exact I1|]. split; [exact I2|]. auto.
  Qed.

  Definition mapping_result (n : Z) (block : list (F * F)) (a a' : axis F) : Prop :=
    if n =? 0 then a' = a else mapped_axis o (firstn (Z.to_nat n) block) a a'.

  Lemma mappings_ok : forall blocks axes counts done dcounts rest,
    List.length blocks = List.length axes -> List.length counts = List.length axes ->
    List.length done = List.length dcounts ->
    Forall (fun b => List.length b = 10%nat /\ forall ud, In ud b -> exists k, n_design o (snd ud) = Ok k) blocks ->
    Forall (fun n => 0 <= n <= 10) counts ->
    exists axes', res_fold (mapping_turn o (dcounts ++ counts)) (done ++ axes, concat blocks ++ rest)
        (map Z.of_nat (seq (List.length done) (List.length axes))) = Ok (done ++ axes', rest) /\
      List.length axes' = List.length axes /\
      forall i n b a a', nth_error counts i = Some n -> nth_error blocks i = Some b ->
        nth_error axes i = Some a -> nth_error axes' i = Some a' -> mapping_result n b a a'.
  Proof.
    induction blocks as [|b blocks IH]; intros axes counts done dcounts rest L1 L2 L3 FB FC.
    - destruct axes; [|discriminate]. destruct counts; [|discriminate]. exists [].
      split; [cbn; reflexivity|]. split; [reflexivity|]. intros [|] ? ? ? ? E; discriminate.
    - destruct axes as [|a axes]; [discriminate|]. destruct counts as [|n counts]; [discriminate|].
      inversion FB as [|? ? [Lb Db] FB']; subst. inversion FC as [|? ? Hn FC']; subst.
      cbn [List.length seq map res_fold concat].
      assert (S1 : exists a', mapping_turn o (dcounts ++ n :: counts) (done ++ a :: axes, (b ++ concat blocks) ++ rest)
                (Z.of_nat (List.length done)) = Ok ((done ++ [a']) ++ axes, concat blocks ++ rest) /\
                mapping_result n b a a').
      { unfold mapping_turn. rewrite L3, py_index_mid. cbn [rthen].
        assert (Sk : skipn 10 ((b ++ concat blocks) ++ rest) = concat blocks ++ rest).
        { rewrite <- app_assoc, skipn_app, Lb. rewrite skipn_all2 by lia. reflexivity. }
        rewrite Sk. unfold mapping_result. destruct (0 <? n) eqn:En.
        - rewrite <- L3, py_index_mid. cbn [rthen].
          assert (Fi : firstn (Z.to_nat n) ((b ++ concat blocks) ++ rest) = firstn (Z.to_nat n) b).
          { rewrite <- app_assoc, firstn_app. replace (Z.to_nat n - List.length b)%nat with 0%nat by lia.
            now rewrite app_nil_r. }
          rewrite Fi. destruct (set_mapping_ok (firstn (Z.to_nat n) b) a) as (a' & Ea & M).
          + intros X. apply (f_equal (@List.length _)) in X. rewrite firstn_length in X. cbn in X. lia.
          + intros ud Iu. apply Db. rewrite <- (firstn_skipn (Z.to_nat n) b). apply in_or_app. now left.
          + rewrite Ea. cbn [rthen]. rewrite py_update_mid. cbn [rmap]. exists a'. rewrite <- app_assoc.
            split; [reflexivity|]. assert (X : (n =? 0) = false) by lia. rewrite X. exact M.
        - cbn [rmap]. exists a. rewrite <- app_assoc. split; [reflexivity|].
          assert (X : (n =? 0) = true) by lia. rewrite X. reflexivity. }
      destruct S1 as (a' & Es & Ms). rewrite Es. cbn [rthen].
      destruct (IH axes counts (done ++ [a']) (dcounts ++ [n]) rest) as (axes' & Er & La & Hr).
      + now injection L1.
      + now injection L2.
      + rewrite !app_length. cbn. lia.
      + assumption.
      + assumption.
      + exists (a' :: axes'). rewrite <- app_assoc in Er. cbn [app] in Er.
        replace (List.length (done ++ [a'])) with (S (List.length done)) in Er by (rewrite app_length; cbn; lia).
        rewrite <- app_assoc in Er. cbn [app] in Er |- *. rewrite <- app_assoc. cbn [app]. rewrite Er. split.
        * rewrite <- app_assoc. reflexivity.
        * split; [cbn; congruence|]. intros [|i] m b0 x x' E1 E2 E3 E4; cbn in E1, E2, E3, E4.
          { injection E1 as <-. injection E2 as <-. injection E3 as <-. injection E4 as <-. exact Ms. }
          { eapply Hr; eassumption. }
  Qed.
End Mappings.
