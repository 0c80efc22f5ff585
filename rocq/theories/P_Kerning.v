(** Proofs about the kerning of the UFO (C47). *)
From Coq Require Import String ZifyBool.
From Verif Require Import Base M_Py M_Text M_Groups S_Groups Lib P_Groups P_Groups2.
Local Open Scope list_scope.

Lemma kkey_eqb_eq : forall a b, kkey_eqb a b = true <-> a = b.
Proof.
  intros [[s n]|] [[t m]|]; cbn; try (split; congruence).
  rewrite andb_true_iff, Z.eqb_eq, str_eqb_eq. split; [intros [-> ->]; reflexivity|].
  intros E. injection E as -> ->. auto.
Qed.
Lemma pair_eqb_eq : forall a b, pair_eqb a b = true <-> a = b.
Proof.
  intros [a b] [c d]. unfold pair_eqb. cbn. rewrite andb_true_iff, !str_eqb_eq. split.
  - intros [-> ->]. reflexivity.
  - intros E. injection E as -> ->. auto.
Qed.

(** ** Key glyphs *)
Definition kk (p : pystr * pystr) : kkey :=
  if side1 (fst p) then Some (1, snd p) else if side2 (fst p) then Some (2, snd p) else None.

Lemma reverse_from : forall k keys rev,
  aget kkey_eqb k (fold_left (fun rev p => let '(name, key_glyph) := p in
    let key := if starts (py "public.kern1") name then Some (1, key_glyph)
               else if starts (py "public.kern2") name then Some (2, key_glyph)
               else None in
    match aget kkey_eqb key rev with
    | Some _ => rev
    | None => aset kkey_eqb key name rev
    end) keys rev) =
  match aget kkey_eqb k rev with
  | Some v => Some v
  | None => option_map fst (find (fun p => kkey_eqb k (kk p)) keys)
  end.
Proof.
  induction keys as [|[n g] keys IH]; intros rev; cbn [fold_left find].
  - now destruct (aget kkey_eqb k rev).
  - rewrite IH. clear IH. fold (side1 n). fold (side2 n).
    change (if side1 n then Some (1, g) else if side2 n then Some (2, g) else None) with (kk (n, g)).
    destruct (aget kkey_eqb (kk (n, g)) rev) as [w|] eqn:A.
    + destruct (aget kkey_eqb k rev) eqn:B; [reflexivity|].
      destruct (kkey_eqb k (kk (n, g))) eqn:E; [|reflexivity]. apply kkey_eqb_eq in E. congruence.
    + rewrite (aget_aset kkey_eqb kkey_eqb_eq). destruct (kkey_eqb k (kk (n, g))) eqn:E; [|reflexivity].
      apply kkey_eqb_eq in E. rewrite E, A. reflexivity.
Qed.
Lemma reverse_spec : forall k keys,
  aget kkey_eqb k (reverse_key_glyphs keys) = option_map fst (find (fun p => kkey_eqb k (kk p)) keys).
Proof. intros. unfold reverse_key_glyphs. rewrite reverse_from. reflexivity. Qed.

(** sides by number *)
Definition sideb (s : Z) (n : pystr) : bool := if s =? 1 then side1 n else side2 n.
Definition side_p (s : Z) (n : pystr) : Prop := if s =? 1 then first_side n else second_side n.
Lemma sideb_spec : forall s n, sideb s n = true <-> side_p s n.
Proof. intros. unfold sideb, side_p. destruct (s =? 1); [apply side1_spec|apply side2_spec]. Qed.

Lemma kk_eqb : forall s g n g', s = 1 \/ s = 2 ->
  kkey_eqb (Some (s, g)) (kk (n, g')) = sideb s n && str_eqb g g'.
Proof.
  intros s g n g' [->| ->]; unfold kk, sideb; cbn [fst snd].
  - change (1 =? 1) with true. cbn iota. destruct (side1 n); [reflexivity|]. destruct (side2 n); reflexivity.
  - change (2 =? 1) with false. cbn iota. destruct (side1 n) eqn:S1.
    + destruct (side2 n) eqn:S2; [exfalso; eapply side12; eauto|]. reflexivity.
    + destruct (side2 n); reflexivity.
Qed.

Lemma find_key_group : forall s g keys n, s = 1 \/ s = 2 ->
  (option_map fst (find (fun p => kkey_eqb (Some (s, g)) (kk p)) keys) = Some n <->
   key_group (side_p s) keys g n).
Proof.
  intros s g keys n Hs. induction keys as [|[m g'] keys IH].
  - cbn. split; [discriminate|]. intros (b & a & E & _). destruct b; discriminate.
  - cbn [find]. rewrite kk_eqb by assumption. destruct (sideb s m && str_eqb g g') eqn:E.
    + apply andb_true_iff in E. destruct E as [S E]. apply str_eqb_eq in E. subst g'. apply sideb_spec in S.
      cbn [option_map fst]. split.
      * intros F. injection F as ->. exists [], keys. repeat split; auto. 
      * intros (b & a & F & Sn & K). destruct b as [|q b]; cbn in F; [congruence|].
        injection F as <- F. exfalso. apply (K m); [now left|assumption].
    + rewrite IH. unfold key_group. split.
      * intros (b & a & F & Sn & K). exists ((m, g') :: b), a. split; [cbn; congruence|]. split; [assumption|].
        intros x [F2|F2]; [|now apply K]. injection F2 as -> ->. intro Sx. apply sideb_spec in Sx.
        rewrite Sx, str_eqb_refl in E. discriminate.
      * intros (b & a & F & Sn & K). destruct b as [|q b]; cbn in F.
        -- injection F as -> -> ->. apply sideb_spec in Sn. rewrite Sn, str_eqb_refl in E. discriminate.
        -- injection F as <- ->. exists b, a. split; [reflexivity|]. split; [assumption|].
           intros x Hx. apply K. now right.
Qed.

Lemma in_keys_dec : forall (gs : groups) n, In n (map fst gs) <-> exists l, aget str_eqb n gs = Some l.
Proof.
  intros. destruct (aget str_eqb n gs) eqn:A.
  - split; [eauto|]. intros _. apply (aget_In str_eqb str_eqb_eq) in A. apply in_map_iff. now exists (n, l).
  - apply (aget_None str_eqb str_eqb_eq) in A. split; [tauto|]. intros [l L]. discriminate.
Qed.

Lemma kerned_as_iff : forall s keys gs g x, s = 1 \/ s = 2 ->
  (kerned_as (side_p s) keys gs g x <-> x = group_or_glyph s (reverse_key_glyphs keys) gs g).
Proof.
  intros s keys gs g x Hs. unfold group_or_glyph. rewrite reverse_spec.
  destruct (option_map fst (find (fun p => kkey_eqb (Some (s, g)) (kk p)) keys)) as [n|] eqn:F.
  - assert (U : forall m, key_group (side_p s) keys g m <-> m = n).
    { intros m. rewrite <- find_key_group by assumption. rewrite F. split; congruence. }
    destruct (aget str_eqb n gs) as [l|] eqn:A.
    + unfold kerned_as. split.
      * intros [(m & K & _ & ->)|[K _]]; [now apply U|]. exfalso. apply (K n); [now apply U|].
        apply in_keys_dec. eauto.
      * intros ->. left. exists n. split; [now apply U|]. split; [|reflexivity]. apply in_keys_dec. eauto.
    + unfold kerned_as. split.
      * intros [(m & K & I & ->)|[_ K]]; [|assumption]. apply U in K. subst m.
        apply in_keys_dec in I. destruct I. congruence.
      * intros ->. right. split; [|reflexivity]. intros m K I. apply U in K. subst m.
        apply in_keys_dec in I. destruct I. congruence.
  - unfold kerned_as. split.
    + intros [(m & K & _)|[_ K]]; [|assumption]. apply find_key_group in K; [congruence|assumption].
    + intros ->. right. split; [|reflexivity]. intros m K. apply find_key_group in K; [congruence|assumption].
Qed.

Lemma key_group_In : forall side keys g n, key_group side keys g n -> In (n, g) keys /\ side n.
Proof.
  intros side keys g n (b & a & -> & S & _). split; [|assumption]. apply in_or_app. right. now left.
Qed.

Lemma kerned_as_inj : forall s keys gs g h x, s = 1 \/ s = 2 -> NoDup (map fst keys) ->
  ~ kerning_name g -> ~ kerning_name h ->
  kerned_as (side_p s) keys gs g x -> kerned_as (side_p s) keys gs h x -> g = h.
Proof.
  assert (SK : forall s n, side_p s n -> kerning_name n).
  { intros s n H. apply kern_spec. apply sideb_spec in H. unfold sideb in H.
    destruct (s =? 1); [now apply side1_kern|now apply side2_kern]. }
  intros s keys gs g h x Hs ND Kg Kh [(n & A & _ & ->)|[_ ->]] [(m & B & _ & E)|[_ E]].
  - apply key_group_In in A. apply key_group_In in B. subst m. eapply unique_key; [exact ND|apply A|apply B].
  - subst. elim Kh. apply key_group_In in A. eapply SK. apply A.
  - subst. elim Kg. apply key_group_In in B. eapply SK. apply B.
  - assumption.
Qed.

(** the dict of key glyphs has every group once *)
Lemma set_key_nodup : forall n key keys, NoDup (map fst keys) -> NoDup (map fst (set_key n key keys)).
Proof.
  intros. unfold set_key. destruct (aget str_eqb n keys); [assumption|]. destruct key; [|assumption].
  now apply (aset_nodup str_eqb str_eqb_eq).
Qed.
Lemma transform_keys_nodup : forall flags order skip gs st st',
  transform_groups_from flags order skip gs st = Ok st' ->
  NoDup (map fst (tg_keys st)) -> NoDup (map fst (tg_keys st')).
Proof.
  assert (A : forall f s n name gl key st, NoDup (map fst (tg_keys st)) ->
    NoDup (map fst (tg_keys (add_side f s n name gl key st)))).
  { intros. unfold add_side. destruct (_ =? 0); [assumption|].
    destruct (aget _ _ _); [assumption|]. cbn. now apply set_key_nodup. }
  induction gs as [|[n gl] gs IH]; intros st st' E ND; cbn [transform_groups_from] in E.
  - injection E as <-. exact ND.
  - destruct (transform_group flags order skip n gl st) as [st1|e] eqn:T; [|discriminate].
    cbn [rthen] in E. eapply IH; [exact E|]. clear E IH. unfold transform_group in T.
    destruct (check_for_missing_glyphs _ _ _) as [gl' ms]. destruct (starts _ n).
    + destruct (aget str_eqb n flags) as [fl|]; [|injection T as <-; exact ND].
      destruct (py_index fl 0); [|discriminate]. cbn in T. injection T as <-. apply A, A, ND.
    + injection T as <-. cbn. now apply set_key_nodup.
Qed.

(** ** Exceptions *)
Lemma in_flat : forall gs g, In g (map fst (flat gs)) <-> exists n l, In (n, l) gs /\ In g l.
Proof.
  intros. unfold flat. rewrite in_map_iff. split.
  - intros ([x y] & E & H). cbn in E. subst x. apply in_flat_map in H. destruct H as ([n l] & I & H).
    apply in_map_iff in H. destruct H as (z & E & Z). injection E as -> _. eauto.
  - intros (n & l & I & H). exists (g, n). split; [reflexivity|]. apply in_flat_map. exists (n, l).
    split; [assumption|]. apply in_map_iff. now exists g.
Qed.

Lemma own_rebuilt : forall s gs n l, s = 1 \/ s = 2 -> l <> [] ->
  (In (n, l) (own (sideb s) gs []) <-> In (n, l) (rebuilt gs) /\ sideb s n = true).
Proof.
  intros s gs n l Hs L.
  assert (NE : forall os, In (n, l) (nonempty os) <-> In (n, l) os).
  { intros. unfold nonempty. rewrite filter_In. cbn [snd]. destruct l; [congruence|tauto]. }
  assert (SD : forall side os, In (n, l) (own side os []) -> side n = true).
  { intros side os H. apply (in_map fst) in H. rewrite own_keys in H. now apply filter_In in H. }
  unfold rebuilt. rewrite !in_app_iff, filter_In, !NE. cbn [fst].
  destruct Hs as [->| ->].
  - change (sideb 1) with side1. split.
    + intros H. split; [tauto|]. eapply SD; eauto.
    + intros [[[_ K]|[K|K]] S1]; [|assumption|].
      * apply side1_kern in S1. rewrite S1 in K. discriminate.
      * apply SD in K. exfalso. eapply side12; eauto.
  - change (sideb 2) with side2. split.
    + intros H. split; [tauto|]. eapply SD; eauto.
    + intros [[[_ K]|[K|K]] S1]; [| |assumption].
      * apply side2_kern in S1. rewrite S1 in K. discriminate.
      * apply SD in K. exfalso. eapply side12; eauto.
Qed.

Definition is_keyb (s : Z) (keys : list (kkey * pystr)) (m : mapping) (x : pystr) : bool :=
  is_some (aget kkey_eqb (Some (s, x)) keys) || negb (is_some (aget str_eqb x m)).

Lemma is_keyb_spec : forall s keys gs x, s = 1 \/ s = 2 ->
  is_keyb s (reverse_key_glyphs keys) (flat (own (sideb s) gs [])) x = false <->
  excepted (side_p s) keys (rebuilt gs) x.
Proof.
  intros s keys gs x Hs. unfold is_keyb, excepted. rewrite orb_false_iff, negb_false_iff, <- mem_keys, mem_In, in_flat.
  rewrite and_comm. apply Morphisms_Prop.and_iff_morphism.
  - split.
    + intros (n & l & I & H). exists n, l. assert (l <> []) by (intros ->; destruct H).
      apply own_rebuilt in I; auto. destruct I as [I S]. repeat split; auto. now apply sideb_spec.
    + intros (n & l & I & S & H). exists n, l. split; [|assumption]. apply own_rebuilt; auto.
      * intros ->. destruct H.
      * split; [assumption|now apply sideb_spec].
  - rewrite reverse_spec. split.
    + intros E n I S. destruct (find _ keys) as [p|] eqn:F; [discriminate|].
      eapply find_none in F; [|exact I]. cbv beta in F. rewrite kk_eqb, str_eqb_refl in F by assumption.
      apply sideb_spec in S. rewrite S in F. discriminate.
    + intros K. destruct (find _ keys) as [[n g]|] eqn:F; [|reflexivity].
      apply find_some in F. destruct F as [I F]. rewrite kk_eqb in F by assumption.
      apply andb_true_iff in F. destruct F as [S F]. apply str_eqb_eq in F. subst.
      exfalso. eapply K; eauto. now apply sideb_spec.
Qed.

(** ** The pairs *)
Definition named order keys gs (p : (pystr * Z) * list Z) : (pystr * pystr) * list Z :=
  ((group_or_glyph 1 keys gs (fst (fst p)),
    group_or_glyph 2 keys gs (nth (Z.to_nat (snd (fst p))) order [])), snd p).

Lemma py_index_nth : forall A (l : list A) i d, 0 <= i < Z.of_nat (List.length l) ->
  py_index l i = Ok (nth (Z.to_nat i) l d).
Proof.
  intros A l i d H. unfold py_index. replace (i <? 0) with false by lia.
  replace ((i <? 0) || (Z.of_nat (List.length l) <=? i)) with false by lia.
  rewrite (nth_error_nth' l d) by lia. reflexivity.
Qed.

Lemma make_named : forall order keys gs kerning acc,
  Forall (fun p => 0 <= snd (fst p) < Z.of_nat (List.length order)) kerning ->
  NoDup (map fst acc ++ map fst (map (named order keys gs) kerning)) ->
  make_name_based_kerning order keys gs kerning acc = Ok (acc ++ map (named order keys gs) kerning).
Proof.
  induction kerning as [|[[L rid] vals] kerning IH]; intros acc R ND; cbn [make_name_based_kerning map].
  - now rewrite app_nil_r.
  - apply Forall_cons_iff in R. destruct R as [R0 R]. cbn [fst snd] in R0.
    unfold name_pair. cbn [fst snd]. rewrite (py_index_nth _ order rid []) by assumption. cbn [rmap rthen].
    cbn [map fst] in ND.
    rewrite (aset_notin pair_eqb pair_eqb_eq).
    + rewrite IH; [now rewrite <- app_assoc|assumption|]. rewrite map_app, <- app_assoc. exact ND.
    + apply NoDup_remove_2 in ND. intro. apply ND. apply in_or_app. now left.
Qed.

Definition keep k m (p : (pystr * pystr) * list Z) : bool :=
  negb (nth (Z.to_nat m) (snd p) 0 =? 0) || is_exception k (fst (fst p)) (snd (fst p)).
Definition at_master m (p : (pystr * pystr) * list Z) : (pystr * pystr) * Z :=
  (fst p, nth (Z.to_nat m) (snd p) 0).

Lemma master_kept : forall k m l acc,
  Forall (fun p => 0 <= m < Z.of_nat (List.length (snd p))) l ->
  NoDup (map fst acc ++ map fst l) ->
  master_kerning_from k m l acc = Ok (acc ++ map (at_master m) (filter (keep k m) l)).
Proof.
  induction l as [|[lr vals] l IH]; intros acc R ND; cbn [master_kerning_from map filter].
  - now rewrite app_nil_r.
  - apply Forall_cons_iff in R. destruct R as [R0 R]. cbn [fst snd] in R0. cbn [map fst] in ND.
    rewrite (py_index_nth _ vals m 0) by assumption. cbn [rthen]. unfold keep at 1. cbn [fst snd].
    assert (N : ~ In lr (map fst acc)).
    { apply NoDup_remove_2 in ND. intro. apply ND. apply in_or_app. now left. }
    destruct (negb _ || _).
    + rewrite (aset_notin pair_eqb pair_eqb_eq) by assumption.
      rewrite IH; [rewrite <- app_assoc; reflexivity|assumption|]. rewrite map_app, <- app_assoc. exact ND.
    + apply IH; [assumption|]. now apply NoDup_remove_1 in ND.
Qed.

Lemma named_nodup : forall order keys gs kerning, NoDup (map fst keys) ->
  NoDup order -> Forall (fun g => ~ kerning_name g) order ->
  NoDup (map fst kerning) ->
  Forall (fun p : (pystr * Z) * list Z => ~ kerning_name (fst (fst p)) /\
                    0 <= snd (fst p) < Z.of_nat (List.length order)) kerning ->
  NoDup (map fst (map (named order (reverse_key_glyphs keys) gs) kerning)).
Proof.
  intros order keys gs kerning NK NO KO. induction kerning as [|[[L rid] vals] kerning IH]; intros ND F;
    cbn [map]; [constructor|].
  apply Forall_cons_iff in F. destruct F as [[F1 F2] F]. cbn [map fst snd] in *. apply NoDup_cons_iff in ND.
  constructor; [|apply IH; tauto]. destruct ND as [N _]. intro H. apply N.
  rewrite map_map in H. apply in_map_iff in H. destruct H as ([[L' rid'] vals'] & E & I).
  rewrite Forall_forall in F. destruct (F _ I) as [G1 G2]. cbn [fst snd] in *.
  unfold named in E. cbn [fst snd] in E. injection E as E1 E2.
  assert (L = L').
  { eapply (kerned_as_inj 1 keys gs); [now left|assumption|assumption|assumption| |].
    - apply kerned_as_iff; [now left|reflexivity].
    - apply kerned_as_iff; [now left|now symmetry]. }
  assert (nth (Z.to_nat rid) order [] = nth (Z.to_nat rid') order []) as E3.
  { rewrite Forall_forall in KO.
    eapply (kerned_as_inj 2 keys gs); [now right|assumption| | | |].
    - apply KO. apply nth_In. lia.
    - apply KO. apply nth_In. lia.
    - apply kerned_as_iff; [now right|reflexivity].
    - apply kerned_as_iff; [now right|now symmetry]. }
  apply (NoDup_nth order []) in E3; [|assumption|lia|lia].
  assert (rid = rid') by lia. subst. apply in_map_iff. now exists (L', rid', vals').
Qed.
