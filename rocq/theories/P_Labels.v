(** Proofs about point labels. *)
From Coq Require Import String ZifyBool ZifyNat FinFun.
From Verif Require Import Base M_Py M_Labels S_Labels Lib P_Dec.
Local Open Scope list_scope.

Definition ageta {V} := aget_In (V := V) str_eqb str_eqb_eq.
Lemma zeqb_eq : forall a b, (a =? b) = true <-> a = b.
Proof. exact Z.eqb_eq. Qed.

Lemma dec02_val : forall i, 0 <= i -> dec_val (dec02 i) = i.
Proof.
  intros i H. unfold dec02. destruct (in_range 0 10 i) eqn:E.
  - unfold dec_val. cbn [fold_left]. unfold in_range in E. lia.
  - unfold dec_str. replace (i <? 0) with false by lia. apply dec_nat_val. assumption.
Qed.
Lemma dec02_digits : forall i, 0 <= i -> Forall (fun c => 48 <= c <= 57) (dec02 i).
Proof.
  intros i H. unfold dec02. destruct (in_range 0 10 i) eqn:E.
  - unfold in_range in E. repeat constructor; lia.
  - unfold dec_str. replace (i <? 0) with false by lia. now apply dec_nat_digits.
Qed.
Lemma dec02_nonempty : forall i, 0 <= i -> dec02 i <> [].
Proof.
  intros i H. unfold dec02. destruct (in_range 0 10 i); [discriminate|]. unfold dec_str.
  replace (i <? 0) with false by lia. apply dec_nat_nonempty.
Qed.

(** the shape of a made label *)
Definition made (l : pystr) : Prop := exists code short i, In (code, short) label_codes /\ 0 <= i /\ l = short ++ dec02 i.
Lemma made_chars : forall l, made l -> Forall (fun c => c <> 45) l /\ l <> py "lsb" /\ l <> py "rsb".
Proof.
  intros l (code & short & i & I & H & ->).
  assert (S : Forall (fun p => Forall (fun c => c <> 45) (snd p)) label_codes).
  { unfold label_codes. repeat apply Forall_cons; try apply Forall_nil; cbn; repeat apply Forall_cons; try apply Forall_nil; discriminate. }
  rewrite Forall_forall in S. specialize (S _ I). cbn [snd] in S.
  split.
  - apply Forall_app. split; [assumption|]. eapply Forall_impl; [|apply dec02_digits; eassumption]. cbv beta. lia.
  - assert (L : forall w, (exists a, w = a ++ [98]) -> short ++ dec02 i <> w).
    { intros w (a & ->) E. pose proof (dec02_digits i H) as D. pose proof (dec02_nonempty i H) as N.
      destruct (exists_last N) as (d & x & Ed). rewrite Ed in *. rewrite app_assoc in E.
      apply app_inj_tail in E. destruct E as [_ ->]. apply Forall_app in D. destruct D as [_ D]. inversion D. lia. }
    split; apply L; [exists (py "ls")|exists (py "rs")]; reflexivity.
Qed.

Lemma new_label_none : forall fuel short labels i,
  (exists l, new_label fuel short labels i = Ok l /\ aget str_eqb l labels = None /\
     exists j, i <= j /\ l = short ++ dec02 j) \/
  (new_label fuel short labels i = Err Diverge /\
   forall k, (k < fuel)%nat -> In (short ++ dec02 (i + Z.of_nat k)) (map fst labels)).
Proof.
  induction fuel as [|f IH]; intros short labels i; cbn [new_label].
  - right. split; [reflexivity|]. intros k Hk. lia.
  - destruct (aget str_eqb (short ++ dec02 i) labels) eqn:E.
    + destruct (IH short labels (i + 1)) as [(l & E1 & E2 & j & Hj & El)|[E1 H]].
      * left. exists l. repeat split; auto. exists j. split; [lia|assumption].
      * right. split; [assumption|]. intros [|k] Hk.
        -- replace (i + Z.of_nat 0) with i by lia. apply ageta in E. now apply (in_map fst) in E.
        -- replace (i + Z.of_nat (Datatypes.S k)) with (i + 1 + Z.of_nat k) by lia. apply H. lia.
    + left. eexists. repeat split; [assumption|]. exists i. split; [lia|reflexivity].
Qed.
Lemma new_label_ok : forall short labels i, 0 <= i -> exists l,
  new_label (S (List.length labels)) short labels i = Ok l /\ aget str_eqb l labels = None /\
  exists j, i <= j /\ l = short ++ dec02 j.
Proof.
  intros short labels i Hi. destruct (new_label_none (S (List.length labels)) short labels i) as [H|[_ H]]; [exact H|].
  exfalso. set (cand := map (fun k => short ++ dec02 (i + Z.of_nat k)) (seq 0 (S (List.length labels)))).
  assert (N : NoDup cand).
  { unfold cand. apply FinFun.Injective_map_NoDup; [|apply seq_NoDup]. intros a b E.
    apply app_inv_head in E. apply (f_equal dec_val) in E. rewrite !dec02_val in E by lia. lia. }
  assert (I : incl cand (map fst labels)).
  { intros x Hx. unfold cand in Hx. apply in_map_iff in Hx. destruct Hx as (k & <- & Hk). apply in_seq in Hk. apply H. lia. }
  apply (NoDup_incl_length N) in I. unfold cand in I. rewrite !map_length, seq_length in I. lia.
Qed.

(** ** Invariant *)
Definition glyph_ok (x : lglyph) : Prop :=
  0 <= lg_nodes x /\ NoDup (map fst (lg_labels x)) /\ NoDup (map fst (lg_points x)) /\
  (forall j l, In (j, l) (lg_points x) <-> In (l, j) (lg_labels x)) /\
  (forall j l, In (j, l) (lg_points x) -> made l) /\
  (forall j l, In (j, l) (lg_points x) -> 0 <= j < lg_nodes x).
Definition store_ok (st : store) : Prop := NoDup (map fst st) /\ forall g x, In (g, x) st -> glyph_ok x.
(** [st'] has the same glyphs as [st] and at least its labels *)
Definition extends (st st' : store) : Prop :=
  forall g x, In (g, x) st -> exists x', In (g, x') st' /\ lg_components x' = lg_components x /\ lg_nodes x' = lg_nodes x /\
    forall j l, In (j, l) (lg_points x) -> In (j, l) (lg_points x').

Lemma fresh_ok : forall st, fresh_store st -> store_ok st.
Proof.
  intros st [N F]. split; [assumption|]. intros g x I. rewrite Forall_forall in F. destruct (F _ I) as (A & B & C).
  cbn [snd] in *. unfold glyph_ok. rewrite A, B. repeat split; try constructor; auto; intros; contradiction.
Qed.
Lemma extends_refl : forall st, extends st st.
Proof. intros st g x I. exists x. auto. Qed.
Lemma extends_trans : forall a b c, extends a b -> extends b c -> extends a c.
Proof.
  intros a b c H K g x I. destruct (H g x I) as (x' & I' & C' & N' & P'). destruct (K g x' I') as (x'' & I'' & C'' & N'' & P'').
  exists x''. split; [assumption|]. split; [congruence|]. split; [congruence|]. auto.
Qed.
Lemma key_unique : forall V (d : list (pystr * V)) k a b, NoDup (map fst d) -> In (k, a) d -> In (k, b) d -> a = b.
Proof.
  intros V d k a b N A B. apply (In_aget str_eqb str_eqb_eq) in A; [|assumption]. apply (In_aget str_eqb str_eqb_eq) in B; [|assumption]. congruence.
Qed.
Lemma zkey_unique : forall V (d : list (Z * V)) k a b, NoDup (map fst d) -> In (k, a) d -> In (k, b) d -> a = b.
Proof.
  intros V d k a b N A B. apply (In_aget Z.eqb zeqb_eq) in A; [|assumption]. apply (In_aget Z.eqb zeqb_eq) in B; [|assumption]. congruence.
Qed.
Lemma simple_ext : forall st st' g n, extends st st' -> simple_glyph st g n -> simple_glyph st' g n.
Proof.
  intros st st' g n E (x & I & C & N). destruct (E g x I) as (x' & I' & C' & N' & _). exists x'. repeat split; congruence.
Qed.
Lemma composite_ext : forall st st' order g parts, extends st st' -> composite_of st order g parts -> composite_of st' order g parts.
Proof.
  intros st st' order g parts E (P & x & I & F). split; [assumption|]. destruct (E g x I) as (x' & I' & C' & _ & _).
  exists x'. split; [assumption|]. rewrite C'. clear - E F. induction F as [|a b la lb [A B] F IH]; constructor; auto.
  split; [assumption|]. eapply simple_ext; eauto.
Qed.
Lemma points_ext : forall st st' order g n, extends st st' -> points_of st order g n -> points_of st' order g n.
Proof.
  intros st st' order g n E [H|(parts & H & ->)].
  - left. eapply simple_ext; eauto.
  - right. exists parts. split; [|reflexivity]. eapply composite_ext; eauto.
Qed.
Lemma stored_ext : forall st st' g j l, extends st st' -> stored st g j l -> stored st' g j l.
Proof. intros st st' g j l E (x & I & H). destruct (E g x I) as (x' & I' & _ & _ & P). exists x'. auto. Qed.
Lemma labelled_ext : forall st st' order g j l, extends st st' -> labelled st order g j l -> labelled st' order g j l.
Proof.
  intros st st' order g j l E H. inversion H; subst.
  - eapply lab_simple; eauto using simple_ext, stored_ext.
  - eapply lab_part; eauto using composite_ext, stored_ext.
  - apply lab_left. eauto using points_ext.
  - apply lab_right. eauto using points_ext.
Qed.

(** ** Uniqueness *)
Section Unique.
  Variable st : store.
  Variable order : list pystr.
  Hypothesis OK : store_ok st.
  Lemma glyph_unique : forall g x y, In (g, x) st -> In (g, y) st -> x = y.
  Proof. intros g x y. apply key_unique. apply OK. Qed.
  Lemma simple_not_composite : forall g n parts, simple_glyph st g n -> composite_of st order g parts -> False.
  Proof.
    intros g n parts (x & I & C & _) (P & y & J & F). assert (x = y) by (eapply glyph_unique; eauto). subst y.
    rewrite C in F. inversion F. congruence.
  Qed.
  Lemma simple_unique : forall g n m, simple_glyph st g n -> simple_glyph st g m -> n = m.
  Proof. intros g n m (x & I & _ & N) (y & J & _ & M). assert (x = y) by (eapply glyph_unique; eauto). congruence. Qed.
  Lemma simple_nonneg : forall g n, simple_glyph st g n -> 0 <= n.
  Proof. intros g n (x & I & _ & N). apply OK in I. destruct I as [I _]. lia. Qed.
  Lemma parts_unique : forall g p q, composite_of st order g p -> composite_of st order g q -> p = q.
  Proof.
    intros g p q (_ & x & I & F) (_ & y & J & G). assert (x = y) by (eapply glyph_unique; eauto). subst y.
    revert q G. induction F as [|gid [c n] gids p [A B] F IH]; intros q G; inversion G; subst; [reflexivity|].
    destruct y as [c' n']. match goal with H : py_index _ _ = _ /\ _ |- _ => destruct H as [A' B'] end.
    cbn [fst snd] in *. rewrite A in A'. injection A' as <-. assert (n = n') by (eapply simple_unique; eauto). subst n'.
    f_equal. now apply IH.
  Qed.
  Lemma total_nonneg : forall g p, composite_of st order g p -> Forall (fun q => 0 <= snd q) p.
  Proof.
    intros g p (_ & x & _ & F). induction F as [|gid [c n] gids p [A B] F IH]; constructor; auto. eapply simple_nonneg; eauto.
  Qed.
  Lemma total_cons : forall p q, total (p :: q) = snd p + total q.
  Proof. reflexivity. Qed.
  Lemma total_nil : total [] = 0.
  Proof. reflexivity. Qed.
  Lemma total_app : forall p q, total (p ++ q) = total p + total q.
  Proof. induction p as [|a p IH]; intros q; cbn [app]; rewrite ?total_cons, ?total_nil; [lia|]. rewrite IH. lia. Qed.
  Lemma total_pos : forall p, Forall (fun q => 0 <= snd q) p -> 0 <= total p.
  Proof. induction 1; rewrite ?total_cons, ?total_nil; lia. Qed.
  Lemma points_unique : forall g n m, points_of st order g n -> points_of st order g m -> n = m.
  Proof.
    intros g n m [H|(p & H & ->)] [K|(q & K & ->)].
    - eapply simple_unique; eauto.
    - elim (simple_not_composite _ _ _ H K).
    - elim (simple_not_composite _ _ _ K H).
    - f_equal. eapply parts_unique; eauto.
  Qed.
  (** the part a point is in *)
  Lemma split_unique : forall b c n a b' c' n' a' i j, b ++ (c, n) :: a = b' ++ (c', n') :: a' ->
    Forall (fun q => 0 <= snd q) (b ++ (c, n) :: a) -> 0 <= i < n -> 0 <= j < n' -> total b + i = total b' + j ->
    b = b' /\ c = c' /\ n = n' /\ i = j.
  Proof.
    induction b as [|p b IH]; intros c n a [|q b'] c' n' a' i j E F Hi Hj T; cbn [app] in *.
    - injection E as <- <- _. rewrite total_nil in T. repeat split; lia.
    - injection E as <- E. inversion F as [|? ? F1 F2]; subst.
      rewrite ?total_cons, ?total_nil in T. cbn [snd] in T. apply Forall_app in F2. destruct F2 as [F2 _].
      pose proof (total_pos _ F2). lia.
    - injection E as -> E. inversion F as [|? ? F1 F2]; subst. rewrite ?total_cons, ?total_nil in T. cbn [snd] in T.
      apply Forall_app in F2. destruct F2 as [F2 _]. pose proof (total_pos _ F2). lia.
    - injection E as <- E. inversion F as [|? ? F1 F2]; subst. rewrite ?total_cons, ?total_nil in T. cbn [snd] in T.
      destruct (IH c n a b' c' n' a' i j E F2 Hi Hj ltac:(lia)) as (-> & H). tauto.
  Qed.
  Lemma stored_fun : forall g j l l', stored st g j l -> stored st g j l' -> l = l'.
  Proof.
    intros g j l l' (x & I & H) (y & J & K). assert (x = y) by (eapply glyph_unique; eauto). subst y.
    apply OK in I. destruct I as (_ & _ & N & _). eapply zkey_unique; eauto.
  Qed.
  Lemma stored_inj : forall g i j l, stored st g i l -> stored st g j l -> i = j.
  Proof.
    intros g i j l (x & I & H) (y & J & K). assert (x = y) by (eapply glyph_unique; eauto). subst y.
    apply OK in I. destruct I as (_ & N & _ & P & _). apply P in H. apply P in K. eapply key_unique; eauto.
  Qed.
  Lemma stored_made : forall g j l, stored st g j l -> made l.
  Proof. intros g j l (x & I & H). apply OK in I. destruct I as (_ & _ & _ & _ & M & _). eapply M; eauto. Qed.
  Lemma split_dash : forall a b s t, Forall (fun c => c <> 45) a -> Forall (fun c => c <> 45) b ->
    a ++ py "-" ++ s = b ++ py "-" ++ t -> a = b /\ s = t.
  Proof.
    induction a as [|x a IH]; intros [|y b] s t Fa Fb E.
    - change (45 :: s = 45 :: t) in E. injection E as ->. auto.
    - change (45 :: s = y :: b ++ py "-" ++ t) in E. injection E as <- _. inversion Fb; congruence.
    - change (x :: a ++ py "-" ++ s = 45 :: t) in E. injection E as -> _. inversion Fa; congruence.
    - cbn [app] in E. injection E as -> E. inversion Fa; inversion Fb; subst. destruct (IH b s t) as [-> ->]; auto.
  Qed.

  (** the label of a proper point *)
  Definition proper (g : pystr) (j : Z) (l : pystr) : Prop :=
    (exists n, simple_glyph st g n /\ 0 <= j < n /\ stored st g j l) \/
    (exists b c n a i l0, composite_of st order g (b ++ (c, n) :: a) /\ 0 <= i < n /\ stored st c i l0 /\
       j = total b + i /\ l = l0 ++ py "-" ++ dec_str (Z.of_nat (List.length b))).
  Lemma labelled_cases : forall g j l, labelled st order g j l -> exists n, points_of st order g n /\
    ((0 <= j < n /\ proper g j l) \/ (j = n /\ l = py "lsb") \/ (j = n + 1 /\ l = py "rsb")).
  Proof.
    intros g j l H. destruct H as [n i l S R T|b c n a i l C R T|n P|n P].
    - exists n. split; [now left|]. left. split; [assumption|]. left. eauto.
    - exists (total (b ++ (c, n) :: a)). split; [right; eauto|]. left. split.
      + pose proof (total_nonneg _ _ C) as F. rewrite total_app, total_cons. cbn [snd].
        apply Forall_app in F. destruct F as [F G]. inversion G; subst.
        pose proof (total_pos _ F). pose proof (total_pos a ltac:(assumption)). lia.
      + right. exists b, c, n, a, i, l. auto.
    - exists n. auto.
    - exists n. auto.
  Qed.
  Lemma proper_fun : forall g j l l', proper g j l -> proper g j l' -> l = l'.
  Proof.
    intros g j l l' [(n & S & R & T)|(b & c & n & a & i & l0 & C & R & T & Ej & El)]
      [(n' & S' & R' & T')|(b' & c' & n' & a' & i' & l0' & C' & R' & T' & Ej' & El')];
      try (exfalso; eapply simple_not_composite; eauto; fail).
    - eapply stored_fun; eauto.
    - assert (E : b ++ (c, n) :: a = b' ++ (c', n') :: a') by (eapply parts_unique; eauto).
      destruct (split_unique _ _ _ _ _ _ _ _ i i' E (total_nonneg _ _ C) R R' ltac:(lia)) as (-> & -> & -> & ->).
      subst l l'. f_equal. eapply stored_fun; eauto.
  Qed.
  Lemma same_split : forall (b b' : list (pystr * Z)) x a x' a', b ++ x :: a = b' ++ x' :: a' ->
    List.length b = List.length b' -> b = b' /\ x = x'.
  Proof.
    induction b as [|y b IH]; intros [|y' b'] x a x' a' E L; cbn [app List.length] in *; try discriminate.
    - injection E as -> _. auto.
    - injection E as -> E. destruct (IH b' x a x' a' E ltac:(lia)) as [-> ->]. auto.
  Qed.
  Lemma proper_inj : forall g i j l, proper g i l -> proper g j l -> i = j.
  Proof.
    intros g i0 j l [(n & S & R & T)|(b & c & n & a & i & l0 & C & R & T & Ej & El)]
      [(n' & S' & R' & T')|(b' & c' & n' & a' & i' & l0' & C' & R' & T' & Ej' & El')];
      try (exfalso; eapply simple_not_composite; eauto; fail).
    - eapply stored_inj; eauto.
    - assert (E : b ++ (c, n) :: a = b' ++ (c', n') :: a') by (eapply parts_unique; eauto).
      rewrite El in El'. apply split_dash in El'; [|apply made_chars; eapply stored_made; eauto|apply made_chars; eapply stored_made; eauto].
      destruct El' as [-> El']. apply dec_str_inj in El'. apply same_split in E; [|lia]. destruct E as [-> E].
      injection E as -> ->. assert (i = i') by (eapply stored_inj; eauto). lia.
  Qed.
  Lemma proper_not : forall g j l, proper g j l -> l <> py "lsb" /\ l <> py "rsb".
  Proof.
    intros g j l [(n & S & R & T)|(b & c & n & a & i & l0 & C & R & T & Ej & El)].
    - apply stored_made in T. apply made_chars in T. tauto.
    - assert (D : In 45 l) by (subst l; apply in_or_app; right; now left).
      split; intros ->; cbn in D; intuition discriminate.
  Qed.
  Lemma labelled_fun : forall g j l l', labelled st order g j l -> labelled st order g j l' -> l = l'.
  Proof.
    intros g j l l' H K. apply labelled_cases in H. apply labelled_cases in K.
    destruct H as (n & P & H). destruct K as (m & Q & K). assert (n = m) by (eapply points_unique; eauto). subst m.
    destruct H as [[R H]|[[E ->]|[E ->]]]; destruct K as [[R' K]|[[E' ->]|[E' ->]]]; try lia; try reflexivity.
    eapply proper_fun; eauto.
  Qed.
  Lemma labelled_inj : forall g i j l, labelled st order g i l -> labelled st order g j l -> i = j.
  Proof.
    intros g i j l H K. apply labelled_cases in H. apply labelled_cases in K.
    destruct H as (n & P & H). destruct K as (m & Q & K). assert (n = m) by (eapply points_unique; eauto). subst m.
    destruct H as [[R H]|[[E El]|[E El]]]; destruct K as [[R' K]|[[E' El']|[E' El']]];
      try (eapply proper_inj; eassumption);
      try (apply proper_not in H); try (apply proper_not in K); try lia; try tauto; try (subst l; discriminate).
  Qed.
End Unique.

(** ** Requests *)
Definition aseta {V} := aget_aset (V := V) str_eqb str_eqb_eq.
Lemma In_aset : forall V (d : list (pystr * V)) k v k' w, NoDup (map fst d) ->
  (In (k', w) (aset str_eqb k v d) <-> (k' = k /\ w = v) \/ (k' <> k /\ In (k', w) d)).
Proof.
  intros V d k v k' w N.
  assert (N' : NoDup (map fst (aset str_eqb k v d))) by (apply aset_nodup; [exact str_eqb_eq|assumption]).
  assert (X : forall e : list (pystr * V), NoDup (map fst e) -> (In (k', w) e <-> aget str_eqb k' e = Some w)).
  { intros e Ne. split; [now apply (In_aget str_eqb str_eqb_eq)|apply ageta]. }
  rewrite (X _ N'), (X _ N), aseta. destruct (str_eqb k' k) eqn:E.
  - apply str_eqb_eq in E. subst. split; [intros [= ->]; auto|]. intros [[_ ->]|[[] _]]; reflexivity.
  - apply str_eqb_neq in E. split; [intros ->; right; split; congruence|]. intros [[-> _]|[_ H]]; congruence.
Qed.
Lemma zIn_aset : forall V (d : list (Z * V)) k v k' w, NoDup (map fst d) ->
  (In (k', w) (aset Z.eqb k v d) <-> (k' = k /\ w = v) \/ (k' <> k /\ In (k', w) d)).
Proof.
  intros V d k v k' w N.
  assert (N' : NoDup (map fst (aset Z.eqb k v d))) by (apply aset_nodup; [exact zeqb_eq|assumption]).
  assert (X : forall e : list (Z * V), NoDup (map fst e) -> (In (k', w) e <-> aget Z.eqb k' e = Some w)).
  { intros e Ne. split; [now apply (In_aget Z.eqb zeqb_eq)|apply (aget_In Z.eqb zeqb_eq)]. }
  rewrite (X _ N'), (X _ N), (aget_aset Z.eqb zeqb_eq). destruct (k' =? k) eqn:E.
  - apply Z.eqb_eq in E. subst. split; [intros [= ->]; auto|]. intros [[_ ->]|[[] _]]; reflexivity.
  - apply Z.eqb_neq in E. split; [intros ->; right; split; congruence|]. intros [[-> _]|[_ H]]; congruence.
Qed.

(** a point of a simple glyph *)
Lemma simple_label_ok : forall x index code start, glyph_ok x -> 0 <= index < lg_nodes x ->
  In code (map fst label_codes) -> 0 <= start -> exists l x',
  simple_label x index code start = Ok (l, x') /\ glyph_ok x' /\ lg_components x' = lg_components x /\
  lg_nodes x' = lg_nodes x /\ In (index, l) (lg_points x') /\ forall j m, In (j, m) (lg_points x) -> In (j, m) (lg_points x').
Proof.
  intros x index code start OK R C S. unfold simple_label.
  destruct (aget Z.eqb index (lg_points x)) as [l|] eqn:E.
  - exists l, x. apply (aget_In Z.eqb zeqb_eq) in E. auto 10.
  - replace (index =? lg_nodes x) with false by lia. replace (index =? lg_nodes x + 1) with false by lia.
    unfold aget_res. destruct (aget str_eqb code label_codes) as [short|] eqn:Es.
    2: { exfalso. now apply (aget_None str_eqb str_eqb_eq) in Es. }
    cbn [rthen]. destruct (new_label_ok short (lg_labels x) start S) as (l & E1 & E2 & j & Hj & El).
    rewrite E1. cbn [rthen]. do 2 eexists. split; [reflexivity|].
    destruct OK as (N0 & NL & NP & Inv & M & Rg).
    apply (aget_None Z.eqb zeqb_eq) in E. apply (aget_None str_eqb str_eqb_eq) in E2.
    cbn [lg_components lg_nodes lg_points lg_labels]. unfold glyph_ok. cbn [lg_components lg_nodes lg_points lg_labels].
    split; [|repeat split].
    + split; [assumption|]. split; [apply aset_nodup; [exact str_eqb_eq|assumption]|].
      split; [apply aset_nodup; [exact zeqb_eq|assumption]|]. split.
      * intros i m. rewrite zIn_aset, In_aset by assumption. rewrite Inv. split.
        -- intros [[-> ->]|[H1 H2]]; [auto|]. right. split; [|assumption]. intros ->. apply E2. now apply (in_map fst) in H2.
        -- intros [[-> ->]|[H1 H2]]; [auto|]. right. split; [|assumption]. intros ->. apply Inv in H2. apply E. now apply (in_map fst) in H2.
      * split; intros i m; (rewrite zIn_aset by assumption); (intros [[-> ->]|[_ H]]; [|eauto]); [|assumption].
        apply ageta in Es. exists code, short, j. split; [assumption|]. split; [lia|assumption].
    + apply zIn_aset; auto.
    + intros i m H. apply zIn_aset; [assumption|]. right. split; [|assumption]. intros ->. apply E. now apply (in_map fst) in H.
Qed.

Lemma store_set_ok : forall st g x x', store_ok st -> In (g, x) st -> glyph_ok x' -> store_ok (aset str_eqb g x' st).
Proof.
  intros st g x x' [N OK] I G. split; [apply aset_nodup; [exact str_eqb_eq|assumption]|].
  intros h y H. apply In_aset in H; [|assumption]. destruct H as [[-> ->]|[_ H]]; [assumption|eauto].
Qed.
Lemma store_set_ext : forall st g x x', store_ok st -> In (g, x) st -> lg_components x' = lg_components x -> lg_nodes x' = lg_nodes x ->
  (forall j m, In (j, m) (lg_points x) -> In (j, m) (lg_points x')) -> extends st (aset str_eqb g x' st).
Proof.
  intros st g x x' [N OK] I C Nn P h y H. destruct (str_eqb g h) eqn:E.
  - apply str_eqb_eq in E. subst h. assert (y = x) by (eapply key_unique; eauto). subst y.
    exists x'. split; [apply In_aset; auto|]. auto.
  - apply str_eqb_neq in E. exists y. split; [apply In_aset; auto|]. auto.
Qed.

Definition answered (st : store) (order : list pystr) (g : pystr) (index : Z) (r : res (pystr * store)) : Prop :=
  exists l st', r = Ok (l, st') /\ store_ok st' /\ extends st st' /\ labelled st' order g index l.

Lemma get_In : forall st g x, store_ok st -> In (g, x) st -> aget_res str_eqb g st = Ok x.
Proof. intros st g x [N _] I. unfold aget_res. now rewrite (In_aget str_eqb str_eqb_eq _ _ _ N I). Qed.

(** a point of a simple glyph: also the stored label *)
Lemma simple_answer : forall f order st g n index code start, store_ok st -> simple_glyph st g n -> 0 <= index < n ->
  In code (map fst label_codes) -> 0 <= start -> exists l st',
  get_point_label (S f) order st g index code start = Ok (l, st') /\ store_ok st' /\ extends st st' /\ stored st' g index l.
Proof.
  intros f order st g n index code start OK (x & I & C & N) R Cd S. cbn [get_point_label].
  rewrite (get_In _ _ _ OK I). cbn [rthen]. rewrite C.
  destruct (simple_label_ok x index code start) as (l & x' & E & G & C' & N' & P & Q); auto; [now apply OK in I|lia|].
  rewrite E. cbn [rmap fst snd]. exists l, (aset str_eqb g x' st). split; [reflexivity|].
  split; [eapply store_set_ok; eauto|]. split; [eapply store_set_ext; eauto|].
  exists x'. split; [|assumption]. apply In_aset; [apply OK|auto].
Qed.

Lemma find_component_ok : forall st order gids parts i index tot, store_ok st ->
  Forall2 (fun gid p => py_index order gid = Ok (fst p) /\ simple_glyph st (fst p) (snd p)) gids parts -> 0 <= index ->
  (exists b c n a j, parts = b ++ (c, n) :: a /\ 0 <= j < n /\ index = total b + j /\
     find_component st order gids i index tot = Ok (inl (i + Z.of_nat (List.length b), c, j))) \/
  (total parts <= index /\ find_component st order gids i index tot = Ok (inr (tot + total parts))).
Proof.
  intros st order gids parts i index tot OK F. revert i index tot.
  induction F as [|gid [c n] gids parts [A B] F IH]; intros i index tot R; cbn [find_component].
  - right. rewrite total_nil. split; [assumption|]. do 2 f_equal. lia.
  - cbn [fst snd] in *. rewrite A. cbn [rthen]. destruct B as (x & I & C & N). rewrite (get_In _ _ _ OK I). cbn [rthen].
    assert (P : 0 <= n) by (apply OK in I; destruct I as [I _]; lia).
    cbv zeta. rewrite N. destruct (index <? n) eqn:E.
    + left. exists [], c, n, parts, index. repeat split; try lia. do 3 f_equal. f_equal. cbn. lia.
    + destruct (IH (i + 1) (index - n) (tot + n) ltac:(lia)) as [(b & c' & n' & a & j & -> & Rj & Ei & Ef)|[T Ef]].
      * left. exists ((c, n) :: b), c', n', a, j. split; [reflexivity|]. split; [assumption|].
        rewrite total_cons. cbn [snd]. split; [lia|]. rewrite Ef. do 3 f_equal. f_equal. cbn [List.length]. lia.
      * right. rewrite total_cons. cbn [snd]. split; [lia|]. rewrite Ef. do 2 f_equal. lia.
Qed.

Lemma get_point_label_ok : forall f order st r, store_ok st -> good_request st order r ->
  answered st order (rq_glyph r) (rq_index r)
    (get_point_label (S (S f)) order st (rq_glyph r) (rq_index r) (rq_code r) (rq_start r)).
Proof.
  intros f order st [g index code start] OK ((n & P & R) & Cd & St). cbn [rq_glyph rq_index rq_code rq_start] in *.
  destruct P as [P|(parts & P & ->)].
  - destruct (Z.ltb_spec index n) as [H|H].
    + destruct (simple_answer (S f) order st g n index code start OK P ltac:(lia) Cd St) as (l & st' & E & O & X & T).
      exists l, st'. split; [assumption|]. split; [assumption|]. split; [assumption|].
      eapply lab_simple; eauto using simple_ext. lia.
    + pose proof P as (x & I & C & N). remember (S f) as f' eqn:Ef. cbn [get_point_label]. rewrite (get_In _ _ _ OK I). cbn [rthen]. rewrite C.
      assert (S : simple_label x index code start = Ok (if index =? n then py "lsb" else py "rsb", x)).
      { unfold simple_label. destruct (aget Z.eqb index (lg_points x)) as [l|] eqn:E.
        - apply (aget_In Z.eqb zeqb_eq) in E. apply OK in I. destruct I as (_ & _ & _ & _ & _ & Rg). apply Rg in E. lia.
        - rewrite N. destruct (index =? n) eqn:E1; [reflexivity|]. replace (index =? n + 1) with true by lia. reflexivity. }
      rewrite S. cbn [rmap fst snd].
      assert (X : extends st (aset str_eqb g x st)) by (eapply store_set_ext; eauto).
      do 2 eexists. split; [reflexivity|]. split; [eapply store_set_ok; eauto; now apply OK in I|]. split; [assumption|].
      assert (Pn : points_of (aset str_eqb g x st) order g n) by (eapply points_ext; [eassumption|now left]).
      destruct (index =? n) eqn:E.
      * replace index with n by lia. now apply lab_left.
      * replace index with (n + 1) by lia. now apply lab_right.
  - pose proof P as (Ne & x & I & F). remember (S f) as f' eqn:Ef. cbn [get_point_label]. rewrite (get_In _ _ _ OK I). cbn [rthen].
    destruct (find_component_ok st order _ _ 0 index 0 OK F ltac:(lia)) as [(b & c & n & a & j & -> & Rj & Ei & E)|[T E]].
    + destruct (lg_components x) as [|gid gids] eqn:C; [inversion F; destruct b; discriminate|].
      rewrite E. cbn [rthen]. subst f'.
      assert (Sc : simple_glyph st c n).
      { apply Forall2_app_inv_r in F. destruct F as (g1 & g2 & _ & F & _). inversion F; subst. tauto. }
      destruct (simple_answer f order st c n j code 1 OK Sc Rj Cd ltac:(lia)) as (l & st' & El & O & X & T).
      rewrite El. cbn [rmap fst snd]. do 2 eexists. split; [reflexivity|]. split; [assumption|]. split; [assumption|].
      subst index. eapply (lab_part _ _ _ b c n a j l); eauto using composite_ext.
    + destruct (lg_components x) as [|gid gids] eqn:C; [inversion F; congruence|].
      rewrite E. cbn [rthen]. do 2 eexists. split; [reflexivity|]. split; [assumption|]. split; [apply extends_refl|].
      assert (Pn : points_of st order g (total parts)) by (right; eauto).
      destruct (index =? 0 + total parts) eqn:E1.
      * replace index with (total parts) by lia. now apply lab_left.
      * replace (index =? 0 + total parts + 1) with true by lia. replace index with (total parts + 1) by lia. now apply lab_right.
Qed.

Lemma good_ext : forall st st' order r, extends st st' -> good_request st order r -> good_request st' order r.
Proof. intros st st' order r X ((n & P & R) & H). split; [|assumption]. exists n. split; [|assumption]. eapply points_ext; eauto. Qed.

Theorem run_requests_ok : forall f order h st, store_ok st -> Forall (good_request st order) h -> exists ls st',
  run_requests (S (S f)) order st h = Ok (ls, st') /\ store_ok st' /\ extends st st' /\
  Forall2 (fun r l => labelled st' order (rq_glyph r) (rq_index r) l) h ls.
Proof.
  intros f order. induction h as [|r h IH]; intros st OK F.
  - exists [], st. cbn [run_requests]. auto using extends_refl.
  - inversion F as [|? ? F1 F2]; subst. destruct (get_point_label_ok f order st r OK F1) as (l & st1 & E & O1 & X1 & L).
    destruct (IH st1 O1) as (ls & st2 & E2 & O2 & X2 & L2).
    { eapply Forall_impl; [|exact F2]. intros q. now apply good_ext. }
    exists (l :: ls), st2. remember (S (S f)) as f' eqn:Ef. cbn [run_requests]. rewrite E. cbn [rthen snd fst]. rewrite E2. cbn [rmap fst snd].
    split; [reflexivity|]. split; [assumption|]. split; [eapply extends_trans; eauto|].
    constructor; [|assumption]. eapply labelled_ext; eauto.
Qed.
