(** Proofs about the passes over the glyphs of a font. *)
From Coq Require Import String.
From Verif Require Import Base M_Py M_Glyph M_Labels M_PsHints M_Paths M_Export S_Labels S_PsHints S_Paths S_Export Lib P_Labels P_PsHints P_Paths Prop_PsHints.
Local Open Scope list_scope.

(** ** Two masters of a contour *)
Section Kinds.
  Variables (m m' : nat) (labels : Z -> option pystr).
  Lemma own_kind : forall i t n, kind (own m labels i t n) = kind (own m' labels i t n).
  Proof. reflexivity. Qed.
  Lemma tail_kind : forall n, nd_type n = Curve -> node_ok m n -> node_ok m' n ->
    map kind (map (UPoint None false None) (tl (row m n))) = map kind (map (UPoint None false None) (tl (row m' n))).
  Proof.
    intros n T (r & E & L) (r' & E' & L'). unfold row. rewrite (nth_error_nth _ _ _ E), (nth_error_nth _ _ _ E'). rewrite T in L, L'.
    destruct r as [|a [|b [|c [|? ?]]]]; try discriminate. destruct r' as [|a' [|b' [|c' [|? ?]]]]; try discriminate. reflexivity.
  Qed.
  Lemma raw1_kind : forall i q n, node_ok m n -> node_ok m' n -> map kind (raw1 m labels i q n) = map kind (raw1 m' labels i q n).
  Proof.
    intros i q n H H'. unfold raw1. destruct (nd_type n) eqn:T; try reflexivity. rewrite !map_app. f_equal. now apply tail_kind.
  Qed.
  Lemma raw_kind : forall nodes i q, Forall (node_ok m) nodes -> Forall (node_ok m') nodes ->
    map kind (raw m labels i q nodes) = map kind (raw m' labels i q nodes).
  Proof.
    induction nodes as [|n nodes IH]; intros i q F F'; [reflexivity|]. cbn [raw]. rewrite !map_app.
    rewrite raw1_kind by (now apply Forall_inv in F; apply Forall_inv in F'). f_equal.
    apply IH; [now apply Forall_inv_tail in F|now apply Forall_inv_tail in F'].
  Qed.
  Lemma set_type_kind : forall t p p', kind p = kind p' -> kind (set_type t p) = kind (set_type t p').
  Proof. intros t p p' E. unfold kind in *. cbn [set_type up_type up_smooth up_name]. injection E as _ -> ->. reflexivity. Qed.
  Lemma joined_name_kind : forall i rest p p', kind p = kind p' -> kind (joined_name labels i rest p) = kind (joined_name labels i rest p').
  Proof.
    intros i rest p p' E. unfold joined_name. destruct (labels i); [|assumption]. destruct (labels _); [assumption|].
    unfold kind in *. cbn [set_name up_type up_smooth up_name]. injection E as -> -> _. reflexivity.
  Qed.
End Kinds.

Lemma map_kind_length : forall c c', compatible c c' -> List.length c = List.length c'.
Proof. intros c c' E. apply (f_equal (@List.length _)) in E. now rewrite !map_length in E. Qed.

(** the length of a contour does not depend on the master *)
Lemma coords_len : forall m m' n, node_ok m n -> node_ok m' n -> List.length (coords m n) = List.length (coords m' n).
Proof.
  intros m m' n (r & E & L) (r' & E' & L'). unfold coords, row. rewrite (nth_error_nth _ _ _ E), (nth_error_nth _ _ _ E').
  rewrite !app_length. destruct r, r'; cbn in *; destruct (nd_type n); lia.
Qed.
Lemma all_coords_len : forall m m' g, Forall (node_ok m) g -> Forall (node_ok m') g -> List.length (all_coords m g) = List.length (all_coords m' g).
Proof.
  intros m m'. unfold all_coords. induction g as [|n g IH]; intros F F'; [reflexivity|]. cbn [map concat]. rewrite !app_length.
  rewrite (coords_len m m') by (now apply Forall_inv in F; apply Forall_inv in F').
  rewrite IH; [reflexivity|now apply Forall_inv_tail in F|now apply Forall_inv_tail in F'].
Qed.

Lemma removelast_length : forall A (l : list A), l <> [] -> List.length l = S (List.length (removelast l)).
Proof.
  intros A l N.
  destruct (exists_last N) as (a & x & ->). rewrite removelast_last, app_length. cbn. lia. Qed.

Lemma joined_dec : forall m g, contour g -> joined m g \/ ~ joined m g.
Proof.
  intros m g (n & rest & -> & _ & _). rewrite joined_iff. destruct (Z.testbit (nd_flags n) 3) eqn:O; [right; intros [H _]; discriminate|].
  destruct rest as [|x rest]; [right; intros (_ & mid0 & l0 & H & _); destruct mid0; discriminate|].
  assert (Ne : x :: rest <> []) by discriminate. destruct (exists_last Ne) as (mid & l & E). rewrite E.
  assert (X : forall mid' l', mid ++ [l] = mid' ++ [l'] -> l = l') by (intros mid' l' H; now apply app_inj_tail in H).
  destruct (nd_type l) eqn:T; try (right; intros (_ & mid' & l' & H & T' & _); apply X in H; subst; congruence).
  destruct (pt_eqb (node_pt m l) (node_pt m n)) eqn:P.
  - left. split; [reflexivity|]. exists mid, l. apply pt_eqb_eq in P. auto.
  - right. intros (_ & mid' & l' & H & _ & P'). apply X in H. subst l'. apply pt_eqb_eq in P'. congruence.
Qed.

Theorem group_compatible : forall m m' labels i g, contour g -> Forall (node_ok m) g -> Forall (node_ok m') g ->
  let c := fst (flush_group m labels i g []) in let c' := fst (flush_group m' labels i g []) in
  (compatible c c' <-> (joined m g <-> joined m' g)) /\ (List.length c = List.length c' <-> (joined m g <-> joined m' g)).
Proof.
  intros m m' labels i g C F F' c c'.
  assert (Same : (joined m g <-> joined m' g) -> compatible c c').
  { intros J. unfold c, c', compatible. destruct C as (n & rest & -> & T & Tr). rewrite !joined_iff in J.
    assert (Fr : Forall (node_ok m) rest) by (now apply Forall_inv_tail in F).
    assert (Fr' : Forall (node_ok m') rest) by (now apply Forall_inv_tail in F').
    pose proof (raw_kind m m' labels rest (i + 1) false Fr Fr') as K.
    destruct (flush_shape m labels i n rest [] Tr) as [[O E]|[(O & Er & E)|(O & mid & l & Er & S)]];
    destruct (flush_shape m' labels i n rest [] Tr) as [[O' E']|[(O' & Er' & E')|(O' & mid' & l' & Er' & S')]]; try congruence.
    - rewrite E, E'. cbn [fst map]. now f_equal.
    - rewrite E, E'. reflexivity.
    - subst rest. now destruct mid'.
    - subst rest. now destruct mid.
    - rewrite Er in Er'. apply app_inj_tail in Er'. destruct Er' as [<- <-].
      assert (Fl : node_ok m l /\ Forall (node_ok m) mid) by (rewrite Er in Fr; apply Forall_app in Fr; destruct Fr as [A B]; split; [now apply Forall_inv in B|exact A]).
      assert (Fl' : node_ok m' l /\ Forall (node_ok m') mid) by (rewrite Er in Fr'; apply Forall_app in Fr'; destruct Fr' as [A B]; split; [now apply Forall_inv in B|exact A]).
      assert (J1 : node_pt m l = node_pt m n -> nd_type l = Curve -> node_pt m' l = node_pt m' n).
      { intros P Tl. destruct (proj1 J) as (_ & mid' & l' & H & _ & P'); [split; [exact O|]; eauto|]. rewrite Er in H. apply app_inj_tail in H. destruct H as [_ <-]. exact P'. }
      assert (J2 : node_pt m' l = node_pt m' n -> nd_type l = Curve -> node_pt m l = node_pt m n).
      { intros P Tl. destruct (proj2 J) as (_ & mid' & l' & H & _ & P'); [split; [exact O|]; eauto|]. rewrite Er in H. apply app_inj_tail in H. destruct H as [_ <-]. exact P'. }
      destruct S as [[Tl E]|[(Tl & Pl & E)|(Tl & Pl & E)]]; destruct S' as [[Tl' E']|[(Tl' & Pl' & E')|(Tl' & Pl' & E')]]; try congruence.
      + rewrite E, E'. cbn [fst map]. f_equal; exact K.
      + rewrite E, E'. cbn [fst map]. f_equal; [now apply joined_name_kind|]. rewrite !map_app. f_equal; [apply raw_kind; tauto|]. apply tail_kind; tauto.
      + elim (Pl' Tl). auto.
      + elim (Pl Tl'). auto.
      + rewrite E, E'. cbn [fst map]. f_equal; exact K. }
  assert (Len : List.length c = List.length c' -> (joined m g <-> joined m' g)).
  { intros L. destruct (flush_points m labels i g C F) as [P1 P2]. destruct (flush_points m' labels i g C F') as [P1' P2'].
    fold c in P1, P2. fold c' in P1', P2'. pose proof (all_coords_len m m' g F F') as A.
    assert (N : all_coords m g <> []).
    { destruct C as (n & rest & -> & _). unfold all_coords. cbn [map concat]. unfold coords. intros X. apply app_eq_nil in X. destruct X as [X _].
      apply app_eq_nil in X. destruct X as [_ X]. discriminate. }
    assert (N' : all_coords m' g <> []) by (intros X; rewrite X in A; destruct (all_coords m g); [congruence|discriminate]).
    pose proof (removelast_length _ _ N) as R. pose proof (removelast_length _ _ N') as R'.
    destruct (joined_dec m g C) as [J|J], (joined_dec m' g C) as [J'|J']; [tauto| | |tauto]; exfalso.
    - specialize (P1 J). specialize (P2' J'). apply (f_equal (@List.length _)) in P1, P2'. rewrite map_length in P1, P2'. lia.
    - specialize (P2 J). specialize (P1' J'). apply (f_equal (@List.length _)) in P2, P1'. rewrite map_length in P2, P1'. lia. }
  split; split; auto.
  - intros K. apply Len. now apply map_kind_length.
  - intros J. apply map_kind_length. auto.
Qed.

(** ** Labels *)
Definition has_label (st : store) (name : pystr) (i : Z) : Prop := exists l, stored st name i l.
(** only the glyph [name] has changed *)
Definition frame (name : pystr) (st st' : store) : Prop := forall k, k <> name -> aget str_eqb k st' = aget str_eqb k st.
Lemma frame_refl : forall name st, frame name st st.
Proof. intros name st k H. reflexivity. Qed.
Lemma frame_trans : forall name a b c, frame name a b -> frame name b c -> frame name a c.
Proof. intros name a b c H K k N. rewrite (K k N). now apply H. Qed.
Lemma aset_id : forall V (d : list (pystr * V)) k v, NoDup (map fst d) -> In (k, v) d -> aset str_eqb k v d = d.
Proof.
  induction d as [|[k' v'] d IH]; intros k v N I; [contradiction|]. cbn [aset]. cbn [map fst] in N. inversion N as [|? ? N1 N2]; subst.
  destruct (str_eqb k k') eqn:E.
  - apply str_eqb_eq in E. subst k'. destruct I as [I|I]; [injection I as ->; reflexivity|]. elim N1. now apply (in_map fst) in I.
  - destruct I as [I|I]; [injection I as -> ->; rewrite str_eqb_refl in E; discriminate|]. f_equal. now apply IH.
Qed.

Lemma In_aset_weak : forall V (d : list (pystr * V)) k v p, In p (aset str_eqb k v d) -> p = (k, v) \/ In p d.
Proof.
  induction d as [|[k' v'] d IH]; intros k v p I; cbn [aset] in I.
  - destruct I as [I|[]]. now left.
  - destruct (str_eqb k k') eqn:E.
    + apply str_eqb_eq in E. subst k'. destruct I as [I|I]; [now left|right; now right].
    + destruct I as [I|I]; [right; now left|]. destruct (IH _ _ _ I) as [H|H]; [now left|right; now right].
Qed.
Section Simple.
  Variables (f : nat) (order : list pystr) (name : pystr) (n : Z).
  Let ff := S (S f).
  Lemma request1 : forall st i, store_ok st -> simple_glyph st name n -> 0 <= i < n ->
    exists l st', hint_label ff order name st i = Ok (l, st') /\ store_ok st' /\ extends st st' /\ frame name st st' /\
      stored st' name i l /\ (has_label st name i -> st' = st).
  Proof.
    intros st i OK (x & I & C & N) R. unfold hint_label, ff. cbn [get_point_label].
    rewrite (get_In _ _ _ OK I). cbn [rthen]. rewrite C.
    destruct (simple_label_ok x i (py "PSHintReplacement") 0) as (l & x' & E & G & C' & N' & P & Q);
      [now apply OK in I|lia|cbn; tauto|lia|].
    rewrite E. cbn [rmap fst snd]. exists l, (aset str_eqb name x' st). split; [reflexivity|].
    split; [eapply store_set_ok; eauto|]. split; [eapply store_set_ext; eauto|]. split; [|split].
    - intros k Nk. rewrite (aget_aset str_eqb str_eqb_eq). destruct (str_eqb name k) eqn:Ek; [|destruct (str_eqb k name) eqn:Ek'].
      + apply str_eqb_eq in Ek. congruence.
      + apply str_eqb_eq in Ek'. congruence.
      + reflexivity.
    - exists x'. split; [|assumption]. apply In_aset; [apply OK|auto].
    - intros (l' & y & J & K). assert (y = x) by (eapply key_unique; eauto; apply OK). subst y.
      assert (H : x' = x).
      { unfold simple_label in E. destruct OK as [_ OK]. pose proof (OK _ _ I) as (_ & _ & Np & _).
        rewrite (In_aget Z.eqb zeqb_eq _ _ _ Np K) in E. now injection E. }
      subst x'. apply aset_id; [apply OK|assumption].
  Qed.

  (** the nodes that labels are requested for *)
  Fixpoint reqs (h v : list hint) (node : Z) (stems : bool) (masks : list (pystr * Z)) : list Z :=
    match masks with
    | [] => if stems then [node] else []
    | mask :: masks =>
        if str_eqb (fst mask) (py "r") then node :: reqs h v (replaced_node (snd mask)) false masks
        else reqs h v node (stems || match choice h v mask with [] => false | _ => true end) masks
    end.
  Lemma choice_len : forall h v h' v' mask, List.length h = List.length h' -> List.length v = List.length v' ->
    match choice h v mask with [] => false | _ => true end = match choice h' v' mask with [] => false | _ => true end.
  Proof.
    clear. intros h v h' v' mask Eh Ev. unfold choice.
    assert (X : forall a b : list hint, List.length a = List.length b ->
      match match nth_error a (Z.to_nat (snd mask)) with Some x => [x] | None => [] end with [] => false | _ => true end =
      match match nth_error b (Z.to_nat (snd mask)) with Some x => [x] | None => [] end with [] => false | _ => true end).
    { intros a b E. destruct (nth_error a (Z.to_nat (snd mask))) eqn:A, (nth_error b (Z.to_nat (snd mask))) eqn:B; try reflexivity; exfalso.
      - apply nth_error_None in B. assert (Z.to_nat (snd mask) < List.length a)%nat by (apply nth_error_Some; congruence). lia.
      - apply nth_error_None in A. assert (Z.to_nat (snd mask) < List.length b)%nat by (apply nth_error_Some; congruence). lia. }
    destruct (str_eqb _ _); now apply X.
  Qed.
  Lemma reqs_len : forall h v h' v' masks node s, List.length h = List.length h' -> List.length v = List.length v' ->
    reqs h v node s masks = reqs h' v' node s masks.
  Proof.
    clear. intros h v h' v' masks. induction masks as [|mask masks IH]; intros node s Eh Ev; cbn [reqs]; [reflexivity|].
    destruct (str_eqb _ _); rewrite IH by assumption; [reflexivity|]. now rewrite (choice_len h v h' v' mask Eh Ev).
  Qed.

  Definition outcome (st : store) (wanted : list Z) (st' : store) : Prop :=
    store_ok st' /\ extends st st' /\ frame name st st' /\ (forall i, In i wanted -> has_label st' name i) /\
    ((forall i, In i wanted -> has_label st name i) -> st' = st).
  Lemma has_ext : forall st st' i, extends st st' -> has_label st name i -> has_label st' name i.
  Proof. intros st st' i X (l & H). exists l. eapply stored_ext; eauto. Qed.
  Lemma outcome_nil : forall st, store_ok st -> outcome st [] st.
  Proof. intros st OK. split; [assumption|]. split; [apply extends_refl|]. split; [apply frame_refl|]. split; [intros i []|reflexivity]. Qed.
  Lemma outcome_cons : forall st i st1 wanted st2, store_ok st1 -> extends st st1 -> frame name st st1 -> has_label st1 name i ->
    (has_label st name i -> st1 = st) -> outcome st1 wanted st2 -> outcome st (i :: wanted) st2.
  Proof.
    intros st i st1 wanted st2 O1 X1 F1 H1 S1 (O2 & X2 & F2 & H2 & S2). split; [assumption|]. split; [eapply extends_trans; eauto|].
    split; [eapply frame_trans; eauto|]. split.
    - intros j [<-|H]; [eapply has_ext; eauto|auto].
    - intros K. assert (st1 = st) by (apply S1, K; now left). subst st1. apply S2. intros j H. apply K. now right.
  Qed.
  (** the tags are labels of points *)
  Definition tagged {A} (st : store) (sets : list (pystr * A)) : Prop :=
    Forall (fun s => exists i, 0 <= i < n /\ stored st name i (fst s)) sets.
  Lemma tagged_ext : forall A st st' (sets : list (pystr * A)), extends st st' -> tagged st sets -> tagged st' sets.
  Proof. intros A st st' sets X T. eapply Forall_impl; [|exact T]. intros s (i & R & H). exists i. split; [exact R|]. eapply stored_ext; eauto. Qed.
  Lemma last_set_simple : forall s st, store_ok st -> simple_glyph st name n -> (hs_stems s <> [] -> 0 <= hs_node s < n) ->
    tagged st (hs_sets s) ->
    exists sets st', last_set ff order name s st = Ok (sets, st') /\
      outcome st (match hs_stems s with [] => [] | _ => [hs_node s] end) st' /\ tagged st' sets.
  Proof.
    intros s st OK G R T. unfold last_set. destruct (hs_stems s) as [|x l] eqn:E.
    - exists (hs_sets s), st. split; [reflexivity|]. split; [now apply outcome_nil|exact T].
    - assert (Rn : 0 <= hs_node s < n) by (apply R; discriminate).
      destruct (request1 st (hs_node s) OK G Rn) as (lb & st' & El & O & X & F & H & S).
      rewrite El. cbn [rmap fst snd]. exists (hs_sets s ++ [(lb, x :: l)]), st'. split; [reflexivity|].
      split; [eapply outcome_cons; eauto; [now exists lb|now apply outcome_nil]|].
      apply Forall_app. split; [eapply tagged_ext; eauto|]. constructor; [|constructor]. exists (hs_node s). split; [exact Rn|exact H].
  Qed.
  Lemma loop_simple : forall h v masks s st, store_ok st -> simple_glyph st name n -> Forall mask_ok masks ->
    Forall (fun i => 0 <= i < n) (reqs h v (hs_node s) (match hs_stems s with [] => false | _ => true end) masks) ->
    tagged st (hs_sets s) ->
    exists sets st', rthen (mask_loop ff order name h v s st masks) (fun r => last_set ff order name (fst r) (snd r)) = Ok (sets, st') /\
      outcome st (reqs h v (hs_node s) (match hs_stems s with [] => false | _ => true end) masks) st' /\ tagged st' sets.
  Proof.
    intros h v. induction masks as [|mask masks IH]; intros s st OK G M R T.
    - cbn [mask_loop rthen fst snd reqs] in *.
      destruct (last_set_simple s st OK G) as (sets & st' & E & O & T').
      { intros N. destruct (hs_stems s); [congruence|]. now apply Forall_inv in R. }
      { exact T. }
      exists sets, st'. split; [exact E|]. split; [|exact T']. destruct (hs_stems s); exact O.
    - pose proof (Forall_inv M) as M1. apply Forall_inv_tail in M. cbn [mask_loop reqs] in *. destruct M1 as [K|[P K]].
      + destruct mask as [k i]. cbn [fst snd] in *. subst k. rewrite str_eqb_refl in *.
        pose proof (Forall_inv R) as R1. apply Forall_inv_tail in R.
        destruct (request1 st (hs_node s) OK G R1) as (lb & st1 & El & O1 & X1 & F1 & H1 & S1).
        unfold mask_turn. change (mask_stems h v (py "r", i)) with (Ok (@nil hint)). cbn [rthen fst snd]. rewrite str_eqb_refl, app_nil_r.
        rewrite El. cbn [rmap rthen fst snd].
        assert (En : (if i <? 0 then Z.abs i - 1 else i) = replaced_node i) by (unfold replaced_node; destruct (i <? 0) eqn:?; lia).
        rewrite En.
        destruct (IH (HsState (replaced_node i) [] (hs_sets s ++ [(lb, hs_stems s)])) st1 O1) as (sets & st' & E & O & T'); auto.
        { eapply simple_ext; eauto. }
        { cbn [hs_sets]. apply Forall_app. split; [eapply tagged_ext; eauto|]. constructor; [|constructor]. exists (hs_node s). split; [exact R1|exact H1]. }
        cbn [hs_node hs_stems] in O. exists sets, st'. split; [exact E|]. split; [|exact T']. eapply outcome_cons; eauto. now exists lb.
      + rewrite plain_not_r in * by assumption. unfold mask_turn. rewrite mask_stems_ok by assumption. cbn [rthen]. rewrite plain_not_r by assumption.
        cbn [rthen fst snd].
        assert (B : (match hs_stems s with [] => false | _ => true end || match choice h v mask with [] => false | _ => true end)%bool =
                    match hs_stems s ++ choice h v mask with [] => false | _ => true end).
        { destruct (hs_stems s); reflexivity. }
        rewrite B in *.
        destruct (IH (HsState (hs_node s) (hs_stems s ++ choice h v mask) (hs_sets s)) st OK G M R T) as (sets & st' & E & O & T'). eauto.
  Qed.

  Definition wanted (masks : list (pystr * Z)) (h v : list hint) : list Z :=
    match masks with
    | [] => match h ++ v with [] => [] | _ => [0] end
    | _ => reqs h v 0 false masks
    end.
  Lemma wanted_len : forall masks h v h' v', List.length h = List.length h' -> List.length v = List.length v' ->
    wanted masks h v = wanted masks h' v'.
  Proof.
    clear. intros masks h v h' v' Eh Ev. unfold wanted. destruct masks as [|m masks]; [|now apply reqs_len].
    assert (L : List.length (h ++ v) = List.length (h' ++ v')) by (rewrite !app_length; lia).
    destruct (h ++ v), (h' ++ v'); try discriminate; reflexivity.
  Qed.
  Lemma sets_tagged : forall st sets, tagged st sets -> tagged st (ufo_hint_sets sets).
  Proof.
    intros st sets. unfold ufo_hint_sets. assert (T0 : tagged st (@nil (pystr * list pystr))) by constructor. revert T0.
    generalize (@nil (pystr * list pystr)). induction sets as [|s sets IH]; intros d Td T; [exact Td|]. cbn [fold_left].
    apply IH; [|now apply Forall_inv_tail in T]. apply Forall_inv in T. destruct (snd s); [exact Td|]. clear - T Td.
    unfold tagged in *. rewrite Forall_forall in *. intros p I. apply In_aset_weak in I. destruct I as [->|I]; [exact T|now apply Td].
  Qed.
  Lemma build_simple : forall masks h v st, store_ok st -> simple_glyph st name n -> Forall mask_ok masks ->
    Forall (fun i => 0 <= i < n) (wanted masks h v) ->
    exists out st', build_ps_glyph_hints ff order name masks h v st = Ok (out, st') /\ outcome st (wanted masks h v) st' /\ tagged st' out.
  Proof.
    intros masks h v st OK G M R. unfold build_ps_glyph_hints, wanted in *. destruct masks as [|m0 masks].
    - destruct (last_set_simple (HsState 0 (h ++ v) []) st OK G) as (sets & st' & E & O & T).
      { cbn [hs_stems hs_node]. intros N. destruct (h ++ v); [congruence|]. now apply Forall_inv in R. }
      { constructor. }
      rewrite E. cbn [rmap fst snd]. exists (ufo_hint_sets sets), st'. split; [reflexivity|]. split; [exact O|now apply sets_tagged].
    - destruct (loop_simple h v (m0 :: masks) (HsState 0 [] []) st OK G M R) as (sets & st' & E & O & T); [constructor|].
      rewrite E. cbn [rmap fst snd]. exists (ufo_hint_sets sets), st'. split; [reflexivity|]. split; [exact O|now apply sets_tagged].
  Qed.
  Lemma reqs_sets : forall h v node masks sets s, hint_sets_of node masks sets -> Forall (fun i => 0 <= i < n) (map fst sets) ->
    Forall (fun i => 0 <= i < n) (reqs h v node s masks).
  Proof.
    intros h v node masks sets s H. revert s.
    assert (P : forall ms s rest, Forall plain ms -> exists s', forall nd, reqs h v nd s (ms ++ rest) = reqs h v nd s' rest).
    { clear. induction ms as [|m ms IH]; intros s rest F; [exists s; reflexivity|]. cbn [app reqs]. rewrite plain_not_r by (now apply Forall_inv in F).
      match goal with |- context [reqs h v _ ?b (ms ++ rest)] => destruct (IH b rest) as (s' & E) end.
      { now apply Forall_inv_tail in F. }
      exists s'. exact E. }
    induction H as [node masks F|node masks i rest sets F H IH]; intros s R; cbn [map fst] in R.
    - destruct (P masks s [] F) as (s' & E). rewrite app_nil_r in E. rewrite E. cbn [reqs]. destruct s'; [|constructor].
      constructor; [now apply Forall_inv in R|constructor].
    - destruct (P masks s ((py "r", i) :: rest) F) as (s' & E). rewrite E. cbn [reqs fst snd]. rewrite str_eqb_refl.
      constructor; [now apply Forall_inv in R|]. apply IH. now apply Forall_inv_tail in R.
  Qed.
End Simple.

(** ** One glyph in one master *)
Lemma forall2_len : forall A B (R : A -> B -> Prop) l l', Forall2 R l l' -> List.length l = List.length l'.
Proof. intros A B R l l' F. induction F; cbn; congruence. Qed.
Lemma hints_ok : forall g m, master_ok g m -> exists hv,
  get_master_hints (Z.of_nat m) (eg_h g) (eg_v g) (eg_links g) (eg_nodes g) = Ok hv /\
  List.length (fst hv) = (List.length (eg_h g) + List.length (lk_y (eg_links g)))%nat /\
  List.length (snd hv) = (List.length (eg_v g) + List.length (lk_x (eg_links g)))%nat /\ master_stems m g (fst hv) (snd hv).
Proof.
  intros g m (_ & Fh & Fv & Fx & Fy).
  destruct (C52_master m _ _ _ _ Fh Fv Fx Fy) as (hh & ly & vv & lx & E & F1 & F2 & F3 & F4).
  eexists. split; [exact E|]. cbn [fst snd]. rewrite !app_length.
  assert (MS : master_stems m g (hh ++ ly) (vv ++ lx)) by (exists hh, ly, vv, lx; auto 8).
  apply forall2_len in F1, F2, F3, F4. split; [congruence|]. split; [congruence|exact MS].
Qed.
(** the labels a glyph needs do not depend on the master *)
Definition any_hints (k : nat) : list hint := repeat (Hint false 0 0) k.
Definition want (ps : bool) (g : eglyph) : list Z :=
  if ps then wanted (eg_masks g) (any_hints (List.length (eg_h g) + List.length (lk_y (eg_links g))))
                    (any_hints (List.length (eg_v g) + List.length (lk_x (eg_links g)))) else [].
Definition labels_of (x : lglyph) (i : Z) : option pystr := aget Z.eqb i (lg_points x).
Lemma masks_mask_ok : forall g, masks_ok g -> Forall mask_ok (eg_masks g).
Proof.
  intros g (sets & HS & F & _). refine (sets_forall _ _ _ HS _ _ _ _ F); cbn beta; [intros x P K; right; auto|intros i _; now left].
Qed.
Lemma want_range : forall g h v, no_hints g \/ masks_ok g ->
  List.length h = (List.length (eg_h g) + List.length (lk_y (eg_links g)))%nat ->
  List.length v = (List.length (eg_v g) + List.length (lk_x (eg_links g)))%nat ->
  Forall mask_ok (eg_masks g) /\ Forall (fun i => 0 <= i < Z.of_nat (List.length (eg_nodes g))) (wanted (eg_masks g) h v).
Proof.
  intros g h v [(M & H & V & X & Y)|MO] Eh Ev.
  - rewrite M. split; [constructor|]. rewrite H, Y in Eh. rewrite V, X in Ev. cbn in Eh, Ev.
    destruct h; [|discriminate]. destruct v; [|discriminate]. constructor.
  - split; [now apply masks_mask_ok|]. destruct MO as (sets & HS & F & R).
    assert (R' : Forall (fun i => 0 <= i < Z.of_nat (List.length (eg_nodes g))) (map fst sets)).
    { clear - R. induction R; constructor; auto. }
    unfold wanted. destruct (eg_masks g) as [|m0 ms].
    + destruct (h ++ v); [constructor|]. constructor; [|constructor]. inversion HS as [? ? P E1 E2|? ? ? ? ? ? ? E]; [|destruct masks; discriminate].
      subst. now apply Forall_inv in R'.
    + eapply reqs_sets; eauto.
Qed.
Definition hinted_ok (st : store) (name : pystr) (g : eglyph) : Prop :=
  no_hints g \/ (simple_glyph st name (Z.of_nat (List.length (eg_nodes g))) /\ masks_ok g).
Lemma hinted_ext : forall st st' name g, extends st st' -> hinted_ok st name g -> hinted_ok st' name g.
Proof. intros st st' name g X [H|[H M]]; [now left|right]. split; [eapply simple_ext; eauto|exact M]. Qed.
Lemma there_ext : forall (st st' : store) name, extends st st' -> (exists x, In (name, x) st) -> exists x, In (name, x) st'.
Proof. intros st st' name X (x & I). destruct (X _ _ I) as (y & J & _). eauto. Qed.
Lemma labelled_simple : forall st order g n i l, store_ok st -> simple_glyph st g n -> 0 <= i < n -> labelled st order g i l -> stored st g i l.
Proof.
  intros st order g n i l OK G R L. inversion L as [n' i' l' G' R' S|before c n' after i' l' K R' S|n' P|n' P]; subst.
  - assumption.
  - elim (simple_not_composite st order OK _ _ _ G K).
  - assert (i = n) by (eapply (points_unique st order OK); [exact P|now left]). lia.
  - assert (n' = n) by (eapply (points_unique st order OK); [exact P|now left]). lia.
Qed.
(** what the hint sets of a glyph are *)
Definition hinted (ps : bool) (st : store) (m : nat) (name : pystr) (g : eglyph) (hs : list (pystr * list pystr)) : Prop :=
  if ps then exists h v, master_stems m g h v /\ NoDup (map fst hs) /\
    (forall tag texts, In (tag, texts) hs -> exists node stems l, hint_set g h v node stems /\
       0 <= node < Z.of_nat (List.length (eg_nodes g)) /\ stored st name node tag /\ sorted_version stems l /\ texts = map stem_text l) /\
    (forall node stems, hint_set g h v node stems -> 0 <= node < Z.of_nat (List.length (eg_nodes g)) /\
       exists tag l, stored st name node tag /\ sorted_version stems l /\ In (tag, map stem_text l) hs)
  else hs = [].
Lemma hinted_mono : forall ps st st' m name g hs, extends st st' -> hinted ps st m name g hs -> hinted ps st' m name g hs.
Proof.
  intros [] st st' m name g hs X; [|auto]. intros (h & v & M & N & A & B). exists h, v. split; [exact M|]. split; [exact N|]. split.
  - intros tag texts I. destruct (A _ _ I) as (node & stems & l & H & R & S & V). exists node, stems, l. split; [exact H|]. split; [exact R|].
    split; [eapply stored_ext; eauto|exact V].
  - intros node stems H. destruct (B _ _ H) as (R & tag & l & S & V). split; [exact R|]. exists tag, l. split; [eapply stored_ext; eauto|exact V].
Qed.
Lemma segs_effective : forall h v sets node stems, effective h v sets node stems -> exists masks, In (node, masks) sets.
Proof. intros h v sets node stems (a & masks & b & -> & _). exists masks. apply in_or_app. right. now left. Qed.
Lemma sets_unique : forall node masks sets, hint_sets_of node masks sets -> forall sets', hint_sets_of node masks sets' -> sets = sets'.
Proof.
  assert (X : forall a b (x y : Z) (r s : list (pystr * Z)), Forall plain a -> Forall plain b -> a ++ (py "r", x) :: r = b ++ (py "r", y) :: s -> a = b /\ x = y /\ r = s).
  { assert (Nr : forall x, ~ plain (py "r", x)) by (intros x [H|H]; discriminate H).
    induction a as [|p a IH]; intros [|q b] x y r s Fa Fb E; cbn [app] in E.
    - injection E as -> ->. auto.
    - injection E as <- _. apply Forall_inv in Fb. now apply Nr in Fb.
    - injection E as -> _. apply Forall_inv in Fa. now apply Nr in Fa.
    - injection E as -> E. apply Forall_inv_tail in Fa, Fb. destruct (IH _ _ _ _ _ Fa Fb E) as (-> & -> & ->). auto. }
  assert (Y : forall a (x : Z) r, ~ Forall plain (a ++ (py "r", x) :: r)).
  { intros a x r F. apply Forall_app in F. destruct F as [_ F]. apply Forall_inv in F. destruct F as [F|F]; discriminate F. }
  intros node masks sets H. induction H as [node masks F|node masks i rest sets F H IH]; intros sets' H'.
  - inversion H' as [? ? F' E1 E2|? ? ? ? ? F' H2 E1 E2]; subst; [reflexivity|]. now apply Y in F.
  - inversion H' as [? ? F' E1 E2|? masks' i' rest' sets2 F' H2 E1 E2]; subst; [now apply Y in F'|].
    symmetry in E2. destruct (X _ _ _ _ _ _ F F' E2) as (<- & <- & <-). f_equal. now apply IH.
Qed.
Lemma build_hinted : forall f order name g m h v st out st', store_ok st -> simple_glyph st name (Z.of_nat (List.length (eg_nodes g))) ->
  simple_glyph st' name (Z.of_nat (List.length (eg_nodes g))) -> masks_ok g ->
  master_stems m g h v -> build_ps_glyph_hints (S (S f)) order name (eg_masks g) h v st = Ok (out, st') -> hinted true st' m name g out.
Proof.
  intros f order name g m h v st out st' OK G G' (sets & HS & F & R) MS B. unfold hinted. exists h, v. split; [exact MS|].
  assert (Gr : forall i, 0 <= i < Z.of_nat (List.length (eg_nodes g)) -> good_request st order (Request name i (py "PSHintReplacement") 0)).
  { intros i Ri. split; [|split; [|cbn; lia]]; cbn [rq_glyph rq_index rq_code].
    - eexists. split; [left; exact G|]. lia.
    - vm_compute. tauto. }
  destruct (eg_masks g) as [|m0 ms] eqn:Em.
  - assert (Rz : 0 <= 0 < Z.of_nat (List.length (eg_nodes g))).
    { inversion HS as [? ? P E1 E2|? ? ? ? ? ? ? E]; [subst; now apply Forall_inv in R|destruct masks; discriminate]. }
    destruct (no_masks_from f order st name h v OK (Gr 0 Rz)) as (out' & st2 & B' & O & N & Lt & Sp). rewrite B in B'. apply Ok_inj in B'. injection B' as <- <-.
    split; [exact N|]. unfold hint_set. rewrite Em. split.
    + intros tag texts I. apply Sp in I. destruct I as (Ne & Lb & l & Sv & ->). exists 0, (h ++ v), l. split; [auto|]. split; [exact Rz|].
      split; [eapply labelled_simple; [exact O|exact G'| |exact Lb]; eauto|auto].
    + intros node stems (-> & -> & Ne). split; [exact Rz|]. destruct (Lt Ne) as (tag & Lb). exists tag, (sorted_set (h ++ v)).
      split; [eapply labelled_simple; [exact O|exact G'| |exact Lb]; eauto|]. split; [apply sorted_set_ok|].
      apply Sp. split; [exact Ne|]. split; [exact Lb|]. exists (sorted_set (h ++ v)). split; [apply sorted_set_ok|reflexivity].
  - destruct (sets_from f order st name (m0 :: ms) sets h v OK ltac:(discriminate) HS F) as (out' & st2 & B' & O & N & Lt & Sp).
    { eapply Forall_impl; [|exact R]. intros s Rs. cbn beta in Rs. now apply Gr. }
    rewrite B in B'. apply Ok_inj in B'. injection B' as <- <-. split; [exact N|]. unfold hint_set. rewrite Em.
    assert (Rn : forall node stems, effective h v sets node stems -> 0 <= node < Z.of_nat (List.length (eg_nodes g))).
    { intros node stems E. destruct (segs_effective _ _ _ _ _ E) as (ms' & I). rewrite Forall_forall in R. exact (R _ I). }
    split.
    + intros tag texts I. apply Sp in I. destruct I as (node & stems & l & E & Lb & Sv & ->). exists node, stems, l. split; [eauto|]. split; [eauto|].
      split; [eapply labelled_simple; [exact O|exact G'| |exact Lb]; eauto|auto].
    + intros node stems (sets' & HS' & E). rewrite (sets_unique _ _ _ HS' _ HS) in E. split; [eauto|].
      destruct (Lt _ _ E) as (tag & Lb). exists tag, (sorted_set stems). split; [eapply labelled_simple; [exact O|exact G'| |exact Lb]; eauto|]. split; [apply sorted_set_ok|].
      apply Sp. exists node, stems, (sorted_set stems). split; [exact E|]. split; [exact Lb|]. split; [apply sorted_set_ok|reflexivity].
Qed.
Lemma glyph_step : forall f order ps name g m st gs, store_ok st ->
  (exists x, In (name, x) st) -> contours_of (eg_nodes g) gs -> hinted_ok st name g ->
  master_ok g m ->
  exists hs st' x, export_glyph (S (S f)) order ps (Z.of_nat m) name g st =
      Ok (Exported hs (fst (flush_all m (labels_of x) 0 gs [])) (snd (flush_all m (labels_of x) 0 gs [])), st') /\
    In (name, x) st' /\ outcome name st (want ps g) st' /\ tagged name (Z.of_nat (List.length (eg_nodes g))) st' hs /\
    hinted ps st' m name g hs.
Proof.
  intros f order ps name g m st gs OK (x0 & I0) C H MO. unfold export_glyph, want.
  assert (S : exists hs st', (if ps then
           rthen (get_master_hints (Z.of_nat m) (eg_h g) (eg_v g) (eg_links g) (eg_nodes g)) (fun hv =>
           build_ps_glyph_hints (S (S f)) order name (eg_masks g) (fst hv) (snd hv) st)
         else Ok ([], st)) = Ok (hs, st') /\ outcome name st (want ps g) st' /\ tagged name (Z.of_nat (List.length (eg_nodes g))) st' hs /\
           hinted ps st' m name g hs).
  { unfold want. destruct ps; [|exists [], st; split; [reflexivity|split; [now apply outcome_nil|split; [constructor|reflexivity]]]].
    destruct (hints_ok g m MO) as ([h v] & E & Lh & Lv & MS). rewrite E. cbn [rthen fst snd] in *.
    rewrite (wanted_len (eg_masks g) _ _ h v) by (unfold any_hints; rewrite repeat_length; congruence).
    destruct H as [(M & H & V & X & Y)|[G MK]].
    - rewrite M. rewrite H, Y in Lh. rewrite V, X in Lv. cbn in Lh, Lv. destruct h; [|discriminate]. destruct v; [|discriminate].
      exists [], st. split; [reflexivity|]. split; [now apply outcome_nil|]. split; [constructor|]. exists [], []. split; [exact MS|]. split; [constructor|].
      split; [intros ? ? []|]. unfold hint_set. rewrite M. intros node stems (_ & -> & Ne). now elim Ne.
    - destruct (want_range g h v (or_intror MK) Lh Lv) as [MK' R].
      destruct (build_simple f order name _ (eg_masks g) h v st OK G MK' R) as (out & st' & B & O & T). exists out, st'. split; [exact B|]. split; [exact O|]. split; [exact T|].
      eapply build_hinted; eauto. eapply simple_ext; [exact (proj1 (proj2 O))|exact G]. }
  destruct S as (hs & st' & -> & O & T & Hd). cbn [rthen fst snd]. fold (want ps g).
  destruct O as (O & X & F & Q & S). destruct (X _ _ I0) as (x & I & _).
  exists hs, st', x. rewrite (get_In _ _ _ O I). cbn [rthen]. fold (labels_of x).
  rewrite (extract_ok m _ _ gs (proj1 MO) C). cbn [rmap]. split; [reflexivity|]. split; [assumption|]. split; [unfold outcome; auto|]. split; [exact T|exact Hd].
Qed.

(** ** One pass *)
Definition shown (ps : bool) (st : store) (m : nat) (p : pystr * eglyph) (o : pystr * exported) : Prop :=
  fst o = fst p /\ (forall x gs, In (fst p, x) st -> contours_of (eg_nodes (snd p)) gs ->
    ex_contours (snd o) = fst (flush_all m (labels_of x) 0 gs []) /\ ex_renames (snd o) = snd (flush_all m (labels_of x) 0 gs [])) /\
  tagged (fst p) (Z.of_nat (List.length (eg_nodes (snd p)))) st (ex_hints (snd o)) /\
  hinted ps st m (fst p) (snd p) (ex_hints (snd o)).
Definition glyph_fine (st : store) (p : pystr * eglyph) : Prop :=
  (exists x, In (fst p, x) st) /\
    (exists gs, contours_of (eg_nodes (snd p)) gs) /\ hinted_ok st (fst p) (snd p).
Lemma fine_ext : forall st st' p, extends st st' -> glyph_fine st p -> glyph_fine st' p.
Proof. intros st st' p X (A & B & C). split; [eapply there_ext; eauto|]. split; [exact B|]. eapply hinted_ext; eauto. Qed.
Definition settled (ps : bool) (font : list (pystr * eglyph)) (st : store) : Prop :=
  forall p i, In p font -> In i (want ps (snd p)) -> has_label st (fst p) i.
Lemma contours_unique_flush : forall m labels nodes gs gs', Forall (node_ok m) nodes -> contours_of nodes gs -> contours_of nodes gs' ->
  flush_all m labels 0 gs [] = flush_all m labels 0 gs' [].
Proof.
  intros m labels nodes gs gs' F C C'. pose proof (extract_ok m labels nodes gs F C) as E. rewrite (extract_ok m labels nodes gs' F C') in E.
  now apply Ok_inj in E.
Qed.
Lemma pass_ok : forall f order ps m font st, store_ok st -> NoDup (map fst font) ->
  Forall (glyph_fine st) font -> Forall (fun p => master_ok (snd p) m) font ->
  exists outs st', export_master (S (S f)) order ps (Z.of_nat m) font st = Ok (outs, st') /\ store_ok st' /\ extends st st' /\
    (forall k, ~ In k (map fst font) -> aget str_eqb k st' = aget str_eqb k st) /\
    Forall2 (shown ps st' m) font outs /\ settled ps font st' /\ (settled ps font st -> st' = st).
Proof.
  intros f order ps m. induction font as [|[name g] font IH]; intros st OK N Fg Fm; cbn [export_master].
  - exists [], st. split; [reflexivity|]. split; [assumption|]. split; [apply extends_refl|]. split; [reflexivity|]. split; [constructor|].
    split; [intros p i []|reflexivity].
  - pose proof (Forall_inv Fg) as (G & (gs & C) & H). apply Forall_inv_tail in Fg. pose proof (Forall_inv Fm) as MO. apply Forall_inv_tail in Fm.
    cbn [fst snd map] in *. inversion N as [|? ? N1 N2]; subst.
    destruct (glyph_step f order ps name g m st gs OK G C H MO) as (hs & st1 & x & E & I & (O1 & X1 & F1 & Q1 & S1) & T1 & D1).
    rewrite E. cbn [rthen fst snd].
    destruct (IH st1 O1 N2) as (outs & st2 & E2 & O2 & X2 & F2 & R2 & Q2 & S2).
    { eapply Forall_impl; [|exact Fg]. intros p. now apply fine_ext. }
    { exact Fm. }
    rewrite E2. cbn [rmap fst snd]. eexists _, st2. split; [reflexivity|]. split; [assumption|]. split; [eapply extends_trans; eauto|].
    split; [|split; [|split]].
    + intros k Nk. rewrite F2; [apply F1|]; intros K; apply Nk; [now left|now right].
    + constructor; [|exact R2]. split; [reflexivity|]. cbn [fst snd ex_contours ex_renames ex_hints].
      split; [|split; [eapply tagged_ext; eauto|eapply hinted_mono; eauto]]. intros x' gs' I' C'.
      assert (x' = x).
      { apply (In_aget str_eqb str_eqb_eq) in I; [|apply O1]. apply (In_aget str_eqb str_eqb_eq) in I'; [|apply O2]. rewrite (F2 name N1) in I'. congruence. }
      subst x'. rewrite (contours_unique_flush m _ _ gs' gs (proj1 MO) C' C). auto.
    + intros p i [<-|Hp] Hi; [eapply has_ext; eauto|eapply Q2; eauto].
    + intros K. assert (E1 : st1 = st). { apply S1. intros i Hi. apply (K (name, g) i); [now left|exact Hi]. }
      subst st1. apply S2. intros p i Hp Hi. apply (K p i); [now right|exact Hi].
Qed.
Lemma passes_settled : forall f order ps font n m st, store_ok st -> NoDup (map fst font) -> Forall (glyph_fine st) font ->
  (forall k, (k < n)%nat -> Forall (fun p => master_ok (snd p) (m + k)) font) -> settled ps font st ->
  exists outs, export_masters (S (S f)) order ps (Z.of_nat m) n font st = Ok (outs, st) /\ List.length outs = n /\
    forall k o, nth_error outs k = Some o -> Forall2 (shown ps st (m + k)) font o.
Proof.
  intros f order ps font. induction n as [|n IH]; intros m st OK N Fg Fm S; cbn [export_masters].
  - exists []. split; [reflexivity|]. split; [reflexivity|]. intros [|k] o H; discriminate.
  - assert (Fm0 : Forall (fun p => master_ok (snd p) m) font) by (specialize (Fm 0%nat ltac:(lia)); now rewrite Nat.add_0_r in Fm).
    destruct (pass_ok f order ps m font st OK N Fg Fm0) as (outs & st' & E & O & X & Fr & R & Q & K).
    rewrite (K S) in *. rewrite E. cbn [rthen fst snd].
    destruct (IH (1 + m)%nat st OK N Fg) as (rest & E2 & L & R2).
    { intros k Hk. replace (1 + m + k)%nat with (m + Datatypes.S k)%nat by lia. apply Fm. lia. }
    { exact S. }
    replace (Z.of_nat m + 1) with (Z.of_nat (1 + m)) by lia. rewrite E2. cbn [rmap fst snd].
    exists (outs :: rest). split; [reflexivity|]. split; [cbn; lia|]. intros [|k] o H; cbn [nth_error] in H.
    + injection H as <-. now rewrite Nat.add_0_r.
    + replace (m + Datatypes.S k)%nat with (1 + m + k)%nat by lia. now apply R2.
Qed.
Theorem masters_ok : forall f order ps font n st, store_ok st -> simple_font st n font ->
  exists outs st', export_masters (S (S f)) order ps 0 n font st = Ok (outs, st') /\ List.length outs = n /\ store_ok st' /\ extends st st' /\
    forall k o, nth_error outs k = Some o -> Forall2 (shown ps st' k) font o.
Proof.
  intros f order ps font [|n] st OK [N F].
  - exists [], st. split; [reflexivity|]. split; [reflexivity|]. split; [assumption|]. split; [apply extends_refl|]. intros [|k] o H; discriminate.
  - assert (Fg : Forall (glyph_fine st) font).
    { eapply Forall_impl; [|exact F]. intros p (A & B & C & _). unfold glyph_fine, hinted_ok. auto. }
    assert (Fm : forall m, (m < S n)%nat -> Forall (fun p => master_ok (snd p) m) font).
    { intros m Hm. eapply Forall_impl; [|exact F]. intros p (_ & _ & _ & D). auto. }
    destruct (pass_ok f order ps 0 font st OK N Fg (Fm 0%nat ltac:(lia))) as (o0 & st1 & E & O & X & Fr & R & Q & K).
    cbn [export_masters]. change (Z.of_nat 0) with 0 in E. rewrite E. cbn [rthen fst snd].
    destruct (passes_settled f order ps font n 1 st1 O N) as (rest & E2 & L & R2); auto.
    { eapply Forall_impl; [|exact Fg]. intros p. now apply fine_ext. }
    { intros k Hk. apply Fm. lia. }
    change (0 + 1) with (Z.of_nat 1). rewrite E2. cbn [rmap fst snd].
    exists (o0 :: rest), st1. split; [reflexivity|]. split; [cbn; lia|]. split; [assumption|]. split; [assumption|].
    intros [|k] o H; cbn [nth_error] in H; [injection H as <-; assumption|]. now apply R2.
Qed.

(** ** Points of nodes *)
Lemma find_node : forall gs i, (i < List.length (concat gs))%nat -> exists k g j, nth_error gs k = Some g /\ (j < List.length g)%nat /\ i = (base gs k + j)%nat.
Proof.
  induction gs as [|g gs IH]; intros i H; [cbn in H; lia|]. cbn [concat] in H. rewrite app_length in H.
  destruct (Nat.ltb_spec i (List.length g)) as [L|L].
  - exists 0%nat, g, i. split; [reflexivity|]. split; [assumption|]. reflexivity.
  - destruct (IH (i - List.length g)%nat ltac:(lia)) as (k & g' & j & A & B & C). exists (S k), g', j. split; [assumption|]. split; [assumption|].
    unfold base in *. cbn [firstn concat]. rewrite app_length. lia.
Qed.
Lemma forall_group : forall (P : mm_node -> Prop) gs k g, Forall P (concat gs) -> nth_error gs k = Some g -> Forall P g.
Proof.
  intros P gs k g F Hg. apply nth_error_In in Hg. apply in_split in Hg. destruct Hg as (a & b & ->). rewrite concat_app in F. apply Forall_app in F.
  destruct F as [_ F]. cbn [concat] in F. apply Forall_app in F. tauto.
Qed.
Lemma node_point : forall m labels nodes gs node tag, Forall (node_ok m) nodes -> contours_of nodes gs ->
  0 <= node < Z.of_nat (List.length nodes) -> labels node = Some tag ->
  exists p, point_of m gs (fst (flush_all m labels 0 gs [])) node p /\ (up_name p = Some tag \/ joined_start m gs node).
Proof.
  intros m labels nodes gs node tag F [<- C] R L.
  destruct (find_node gs (Z.to_nat node) ltac:(lia)) as (k & g & j & Hg & Hj & E).
  assert (En : node = Z.of_nat (base gs k + j)) by lia.
  assert (Cg : contour g) by (rewrite Forall_forall in C; apply C; eapply nth_error_In; eauto).
  assert (Fg : Forall (node_ok m) g) by (eapply forall_group; eauto).
  destruct (nth_error g j) as [n|] eqn:Hn; [|apply nth_error_None in Hn; lia].
  assert (P : exists pos, place m g j pos).
  { unfold place. destruct (joined_dec m g Cg) as [J|J]; [|exists (position m g j); right; tauto].
    destruct (Nat.eq_dec (S j) (List.length g)) as [H|H]; [exists 0%nat; left; tauto|exists (position m g j); right; tauto]. }
  destruct P as (pos & P).
  destruct (flush_all_nth m labels gs 0 []) as [_ N]. specialize (N k g Hg).
  destruct (flush_named m labels (0 + Z.of_nat (base gs k)) g j n pos [] Cg Fg Hn P) as (p & Hp & _ & Hname & _). cbv zeta in *.
  exists p. split; [exists k, g, (fst (flush_group m labels (0 + Z.of_nat (base gs k)) g [])), j, pos; auto 10|].
  replace (0 + Z.of_nat (base gs k) + Z.of_nat j) with node in Hname by lia. rewrite L in Hname.
  destruct Hname as [Hname|(J & [->|Hl] & M)]; [now left| |].
  - right. exists k, g. split; [lia|]. auto.
  - replace (0 + Z.of_nat (base gs k) + Z.of_nat (List.length g) - 1) with node in M by lia. rewrite L in M.
    destruct (labels (0 + Z.of_nat (base gs k))) as [a0|]; [left; apply M|now left].
Qed.
