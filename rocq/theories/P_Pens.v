(** Proofs about drawing and merging. *)
From Coq Require Import String ZifyBool ZifyNat.
From Verif Require Import Base Lib M_Py M_Text M_Glyph P_Glyph M_Paths S_Paths P_Paths M_Pens S_Pens.
Local Open Scope list_scope.

(** ** Lists *)
Lemma set_nth_length : forall A k (x : A) l, List.length (set_nth k x l) = List.length l.
Proof. induction k as [|k IH]; intros x [|y l]; cbn; auto. Qed.
Lemma set_nth_same : forall A k (x : A) l, (k < List.length l)%nat -> nth_error (set_nth k x l) k = Some x.
Proof. induction k as [|k IH]; intros x [|y l] H; cbn in *; try lia; auto. apply IH. lia. Qed.
Lemma set_nth_other : forall A k (x : A) l j, j <> k -> nth_error (set_nth k x l) j = nth_error l j.
Proof. induction k as [|k IH]; intros x [|y l] [|j] H; cbn; auto; try congruence. Qed.
Lemma py_index_some : forall A (l : list A) m x, py_index l (Z.of_nat m) = Ok x -> nth_error l m = Some x.
Proof.
  intros A l m x H. destruct (lt_dec m (List.length l)) as [L|L].
  - rewrite (py_index_nth A l m x L) in H. injection H as <-. now apply nth_error_nth'.
  - exfalso. unfold py_index in H. replace (Z.of_nat m <? 0) with false in H by lia. cbv iota zeta in H.
    replace ((Z.of_nat m <? 0) || (Z.of_nat (List.length l) <=? Z.of_nat m)) with true in H by lia. discriminate.
Qed.
Lemma py_assign_some : forall A (l : list A) m x l', py_assign l (Z.of_nat m) x = Ok l' -> (m < List.length l)%nat /\ l' = set_nth m x l.
Proof.
  intros A l m x l' H. unfold py_assign in H. replace (Z.of_nat m <? 0) with false in H by lia. cbv iota zeta in H.
  destruct ((Z.of_nat m <? 0) || (Z.of_nat (List.length l) <=? Z.of_nat m)) eqn:E; [discriminate|]. injection H as <-. split; [lia|]. now rewrite Nat2Z.id.
Qed.
Lemma py_assign_ok : forall A (l : list A) m x, (m < List.length l)%nat -> py_assign l (Z.of_nat m) x = Ok (set_nth m x l).
Proof.
  intros A l m x H. unfold py_assign. replace (Z.of_nat m <? 0) with false by lia. cbv iota zeta.
  replace ((Z.of_nat m <? 0) || (Z.of_nat (List.length l) <=? Z.of_nat m)) with false by lia. now rewrite Nat2Z.id.
Qed.
Lemma cmd_eqb_eq : forall a b, cmd_eqb a b = true <-> a = b.
Proof. intros [] []; cbn; split; congruence. Qed.

(** ** Merging *)
Lemma from_one : forall A B m (get : A -> list B) i s src x old, (1 <= m)%nat -> (m < List.length old)%nat ->
  nth_error src i = Some s -> nth_error (get s) m = Some x ->
  from (repeat None m ++ [Some src]) get i old (set_nth m x old).
Proof.
  intros A B m get i s src x old Hm Hl Hs Hx. split; [apply set_nth_length|]. intros j Hj. destruct j as [|j]; [apply set_nth_other; lia|].
  destruct (lt_eq_lt_dec (S j) m) as [[L| ->]|L].
  - rewrite nth_error_app1 by (rewrite repeat_length; lia). rewrite (nth_error_repeat (@None (list A)) L). apply set_nth_other. lia.
  - rewrite nth_error_app2, repeat_length, Nat.sub_diag by (rewrite repeat_length; lia). cbn. exists s, x. split; [assumption|]. split; [assumption|]. now apply set_nth_same.
  - replace (nth_error (repeat None m ++ [Some src]) (S j)) with (@None (option (list A))) by (symmetry; apply nth_error_None; rewrite app_length, repeat_length; cbn; lia). apply set_nth_other. lia.
Qed.
Lemma from_none : forall A B (sources : list (option (list A))) (get : A -> list B) i old, (forall j x, nth_error sources j = Some x -> x = None) ->
  from sources get i old old.
Proof.
  intros A B sources get i old H. split; [reflexivity|]. intros [|j] Hj; [reflexivity|]. destruct (nth_error sources (S j)) as [x|] eqn:E; [|reflexivity].
  rewrite (H _ _ E). reflexivity.
Qed.
Lemma nth_repeat_app : forall A (x : A) m l j, (m <= j)%nat -> nth_error (repeat x m ++ l) j = nth_error l (j - m).
Proof. intros A x m l j H. rewrite nth_error_app2 by (rewrite repeat_length; lia). now rewrite repeat_length. Qed.
Lemma nth_repeat_in : forall A (x : A) m l j, (j < m)%nat -> nth_error (repeat x m ++ l) j = Some x.
Proof. intros A x m l j H. rewrite nth_error_app1 by (rewrite repeat_length; lia). now apply nth_error_repeat. Qed.
Lemma from_compose : forall A B m (x : option (list A)) rest (get : A -> list B) i a b c, (1 <= m)%nat ->
  from (repeat None m ++ [x]) get i a b -> from (repeat None (S m) ++ rest) get i b c -> from (repeat None m ++ x :: rest) get i a c.
Proof.
  intros A B m x rest get i a b c Hm (L1 & F1) (L2 & F2). split; [lia|]. intros j Hj.
  specialize (F1 j Hj). specialize (F2 j ltac:(lia)). destruct j as [|j]; [congruence|].
  destruct (lt_eq_lt_dec (S j) m) as [[L| E]|L].
  - rewrite nth_repeat_in in * by lia. congruence.
  - rewrite nth_repeat_app in F1 by lia. rewrite nth_repeat_app by lia. rewrite nth_repeat_in in F2 by lia. rewrite E, Nat.sub_diag in *. cbn [nth_error] in *. destruct x as [src|]; [|congruence].
    destruct F1 as (s & y & A1 & A2 & A3). exists s, y. rewrite F2. auto.
  - rewrite nth_repeat_app in F1 by lia. rewrite nth_repeat_app in F2 by lia. rewrite nth_repeat_app by lia.
    replace (S j - m)%nat with (S (S j - S m))%nat in * by lia. cbn [nth_error] in *. replace (nth_error (@nil (option (list A))) (S j - S m)) with (@None (option (list A))) in F1 by (symmetry; now destruct (S j - S m)%nat).
    destruct (nth_error rest (S j - S m)) as [[src|]|]; [|congruence|congruence]. destruct F2 as (s & y & A1 & A2 & A3). exists s, y. auto.
Qed.

Lemma merge_list_ok : forall A (f : A -> A -> A * res unit) tgt src l, merge_list f src tgt = (l, Ok tt) ->
  pointwise (fun i a b => exists s, nth_error src i = Some s /\ f s a = (b, Ok tt)) tgt l.
Proof.
  induction tgt as [|t tgt IH]; intros src l H; cbn in H.
  - injection H as <-. split; [reflexivity|]. intros [|i] a E; discriminate.
  - destruct src as [|s src]; [discriminate|]. destruct (f s t) as [t' o] eqn:E. destruct o as [[]|]; [|discriminate]. destruct (merge_list f src tgt) as [l' o'] eqn:E'. injection H as <- ->.
    destruct (IH src l' E') as (L & P). split; [cbn; lia|]. intros [|i] a Ha.
    + cbn in Ha. injection Ha as <-. exists t'. split; [reflexivity|]. exists s. auto.
    + cbn in Ha. destruct (P i a Ha) as (b & Hb & R). exists b. auto.
Qed.
Lemma pointwise_impl : forall A (R S : nat -> A -> A -> Prop) old new, (forall i a b, R i a b -> S i a b) -> pointwise R old new -> pointwise S old new.
Proof. intros A R S' old new H (L & P). split; [assumption|]. intros i a Ha. destruct (P i a Ha) as (b & Hb & Hr). eauto. Qed.
Lemma pointwise_refl : forall A (R : nat -> A -> A -> Prop) old, (forall i a, nth_error old i = Some a -> R i a a) -> pointwise R old old.
Proof. intros A R old H. split; [reflexivity|]. intros i a Ha. eauto. Qed.
Lemma pointwise_compose : forall A (R S T : nat -> A -> A -> Prop) a b c, (forall i x y z, R i x y -> S i y z -> T i x z) ->
  pointwise R a b -> pointwise S b c -> pointwise T a c.
Proof.
  intros A R S' T' a b c H (L1 & P1) (L2 & P2). split; [lia|]. intros i x Hx. destruct (P1 i x Hx) as (y & Hy & R1). destruct (P2 i y Hy) as (z & Hz & R2). eauto.
Qed.

Lemma repeat_map : forall A B (f : A -> B) x n, map f (repeat x n) = repeat (f x) n.
Proof. intros A B f x n. induction n; cbn; [reflexivity|]. now rewrite IHn. Qed.
Lemma sources_pre : forall A (f : target -> option (list A)) m rest, f TList = None -> map f (repeat TList m ++ rest) = repeat None m ++ map f rest.
Proof. intros A f m rest H. now rewrite map_app, repeat_map, H. Qed.
Lemma pre_none : forall A m j (x : option (list A)) src, (1 <= m)%nat -> nth_error (repeat None m ++ [x]) j = Some (Some src) -> x = Some src /\ j = m.
Proof.
  intros A m j x src Hm H. destruct (lt_dec j m).
  - rewrite nth_repeat_in in H by lia. discriminate.
  - rewrite nth_repeat_app in H by lia. destruct (j - m)%nat eqn:E; cbn in H; [split; [congruence|lia]|destruct n0; discriminate].
Qed.

Lemma merge_node_ok : forall m sources i s t b cs, (1 <= m)%nat -> nth_error sources i = Some s -> merge_node' (Z.of_nat m) s t = (b, Ok tt) ->
  merged_node (repeat TList m ++ [TDict (Some sources) cs]) i t b.
Proof.
  intros m sources i s t b cs Hm Hs H. unfold merge_node', merge_node in H. destruct (_ && _) eqn:E; [|discriminate].
  apply Bool.andb_true_iff in E. destruct E as (E1 & E2). apply cmd_eqb_eq in E1. apply Z.eqb_eq in E2.
  destruct (py_index (nd_points s) (Z.of_nat m)) as [p|] eqn:Ep; [|discriminate]. cbn [rthen] in H.
  destruct (py_assign (nd_points t) (Z.of_nat m) p) as [ps|] eqn:Ea; [|discriminate]. cbn [rthen] in H. injection H as <-.
  apply py_index_some in Ep. apply py_assign_some in Ea. destruct Ea as (La & ->).
  split; [reflexivity|]. split; [reflexivity|]. rewrite sources_pre by reflexivity. cbn [map source_nodes nd_points]. split.
  - apply (from_one _ _ m nd_points i s sources p); assumption.
  - intros j src Hj E. apply pre_none in E; [|assumption]. destruct E as (E & _). injection E as <-. exists s. auto.
Qed.
Lemma merge_component_ok : forall m sources i s t b ns, (1 <= m)%nat -> nth_error sources i = Some s -> merge_component (Z.of_nat m) s t = (b, Ok tt) ->
  merged_component (repeat TList m ++ [TDict ns (Some sources)]) i t b.
Proof.
  intros m sources i s t b ns Hm Hs H. unfold merge_component in H. destruct (_ =? _) eqn:E; [|discriminate]. apply Z.eqb_eq in E. cbv zeta in H. cbn [M_Glyph.co_x M_Glyph.co_y M_Glyph.co_sx M_Glyph.co_sy M_Glyph.co_gid] in H.
  assert (St : forall (get : M_Glyph.component -> list Z) l, rthen (py_index (get s) (Z.of_nat m)) (py_assign (get t) (Z.of_nat m)) = Ok l ->
    from (repeat None m ++ [Some sources]) get i (get t) l).
  { intros get l Hl. destruct (py_index (get s) (Z.of_nat m)) as [p|] eqn:Ep; [|discriminate]. cbn [rthen] in Hl. apply py_index_some in Ep. apply py_assign_some in Hl. destruct Hl as (La & ->). now apply (from_one _ _ m get i s sources p). }
  destruct (rthen (py_index (M_Glyph.co_x s) (Z.of_nat m)) (py_assign (M_Glyph.co_x t) (Z.of_nat m))) as [x|] eqn:E1; [|discriminate].
  destruct (rthen (py_index (M_Glyph.co_y s) (Z.of_nat m)) (py_assign (M_Glyph.co_y t) (Z.of_nat m))) as [y|] eqn:E2; [|discriminate].
  destruct (rthen (py_index (M_Glyph.co_sx s) (Z.of_nat m)) (py_assign (M_Glyph.co_sx t) (Z.of_nat m))) as [sx|] eqn:E3; [|discriminate].
  destruct (rthen (py_index (M_Glyph.co_sy s) (Z.of_nat m)) (py_assign (M_Glyph.co_sy t) (Z.of_nat m))) as [sy|] eqn:E4; [|discriminate].
  injection H as <-. unfold merged_component. cbv zeta. cbn [M_Glyph.co_x M_Glyph.co_y M_Glyph.co_sx M_Glyph.co_sy M_Glyph.co_gid].
  rewrite sources_pre by reflexivity. cbn [map source_components].
  split; [reflexivity|]. split; [now apply (St M_Glyph.co_x)|]. split; [now apply (St M_Glyph.co_y)|]. split; [now apply (St M_Glyph.co_sx)|]. split; [now apply (St M_Glyph.co_sy)|].
  intros j src Hj E'. apply pre_none in E'; [|assumption]. destruct E' as (E' & _). injection E' as <-. exists s. auto.
Qed.
Lemma none_node : forall m x i a, (1 <= m)%nat -> source_nodes x = None -> merged_node (repeat TList m ++ [x]) i a a.
Proof.
  intros m x i a Hm Hx. split; [reflexivity|]. split; [reflexivity|]. rewrite sources_pre by reflexivity. cbn [map]. rewrite Hx. split.
  - apply from_none. intros j y E. destruct (lt_dec j m); [rewrite nth_repeat_in in E by lia; congruence|]. rewrite nth_repeat_app in E by lia. destruct (j - m)%nat as [|k]; cbn in E; [congruence|destruct k; discriminate].
  - intros j src Hj E. apply pre_none in E; [|assumption]. destruct E; discriminate.
Qed.
Lemma none_component : forall m x i a, (1 <= m)%nat -> source_components x = None -> merged_component (repeat TList m ++ [x]) i a a.
Proof.
  intros m x i a Hm Hx. unfold merged_component. cbv zeta. rewrite sources_pre by reflexivity. cbn [map]. rewrite Hx.
  assert (F : forall (get : M_Glyph.component -> list Z), from (repeat None m ++ [None]) get i (get a) (get a)).
  { intros get. apply from_none. intros j y E. destruct (lt_dec j m); [rewrite nth_repeat_in in E by lia; congruence|]. rewrite nth_repeat_app in E by lia. destruct (j - m)%nat as [|k]; cbn in E; [congruence|destruct k; discriminate]. }
  split; [reflexivity|]. split; [apply (F M_Glyph.co_x)|]. split; [apply (F M_Glyph.co_y)|]. split; [apply (F M_Glyph.co_sx)|]. split; [apply (F M_Glyph.co_sy)|].
  intros j src Hj E. apply pre_none in E; [|assumption]. destruct E; discriminate.
Qed.
Lemma merge_master_ok : forall m s d d', (1 <= m)%nat -> merge_master (Z.of_nat m) s d = (d', Ok tt) -> merged (repeat TList m ++ [s]) d d'.
Proof.
  intros m s [dn dc] d' Hm H. unfold merged. unfold merge_master in H. destruct s as [ns cs|].
  2: { injection H as <-. cbn [fst snd]. split; [destruct dn as [l|]|destruct dc as [l|]]; cbn; auto; apply pointwise_refl; intros i a _; [now apply none_node|now apply none_component]. }
  cbn [fst snd] in H.
  destruct (match ns, dn with None, x => (x, Ok tt) | Some _, None => (None, Err AssertionError) | Some s, Some t => let '(l, o) := merge_list (merge_node' (Z.of_nat m)) s t in (Some l, o) end) as [nodes o] eqn:En.
  destruct o as [[]|]; [|discriminate].
  destruct (match cs, dc with None, x => (x, Ok tt) | Some _, None => (None, Err AssertionError) | Some s, Some t => let '(l, o) := merge_list (merge_component (Z.of_nat m)) s t in (Some l, o) end) as [comps o'] eqn:Ec.
  injection H as <- ->. cbn [fst snd]. split.
  - destruct ns as [src|]; [|injection En as <-; destruct dn as [l|]; cbn; auto; apply pointwise_refl; intros i a _; now apply none_node].
    destruct dn as [l|]; [|discriminate]. destruct (merge_list (merge_node' (Z.of_nat m)) src l) as [l' o''] eqn:E. injection En as <- ->. cbn. apply merge_list_ok in E.
    revert E. apply pointwise_impl. intros i a b (s & Hs & F). now apply (merge_node_ok m src i s).
  - destruct cs as [src|]; [|injection Ec as <-; destruct dc as [l|]; cbn; auto; apply pointwise_refl; intros i a _; now apply none_component].
    destruct dc as [l|]; [|discriminate]. destruct (merge_list (merge_component (Z.of_nat m)) src l) as [l' o''] eqn:E. injection Ec as <- ->. cbn. apply merge_list_ok in E.
    revert E. apply pointwise_impl. intros i a b (s & Hs & F). now apply (merge_component_ok m src i s).
Qed.
Lemma agree_compose : forall A m (x : option (list A)) rest (Q : list A -> Prop), (1 <= m)%nat ->
  (forall j src, (1 <= j)%nat -> nth_error (repeat None m ++ [x]) j = Some (Some src) -> Q src) ->
  (forall j src, (1 <= j)%nat -> nth_error (repeat None (S m) ++ rest) j = Some (Some src) -> Q src) ->
  forall j src, (1 <= j)%nat -> nth_error (repeat None m ++ x :: rest) j = Some (Some src) -> Q src.
Proof.
  intros A m x rest Q Hm H1 H2 j src Hj E. destruct (lt_eq_lt_dec j m) as [[L|L]|L].
  - rewrite nth_repeat_in in E by lia. discriminate.
  - subst j. apply (H1 m); [lia|]. rewrite nth_repeat_app, Nat.sub_diag in * by lia. assumption.
  - apply (H2 j); [lia|]. rewrite nth_repeat_app in * by lia. replace (j - m)%nat with (S (j - S m)) in E by lia. assumption.
Qed.
Lemma merged_compose : forall m s rest a b c, (1 <= m)%nat -> merged (repeat TList m ++ [s]) a b -> merged (repeat TList (S m) ++ rest) b c -> merged (repeat TList m ++ s :: rest) a c.
Proof.
  intros m s rest [an ac] [bn bc] [cn cc] Hm (N1 & C1) (N2 & C2). cbn [fst snd] in *. split; cbn [fst snd].
  - destruct an as [an|], bn as [bn|], cn as [cn|]; cbn [optional] in *; auto; try tauto. revert N1 N2. apply pointwise_compose. intros i x y z (T1 & F1 & P1 & A1) (T2 & F2 & P2 & A2).
    rewrite sources_pre in P1, A1, P2, A2 by reflexivity. cbn [map] in P1, A1. split; [congruence|]. split; [congruence|]. rewrite sources_pre by reflexivity. cbn [map]. split; [apply (from_compose _ _ m _ _ _ _ _ (nd_points y)); auto|].
    apply (agree_compose _ m); [assumption|assumption|]. intros j src Hj E. destruct (A2 j src Hj E) as (q & Hq & Ht & Hf). exists q. split; [assumption|]. split; congruence.
  - destruct ac as [ac|], bc as [bc|], cc as [cc|]; cbn [optional] in *; auto; try tauto. revert C1 C2. apply pointwise_compose. intros i x y z. unfold merged_component. cbv zeta.
    rewrite !sources_pre by reflexivity. cbn [map]. intros (G1 & X1 & Y1 & SX1 & SY1 & A1) (G2 & X2 & Y2 & SX2 & SY2 & A2).
    split; [congruence|]. split; [now apply (from_compose _ _ m _ _ _ _ _ (M_Glyph.co_x y))|]. split; [now apply (from_compose _ _ m _ _ _ _ _ (M_Glyph.co_y y))|].
    split; [now apply (from_compose _ _ m _ _ _ _ _ (M_Glyph.co_sx y))|]. split; [now apply (from_compose _ _ m _ _ _ _ _ (M_Glyph.co_sy y))|].
    apply (agree_compose _ m); [assumption|assumption|]. intros j src Hj E. destruct (A2 j src Hj E) as (q & Hq & Ht). exists q. split; [assumption|]. congruence.
Qed.
Lemma merged_refl : forall m d, merged (repeat TList m) d d.
Proof.
  intros m [dn dc]. assert (N : forall A (f : target -> option (list A)), f TList = None -> map f (repeat TList m) = repeat None m) by (intros A f H; now rewrite repeat_map, H).
  assert (R : forall A j (x : option (list A)), nth_error (repeat None m) j = Some x -> x = None) by (intros A j x H; apply nth_error_In, repeat_spec in H; assumption).
  split; cbn [fst snd].
  - destruct dn as [l|]; cbn; auto. apply pointwise_refl. intros i a _. split; [reflexivity|]. split; [reflexivity|]. rewrite N by reflexivity. split; [apply from_none; intros j x; apply R|]. intros j src _ H. apply R in H. discriminate.
  - destruct dc as [l|]; cbn; auto. apply pointwise_refl. intros i a _. unfold merged_component. cbv zeta. rewrite N by reflexivity.
    split; [reflexivity|]. split; [apply from_none; intros j x; apply R|]. split; [apply from_none; intros j x; apply R|]. split; [apply from_none; intros j x; apply R|]. split; [apply from_none; intros j x; apply R|].
    intros j src _ H. apply R in H. discriminate.
Qed.
Lemma merge_masters_ok : forall masters m d d', (1 <= m)%nat -> merge_masters (Z.of_nat m) masters d = (d', Ok tt) -> merged (repeat TList m ++ masters) d d'.
Proof.
  induction masters as [|s masters IH]; intros m d d' Hm H; cbn [merge_masters] in H.
  - injection H as <-. rewrite app_nil_r. apply merged_refl.
  - destruct (merge_master (Z.of_nat m) s d) as [d1 o] eqn:E. destruct o as [[]|]; [|discriminate]. apply merge_master_ok in E; [|assumption].
    replace (Z.of_nat m + 1) with (Z.of_nat (S m)) in H by lia. apply IH in H; [|lia]. now apply (merged_compose m s masters d d1 d').
Qed.
Lemma merged_head : forall t t' ms d d', merged (t :: ms) d d' -> merged (t' :: ms) d d'.
Proof.
  intros t t' ms d d' (N & C). split.
  - destruct (fst d), (fst d'); cbn [optional] in *; auto. revert N. apply pointwise_impl. intros i a b (T & F & (L & P) & A). split; [assumption|]. split; [assumption|]. split.
    + split; [assumption|]. intros j Hj. specialize (P j Hj). destruct j; exact P.
    + intros [|j] src Hj E; [lia|]. apply (A (S j) src Hj E).
  - destruct (snd d), (snd d'); cbn [optional] in *; auto. revert C. apply pointwise_impl. intros i a b. unfold merged_component. cbv zeta. cbn [map].
    assert (F : forall (get : M_Glyph.component -> list Z) x y, from (source_components t :: map source_components ms) get i x y -> from (source_components t' :: map source_components ms) get i x y).
    { intros get x y (L & P). split; [assumption|]. intros j Hj. specialize (P j Hj). destruct j; exact P. }
    intros (G & X & Y & SX & SY & A). split; [assumption|]. split; [now apply F|]. split; [now apply F|]. split; [now apply F|]. split; [now apply F|].
    intros [|j] src Hj E; [lia|]. apply (A (S j) src Hj E).
Qed.
Lemma merged_short : forall t d, merged [t] d d.
Proof. intros t d. apply (merged_head TList). apply (merged_refl 1). Qed.

(** and it succeeds *)
Lemma merge_list_can : forall A (f : A -> A -> A * res unit) tgt src, (List.length tgt <= List.length src)%nat ->
  (forall i a s, nth_error tgt i = Some a -> nth_error src i = Some s -> snd (f s a) = Ok tt) -> snd (merge_list f src tgt) = Ok tt.
Proof.
  induction tgt as [|t tgt IH]; intros src L H; [reflexivity|]. destruct src as [|s src]; [cbn in L; lia|]. cbn [merge_list].
  pose proof (H 0%nat t s eq_refl eq_refl) as H0. destruct (f s t) as [t' o]. cbn [snd] in H0. subst o.
  specialize (IH src). destruct (merge_list f src tgt) as [l o]. cbn [snd] in *. apply IH; [cbn in L; lia|]. intros i a b Ha Hb. apply (H (S i)); assumption.
Qed.
Lemma assign_can : forall A (src tgt : list A) m, (m < List.length src)%nat -> (m < List.length tgt)%nat ->
  exists l, rthen (py_index src (Z.of_nat m)) (py_assign tgt (Z.of_nat m)) = Ok l.
Proof.
  intros A src tgt m H1 H2. destruct src as [|x src]; [cbn in H1; lia|]. rewrite (py_index_nth A (x :: src) m x H1). cbn [rthen]. rewrite py_assign_ok by assumption. eauto.
Qed.
Lemma merge_master_can : forall m s d, mergeable d m s -> snd (merge_master (Z.of_nat m) s d) = Ok tt.
Proof.
  intros m [ns cs|] [dn dc] (N & C); [|reflexivity]. cbn [source_nodes source_components fst snd] in *. unfold merge_master. cbn [fst snd].
  assert (X : exists nodes, (match ns, dn with None, x => (x, Ok tt) | Some _, None => (None, Err AssertionError) | Some s, Some t => let '(l, o) := merge_list (merge_node' (Z.of_nat m)) s t in (Some l, o) end) = (nodes, Ok tt)).
  { destruct ns as [src|]; [|eauto]. destruct (N src eq_refl) as (tgt & -> & L & P).
    assert (E : snd (merge_list (merge_node' (Z.of_nat m)) src tgt) = Ok tt).
    { apply merge_list_can; [assumption|]. intros i a b Ha Hb. destruct (P i a b Ha Hb) as (T & F & La & Lb). unfold merge_node', merge_node.
      rewrite T, F, Z.eqb_refl. replace (cmd_eqb (nd_type a) (nd_type a)) with true by (symmetry; now apply cmd_eqb_eq). cbn [andb].
      destruct (assign_can _ (nd_points b) (nd_points a) m Lb La) as (l & E). destruct (py_index (nd_points b) (Z.of_nat m)); [|discriminate]. cbn [rthen] in *. rewrite E. reflexivity. }
    destruct (merge_list (merge_node' (Z.of_nat m)) src tgt) as [l o]. cbn [snd] in E. subst o. eauto. }
  destruct X as (nodes & ->). destruct cs as [src|]; [|reflexivity]. destruct (C src eq_refl) as (tgt & -> & L & P).
  assert (E : snd (merge_list (merge_component (Z.of_nat m)) src tgt) = Ok tt).
  { apply merge_list_can; [assumption|]. intros i a b Ha Hb. destruct (P i a b Ha Hb) as (G & F). inversion F as [|? ? (A1 & A2 & A3 & A4) F']; subst. inversion F' as [|? ? (B1 & B2 & B3 & B4) _]; subst.
    unfold merge_component. rewrite G, Z.eqb_refl. cbv zeta. cbn [M_Glyph.co_x M_Glyph.co_y M_Glyph.co_sx M_Glyph.co_sy M_Glyph.co_gid].
    destruct (assign_can _ (M_Glyph.co_x b) (M_Glyph.co_x a) m B1 A1) as (l1 & ->). destruct (assign_can _ (M_Glyph.co_y b) (M_Glyph.co_y a) m B2 A2) as (l2 & ->).
    destruct (assign_can _ (M_Glyph.co_sx b) (M_Glyph.co_sx a) m B3 A3) as (l3 & ->). destruct (assign_can _ (M_Glyph.co_sy b) (M_Glyph.co_sy a) m B4 A4) as (l4 & ->). reflexivity. }
  destruct (merge_list (merge_component (Z.of_nat m)) src tgt) as [l o]. cbn [snd] in E. subst o. reflexivity.
Qed.
(** merging keeps what is needed *)
Lemma mergeable_kept : forall sources d d' j t, merged sources d d' -> mergeable d j t -> mergeable d' j t.
Proof.
  intros sources [dn dc] [dn' dc'] j t (N & C) (Mn & Mc). cbn [fst snd] in *. split; cbn [fst snd].
  - intros src E. destruct (Mn src E) as (tgt & -> & L & P). destruct dn' as [tgt'|]; cbn in N; [|tauto]. destruct N as (L' & R). exists tgt'. split; [reflexivity|]. split; [lia|].
    intros i a s Ha Hs. destruct (nth_error tgt i) as [a0|] eqn:E0; [|apply nth_error_None in E0; assert (i < List.length tgt')%nat by (apply nth_error_Some; congruence); lia].
    destruct (R i a0 E0) as (a1 & E1 & T & F & (Lp & _) & _). rewrite Ha in E1. injection E1 as <-. destruct (P i a0 s E0 Hs) as (T' & F' & La & Ls). repeat split; try congruence; lia.
  - intros src E. destruct (Mc src E) as (tgt & -> & L & P). destruct dc' as [tgt'|]; cbn in C; [|tauto]. destruct C as (L' & R). exists tgt'. split; [reflexivity|]. split; [lia|].
    intros i a s Ha Hs. destruct (nth_error tgt i) as [a0|] eqn:E0; [|apply nth_error_None in E0; assert (i < List.length tgt')%nat by (apply nth_error_Some; congruence); lia].
    destruct (R i a0 E0) as (a1 & E1 & G & (X & _) & (Y & _) & (SX & _) & (SY & _) & _). rewrite Ha in E1. injection E1 as <-. destruct (P i a0 s E0 Hs) as (G' & F'). split; [congruence|].
    inversion F' as [|? ? (A1 & A2 & A3 & A4) F2]; subst. constructor; [|assumption]. repeat split; lia.
Qed.
Lemma merge_masters_can : forall masters m d, (1 <= m)%nat -> (forall k t, nth_error masters k = Some t -> mergeable d (m + k) t) ->
  snd (merge_masters (Z.of_nat m) masters d) = Ok tt.
Proof.
  induction masters as [|s masters IH]; intros m d Hm H; [reflexivity|]. cbn [merge_masters].
  pose proof (merge_master_can m s d) as H0. rewrite <- (Nat.add_0_r m) in H0 at 1. specialize (H0 (H 0%nat s eq_refl)).
  destruct (merge_master (Z.of_nat m) s d) as [d1 o] eqn:E. cbn [snd] in H0. subst o. apply merge_master_ok in E; [|assumption].
  replace (Z.of_nat m + 1) with (Z.of_nat (S m)) by lia. apply IH; [lia|]. intros k t Ht. apply (mergeable_kept _ d d1 _ t E). replace (S m + k)%nat with (m + S k)%nat by lia. now apply H.
Qed.

(** ** Drawing *)
Section Draw.
  Variable m : nat.
  Notation zm := (Z.of_nat m).
  Fixpoint node_calls (offs : list (Z * Z)) (nodes : list mm_node) : list seg_call :=
    match nodes with
    | [] => []
    | n :: nodes =>
        match nd_type n with
        | QCurve => node_calls (offs ++ [node_pt m n]) nodes
        | Curve => PCurve (nth 1 (row m n) (0, 0)) (nth 2 (row m n) (0, 0)) (node_pt m n) :: node_calls [] nodes
        | _ => match offs with [] => PLine (node_pt m n) | _ => PQCurve (offs ++ [node_pt m n]) end :: node_calls [] nodes
        end
    end.
  Definition contour_calls (g : list mm_node) : list seg_call :=
    match g with
    | [] => []
    | n :: rest => PMove (node_pt m n) :: node_calls [] rest ++ [if Z.testbit (nd_flags n) 3 then PEnd else PClose]
    end.
  Definition has_offs (offs : list (Z * Z)) : bool := match offs with [] => false | _ => true end.
  Definition continues (offs : list (Z * Z)) (nodes : list mm_node) : Prop :=
    offs = [] \/ exists n r, nodes = n :: r /\ (nd_type n = QCurve \/ nd_type n = Line).
  Lemma qcurves_tail : forall n g, qcurves_end (n :: g) -> qcurves_end g.
  Proof. intros n g H k x Hx T. apply (H (S k) x Hx T). Qed.
  Lemma qcurves_head : forall n g, qcurves_end (n :: g) -> nd_type n = QCurve -> exists n' r, g = n' :: r /\ (nd_type n' = QCurve \/ nd_type n' = Line).
  Proof. intros n g H T. destruct (H 0%nat n eq_refl T) as (n' & E & T'). destruct g as [|x r]; [discriminate|]. cbn in E. injection E as ->. eauto. Qed.
  Lemma has_offs_snoc : forall offs p, has_offs (offs ++ [p]) = true.
  Proof. intros [|x l] p; reflexivity. Qed.

  Lemma draw_rest : forall rest offs o tl, Forall (node_ok m) rest -> Forall (fun n => nd_type n <> Move) rest -> qcurves_end rest -> continues offs rest ->
    draw_nodes zm (rest ++ tl) (DrawSt o true (has_offs offs) offs) =
    rthen (draw_nodes zm tl (DrawSt o true false [])) (fun y => Ok (node_calls offs rest ++ fst y, snd y)).
  Proof.
    induction rest as [|n rest IH]; intros offs o tl F T Q C.
    - destruct C as [->|(n & r & H & _)]; [|discriminate]. cbn [app has_offs node_calls]. destruct (draw_nodes zm tl (DrawSt o true false [])) as [[c s]|e]; reflexivity.
    - inversion F as [|? ? Fn F']; subst. inversion T as [|? ? Tn T']; subst. pose proof (qcurves_tail _ _ Q) as Q'.
      destruct (node_ok_row m n Fn) as (r & E & R & L). cbn [app draw_nodes node_calls]. unfold draw_node. rewrite E. cbn [rthen]. unfold node_pt. rewrite R.
      destruct (nd_type n) eqn:Et; [congruence| | |].
      + destruct r as [|p [|? ?]]; try discriminate. cbn [py_index rthen hd]. change (py_index [p] 0) with (Ok p). cbn [rthen ds_in_q].
        destruct offs as [|a offs]; cbn [has_offs ds_open ds_in_path ds_q fst snd].
        * cbn [rthen fst snd]. pose proof (IH [] o tl F' T' Q' (or_introl eq_refl)) as H. cbn [has_offs] in H. rewrite H. destruct (draw_nodes zm tl (DrawSt o true false [])) as [[c s]|e]; reflexivity.
        * cbn [rthen fst snd]. pose proof (IH [] o tl F' T' Q' (or_introl eq_refl)) as H. cbn [has_offs] in H. rewrite H. destruct (draw_nodes zm tl (DrawSt o true false [])) as [[c s]|e]; reflexivity.
      + destruct C as [->|(n' & r' & H & [H'|H'])]; [|injection H as <- _; congruence|injection H as <- _; congruence].
        destruct r as [|p [|c1 [|c2 [|? ?]]]]; try discriminate. change (py_index [p; c1; c2] 0) with (Ok p). cbn [rthen fst snd has_offs nth hd].
        pose proof (IH [] o tl F' T' Q' (or_introl eq_refl)) as H. cbn [has_offs] in H. rewrite H. destruct (draw_nodes zm tl (DrawSt o true false [])) as [[c s]|e]; reflexivity.
      + destruct r as [|p [|? ?]]; try discriminate. change (py_index [p] 0) with (Ok p). cbn [rthen fst snd ds_q ds_open ds_in_path hd].
        pose proof (IH (offs ++ [p]) o tl F' T' Q') as H. rewrite has_offs_snoc in H. rewrite H.
        * destruct (draw_nodes zm tl (DrawSt o true false [])) as [[c s]|e]; reflexivity.
        * right. now apply (qcurves_head n).
  Qed.
  Lemma draw_contours : forall gs st, Forall contour gs -> Forall (Forall (node_ok m)) gs -> Forall qcurves_end gs -> ds_in_q st = false ->
    exists calls st', draw_nodes zm (concat gs) st = Ok (calls, st') /\ calls ++ finish st' = finish st ++ concat (map contour_calls gs).
  Proof.
    induction gs as [|g gs IH]; intros st C F Q Hq; cbn [concat map].
    - cbn [draw_nodes]. do 2 eexists. split; [reflexivity|]. now rewrite app_nil_r.
    - inversion C as [|? ? (n & rest & -> & Tn & Tr) C']; subst. inversion F as [|? ? Fg F']; subst. inversion Q as [|? ? Qg Q']; subst. inversion Fg as [|? ? Fn Fr]; subst.
      destruct (node_ok_row m n Fn) as (r & E & R & L). cbn [app draw_nodes]. unfold draw_node at 1. rewrite E. cbn [rthen]. rewrite Tn in *. destruct r as [|p [|? ?]]; try discriminate.
      change (py_index [p] 0) with (Ok p). cbn [rthen fst snd]. rewrite Hq. cbn [app].
      pose proof (draw_rest rest [] (Z.testbit (nd_flags n) 3) (concat gs) Fr Tr (qcurves_tail _ _ Qg) (or_introl eq_refl)) as H. cbn [has_offs] in H. rewrite H.
      destruct (IH (DrawSt (Z.testbit (nd_flags n) 3) true false []) C' F' Q' eq_refl) as (calls & st' & E' & Ec). rewrite E'. cbn [rthen fst snd].
      do 2 eexists. split; [reflexivity|]. cbn [contour_calls]. unfold node_pt. rewrite R. cbn [hd]. rewrite <- !app_assoc. cbn [app]. rewrite Ec. unfold finish at 2. cbn [ds_in_path ds_open].
      rewrite <- !app_assoc. cbn [app]. reflexivity.
  Qed.
  Lemma removelast_snoc_last : forall (l : list (Z * Z)) p d, removelast (l ++ [p]) = l /\ last (l ++ [p]) d = p.
  Proof. intros l p d. now rewrite removelast_last, last_last. Qed.
  Lemma drawn_rest : forall rest offs o, Forall (node_ok m) rest -> Forall (fun n => nd_type n <> Move) rest -> qcurves_end rest -> continues offs rest ->
    exists segs, source_segments m offs rest = (segs, []) /\ drawn_segments (node_calls offs rest ++ [if (o : bool) then PEnd else PClose]) = Some (segs, o).
  Proof.
    induction rest as [|n rest IH]; intros offs o F T Q C.
    - destruct C as [->|(n & r & H & _)]; [|discriminate]. exists []. cbn. split; [reflexivity|]. destruct o; reflexivity.
    - inversion F as [|? ? Fn F']; subst. inversion T as [|? ? Tn T']; subst. pose proof (qcurves_tail _ _ Q) as Q'.
      destruct (node_ok_row m n Fn) as (r & E & R & L). cbn [source_segments node_calls]. destruct (nd_type n) eqn:Et; [congruence| | |].
      + destruct (IH [] o F' T' Q' (or_introl eq_refl)) as (segs & Es & Ed). rewrite Es. eexists. split; [reflexivity|]. destruct offs as [|a offs]; cbn [app drawn_segments].
        * now rewrite Ed.
        * rewrite Ed. cbn [option_map fst snd]. rewrite app_comm_cons. destruct (removelast_snoc_last (a :: offs) (node_pt m n) (0, 0)) as (-> & ->). reflexivity.
      + destruct C as [->|(n' & r' & H & [H'|H'])]; [|injection H as <- _; congruence|injection H as <- _; congruence].
        destruct (IH [] o F' T' Q' (or_introl eq_refl)) as (segs & Es & Ed). rewrite Es. eexists. split; [reflexivity|]. cbn [app drawn_segments]. rewrite Ed. cbn [option_map fst snd].
        unfold node_pt. rewrite R. destruct r as [|p [|c1 [|c2 [|? ?]]]]; try discriminate. reflexivity.
      + apply (IH (offs ++ [node_pt m n]) o F' T' Q'). right. now apply (qcurves_head n).
  Qed.
  Lemma contour_drawn : forall n rest, Forall (node_ok m) (n :: rest) -> Forall (fun n => nd_type n <> Move) rest -> nd_type n = Move -> qcurves_end (n :: rest) ->
    drawn (contour_calls (n :: rest)) = Some (source_path m (Z.odd (nd_flags n / 8)) n rest).
  Proof.
    intros n rest F T Tn Q. inversion F as [|? ? Fn F']; subst. cbn [contour_calls drawn].
    destruct (drawn_rest rest [] (Z.testbit (nd_flags n) 3) F' T (qcurves_tail _ _ Q) (or_introl eq_refl)) as (segs & Es & Ed). rewrite Ed. unfold source_path. rewrite Es, <- bit3.
    destruct (Z.testbit (nd_flags n) 3); [reflexivity|]. destruct (curve_to (node_pt m n) (last segs (SLine, [], node_pt m n))); reflexivity.
  Qed.
  Lemma components_drawn : forall order cs, Forall (component_ok order m) cs -> exists us, res_map (draw_component order zm) cs = Ok us /\ Forall2 (component_drawn order m) cs us.
  Proof.
    intros order. induction cs as [|c cs IH]; intros F; [exists []; split; [reflexivity|constructor]|]. inversion F as [|? ? (A & B & C & D & G) F']; subst. destruct (IH F') as (us & E & F2).
    cbn [res_map]. unfold draw_component at 1. rewrite (py_index_nth _ (M_Glyph.co_sx c) m 0 A), (py_index_nth _ (M_Glyph.co_sy c) m 0 B), (py_index_nth _ (M_Glyph.co_x c) m 0 C), (py_index_nth _ (M_Glyph.co_y c) m 0 D).
    destruct order as [|n0 order]; [cbn in G; lia|].
    replace (M_Glyph.co_gid c) with (Z.of_nat (Z.to_nat (M_Glyph.co_gid c))) by lia. rewrite (py_index_nth _ (n0 :: order) (Z.to_nat (M_Glyph.co_gid c)) n0) by lia. cbn [rthen]. rewrite E. cbn [rmap rthen].
    eexists. split; [reflexivity|]. constructor; [|assumption]. split; [cbn [fst]; apply nth_error_nth'; lia|reflexivity].
  Qed.
End Draw.

(** ** Direct drawing *)
Definition dpoint (x : (Z * Z) * option seg) : dcall := DPoint (fst x) (snd x).
Lemma direct_rest : forall m rest q tl, Forall (node_ok m) rest -> Forall (fun n => nd_type n <> Move) rest ->
  exists pts q', direct_nodes (Z.of_nat m) (rest ++ tl) (true, q) =
      rthen (direct_nodes (Z.of_nat m) tl (true, q')) (fun y => Ok (map dpoint pts ++ fst y, snd y)) /\
    map fst pts = all_coords m rest /\
    (qcurves_end rest -> (q = true -> exists n r, rest = n :: r /\ (nd_type n = QCurve \/ nd_type n = Line)) -> q' = false).
Proof.
  intros m. induction rest as [|n rest IH]; intros q tl F T.
  - exists [], q. split; [cbn [app]; destruct (direct_nodes (Z.of_nat m) tl (true, q)) as [[c s]|e]; reflexivity|]. split; [reflexivity|]. intros _ H. destruct q; [|reflexivity]. destruct (H eq_refl) as (? & ? & ? & _). discriminate.
  - inversion F as [|? ? Fn F']; subst. inversion T as [|? ? Tn T']; subst. destruct (node_ok_row m n Fn) as (r & E & R & L).
    cbn [app direct_nodes]. unfold direct_node. rewrite E. cbn [rthen].
    assert (Ac : forall pts : list ((Z * Z) * option seg), coords m n ++ map fst pts = all_coords m (n :: rest) <-> map fst pts = all_coords m rest).
    { intros pts. unfold all_coords. cbn [map concat]. split; [apply app_inv_head|intros ->; reflexivity]. }
    destruct (nd_type n) eqn:Et; [congruence| | |].
    + destruct r as [|p [|? ?]]; try discriminate. change (py_index [p] 0) with (Ok p). cbn [rthen fst snd].
      destruct (IH false tl F' T') as (pts & q' & Ed & Ep & Eq). rewrite Ed. exists ((p, Some (if q then SQCurve else SLine)) :: pts), q'. split; [destruct (direct_nodes (Z.of_nat m) tl (true, q')) as [[c s]|e]; reflexivity|]. split.
      * rewrite <- (proj2 (Ac pts) Ep). unfold coords, node_pt. rewrite R. reflexivity.
      * intros Q _. apply Eq; [now apply (qcurves_tail n)|discriminate].
    + destruct r as [|p [|c1 [|c2 [|? ?]]]]; try discriminate. cbn [rthen fst snd].
      destruct (IH q tl F' T') as (pts & q' & Ed & Ep & Eq). rewrite Ed. exists ((c1, None) :: (c2, None) :: (p, Some SCurve) :: pts), q'. split; [destruct (direct_nodes (Z.of_nat m) tl (true, q')) as [[c s]|e]; reflexivity|]. split.
      * rewrite <- (proj2 (Ac pts) Ep). unfold coords, node_pt. rewrite R. reflexivity.
      * intros Q H. apply Eq; [now apply (qcurves_tail n)|]. intros ->. destruct (H eq_refl) as (n' & r' & E' & [H'|H']); injection E' as <- _; congruence.
    + destruct r as [|p [|? ?]]; try discriminate. change (py_index [p] 0) with (Ok p). cbn [rthen fst snd].
      destruct (IH true tl F' T') as (pts & q' & Ed & Ep & Eq). rewrite Ed. exists ((p, None) :: pts), q'. split; [destruct (direct_nodes (Z.of_nat m) tl (true, q')) as [[c s]|e]; reflexivity|]. split.
      * rewrite <- (proj2 (Ac pts) Ep). unfold coords, node_pt. rewrite R. reflexivity.
      * intros Q _. apply Eq; [now apply (qcurves_tail n)|]. intros _. now apply (qcurves_head n).
Qed.
Lemma direct_contours : forall m gs b, Forall contour gs -> Forall (Forall (node_ok m)) gs -> Forall qcurves_end (removelast gs) ->
  exists calls q' ptss, direct_nodes (Z.of_nat m) (concat gs) (b, false) = Ok (calls, (match gs with [] => b | _ => true end, q')) /\
    calls ++ (match gs with [] => if b then [DEnd] else [] | _ => [DEnd] end) = (if b then [DEnd] else []) ++ concat (map (fun pts => DBegin :: map dpoint pts ++ [DEnd]) ptss) /\
    Forall2 (fun g pts => map fst pts = all_coords m g) gs ptss.
Proof.
  intros m. induction gs as [|g gs IH]; intros b C F Q.
  - exists [], false, []. cbn. split; [reflexivity|]. split; [now rewrite app_nil_r|constructor].
  - inversion C as [|? ? (n & rest & -> & Tn & Tr) C']; subst. inversion F as [|? ? Fg F']; subst. inversion Fg as [|? ? Fn Fr]; subst.
    destruct (node_ok_row m n Fn) as (r & E & R & L). rewrite Tn in L. destruct r as [|p [|? ?]]; try discriminate.
    cbn [concat]. cbn [app direct_nodes]. unfold direct_node at 1. rewrite E, Tn. cbn [rthen]. change (py_index [p] 0) with (Ok p). cbn [rthen fst snd app].
    destruct (direct_rest m rest false (concat gs) Fr Tr) as (pts & q & Ed & Ep & Eq). rewrite Ed.
    assert (Ac : map fst ((p, Some SMove) :: pts) = all_coords m (n :: rest)).
    { unfold all_coords. cbn [map concat]. change (concat (map (coords m) rest)) with (all_coords m rest). rewrite <- Ep. unfold coords, node_pt. rewrite R. reflexivity. }
    destruct gs as [|g2 gs].
    + cbn [concat direct_nodes rthen fst snd]. do 2 eexists. exists [(p, Some SMove) :: pts]. split; [reflexivity|]. split; [|constructor; [assumption|constructor]].
      cbn [map concat]. rewrite !app_nil_r. cbn [map app dpoint fst snd]. destruct b; rewrite <- ?app_assoc; reflexivity.
    + assert (Qg : qcurves_end (n :: rest)) by (cbn [removelast] in Q; now inversion Q). rewrite (Eq (qcurves_tail _ _ Qg)) in * by discriminate.
      destruct (IH true C' F') as (calls & q2 & ptss & E2 & Ec & F2); [cbn [removelast] in Q; now inversion Q|]. rewrite E2. cbn [rthen fst snd].
      do 2 eexists. exists (((p, Some SMove) :: pts) :: ptss). split; [reflexivity|]. split; [|constructor; assumption].
      cbn [map concat]. rewrite <- !app_assoc. rewrite Ec. cbn [map app dpoint fst snd]. destruct b; cbn [app]; rewrite <- ?app_assoc; reflexivity.
Qed.

(** ** Drawing into a glyph *)
Section PenProofs.
  Variable masters : Z.
  Variable order : list pystr.
  Definition new_type (t : option seg) : path_cmd := match t with None => QCurve | _ => Line end.
  Definition new_nodes (c : list upoint) : list mm_node :=
    match c with
    | [] => []
    | p :: ps => pen_node masters (match up_type p with Some SMove => 8 | _ => 0 end) Move (up_pt p) :: map (fun p => pen_node masters 0 (new_type (up_type p)) (up_pt p)) ps
    end.
  Lemma pen_rest : forall ps a path q ns cs tl off, quadratic off ps ->
    exists q', pen_calls masters order (map (fun p => CPoint (up_pt p) (up_type p)) ps ++ tl) (PenSt (Some (a :: path)) q ns cs) =
      pen_calls masters order tl (PenSt (Some (a :: path ++ map (fun p => pen_node masters 0 (new_type (up_type p)) (up_pt p)) ps)) q' ns cs).
  Proof.
    induction ps as [|p ps IH]; intros a path q ns cs tl off Hq; cbn [map app]; [exists q; now rewrite app_nil_r|].
    cbn [pen_calls]. unfold pen_call at 1. cbn [pe_path pe_nodes pe_components pe_in_q]. cbn [quadratic] in Hq.
    destruct (up_type p) as [[| | |]|] eqn:Et; try tauto; cbn [rthen app].
    - destruct (IH a (path ++ [pen_node masters 0 Line (up_pt p)]) q ns cs tl false (proj2 Hq)) as (q' & E). exists q'. rewrite E. rewrite <- app_assoc. cbn [app new_type]. reflexivity.
    - destruct (IH a (path ++ [pen_node masters 0 Line (up_pt p)]) false ns cs tl false (proj2 Hq)) as (q' & E). exists q'. rewrite E. rewrite <- app_assoc. cbn [app new_type]. reflexivity.
    - destruct (IH a (path ++ [pen_node masters 0 QCurve (up_pt p)]) q ns cs tl true Hq) as (q' & E). exists q'. rewrite E. rewrite <- app_assoc. cbn [app new_type]. reflexivity.
  Qed.
  Lemma quadratic_app : forall a b off, quadratic off (a ++ b) -> quadratic off a.
  Proof.
    induction a as [|p a IH]; intros b off H; [exact I|]. cbn [app quadratic] in *. destruct (up_type p) as [[| | |]|]; try tauto; [split; [tauto|]; now apply (IH b)|split; [tauto|]; now apply (IH b)|now apply (IH b)].
  Qed.
  Lemma pen_contour : forall c q ns cs tl, quadratic_contour c ->
    exists q', pen_calls masters order (contour_pcalls c ++ tl) (PenSt None q ns cs) =
      pen_calls masters order tl (PenSt None q' (Some (match ns with Some l => l | None => [] end ++ new_nodes c)) cs).
  Proof.
    intros c q ns cs tl (p & ps & -> & H). unfold contour_pcalls. cbn [map app pen_calls]. unfold pen_call at 1. cbn [rthen pe_in_q pe_nodes pe_components].
    unfold pen_call at 1. cbn [rthen pe_in_q pe_nodes pe_components pe_path app].
    assert (Qps : quadratic false ps) by (destruct H as [(_ & H)|(_ & _ & H)]; [assumption|now apply (quadratic_app ps [p])]).
    rewrite <- app_assoc. cbn [app].
    destruct (pen_rest ps (pen_node masters match up_type p with Some SMove => 8 | _ => 0 end Move (up_pt p)) [] (match up_type p with Some SQCurve => true | _ => q end) ns cs (CEnd :: tl) false Qps) as (q' & E).
    exists q'. rewrite E. cbn [app pen_calls]. unfold pen_call at 1. cbn [pe_path rthen pe_in_q pe_nodes pe_components]. reflexivity.
  Qed.
  Lemma pen_contours : forall css q ns cs tl, Forall quadratic_contour css ->
    exists q' ns', pen_calls masters order (concat (map contour_pcalls css) ++ tl) (PenSt None q ns cs) = pen_calls masters order tl (PenSt None q' ns' cs) /\
      match ns' with Some l => l | None => [] end = match ns with Some l => l | None => [] end ++ concat (map new_nodes css).
  Proof.
    induction css as [|c css IH]; intros q ns cs tl F; cbn [map concat app]; [exists q, ns; split; [reflexivity|now rewrite app_nil_r]|].
    inversion F as [|? ? Fc F']; subst. rewrite <- app_assoc. destruct (pen_contour c q ns cs (concat (map contour_pcalls css) ++ tl) Fc) as (q1 & ->).
    destruct (IH q1 (Some (match ns with Some l => l | None => [] end ++ new_nodes c)) cs tl F') as (q' & ns' & E & El). exists q', ns'. split; [assumption|]. rewrite El. now rewrite <- app_assoc.
  Qed.

  (** the new nodes draw the same path *)
  Variable m : nat.
  Hypothesis Hm : Z.of_nat m < masters.
  Lemma new_row : forall f t p, row m (pen_node masters f t p) = [p].
  Proof.
    intros f t p. unfold row, pen_node. cbn [nd_points].
    assert (E : nth_error (repeat [p] (Z.to_nat masters)) m = Some [p]) by (apply nth_error_repeat; lia). now apply nth_error_nth.
  Qed.
  Lemma new_ok : forall f t p, t <> Curve -> node_ok m (pen_node masters f t p).
  Proof. intros f t p Ht. exists [p]. unfold pen_node. cbn [nd_points nd_type]. split; [apply nth_error_repeat; lia|]. destruct t; auto; congruence. Qed.
  Lemma new_segments : forall ps offs, quadratic (match offs with [] => false | _ => true end) ps ->
    source_segments m offs (map (fun p => pen_node masters 0 (new_type (up_type p)) (up_pt p)) ps) = ufo_segments offs ps /\
    (snd (ufo_segments offs ps) = [] \/ exists x l, snd (ufo_segments offs ps) = x :: l).
  Proof.
    induction ps as [|p ps IH]; intros offs H; cbn [map source_segments ufo_segments].
    - split; [reflexivity|]. destruct offs; cbn; eauto.
    - cbn [quadratic] in H. destruct (up_type p) as [[| | |]|] eqn:Et; try tauto; cbn [new_type nd_type pen_node].
      + destruct H as (H1 & H2). destruct offs; [|discriminate]. destruct (IH [] H2) as (-> & B). unfold node_pt. fold (pen_node masters 0 Line (up_pt p)). rewrite new_row. cbn [hd]. destruct (ufo_segments [] ps) as [s r]. split; [reflexivity|assumption].
      + destruct H as (H1 & H2). destruct offs as [|o offs]; [discriminate|]. destruct (IH [] H2) as (-> & B). unfold node_pt. fold (pen_node masters 0 Line (up_pt p)). rewrite new_row. cbn [hd]. destruct (ufo_segments [] ps) as [s r]. split; [reflexivity|assumption].
      + unfold node_pt. fold (pen_node masters 0 QCurve (up_pt p)). rewrite new_row. cbn [hd]. apply IH. destruct offs; exact H.
  Qed.
  Lemma ufo_snoc2 : forall ps offs p t, up_type p = Some t -> ufo_segments offs (ps ++ [p]) =
    (fst (ufo_segments offs ps) ++ [(t, snd (ufo_segments offs ps), up_pt p)], []).
  Proof.
    induction ps as [|x ps IH]; intros offs p t Et; cbn [app ufo_segments]; [now rewrite Et|].
    destruct (up_type x) as [tx|]; [|now apply IH]. rewrite (IH [] p t Et). destruct (ufo_segments [] ps) as [s r]. reflexivity.
  Qed.
  Lemma quadratic_last : forall ps off p t offs, quadratic off (ps ++ [p]) -> off = match offs with [] => false | _ => true end -> up_type p = Some t ->
    (t = SLine /\ snd (ufo_segments offs ps) = []) \/ (t = SQCurve /\ exists x l, snd (ufo_segments offs ps) = x :: l).
  Proof.
    induction ps as [|x ps IH]; intros off p t offs H Eo Et; cbn [app quadratic ufo_segments snd] in *.
    - rewrite Et in H. destruct t; try tauto; destruct H as (H & _); rewrite Eo in H; destruct offs; try discriminate; eauto.
    - destruct (up_type x) as [[| | |]|]; try tauto.
      + destruct H as (_ & H). specialize (IH false p t [] H eq_refl Et). destruct (ufo_segments [] ps). exact IH.
      + destruct H as (_ & H). specialize (IH false p t [] H eq_refl Et). destruct (ufo_segments [] ps). exact IH.
      + apply (IH true p t (offs ++ [up_pt x]) H); [destruct offs; reflexivity|assumption].
  Qed.
  Lemma no_curves : forall ps offs off, quadratic off ps -> Forall (fun s => fst (fst s) <> SCurve) (fst (ufo_segments offs ps)).
  Proof.
    induction ps as [|p ps IH]; intros offs off H; cbn [ufo_segments]; [constructor|]. cbn [quadratic] in H. destruct (up_type p) as [[| | |]|]; try tauto.
    - destruct H as (_ & H). specialize (IH [] false H). destruct (ufo_segments [] ps) as [s r]. cbn [fst] in *. constructor; [discriminate|assumption].
    - destruct H as (_ & H). specialize (IH [] false H). destruct (ufo_segments [] ps) as [s r]. cbn [fst] in *. constructor; [discriminate|assumption].
    - now apply (IH _ true).
  Qed.
  Lemma last_no_curve : forall segs p, Forall (fun s : segment => fst (fst s) <> SCurve) segs -> curve_to p (last segs (SLine, [], p)) = false.
  Proof.
    intros segs p F. destruct segs as [|s segs _] using rev_ind; [reflexivity|]. rewrite last_last. apply Forall_app in F. destruct F as (_ & F). inversion F as [|? ? H _]; subst.
    destruct s as [[t c] e]. unfold curve_to. cbn [fst] in H. destruct t; congruence.
  Qed.
  Lemma new_path : forall p ps, quadratic_contour (p :: ps) ->
    Some (source_path m (Z.odd (match up_type p with Some SMove => 8 | _ => 0 end / 8)) (pen_node masters (match up_type p with Some SMove => 8 | _ => 0 end) Move (up_pt p))
        (map (fun p => pen_node masters 0 (new_type (up_type p)) (up_pt p)) ps)) = ufo_path (p :: ps).
  Proof.
    intros p ps (p' & ps' & E & H). injection E as <- <-. unfold source_path, ufo_path, node_pt. rewrite new_row. cbn [hd].
    assert (Qps : quadratic false ps) by (destruct H as [(_ & H)|(_ & _ & H)]; [assumption|now apply (quadratic_app ps [p])]).
    destruct (new_segments ps [] Qps) as (-> & _). destruct H as [(Et & _)|(N1 & N2 & Q)].
    - rewrite Et. change (Z.odd (8 / 8)) with true. cbv iota. destruct (ufo_segments [] ps); reflexivity.
    - destruct (up_type p) as [t|] eqn:Et; [|congruence]. rewrite (ufo_snoc2 ps [] p t Et). pose proof (quadratic_last ps false p t [] Q eq_refl Et) as La. pose proof (no_curves ps [] false Qps) as Nc.
      destruct (ufo_segments [] ps) as [s r] eqn:Eu. cbn [fst snd] in *.
      replace (Z.odd (match t with SMove => 8 | _ => 0 end / 8)) with false by (destruct t; try reflexivity; congruence).
      destruct La as [(-> & ->)|(-> & x & l & ->)]; [|reflexivity]. now rewrite last_no_curve.
  Qed.
End PenProofs.

(** contours without cubic curves become quadratic contours *)
Section Quadratic.
  Variable m : nat.
  Variable labels : Z -> option pystr.
  Definition no_cubic (n : mm_node) : Prop := nd_type n = Line \/ nd_type n = QCurve.
  Lemma raw_quadratic : forall nodes i q tl, Forall no_cubic nodes -> quadratic (last_q q nodes) tl -> quadratic q (raw m labels i q nodes ++ tl).
  Proof.
    induction nodes as [|n nodes IH]; intros i q tl F H; [exact H|]. inversion F as [|? ? Fn F']; subst. cbn [raw]. rewrite <- app_assoc.
    assert (H' : quadratic (last_q (next_q n) nodes) tl) by exact H. specialize (IH (i + 1) (next_q n) tl F' H'). unfold raw1. unfold next_q in *.
    destruct Fn as [T|T]; rewrite T in *; cbn [app quadratic up_type own]; [|exact IH]. destruct q; cbn; auto.
  Qed.
  Lemma last_q_snoc : forall mid q l, last_q q (mid ++ [l]) = next_q l.
  Proof. intros mid q l. unfold last_q. now rewrite fold_left_app. Qed.
  Lemma flush_quadratic : forall i n rest ren, Forall no_cubic rest -> rest <> [] -> quadratic_contour (fst (flush_group m labels i (n :: rest) ren)).
  Proof.
    intros i n rest ren F Ne. assert (T : Forall (fun n => nd_type n <> Move) rest) by (eapply Forall_impl; [|exact F]; intros a [Ha|Ha]; rewrite Ha; discriminate).
    pose proof (raw_quadratic rest (i + 1) false) as R.
    assert (Lc : forall mid l, rest = mid ++ [l] -> nd_type l <> Curve).
    { intros mid l ->. apply Forall_app in F. destruct F as (_ & F). inversion F as [|? ? [H|H] _]; subst; rewrite H; discriminate. }
    destruct (flush_shape m labels i n rest ren T) as [(O & E)|[(O & E & _)|(O & mid & l & Er & [(Tl & E)|[(Tl & _ & _)|(Tl & _ & E)]])]]; try congruence.
    - rewrite E. cbn [fst]. do 2 eexists. split; [reflexivity|]. left. split; [reflexivity|]. specialize (R [] F I). now rewrite app_nil_r in R.
    - rewrite E. cbn [fst]. do 2 eexists. split; [reflexivity|]. right. split; [discriminate|]. split; [discriminate|]. apply R; [assumption|]. rewrite Er, last_q_snoc. unfold next_q. rewrite Tl. cbn. auto.
    - exfalso. now apply (Lc mid l).
    - rewrite E. cbn [fst]. do 2 eexists. split; [reflexivity|]. right. split; [discriminate|]. split; [discriminate|]. apply R; [assumption|]. rewrite Er, last_q_snoc. unfold next_q. destruct (nd_type l); try congruence; cbn; auto.
  Qed.
End Quadratic.
