(** Proofs about the access to glyphs. *)
From Coq Require Import String FinFun ZifyBool ZifyNat.
From Verif Require Import Base Lib M_Stream M_Text M_Py P_Dec M_Glyph M_Container M_Table M_GlyphAccess S_GlyphAccess.
Local Open Scope list_scope.

(** ** Names *)
Lemma numbered_inj : forall n i j, numbered n i = numbered n j -> i = j.
Proof. intros n i j E. unfold numbered in E. apply app_inv_head in E. apply app_inv_head in E. now apply dec_str_inj. Qed.
Lemma first_free_ok : forall fuel name i glyphs, 1 <= i ->
  (forall j, 1 <= j < i -> In (numbered name j) (map fst glyphs)) -> (List.length glyphs < Z.to_nat (i - 1) + fuel)%nat ->
  exists k, i <= k /\ first_free fuel name i glyphs = Ok (numbered name k) /\ ~ In (numbered name k) (map fst glyphs) /\
    forall j, 1 <= j < k -> In (numbered name j) (map fst glyphs).
Proof.
  induction fuel as [|fuel IH]; intros name i glyphs Hi Hin L.
  - exfalso. set (n := Z.to_nat (i - 1)) in *.
    assert (I : incl (map (fun k => numbered name (Z.of_nat (S k))) (seq 0 n)) (map fst glyphs)).
    { intros x Hx. apply in_map_iff in Hx. destruct Hx as (k & <- & Hk). apply in_seq in Hk. apply Hin. lia. }
    apply NoDup_incl_length in I.
    + rewrite !map_length, seq_length in I. lia.
    + apply Injective_map_NoDup; [|apply seq_NoDup]. intros a b E. apply numbered_inj in E; lia.
  - cbn [first_free]. fold (numbered name i). destruct (aget str_eqb (numbered name i) glyphs) as [g|] eqn:E.
    + destruct (IH name (i + 1) glyphs) as (k & Hk & R); [lia| |lia|].
      * intros j Hj. destruct (Z.eq_dec j i) as [->|]; [|apply Hin; lia]. apply (aget_In _ str_eqb_eq) in E. apply in_map_iff. eexists. split; [|exact E]. reflexivity.
      * exists k. split; [lia|assumption].
    + exists i. apply (aget_None _ str_eqb_eq) in E. repeat split; auto; lia.
Qed.
Lemma unique_name_ok : forall name glyphs, exists key, unique_name name glyphs = Ok key /\ disambiguated (map fst glyphs) name key.
Proof.
  intros name glyphs. unfold unique_name. destruct (aget str_eqb name glyphs) as [g|] eqn:E.
  - destruct (first_free_ok (S (List.length glyphs)) name 1 glyphs) as (k & Hk & F & N & A); [lia|lia|lia|].
    exists (numbered name k). split; [assumption|]. right. split.
    + apply (aget_In _ str_eqb_eq) in E. apply in_map_iff. eexists. split; [|exact E]. reflexivity.
    + exists k. auto.
  - exists name. split; [reflexivity|]. left. apply (aget_None _ str_eqb_eq) in E. auto.
Qed.

Definition gen (k : nat) : pystr := match k with O => [] | _ => py "#" ++ dec_str (Z.of_nat k) end.
Lemma gen_inj : forall a b, gen a = gen b -> a = b.
Proof.
  intros [|a] [|b] E; try discriminate; [reflexivity|]. unfold gen in E. apply app_inv_head in E. apply dec_str_inj in E. lia.
Qed.
Lemma nameless_gen : forall n, nameless n = map gen (seq 0 n).
Proof. reflexivity. Qed.
Lemma gen_numbered : forall k, (0 < k)%nat -> gen k = numbered [] (Z.of_nat k).
Proof. intros [|k] H; [lia|reflexivity]. Qed.
Lemma nameless_In : forall k n, In (gen k) (nameless n) <-> (k < n)%nat.
Proof.
  intros k n. rewrite nameless_gen, in_map_iff. split.
  - intros (j & E & I). apply gen_inj in E. apply in_seq in I. lia.
  - intros H. exists k. split; [reflexivity|]. apply in_seq. lia.
Qed.
Lemma nameless_nodup : forall n, NoDup (nameless n).
Proof. intros n. rewrite nameless_gen. apply Injective_map_NoDup; [|apply seq_NoDup]. intros a b. apply gen_inj. Qed.
Lemma nameless_S : forall n, nameless (S n) = nameless n ++ [gen n].
Proof. intros n. now rewrite !nameless_gen, seq_S, map_app. Qed.
Lemma nameless_length : forall n, List.length (nameless n) = n.
Proof. intros n. now rewrite nameless_gen, map_length, seq_length. Qed.

(** ** The table, by its objects *)
Definition named (objs : list gobj) : list (pystr * gobj) := combine (nameless (List.length objs)) objs.
Definition last_name (objs : list gobj) : option pystr := match List.length objs with O => None | S m => Some (gen m) end.
Lemma combine_keys : forall A B (a : list A) (b : list B), List.length a = List.length b -> map fst (combine a b) = a /\ map snd (combine a b) = b.
Proof. induction a as [|x a IH]; intros [|y b] H; try discriminate; [auto|]. cbn. injection H as H. destruct (IH b H) as (-> & ->). auto. Qed.
Lemma named_keys : forall objs, map fst (named objs) = nameless (List.length objs).
Proof. intros objs. apply combine_keys. apply nameless_length. Qed.
Lemma named_objs : forall objs, map snd (named objs) = objs.
Proof. intros objs. apply (combine_keys _ _ (nameless (List.length objs)) objs). apply nameless_length. Qed.
Lemma combine_snoc : forall A B (a : list A) (b : list B) x y, List.length a = List.length b -> combine (a ++ [x]) (b ++ [y]) = combine a b ++ [(x, y)].
Proof. induction a as [|u a IH]; intros [|w b] x y H; try discriminate; [reflexivity|]. cbn. f_equal. apply IH. now injection H. Qed.
Lemma named_snoc : forall objs g, named (objs ++ [g]) = named objs ++ [(gen (List.length objs), g)].
Proof. intros objs g. unfold named. rewrite app_length. cbn [List.length]. rewrite Nat.add_1_r, nameless_S. apply combine_snoc. apply nameless_length. Qed.
Lemma unique_empty : forall objs, unique_name [] (named objs) = Ok (gen (List.length objs)).
Proof.
  intros objs. destruct (unique_name_ok [] (named objs)) as (key & E & D). rewrite E. f_equal. rewrite named_keys in D.
  change (@nil Z) with (gen 0) in D at 1. destruct D as [(N & ->)|(I & i & Hi & Hk & N & A)].
  - rewrite nameless_In in N. replace (List.length objs) with 0%nat by lia. reflexivity.
  - change (@nil Z) with (gen 0) in I. rewrite nameless_In in I.
    assert (G : forall j, 1 <= j -> numbered [] j = gen (Z.to_nat j)) by (intros j Hj; rewrite gen_numbered by lia; f_equal; lia).
    subst key. rewrite G in * by lia. rewrite nameless_In in N. f_equal.
    destruct (Z.eq_dec i (Z.of_nat (List.length objs))) as [->|Hn]; [lia|].
    specialize (A (Z.of_nat (List.length objs))). rewrite G in A by lia. rewrite nameless_In in A. lia.
Qed.
Lemma aset_mid : forall A k (v w : A) d, ~ In k (map fst d) -> aset str_eqb k v (d ++ [(k, w)]) = d ++ [(k, v)].
Proof.
  induction d as [|[n u] d IH]; intros H; cbn; [now rewrite str_eqb_refl|].
  destruct (str_eqb k n) eqn:E; [apply str_eqb_eq in E; subst; exfalso; apply H; now left|]. f_equal. apply IH. intros I. apply H. now right.
Qed.
Lemma named_new : forall objs, ~ In (gen (List.length objs)) (map fst (named objs)).
Proof. intros objs. rewrite named_keys, nameless_In. lia. Qed.
Lemma named_get : forall objs g, aget str_eqb (gen (List.length objs)) (named (objs ++ [g])) = Some g.
Proof.
  intros objs g. apply (In_aget _ str_eqb_eq); [rewrite named_keys; apply nameless_nodup|]. rewrite named_snoc. apply in_or_app. right. now left.
Qed.
Lemma named_set : forall objs g h, aset str_eqb (gen (List.length objs)) h (named (objs ++ [g])) = named (objs ++ [h]).
Proof. intros objs g h. rewrite !named_snoc. apply aset_mid. apply named_new. Qed.

(** ** One entry on objects *)
Definition on_last (f : gobj -> gobj) (objs : list gobj) : list gobj :=
  match objs with [] => [] | g :: _ => removelast objs ++ [f (last objs g)] end.
Lemma on_last_snoc : forall f objs g, on_last f (objs ++ [g]) = objs ++ [f g].
Proof.
  intros f objs g. unfold on_last. destruct (objs ++ [g]) eqn:E; [destruct objs; discriminate|]. rewrite <- E, removelast_last, last_last. reflexivity.
Qed.
Lemma last_name_snoc : forall objs g, last_name (objs ++ [g]) = Some (gen (List.length objs)).
Proof. intros objs g. unfold last_name. now rewrite app_length, Nat.add_1_r. Qed.
Definition obj_step (k : nat) (e : entry value) (objs : list gobj) : list gobj :=
  match e_id e with
  | None => objs
  | Some i => if i =? 2001 then objs ++ [GObj k None None]
              else if i =? 2008 then on_last (set_links k) objs
              else if i =? 2010 then on_last (set_hinting k) objs
              else objs
  end.
Fixpoint obj_loop (k : nat) (es : list (entry value)) (objs : list gobj) : list gobj :=
  match es with [] => objs | e :: es => obj_loop (S k) es (obj_step k e objs) end.
Definition state_of (objs : list gobj) (t : gtable) : Prop := gt_glyphs t = named objs /\ gt_order t = nameless (List.length objs).

(** what happens to an entry *)
Definition touched (T : codecs value) (c : ctx) (e e' : entry value) : Prop :=
  e_id e' = e_id e /\ e_cache e' = e_cache e /\
  (e_id e = Some 2001 -> e_data e' = Dec (DGlyph (blank (num_masters c)))) /\
  (e_id e <> Some 2001 -> e' = e \/ e' = fst (fst (entry_decompile T c e))).
Lemma decompile_id : forall T c (e : entry value), e_id (fst (fst (entry_decompile T c e))) = e_id e /\ e_cache (fst (fst (entry_decompile T c e))) = e_cache e.
Proof.
  intros T c e. unfold entry_decompile. destruct (e_id e) eqn:E; [|auto]. destruct (e_data e); [|auto|auto]. destruct (cd_parse T z c b); auto.
Qed.
Lemma blank_is : forall n, get_empty_glyph n = blank n.
Proof. reflexivity. Qed.
Lemma on_last_length : forall f objs, List.length (on_last f objs) = List.length objs.
Proof.
  intros f objs. destruct objs as [|g l] using rev_ind; [reflexivity|]. rewrite on_last_snoc, !app_length. reflexivity.
Qed.

Lemma glyph_emptied : forall T c e, e_id e = Some 2001 -> glyph_decompile T c (glyph_empty c e) = (glyph_empty c e, Ok []).
Proof. intros T c e E. unfold glyph_decompile, entry_decompile. unfold glyph_empty at 1. cbn [e_id set_data]. rewrite E. reflexivity. Qed.
Lemma access_entry_ok : forall T c k e objs t, state_of objs t ->
  exists e' name t' o, access_entry T c k e (last_name objs) t = (e', name, t', o) /\ touched T c e e' /\
    (o = Ok tt -> name = last_name (obj_step k e objs) /\ state_of (obj_step k e objs) t') /\
    (forall x, o = Err x -> In (e_id e) [Some 2008; Some 2010; Some 1093] /\ snd (entry_decompile T c e) = Err x /\ t' = t /\ name = last_name objs).
Proof.
  intros T c k e objs t (G & O). unfold access_entry, obj_step.
  assert (Same : touched T c e e -> forall n, n = last_name objs -> touched T c e e) by auto.
  destruct (e_id e) as [i|] eqn:Ei.
  2: { do 4 eexists. split; [reflexivity|]. split; [repeat split; auto; intros; congruence|]. split; [split; [reflexivity|split; auto]|]. discriminate. }
  unfold G_Glyph, G_Links, G_HintingOptions, F_PostScriptHintingOptions.
  destruct (i =? 2001) eqn:E1.
  { apply Z.eqb_eq in E1. subst i. rewrite glyph_emptied by assumption. cbn [rthen]. rewrite G, unique_empty.
    do 4 eexists. split; [reflexivity|]. split.
    { split; [cbn [e_id]; auto|]. split; [reflexivity|]. split; [reflexivity|]. congruence. }
    split; [|discriminate]. intros _. rewrite last_name_snoc. split; [reflexivity|]. split; cbn [gt_glyphs gt_order].
    - rewrite (aset_notin str_eqb str_eqb_eq) by apply named_new. now rewrite named_snoc.
    - now rewrite O, app_length, Nat.add_1_r, nameless_S. }
  assert (Tt : touched T c e (fst (fst (entry_decompile T c e)))).
  { destruct (decompile_id T c e) as (A & B). split; [assumption|]. split; [assumption|]. split; [intros H; rewrite Ei in H; injection H as ->; discriminate|]. auto. }
  destruct (decompile_id T c e) as (Did & _).
  destruct ((i =? 2008) || (i =? 2010)) eqn:E2.
  { destruct (entry_decompile T c e) as [[e' err] o] eqn:Ed. cbn [fst] in Tt. destruct o as [u|x].
    2: { do 4 eexists. split; [reflexivity|]. split; [assumption|]. split; [discriminate|]. intros y Hy. injection Hy as <-. split; [|auto]. apply Bool.orb_true_iff in E2. destruct E2 as [E2|E2]; apply Z.eqb_eq in E2; subst i; cbn; auto. }
    destruct objs as [|g l _] using rev_ind.
    { cbn [last_name List.length]. do 4 eexists. split; [reflexivity|]. split; [assumption|]. split; [|discriminate]. intros _.
      destruct (i =? 2008); [cbn; split; [reflexivity|split; assumption]|]. destruct (i =? 2010); cbn; (split; [reflexivity|split; assumption]). }
    rewrite last_name_snoc, G, named_get. do 4 eexists. split; [reflexivity|]. split; [assumption|]. split; [|discriminate]. intros _.
    assert (L : forall h, List.length (l ++ [h]) = List.length (l ++ [g])) by (intros h; now rewrite !app_length).
    destruct (i =? 2008) eqn:E3.
    - rewrite on_last_snoc, last_name_snoc. split; [reflexivity|]. split; cbn [gt_glyphs gt_order]; [apply named_set|]. now rewrite L.
    - assert (E4 : (i =? 2010) = true) by now rewrite Bool.orb_false_l in E2. rewrite E4, on_last_snoc, last_name_snoc. split; [reflexivity|]. split; cbn [gt_glyphs gt_order]; [apply named_set|]. now rewrite L. }
  apply Bool.orb_false_iff in E2. destruct E2 as (E2 & E3). rewrite E2, E3.
  destruct (i =? 1093) eqn:E4.
  { destruct (entry_decompile T c e) as [[e' err] o] eqn:Ed. cbn [fst] in Tt. destruct o as [u|x]; do 4 eexists; (split; [reflexivity|]; split; [assumption|]).
    - split; [|discriminate]. intros _. split; [reflexivity|]. split; assumption.
    - split; [discriminate|]. intros y Hy. injection Hy as <-. apply Z.eqb_eq in E4. subst i. cbn. auto. }
  do 4 eexists. split; [reflexivity|]. split; [repeat split; auto; intros H; rewrite Ei in H; injection H as ->; discriminate|]. split; [split; [reflexivity|split; assumption]|]. discriminate.
Qed.

Lemma access_loop_ok : forall T c es k objs t, state_of objs t ->
  exists es' t' o, access_loop T c k es (last_name objs) t = (es', t', o) /\
    (o = Ok tt -> Forall2 (touched T c) es es' /\ state_of (obj_loop k es objs) t') /\
    (forall x, o = Err x -> exists e, In e es /\ In (e_id e) [Some 2008; Some 2010; Some 1093] /\ snd (entry_decompile T c e) = Err x).
Proof.
  intros T c. induction es as [|e es IH]; intros k objs t St; cbn [access_loop obj_loop].
  - do 3 eexists. split; [reflexivity|]. split; [auto|]. discriminate.
  - destruct (access_entry_ok T c k e objs t St) as (e' & name & t' & o & E & Tt & Hok & Herr). rewrite E. destruct o as [u|x].
    + destruct u. destruct (Hok eq_refl) as (-> & St'). destruct (IH (S k) _ _ St') as (es' & t'' & o' & E' & Hok' & Herr'). rewrite E'.
      do 3 eexists. split; [reflexivity|]. split.
      * intros H. destruct (Hok' H) as (F & S). split; [constructor; assumption|assumption].
      * intros x H. destruct (Herr' x H) as (f & I & R). exists f. split; [now right|assumption].
    + do 3 eexists. split; [reflexivity|]. split; [discriminate|]. intros y H. injection H as <-. destruct (Herr x eq_refl) as (I & D & _). exists e. split; [now left|auto].
Qed.

(** ** Which entries belong to an object *)
Lemma obj_loop_app : forall a b k objs, obj_loop k (a ++ b) objs = obj_loop (k + List.length a) b (obj_loop k a objs).
Proof. induction a as [|e a IH]; intros b k objs; cbn [app obj_loop List.length]; [now rewrite Nat.add_0_r|]. rewrite IH. f_equal. lia. Qed.
Lemma positions_app : forall i a b k, positions i k (a ++ b) = positions i k a ++ positions i (k + List.length a) b.
Proof. induction a as [|e a IH]; intros b k; cbn [app positions List.length]; [now rewrite Nat.add_0_r|]. rewrite IH, <- app_assoc. do 3 f_equal. lia. Qed.
Lemma has_snoc : forall es e k i, has_id (es ++ [e]) k i <-> has_id es k i \/ (k = List.length es /\ e_id e = Some i).
Proof.
  intros es e k i. unfold has_id. split.
  - intros (f & N & I). destruct (lt_dec k (List.length es)).
    + rewrite nth_error_app1 in N by assumption. left. eauto.
    + rewrite nth_error_app2 in N by lia. destruct (k - List.length es)%nat eqn:E; [|destruct n0; discriminate]. cbn in N. injection N as <-. right. split; [lia|assumption].
  - intros [(f & N & I)|(-> & I)].
    + exists f. split; [|assumption]. rewrite nth_error_app1; [assumption|]. apply nth_error_Some. congruence.
    + exists e. split; [|assumption]. rewrite nth_error_app2, Nat.sub_diag by lia. reflexivity.
Qed.
Lemma has_lt : forall es k i, has_id es k i -> (k < List.length es)%nat.
Proof. intros es k i (e & N & _). apply nth_error_Some. congruence. Qed.
Lemma has_one : forall es k i j, has_id es k i -> has_id es k j -> i = j.
Proof. intros es k i j (e & N & I) (f & M & J). congruence. Qed.

Definition obj_ok (es : list (entry value)) (g : gobj) : Prop :=
  has_id es (go_entry g) 2001 /\
  (forall k, go_links g = Some k <-> belongs es (go_entry g) 2008 k) /\ (forall k, go_hinting g = Some k <-> belongs es (go_entry g) 2010 k).
Definition objs_ok (es : list (entry value)) (objs : list gobj) : Prop :=
  map go_entry objs = positions 2001 0 es /\ Forall (obj_ok es) objs /\
  (forall init g, objs = init ++ [g] -> (forall j, (go_entry g < j)%nat -> ~ has_id es j 2001) /\
    Forall (fun f => exists j, (go_entry f < j)%nat /\ has_id es j 2001) init) /\
  (objs = [] -> forall j, ~ has_id es j 2001).

(** an entry that is not a glyph, an object that is not the last *)
Lemma belongs_before : forall es e g i k, i <> 2001 -> (exists j, (g < j)%nat /\ has_id es j 2001) ->
  (belongs (es ++ [e]) g i k <-> belongs es g i k).
Proof.
  intros es e g i k Hi (l & Hl & Gl). pose proof (has_lt _ _ _ Gl) as Ll. split.
  - intros (A & B & C & D). assert (Hk : (k < List.length es)%nat).
    { destruct (lt_dec k (List.length es)); [assumption|]. exfalso. apply (C l); [lia|]. apply has_snoc. now left. }
    split; [assumption|]. split; [apply has_snoc in B; destruct B as [B|(B & _)]; [assumption|lia]|]. split.
    + intros j Hj H. apply (C j Hj). apply has_snoc. now left.
    + intros j Hj H. destruct (D j Hj) as (m & Hm & Gm); [apply has_snoc; now left|]. exists m. split; [assumption|].
      apply has_snoc in Gm. destruct Gm as [Gm|(Gm & _)]; [assumption|]. apply has_lt in H. lia.
  - intros (A & B & C & D). split; [assumption|]. split; [apply has_snoc; now left|]. pose proof (has_lt _ _ _ B) as Lk. split.
    + intros j Hj H. apply has_snoc in H. destruct H as [H|(H & _)]; [now apply (C j)|lia].
    + intros j Hj H. apply has_snoc in H. destruct H as [H|(H & _)].
      * destruct (D j Hj H) as (m & Hm & Gm). exists m. split; [assumption|]. apply has_snoc. now left.
      * exists l. assert (k < l)%nat; [|split; [lia|apply has_snoc; now left]]. destruct (lt_dec k l); [assumption|]. exfalso. apply (C l); [lia|assumption].
Qed.
(** the last object *)
Lemma belongs_last : forall es e g i k, i <> 2001 -> (g < List.length es)%nat -> (forall j, (g < j)%nat -> ~ has_id es j 2001) ->
  (belongs (es ++ [e]) g i k <-> (e_id e = Some i /\ k = List.length es) \/ (e_id e <> Some i /\ belongs es g i k)).
Proof.
  intros es e g i k Hi Lg Ng. split.
  - intros (A & B & C & D). apply has_snoc in B. destruct B as [B|(B & E)].
    + right. pose proof (has_lt _ _ _ B) as Lk. assert (Ne : e_id e <> Some i).
      { intros E. destruct (D (List.length es) Lk) as (m & Hm & Gm); [apply has_snoc; now right|]. apply has_snoc in Gm. destruct Gm as [Gm|(Gm & _)]; [|lia]. apply (Ng m); [lia|assumption]. }
      split; [assumption|]. split; [assumption|]. split; [assumption|]. split.
      * intros j Hj. apply Ng. lia.
      * intros j Hj H. destruct (D j Hj) as (m & Hm & Gm); [apply has_snoc; now left|]. apply has_snoc in Gm. destruct Gm as [Gm|(Gm & _)]; [|apply has_lt in H; lia]. eauto.
    + now left.
  - intros [(E & ->)|(Ne & A & B & C & D)].
    + split; [assumption|]. split; [apply has_snoc; now right|]. split.
      * intros j Hj H. apply has_snoc in H. destruct H as [H|(_ & H)]; [apply (Ng j); [lia|assumption]|congruence].
      * intros j Hj H. apply has_lt in H. rewrite app_length in H. cbn in H. lia.
    + pose proof (has_lt _ _ _ B) as Lk. split; [assumption|]. split; [apply has_snoc; now left|]. split.
      * intros j Hj H. apply has_snoc in H. destruct H as [H|(H & _)]; [apply (Ng j); [lia|assumption]|lia].
      * intros j Hj H. apply has_snoc in H. destruct H as [H|(H & E)]; [|congruence]. destruct (D j Hj H) as (m & Hm & Gm). exists m. split; [assumption|]. apply has_snoc. now left.
Qed.
Lemma belongs_new : forall es e k i, i <> 2001 -> ~ belongs (es ++ [e]) (List.length es) i k.
Proof. intros es e k i Hi (A & B & _). apply has_lt in B. rewrite app_length in B. cbn in B. lia. Qed.

Lemma objs_ok_loop : forall es, objs_ok es (obj_loop 0 es []).
Proof.
  induction es as [|e es IH] using rev_ind.
  { split; [reflexivity|]. split; [constructor|]. split; [intros [|? ?] ? H; discriminate|]. intros _ j (f & N & _). destruct j; discriminate. }
  rewrite obj_loop_app. cbn [obj_loop Nat.add]. set (objs := obj_loop 0 es []) in *. clearbody objs. destruct IH as (P & F & La & Em).
  assert (Pos : positions 2001 0 (es ++ [e]) = map go_entry objs ++ (match e_id e with Some j => if j =? 2001 then [List.length es] else [] | None => [] end)).
  { rewrite positions_app, <- P. cbn [positions Nat.add]. now rewrite app_nil_r. }
  (* the objects that are not the last one *)
  assert (Bef : forall f, obj_ok es f -> (exists j, (go_entry f < j)%nat /\ has_id es j 2001) -> obj_ok (es ++ [e]) f).
  { intros f (A & B & C) Hj. split; [apply has_snoc; now left|]. split; intros k.
    - rewrite B. symmetry. apply belongs_before; [discriminate|assumption].
    - rewrite C. symmetry. apply belongs_before; [discriminate|assumption]. }
  assert (Ex : forall f, (exists j, (go_entry f < j)%nat /\ has_id es j 2001) -> exists j, (go_entry f < j)%nat /\ has_id (es ++ [e]) j 2001).
  { intros f (j & A & B). exists j. split; [assumption|]. apply has_snoc. now left. }
  destruct (e_id e) as [i|] eqn:Ei; [destruct (i =? 2001) eqn:E1|].
  - (* a glyph *)
    apply Z.eqb_eq in E1. subst i. unfold obj_step. rewrite Ei. cbn [Z.eqb Pos.eqb].
    assert (Dead : forall f, In f objs -> obj_ok es f -> obj_ok (es ++ [e]) f).
    { intros f If (A & B & C). split; [apply has_snoc; now left|]. pose proof (has_lt _ _ _ A) as Lf.
      destruct objs as [|g init _] using rev_ind; [destruct If|]. destruct (La init g eq_refl) as (Lg & Fi). apply in_app_or in If. destruct If as [If|[->|[]]].
      - rewrite Forall_forall in Fi. specialize (Fi f If). split; intros k; [rewrite B|rewrite C]; symmetry; apply belongs_before; auto; discriminate.
      - split; intros k; [rewrite B|rewrite C]; rewrite belongs_last by (auto; discriminate); rewrite Ei; (split; [intros H; right; split; [discriminate|assumption]|intros [(H & _)|(_ & H)]; [discriminate|assumption]]). }
    split; [rewrite map_app, Pos; reflexivity|]. split.
    + apply Forall_app. split; [rewrite Forall_forall in *; auto|]. constructor; [|constructor]. cbn [go_entry]. split; [apply has_snoc; now right|].
      cbn [go_links go_hinting]. split; intros k; (split; [discriminate|]); intros H; exfalso; revert H; apply belongs_new; discriminate.
    + split; [|intros H; destruct objs; discriminate]. intros init g H. apply app_inj_tail in H. destruct H as (<- & <-). cbn [go_entry]. split.
      * intros j Hj H. apply has_lt in H. rewrite app_length in H. cbn in H. lia.
      * rewrite Forall_forall in *. intros f If. destruct (F f If) as (A & _). exists (List.length es). split; [now apply has_lt in A|]. apply has_snoc. now right.
  - (* another entry *)
    rewrite app_nil_r in Pos. unfold obj_step. rewrite Ei, E1.
    assert (NoG : forall j, has_id (es ++ [e]) j 2001 -> has_id es j 2001).
    { intros j H. apply has_snoc in H. destruct H as [H|(_ & H)]; [assumption|]. rewrite Ei in H. injection H as ->. discriminate. }
    destruct objs as [|g init _] using rev_ind.
    + assert (X : (if i =? 2008 then on_last (set_links (List.length es)) [] else if i =? 2010 then on_last (set_hinting (List.length es)) [] else []) = ([] : list gobj)).
      { destruct (i =? 2008); [reflexivity|]. destruct (i =? 2010); reflexivity. }
      rewrite X. split; [now rewrite Pos|]. split; [constructor|]. split; [intros [|? ?] ? H; discriminate|]. intros _ j H. apply (Em eq_refl j). auto.
    + destruct (La init g eq_refl) as (Lg & Fi). apply Forall_app in F. destruct F as (Fl & Fg). inversion Fg as [|? ? (A & B & C) _]; subst. pose proof (has_lt _ _ _ A) as Lf.
      assert (X : exists h, (if i =? 2008 then on_last (set_links (List.length es)) (init ++ [g]) else if i =? 2010 then on_last (set_hinting (List.length es)) (init ++ [g]) else init ++ [g]) = init ++ [h] /\
        go_entry h = go_entry g /\ go_links h = (if i =? 2008 then Some (List.length es) else go_links g) /\ go_hinting h = (if i =? 2010 then Some (List.length es) else go_hinting g)).
      { rewrite !on_last_snoc. destruct (i =? 2008) eqn:E2; [apply Z.eqb_eq in E2; subst i; eexists; split; [reflexivity|]; auto|]. destruct (i =? 2010) eqn:E3; eexists; (split; [reflexivity|]); auto. }
      destruct X as (h & -> & He & Hl & Hh). split; [rewrite map_app in *; cbn [map] in *; now rewrite He, Pos|]. split.
      * apply Forall_app. split; [rewrite Forall_forall in *; auto|]. constructor; [|constructor]. unfold obj_ok. rewrite He. split; [apply has_snoc; now left|].
        split; intros k; rewrite belongs_last by (auto; discriminate); rewrite Ei.
        -- rewrite Hl. destruct (i =? 2008) eqn:E2.
           ++ apply Z.eqb_eq in E2. subst i. split; [intros H; injection H as <-; auto|]. intros [(_ & ->)|(H & _)]; [reflexivity|congruence].
           ++ rewrite B. split; [intros H; right; split; [intros H'; injection H' as ->; discriminate|assumption]|]. intros [(H & _)|(_ & H)]; [injection H as ->; discriminate|assumption].
        -- rewrite Hh. destruct (i =? 2010) eqn:E2.
           ++ apply Z.eqb_eq in E2. subst i. split; [intros H; injection H as <-; auto|]. intros [(_ & ->)|(H & _)]; [reflexivity|congruence].
           ++ rewrite C. split; [intros H; right; split; [intros H'; injection H' as ->; discriminate|assumption]|]. intros [(H & _)|(_ & H)]; [injection H as ->; discriminate|assumption].
      * split; [|intros H; destruct init; discriminate]. intros init' g' H. apply app_inj_tail in H. destruct H as (<- & <-). rewrite He. split; [intros j Hj H; apply (Lg j Hj); auto|]. rewrite Forall_forall in *. auto.
  - (* an entry without id *)
    rewrite app_nil_r in Pos. unfold obj_step. rewrite Ei.
    assert (NoG : forall j, has_id (es ++ [e]) j 2001 -> has_id es j 2001).
    { intros j H. apply has_snoc in H. destruct H as [H|(_ & H)]; [assumption|]. congruence. }
    split; [now rewrite Pos|]. split.
    + destruct objs as [|g init _] using rev_ind; [constructor|]. destruct (La init g eq_refl) as (Lg & Fi). apply Forall_app in F. destruct F as (Fl & Fg). inversion Fg as [|? ? (A & B & C) _]; subst. pose proof (has_lt _ _ _ A) as Lf.
      apply Forall_app. split; [rewrite Forall_forall in *; auto|]. constructor; [|constructor]. split; [apply has_snoc; now left|].
      split; intros k; [rewrite B|rewrite C]; rewrite belongs_last by (auto; discriminate); rewrite Ei; (split; [intros H; right; split; [discriminate|assumption]|intros [(H & _)|(_ & H)]; [discriminate|assumption]]).
    + split; [|intros H j Hj; apply (Em H j); auto]. intros init g H. destruct (La init g H) as (Lg & Fi). split; [intros j Hj H'; apply (Lg j Hj); auto|]. rewrite Forall_forall in *. auto.
Qed.
