(** Proofs about parsers/text.py and compilers/text.py. *)
From Coq Require Import ZifyBool ZifyNat.
From Verif Require Import Base M_Stream M_Text S_Text Lib P_Stream P_Text.
Open Scope rd_scope.
Ltac Zify.zify_post_hook ::= Z.div_mod_to_equations.

(** ** name records *)
Definition is_mac (r : name_record) : bool := (nr_plat r =? 1) && (nr_enc r =? 0).
Definition wf_name (r : name_record) : Prop :=
  i32 (nr_name r) /\ i32 (nr_plat r) /\ i32 (nr_enc r) /\ i32 (nr_lang r) /\
  short_text (nr_text r) /\ Forall (fun c => 0 <= c < 0x110000) (nr_text r).
(** what becomes of a character *)
Definition stored_char (mac : bool) (c : Z) : Z :=
  if mac then match macroman_enc1 c with Some _ => c | None => 63 end else c.
Definition stored_name (r : name_record) : name_record :=
  NameRecord (nr_name r) (nr_plat r) (nr_enc r) (nr_lang r)
             (map (stored_char (is_mac r)) (nr_text r)).

Lemma name_char_code : forall r c, 0 <= c < 0x110000 ->
  name_char (nr_plat r) (nr_enc r) (name_code (nr_plat r) (nr_enc r) c)
    = Ok (stored_char (is_mac r) c)
  /\ i32 (name_code (nr_plat r) (nr_enc r) c).
Proof.
  intros r c Hc. unfold name_char, name_code, stored_char, is_mac.
  destruct ((nr_plat r =? 1) && (nr_enc r =? 0)).
  - destruct (macroman_enc1 c) as [b|] eqn:E.
    + destruct (macroman_dec_enc b c E) as [D Hb].
      unfold in_range. replace ((0 <=? b) && (b <? 1114112)) with true by lia.
      replace (b <? 256) with true by lia. rewrite D. split; [reflexivity|unfold i32; lia].
    + split; [reflexivity|unfold i32; lia].
  - unfold in_range. replace ((0 <=? c) && (c <? 1114112)) with true by lia.
    split; [reflexivity|unfold i32; lia].
Qed.

Lemma res_map_ok : forall A B (f : A -> res B) (g : A -> B) l,
  (forall x, In x l -> f x = Ok (g x)) -> res_map f l = Ok (map g l).
Proof.
  induction l as [|x l IH]; intros H; cbn [res_map map]; [reflexivity|].
  rewrite H by (left; auto). cbn [rthen]. rewrite IH by (intros; apply H; right; auto). reflexivity.
Qed.
Lemma res_map_map : forall A B C (f : B -> res C) (h : A -> B) l,
  res_map f (map h l) = res_map (fun x => f (h x)) l.
Proof. induction l as [|x l IH]; cbn [res_map map]; [reflexivity|]. rewrite IH. reflexivity. Qed.

Lemma wrt_name : forall r, wf_name r -> wrt (compile_name_record r) parse_name_record (stored_name r).
Proof.
  intros r (H1 & H2 & H3 & H4 & H5 & H6). unfold compile_name_record, parse_name_record.
  eapply wrt_bind; [apply wrt_value; auto|]. eapply wrt_bind; [apply wrt_value; auto|].
  eapply wrt_bind; [apply wrt_value; auto|]. eapply wrt_bind; [apply wrt_value; auto|].
  eapply wrt_bind; [apply wrt_value; unfold i32, short_text in *; lia|].
  rewrite Forall_forall in H6.
  eapply wrt_bind_ret.
  - apply wrt_range with (f := name_code (nr_plat r) (nr_enc r)); [reflexivity|].
    intros c Hc. apply wrt_value. apply name_char_code. auto.
  - intros s. unfold rbind, rlift. rewrite res_map_map.
    rewrite (res_map_ok _ _ _ (stored_char (is_mac r))); [reflexivity|].
    intros c Hc. apply name_char_code. auto.
Qed.

Lemma wrt_names : forall l, Forall wf_name l -> Z.of_nat (length l) < 2 ^ 31 ->
  wrt (compile_name_records l) parse_name_records (map stored_name l).
Proof.
  intros l H HL. unfold compile_name_records, parse_name_records.
  eapply wrt_bind; [apply wrt_value; unfold i32; lia|].
  apply wrt_range; [reflexivity|]. intros r Hr. apply wrt_name. rewrite Forall_forall in H. auto.
Qed.

Lemma name_char_range : forall p e c ch, name_char p e c = Ok ch -> 0 <= ch < 0x110000.
Proof.
  intros p e c ch H. unfold name_char, in_range in H.
  destruct ((0 <=? c) && (c <? 1114112)) eqn:E; [|inversion H; lia].
  destruct ((p =? 1) && (e =? 0)); [|inversion H; lia].
  destruct (c <? 256) eqn:E2; [|discriminate].
  pose proof (byte_sweep (fun b => match macroman_dec1 b with
     | Some c => in_range 0 0x110000 c | None => true end) eq_refl c ltac:(lia)) as K. cbv beta in K.
  destruct (macroman_dec1 c); inversion H; subst; [unfold in_range in K|]; lia.
Qed.

Lemma res_map_forall : forall A B (f : A -> res B) (P : B -> Prop) l m,
  (forall x y, f x = Ok y -> P y) -> res_map f l = Ok m -> Forall P m /\ length m = length l.
Proof.
  induction l as [|x l IH]; intros m H E; cbn [res_map] in E.
  - inversion E; subst. auto.
  - destruct (f x) as [y|] eqn:F; [|discriminate]. cbn [rthen] in E.
    destruct (res_map f l) as [m'|] eqn:R; [|discriminate]. inversion E; subst.
    destruct (IH m' H eq_refl). split; [constructor; eauto|cbn; lia].
Qed.

Lemma rpost_lift : forall A (x : res A) (P : A -> Prop), (forall a, x = Ok a -> P a) -> rpost (rlift x) P.
Proof.
  intros A x P H s a s' Hs E. unfold rlift in E. destruct x; [|discriminate].
  inv_rok E. split; [apply H; auto|auto].
Qed.

Lemma rpost_name : rpost parse_name_record wf_name.
Proof.
  unfold parse_name_record.
  eapply rpost_bind; [apply rpost_value|]. intros n Hn.
  eapply rpost_bind; [apply rpost_value|]. intros p Hp.
  eapply rpost_bind; [apply rpost_value|]. intros e He.
  eapply rpost_bind; [apply rpost_value|]. intros l Hl.
  eapply rpost_bind; [apply rpost_value|]. intros k Hk.
  eapply rpost_bind; [apply rpost_range; apply rpost_value|]. intros codes [Hc _].
  eapply rpost_bind with (P := fun t => Forall (fun c => 0 <= c < 0x110000) t /\ length t = length codes).
  { apply rpost_lift. intros a E. eapply res_map_forall; [|exact E].
    intros x y. apply name_char_range. }
  intros t [Ht HL]. apply rpost_ret. unfold wf_name. cbn.
  do 4 (split; [assumption|]). split; [|assumption]. unfold short_text, i32 in *. lia.
Qed.
Lemma rpost_names : rpost parse_name_records (fun l => Forall wf_name l /\ Z.of_nat (length l) < 2 ^ 31).
Proof.
  unfold parse_name_records. eapply rpost_bind; [apply rpost_value|]. intros n Hn.
  eapply rpost_weaken; [apply rpost_range; apply rpost_name|].
  intros l [H1 H2]. split; [auto|]. unfold i32 in Hn. lia.
Qed.

(** ** OpenType text *)
Definition nobreak (l : pystr) : Prop := Forall (fun c => line_break c = false) l.

Lemma splitlines_nobreak : forall n s cur, (length s <= n)%nat -> nobreak cur ->
  Forall nobreak (splitlines_from cur s).
Proof.
  induction n as [|n IH]; intros s cur Hn Hc.
  - destruct s; [|cbn in Hn; lia]. cbn. destruct cur; constructor; auto.
  - destruct s as [|c s]; [cbn; destruct cur; constructor; auto|].
    cbn [splitlines_from]. destruct (line_break c) eqn:E.
    + constructor; [auto|]. cbn in Hn. destruct s as [|d s'].
      * apply IH; [cbn; lia|constructor].
      * cbn in Hn. destruct ((c =? 13) && (d =? 10)); apply IH; try constructor; cbn; lia.
    + apply IH; [cbn in Hn; lia|]. apply Forall_app. split; [auto|]. constructor; auto.
Qed.

Lemma splitlines_line : forall l cur rest, nobreak l ->
  splitlines_from cur (l ++ 10 :: rest) = (cur ++ l) :: splitlines_from [] rest.
Proof.
  induction l as [|c l IH]; intros cur rest H; cbn [app].
  - rewrite app_nil_r. cbn [splitlines_from]. change (line_break 10) with true. cbn iota.
    destruct rest; reflexivity.
  - inversion H as [|? ? Hc Hl]; subst. cbn [splitlines_from]. rewrite Hc, IH by auto.
    rewrite <- app_assoc. reflexivity.
Qed.

Lemma join_nl_cons : forall l ls, ls <> [] -> join_nl (l :: ls) = l ++ 10 :: join_nl ls.
Proof. intros l [|x ls] H; [congruence|reflexivity]. Qed.

Lemma splitlines_join : forall ls, Forall nobreak ls -> splitlines (join_nl (ls ++ [[]])) = ls.
Proof.
  unfold splitlines. induction ls as [|l ls IH]; intros H; [reflexivity|].
  inversion H; subst. rewrite <- app_comm_cons, join_nl_cons by (destruct ls; discriminate).
  rewrite splitlines_line by auto. rewrite IH by auto. reflexivity.
Qed.

Lemma filter_blank_ge2 : forall ls c c', 2 <= c -> 2 <= c' -> filter_blank c ls = filter_blank c' ls.
Proof.
  induction ls as [|l ls IH]; intros c c' H H'; cbn [filter_blank]; [reflexivity|].
  destruct (negb (blank l)); [reflexivity|].
  replace (c <? 2) with false by lia. replace (c' <? 2) with false by lia. apply IH; lia.
Qed.
Lemma filter_blank_idem : forall ls c, filter_blank c (filter_blank c ls) = filter_blank c ls.
Proof.
  induction ls as [|l ls IH]; intros c; cbn [filter_blank]; [reflexivity|].
  destruct (negb (blank l)) eqn:B; cbn [filter_blank].
  - rewrite B. cbn [negb]. rewrite IH. reflexivity.
  - destruct (c <? 2) eqn:C; cbn [filter_blank].
    + rewrite B, C. rewrite IH. reflexivity.
    + rewrite (filter_blank_ge2 (filter_blank (c + 1) ls) c (c + 1)) by lia. apply IH.
Qed.
Lemma filter_blank_le : forall ls c, (length (filter_blank c ls) <= length ls)%nat.
Proof.
  induction ls as [|l ls IH]; intros c; cbn [filter_blank length]; [lia|].
  destruct (negb (blank l)); [cbn [length]; specialize (IH 0); lia|].
  destruct (c <? 2); cbn [length]; specialize (IH (c + 1)); lia.
Qed.
Lemma filter_blank_app_fix : forall a b c, filter_blank c (a ++ b) = a ++ b -> filter_blank c a = a.
Proof.
  induction a as [|l a IH]; intros b c H; [reflexivity|]. cbn [filter_blank app] in *.
  destruct (negb (blank l)).
  - f_equal. inversion H. eapply IH. eauto.
  - destruct (c <? 2).
    + f_equal. inversion H. eapply IH. eauto.
    + exfalso. pose proof (filter_blank_le (a ++ b) (c + 1)). rewrite H in H0. cbn in H0. lia.
Qed.
Lemma filter_blank_incl : forall ls c x, In x (filter_blank c ls) -> In x ls.
Proof.
  induction ls as [|l ls IH]; intros c x H; cbn [filter_blank] in H; [auto|].
  destruct (negb (blank l)); [destruct H; [left; auto|right; eauto]|].
  destruct (c <? 2); [destruct H; [left; auto|right; eauto]|right; eauto].
Qed.
Lemma filter_blank_nonblank : forall ls c,
  filter (fun l => negb (blank l)) (filter_blank c ls) = filter (fun l => negb (blank l)) ls.
Proof.
  induction ls as [|l ls IH]; intros c; cbn [filter_blank filter]; [reflexivity|].
  destruct (negb (blank l)) eqn:B; cbn [filter].
  - rewrite B. f_equal. apply IH.
  - destruct (c <? 2); cbn [filter]; [rewrite B|]; apply IH.
Qed.

Lemma pop_empty_spec : forall rl,
  (exists k r x, rl = repeat [] k ++ x :: r /\ x <> [] /\ pop_empty rl = Ok (x :: r)) \/
  (Forall (eq []) rl /\ pop_empty rl = Err IndexError).
Proof.
  induction rl as [|l rl IH]; [right; auto|].
  destruct l as [|c l].
  - destruct IH as [(k & r & x & -> & Hx & E)|[F E]].
    + left. exists (S k), r, x. cbn. auto.
    + right. split; [constructor; auto|]. exact E.
  - left. exists 0%nat, rl, (c :: l). repeat split; discriminate.
Qed.

Lemma rev_repeat : forall A (x : A) k, rev (repeat x k) = repeat x k.
Proof.
  induction k as [|k IH]; [reflexivity|]. cbn [repeat rev]. rewrite IH.
  clear IH. induction k as [|k IH]; [reflexivity|]. cbn [repeat app]. f_equal. auto.
Qed.

(** the shape of a successful normalisation *)
Lemma normalize_shape : forall ls out, normalize_lines ls = Ok out ->
  exists body k, out = body ++ [[]] /\ filter_blank 0 ls = body ++ repeat [] k /\
    ((length body <= 1)%nat \/ exists init x, body = init ++ [x] /\ x <> []).
Proof.
  intros ls out H. unfold normalize_lines in H.
  destruct (1 <? Z.of_nat (length (filter_blank 0 ls))) eqn:E.
  - destruct (pop_empty_spec (rev (filter_blank 0 ls))) as [(k & r & x & R & Hx & P)|[F P]];
      rewrite P in H; cbn [rmap] in H; inversion H; subst.
    exists (rev (x :: r)), k. split; [reflexivity|]. split.
    + rewrite <- (rev_involutive (filter_blank 0 ls)), R. rewrite rev_app_distr, rev_repeat. reflexivity.
    + right. exists (rev r), x. auto.
  - inversion H; subst. exists (filter_blank 0 ls), 0%nat. cbn [repeat]. rewrite app_nil_r.
    split; [reflexivity|]. split; [reflexivity|]. left.
    lia.
Qed.

Lemma normalize_fixed : forall body, filter_blank 0 body = body ->
  ((length body <= 1)%nat \/ exists init x, body = init ++ [x] /\ x <> []) ->
  normalize_lines body = Ok (body ++ [[]]).
Proof.
  intros body H S. unfold normalize_lines. rewrite H.
  destruct (1 <? Z.of_nat (length body)) eqn:E; [|reflexivity].
  destruct S as [S|(init & x & -> & Hx)]; [lia|].
  rewrite rev_app_distr. cbn [rev app pop_empty]. destruct x as [|c x]; [congruence|].
  cbn [rmap]. f_equal. change ((c :: x) :: rev init) with (rev [c :: x] ++ rev init).
  rewrite <- rev_app_distr, rev_involutive. reflexivity.
Qed.

Lemma normalize_idem : forall s out, normalize_lines (splitlines s) = Ok out ->
  normalize_lines (splitlines (join_nl out)) = Ok out.
Proof.
  intros s out H. apply normalize_shape in H. destruct H as (body & k & -> & Hf & S).
  assert (NB : Forall nobreak body).
  { apply Forall_forall. intros x Hx.
    assert (Hin : In x (splitlines s)).
    { apply (filter_blank_incl _ 0). rewrite Hf. apply in_or_app. auto. }
    pose proof (splitlines_nobreak (length s) s [] (le_n _) ltac:(constructor)) as F.
    rewrite Forall_forall in F. auto. }
  rewrite splitlines_join by auto. apply normalize_fixed; [|auto].
  apply (filter_blank_app_fix body (repeat [] k) 0). rewrite <- Hf. apply filter_blank_idem.
Qed.

Lemma blank_spec : forall l, blank l = true <-> blank_line l.
Proof.
  intros l. unfold blank, blank_line. rewrite forallb_forall.
  assert (K : forall c, is_space c = true <-> In c white).
  { intros c. unfold is_space, in_range, white. cbn [In]. lia. }
  split; intros H c Hc; apply K; auto.
Qed.

(** at most two consecutive blank lines *)
Lemma filter_blank_two : forall ls c, 0 <= c -> filter_blank c ls = ls ->
  forall pre a b d post, ls = pre ++ a :: b :: d :: post ->
  ~ (blank a = true /\ blank b = true /\ blank d = true).
Proof.
  induction ls as [|l ls IH]; intros c Hc H pre a b d post E (B1 & B2 & B3).
  - destruct pre; discriminate.
  - cbn [filter_blank] in H.
    assert (C2 : negb (blank l) = false -> c <? 2 = true).
    { intros NB. destruct (c <? 2) eqn:C; [auto|]. rewrite NB in H.
      pose proof (filter_blank_le ls (c + 1)) as L. rewrite H in L. cbn in L. lia. }
    destruct pre as [|p pre].
    + cbn in E. inversion E; subst l ls. clear E.
      rewrite B1 in *. specialize (C2 eq_refl). rewrite C2 in H. cbn [negb] in H.
      inversion H as [H1]. clear H. cbn [filter_blank] in H1. rewrite B2 in H1. cbn [negb] in H1.
      destruct (c + 1 <? 2) eqn:C3.
      * inversion H1 as [H2]. cbn [filter_blank] in H2. rewrite B3 in H2. cbn [negb] in H2.
        replace (c + 1 + 1 <? 2) with false in H2 by lia.
        pose proof (filter_blank_le post (c + 1 + 1 + 1)) as L. rewrite H2 in L. cbn in L. lia.
      * pose proof (filter_blank_le (d :: post) (c + 1 + 1)) as L.
        cbn [filter_blank] in L. rewrite H1 in L. cbn in L. lia.
    + cbn in E. inversion E; subst l ls. clear E.
      destruct (negb (blank p)) eqn:NB.
      * inversion H as [H1]. eapply (IH 0); eauto. lia.
      * rewrite (C2 eq_refl) in H. inversion H as [H1]. eapply (IH (c + 1)); eauto. lia.
Qed.

Lemma filter_blank_all : forall ls, Forall (eq []) (filter_blank 0 ls) ->
  Forall (fun l => blank l = true) ls.
Proof.
  intros ls H. apply Forall_forall. intros l Hl. destruct (blank l) eqn:B; [auto|].
  exfalso. assert (K : In l (filter (fun l => negb (blank l)) ls)).
  { apply filter_In. rewrite B. auto. }
  rewrite <- (filter_blank_nonblank ls 0) in K. apply filter_In in K. destruct K as [K _].
  rewrite Forall_forall in H. apply H in K. subst. discriminate.
Qed.

(** ** strings *)
Lemma lstrip0_spec : forall s, exists k, s = repeat 0 k ++ lstrip0 s.
Proof.
  induction s as [|c s [k IH]]; [exists 0%nat; reflexivity|]. cbn [lstrip0].
  destruct (c =? 0) eqn:E.
  - exists (S k). cbn [repeat app]. rewrite <- IH. f_equal. lia.
  - exists 0%nat. reflexivity.
Qed.
Lemma lstrip0_head : forall s, match lstrip0 s with [] => True | c :: _ => c <> 0 end.
Proof.
  induction s as [|c s IH]; cbn [lstrip0]; [exact I|]. destruct (c =? 0) eqn:E; [auto|lia].
Qed.
Lemma lstrip0_id : forall s, (forall c t, s = c :: t -> c <> 0) -> lstrip0 s = s.
Proof.
  intros [|c s] H; [reflexivity|]. cbn. destruct (c =? 0) eqn:E; [|reflexivity].
  exfalso. eapply (H c s); [reflexivity|lia].
Qed.
Definition no_nul_ends (s : pystr) : Prop :=
  (forall c t, s = c :: t -> c <> 0) /\ (forall t c, s = t ++ [c] -> c <> 0).
Lemma strip0_id : forall s, no_nul_ends s -> strip0 s = s.
Proof.
  intros s [H1 H2]. unfold strip0. rewrite (lstrip0_id s H1).
  rewrite lstrip0_id; [apply rev_involutive|]. intros c t E.
  apply (H2 (rev t)). rewrite <- (rev_involutive s), E. reflexivity.
Qed.
Lemma strip0_spec : forall s, exists i j, s = repeat 0 i ++ strip0 s ++ repeat 0 j.
Proof.
  intros s. destruct (lstrip0_spec s) as [i Hi].
  destruct (lstrip0_spec (rev (lstrip0 s))) as [j Hj]. exists i, j.
  unfold strip0. rewrite Hi at 1. f_equal. rewrite <- (rev_involutive (lstrip0 s)) at 1.
  rewrite Hj at 1. rewrite rev_app_distr, rev_repeat. reflexivity.
Qed.
Lemma strip0_clean : forall s, no_nul_ends (strip0 s).
Proof.
  intros s. split.
  - intros c t E. unfold strip0 in E.
    destruct (lstrip0_spec (rev (lstrip0 s))) as [j Hj].
    assert (K : lstrip0 s = rev (lstrip0 (rev (lstrip0 s))) ++ repeat 0 j).
    { rewrite <- (rev_involutive (lstrip0 s)) at 1. rewrite Hj at 1.
      rewrite rev_app_distr, rev_repeat. reflexivity. }
    pose proof (lstrip0_head s) as Hh. rewrite K, E in Hh. exact Hh.
  - intros t c E. unfold strip0 in E.
    pose proof (lstrip0_head (rev (lstrip0 s))) as Hh.
    apply (f_equal (@rev Z)) in E. rewrite rev_involutive, rev_app_distr in E. cbn in E.
    rewrite E in Hh. exact Hh.
Qed.
Lemma strip0_trailing : forall s k, no_nul_ends s -> strip0 (s ++ repeat 0 k) = s.
Proof.
  intros s k H. unfold strip0. destruct s as [|c s].
  - cbn [app]. replace (lstrip0 (repeat 0 k)) with (@nil Z); [reflexivity|].
    induction k; [reflexivity|]. cbn. auto.
  - assert (c <> 0) by (destruct H as [H _]; eapply H; reflexivity).
    rewrite (lstrip0_id ((c :: s) ++ repeat 0 k)) by (intros x t E; inversion E; subst; auto).
    rewrite rev_app_distr, rev_repeat.
    assert (K : forall k l, lstrip0 (repeat 0 k ++ l) = lstrip0 l).
    { clear. induction k as [|k IH]; intros l; [reflexivity|]. cbn. auto. }
    rewrite K. rewrite lstrip0_id; [apply rev_involutive|].
    intros x t E. destruct H as [_ H]. apply (H (rev t)).
    rewrite <- (rev_involutive (c :: s)), E. reflexivity.
Qed.

Lemma encode_zeros : forall k, cp1252_encode (repeat 0 k) = Ok (repeat 0 k).
Proof.
  intros. apply encode_encodes. unfold encodes. induction k; cbn; constructor; auto.
  unfold win1252. split; [lia|reflexivity].
Qed.
