(** Proofs about the feature code (M_Features). *)
From Coq Require Import String ZifyBool.
From Verif Require Import Base M_Py M_Text M_Groups M_Features S_Text S_Groups S_Features Lib P_Groups.
Local Open Scope list_scope.

(** ** span *)

Lemma span_spec : forall f s a b, span f s = (a, b) <->
  s = a ++ b /\ Forall (fun c => f c = true) a /\ match b with [] => True | c :: _ => f c = false end.
Proof.
  intros f s. induction s as [|c s IH]; intros a b; cbn [span].
  - split.
    + intros E. injection E as <- <-. repeat split. constructor.
    + intros (E & _ & _). symmetry in E. apply app_eq_nil in E. destruct E as [-> ->]. reflexivity.
  - destruct (f c) eqn:Ec.
    + destruct (span f s) as [a' b'] eqn:Es. split.
      * intros E. injection E as <- <-. destruct (proj1 (IH a' b') eq_refl) as (-> & F & B).
        split; [reflexivity|]. split; [now constructor|assumption].
      * intros (E & F & B). destruct a as [|x a].
        { cbn in E. subst b. congruence. }
        cbn in E. injection E as <- ->. inversion F; subst.
        assert (H : (a', b') = (a, b)) by (apply IH; repeat split; assumption).
        injection H as -> ->. reflexivity.
    + split.
      * intros E. injection E as <- <-. repeat split; [constructor|assumption].
      * intros (E & F & B). destruct a as [|x a]; [cbn in E; now subst b|].
        cbn in E. injection E as -> _. inversion F; congruence.
Qed.

Lemma span_at : forall f a b, Forall (fun c => f c = true) a ->
  match b with [] => True | c :: _ => f c = false end -> span f (a ++ b) = (a, b).
Proof. intros. apply span_spec. repeat split; assumption. Qed.

Lemma is_space_white : forall c, is_space c = true <-> In c white.
Proof. intros c. unfold is_space, in_range, white. cbn [In]. lia. Qed.
Lemma non_space_white : forall c, non_space c = true <-> ~ In c white.
Proof. intros c. rewrite <- is_space_white. unfold non_space. destruct (is_space c); cbn; intuition congruence. Qed.

(** ** Lines *)

Lemma starts_app : forall p s, starts p (p ++ s) = true.
Proof. intros. apply starts_spec. now exists s. Qed.

Lemma match_pos_at : forall indent (enum : bool) m L R n value,
  Forall (fun c => In c white) indent -> solid L -> solid R ->
  (exists c v, value = c :: v /\ ~ In c white) -> ~ In 10 value ->
  match_pos (indent ++ (if enum then py "enum " else []) ++ py "pos" ++ repeat 32 (S m) ++ L ++ [32] ++
             R ++ repeat 32 (S n) ++ value)
  = Some (indent, if enum then py "enum " else [], L, R, value).
Proof.
  intros indent enum m L R n value I [FL NL] [FR NR] (c & v & -> & C) NLv. unfold match_pos.
  rewrite span_at with (a := indent).
  2:{ eapply Forall_impl; [|exact I]. intros x. apply is_space_white. }
  2:{ destruct enum; reflexivity. }
  assert (T : take_enum ((if enum then py "enum " else []) ++ py "pos" ++ repeat 32 (S m) ++ L ++ [32] ++
             R ++ repeat 32 (S n) ++ c :: v)
    = (if enum then py "enum " else [], py "pos" ++ repeat 32 (S m) ++ L ++ [32] ++
             R ++ repeat 32 (S n) ++ c :: v)).
  { destruct enum; reflexivity. }
  rewrite T. rewrite starts_app. change (skipn 3 (py "pos" ++ ?x)) with x.
  change (repeat 32 (S m)) with (32 :: repeat 32 m). change (repeat 32 (S n)) with (32 :: repeat 32 n).
  assert (SP : forall k, Forall (fun c => (32 =? c) = true) (32 :: repeat 32 k)).
  { intros k. apply (Forall_forall (fun c => (32 =? c) = true) (repeat 32 (S k))).
    intros x Hx. apply repeat_spec in Hx. subst. reflexivity. }
  rewrite span_at with (a := 32 :: repeat 32 m); [|apply SP|].
  2:{ destruct L as [|x L]; [congruence|]. cbn [app]. inversion FL as [|? ? Hx _]; subst.
      destruct (Z.eqb_spec 32 x) as [<-|]; [|reflexivity]. exfalso. apply Hx. cbn. tauto. }
  rewrite span_at with (a := L).
  2:{ eapply Forall_impl; [|exact FL]. intros x. apply non_space_white. }
  2:{ reflexivity. }
  destruct L as [|x L]; [congruence|].
  cbn [app].
  rewrite span_at with (a := R).
  2:{ eapply Forall_impl; [|exact FR]. intros y. apply non_space_white. }
  2:{ reflexivity. }
  destruct R as [|y R]; [congruence|].
  change (32 :: repeat 32 n ++ c :: v) with ((32 :: repeat 32 n) ++ c :: v).
  rewrite span_at with (a := 32 :: repeat 32 n); [|apply SP|].
  2:{ destruct (Z.eqb_spec 32 c) as [<-|]; [|reflexivity]. exfalso. apply C. cbn. tauto. }
  unfold take_value. rewrite (proj2 (non_space_white c) C).
  assert (V : span (fun c => negb (c =? 10)) (c :: v) = (c :: v, [])).
  { rewrite <- (app_nil_r (c :: v)) at 1. apply span_at; [|trivial].
    apply Forall_forall. intros z Hz. destruct (Z.eqb_spec z 10) as [->|]; [contradiction|reflexivity]. }
  rewrite V. reflexivity.
Qed.

Lemma match_pos_inv : forall code indent enum L R value, ~ In 10 code ->
  match_pos code = Some (indent, enum, L, R, value) ->
  exists (e : bool) m n,
    code = indent ++ (if e then py "enum " else []) ++ py "pos" ++ repeat 32 (S m) ++ L ++ [32] ++
             R ++ repeat 32 (S n) ++ value /\
    enum = (if e then py "enum " else []) /\
    Forall (fun c => In c white) indent /\ solid L /\ solid R /\
    (exists c v, value = c :: v /\ ~ In c white).
Proof.
  intros code indent enum L R value NL M. unfold match_pos in M.
  destruct (span is_space code) as [ind s1] eqn:E1. apply span_spec in E1. destruct E1 as (-> & F1 & _).
  destruct (take_enum s1) as [en s2] eqn:E2.
  assert (T : exists e : bool, en = (if e then py "enum " else []) /\ s1 = en ++ s2).
  { unfold take_enum in E2. destruct (starts (py "enum ") s1) eqn:Es.
    - injection E2 as <- <-. exists true. split; [reflexivity|]. apply starts_spec in Es.
      destruct Es as [t ->]. reflexivity.
    - injection E2 as <- <-. exists false. split; reflexivity. }
  destruct T as (e & He & ->).
  destruct (starts (py "pos") s2) eqn:Ep; [|discriminate].
  apply starts_spec in Ep. destruct Ep as [s3 ->].
  change (skipn 3 (py "pos" ++ s3)) with s3 in M.
  destruct (span (Z.eqb 32) s3) as [sp1 s4] eqn:E3. apply span_spec in E3. destruct E3 as (-> & F3 & _).
  destruct sp1 as [|q sp1]; [discriminate|].
  destruct (span non_space s4) as [l s5] eqn:E4. apply span_spec in E4. destruct E4 as (-> & F4 & _).
  destruct l as [|x l]; [discriminate|].
  destruct s5 as [|y s5]; [discriminate|].
  destruct (Z.eq_dec y 32) as [->|Ny].
  2:{ exfalso. destruct y as [|p|p]; try discriminate M.
      do 6 (destruct p as [p|p|]; try discriminate M; try congruence). }
  destruct (span non_space s5) as [r s6] eqn:E5. apply span_spec in E5. destruct E5 as (-> & F5 & _).
  destruct r as [|z r]; [discriminate|].
  destruct (span (Z.eqb 32) s6) as [sp2 s7] eqn:E6. apply span_spec in E6. destruct E6 as (-> & F6 & _).
  destruct sp2 as [|w sp2]; [discriminate|].
  destruct (take_value s7) as [val|] eqn:E7; [|discriminate].
  injection M as -> -> <- <- ->. unfold take_value in E7.
  destruct s7 as [|c v]; [discriminate|]. destruct (non_space c) eqn:Ec; [|discriminate].
  assert (V : span (fun c => negb (c =? 10)) (c :: v) = (c :: v, [])).
  { rewrite <- (app_nil_r (c :: v)) at 1. apply span_at; [|trivial].
    apply Forall_forall. intros z' Hz. destruct (Z.eqb_spec z' 10) as [->|]; [|reflexivity].
    exfalso. apply NL. repeat first [exact Hz | apply in_or_app; right | apply in_cons]. }
  rewrite V in E7. injection E7 as <-.
  assert (SP : forall l, Forall (fun c => (32 =? c) = true) l -> l = repeat 32 (List.length l)).
  { induction l0 as [|a l0 IH]; intros F; [reflexivity|]. inversion F; subst. cbn. f_equal; [lia|auto]. }
  exists e, (List.length sp1), (List.length sp2).
  change (S (List.length sp1)) with (List.length (q :: sp1)). rewrite <- (SP _ F3).
  change (S (List.length sp2)) with (List.length (w :: sp2)). rewrite <- (SP _ F6).
  split; [rewrite He; reflexivity|]. split; [exact He|].
  split; [eapply Forall_impl; [|exact F1]; intros a; apply is_space_white|].
  assert (SO : forall a l, Forall (fun c => non_space c = true) (a :: l) -> solid (a :: l)).
  { intros a l0 F. split; [|discriminate]. eapply Forall_impl; [|exact F]. intros a0. apply non_space_white. }
  split; [now apply SO|]. split; [now apply SO|]. exists c, v. split; [reflexivity|]. now apply non_space_white.
Qed.

Lemma split_comment_at : forall code comment, ~ In 35 code ->
  split_comment (code ++ match comment with None => [] | Some c => py "#" ++ c end) = (code, comment).
Proof.
  intros code comment N. unfold split_comment. rewrite span_at with (a := code).
  - destruct comment; reflexivity.
  - apply Forall_forall. intros c Hc. destruct (Z.eqb_spec c 35) as [->|]; [contradiction|reflexivity].
  - destruct comment; [reflexivity|trivial].
Qed.

Lemma split_comment_inv : forall line code comment, split_comment line = (code, comment) ->
  line = code ++ match comment with None => [] | Some c => py "#" ++ c end /\ ~ In 35 code.
Proof.
  intros line code comment E. unfold split_comment in E.
  destruct (span _ line) as [a b] eqn:S. apply span_spec in S. destruct S as (-> & F & B).
  assert (N : ~ In 35 a).
  { intros H. rewrite Forall_forall in F. specialize (F _ H). discriminate. }
  destruct b as [|x b]; injection E as <- <-; split; trivial.
  destruct (Z.eqb_spec x 35) as [->|]; [reflexivity|discriminate].
Qed.

Lemma class_on_rename : forall side x, (side = "1" \/ side = "2")%string ->
  class_on side x (rename_class (py side) x).
Proof.
  intros side x Hs. unfold rename_class, class_on. destruct (starts (py "@_") x) eqn:E.
  - left. apply starts_spec in E. destruct E as [n ->]. exists n. split; [reflexivity|].
    destruct Hs as [-> | ->]; reflexivity.
  - right. apply starts_neg in E. split; [|reflexivity]. intros n H. apply E. now exists n.
Qed.

Lemma class_on_fun : forall side x y z, class_on side x y -> class_on side x z -> y = z.
Proof.
  intros side x y z [(n & -> & ->)|[N ->]] [(m & E & ->)|[M ->]].
  - apply app_inv_head in E. now subst.
  - exfalso. now apply (M n).
  - exfalso. now apply (N m).
  - reflexivity.
Qed.

Definition rule_code (m n : nat) (r : pair_rule) : pystr :=
  r_indent r ++ (if r_enum r then py "enum " else []) ++ py "pos" ++ repeat 32 (S m) ++
  r_left r ++ [32] ++ r_right r ++ repeat 32 (S n) ++ r_value r.
Lemma rule_text_code : forall m n r,
  rule_text m n r = rule_code m n r ++ match r_comment r with None => [] | Some c => py "#" ++ c end.
Proof. intros. unfold rule_text, rule_code. now rewrite <- !app_assoc. Qed.

Lemma rule_code_nohash : forall m n r, wf_rule r -> ~ In 35 (rule_code m n r).
Proof.
  intros m n r (I & _ & _ & _ & A & B & C) H. unfold rule_code in H.
  rewrite !in_app_iff in H.
  destruct H as [H|[H|[H|[H|[H|[H|[H|[H|H]]]]]]]]; try contradiction.
  - rewrite Forall_forall in I. apply I in H. cbn in H. lia.
  - destruct (r_enum r); cbn in H; lia.
  - cbn in H. lia.
  - apply repeat_spec in H. discriminate.
  - cbn in H. lia.
  - apply repeat_spec in H. discriminate.
Qed.

Definition renamed (r : pair_rule) : pair_rule :=
  mkRule (r_indent r) (r_enum r) (rename_class (py "1") (r_left r)) (rename_class (py "2") (r_right r))
         (r_value r) match r_comment r with Some [] => None | c => c end.

Lemma renamed_ok : forall r, renamed_rule r (renamed r).
Proof.
  intros r. unfold renamed_rule, renamed. cbn.
  split; [reflexivity|]. split; [reflexivity|]. split; [reflexivity|].
  split; [apply class_on_rename; now left|]. split; [apply class_on_rename; now right|reflexivity].
Qed.

Lemma renamed_fun : forall r r', renamed_rule r r' -> r' = renamed r.
Proof.
  intros r [i e l rr v c] (H1 & H2 & H3 & H4 & H5 & H6). cbn in *. subst. unfold renamed. f_equal.
  - eapply class_on_fun; [exact H4|]. apply class_on_rename. now left.
  - eapply class_on_fun; [exact H5|]. apply class_on_rename. now right.
Qed.

Lemma rename_rule : forall r m n, wf_rule r -> ~ In 10 (r_value r) ->
  rename_line (rule_text m n r) = rule_text 0 0 (renamed r).
Proof.
  intros r m n W NL. unfold rename_line. rewrite rule_text_code.
  rewrite split_comment_at by (now apply rule_code_nohash).
  unfold rule_code. destruct W as (I & SL & SR & V & _).
  rewrite match_pos_at by assumption.
  unfold rule_text, renamed. cbn [r_indent r_enum r_left r_right r_value r_comment repeat].
  destruct (r_comment r) as [[|c cs]|]; rewrite <- ?app_assoc, ?app_nil_r; reflexivity.
Qed.

Lemma rename_other : forall line, ~ In 10 line ->
  (forall r m n, wf_rule r -> line <> rule_text m n r) -> rename_line line = line.
Proof.
  intros line NL H. unfold rename_line. destruct (split_comment line) as [code comment] eqn:E.
  apply split_comment_inv in E. destruct E as [-> NH].
  destruct (match_pos code) as [[[[[indent enum] L] R] value]|] eqn:M; [|reflexivity].
  exfalso. apply match_pos_inv in M; [|intros H'; apply NL; apply in_or_app; now left].
  destruct M as (e & m & n & -> & -> & I & SL & SR & V).
  apply (H (mkRule indent e L R value comment) m n).
  - unfold wf_rule. cbn [r_indent r_enum r_left r_right r_value r_comment].
    repeat (split; [assumption|]).
    repeat split; intros H'; apply NH;
      repeat first [exact H' | apply in_or_app; left; exact H' | apply in_or_app; right].
  - rewrite rule_text_code. reflexivity.
Qed.

(** ** Classes *)

Lemma join_sp_spaced : forall l, join_sp l = spaced l.
Proof.
  induction l as [|g l IH]; [reflexivity|]. destruct l as [|h l]; [cbn; now rewrite app_nil_r|].
  change (join_sp (g :: h :: l)) with (g ++ [32] ++ join_sp (h :: l)). rewrite IH.
  cbn [spaced flat_map]. now rewrite <- app_assoc.
Qed.

Lemma skip_group_spec : forall add move n, skip_group add move n = false <-> to_features add move n.
Proof.
  intros add move n. unfold skip_group, to_features. rewrite <- kern_spec. unfold kern.
  destruct (starts (py "public.kern") n) eqn:K; cbn [andb negb orb].
  - assert (D : starts (py ".") n = false).
    { apply starts_neg. apply starts_spec in K. destruct K as [t ->]. intros [u E]. discriminate. }
    rewrite D. destruct add, move; cbn; split; intros H; try discriminate; try tauto.
    + destruct H as [[_ H]|[H _]]; congruence.
    + destruct H as [[_ H]|[H _]]; congruence.
  - destruct (starts (py ".") n) eqn:D; cbn.
    + split; [discriminate|]. intros [[H _]|[_ [H _]]]; [congruence|]. apply starts_spec in D.
      destruct D as [t ->]. exfalso. now apply (H t).
    + apply starts_neg in D. destruct move; cbn.
      * split; [|reflexivity]. intros _. right. split; [congruence|]. split; [|reflexivity].
        intros s E. apply D. now exists s.
      * split; [discriminate|]. intros [[H _]|[_ [_ H]]]; congruence.
Qed.

Definition chosen (add move : bool) (gs : groups) : groups :=
  filter (fun p => negb (skip_group add move (fst p))) gs.

Lemma classes_to_features_ok : forall add move gs text moved,
  classes_to_features add move gs text moved =
  (text ++ flat_map class_definition (chosen add move gs), moved ++ map fst (chosen add move gs)).
Proof.
  intros add move gs. induction gs as [|[n gl] gs IH]; intros text moved;
    cbn [classes_to_features chosen filter fst]; [cbn; now rewrite !app_nil_r|].
  destruct (skip_group add move n) eqn:E; cbn [negb].
  - apply IH.
  - rewrite IH. cbn [flat_map map fst]. unfold chosen. f_equal.
    + unfold class_definition at 2. cbn [fst snd]. rewrite join_sp_spaced. now rewrite <- !app_assoc.
    + now rewrite <- app_assoc.
Qed.

Lemma chosen_In : forall add move gs n gl,
  In (n, gl) (chosen add move gs) <-> In (n, gl) gs /\ to_features add move n.
Proof.
  intros. unfold chosen. rewrite filter_In. cbn [fst]. rewrite negb_true_iff. now rewrite skip_group_spec.
Qed.
Lemma chosen_left_out : forall add move gs, left_out (chosen add move gs) gs.
Proof.
  intros add move gs. induction gs as [|[n gl] gs IH]; cbn [chosen filter fst]; [constructor|].
  destruct (negb _); now constructor.
Qed.

Lemma adel_filter : forall V k (d : list (pystr * V)), NoDup (map fst d) ->
  adel str_eqb k d = filter (fun p => negb (str_eqb k (fst p))) d.
Proof.
  intros V k d. induction d as [|[k' v] d IH]; intros ND; cbn [adel filter fst]; [reflexivity|].
  cbn in ND. inversion ND as [|? ? N1 N2]; subst. destruct (str_eqb k k') eqn:E; cbn [negb].
  - apply str_eqb_eq in E. subst k'. clear - N1. induction d as [|[q w] d IH]; [reflexivity|].
    cbn in N1 |- *. destruct (str_eqb k q) eqn:E; [apply str_eqb_eq in E; subst; tauto|].
    cbn. f_equal. apply IH. tauto.
  - f_equal. now apply IH.
Qed.

Lemma filter_nodup : forall V (f : pystr * V -> bool) (d : list (pystr * V)),
  NoDup (map fst d) -> NoDup (map fst (filter f d)).
Proof.
  intros V f d. induction d as [|x d IH]; intros ND; [constructor|]. cbn in ND.
  inversion ND as [|? ? N1 N2]; subst. cbn. destruct (f x); [|auto]. cbn. constructor; [|auto].
  intros H. apply N1. apply in_map_iff in H. destruct H as (y & E & Hy). apply filter_In in Hy.
  rewrite <- E. apply in_map. tauto.
Qed.

Lemma remove_groups_In : forall moved gs p, NoDup (map fst gs) ->
  (In p (remove_groups moved gs) <-> In p gs /\ ~ In (fst p) moved).
Proof.
  unfold remove_groups. induction moved as [|n moved IH]; intros gs p ND; cbn [fold_left In]; [tauto|].
  rewrite adel_filter by assumption. rewrite IH by (now apply filter_nodup).
  rewrite filter_In. rewrite negb_true_iff.
  assert (H : str_eqb n (fst p) = false <-> n <> fst p).
  { rewrite <- str_eqb_eq. destruct (str_eqb n (fst p)); intuition congruence. }
  rewrite H. tauto.
Qed.
Lemma left_out_refl : forall A (l : list A), left_out l l.
Proof. induction l; now constructor. Qed.
Lemma remove_groups_left_out : forall moved gs, left_out (remove_groups moved gs) gs.
Proof.
  assert (R : forall A (l : list A), left_out l l) by (induction l; now constructor).
  assert (T : forall A (a b c : list A), left_out a b -> left_out b c -> left_out a c).
  { intros A a b c H1 H2. revert a H1. induction H2; intros a H1; auto.
    - inversion H1; subst; constructor; auto.
    - constructor. auto. }
  unfold remove_groups. induction moved as [|n moved IH]; intros gs; cbn [fold_left]; [apply R|].
  eapply T; [apply IH|]. induction gs as [|[k v] gs IHg]; cbn [adel]; [constructor|].
  destruct (str_eqb n k); [constructor; apply R|constructor; apply IHg].
Qed.

(** ** The text can be read back *)

Lemma split_unique : forall (c : Z) a a' b b', ~ In c a -> ~ In c a' ->
  a ++ c :: b = a' ++ c :: b' -> a = a' /\ b = b'.
Proof.
  intros c a. induction a as [|x a IH]; intros [|y a'] b b' N N' E; cbn in E.
  - injection E as <-. now split.
  - injection E as <- _. exfalso. apply N'. now left.
  - injection E as -> _. exfalso. apply N. now left.
  - injection E as <- E. destruct (IH a' b b') as [-> ->]; [intros H; apply N; now right|intros H; apply N'; now right|exact E|].
    now split.
Qed.

Lemma spaced_inj : forall l l', Forall plain_glyph l -> Forall plain_glyph l' ->
  spaced l = spaced l' -> l = l'.
Proof.
  assert (K : forall l l' g g', Forall plain_glyph (g :: l) -> Forall plain_glyph (g' :: l') ->
    spaced (g :: l) = spaced (g' :: l') -> g :: l = g' :: l').
  { induction l as [|h l IH]; intros l' g g' F F' E.
    - destruct l' as [|h' l']; cbn in E; rewrite ?app_nil_r in E; [now subst|].
      exfalso. destruct (Forall_inv F) as (_ & N & _). apply N. rewrite E. apply in_or_app. right. now left.
    - destruct l' as [|h' l'].
      + cbn in E. rewrite app_nil_r in E. exfalso. destruct (Forall_inv F') as (_ & N & _). apply N. rewrite <- E.
        apply in_or_app. right. now left.
      + cbn [spaced flat_map] in E. cbn [app] in E.
        inversion F as [|? ? (_ & N & _) F2]; subst. inversion F' as [|? ? (_ & N' & _) F2']; subst.
        apply split_unique in E; [|assumption|assumption]. destruct E as [-> E]. f_equal. now apply IH. }
  intros [|g l] [|g' l'] F F' E; try reflexivity.
  - exfalso. inversion F' as [|? ? (N & _) _]; subst. cbn in E. destruct g'; [congruence|discriminate].
  - exfalso. inversion F as [|? ? (N & _) _]; subst. cbn in E. destruct g; [congruence|discriminate].
  - now apply K.
Qed.

Lemma spaced_no : forall c l, c <> 32 -> Forall (fun g => ~ In c g) l -> ~ In c (spaced l).
Proof.
  intros c [|g l] N F H; [exact H|]. inversion F; subst. cbn in H. apply in_app_iff in H.
  destruct H as [H|H]; [contradiction|]. apply in_flat_map in H. destruct H as (h & Hh & [H|H]); [congruence|].
  rewrite Forall_forall in H3. now apply (H3 h).
Qed.

Lemma class_definition_inj : forall c c' s s', plain_class c -> plain_class c' ->
  class_definition c ++ s = class_definition c' ++ s' -> c = c' /\ s = s'.
Proof.
  intros [n gl] [n' gl'] s s' [[N1 N2] G] [[N1' N2'] G'] E. cbn [fst snd] in *.
  unfold class_definition in E. cbn [fst snd] in E. rewrite <- !app_assoc in E.
  apply app_inv_head in E. change (py " = [") with (32 :: py "= [") in E. cbn [app] in E.
  apply split_unique in E; [|assumption|assumption]. destruct E as [-> E].
  apply app_inv_head with (l := py "= [") in E.
  change (py "];") with (93 :: py ";") in E. cbn [app] in E.
  assert (NB : forall l, Forall plain_glyph l -> ~ In 93 (spaced l)).
  { intros l F. apply spaced_no; [discriminate|]. eapply Forall_impl; [|exact F]. unfold plain_glyph. tauto. }
  apply split_unique in E; [|now apply NB|now apply NB]. destruct E as [E1 E2].
  apply spaced_inj in E1; [|assumption|assumption]. subst.
  apply app_inv_head with (l := py ";" ++ [10]) in E2. now subst.
Qed.

Lemma feature_file_inj : forall a b c d, Forall plain_class a -> Forall plain_class b ->
  feature_file a c = feature_file b d -> a = b /\ c = d.
Proof.
  unfold feature_file. induction a as [|x a IH]; intros [|y b] c d F F' E.
  - cbn [flat_map app] in E. split; [reflexivity|]. destruct c, d; try discriminate; [reflexivity|].
    now injection E as -> ->.
  - cbn in E. destruct c; discriminate.
  - cbn in E. destruct d; discriminate.
  - cbn [flat_map] in E. rewrite <- !app_assoc in E. inversion F; inversion F'; subst.
    apply class_definition_inj in E; [|assumption|assumption]. destruct E as [-> E].
    destruct (IH b c d) as [-> ->]; auto.
Qed.
