(** C65 and C66: the feature code of the UFO. *)
From Coq Require Import String ZifyBool.
From Verif Require Import Base M_Py M_Text M_Groups M_Features S_Text S_Groups S_Features Lib
  P_Groups P_Groups2 P_Kerning P_Features Prop_Groups.
Local Open Scope list_scope.

Lemma export_shared_inv : forall gs flags order minimal add move kerning code s,
  export_shared gs flags order minimal add move kerning code = Ok s ->
  exists st, transform_groups gs flags order minimal = Ok st /\ NoDup (map fst (tg_groups st)) /\
    export_kerning gs flags order minimal kerning = Ok (us_kerning s) /\
    uk_groups (us_kerning s) = ufo_groups_of (tg_groups st) /\
    us_groups s = (if move then remove_groups (map fst (chosen add move (tg_groups st)))
                                              (uk_groups (us_kerning s))
                   else uk_groups (us_kerning s)) /\
    us_features s = feature_file (chosen add move (tg_groups st)) code.
Proof.
  intros gs flags order minimal add move kerning code s E. unfold export_shared in E.
  unfold export_kerning. destruct (transform_groups gs flags order minimal) as [st|] eqn:T; [|discriminate].
  cbn [rthen] in *. exists st. split; [reflexivity|].
  split; [eapply transform_groups_nodup; [exact T|constructor]|].
  destruct (new_ufo_kerning order (tg_groups st) kerning (tg_keys st)) as [k|] eqn:K; [|discriminate].
  cbn [rmap] in E. rewrite classes_to_features_ok in E. apply Ok_inj in E. subst s.
  cbn [us_kerning us_groups us_features app]. split; [reflexivity|]. split.
  - unfold new_ufo_kerning in K. unfold ufo_groups_of.
    destruct (build_glyph_to_group_maps (tg_groups st)) as [[a b] c].
    destruct (make_name_based_kerning _ _ _ _ _); [|discriminate]. cbn in K. injection K as <-. reflexivity.
  - split; [reflexivity|]. unfold feature_file. destruct code; [now rewrite app_nil_r|reflexivity].
Qed.

(** every group of the UFO comes from a group of the same name *)
Lemma ufo_groups_names : forall gs n, NoDup (map fst gs) ->
  In n (map fst (ufo_groups_of gs)) -> In n (map fst gs).
Proof.
  intros gs n ND H. destruct (C45_groups gs ND) as (_ & S & O & K).
  assert (D : kerning_name n \/ ~ kerning_name n).
  { rewrite <- kern_spec. destruct (kern n); [now left|right; discriminate]. }
  apply in_map_iff in H. destruct H as ([n' gl] & <- & H). cbn [fst] in *.
  destruct D as [D|D].
  - destruct (K n') as [F|F]; [now apply (in_map fst) in H|assumption| |].
    + destruct (S first_side) as (M & _); [now left|].
      destruct (M n' gl F H) as (_ & _ & _ & gl0 & I & _). now apply (in_map fst) in I.
    + destruct (S second_side) as (M & _); [now right|].
      destruct (M n' gl F H) as (_ & _ & _ & gl0 & I & _). now apply (in_map fst) in I.
  - apply (O n' gl D) in H. now apply (in_map fst) in H.
Qed.

(** ** C65: moving classes to the feature code *)

(** For all classes, options and feature code: the feature file is the definitions of the groups that
    go there, in their order, and the feature code; the groups are those of the kerning export (C45),
    without the ones that were moved. *)
Theorem C65_export : forall gs flags order minimal add move kerning code s,
  export_shared gs flags order minimal add move kerning code = Ok s ->
  exists st classes,
    transform_groups gs flags order minimal = Ok st /\
    export_kerning gs flags order minimal kerning = Ok (us_kerning s) /\
    us_features s = feature_file classes code /\
    left_out classes (tg_groups st) /\
    (forall n gl, In (n, gl) classes <-> In (n, gl) (tg_groups st) /\ to_features add move n) /\
    left_out (us_groups s) (uk_groups (us_kerning s)) /\
    (forall n gl, In (n, gl) (us_groups s) <->
       In (n, gl) (uk_groups (us_kerning s)) /\ (move = false \/ ~ to_features add move n)).
Proof.
  intros gs flags order minimal add move kerning code s E.
  destruct (export_shared_inv _ _ _ _ _ _ _ _ _ E) as (st & T & ND & K & U & G & F).
  exists st, (chosen add move (tg_groups st)). split; [exact T|]. split; [exact K|]. split; [exact F|].
  split; [apply chosen_left_out|]. split; [intros; apply chosen_In|].
  assert (NDu : NoDup (map fst (uk_groups (us_kerning s)))).
  { rewrite U. exact (proj1 (C45_groups _ ND)). }
  rewrite G. destruct move.
  - split; [apply remove_groups_left_out|]. intros n gl. rewrite remove_groups_In by assumption.
    cbn [fst]. split.
    + intros [I N]. split; [assumption|]. right. intros Hf. apply N.
      assert (In n (map fst (tg_groups st))) as Hn.
      { apply ufo_groups_names; [assumption|]. rewrite <- U. now apply (in_map fst) in I. }
      apply in_map_iff in Hn. destruct Hn as ([n' gl'] & <- & Hn). cbn [fst] in *.
      apply in_map_iff. exists (n', gl'). split; [reflexivity|]. now apply chosen_In.
    + intros [I [H|H]]; [discriminate|]. split; [assumption|]. intros Hn. apply H.
      apply in_map_iff in Hn. destruct Hn as ([n' gl'] & <- & Hn). now apply chosen_In in Hn.
  - split; [apply left_out_refl|intros; tauto].
Qed.

(** The text tells the classes: whoever reads it finds these classes and this code, and no other. *)
Theorem C65_read_back : forall classes classes' code code',
  Forall plain_class classes -> Forall plain_class classes' ->
  feature_file classes code = feature_file classes' code' -> classes = classes' /\ code = code'.
Proof. exact feature_file_inj. Qed.

(** No group but a kerning group is lost or doubled: it is in the groups or in the feature code, and
    not in both. *)
Theorem C65_once : forall gs flags order minimal add move kerning code s st,
  transform_groups gs flags order minimal = Ok st ->
  export_shared gs flags order minimal add move kerning code = Ok s ->
  exists classes, us_features s = feature_file classes code /\
    forall n gl, ~ kerning_name n -> In (n, gl) (tg_groups st) ->
      (In (n, gl) (us_groups s) /\ ~ In n (map fst classes)) \/
      (In (n, gl) classes /\ ~ In n (map fst (us_groups s))).
Proof.
  intros gs flags order minimal add move kerning code s st T E.
  destruct (export_shared_inv _ _ _ _ _ _ _ _ _ E) as (st0 & T0 & ND & _ & U & _).
  rewrite T in T0. apply Ok_inj in T0. subst st0.
  destruct (C65_export _ _ _ _ _ _ _ _ _ E) as (st1 & classes & T1 & _ & F & _ & C & _ & G).
  rewrite T in T1. apply Ok_inj in T1. subst st1.
  exists classes. split; [exact F|]. intros n gl NK I.
  assert (I' : In (n, gl) (uk_groups (us_kerning s))).
  { rewrite U. destruct (C45_groups _ ND) as (_ & _ & O & _). now apply O. }
  destruct (skip_group add move n) eqn:Sk.
  - assert (N : ~ to_features add move n) by (rewrite <- skip_group_spec; congruence).
    left. split; [apply G; tauto|]. intros H. apply in_map_iff in H. destruct H as ([n' gl'] & <- & H).
    apply C in H. now destruct H.
  - apply skip_group_spec in Sk. right. split; [apply C; tauto|]. intros H. apply in_map_iff in H.
    destruct H as ([n' gl'] & <- & H). cbn [fst] in *. apply G in H. destruct H as [_ [-> |H]]; [|contradiction].
    destruct Sk as [[Sk _]|(_ & _ & Sk)]; [contradiction|discriminate].
Qed.

(** If kerning groups are not added to the feature code, or groups are not moved, then all groups the
    kerning of a master refers to are there. *)
Theorem C65_referenced_partial : forall gs flags order minimal add move kerning code st m,
  transform_groups gs flags order minimal = Ok st ->
  NoDup order -> Forall (fun g => ~ kerning_name g) order -> NoDup (map fst kerning) ->
  Forall (fun p => ~ kerning_name (fst (fst p)) /\ 0 <= snd (fst p) < Z.of_nat (List.length order) /\
                   0 <= m < Z.of_nat (List.length (snd p))) kerning ->
  add = false \/ move = false ->
  exists s K, export_shared gs flags order minimal add move kerning code = Ok s /\
    get_master_kerning (us_kerning s) m = Ok K /\
    forall left right v, In ((left, right), v) K ->
      (kerning_name left -> In left (map fst (us_groups s))) /\
      (kerning_name right -> In right (map fst (us_groups s))).
Proof.
  intros gs flags order minimal add move kerning code st m T NDo FO NDk FK O.
  destruct (C47_kerning gs flags order minimal kerning st m T NDo FO NDk FK) as (k & K & Ek & Em & _ & H).
  assert (X : exists s, export_shared gs flags order minimal add move kerning code = Ok s /\ us_kerning s = k).
  { unfold export_kerning in Ek. unfold export_shared. rewrite T in *. cbn [rthen] in *. rewrite Ek. cbn [rmap].
    rewrite classes_to_features_ok. eexists. split; reflexivity. }
  destruct X as (s & Es & Eus). exists s, K. split; [exact Es|]. rewrite Eus. split; [exact Em|].
  destruct (C65_export _ _ _ _ _ _ _ _ _ Es) as (_ & _ & _ & _ & _ & _ & _ & _ & G). rewrite Eus in G.
  assert (KG : forall n, kerning_name n -> In n (map fst (uk_groups k)) -> In n (map fst (us_groups s))).
  { intros n Kn I. apply in_map_iff in I. destruct I as ([n' gl] & <- & I). cbn [fst] in *.
    apply (in_map fst (us_groups s) (n', gl)). apply G. split; [assumption|].
    destruct O as [-> | ->]; [|now left]. right. intros [[_ D]|[D _]]; [discriminate|contradiction]. }
  intros l r v I. apply H in I. destruct I as (L & rid & R & values & Ik & Nr & HL & HR & _).
  rewrite Forall_forall in FK, FO. pose proof (FK _ Ik) as (NL & _). cbn [fst snd] in *.
  assert (NR : ~ kerning_name R) by (apply FO; eapply nth_error_In; eassumption).
  split; intros Kn.
  - apply KG; [assumption|]. destruct HL as [(n & _ & In1 & ->)|[_ ->]]; [assumption|contradiction].
  - apply KG; [assumption|]. destruct HR as [(n & _ & In1 & ->)|[_ ->]]; [assumption|contradiction].
Qed.

(** With both options, which is what asking for kerning groups in the feature code gives, no kerning
    group is left in the groups. *)
Theorem C65_kerning_groups_gone : forall gs flags order minimal kerning code s n,
  export_shared gs flags order minimal true true kerning code = Ok s ->
  In n (map fst (us_groups s)) -> ~ kerning_name n.
Proof.
  intros gs flags order minimal kerning code s n E I Kn.
  destruct (C65_export _ _ _ _ _ _ _ _ _ E) as (_ & _ & _ & _ & _ & _ & _ & _ & G).
  apply in_map_iff in I. destruct I as ([n' gl] & <- & I). cbn [fst] in *. apply G in I.
  destruct I as [_ [D|D]]; [discriminate|]. apply D. left. now split.
Qed.

Definition ex_classes : groups :=
  [(py "_A", [py "A'"; py "Agrave"]); (py "_B", [py "B'"; py "Agrave"]); (py "_V", [py "V'"; py "W"]);
   (py "caps", [py "A"; py "V"]); (py ".mtrx", [py "A"])].
Definition ex_flags : list (pystr * list Z) := [(py "_A", [1024]); (py "_B", [1024]); (py "_V", [2048])].
Definition ex_order : list pystr := [py "A"; py "Agrave"; py "B"; py "V"; py "W"].

Theorem C65_referenced_refuted : exists gs flags order kerning s K,
  export_shared gs flags order false true true kerning [] = Ok s /\
  get_master_kerning (us_kerning s) 0 = Ok K /\
  In ((py "public.kern1._A", py "public.kern2._V"), -80) K /\
  ~ In (py "public.kern1._A") (map fst (us_groups s)) /\
  ~ In (py "public.kern2._V") (map fst (us_groups s)).
Proof.
  exists ex_classes, ex_flags, ex_order, [((py "A", 3), [-80])]. eexists. eexists.
  split; [vm_compute; reflexivity|]. split; [vm_compute; reflexivity|].
  split; [now left|]. split; cbn; intuition discriminate.
Qed.

(** The feature code has the kerning groups as they were: a glyph can be in two classes of a side,
    where the groups (C45) have it in one. *)
Theorem C65_disjoint_refuted : exists gs flags order s classes n m gn gm,
  export_shared gs flags order false true false [] [] = Ok s /\
  Forall plain_class classes /\ us_features s = feature_file classes [] /\
  first_side n /\ first_side m /\ n <> m /\
  In (n, gn) classes /\ In (m, gm) classes /\ In (py "Agrave") gn /\ In (py "Agrave") gm.
Proof.
  exists ex_classes, ex_flags, ex_order. eexists.
  exists [(py "public.kern1._A", [py "A"; py "Agrave"]); (py "public.kern1._B", [py "B"; py "Agrave"]);
          (py "public.kern2._V", [py "V"; py "W"])].
  exists (py "public.kern1._A"), (py "public.kern1._B"), [py "A"; py "Agrave"], [py "B"; py "Agrave"].
  split; [vm_compute; reflexivity|].
  split.
  { repeat apply Forall_cons; try apply Forall_nil;
      (split; [split; cbn; intuition discriminate|]);
      repeat apply Forall_cons; try apply Forall_nil;
      (split; [discriminate|cbn; intuition discriminate]). }
  split; [vm_compute; reflexivity|].
  split; [now exists (py "._A")|]. split; [now exists (py "._B")|]. split; [discriminate|].
  cbn. tauto.
Qed.

Example C65_ex : exists s,
  export_shared ex_classes ex_flags ex_order false false true [] (py "feature") = Ok s /\
  us_groups s = [(py ".mtrx", [py "A"]); (py "public.kern1._A", [py "A"; py "Agrave"]);
                 (py "public.kern1._B", [py "B"]); (py "public.kern2._V", [py "V"; py "W"])] /\
  us_features s = py "@caps = [A V];" ++ [10; 10; 10] ++ py "feature".
Proof. eexists. split; [vm_compute; reflexivity|]. split; vm_compute; reflexivity. Qed.

(** ** C66: references to kerning classes in the feature code *)

(** For every line that holds a pair rule: the line of the UFO holds the same rule, with the name of
    the UFO group in the place of each kerning class, of the first side for the first and of the
    second for the second, and single spaces between the parts. *)
Theorem C66_rule : forall r r' m n, wf_rule r -> ~ In 10 (r_value r) -> renamed_rule r r' ->
  rename_line (rule_text m n r) = rule_text 0 0 r'.
Proof. intros r r' m n W N R. apply renamed_fun in R. subst r'. now apply rename_rule. Qed.

(** there is such a rule, and only one *)
Theorem C66_rule_unique : forall r, exists r', renamed_rule r r' /\
  forall r'', renamed_rule r r'' -> r'' = r'.
Proof. intros r. exists (renamed r). split; [apply renamed_ok|]. apply renamed_fun. Qed.

(** Every other line is as before. *)
Theorem C66_other : forall line, ~ In 10 line ->
  (forall r m n, wf_rule r -> line <> rule_text m n r) -> rename_line line = line.
Proof. exact rename_other. Qed.

(** the lines stay in their order, none is added or left out *)
Theorem C66_lines : forall data i,
  nth_error (rename_kern_classes data) i = option_map rename_line (nth_error data i).
Proof.
  intros data i. unfold rename_kern_classes. revert i. induction data as [|l data IH]; intros [|i]; cbn; auto.
Qed.

(** The new name is the name of the group that the class becomes (C46). *)
Theorem C66_names : forall c flags f fl n, cl_name c = py "_" ++ n ->
  aget str_eqb (cl_name c) flags = Some (f :: fl) ->
  (Z.testbit f 10 = true -> exists g, In g (group_names flags c) /\ first_side g /\
     class_on "1" (py "@" ++ cl_name c) (py "@" ++ g)) /\
  (Z.testbit f 11 = true -> exists g, In g (group_names flags c) /\ second_side g /\
     class_on "2" (py "@" ++ cl_name c) (py "@" ++ g)).
Proof.
  intros c flags f fl n E A. unfold group_names. rewrite A, E. cbn [hd app py]. cbn [Z.eqb Pos.eqb].
  change (hd 0 (py "_" ++ n) =? 95) with true. cbv iota. split; intros ->.
  - exists (py "public.kern1." ++ py "_" ++ n). split; [now left|]. split; [now exists (py "._" ++ n)|].
    left. exists n. split; reflexivity.
  - exists (py "public.kern2." ++ py "_" ++ n). split; [apply in_or_app; right; now left|].
    split; [now exists (py "._" ++ n)|]. left. exists n. split; reflexivity.
Qed.

(** doing it twice is doing it once *)
Theorem C66_idempotent : forall line, ~ In 10 line -> rename_line (rename_line line) = rename_line line.
Proof.
  intros line NL.
  destruct (split_comment line) as [code comment] eqn:Sc.
  destruct (match_pos code) as [[[[[indent enum] L] R] value]|] eqn:M.
  2:{ assert (E : rename_line line = line) by (unfold rename_line; now rewrite Sc, M). now rewrite !E. }
  apply split_comment_inv in Sc. destruct Sc as [-> NH].
  assert (NL' : ~ In 10 code) by (intros H; apply NL; apply in_or_app; now left).
  apply match_pos_inv in M; [|assumption].
  destruct M as (e & m & n & -> & -> & I & SL & SR & V).
  set (r := mkRule indent e L R value comment).
  assert (NP : forall x, (In x L \/ In x R \/ In x value) ->
    In x (indent ++ (if e then py "enum " else []) ++ py "pos" ++ repeat 32 (S m) ++ L ++ [32] ++ R ++
          repeat 32 (S n) ++ value)).
  { intros x [H|[H|H]]; repeat first [exact H | apply in_or_app; left; exact H | apply in_or_app; right]. }
  assert (W : wf_rule r).
  { unfold wf_rule, r. cbn [r_indent r_enum r_left r_right r_value r_comment].
    repeat (split; [assumption|]). repeat split; intros H'; apply NH; apply NP; tauto. }
  assert (Nv : ~ In 10 (r_value r)) by (intros H; apply NL'; apply NP; cbn in H; tauto).
  assert (E : (indent ++ (if e then py "enum " else []) ++ py "pos" ++ repeat 32 (S m) ++ L ++ [32] ++ R ++
     repeat 32 (S n) ++ value) ++ match comment with None => [] | Some c => py "#" ++ c end = rule_text m n r).
  { rewrite rule_text_code. reflexivity. }
  rewrite E. rewrite rename_rule by assumption.
  assert (W' : wf_rule (renamed r)).
  { destruct W as (W1 & W2 & W3 & W4 & W5 & W6 & W7). unfold wf_rule, renamed.
    cbn [r_indent r_enum r_left r_right r_value r_comment].
    assert (SC : forall side x, (side = "1" \/ side = "2")%string -> solid x -> solid (rename_class (py side) x)).
    { intros side x Hs [F N]. unfold rename_class. destruct (starts _ _); [|now split]. split.
      - apply Forall_app. split; [|apply Forall_app; split; [|apply Forall_app; split]].
        + repeat apply Forall_cons; try apply Forall_nil; cbn; lia.
        + destruct Hs as [-> | ->]; repeat apply Forall_cons; try apply Forall_nil; cbn; lia.
        + repeat apply Forall_cons; try apply Forall_nil; cbn; lia.
        + destruct x; [constructor|]. now inversion F.
      - discriminate. }
    assert (HC : forall side x, (side = "1" \/ side = "2")%string -> ~ In 35 x -> ~ In 35 (rename_class (py side) x)).
    { intros side x Hs N. unfold rename_class. destruct (starts _ _); [|assumption]. rewrite !in_app_iff.
      intros [H|[H|[H|H]]].
      - cbn in H. lia.
      - destruct Hs as [-> | ->]; cbn in H; lia.
      - cbn in H. lia.
      - destruct x; [exact H|]. apply N. now right. }
    split; [assumption|]. split; [apply SC; auto|]. split; [apply SC; auto|]. split; [assumption|].
    split; [apply HC; auto|]. split; [apply HC; auto|assumption]. }
  rewrite rename_rule by assumption. f_equal. unfold renamed. cbn [r_indent r_enum r_left r_right r_value r_comment].
  assert (ID : forall side x, (side = "1" \/ side = "2")%string ->
    rename_class (py side) (rename_class (py side) x) = rename_class (py side) x).
  { intros side x Hs. unfold rename_class. destruct (starts (py "@_") x) eqn:Ex; [|now rewrite Ex].
    destruct Hs as [-> | ->]; reflexivity. }
  f_equal; [apply ID; now left|apply ID; now right|]. destruct (r_comment r) as [[|]|]; reflexivity.
Qed.

(** Not so for rules written in another way: with two spaces between the classes, with the long
    keywords, or with a class in a list. The class keeps a name that no group has. *)
Definition other_forms : list pystr :=
  [py "pos @_A  @_V -80;"; py "position @_A @_V -80;"; py "enumerate pos @_A @_V -80;";
   py "pos [@_A B] @_V -80;"].
Theorem C66_forms_refuted : Forall (fun line => rename_line line = line) other_forms.
Proof. repeat apply Forall_cons; try apply Forall_nil; vm_compute; reflexivity. Qed.

(** And the classes the rules refer to are defined in the feature code only if kerning groups are
    added to it: without that option, no definition has a name of a kerning group. *)
Theorem C66_defined : forall gs flags order minimal add move kerning code s st n gl,
  transform_groups gs flags order minimal = Ok st ->
  export_shared gs flags order minimal add move kerning code = Ok s ->
  In (n, gl) (tg_groups st) -> kerning_name n ->
  exists classes, us_features s = feature_file classes code /\ (In (n, gl) classes <-> add = true) /\
    (In n (map fst classes) <-> add = true).
Proof.
  intros gs flags order minimal add move kerning code s st n gl T E I K.
  destruct (C65_export _ _ _ _ _ _ _ _ _ E) as (st1 & classes & T1 & _ & F & _ & C & _).
  rewrite T in T1. apply Ok_inj in T1. subst st1. exists classes. split; [exact F|].
  assert (TF : to_features add move n <-> add = true).
  { unfold to_features. tauto. }
  split; [rewrite C, TF; tauto|]. split.
  - intros H. apply in_map_iff in H. destruct H as ([n' gl'] & <- & H). apply C in H. now apply TF.
  - intros H. apply (in_map fst classes (n, gl)). apply C. split; [assumption|]. now apply TF.
Qed.

Theorem C66_defined_refuted : exists gs flags order s,
  let rule := py "pos @_A @_V -80;" in
  export_shared gs flags order false false true [] (set_feature_code [rule]) = Ok s /\
  us_features s = feature_file [(py "caps", [py "A"; py "V"])]
                               (py "pos @public.kern1._A @public.kern2._V -80;").
Proof.
  exists ex_classes, ex_flags, ex_order. eexists. split; vm_compute; reflexivity.
Qed.

Example C66_ex : rename_kern_classes
  [py "feature kern {"; py "  enum pos   @_A V   -80; # AV"; py "  pos @_A @_V -80;#"; py "} kern;"] =
  [py "feature kern {"; py "  enum pos @public.kern1._A V -80; # AV";
   py "  pos @public.kern1._A @public.kern2._V -80;"; py "} kern;"].
Proof. vm_compute. reflexivity. Qed.

(** a rule meets the hypotheses of C66_rule *)
Example C66_ex_rule : let r := mkRule (py "  ") true (py "@_A") (py "V") (py "-80; ") (Some (py " AV")) in
  wf_rule r /\ ~ In 10 (r_value r) /\ rule_text 2 2 r = py "  enum pos   @_A V   -80; # AV".
Proof.
  cbv zeta. split; [|split; [cbn; lia|reflexivity]]. unfold wf_rule. cbn [r_indent r_left r_right r_value].
  split; [repeat apply Forall_cons; try apply Forall_nil; cbn; tauto|].
  split; [split; [repeat apply Forall_cons; try apply Forall_nil; cbn; lia|discriminate]|].
  split; [split; [repeat apply Forall_cons; try apply Forall_nil; cbn; lia|discriminate]|].
  split; [exists 45, (py "80; "); split; [reflexivity|cbn; lia]|]. cbn. lia.
Qed.

Print Assumptions C65_export.
Print Assumptions C65_read_back.
Print Assumptions C65_once.
Print Assumptions C65_referenced_partial.
Print Assumptions C65_kerning_groups_gone.
Print Assumptions C65_referenced_refuted.
Print Assumptions C65_disjoint_refuted.
Print Assumptions C66_rule.
Print Assumptions C66_rule_unique.
Print Assumptions C66_other.
Print Assumptions C66_lines.
Print Assumptions C66_names.
Print Assumptions C66_idempotent.
Print Assumptions C66_forms_refuted.
Print Assumptions C66_defined.
Print Assumptions C66_defined_refuted.
