(** Lemmas on the XML of TrueType commands. *)
From Coq Require Import String.
From Verif Require Import Base M_Py M_Text M_Labels M_TrueType M_Tth S_Tth Lib P_Tth.
Local Open Scope list_scope.

Lemma reads_escape : forall s, reads (html_escape s) s.
Proof.
  induction s as [|c s IH]; [constructor|]. unfold html_escape. cbn [map concat]. unfold escape_char at 1.
  repeat match goal with |- context[if ?a =? ?b then _ else _] => destruct (a =? b) eqn:?; [assert (a = b) by lia; subst a;
    apply (reads_entity _ b); [cbn [entities In]; tauto|exact IH]|] end.
  apply (reads_char c); [|exact IH]. cbn. intuition lia.
Qed.
Lemma entity_38 : forall e c, In (e, c) entities -> exists e', e = 38 :: e'.
Proof. intros e c H. cbn [entities In] in H. repeat (destruct H as [H|H]; [injection H as <- _; eexists; reflexivity|]). destruct H. Qed.
Lemma entity_det : forall e c e' c' s s', In (e, c) entities -> In (e', c') entities -> e ++ s = e' ++ s' -> c = c' /\ s = s'.
Proof.
  intros e c e' c' s s' H K E. cbn [entities In] in H, K.
  repeat (destruct H as [H|H]; [injection H as <- <-|]); try (destruct H);
  repeat (destruct K as [K|K]; [injection K as <- <-|]); try (destruct K);
  repeat match goal with E : context[py ?x] |- _ => let y := eval vm_compute in (py x) in change (py x) with y in E end;
  cbn [app] in E; try discriminate; injection E as E; auto.
Qed.
Lemma reads_det : forall s t, reads s t -> forall t', reads s t' -> t = t'.
Proof.
  intros s t H. induction H as [|e c s t I H IH|c s t N H IH]; intros t' K.
  - inversion K as [|e c s t I H E|]; [reflexivity|]. subst. destruct (entity_38 _ _ I) as (e' & ->). discriminate.
  - remember (e ++ s) as w eqn:W. destruct K as [|e' c' s' t' I' K|c' s' t' N' K].
    + destruct (entity_38 _ _ I) as (e' & ->). discriminate.
    + destruct (entity_det _ _ _ _ _ _ I' I W) as (-> & ->). f_equal. now apply IH.
    + destruct (entity_38 _ _ I) as (e' & ->). injection W as -> _. exfalso. apply N'. now left.
  - remember (c :: s) as w eqn:W. destruct K as [|e' c' s' t' I' K|c' s' t' N' K].
    + discriminate.
    + destruct (entity_38 _ _ I') as (e & ->). injection W as <- _. exfalso. apply N. now left.
    + injection W as -> ->. f_equal. now apply IH.
Qed.
Lemma escape_inj : forall a b, html_escape a = html_escape b -> a = b.
Proof. intros a b E. apply (reads_det (html_escape a)); [apply reads_escape|]. rewrite E. apply reads_escape. Qed.
Lemma escape_plain : forall s c, In c (html_escape s) -> ~ In c [60; 62; 34; 39].
Proof.
  intros s c H. unfold html_escape in H. apply in_concat in H. destruct H as (x & X & H). apply in_map_iff in X. destruct X as (y & <- & _).
  unfold escape_char in H.
  repeat match goal with H : context[if ?a =? ?b then _ else _] |- _ => destruct (a =? b) eqn:?;
     [vm_compute in H; repeat (destruct H as [<-|H]; [cbn; intuition discriminate|]); destruct H|] end.
  destruct H as [<-|[]]. cbn. intuition lia.
Qed.
Lemma cut_at : forall (c : Z) a b x y, ~ In c a -> ~ In c b -> a ++ c :: x = b ++ c :: y -> a = b /\ x = y.
Proof.
  induction a as [|p a IH]; intros [|q b] x y Na Nb E; cbn [app] in E.
  - injection E as ->. auto.
  - injection E as -> _. exfalso. apply Nb. now left.
  - injection E as -> _. exfalso. apply Na. now left.
  - injection E as -> E. destruct (IH b x y) as (-> & ->); auto; intros H; [apply Na|apply Nb]; now right.
Qed.
Lemma text_of_str : forall d attr, text_of d attr = option_map tval_str (aget str_eqb attr d).
Proof. intros d attr. unfold text_of. destruct (aget str_eqb attr d) as [[]|]; reflexivity. Qed.
Lemma attr_some : forall d attr s, text_of d attr = Some s -> xml_attr d attr = 32 :: attr ++ 61 :: 34 :: html_escape s ++ [34].
Proof.
  intros d attr s H. rewrite text_of_str in H. unfold xml_attr. destruct (aget str_eqb attr d); [|discriminate].
  cbn [option_map] in H. assert (E : tval_str t = s) by congruence. rewrite E. reflexivity.
Qed.
Lemma attr_none : forall d attr, text_of d attr = None -> xml_attr d attr = [].
Proof. intros d attr H. rewrite text_of_str in H. unfold xml_attr. destruct (aget str_eqb attr d); [discriminate|reflexivity]. Qed.
(** the rest after some attributes: another attribute or the end *)
Definition starts (names : list pystr) (s : pystr) : Prop :=
  (exists n r, In n names /\ s = 32 :: n ++ 61 :: r) \/ exists r, s = 47 :: r.
Lemma attrs_start : forall d names r, starts names (concat (map (xml_attr d) names) ++ 47 :: r).
Proof.
  intros d. induction names as [|n names IH]; intros r; cbn [map concat app]; [right; eauto|].
  destruct (text_of d n) as [s|] eqn:E.
  - rewrite (attr_some _ _ _ E). left. exists n. eexists. split; [now left|]. cbn [app]. rewrite <- !app_assoc. reflexivity.
  - rewrite (attr_none _ _ E). cbn [app]. destruct (IH r) as [(m & q & M & ->)|(q & ->)]; [left|right]; [|eauto]. exists m, q. split; [now right|reflexivity].
Qed.
Lemma attrs_inj : forall d e names r q, NoDup names -> Forall (fun n => ~ In 61 n) names ->
  concat (map (xml_attr d) names) ++ 47 :: r = concat (map (xml_attr e) names) ++ 47 :: q ->
  (forall n, In n names -> text_of d n = text_of e n) /\ r = q.
Proof.
  intros d e. induction names as [|n names IH]; intros r q N F E; cbn [map concat app] in *.
  - injection E as ->. split; [intros n []|reflexivity].
  - inversion N as [|? ? Nn N']; subst. inversion F as [|? ? Fn F']; subst. rewrite <- !app_assoc in E.
    assert (B : forall z, starts names z -> forall s, 32 :: n ++ 61 :: s = z -> False).
    { intros z [(m & y & M & ->)|(y & ->)] s H; [|discriminate]. injection H as H.
      apply cut_at in H; [|assumption|rewrite Forall_forall in F'; auto]. destruct H as (-> & _). contradiction. }
    destruct (text_of d n) as [s|] eqn:Ed; destruct (text_of e n) as [t|] eqn:Ee.
    + rewrite (attr_some _ _ _ Ed), (attr_some _ _ _ Ee) in E. cbn [app] in E. rewrite <- !app_assoc in E. cbn [app] in E. rewrite <- !app_assoc in E. cbn [app] in E.
      injection E as E. apply app_inv_head in E. injection E as E.
      apply cut_at in E; [|intros H; apply escape_plain in H; apply H; cbn; tauto|intros H; apply escape_plain in H; apply H; cbn; tauto].
      destruct E as (Es & E). apply escape_inj in Es. subst t. destruct (IH r q N' F' E) as (H & ->). split; [|reflexivity].
      intros m [<-|M]; [congruence|auto].
    + exfalso. rewrite (attr_some _ _ _ Ed), (attr_none _ _ Ee) in E. cbn [app] in E. rewrite <- !app_assoc in E. cbn [app] in E.
      eapply B; [apply attrs_start|exact E].
    + exfalso. rewrite (attr_none _ _ Ed), (attr_some _ _ _ Ee) in E. cbn [app] in E. rewrite <- !app_assoc in E. cbn [app] in E.
      eapply B; [apply attrs_start|symmetry; exact E].
    + rewrite (attr_none _ _ Ed), (attr_none _ _ Ee) in E. cbn [app] in E. destruct (IH r q N' F' E) as (H & ->). split; [|reflexivity].
      intros m [<-|M]; [congruence|auto].
Qed.
Lemma cmd_inj : forall d e x y r q, has_code d -> has_code e -> cmd_xml d = Ok x -> cmd_xml e = Ok y -> x ++ r = y ++ q ->
  (forall n, In n attribute_names -> text_of d n = text_of e n) /\ r = q.
Proof.
  intros d e x y r q (c & Ec & Nc) (c' & Ec' & Nc') Ex Ey E. unfold cmd_xml, aget_res in Ex, Ey. rewrite Ec in Ex. rewrite Ec' in Ey.
  cbn [rmap tval_str] in Ex, Ey. apply Ok_inj in Ex. apply Ok_inj in Ey. subst x y. unfold quoted in E. rewrite <- !app_assoc in E.
  apply app_inv_head in E. change ([34] ++ ?a) with (34 :: a) in E. cbn [app] in E. injection E as E. apply cut_at in E; [|assumption|assumption].
  destruct E as (-> & E). change (py "/>" ++ ?a) with (47 :: 62 :: a) in E. apply (attrs_inj d e xml_attrs (62 :: r) (62 :: q)) in E.
  - destruct E as (H & E). injection E as ->. split; [|reflexivity]. intros n [<-|Hn]; [unfold text_of; now rewrite Ec, Ec'|]. apply H, Hn.
  - unfold xml_attrs. repeat apply NoDup_cons; try apply NoDup_nil; vm_compute; intuition discriminate.
  - unfold xml_attrs. repeat apply Forall_cons; try apply Forall_nil; vm_compute; intuition discriminate.
Qed.
Lemma xml_start : forall d x, cmd_xml d = Ok x -> exists r, x = 32 :: 32 :: 32 :: r.
Proof.
  intros d x H. unfold cmd_xml in H. destruct (aget_res str_eqb (py "code") d); [|discriminate]. cbn [rmap] in H. apply Ok_inj in H. subst x. eexists. reflexivity.
Qed.
Lemma lines_inj : forall a b la lb r q, Forall has_code a -> Forall has_code b -> res_map cmd_xml a = Ok la -> res_map cmd_xml b = Ok lb ->
  a <> [] -> b <> [] ->
  join_nl la ++ [10] ++ py "  </ttProgram>" ++ r = join_nl lb ++ [10] ++ py "  </ttProgram>" ++ q ->
  Forall2 (fun d e => forall n, In n attribute_names -> text_of d n = text_of e n) a b.
Proof.
  induction a as [|d a IH]; intros [|e b] la lb r q Fa Fb Ea Eb Na Nb E; try contradiction.
  inversion Fa as [|? ? Fd Fa']; subst. inversion Fb as [|? ? Fe Fb']; subst. cbn [res_map] in Ea, Eb.
  destruct (cmd_xml d) as [x|] eqn:Ex; [|discriminate]. destruct (cmd_xml e) as [y|] eqn:Ey; [|discriminate]. cbn [rthen] in Ea, Eb.
  destruct (res_map cmd_xml a) as [xs|] eqn:Exs; [|discriminate]. destruct (res_map cmd_xml b) as [ys|] eqn:Eys; [|discriminate]. cbn [rmap rthen] in Ea, Eb.
  apply Ok_inj in Ea. apply Ok_inj in Eb. subst la lb.
  assert (J : forall (z : pystr) zs t, join_nl (z :: zs) ++ t = z ++ match zs with [] => t | _ => 10 :: join_nl zs ++ t end).
  { intros z zs t. cbn [join_nl]. destruct zs; [reflexivity|]. now rewrite <- app_assoc. }
  rewrite !J in E. destruct (cmd_inj d e x y _ _ Fd Fe Ex Ey E) as (H & R). constructor; [assumption|].
  assert (St : forall c l ls, res_map cmd_xml (c :: l) = Ok ls -> exists z zs w, ls = z :: zs /\ z = 32 :: 32 :: 32 :: w).
  { clear. intros c l ls H. cbn [res_map] in H. destruct (cmd_xml c) as [z|] eqn:Ez; [|discriminate]. cbn [rthen] in H.
    destruct (res_map cmd_xml l) as [zs|]; [|discriminate]. cbn [rmap] in H. apply Ok_inj in H. subst ls.
    destruct (xml_start _ _ Ez) as (w & ->). exists (32 :: 32 :: 32 :: w), zs, w. auto. }
  destruct a as [|d2 a]; destruct b as [|e2 b].
  - constructor.
  - exfalso. apply Ok_inj in Exs. subst xs. destruct (St _ _ _ Eys) as (z & zs & w & -> & ->). cbn in R. destruct zs; discriminate R.
  - exfalso. apply Ok_inj in Eys. subst ys. destruct (St _ _ _ Exs) as (z & zs & w & -> & ->). cbn in R. destruct zs; discriminate R.
  - destruct (St _ _ _ Exs) as (z & zs & w & -> & _). destruct (St _ _ _ Eys) as (z' & zs' & w' & -> & _).
    injection R as R. apply (IH _ _ _ r q Fa' Fb' eq_refl Eys); [discriminate|discriminate|]. exact R.
Qed.
