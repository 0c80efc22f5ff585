(** C84: glyph classes. *)
From Coq Require Import String.
From Verif Require Import Base Lib M_Py M_Text M_Groups M_Tth M_Classes S_Classes P_Groups2.
Local Open Scope list_scope.

Lemma split_from_app : forall sep a cur s, ~ In sep a -> split_from sep cur (a ++ sep :: s) = (cur ++ a) :: split_from sep [] s.
Proof.
  intros sep a. induction a as [|c a IH]; intros cur s N; cbn [app split_from].
  - rewrite Z.eqb_refl, app_nil_r. reflexivity.
  - replace (c =? sep) with false; [|symmetry; apply Z.eqb_neq; intros ->; apply N; now left].
    rewrite IH; [rewrite <- app_assoc; reflexivity|]. intros I. apply N. now right.
Qed.
Lemma split_from_none : forall sep a cur, ~ In sep a -> split_from sep cur a = [cur ++ a].
Proof.
  intros sep a. induction a as [|c a IH]; intros cur N; cbn [split_from]; [now rewrite app_nil_r|].
  replace (c =? sep) with false; [|symmetry; apply Z.eqb_neq; intros ->; apply N; now left].
  rewrite IH; [rewrite <- app_assoc; reflexivity|]. intros I. apply N. now right.
Qed.
Lemma split_two : forall sep a b c, exists x y z l, split_on sep (a ++ sep :: b ++ sep :: c) = x :: y :: z :: l.
Proof.
  assert (G : forall sep s cur, exists x l, split_from sep cur s = x :: l).
  { intros sep s. induction s as [|c s IH]; intros cur; cbn [split_from]; [eauto|]. destruct (c =? sep); eauto. }
  assert (G2 : forall sep c b cur, exists x y l, split_from sep cur (b ++ sep :: c) = x :: y :: l).
  { intros sep c b. induction b as [|h b IH]; intros cur; cbn [app split_from].
    - rewrite Z.eqb_refl. destruct (G sep c []) as (x & l & ->). eauto.
    - destruct (h =? sep); [|apply IH]. destruct (IH []) as (x & y & l & ->). eauto. }
  intros sep a b c. unfold split_on. generalize (@nil Z) as cur. induction a as [|h a IH]; intros cur; cbn [app split_from].
  - rewrite Z.eqb_refl. destruct (G2 sep c b []) as (x & y & l & ->). eauto.
  - destruct (h =? sep); [|apply IH]. destruct (IH []) as (x & y & z & l & ->). eauto 6.
Qed.
Definition names_in (t : pystr) : list pystr :=
  filter (fun g => negb (str_eqb g [])) (map (strip is_space) (split_on 32 t)).
Lemma plain_strip : forall g, plain_name g -> strip is_space g = g.
Proof.
  intros g [_ F]. unfold strip. rewrite Forall_forall in F.
  assert (L : lstrip is_space g = g) by (apply lstrip_id; intros c t ->; apply F; now left).
  rewrite L, lstrip_id; [apply rev_involutive|]. intros c t E. apply F. apply in_rev. rewrite E. now left.
Qed.
Lemma plain_nospace : forall g, plain_name g -> ~ In 32 g.
Proof. intros g [_ F] I. rewrite Forall_forall in F. destruct (F _ I) as [H _]. discriminate H. Qed.
Lemma plain_kept : forall g, plain_name g -> negb (str_eqb g []) = true.
Proof. intros [|c g] [N _]; [contradiction|reflexivity]. Qed.
Lemma names_space : forall n t, names_in (repeat 32 n ++ t) = names_in t.
Proof.
  induction n as [|n IH]; intros t; [reflexivity|]. rewrite <- (IH t). reflexivity.
Qed.
Lemma spaced_names : forall gs t, spaced gs t -> names_in t = gs.
Proof.
  induction 1 as [n|n g P|n g gs t P S IH].
  - rewrite <- (app_nil_r (repeat 32 n)), names_space. reflexivity.
  - rewrite names_space. unfold names_in, split_on. rewrite split_from_none by now apply plain_nospace.
    cbn [app map]. rewrite plain_strip by assumption. cbn [filter]. now rewrite plain_kept.
  - rewrite names_space. unfold names_in, split_on. rewrite split_from_app by now apply plain_nospace.
    cbn [app map]. rewrite plain_strip by assumption. cbn [filter]. rewrite plain_kept by assumption.
    f_equal. exact IH.
Qed.
Lemma spaced_colon : forall gs t, spaced gs t -> ~ In 58 t.
Proof.
  assert (R : forall n, ~ In 58 (repeat 32 n)) by (intros n I; apply repeat_spec in I; discriminate).
  assert (P : forall g, plain_name g -> ~ In 58 g).
  { intros g [_ F] I. rewrite Forall_forall in F. destruct (F _ I) as [_ H]. now apply H. }
  induction 1 as [n|n g Pg|n g gs t Pg S IH]; intros I; rewrite ?in_app_iff in I; cbn [In] in I.
  - exact (R _ I).
  - destruct I as [I|I]; [exact (R _ I)|exact (P _ Pg I)].
  - destruct I as [I|[I|[I|I]]]; [exact (R _ I)|exact (P _ Pg I)|discriminate|exact (IH I)].
Qed.
Lemma has_colon : forall t, existsb (Z.eqb 58) t = true <-> In 58 t.
Proof.
  intros t. rewrite existsb_exists. split; [intros (x & I & E); apply Z.eqb_eq in E; now subst x|].
  intros I. exists 58. split; [exact I|reflexivity].
Qed.
Lemma add_class : forall t d gs, class_text t d -> add_ot_class t gs =
  Ok (match d with
      | Some (name, l) => match aget str_eqb name gs with Some _ => gs | None => aset str_eqb name l gs end
      | None => gs
      end).
Proof.
  intros t d gs H. destruct H as [t N|name l t N S]; unfold add_ot_class.
  - destruct (existsb (Z.eqb 58) t) eqn:E; [|reflexivity]. apply has_colon in E. contradiction.
  - replace (existsb (Z.eqb 58) (name ++ 58 :: t)) with true;
      [|symmetry; apply has_colon; apply in_or_app; right; now left].
    unfold split_on at 1. rewrite split_from_app by assumption.
    rewrite split_from_none by (eapply spaced_colon; eassumption). cbn [app].
    pose proof (spaced_names l t S) as E. unfold names_in in E. rewrite E. destruct (aget str_eqb name gs); reflexivity.
Qed.

(** The classes of the UFO are the ones of the VFB, each with its first definition. *)
Theorem C84_classes : forall texts ds, Forall2 class_text texts ds ->
  exists gs, class_entries texts = Ok gs /\ NoDup (map fst gs) /\
    forall name, aget str_eqb name gs = first_def name ds.
Proof.
  intros texts ds H. unfold class_entries.
  assert (G : forall g0, NoDup (map fst g0) -> exists gs, res_fold (fun gs data => add_ot_class data gs) g0 texts = Ok gs /\
    NoDup (map fst gs) /\ forall name, aget str_eqb name gs =
      match aget str_eqb name g0 with Some l => Some l | None => first_def name ds end).
  { induction H as [|t d texts ds H HS IH]; intros g0 N.
    - exists g0. split; [reflexivity|]. split; [exact N|]. intros name. cbn [first_def].
      destruct (aget str_eqb name g0); reflexivity.
    - cbn [res_fold]. rewrite (add_class t d g0 H). cbn [rthen]. destruct d as [[n l]|]; [|exact (IH g0 N)].
      destruct (aget str_eqb n g0) as [l0|] eqn:A.
      + destruct (IH g0 N) as (gs & E & NG & K). exists gs. split; [exact E|]. split; [exact NG|]. intros name. rewrite K.
        destruct (aget str_eqb name g0) eqn:B; [reflexivity|]. cbn [first_def].
        destruct (str_eqb name n) eqn:Q; [|reflexivity]. apply str_eqb_eq in Q. subst n. congruence.
      + destruct (IH (aset str_eqb n l g0) (aset_nodup str_eqb str_eqb_eq _ _ _ N)) as (gs & E & NG & K).
        exists gs. split; [exact E|]. split; [exact NG|]. intros name. rewrite K.
        rewrite (aget_aset str_eqb str_eqb_eq). cbn [first_def]. destruct (str_eqb name n) eqn:Q; [|reflexivity].
        apply str_eqb_eq in Q. subst n. now rewrite A. }
  destruct (G [] (NoDup_nil _)) as (gs & E & N & K). exists gs. auto.
Qed.
(** Refuted: that a malformed class is skipped. A class with two colons stops the export of the font. *)
Theorem C84_refuted : forall texts a b c, In (a ++ 58 :: b ++ 58 :: c) texts -> class_entries texts = Err ValueError.
Proof.
  intros texts a b c I. unfold class_entries. generalize (@nil (pystr * list pystr)) as g0.
  assert (E1 : forall t gs, (exists gs', add_ot_class t gs = Ok gs') \/ add_ot_class t gs = Err ValueError).
  { intros t gs. unfold add_ot_class. destruct (existsb (Z.eqb 58) t); [|eauto].
    destruct (split_on 58 t) as [|x [|y [|z l]]]; eauto. destruct (aget str_eqb x gs); eauto. }
  induction texts as [|t texts IH]; intros g0; [contradiction|]. cbn [res_fold].
  destruct I as [->|I].
  - replace (add_ot_class (a ++ 58 :: b ++ 58 :: c) g0) with (@Err groups ValueError); [reflexivity|].
    unfold add_ot_class. replace (existsb (Z.eqb 58) _) with true;
      [|symmetry; apply has_colon; apply in_or_app; right; now left].
    destruct (split_two 58 a b c) as (x & y & z & l & ->). reflexivity.
  - destruct (E1 t g0) as [(g1 & ->)| ->]; [exact (IH I g1)|reflexivity].
Qed.
(** Members that are separated by a tab are taken for one glyph. *)
Theorem C84_tab_refuted : exists a b, plain_name a /\ plain_name b /\
  class_entries [py "kern:" ++ a ++ [9] ++ b] = Ok [(py "kern", [a ++ [9] ++ b])].
Proof.
  exists (py "A"), (py "B"). split; [|split]; [| |reflexivity].
  - split; [discriminate|]. repeat constructor; discriminate.
  - split; [discriminate|]. repeat constructor; discriminate.
Qed.

Example C84_example : exists texts ds, Forall2 class_text texts ds /\
  texts = [py "_kern1: A  Aacute "; py "nothing"; py "x:n"; py "_kern1:B"] /\
  class_entries texts = Ok [(py "_kern1", [py "A"; py "Aacute"]); (py "x", [py "n"])].
Proof.
  exists [py "_kern1: A  Aacute "; py "nothing"; py "x:n"; py "_kern1:B"],
    [Some (py "_kern1", [py "A"; py "Aacute"]); None; Some (py "x", [py "n"]); Some (py "_kern1", [py "B"])].
  assert (P : forall g, g <> [] -> forallb (fun c => negb (is_space c) && negb (c =? 58)) g = true -> plain_name g).
  { intros g N F. split; [exact N|]. rewrite forallb_forall in F. apply Forall_forall. intros c I. specialize (F c I).
    apply andb_true_iff in F. rewrite !negb_true_iff, Z.eqb_neq in F. exact F. }
  split; [|split; reflexivity]. repeat (apply Forall2_cons); [..|apply Forall2_nil].
  - apply (class_some (py "_kern1") _ (py " A  Aacute ")); [cbn; lia|].
    apply (spaced_cons 1 (py "A") [py "Aacute"] (py " Aacute ")); [apply P; [discriminate|reflexivity]|].
    apply (spaced_cons 1 (py "Aacute") [] []); [apply P; [discriminate|reflexivity]|]. apply (spaced_nil 0).
  - constructor. cbn. lia.
  - apply (class_some (py "x") _ (py "n")); [cbn; lia|]. apply (spaced_last 0). apply P; [discriminate|reflexivity].
  - apply (class_some (py "_kern1") _ (py "B")); [cbn; lia|]. apply (spaced_last 0). apply P; [discriminate|reflexivity].
Qed.
Print Assumptions C84_classes.
Print Assumptions C84_refuted.
Print Assumptions C84_tab_refuted.
