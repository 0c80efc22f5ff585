(** The names of the points of an outline are those of different nodes. *)
From Coq Require Import String Lia ZifyBool ZifyNat.
From Verif Require Import Base Lib M_Py M_Glyph M_Paths S_Paths P_Paths.
Local Open Scope list_scope.
Local Open Scope Z_scope.

Definition names (ps : list upoint) : list pystr := flat_map (fun p => match up_name p with Some n => [n] | None => [] end) ps.
Section Names.
  Variables (m : nat) (labels : Z -> option pystr).
  Definition called (is : list Z) : list pystr := flat_map (fun i => match labels i with Some n => [n] | None => [] end) is.
  Fixpoint from (i : Z) (n : nat) : list Z := match n with O => [] | S n => i :: from (i + 1) n end.
  Lemma from_in : forall n i j, In j (from i n) <-> i <= j < i + Z.of_nat n.
  Proof. induction n as [|n IH]; intros i j; cbn [from In]; [lia|]. rewrite IH. lia. Qed.
  Lemma from_nodup : forall n i, NoDup (from i n).
  Proof. induction n as [|n IH]; intros i; cbn [from]; constructor; [rewrite from_in; lia|apply IH]. Qed.
  Lemma names_app : forall a b, names (a ++ b) = names a ++ names b. Proof. intros. apply flat_map_app. Qed.
  Lemma names_cons : forall p l, names (p :: l) = match up_name p with Some n => [n] | None => [] end ++ names l. Proof. reflexivity. Qed.
  Lemma called_cons : forall i l, called (i :: l) = match labels i with Some n => [n] | None => [] end ++ called l. Proof. reflexivity. Qed.
  Lemma names_none : forall l, names (map (UPoint None false None) l) = [].
  Proof. induction l as [|x l IH]; [reflexivity|exact IH]. Qed.
  Lemma raw1_names : forall i q n, nd_type n <> Move -> names (raw1 m labels i q n) = called [i].
  Proof.
    intros i q n T. unfold raw1, called. destruct (nd_type n); [congruence|..].
    - cbn [names flat_map own up_name]. reflexivity.
    - rewrite names_app, names_none. reflexivity.
    - reflexivity.
  Qed.
  Lemma raw_names : forall nodes i q, Forall (fun n => nd_type n <> Move) nodes ->
    names (raw m labels i q nodes) = called (from i (List.length nodes)).
  Proof.
    induction nodes as [|n nodes IH]; intros i q F; [reflexivity|]. cbn [raw List.length from]. rewrite names_app, raw1_names by (now apply Forall_inv in F).
    rewrite IH by (now apply Forall_inv_tail in F). unfold called. cbn [flat_map]. rewrite app_nil_r. reflexivity.
  Qed.
  Lemma group_names : forall i g ren, contour g -> exists is, names (fst (flush_group m labels i g ren)) = called is /\ NoDup is /\
    forall j, In j is -> i <= j < i + Z.of_nat (List.length g).
  Proof.
    intros i g ren (n & rest & -> & _ & Tr).
    assert (Full : forall p ps, up_name p = labels i -> ps = raw m labels (i + 1) false rest -> names (p :: ps) = called (from i (S (List.length rest)))).
    { intros p ps Hp ->. cbn [from]. rewrite names_cons, called_cons, raw_names, Hp by exact Tr. reflexivity. }
    destruct (flush_shape m labels i n rest ren Tr) as [[O E]|[(O & Er & E)|(O & mid & l & Er & [[Tl E]|[(Tl & P & E)|(Tl & P & E)]])]]; rewrite E; cbn [fst].
    1,3,5: exists (from i (S (List.length rest))); split; [now apply Full|]; split; [apply from_nodup|]; intros j; rewrite from_in; cbn [List.length]; lia.
    - exists [i]. split; [|split; [repeat constructor; intros []|intros j [<-|[]]; cbn [List.length]; lia]].
      unfold names, called. cbn [flat_map own up_name]. reflexivity.
    - set (last := i + Z.of_nat (List.length rest)).
      assert (Lr : List.length rest = S (List.length mid)) by (rewrite Er, app_length; cbn; lia).
      set (k := match labels last with Some _ => last | None => i end).
      exists (k :: from (i + 1) (List.length mid)). split; [|split].
      + rewrite names_cons, called_cons, names_app, names_none, app_nil_r, raw_names by (rewrite Er in Tr; apply Forall_app in Tr; tauto).
        f_equal. unfold joined_name. fold last. unfold k. destruct (labels last) as [b|] eqn:Eb.
        * destruct (labels i); cbn [own up_name]; fold last; rewrite Eb; reflexivity.
        * destruct (labels i) as [a|] eqn:Ea; cbn [set_name own up_name]; [reflexivity|]. fold last. rewrite Eb. reflexivity.
      + constructor; [|apply from_nodup]. rewrite from_in. unfold k. destruct (labels last); unfold last; lia.
      + intros j [<-|J]; [unfold k; destruct (labels last); unfold last; cbn [List.length]; lia|]. rewrite from_in in J. cbn [List.length]. lia.
  Qed.
  Lemma nodup_app : forall (a b : list Z), NoDup a -> NoDup b -> (forall x, In x a -> In x b -> False) -> NoDup (a ++ b).
  Proof.
    induction a as [|x a IH]; intros b A B D; [exact B|]. inversion_clear A as [|? ? A1 A2]. cbn [app]. constructor.
    - rewrite in_app_iff. intros [H|H]; [contradiction|]. apply (D x); [now left|exact H].
    - apply IH; auto. intros y H K. apply (D y); [now right|exact K].
  Qed.
  Lemma all_names : forall gs i ren, Forall contour gs -> exists is, names (concat (fst (flush_all m labels i gs ren))) = called is /\ NoDup is /\
    forall j, In j is -> i <= j < i + Z.of_nat (List.length (concat gs)).
  Proof.
    induction gs as [|g gs IH]; intros i ren F.
    - exists []. split; [reflexivity|]. split; [constructor|intros j []].
    - cbn [flush_all]. destruct (group_names i g ren) as (is & E & N & R); [now apply Forall_inv in F|].
      destruct (flush_group m labels i g ren) as [c ren1] eqn:G. cbn [fst] in E.
      destruct (IH (i + Z.of_nat (List.length g)) ren1) as (js & E2 & N2 & R2); [now apply Forall_inv_tail in F|].
      destruct (flush_all _ _ _ gs ren1) as [cs ren2]. cbn [fst concat] in *. exists (is ++ js). split; [|split].
      + rewrite names_app, E, E2. unfold called. now rewrite flat_map_app.
      + apply nodup_app; auto. intros x A B. apply R in A. apply R2 in B. lia.
      + intros j J. rewrite app_length. apply in_app_or in J. destruct J as [J|J]; [apply R in J|apply R2 in J]; lia.
  Qed.
  Lemma called_nodup : forall is, NoDup is -> (forall i j n, labels i = Some n -> labels j = Some n -> i = j) -> NoDup (called is).
  Proof.
    intros is N Inj. induction N as [|i is H N IH]; [constructor|]. unfold called. cbn [flat_map]. fold (called is). destruct (labels i) as [n|] eqn:E; [|exact IH].
    cbn [app]. constructor; [|exact IH]. intros K. unfold called in K. apply in_flat_map in K. destruct K as (j & J & K).
    destruct (labels j) as [n'|] eqn:E'; [|destruct K]. destruct K as [->|[]]. apply H. now rewrite (Inj i j n E E').
  Qed.
  Theorem names_distinct : forall gs i ren, Forall contour gs -> (forall i j n, labels i = Some n -> labels j = Some n -> i = j) ->
    NoDup (names (concat (fst (flush_all m labels i gs ren)))).
  Proof. intros gs i ren F Inj. destruct (all_names gs i ren F) as (is & -> & N & _). now apply called_nodup. Qed.
End Names.
