(** C113: decompiling and compiling entries in any order. *)
From Coq Require Import ZifyBool ZifyNat String.
From Verif Require Import Base M_Stream M_Py M_Text M_Simple M_Bitmap M_TrueType M_Glyph M_Float M_Options
  M_Container M_Table S_Text S_Entry S_TrueType S_Glyph S_Options S_File S_Table Lib P_Container
  Prop_Container P_Loop P_Simple P_TrueType P_Table P_File P_Resave Prop_Edit Prop_Twice.
Local Open Scope list_scope.
Local Open Scope Z_scope.

(** ** Programs *)
(** [vfb.entries[k].decompile()], [vfb.entries[k].compile()], [vfb.decompile()] and [vfb.compile()]; an exception is
    caught by the program, which goes on. *)
Inductive action := ADecompile (k : nat) | ACompile (k : nat) | ADecompileAll | ACompileAll.
Fixpoint at_index {A} (k : nat) (f : A -> A) (l : list A) : list A :=
  match l, k with
  | [], _ => []
  | x :: l, O => f x :: l
  | x :: l, S k => x :: at_index k f l
  end.
Definition act (o : oracles) (v : vfb value) (a : action) : vfb value :=
  match a with
  | ADecompile k => with_entries (at_index k (fun e => fst (fst (entry_decompile (table o) (v_ctx v) e))) (v_entries v)) v
  | ACompile k => with_entries (at_index k (fun e => fst (entry_compile (table o) (v_ctx v) e)) (v_entries v)) v
  | ADecompileAll => fst (vfb_decompile (table o) v)
  | ACompileAll => fst (vfb_compile (table o) v)
  end.
(** the program decompiles the entry at [k] *)
Definition touches (acts : list action) (k : nat) : Prop := In (ADecompile k) acts \/ In ADecompileAll acts.

(** the decompiled data of an entry *)
Definition value_of (o : oracles) (c : ctx) (e : entry value) (x : value) : Prop :=
  exists i, e_id e = Some i /\
    match e_data e with Raw b => cd_parse (table o) i c b = Ok x | Dec y => y = x | NoData => False end.
(** the bytes of an entry that was read: those of the file, or what is compiled from its decompiled data *)
Definition bytes_or_compiled (o : oracles) (c : ctx) (e : entry value) (d : bytes) : Prop :=
  e_data e = Raw d \/
  exists i x comp, e_id e = Some i /\ value_of o c e x /\ cd_compile (table o) i = Some comp /\ comp c x = Ok d.

Section History.
  Variable o : oracles.
  Notation T := (table o).

  (** ** One entry *)
  Definition one (c : ctx) (t : Prop) (e e' : entry value) : Prop :=
    e' = e \/ (t /\ e' = fst (fst (entry_decompile T c e))) \/ e' = fst (entry_compile T c e).
  Definition phase (c : ctx) (i : Z) (x : value) (d : edata value) : Prop :=
    d = Dec x \/
    exists comp bs x', cd_compile T i = Some comp /\ comp c x = Ok bs /\ cd_parse T i c bs = Ok x' /\ same_value x x' /\
      comp c x' = Ok bs /\ (d = Raw bs \/ d = Dec x').
  Definition state (c : ctx) (t : Prop) (e e' : entry value) : Prop :=
    exists i, e_id e = Some i /\ e_id e' = Some i /\ e_cache e' = None /\
      match e_data e with
      | Raw b => e_data e' = Raw b \/ (t /\ exists x, cd_parse T i c b = Ok x /\ phase c i x (e_data e'))
      | Dec x => phase c i x (e_data e')
      | NoData => False
      end.
  (** the value can be written *)
  Definition writable (c : ctx) (i : Z) (x : value) : Prop :=
    (exists b, entry_data b /\ cd_parse T i c b = Ok x) /\ can_be_written o c i x.
  Lemma writable_cycle : forall c i x, wf_ctx c -> writable c i x ->
    exists comp bs x', cd_compile T i = Some comp /\ comp c x = Ok bs /\ cd_parse T i c bs = Ok x' /\ same_value x x' /\ comp c x' = Ok bs.
  Proof.
    intros c i x Hw [(b & Hb & Ep) W].
    destruct (table_written o c i b x Hw Hb Ep W) as (comp & bs & x' & C1 & C2 & C3 & C4 & C5).
    exists comp, bs, x'. repeat (split; [assumption|]).
    rewrite <- (compiled_alike o i c b bs x x' comp Ep C4 W C5 C1). exact C2.
  Qed.
  Lemma phase_decompile : forall c i x e, e_id e = Some i -> phase c i x (e_data e) ->
    phase c i x (e_data (fst (fst (entry_decompile T c e)))).
  Proof.
    intros c i x [ei ed ec] E P. cbn in E. subst ei. unfold entry_decompile. cbn [e_id e_data] in *.
    destruct P as [-> | (comp & bs & x' & C1 & C2 & C3 & C4 & C5 & [-> | ->])].
    - left. reflexivity.
    - rewrite C3. right. exists comp, bs, x'. cbn. auto 10.
    - right. exists comp, bs, x'. cbn. auto 10.
  Qed.
  Lemma phase_compile : forall c i x e, wf_ctx c -> writable c i x -> e_id e = Some i -> phase c i x (e_data e) ->
    phase c i x (e_data (fst (entry_compile T c e))).
  Proof.
    intros c i x [ei ed ec] Hw Wr E P. cbn in E. subst ei. unfold entry_compile. cbn [e_id e_data] in *.
    destruct P as [-> | (comp & bs & x' & C1 & C2 & C3 & C4 & C5 & [-> | ->])].
    - destruct (writable_cycle c i x Hw Wr) as (comp & bs & x' & C1 & C2 & C3 & C4 & C5). rewrite C1, C2.
      right. exists comp, bs, x'. cbn. auto 10.
    - right. exists comp, bs, x'. cbn. auto 10.
    - rewrite C1, C5. right. exists comp, bs, x'. cbn. auto 10.
  Qed.
  Lemma decompile_shape : forall c (e : entry value), e_id (fst (fst (entry_decompile T c e))) = e_id e /\
    e_cache (fst (fst (entry_decompile T c e))) = e_cache e.
  Proof.
    intros c e. unfold entry_decompile. destruct (e_id e) eqn:E; [|auto]. destruct (e_data e) as [b|x|] eqn:Ed; auto.
    destruct (cd_parse T z c b); auto.
  Qed.
  Lemma compile_shape : forall c (e : entry value), e_id (fst (entry_compile T c e)) = e_id e /\ e_cache (fst (entry_compile T c e)) = e_cache e.
  Proof.
    intros c e. unfold entry_compile. destruct (e_data e) as [b|x|] eqn:Ed; auto; destruct (e_id e) eqn:E; auto;
      destruct (cd_compile T z) as [k|]; auto; [destruct (k c x)|destruct (cd_compile_none T z)]; auto.
  Qed.
  Definition allowed (c : ctx) (t : Prop) (e : entry value) : Prop :=
    forall i x, e_id e = Some i -> value_of o c e x -> (e_data e <> Dec x -> t) -> writable c i x.
  Lemma state_one : forall c t e e1 e2, wf_ctx c -> allowed c t e -> state c t e e1 -> one c t e1 e2 -> state c t e e2.
  Proof.
    intros c t e e1 e2 Hw A (i & E0 & E1 & E2 & S) [->|[[Ht ->] | ->]].
    - exists i. auto.
    - destruct (decompile_shape c e1) as [D1 D2]. exists i. rewrite D1, D2. repeat (split; [assumption|]).
      destruct (e_data e) as [b|x|] eqn:Ed; [| |exact S].
      + destruct S as [S|(_ & x & Px & S)].
        * unfold entry_decompile. rewrite E1, S. destruct (cd_parse T i c b) as [x|] eqn:P.
          -- right. split; [exact Ht|]. exists x. split; [reflexivity|]. left. reflexivity.
          -- left. exact S.
        * right. split; [exact Ht|]. exists x. split; [exact Px|]. apply phase_decompile; assumption.
      + apply phase_decompile; assumption.
    - destruct (compile_shape c e1) as [D1 D2]. exists i. rewrite D1, D2. repeat (split; [assumption|]).
      destruct (e_data e) as [b|x|] eqn:Ed; [| |exact S].
      + destruct S as [S|(Ht & x & Px & S)].
        * left. unfold entry_compile. rewrite S. exact S.
        * right. split; [exact Ht|]. exists x. split; [exact Px|]. apply phase_compile; auto.
          apply A; [exact E0|exists i; rewrite Ed; auto|intros _; exact Ht].
      + apply phase_compile; auto. apply A; [exact E0|exists i; rewrite Ed; auto|congruence].
  Qed.

  (** ** All entries *)
  Definition each {A B} (R : nat -> A -> B -> Prop) (l : list A) (m : list B) : Prop :=
    List.length l = List.length m /\ forall k a b, nth_error l k = Some a -> nth_error m k = Some b -> R k a b.
  Lemma each_cons : forall A B (R : nat -> A -> B -> Prop) a l b m, R O a b -> each (fun k => R (S k)) l m -> each R (a :: l) (b :: m).
  Proof. intros A B R a l b m H [L N]. split; [cbn; congruence|]. intros [|k] x y X Y; cbn in X, Y; [congruence|eauto]. Qed.
  Lemma each_refl : forall A (R : nat -> A -> A -> Prop) l, (forall k a, R k a a) -> each R l l.
  Proof. intros A R l H. split; [reflexivity|]. intros k a b X Y. assert (a = b) by congruence. subst. apply H. Qed.
  Lemma each_two : forall A B (R : nat -> A -> B -> Prop) l m, each R l m -> (forall k k' a b, R k a b -> R k' a b) -> Forall2 (R O) l m.
  Proof.
    intros A B R l. revert R. induction l as [|a l IH]; intros R [|b m] [L N] H; try discriminate; constructor.
    - apply (N O); reflexivity.
    - apply IH; [|exact H]. split; [cbn in L; congruence|]. intros k x y X Y. eapply H. apply (N (S k)); assumption.
  Qed.
  Lemma two_each : forall A B (R : A -> B -> Prop) l m, Forall2 R l m -> each (fun _ => R) l m.
  Proof. intros A B R l m F. induction F; [split; [reflexivity|intros [|] ? ? K; discriminate K]|apply each_cons; assumption]. Qed.

  Lemma index_ones : forall c (P : nat -> Prop) (f : entry value -> entry value) k es,
    (forall e, one c (P k) e (f e)) -> each (fun k => one c (P k)) es (at_index k f es).
  Proof.
    intros c P f k es. revert P k. induction es as [|e es IH]; intros P k H; [destruct k; apply each_refl; left; reflexivity|].
    destruct k as [|k]; cbn [at_index]; apply each_cons.
    - apply H.
    - apply each_refl. left. reflexivity.
    - left. reflexivity.
    - apply (IH (fun k => P (S k)) k). exact H.
  Qed.
  Lemma decompile_ones : forall c (P : nat -> Prop) es, (forall k, P k) -> each (fun k => one c (P k)) es (fst (fst (decompile_entries T c [] es))).
  Proof.
    intros c P es. revert P. induction es as [|e es IH]; intros P H; [apply each_refl; left; reflexivity|]. cbn [decompile_entries].
    replace (match e_id e with Some i => M_Container.zmem i [] | None => false end) with false by (destruct (e_id e); reflexivity).
    specialize (IH (fun k => P (S k)) (fun k => H (S k))).
    destruct (entry_decompile T c e) as [[e' err] r] eqn:E. destruct r as [u|x].
    - destruct (decompile_entries T c [] es) as [[es' err'] r']. cbn [fst] in *. apply each_cons; [|exact IH].
      right. left. rewrite E. auto.
    - cbn [fst]. apply each_cons; [right; left; rewrite E; auto|]. apply each_refl. left. reflexivity.
  Qed.
  Lemma compile_ones : forall c (P : nat -> Prop) es, each (fun k => one c (P k)) es (fst (compile_entries T c es)).
  Proof.
    intros c P es. revert P. induction es as [|e es IH]; intros P; [apply each_refl; left; reflexivity|]. cbn [compile_entries].
    specialize (IH (fun k => P (S k))). destruct (entry_compile T c e) as [e' r] eqn:E. destruct r as [u|x].
    - destruct (compile_entries T c es) as [es' r']. cbn [fst] in *. apply each_cons; [|exact IH]. right. right. rewrite E. reflexivity.
    - cbn [fst]. apply each_cons; [right; right; rewrite E; reflexivity|]. apply each_refl. left. reflexivity.
  Qed.
  Definition inv (minor : Z) (c : ctx) (P : nat -> Prop) (es0 : list (entry value)) (v : vfb value) : Prop :=
    v_ctx v = c /\ v_drop v = [] /\ (v_header v = HDec (fl_header minor) \/ v_header v = HRaw (header44 minor)) /\
    each (fun k => state c (P k)) es0 (v_entries v).
  Lemma each_one : forall c (P : nat -> Prop) es0 es es', wf_ctx c -> each (fun k e (_ : entry value) => allowed c (P k) e) es0 es0 ->
    each (fun k => state c (P k)) es0 es -> each (fun k => one c (P k)) es es' -> each (fun k => state c (P k)) es0 es'.
  Proof.
    intros c P es0 es es' Hw [_ A] [L1 N1] [L2 N2]. split; [congruence|]. intros k e e' X Y.
    destruct (nth_error es k) as [e1|] eqn:Z1.
    - eapply state_one; eauto.
    - exfalso. apply nth_error_None in Z1. assert (nth_error es' k <> None) by congruence. apply nth_error_Some in H. lia.
  Qed.
  Lemma inv_act : forall minor c (P : nat -> Prop) es0 v a, 0 <= minor < 256 -> wf_ctx c ->
    each (fun k e (_ : entry value) => allowed c (P k) e) es0 es0 -> (forall k, touches [a] k -> P k) ->
    inv minor c P es0 v -> inv minor c P es0 (act o v a).
  Proof.
    intros minor c P es0 v a Hm Hw A HT (I1 & I2 & I3 & I4). destruct a as [k|k| |]; cbn [act].
    - split; [exact I1|]. split; [exact I2|]. split; [exact I3|]. cbn [v_entries with_entries]. eapply each_one; eauto.
      apply index_ones. intros e. right. left. split; [apply HT; left; left; reflexivity|rewrite I1; reflexivity].
    - split; [exact I1|]. split; [exact I2|]. split; [exact I3|]. cbn [v_entries with_entries]. eapply each_one; eauto.
      apply index_ones. intros e. right. right. rewrite I1. reflexivity.
    - unfold vfb_decompile. cbn [v_header with_errors].
      assert (HD : header_decompile (v_header v) = Ok (HDec (fl_header minor))).
      { destruct I3 as [-> | ->]; [reflexivity|]. cbn [header_decompile]. rewrite <- (app_nil_r (header44 minor)), parse_header44 by exact Hm. reflexivity. }
      rewrite HD. cbn [v_ctx v_drop v_entries with_header with_errors]. rewrite I1, I2.
      destruct (decompile_entries T c [] (v_entries v)) as [[es' err] r] eqn:E. cbn [fst].
      split; [exact I1|]. split; [exact I2|]. split; [left; reflexivity|]. cbn [v_entries with_entries with_errors]. eapply each_one; eauto.
      replace es' with (fst (fst (decompile_entries T c [] (v_entries v)))) by (rewrite E; reflexivity).
      apply decompile_ones. intros k. apply HT. right. left. reflexivity.
    - unfold vfb_compile.
      assert (HC : header_compile (v_header v) = Ok (HRaw (header44 minor))).
      { destruct I3 as [-> | ->]; cbn [header_compile]; [rewrite compile_header_fl by auto|]; reflexivity. }
      rewrite HC. cbn [v_ctx v_drop v_entries with_header]. rewrite I1.
      destruct (compile_entries T c (v_entries v)) as [es' r] eqn:E. cbn [fst].
      split; [exact I1|]. split; [exact I2|]. split; [right; reflexivity|]. cbn [v_entries with_entries]. eapply each_one; eauto.
      replace es' with (fst (compile_entries T c (v_entries v))) by (rewrite E; reflexivity). apply compile_ones.
  Qed.
  Lemma inv_acts : forall minor c (P : nat -> Prop) es0 acts v, 0 <= minor < 256 -> wf_ctx c ->
    each (fun k e (_ : entry value) => allowed c (P k) e) es0 es0 -> (forall k, touches acts k -> P k) ->
    inv minor c P es0 v -> inv minor c P es0 (fold_left (act o) acts v).
  Proof.
    intros minor c P es0 acts. induction acts as [|a acts IH]; intros v Hm Hw A HT I; [exact I|]. cbn [fold_left]. apply IH; auto.
    - intros k [H|H]; apply HT; [left|right]; right; exact H.
    - apply inv_act; auto. intros k [[H|[]]|[H|[]]]; apply HT; [left|right]; left; exact H.
  Qed.
End History.

Lemma nth_combine : forall A B k (l : list A) (m : list B) a a' b, nth_error (combine l m) k = Some (a, b) -> nth_error l k = Some a' ->
  a' = a /\ nth_error m k = Some b.
Proof.
  intros A B k. induction k as [|k IH]; intros [|x l] [|y m] a a' b H H'; cbn in *; try discriminate.
  - split; congruence.
  - eapply IH; eassumption.
Qed.

(** ** C113 *)
(** A program reads a file, decompiles and compiles entries in any order, as often as it likes, and saves the file. The
    entries that the program decompiled can be written (C16). Then saving succeeds. The saved file has the same entries
    in the same order: each with the bytes it had in the file, or with the bytes that its decompiled data is compiled to;
    an entry that was not decompiled has the bytes it had. Whoever reads the saved file finds the same header, the same
    context and in each entry the same data. *)
Theorem C113_any_order : forall o file fuel uni v0 rest acts,
  bytes_ok file -> Z.of_nat (List.length file) < 2 ^ 31 ->
  vfb_read_bytes (table o) fuel (new_vfb [] false uni) file = (v0, ROk tt rest) ->
  (forall k e i x, nth_error (v_entries v0) k = Some e -> e_id e = Some i -> value_of o (v_ctx v0) e x ->
     touches acts k \/ e_data e = Dec x -> can_be_written o (v_ctx v0) i x /\ fits o (v_ctx v0) i x) ->
  exists minor l v', v_header v0 = HDec (fl_header minor) /\
    vfb_write_bytes (table o) (fold_left (act o) acts v0) = (v', file_of minor l, Ok tt) /\
    List.length l = List.length (v_entries v0) /\
    (forall k e p, nth_error (v_entries v0) k = Some e -> nth_error l k = Some p ->
       e_id e = Some (fst p) /\ bytes_or_compiled o (v_ctx v0) e (snd p) /\
       (forall b, e_data e = Raw b -> ~ touches acts k -> snd p = b)) /\
    forall rest' uni' fuel', (List.length (v_entries v0) <= fuel')%nat ->
    exists w, vfb_read_bytes (table o) fuel' (new_vfb [] false uni') (file_of minor l ++ rest') = (w, ROk tt rest') /\
      v_header w = v_header v0 /\ v_ctx w = v_ctx v0 /\ List.length (v_entries w) = List.length (v_entries v0) /\
      forall k e e' x, nth_error (v_entries v0) k = Some e -> nth_error (v_entries w) k = Some e' -> value_of o (v_ctx v0) e x ->
      e_id e' = e_id e /\ exists x', value_of o (v_ctx w) e' x' /\ (x' = x \/ same_value x x').
Proof.
  intros o file fuel uni v0 rest acts Hf L E HW.
  destruct (file_lazy o file fuel uni v0 rest Hf L E) as (minor & Hm & Hh & Hd & Hw & R).
  pose proof (lazy_was_read o (v_ctx v0) _ _ _ R) as W. set (c := v_ctx v0) in *. set (es0 := v_entries v0) in *.
  rewrite Forall_forall in W.
  assert (A : each (fun k e (_ : entry value) => allowed o c (touches acts k) e) es0 es0).
  { split; [reflexivity|]. intros k e _ X _ i x Ei V Ht.
    destruct (W e (nth_error_In _ _ X)) as (j & E1 & E2 & E3). assert (j = i) as -> by congruence.
    assert (D : touches acts k \/ e_data e = Dec x).
    { destruct V as (j & J1 & J2). destruct (e_data e) as [b|y|]; [left; apply Ht; discriminate|right; congruence|destruct J2]. }
    split; [|apply (HW k e i x X Ei V D)].
    destruct V as (j & J1 & J2). assert (j = i) as -> by congruence. destruct (e_data e) as [b|y|]; [| |destruct J2].
    - exists b. split; [apply E3|exact J2].
    - subst y. destruct E3 as [_ E3]. exact E3. }
  assert (I : inv o minor c (touches acts) es0 (fold_left (act o) acts v0)).
  { apply inv_acts; auto. split; [reflexivity|]. split; [exact Hd|]. split; [left; exact Hh|]. fold es0.
    split; [reflexivity|]. intros k e e' X Y. assert (e' = e) as -> by congruence.
    destruct (W e (nth_error_In _ _ X)) as (i & E1 & E2 & E3). exists i. repeat (split; [assumption|]).
    destruct (e_data e); [left; reflexivity|left; reflexivity|exact E3]. }
  destruct I as (I1 & I2 & I3 & [L4 N4]). set (v := fold_left (act o) acts v0) in *.
  (** what is written of an entry *)
  assert (B : forall k e e', nth_error es0 k = Some e -> nth_error (v_entries v) k = Some e' ->
    exists i b, e_id e = Some i /\ e_id e' = Some i /\ e_cache e' = None /\ bytes_as o c e' b /\
      (e_data e = Raw b \/ exists x comp x', value_of o c e x /\ (touches acts k \/ e_data e = Dec x) /\
         cd_compile (table o) i = Some comp /\ comp c x = Ok b /\ cd_parse (table o) i c b = Ok x' /\ same_value x x')).
  { intros k e e' X Y. destruct (N4 k e e' X Y) as (i & S1 & S2 & S3 & S4). exists i.
    assert (PH : forall x, writable o c i x -> phase o c i x (e_data e') -> exists comp bs x',
      cd_compile (table o) i = Some comp /\ comp c x = Ok bs /\ cd_parse (table o) i c bs = Ok x' /\ same_value x x' /\ bytes_as o c e' bs).
    { intros x Wx [D|(comp & bs & x' & C1 & C2 & C3 & C4 & C5 & D)].
      - destruct (writable_cycle o c i x Hw Wx) as (comp & bs & x' & C1 & C2 & C3 & C4 & C5). exists comp, bs, x'.
        repeat (split; [assumption|]). unfold bytes_as. rewrite D. exists i, comp. auto.
      - exists comp, bs, x'. repeat (split; [assumption|]). unfold bytes_as. destruct D as [-> | ->]; [reflexivity|]. exists i, comp. auto. }
    destruct A as [_ A]. specialize (A k e e X X). unfold allowed in A.
    destruct (e_data e) as [b|x|] eqn:Ed; [| |destruct S4].
    - destruct S4 as [S4|(Ht & x & Px & S4)].
      + exists b. repeat (split; [assumption|]). split; [unfold bytes_as; rewrite S4; reflexivity|]. left. reflexivity.
      + assert (V : value_of o c e x) by (exists i; rewrite Ed; auto).
        destruct (PH x (A i x S1 V (fun _ => Ht)) S4) as (comp & bs & x' & C1 & C2 & C3 & C4 & C5).
        exists bs. repeat (split; [assumption|]). right. exists x, comp, x'. auto 10.
    - assert (V : value_of o c e x) by (exists i; rewrite Ed; auto).
      destruct (PH x (A i x S1 V (fun K => match K eq_refl with end)) S4) as (comp & bs & x' & C1 & C2 & C3 & C4 & C5).
      exists bs. repeat (split; [assumption|]). right. exists x, comp, x'. auto 10. }
  assert (FR : Forall2 (replaced o c) es0 (v_entries v)).
  { apply (each_two _ _ (fun _ => replaced o c)); [|auto]. split; [exact L4|]. intros k e e' X Y.
    destruct (B k e e' X Y) as (i & b & B1 & B2 & B3 & B4 & B5). exists i, b. repeat (split; [assumption|]).
    destruct (W e (nth_error_In _ _ X)) as (j & E1 & E2 & E3). assert (j = i) as -> by congruence.
    destruct B5 as [B5|(x & comp & x' & V & Ht & C1 & C2 & C3 & C4)].
    - rewrite B5 in E3. destruct E3 as [Hb Eg]. split; [unfold entry_data in Hb; lia|]. split; [auto|congruence].
    - destruct (HW k e i x X B1 V Ht) as [Hc Hfit]. split; [exact (Hfit comp b C1 C2)|]. split.
      + intros ->. exfalso.
        assert (K : exists k, cd_compile (table o) 1410 = Some k /\ forall c x b, k c x <> Ok b).
        { eexists. split; [reflexivity|]. intros c0 x0 b0. destruct x0; discriminate. }
        destruct K as (f & Ek & Nk). rewrite Ek in C1. injection C1 as <-. exact (Nk _ _ _ C2).
      + intros Eg y Ey. assert (x = y) as ->.
        { destruct V as (j & _ & V). rewrite Ey in V. congruence. }
        rewrite C3. f_equal. symmetry. eapply eager_same; eauto. }
  destruct (replaced_saved o minor c es0 (v_entries v) v Hm R FR I3 I1 eq_refl) as (l & v' & S1 & S2 & S3).
  exists minor, l, v'. split; [exact Hh|]. split; [exact S1|].
  apply two_each in S2. destruct S2 as [SL SN].
  split; [congruence|].
  assert (BL : forall k e p, nth_error es0 k = Some e -> nth_error l k = Some p -> exists i, e_id e = Some i /\ fst p = i /\
      (e_data e = Raw (snd p) \/ exists x comp x', value_of o c e x /\ (touches acts k \/ e_data e = Dec x) /\
         cd_compile (table o) i = Some comp /\ comp c x = Ok (snd p) /\ cd_parse (table o) i c (snd p) = Ok x' /\ same_value x x')).
  { intros k e p X Y. destruct (nth_error (v_entries v) k) as [e'|] eqn:Z1.
    2:{ exfalso. apply nth_error_None in Z1. assert (Q : nth_error es0 k <> None) by congruence. apply nth_error_Some in Q. lia. }
    destruct (B k e e' X Z1) as (i & b & B1 & B2 & B3 & B4 & B5). destruct (SN k e' p Z1 Y) as [K1 K2].
    assert (snd p = b) as ->.
    { unfold bytes_as in *. destruct (e_data e'); [congruence| |destruct B4].
      destruct B4 as (j & cm & J1 & J2 & J3), K2 as (j' & cm' & J1' & J2' & J3'). congruence. }
    exists i. split; [exact B1|]. split; [congruence|exact B5]. }
  split.
  { intros k e p X Y. destruct (BL k e p X Y) as (i & B1 & B2 & B3). split; [congruence|]. split.
    - destruct B3 as [B3|(x & comp & x' & V & Ht & C1 & C2 & C3 & C4)]; [left; exact B3|right; exists i, x, comp; auto].
    - intros b Eb Nt. destruct B3 as [B3|(x & comp & x' & V & [Ht|Ht] & _)]; [congruence|contradiction|congruence]. }
  intros rest' uni' fuel' Hl. rewrite L4 in Hl. destruct (S3 rest' uni' fuel' Hl) as (w & R1 & R2 & R3 & R4).
  exists w. split; [exact R1|]. split; [congruence|]. split; [exact R3|].
  assert (LR : List.length (reread es0 l) = List.length es0) by (unfold reread; rewrite map_length, combine_length; lia).
  rewrite R4, R3. split; [exact LR|]. intros k e e' x X Y V.
  assert (Q : exists p, nth_error l k = Some p /\ e' = if is_eager (fst p) then e else mkEntry (Some (fst p)) (Raw (snd p)) None).
  { unfold reread in Y. rewrite nth_error_map in Y. destruct (nth_error (combine es0 l) k) as [[e1 p]|] eqn:Z1; [|discriminate].
    cbn [option_map] in Y. injection Y as <-. exists p.
    destruct (nth_combine _ _ _ _ _ _ _ _ Z1 X) as [-> Zm]. auto. }
  destruct Q as (p & Yp & ->). destruct (BL k e p X Yp) as (i & B1 & B2 & B3). rewrite B2.
  destruct (is_eager i) eqn:Eg.
  { split; [reflexivity|]. exists x. auto. }
  split; [cbn [e_id]; congruence|]. cbn [e_id]. unfold value_of. cbn [e_id e_data].
  destruct B3 as [B3|(y & comp & x' & V' & Ht & C1 & C2 & C3 & C4)].
  - exists x. split; [|left; reflexivity]. exists i. split; [reflexivity|]. destruct V as (j & J1 & J2). rewrite B3 in J2.
    assert (j = i) as -> by congruence. exact J2.
  - exists x'. split; [exists i; auto|]. right. assert (x = y) as ->; [|exact C4].
    destruct V as (j & J1 & J2), V' as (j' & J1' & J2'). assert (j = j') as -> by congruence.
    destruct (e_data e); [congruence|congruence|destruct J2].
Qed.
Print Assumptions C113_any_order.

(** ** The hypotheses are met *)
Definition some_acts : list action := [ADecompile 2; ACompile 2; ADecompile 1; ACompileAll; ADecompile 2].
Example C113_meets : forall o, exists v0,
  bytes_ok plain_file /\ Z.of_nat (List.length plain_file) < 2 ^ 31 /\
  vfb_read_bytes (table o) 20 (new_vfb [] false false) plain_file = (v0, ROk tt []) /\
  map e_data (v_entries (fold_left (act o) some_acts v0)) =
    [Raw [1; 0]; Raw [65; 66]; Dec (DAnchors [MMAnchor [100] [200]]); Raw [1; 2; 3]; Raw []] /\
  (forall k e i x, nth_error (v_entries v0) k = Some e -> e_id e = Some i -> value_of o (v_ctx v0) e x ->
     touches some_acts k \/ e_data e = Dec x -> can_be_written o (v_ctx v0) i x /\ fits o (v_ctx v0) i x).
Proof.
  intros o. destruct (C112_meets o) as (v0 & A & B & C & _). exists v0. split; [exact A|]. split; [exact B|]. split; [exact C|].
  assert (V : v_entries v0 = [mkEntry (Some 1503) (Dec (DInt 1)) None; mkEntry (Some 1026) (Raw [65; 66]) None;
     mkEntry (Some 2029) (Raw [140; 140; 239; 247; 92]) None; mkEntry (Some 30000) (Raw [1; 2; 3]) None; mkEntry (Some 2) (Raw []) None]
     /\ v_ctx v0 = mkCtx 1 0 0 MacOS).
  { pose proof (f_equal fst C) as C'. cbn [fst] in C'. rewrite <- C'. split; vm_compute; reflexivity. }
  split.
  { pose proof (f_equal fst C) as C'. cbn [fst] in C'. rewrite <- C'. vm_compute. reflexivity. }
  destruct V as [-> ->]. intros k e i x X Ei (j & J1 & J2) Ht.
  destruct k as [|[|[|[|[|k]]]]]; cbn in X; try (destruct k; discriminate X); injection X as <-; cbn [e_id e_data] in *;
    injection Ei as <-; injection J1 as <-.
  - subst x. split; [left; apply zmem_in; reflexivity|]. intros comp bs C1 C2.
    change (cd_compile (table o) 1503) with (Some (on_value Int16Compiler)) in C1. injection C1 as <-. vm_compute in C2. injection C2 as <-. reflexivity.
  - vm_compute in J2. injection J2 as <-. split; [left; apply zmem_in; reflexivity|]. intros comp bs C1 C2.
    change (cd_compile (table o) 1026) with (Some (on_value StringCompiler)) in C1. injection C1 as <-. vm_compute in C2. injection C2 as <-. reflexivity.
  - vm_compute in J2. injection J2 as <-. split; [right; split; [apply zmem_in; reflexivity|repeat constructor; cbn; lia]|]. intros comp bs C1 C2.
    change (cd_compile (table o) 2029) with (Some (on_value GlyphAnchorsCompiler)) in C1. injection C1 as <-. vm_compute in C2. injection C2 as <-. reflexivity.
  - exfalso. destruct Ht as [Ht|Ht]; [|discriminate]. destruct Ht as [Ht|Ht]; cbn in Ht; intuition discriminate.
  - exfalso. destruct Ht as [Ht|Ht]; [|discriminate]. destruct Ht as [Ht|Ht]; cbn in Ht; intuition discriminate.
Qed.

(** Refuted: a program that also saves the file in between. The size of an entry stays the one that was saved first, and
    the entry that is decompiled after that can have other bytes (the number 1 takes one byte, not five). The file
    that is saved last cannot be read. *)
Definition long_file : bytes := file_of 7 [(1068, [255; 0; 0; 0; 1; 144]); (2, [])].
Theorem C113_saved_refuted : forall o, exists v0 v1 v2 out,
  vfb_read_bytes (table o) 20 (new_vfb [] false false) long_file = (v0, ROk tt []) /\
  vfb_write_bytes (table o) v0 = (v1, long_file, Ok tt) /\
  vfb_write_bytes (table o) (fold_left (act o) [ADecompile 0] v0) =
    (v2, file_of 7 [(1068, [140; 144]); (2, [])], Ok tt) /\
  snd (fst (vfb_write_bytes (table o) (fold_left (act o) [ADecompile 0] v1))) = out /\
  forall fuel w rest, vfb_read_bytes (table o) fuel (new_vfb [] false false) out <> (w, ROk tt rest).
Proof.
  intros o. eexists _, _, _, _. split; [vm_compute; reflexivity|]. split; [vm_compute; reflexivity|]. split; [vm_compute; reflexivity|].
  split; [vm_compute; reflexivity|]. intros [|fuel] w rest; [vm_compute; discriminate|].
  unfold vfb_read_bytes, read_stream. 
  match goal with |- context [parse_header ?b] => let r := eval vm_compute in (parse_header b) in change (parse_header b) with r end.
  cbn [v_only_header with_header vfb_clear with_entries new_vfb read_loop].
  match goal with |- context [@read_entry ?D ?c ?b] => let r := eval vm_compute in (@read_entry D c b) in change (@read_entry D c b) with r end.
  cbn [e_id]. change (is_eager 1068) with false. change (1068 =? F_BlockFileDataEnd) with false. cbv iota.
  intros H. match type of H with read_loop _ _ ?v [] = _ => destruct (loop_at_end _ (table o) fuel v) as [q Q] end.
  rewrite H in Q. discriminate.
Qed.
Print Assumptions C113_saved_refuted.
