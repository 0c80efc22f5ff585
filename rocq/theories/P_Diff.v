(** Proofs about vfbdiff (C98). *)
From Coq Require Import ZifyBool ZifyNat String Permutation.
From Verif Require Import Base M_Stream M_Py M_Helpers M_Text M_Simple M_Bitmap M_TrueType M_Glyph M_Float M_Options
  M_Container M_Table M_Tools S_Encoding M_Json M_Diff S_Json S_Dump S_Diff S_File Lib P_Helpers P_Dec P_Container P_File Prop_File P_Json P_JsonData
  P_JsonFile P_Tools.
Local Open Scope list_scope.

(** ** Sorting *)
Lemma key_le_refl : forall a, key_le a a = true.
Proof. induction a as [|c a IH]; [reflexivity|]. cbn [key_le]. rewrite Z.ltb_irrefl. exact IH. Qed.
Lemma key_le_total : forall a b, key_le a b = false -> key_le b a = true.
Proof.
  induction a as [|c a IH]; intros [|d b] H; try discriminate; [reflexivity|]. cbn [key_le] in *.
  destruct (c <? d) eqn:E; [discriminate|]. destruct (d <? c); [reflexivity|]. apply IH. exact H.
Qed.
Lemma key_le_antisym : forall a b, key_le a b = true -> key_le b a = true -> a = b.
Proof.
  induction a as [|c a IH]; intros [|d b] H H'; try discriminate; [reflexivity|]. cbn [key_le] in *.
  destruct (c <? d) eqn:E, (d <? c) eqn:E'; try discriminate; try lia. f_equal; [lia|]. apply IH; assumption.
Qed.
Lemma key_le_trans : forall a b c, key_le a b = true -> key_le b c = true -> key_le a c = true.
Proof.
  induction a as [|x a IH]; intros [|y b] [|z c] H H'; try discriminate; try reflexivity. cbn [key_le] in *.
  destruct (x <? y) eqn:E1, (y <? z) eqn:E2, (x <? z) eqn:E3, (z <? x) eqn:E4, (y <? x) eqn:E5, (z <? y) eqn:E6; try discriminate; try reflexivity; try lia.
  eapply IH; eassumption.
Qed.
Lemma insert_comm : forall A (p q : pystr * A) l, fst p <> fst q -> insert_key p (insert_key q l) = insert_key q (insert_key p l).
Proof.
  intros A p q l N. assert (X : key_le (fst p) (fst q) = true -> key_le (fst q) (fst p) = true -> False) by (intros a b; apply N, key_le_antisym; assumption).
  induction l as [|h l IH]; cbn [insert_key].
  - destruct (key_le (fst p) (fst q)) eqn:E, (key_le (fst q) (fst p)) eqn:E'; try reflexivity; [destruct (X eq_refl eq_refl)|].
    apply key_le_total in E. congruence.
  - destruct (key_le (fst q) (fst h)) eqn:Eq, (key_le (fst p) (fst h)) eqn:Ep; cbn [insert_key]; rewrite ?Eq, ?Ep; cbn [insert_key].
    + destruct (key_le (fst p) (fst q)) eqn:E, (key_le (fst q) (fst p)) eqn:E'; try reflexivity; [destruct (X eq_refl eq_refl)|].
      apply key_le_total in E. congruence.
    + destruct (key_le (fst p) (fst q)) eqn:E; [|reflexivity]. rewrite (key_le_trans _ _ _ E Eq) in Ep. discriminate.
    + destruct (key_le (fst q) (fst p)) eqn:E; [|reflexivity]. rewrite (key_le_trans _ _ _ E Ep) in Eq. discriminate.
    + f_equal. exact IH.
Qed.
Lemma insert_perm : forall A (p : pystr * A) l, Permutation (p :: l) (insert_key p l).
Proof.
  induction l as [|h l IH]; cbn [insert_key]; [apply Permutation_refl|]. destruct (key_le (fst p) (fst h)); [apply Permutation_refl|].
  eapply perm_trans; [apply perm_swap|]. constructor. exact IH.
Qed.
Lemma sort_perm : forall A (l : list (pystr * A)), Permutation l (sort_members l).
Proof.
  induction l as [|p l IH]; [constructor|]. cbn [sort_members fold_right]. eapply perm_trans; [constructor; exact IH|]. apply insert_perm.
Qed.
Lemma sort_unique : forall A (l m : list (pystr * A)), Permutation l m -> NoDup (map fst l) -> sort_members l = sort_members m.
Proof.
  intros A l m P. induction P as [|p l m P IH|p q l|l m n P IH P' IH']; intros N.
  - reflexivity.
  - cbn [map] in N. inversion N; subst. cbn [sort_members fold_right]. f_equal. apply IH. assumption.
  - cbn [map] in N. inversion N as [|? ? N1 N2]; subst. cbn [sort_members fold_right]. apply insert_comm. intros E. apply N1. left. symmetry. exact E.
  - rewrite IH by exact N. apply IH'. eapply Permutation_NoDup; [apply Permutation_map; exact P|exact N].
Qed.
Lemma insert_map : forall A B (f : A -> B) p l,
  insert_key (fst p, f (snd p)) (map (fun q => (fst q, f (snd q))) l) = map (fun q => (fst q, f (snd q))) (insert_key p l).
Proof.
  induction l as [|h l IH]; [reflexivity|]. cbn [map insert_key fst]. destruct (key_le (fst p) (fst h)); [reflexivity|]. cbn [map]. rewrite IH. reflexivity.
Qed.
Lemma sort_map : forall A B (f : A -> B) l,
  sort_members (map (fun q => (fst q, f (snd q))) l) = map (fun q => (fst q, f (snd q))) (sort_members l).
Proof.
  induction l as [|h l IH]; [reflexivity|]. cbn [map sort_members fold_right]. fold (sort_members (map (fun q => (fst q, f (snd q))) l)).
  rewrite IH. apply insert_map.
Qed.
Lemma forallb_perm : forall A (f : A -> bool) l m, Permutation l m -> forallb f l = forallb f m.
Proof.
  intros A f l m P. induction P; cbn [forallb]; [reflexivity|congruence| |congruence].
  destruct (f x), (f y); reflexivity.
Qed.
Lemma sort_dict : forall d, sort_keys (PDict d) = PDict (map (fun p => (fst p, sort_keys (snd p))) (sort_members d)).
Proof. intros d. cbn [sort_keys]. f_equal. apply (sort_map pyval pyval sort_keys). Qed.
Lemma forallb_map : forall A B (f : A -> B) g l, forallb g (map f l) = forallb (fun x => g (f x)) l.
Proof. induction l as [|x l IH]; [reflexivity|]. cbn [map forallb]. now rewrite IH. Qed.
Lemma forallb_ext_in : forall A (f g : A -> bool) l, Forall (fun x => f x = g x) l -> forallb f l = forallb g l.
Proof. intros A f g l H. induction H as [|x l E H IH]; [reflexivity|]. cbn [forallb]. congruence. Qed.
Lemma one_line_sorted : forall v, one_line (sort_keys v) = one_line v.
Proof.
  induction v as [|bo|z|x|s|l IH|d IH] using pyval_ind2; try reflexivity.
  - cbn [sort_keys one_line]. rewrite forallb_map. apply forallb_ext_in. exact IH.
  - rewrite sort_dict. cbn [one_line]. rewrite forallb_map, (forallb_perm _ _ d (sort_members d) (sort_perm _ d)). apply forallb_ext_in.
    cbn [fst snd]. eapply Permutation_Forall; [apply sort_perm|]. eapply Forall_impl; [|exact IH]. cbv beta. intros p E. now rewrite E.
Qed.

Lemma Forall2_flip : forall A B (R : A -> B -> Prop) l m, Forall2 R l m -> Forall2 (fun b a => R a b) m l.
Proof. intros A B R l m H. induction H; constructor; assumption. Qed.

(** ** Values whose sorted JSON is the same *)
Section same.
  Variable number : fval -> option pystr.
  Notation shown := (shown number).
  Lemma sorted_same : forall t t', shown (sort_keys t) = shown (sort_keys t') -> same_js (shown t) (shown t').
  Proof.
    assert (L : forall (t t' : pyval), match t with PList _ | PDict _ => False | _ => True end -> shown (sort_keys t) = shown (sort_keys t') ->
      same_js (shown t) (shown t')).
    { intros t t' H E. replace (shown t') with (shown t); [constructor|]. destruct t; try contradiction; destruct t'; cbn [sort_keys] in E; try exact E;
        cbn [S_Dump.shown] in E; try discriminate; try (destruct (number x); discriminate). }
    induction t as [|bo|z|x|s|l IH|d IH] using pyval_ind2; try (intros t' E; apply L; [exact Logic.I|exact E]).
    - intros t' E. destruct t' as [| | |x| |l'|d']; try discriminate; try (cbn in E; destruct (number x); discriminate). cbn [sort_keys S_Dump.shown] in E |- *.
      apply JsList_eq in E. apply sj_list. rewrite !map_map in E. revert l' E. induction IH as [|x l Hx IH IHl]; intros [|x' l'] E; try discriminate; [constructor|].
      cbn [map] in E |- *. apply item_eq in E. destruct E as (E1 & E2). constructor; [apply Hx; exact E1|]. apply IHl. exact E2.
    - intros t' E. destruct t' as [| | |x| |l'|d']; try discriminate; try (cbn in E; destruct (number x); discriminate). rewrite !sort_dict in E.
      cbn [S_Dump.shown] in E |- *. apply JsDict_eq in E. rewrite !map_map in E. cbn [fst snd] in E.
      assert (F : Forall2 (fun p q => fst p = fst q /\ same_js (snd p) (snd q)) (map (fun p => (fst p, shown (snd p))) (sort_members d)) (map (fun p => (fst p, shown (snd p))) (sort_members d'))).
      { assert (IH' : Forall (fun p => forall t', shown (sort_keys (snd p)) = shown (sort_keys t') -> same_js (shown (snd p)) (shown t')) (sort_members d))
          by (eapply Permutation_Forall; [apply sort_perm|exact IH]).
        clear IH. revert E. generalize (sort_members d') as m'. induction IH' as [|p m Hp IH IHm]; intros [|p' m'] E; try discriminate; [constructor|].
        cbn [map] in E |- *. assert (E0 : fst p = fst p') by congruence. apply member_eq in E. destruct E as (E1 & E2). constructor; [|apply IHm; exact E2].
        cbn [fst snd]. split; [exact E0|]. apply Hp. exact E1. }
      assert (Q : Permutation (map (fun p => (fst p, shown (snd p))) (sort_members d')) (map (fun p => (fst p, shown (snd p))) d')) by (apply Permutation_map, Permutation_sym, sort_perm).
      assert (F' : exists m, Permutation (map (fun p => (fst p, shown (snd p))) (sort_members d)) m /\
        Forall2 (fun p q => fst p = fst q /\ same_js (snd p) (snd q)) m (map (fun p => (fst p, shown (snd p))) d')).
      { apply Forall2_flip in F. destruct (Permutation_Forall2 Q F) as (m & P1 & P2). exists m. split; [exact P1|]. apply Forall2_flip in P2. exact P2. }
      destruct F' as (m & P1 & P2). eapply sj_dict; [|exact P2]. eapply perm_trans; [|exact P1]. apply Permutation_map, sort_perm.
  Qed.
End same.

(** ** Lines *)
Definition lf_only (s : pystr) : Prop := Forall (fun c => line_end c = true -> c = 10) s.
Fixpoint join_lines (l : list pystr) : pystr :=
  match l with
  | [] => []
  | [x] => x
  | x :: l' => x ++ 10 :: join_lines l'
  end.
Lemma join_cons : forall x l, l <> [] -> join_lines (x :: l) = x ++ 10 :: join_lines l.
Proof. intros x [|y l] H; [congruence|reflexivity]. Qed.
Lemma split_cons : forall some line c s, (line_end c = true -> c = 10) ->
  split_from some line (c :: s) = if c =? 10 then rev line :: split_from false [] s else split_from true (c :: line) s.
Proof.
  intros some line c s H. destruct (Z.eq_dec c 13) as [->|N]; [specialize (H eq_refl); discriminate|].
  replace (split_from some line (c :: s)) with (if line_end c then rev line :: split_from false [] s else split_from true (c :: line) s).
  - destruct (c =? 10) eqn:E; [apply Z.eqb_eq in E; subst c; reflexivity|]. destruct (line_end c); [specialize (H eq_refl); lia|reflexivity].
  - cbn [split_from]. destruct c as [|p|p]; try reflexivity. repeat (destruct p as [p|p|]; try reflexivity). congruence.
Qed.
Lemma split_join : forall s some line, lf_only s -> (s = [] -> some = true) -> last s 0 <> 10 ->
  split_from some line s <> [] /\ join_lines (split_from some line s) = rev line ++ s.
Proof.
  induction s as [|c s IH]; intros some line F N L.
  - rewrite (N eq_refl). cbn. rewrite app_nil_r. split; [discriminate|reflexivity].
  - apply Forall_cons_iff in F. destruct F as (Fc & F). rewrite split_cons by exact Fc. destruct (c =? 10) eqn:E.
    + apply Z.eqb_eq in E. subst c. destruct s as [|d s]; [destruct L; reflexivity|].
      destruct (IH false [] F ltac:(discriminate) L) as (I1 & I2). split; [discriminate|]. rewrite join_cons by exact I1. rewrite I2. reflexivity.
    + destruct (IH true (c :: line) F ltac:(reflexivity)) as (I1 & I2).
      { destruct s as [|d s]; [cbn; lia|exact L]. }
      split; [exact I1|]. rewrite I2. cbn [rev]. rewrite <- app_assoc. reflexivity.
Qed.
Lemma splitlines_inj : forall a b, lf_only a -> lf_only b -> a <> [] -> b <> [] -> last a 0 <> 10 -> last b 0 <> 10 ->
  splitlines a = splitlines b -> a = b.
Proof.
  intros a b Fa Fb Na Nb La Lb E. unfold splitlines in E. destruct (split_join a false [] Fa ltac:(congruence) La) as (_ & Ja).
  destruct (split_join b false [] Fb ltac:(congruence) Lb) as (_ & Jb). cbn [rev app] in Ja, Jb. congruence.
Qed.

Lemma quoted_lines : forall s, text_ok s = true -> line_text s = true -> lf_only (quoted s).
Proof.
  intros s T H. unfold quoted, lf_only. constructor; [discriminate|]. apply Forall_app. split; [|constructor; [discriminate|constructor]].
  apply Forall_concat, Forall_map. rewrite Forall_forall. intros c Hc. unfold line_text in H. rewrite forallb_forall in H. specialize (H c Hc).
  unfold text_ok in T. rewrite forallb_forall in T. specialize (T c Hc). unfold char_text_ok, in_range in T. unfold escape.
  destruct (c =? 34); [repeat constructor; discriminate|]. destruct (c =? 92); [repeat constructor; discriminate|].
  destruct (c =? 8); [repeat constructor; discriminate|]. destruct (c =? 9); [repeat constructor; discriminate|].
  destruct (c =? 10); [repeat constructor; discriminate|]. destruct (c =? 12); [repeat constructor; discriminate|].
  destruct (c =? 13); [repeat constructor; discriminate|].
  destruct (c <? 32) eqn:E; [|constructor; [unfold line_end; lia|constructor]].
  assert (G : forall n, 0 <= n < 16 -> line_end (hex_char n) = true -> hex_char n = 10) by (intros n Hn; unfold line_end, hex_char; destruct (n <? 10); lia).
  repeat apply Forall_cons; try apply Forall_nil; try discriminate; apply G; Z.to_euclidean_division_equations; lia.
Qed.
Lemma nums_lines : forall t, nums t -> lf_only t.
Proof. intros t H. eapply Forall_impl; [|exact H]. cbv beta. intros c Hc. unfold number_char, digit in Hc. cbn [existsb py] in Hc. unfold line_end. intros X. lia. Qed.
Lemma newline_lines : forall n, lf_only (newline n).
Proof. intros n. unfold newline, lf_only. constructor; [reflexivity|]. apply Forall_forall. intros c H. apply repeat_spec in H. subst. discriminate. Qed.
Lemma commas_lines : forall l, Forall lf_only l -> lf_only (commas l).
Proof.
  unfold lf_only. induction l as [|x l IH]; intros H; [constructor|]. apply Forall_cons_iff in H. destruct H as (Hx & H). destruct l as [|y l]; [exact Hx|].
  rewrite commas_cons. apply Forall_app. split; [assumption|]. constructor; [discriminate|now apply IH].
Qed.
Lemma dump_lines : forall number, (forall x t, number x = Some t -> is_number t = true /\ is_int t = false) ->
  forall v, dumpable v = true -> one_line v = true -> forall n, lf_only (dump number n v).
Proof.
  assert (P : forall s, forallb (fun c => negb (line_end c)) s = true -> lf_only s).
  { intros s H. rewrite forallb_forall in H. apply Forall_forall. intros c Hc. specialize (H c Hc). intros X. rewrite X in H. discriminate. }
  intros number Hnum. induction v as [|bo|z|x|s|l IH|d IH] using pyval_ind2; intros D O n.
  - now apply P.
  - destruct bo; now apply P.
  - cbn [dump]. destruct (dec_str_number z) as (A & _). now apply nums_lines, is_number_nums, is_int_number.
  - cbn [dump]. destruct (number x) as [t|] eqn:E; [|now apply P]. destruct (Hnum x t E) as (A & _). now apply nums_lines, is_number_nums.
  - cbn [dump]. now apply quoted_lines.
  - destruct l as [|x l]; [now apply P|]. set (L := x :: l) in *. change (dump number n (PList L)) with (py "[" ++ commas (map (fun x => newline (S n) ++ dump number (S n) x) L) ++ newline n ++ py "]").
    unfold lf_only. rewrite !Forall_app. split; [now apply P|]. split; [|split; [apply newline_lines|now apply P]]. apply commas_lines, Forall_map.
    cbn [dumpable one_line] in D, O. rewrite Forall_forall in *. rewrite forallb_forall in D, O. intros y Hy. apply Forall_app. split; [apply newline_lines|]. apply IH; auto.
  - destruct d as [|x l]; [now apply P|]. set (L := x :: l) in *.
    change (dump number n (PDict L)) with (py "{" ++ commas (map (fun p => newline (S n) ++ quoted (fst p) ++ py ": " ++ dump number (S n) (snd p)) L) ++ newline n ++ py "}").
    unfold lf_only. rewrite !Forall_app. split; [now apply P|]. split; [|split; [apply newline_lines|now apply P]]. apply commas_lines, Forall_map.
    cbn [dumpable one_line] in D, O. rewrite Forall_forall in *. rewrite forallb_forall in D, O. intros y Hy. specialize (D y Hy). specialize (O y Hy).
    apply andb_prop in D, O. destruct D as (D1 & D2), O as (O1 & O2).
    unfold lf_only. rewrite !Forall_app. split; [apply newline_lines|]. split; [now apply quoted_lines|]. split; [now apply P|]. now apply IH.
Qed.
Lemma dump_last : forall number d, dump number 0 (PDict d) <> [] /\ last (dump number 0 (PDict d)) 0 <> 10.
Proof.
  intros number [|p d]; [split; discriminate|].
  change (dump number 0 (PDict (p :: d))) with (py "{" ++ commas (map (fun p => newline 1 ++ quoted (fst p) ++ py ": " ++ dump number 1 (snd p)) (p :: d)) ++ newline 0 ++ py "}").
  split; [discriminate|]. rewrite !app_assoc. change (py "}") with [125]. rewrite last_last. discriminate.
Qed.

(** what equal lines say *)
Lemma same_lines : forall number d d' l, (forall x t, number x = Some t -> is_number t = true /\ is_int t = false) ->
  one_line (PDict d) = true -> one_line (PDict d') = true ->
  diff_lines number (PDict d) = Ok l -> diff_lines number (PDict d') = Ok l ->
  shown number (sort_keys (PDict d)) = shown number (sort_keys (PDict d')).
Proof.
  intros number d d' l Hn O O' E E'. unfold diff_lines in E, E'.
  destruct (dumpable (sort_keys (PDict d))) eqn:D; [|discriminate]. destruct (dumpable (sort_keys (PDict d'))) eqn:D'; [|discriminate].
  rewrite <- one_line_sorted in O, O'. apply Ok_inj in E, E'. rewrite <- E in E'. symmetry in E'. apply splitlines_inj in E'.
  - pose proof (loads_dump number Hn _ D) as L. pose proof (loads_dump number Hn _ D') as L'. congruence.
  - apply dump_lines; assumption.
  - apply dump_lines; assumption.
  - apply dump_last.
  - apply dump_last.
  - apply dump_last.
  - apply dump_last.
Qed.
