(** C94: Adobe hinting data in XML. *)
From Coq Require Import String ZifyBool ZifyNat.
From Verif Require Import Base Lib M_Py M_Text M_PsHints M_Tth M_HintsV1 S_PsHints S_HintsV1 P_Dec Prop_PsHints.
Local Open Scope list_scope.

(** ** Numbers *)
Lemma digits_val : forall s n d, Forall (fun c => 48 <= c <= 57) s -> s <> [] \/ d = true ->
  int_digits s d n = Ok (fold_left (fun a c => a * 10 + (c - 48)) s n).
Proof.
  induction s as [|c s IH]; intros n d F H; cbn [int_digits fold_left].
  - destruct H as [H| ->]; [congruence|reflexivity].
  - apply Forall_cons_iff in F. destruct F as (F1 & F2). replace ((48 <=? c) && (c <=? 57)) with true by lia. apply IH; auto.
Qed.
Lemma lstrip_id : forall c s, is_blank c = false -> lstrip (c :: s) = c :: s.
Proof. intros c s H. cbn [lstrip]. now rewrite H. Qed.
Lemma strip_id : forall s, s <> [] -> Forall (fun c => is_blank c = false) s -> int_strip s = s.
Proof.
  intros s N F. unfold int_strip. destruct s as [|c s]; [congruence|]. rewrite lstrip_id by (now inversion F).
  destruct (rev (c :: s)) as [|d r] eqn:E; [apply (f_equal (@List.length Z)) in E; rewrite rev_length in E; discriminate|].
  rewrite lstrip_id; [rewrite <- E; apply rev_involutive|]. rewrite Forall_forall in F. apply F. apply in_rev. rewrite E. now left.
Qed.
Lemma int_dec : forall n, int_text (dec_str n) = Ok n.
Proof.
  intros n.
  assert (V : forall m, 0 <= m -> int_digits (dec_nat m) false 0 = Ok m).
  { intros m H. rewrite digits_val by (try (left; apply dec_nat_nonempty); now apply dec_nat_digits).
    f_equal. exact (dec_nat_val m H). }
  unfold int_text. rewrite strip_id.
  - unfold dec_str. destruct (n <? 0) eqn:E.
    + rewrite V by lia. cbn [rmap]. f_equal. lia.
    + pose proof (dec_nat_digits n ltac:(lia)) as D. pose proof (V n ltac:(lia)) as W. destruct (dec_nat n) as [|c s] eqn:Ed.
      * now apply dec_nat_nonempty in Ed.
      * apply Forall_cons_iff in D. destruct D as (D & _).
        assert (c <> 45 /\ c <> 43) by lia. 
        destruct c as [|p|p]; try lia. do 6 (destruct p as [p|p|]; try lia; try exact W).
  - unfold dec_str. destruct (n <? 0); [discriminate|apply dec_nat_nonempty].
  - assert (B : Forall (fun c => 45 <= c <= 57) (dec_str n)).
    { unfold dec_str. destruct (n <? 0) eqn:E; [constructor; [lia|]|]; (eapply Forall_impl; [|apply dec_nat_digits; lia]); cbn; lia. }
    eapply Forall_impl; [|exact B]. cbn. intros c H. unfold is_blank. lia.
Qed.

(** ** Documents *)
Notation run := (res_fold (fun st el => v1_step el st)).
Lemma run_app : forall a b st, run st (a ++ b) = rthen (run st a) (fun st' => run st' b).
Proof.
  induction a as [|x a IH]; intros b st; [reflexivity|]. cbn [app res_fold]. destruct (v1_step x st) as [st'|e]; [apply IH|reflexivity].
Qed.
Lemma other_step : forall tag attrib st, ~ In tag tags -> v1_step (tag, attrib) st = Ok st.
Proof.
  intros tag attrib [cur done] N. unfold v1_step. cbn [tags In] in N.
  destruct (str_eqb tag (py "hintSetList")) eqn:E1; [apply str_eqb_eq in E1; subst; tauto|].
  destruct (str_eqb tag (py "hintset")) eqn:E2; [apply str_eqb_eq in E2; subst; tauto|].
  destruct (str_eqb tag (py "hstem")) eqn:E3; [apply str_eqb_eq in E3; subst; tauto|].
  destruct (str_eqb tag (py "vstem")) eqn:E4; [apply str_eqb_eq in E4; subst; tauto|]. reflexivity.
Qed.
Fixpoint element_ind2 (P : element -> Prop) (H : forall tag attrib children, Forall P children -> P (Elem tag attrib children)) (e : element) : P e :=
  match e with
  | Elem tag attrib children => H tag attrib children
      ((fix all (l : list element) : Forall P l := match l with [] => Forall_nil _ | x :: l => Forall_cons _ (element_ind2 P H x) (all l) end) children)
  end.
Lemma foreign_run : forall e st, foreign e -> run st (iter e) = Ok st.
Proof.
  induction e as [tag attrib children IH] using element_ind2. intros st F. inversion F as [t a c N C]; subst. cbn [iter res_fold].
  rewrite other_step by assumption. cbn [rthen]. clear F N. revert st. induction children as [|x l IHl]; intros st; [reflexivity|].
  apply Forall_cons_iff in IH, C. cbn [flat_map]. rewrite run_app. destruct IH as (I1 & I2), C as (C1 & C2). rewrite I1 by assumption.
  cbn [rthen]. now apply IHl.
Qed.
Lemma foreigns_run : forall es st, Forall foreign es -> run st (flat_map iter es) = Ok st.
Proof.
  induction es as [|e es IH]; intros st F; [reflexivity|]. apply Forall_cons_iff in F. cbn [flat_map]. rewrite run_app, foreign_run by apply F.
  cbn [rthen]. apply IH, F.
Qed.
Definition stem_of (st : v1_stem) : hint := normalize_hint (Hint (fst st) (fst (snd st)) (snd (snd st))).
Lemma stem_same : forall st, same_stem (fst st) (snd st) (stem_of st).
Proof.
  intros [v [pos width]]. unfold stem_of, same_stem, normalize_hint, low, high. cbn [fst snd hi_v hi_pos hi_width].
  destruct (width <? 0) eqn:E; [destruct ((width =? -21) || (width =? -20)) eqn:G|]; cbn [hi_v hi_pos hi_width]; (split; [reflexivity|]).
  - split; reflexivity.
  - lia.
  - replace ((width =? -21) || (width =? -20)) with false by lia. lia.
Qed.
Lemma stem_step : forall e st tag stems done, stem_element e st ->
  run (Some (HintSet tag stems), done) (iter e) = Ok (Some (HintSet tag (stems ++ [stem_text (stem_of st)])), done).
Proof.
  intros e st tag stems done H. inversion H as [v attrib pos width P W]; subst. cbn [iter flat_map res_fold]. unfold v1_step, attr.
  unfold has in P, W. rewrite P, W.
  assert (X : hint_name (stem_of (v, (pos, width))) ++ py " " ++ dec_str (hi_pos (stem_of (v, (pos, width)))) ++ py " " ++ dec_str (hi_width (stem_of (v, (pos, width)))) = stem_text (stem_of (v, (pos, width)))).
  { unfold stem_text, hint_name. destruct (hi_v _); reflexivity. }
  rewrite <- X.
  destruct v; cbn [rthen hs_tag hs_stems]; rewrite !int_dec; reflexivity.
Qed.
Lemma stems_run : forall es sts, Forall2 stem_element es sts -> forall tag stems done,
  run (Some (HintSet tag stems), done) (flat_map iter es) = Ok (Some (HintSet tag (stems ++ map (fun st => stem_text (stem_of st)) sts)), done).
Proof.
  induction 1 as [|e st es sts H F IH]; intros tag stems done; cbn [flat_map map]; [rewrite app_nil_r; reflexivity|].
  rewrite run_app, (stem_step e st) by assumption. cbn [rthen]. rewrite IH, <- app_assoc. reflexivity.
Qed.
Definition set_of (s : v1_set) : hint_set := HintSet (fst s) (map (fun st => stem_text (stem_of st)) (snd s)).
Definition all_sets (st : option hint_set * list hint_set) : list hint_set := snd st ++ match fst st with Some s => [s] | None => [] end.
Lemma set_run : forall e s st, set_element e s -> run st (iter e) = Ok (Some (set_of s), all_sets st).
Proof.
  intros e s [cur done] H. inversion H as [attrib tag children stems P F]; subst. cbn [iter res_fold]. unfold v1_step at 1, attr. unfold has in P. rewrite P.
  change (str_eqb (py "hintset") (py "hintSetList")) with false. change (str_eqb (py "hintset") (py "hintset")) with true. cbn [rmap rthen].
  rewrite (stems_run _ _ F). unfold set_of, all_sets. cbn [fst snd app]. destruct cur; [reflexivity|now rewrite app_nil_r].
Qed.
Lemma sets_run : forall es sets, sets_in es sets -> forall st, exists st', run st (flat_map iter es) = Ok st' /\ all_sets st' = all_sets st ++ map set_of sets.
Proof.
  induction 1 as [|e s es sets H F IH|e es sets H F IH]; intros st; cbn [flat_map map].
  - exists st. split; [reflexivity|now rewrite app_nil_r].
  - rewrite run_app, (set_run e s) by assumption. cbn [rthen]. destruct (IH (Some (set_of s), all_sets st)) as (st' & R & A). exists st'. split; [exact R|].
    rewrite A. unfold all_sets at 1. cbn [fst snd]. now rewrite <- app_assoc.
  - rewrite run_app, foreign_run by assumption. cbn [rthen]. apply IH.
Qed.
Lemma document_run : forall root sets, document root sets -> exists st', run (None, []) (iter root) = Ok st' /\ all_sets st' = map set_of sets.
Proof.
  induction 1 as [attrib children sets H|tag attrib before e after sets N B A H (st' & R & E)].
  - cbn [iter res_fold]. unfold v1_step at 1. change (str_eqb (py "hintSetList") (py "hintSetList")) with true. cbn [rthen].
    exact (sets_run _ _ H (None, [])).
  - exists st'. split; [|exact E]. cbn [iter res_fold]. rewrite other_step by assumption. cbn [rthen].
    rewrite flat_map_app, run_app, foreigns_run by assumption. cbn [rthen flat_map]. rewrite run_app, R. cbn [rthen]. now apply foreigns_run.
Qed.

(** ** C94 *)
(** All hint sets of the document, in order, each with its tag and all its stems. *)
Theorem C94_sets : forall root sets, document root sets -> exists l,
  v1_sets root = Ok (match sets with [] => None | _ => Some l end) /\ Forall2 same_set sets l.
Proof.
  intros root sets H. destruct (document_run root sets H) as (st & R & A). exists (map set_of sets). split.
  - unfold v1_sets. rewrite R. cbn [rmap]. unfold all_sets in A. rewrite A. destruct sets; reflexivity.
  - clear. induction sets as [|s sets IH]; constructor; [|exact IH]. split; [reflexivity|]. cbn [set_of hs_stems].
    induction (snd s) as [|st l IHl]; constructor; [|exact IHl]. exists (stem_of st). split; [apply stem_same|reflexivity].
Qed.
(** The same for the data in the lib of a glyph; data that is no text is left as it is. *)
Theorem C94_update : forall A utf8 fromstring (d : v1_data A),
  match d with
  | VOther x => update_adobe_hinting utf8 fromstring d = Ok (V2Same x)
  | VText text => forall root sets, fromstring text = Ok root -> document root sets -> exists l,
      update_adobe_hinting utf8 fromstring d = Ok (V2Sets (match sets with [] => None | _ => Some l end)) /\ Forall2 same_set sets l
  | VBytes b => forall text root sets, utf8 b = Ok text -> fromstring text = Ok root -> document root sets -> exists l,
      update_adobe_hinting utf8 fromstring d = Ok (V2Sets (match sets with [] => None | _ => Some l end)) /\ Forall2 same_set sets l
  end.
Proof.
  intros A utf8 fromstring [b|text|x]; [| |reflexivity].
  - intros text root sets U R D. destruct (C94_sets root sets D) as (l & E & F). exists l. split; [|exact F].
    cbn [update_adobe_hinting]. rewrite U. cbn [rthen]. rewrite R. cbn [rthen]. rewrite E. reflexivity.
  - intros root sets R D. destruct (C94_sets root sets D) as (l & E & F). exists l. split; [|exact F].
    cbn [update_adobe_hinting]. rewrite R. cbn [rthen]. rewrite E. reflexivity.
Qed.
(** With two lists in one document, all sets of the first list but the last one are lost. *)
Theorem C94_lists_refuted : forall tag attrib attrib1 attrib2 es1 es2 sets1 sets2, ~ In tag tags -> sets_in es1 sets1 -> sets_in es2 sets2 ->
  sets1 <> [] -> exists l, 
  v1_sets (Elem tag attrib [Elem (py "hintSetList") attrib1 es1; Elem (py "hintSetList") attrib2 es2]) = Ok (Some l) /\
  Forall2 same_set (last sets1 ([], []) :: sets2) l.
Proof.
  intros tag attrib attrib1 attrib2 es1 es2 sets1 sets2 N H1 H2 Ne.
  assert (L : forall es sets, sets_in es sets -> forall st st', run st (flat_map iter es) = Ok st' -> sets <> [] -> fst st' = Some (set_of (last sets ([], [])))).
  { clear. induction 1 as [|e s es sets H F IH|e es sets H F IH]; intros st st' R Ne; [congruence| |].
    - cbn [flat_map] in R. rewrite run_app, (set_run e s) in R by assumption. cbn [rthen] in R. destruct sets as [|s' sets].
      + clear IH. assert (X : forall es st st', sets_in es [] -> run st (flat_map iter es) = Ok st' -> st' = st).
        { clear. intros es. induction es as [|e es IH]; intros st st' H R; [now injection R|]. inversion H; subst.
          cbn [flat_map] in R. rewrite run_app, foreign_run in R by assumption. cbn [rthen] in R. eapply IH; eassumption. }
        apply X in R; [|assumption]. subst. reflexivity.
      + change (last (s :: s' :: sets) ([], [])) with (last (s' :: sets) (@nil Z, @nil v1_stem)). eapply IH; [exact R|discriminate].
    - cbn [flat_map] in R. rewrite run_app, foreign_run in R by assumption. cbn [rthen] in R. eapply IH; eassumption. }
  exists (map set_of (last sets1 ([], []) :: sets2)). split.
  2: { clear. induction (last sets1 ([], []) :: sets2) as [|s sets IH]; constructor; [|exact IH]. split; [reflexivity|]. cbn [set_of hs_stems].
       induction (snd s) as [|st l IHl]; constructor; [|exact IHl]. exists (stem_of st). split; [apply stem_same|reflexivity]. }
  unfold v1_sets. cbn [iter res_fold]. rewrite other_step by assumption. cbn [rthen flat_map]. rewrite app_nil_r.
  cbn [iter app]. cbn [res_fold]. unfold v1_step at 1. change (str_eqb (py "hintSetList") (py "hintSetList")) with true. cbn [rthen].
  rewrite run_app. destruct (sets_run _ _ H1 (None, [])) as (st1 & R1 & A1). rewrite R1. cbn [rthen res_fold].
  pose proof (L _ _ H1 _ _ R1 Ne) as F1. destruct st1 as [cur done]. cbn [fst] in F1. subst cur.
  unfold v1_step at 1. change (str_eqb (py "hintSetList") (py "hintSetList")) with true. cbn [rthen].
  destruct (sets_run _ _ H2 (Some (set_of (last sets1 ([], []))), [])) as (st2 & R2 & A2). rewrite R2. cbn [rmap].
  unfold all_sets in A2. rewrite A2. cbn [fst snd app map]. reflexivity.
Qed.

Print Assumptions C94_sets.
Print Assumptions C94_update.
Print Assumptions C94_lists_refuted.

(** ** Example: a document with a comment-like element, two sets, a negative width and a ghost *)
Definition c94_stem (v : bool) (pos width : Z) : element :=
  Elem (if v then py "vstem" else py "hstem") [(py "pos", dec_str pos); (py "width", dec_str width)] [].
Definition c94_set (tag : pystr) (stems : list element) : element := Elem (py "hintset") [(py "pointTag", tag)] stems.
Definition c94_root : element :=
  Elem (py "hints") [] [Elem (py "info") [] [];
    Elem (py "hintSetList") [(py "id", py "0")]
      [c94_set (py "a") [c94_stem false 0 (-20); c94_stem true 100 (-30)]; c94_set (py "b") [c94_stem false (-5) 25]]].
Example c94_document : document c94_root
  [(py "a", [(false, (0, -20)); (true, (100, -30))]); (py "b", [(false, (-5, 25))])].
Proof.
  assert (N : forall t, existsb (str_eqb t) tags = false -> ~ In t tags).
  { intros t H I. assert (X : existsb (str_eqb t) tags = true); [|congruence].
    apply existsb_exists. exists t. split; [exact I|]. now apply str_eqb_eq. }
  assert (St : forall v p w, stem_element (c94_stem v p w) (v, (p, w))) by (intros v p w; constructor; reflexivity).
  apply (around (py "hints") [] [Elem (py "info") [] []] _ []); [now apply N| |constructor|].
  - constructor; [|constructor]. constructor; [now apply N|constructor].
  - constructor. constructor 2; [constructor; [reflexivity|repeat constructor; apply St]|].
    constructor 2; [constructor; [reflexivity|repeat constructor; apply St]|]. constructor.
Qed.
Example c94_result : v1_sets c94_root =
  Ok (Some [HintSet (py "a") [py "hstem 0 -20"; py "vstem 70 30"]; HintSet (py "b") [py "hstem -5 25"]]).
Proof. reflexivity. Qed.
