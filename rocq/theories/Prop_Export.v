(** C80 and C81: what the masters of a font have in common; hint sets and points. *)
From Coq Require Import String.
From Verif Require Import Base M_Py M_Glyph M_Labels M_PsHints M_Paths M_Export S_Labels S_PsHints S_Paths S_Export Lib P_Labels P_PsHints P_Paths Prop_PsHints P_Export.
Local Open Scope list_scope.

Section Font.
  Variables (fuel : nat) (order : list pystr) (st0 st : store) (hist : list request) (labels : list pystr).
  Hypothesis Fr : fresh_store st0.
  Hypothesis G : Forall (good_request st0 order) hist.
  Hypothesis Hf : (2 <= fuel)%nat.
  Hypothesis Run : run_requests fuel order st0 hist = Ok (labels, st).

  (** C80. After any history of labels, in a font whose composites have no hints of their own: all masters can be exported,
      they have the same glyphs, each glyph has the same number of contours in all masters, and a contour is
      compatible in two masters, points with types, flags and names, if and only if it ends at its start in
      both masters or in none. Else even the numbers of points differ. *)
  Theorem C80_compatible : forall ps n font, simple_font st0 n font ->
    exists outs st', export_masters fuel order ps 0 n font st = Ok (outs, st') /\ List.length outs = n /\
      forall i j oi oj k name g gs, nth_error outs i = Some oi -> nth_error outs j = Some oj ->
        nth_error font k = Some (name, g) -> contours_of (eg_nodes g) gs ->
        exists a b, nth_error oi k = Some (name, a) /\ nth_error oj k = Some (name, b) /\
          List.length (ex_contours a) = List.length gs /\ List.length (ex_contours b) = List.length gs /\
          forall q nodes c d, nth_error gs q = Some nodes -> nth_error (ex_contours a) q = Some c ->
            nth_error (ex_contours b) q = Some d ->
            (compatible c d <-> (joined i nodes <-> joined j nodes)) /\
            (List.length c = List.length d <-> (joined i nodes <-> joined j nodes)).
  Proof.
    intros ps n font SF. destruct (reached fuel order st0 st hist labels Fr G Hf Run) as [OK X].
    destruct fuel as [|[|f]]; [lia|lia|].
    assert (SF' : simple_font st n font).
    { destruct SF as [N F]. split; [assumption|]. eapply Forall_impl; [|exact F]. intros p (A & B & C & D).
      split; [eapply there_ext; eauto|]. split; [exact B|]. split; [eapply hinted_ext; eauto|exact D]. }
    destruct (masters_ok f order ps font n st OK SF') as (outs & st' & E & L & O & X' & R).
    exists outs, st'. split; [exact E|]. split; [exact L|]. intros i j oi oj k name g gs Hi Hj Hk C.
    assert (Ri := R i oi Hi). assert (Rj := R j oj Hj).
    assert (P : forall o m, Forall2 (shown ps st' m) font o -> exists a, nth_error o k = Some (name, a) /\ shown ps st' m (name, g) (name, a)).
    { intros o m F2. clear - F2 Hk. revert k Hk. induction F2 as [|p q font o S F2 IH]; intros [|k] Hk; try discriminate; cbn [nth_error] in *.
      - injection Hk as ->. destruct q as [q1 q2]. pose proof (proj1 S) as S1. cbn [fst] in S1. subst q1. eauto.
      - eauto. }
    destruct (P oi i Ri) as (a & Ha & Sa). destruct (P oj j Rj) as (b & Hb & Sb). exists a, b. split; [assumption|]. split; [assumption|].
    destruct SF' as [N F]. rewrite Forall_forall in F. destruct (F (name, g) (nth_error_In _ _ Hk)) as ((x0 & I0) & _ & _ & MO). cbn [fst snd] in *.
    destruct (X' _ _ I0) as (x & I & _).
    destruct Sa as (_ & Sa & _). destruct Sb as (_ & Sb & _). destruct (Sa x gs I C) as [Ca _]. destruct (Sb x gs I C) as [Cb _]. cbn [snd] in Ca, Cb.
    assert (Li : (i < n)%nat) by (rewrite <- L; apply nth_error_Some; congruence).
    assert (Lj : (j < n)%nat) by (rewrite <- L; apply nth_error_Some; congruence).
    destruct (MO i Li) as (Fi & _). destruct (MO j Lj) as (Fj & _). destruct C as [Ec C]. rewrite <- Ec in Fi, Fj.
    destruct (flush_all_nth i (labels_of x) gs 0 []) as [La Na]. destruct (flush_all_nth j (labels_of x) gs 0 []) as [Lb Nb].
    rewrite <- Ca in La, Na. rewrite <- Cb in Lb, Nb. split; [assumption|]. split; [assumption|].
    intros q nodes c d Hq Hc Hd. rewrite (Na q nodes Hq) in Hc. rewrite (Nb q nodes Hq) in Hd. injection Hc as <-. injection Hd as <-.
    apply group_compatible.
    - rewrite Forall_forall in C. apply C. eapply nth_error_In; eauto.
    - eapply forall_group; eauto.
    - eapply forall_group; eauto.
  Qed.

  (** C81. A glyph without components has one hint set for each node from which on stems are in force, and its point tag
      is the name of the point of the node, unless this node is the first of a contour that ends at its start. *)
  Theorem C81_tags : forall m name g gs, simple_glyph st0 name (Z.of_nat (List.length (eg_nodes g))) ->
    contours_of (eg_nodes g) gs -> master_ok g m -> masks_ok g ->
    exists out st', export_glyph fuel order true (Z.of_nat m) name g st = Ok (out, st') /\
      hints_said m g (ex_contours out) (ex_hints out).
  Proof.
    intros m name g gs Sg C MO MK. destruct (reached fuel order st0 st hist labels Fr G Hf Run) as [OK X].
    assert (Hff : exists f, fuel = S (S f)) by (destruct fuel as [|[|f]]; [lia|lia|eauto]). destruct Hff as (f & Ef).
    assert (Sg' : simple_glyph st name (Z.of_nat (List.length (eg_nodes g)))) by (eapply simple_ext; eauto).
    assert (Th : exists y, In (name, y) st) by (destruct Sg' as (y & Iy & _); eauto).
    destruct (glyph_step f order true name g m st gs OK Th C (or_intror (conj Sg' MK)) MO) as (hs & st' & x & E & I & (O & X' & _) & _ & (h & v & MS & N & A & B)).
    rewrite <- Ef in E. exists (Exported hs (fst (flush_all m (labels_of x) 0 gs [])) (snd (flush_all m (labels_of x) 0 gs []))), st'. split; [exact E|].
    cbn [ex_hints ex_contours].
    assert (P : forall node tag, 0 <= node < Z.of_nat (List.length (eg_nodes g)) -> stored st' name node tag ->
      own_point m (eg_nodes g) (fst (flush_all m (labels_of x) 0 gs [])) node tag).
    { intros node tag Rn (y & J & K). split; [exact Rn|]. intros gs' C'. rewrite (contours_unique_flush m _ _ gs gs' (proj1 MO) C C').
      assert (y = x) by (eapply key_unique; eauto; apply O). subst y.
      assert (Lx : labels_of x node = Some tag).
      { unfold labels_of. apply (In_aget Z.eqb zeqb_eq); [|exact K]. pose proof (proj2 O _ _ J) as (_ & _ & Np & _). exact Np. }
      exact (node_point m (labels_of x) (eg_nodes g) gs' node tag (proj1 MO) C' Rn Lx). }
    exists h, v. split; [exact MS|]. split; [exact N|]. split.
    - intros tag texts Ht. destruct (A _ _ Ht) as (node & stems & l & Hs & Rn & St & V). exists node, stems, l. auto.
    - intros node stems Hs. destruct (B _ _ Hs) as (Rn & tag & l & St & V). exists tag, l. auto.
  Qed.
End Font.

(** ** Where the full claims fail *)
Definition ex_two : list mm_node :=
  [MMNode Move 0 [[(0, 0)]; [(0, 0)]]; MMNode Line 1 [[(100, 0)]; [(120, 0)]];
   MMNode Curve 0 [[(0, 0); (80, 60); (20, 60)]; [(1, 0); (90, 60); (30, 60)]]].
Definition ex_masks : list (pystr * Z) := [(py "h", 0); (py "r", 2); (py "v", 0)].
Definition ex_glyph : eglyph := EGlyph ex_two ex_masks [[(0, 20); (0, 22)]] [[(10, 15); (11, 16)]] (Links [(0, 1)] []).
Definition ex_store : store := [(py "a", LGlyph [] 3 [] [])].
Lemma ex_fresh : fresh_store ex_store.
Proof. split; [repeat constructor; intros []|]. constructor; [split; [reflexivity|]; split; [reflexivity|cbn; lia]|constructor]. Qed.
Lemma ex_contours_of : contours_of ex_two [ex_two].
Proof.
  split; [reflexivity|]. constructor; [|constructor]. eexists _, _. split; [reflexivity|]. split; [reflexivity|].
  repeat (constructor; [discriminate|]). constructor.
Qed.
Lemma ex_masks_ok : masks_ok ex_glyph.
Proof.
  exists [(0, [(py "h", 0)]); (2, [(py "v", 0)])]. split; [|split].
  - apply (next_set 0 [(py "h", 0)] 2 [(py "v", 0)]); [constructor; [now left|constructor]|]. apply one_set. constructor; [now right|constructor].
  - repeat (constructor; [cbn; lia|]). constructor.
  - repeat (constructor; [cbn; lia|]). constructor.
Qed.
Lemma ex_master_ok : forall m, (m < 2)%nat -> master_ok ex_glyph m.
Proof.
  intros m H. unfold master_ok. cbn [ex_glyph eg_nodes eg_h eg_v eg_links lk_x lk_y].
  assert (Hm : m = 0%nat \/ m = 1%nat) by lia.
  split; [|repeat split].
  - destruct Hm as [->| ->]; repeat (constructor; [eexists; split; reflexivity|]); constructor.
  - constructor; [exact H|constructor].
  - constructor; [exact H|constructor].
  - constructor; [|constructor]. split; [|right; right]; destruct Hm as [->| ->];
      (eexists; split; [cbn; lia|]; eexists _, _, _, _; split; [reflexivity|]; split; reflexivity).
  - constructor.
Qed.
Lemma ex_simple_font : simple_font ex_store 2 [(py "a", ex_glyph)].
Proof.
  split; [repeat constructor; intros []|]. constructor; [|constructor]. cbn [fst snd]. split; [|split; [|split]].
  - eexists. now left.
  - exists [ex_two]. apply ex_contours_of.
  - right. split; [|apply ex_masks_ok]. eexists. split; [now left|]. split; reflexivity.
  - apply ex_master_ok.
Qed.

(** Compatible masters of the VFB do not always give compatible UFOs: a contour may end at its start in one
    master only. *)
Theorem C80_refuted : exists order st font outs st' o0 o1 name a b c d,
  fresh_store st /\ simple_font st 2 font /\ export_masters 2 order true 0 2 font st = Ok (outs, st') /\
  nth_error outs 0 = Some o0 /\ nth_error outs 1 = Some o1 /\
  nth_error o0 0 = Some (name, a) /\ nth_error o1 0 = Some (name, b) /\
  nth_error (ex_contours a) 0 = Some c /\ nth_error (ex_contours b) 0 = Some d /\ List.length c <> List.length d.
Proof.
  exists [py "a"], ex_store, [(py "a", ex_glyph)]. do 9 eexists. split; [exact ex_fresh|]. split; [exact ex_simple_font|].
  split; [vm_compute; reflexivity|]. repeat (split; [reflexivity|]). discriminate.
Qed.
(** With components, the names may differ although the coordinates agree: a hinted composite adds the name of
    its point to the component, which has been exported before for the first master. *)
Definition ex_base : eglyph :=
  EGlyph [MMNode Move 0 [[(0, 0)]; [(0, 0)]]; MMNode Line 0 [[(50, 0)]; [(60, 0)]]; MMNode Line 0 [[(50, 70)]; [(60, 70)]]]
         [] [] [] (Links [] []).
Definition ex_comp : eglyph := EGlyph [] [] [[(0, 20); (0, 22)]] [] (Links [] []).
Definition ex_store2 : store := [(py "a", LGlyph [] 3 [] []); (py "b", LGlyph [0] 0 [] [])].
Theorem C80_composite_refuted : exists order st font outs st' o0 o1 name a b c d nodes,
  fresh_store st /\ font = [(name, nodes); (py "b", ex_comp)] /\
  export_masters 2 order true 0 2 font st = Ok (outs, st') /\
  nth_error outs 0 = Some o0 /\ nth_error outs 1 = Some o1 /\
  nth_error o0 0 = Some (name, a) /\ nth_error o1 0 = Some (name, b) /\
  nth_error (ex_contours a) 0 = Some c /\ nth_error (ex_contours b) 0 = Some d /\
  ~ joined 0 (eg_nodes nodes) /\ ~ joined 1 (eg_nodes nodes) /\
  Forall (fun p => up_name p = None) c /\ ~ Forall (fun p => up_name p = None) d.
Proof.
  exists [py "a"; py "b"], ex_store2, [(py "a", ex_base); (py "b", ex_comp)]. do 9 eexists. exists ex_base.
  split; [split; [repeat constructor; cbn; intuition discriminate|repeat (constructor; [split; [reflexivity|]; split; [reflexivity|cbn; lia]|]); constructor]|]. split; [reflexivity|].
  split; [vm_compute; reflexivity|]. do 6 (split; [reflexivity|]).
  split; [|split; [|split]].
  - intros (_ & n & mid & l & E & T & _). cbn [ex_base eg_nodes] in E.
    destruct mid as [|? [|? [|? [|? ?]]]]; try discriminate; cbn [app] in E; injection E; intros; subst; discriminate.
  - intros (_ & n & mid & l & E & T & _). cbn [ex_base eg_nodes] in E.
    destruct mid as [|? [|? [|? [|? ?]]]]; try discriminate; cbn [app] in E; injection E; intros; subst; discriminate.
  - repeat (constructor; [reflexivity|]). constructor.
  - intros F. apply Forall_inv in F. discriminate.
Qed.

(** Hint sets that refer to no point: the hints of a contour that ends at its start, replaced at the end, and
    the hints of a composite. *)
Theorem C81_refuted : exists order st m name g gs out st' tag texts,
  fresh_store st /\ simple_glyph st name (Z.of_nat (List.length (eg_nodes g))) /\ contours_of (eg_nodes g) gs /\
  master_ok g m /\ masks_ok g /\ export_glyph 2 order true (Z.of_nat m) name g st = Ok (out, st') /\
  In (tag, texts) (ex_hints out) /\ ~ names_point (ex_contours out) tag.
Proof.
  exists [py "a"], ex_store, 0%nat, (py "a"), ex_glyph, [ex_two]. do 4 eexists.
  split; [exact ex_fresh|]. split; [eexists; split; [now left|split; reflexivity]|]. split; [exact ex_contours_of|].
  split; [apply ex_master_ok; lia|]. split; [exact ex_masks_ok|]. split; [vm_compute; reflexivity|]. split; [now left|].
  intros (c & p & Hc & Hp & E). cbn [ex_contours In] in Hc. destruct Hc as [<-|[]].
  cbn [In] in Hp. repeat (destruct Hp as [<-|Hp]; [discriminate E|]). contradiction.
Qed.
Theorem C81_composite_refuted : exists order st font outs st' o b tag texts,
  fresh_store st /\ font = [(py "a", ex_base); (py "b", ex_comp)] /\
  export_masters 2 order true 0 1 font st = Ok (outs, st') /\ nth_error outs 0 = Some o /\
  nth_error o 1 = Some (py "b", b) /\ In (tag, texts) (ex_hints b) /\
  forall name a, In (name, a) o -> ~ names_point (ex_contours a) tag.
Proof.
  exists [py "a"; py "b"], ex_store2, [(py "a", ex_base); (py "b", ex_comp)]. do 6 eexists.
  split; [split; [repeat constructor; cbn; intuition discriminate|repeat (constructor; [split; [reflexivity|]; split; [reflexivity|cbn; lia]|]); constructor]|]. split; [reflexivity|].
  split; [vm_compute; reflexivity|]. split; [reflexivity|]. split; [reflexivity|]. split; [now left|].
  intros name a H. cbn [In] in H. destruct H as [H|[H|[]]]; injection H as <- <-; intros (c & p & Hc & Hp & E); cbn [ex_contours In] in Hc.
  - destruct Hc as [<-|[]]. cbn [In] in Hp. repeat (destruct Hp as [<-|Hp]; [discriminate E|]). contradiction.
  - contradiction.
Qed.

(** A glyph with hint replacement inside a contour: both tags name points. *)
Example tags_example : exists out st',
  export_glyph 2 [py "a"] true 1 (py "a") ex_glyph ex_store = Ok (out, st') /\
  map fst (ex_hints out) = [py "hr00"; py "hr01"] /\
  names_point (ex_contours out) (py "hr00") /\ names_point (ex_contours out) (py "hr01").
Proof.
  eexists _, _. split; [vm_compute; reflexivity|]. split; [reflexivity|].
  split; eexists _, _; (split; [now left|]).
  - split; [left; reflexivity|]. reflexivity.
  - split; [do 4 right; left; reflexivity|]. reflexivity.
Qed.

Print Assumptions C80_compatible.
Print Assumptions C80_refuted.
Print Assumptions C80_composite_refuted.
Print Assumptions C81_tags.
Print Assumptions C81_refuted.
Print Assumptions C81_composite_refuted.
