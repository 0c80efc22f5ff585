(** C49: labels of points. *)
From Coq Require Import String ZifyBool ZifyNat.
From Verif Require Import Base M_Py M_Labels S_Labels P_Labels.
Local Open Scope list_scope.

(** After any history of requests for points and side bearings of simple glyphs and of composites of
    simple glyphs, every request is answered, and for one glyph two answers are equal exactly when the
    points are. *)
Theorem C49_unique : forall fuel order st h,
  fresh_store st -> Forall (good_request st order) h -> (2 <= fuel)%nat ->
  exists labels st', run_requests fuel order st h = Ok (labels, st') /\ List.length labels = List.length h /\
    forall i j r q a b, nth_error h i = Some r -> nth_error h j = Some q ->
      nth_error labels i = Some a -> nth_error labels j = Some b -> rq_glyph r = rq_glyph q ->
      (a = b <-> rq_index r = rq_index q).
Proof.
  intros fuel order st h Fr G Hf. destruct fuel as [|[|f]]; [lia|lia|].
  destruct (run_requests_ok f order h st (fresh_ok st Fr) G) as (ls & st' & E & O & X & L).
  exists ls, st'. split; [assumption|]. split; [clear - L; induction L; cbn; congruence|].
  assert (N : forall i r l, nth_error h i = Some r -> nth_error ls i = Some l -> labelled st' order (rq_glyph r) (rq_index r) l).
  { clear - L. induction L as [|x y h ls H L IH]; intros [|i] r l A B; cbn in *; try discriminate; eauto. congruence. }
  intros i j r q a b Ar Aq La Lb Eg. pose proof (N _ _ _ Ar La) as H. pose proof (N _ _ _ Aq Lb) as K. rewrite <- Eg in K.
  split; [intros ->; eapply labelled_inj; eauto|]. intros Ei. rewrite <- Ei in K. eapply labelled_fun; eauto.
Qed.

(** The answers are the labels the exporter writes: at the end, the label of a point is stored with the
    point, for a composite with the point of the component, followed by the number of the component. *)
Theorem C49_attached : forall fuel order st h,
  fresh_store st -> Forall (good_request st order) h -> (2 <= fuel)%nat ->
  exists labels st', run_requests fuel order st h = Ok (labels, st') /\
    Forall2 (fun r l => labelled st' order (rq_glyph r) (rq_index r) l) h labels.
Proof.
  intros fuel order st h Fr G Hf. destruct fuel as [|[|f]]; [lia|lia|].
  destruct (run_requests_ok f order h st (fresh_ok st Fr) G) as (ls & st' & E & O & X & L). eauto.
Qed.

(** No two points of a simple glyph have the same label in the end. *)
Theorem C49_stored : forall fuel order st h labels st' g i j l,
  fresh_store st -> Forall (good_request st order) h -> (2 <= fuel)%nat ->
  run_requests fuel order st h = Ok (labels, st') ->
  stored st' g i l -> stored st' g j l -> i = j.
Proof.
  intros fuel order st h labels st' g i j l Fr G Hf E. destruct fuel as [|[|f]]; [lia|lia|].
  destruct (run_requests_ok f order h st (fresh_ok st Fr) G) as (ls & st2 & E2 & O & X & L).
  rewrite E in E2. injection E2 as <- <-. apply stored_inj. assumption.
Qed.

(** Composites of composites: two different points share a label. *)
Theorem C49_nested_refuted : exists order st g i j code l st',
  fresh_store st /\ i <> j /\
  (* [g] is made of a simple glyph with two points and of a composite of that glyph: four points *)
  (exists a b x y z, order = [a; b; g] /\ st = [(a, x); (b, y); (g, z)] /\
     lg_nodes x = 2 /\ lg_components y = [0] /\ lg_components z = [1; 0]) /\ 0 <= i < 4 + 2 /\ 0 <= j < 4 + 2 /\
  run_requests 5 order st [Request g i code 1; Request g j code 1] = Ok ([l; l], st').
Proof.
  exists [py "a"; py "b"; py "c"],
    [(py "a", LGlyph [] 2 [] []); (py "b", LGlyph [0] 0 [] []); (py "c", LGlyph [1; 0] 0 [] [])],
    (py "c"), 4, 5, (py "AlignTop"), (py "invalid").
  eexists. split.
  { split; [|repeat apply Forall_cons; try apply Forall_nil; (split; [reflexivity|]; split; [reflexivity|]; vm_compute; discriminate)].
    repeat apply NoDup_cons; try apply NoDup_nil; cbn; intuition discriminate. }
  split; [discriminate|]. split; [do 5 eexists; split; [reflexivity|]; split; [reflexivity|]; auto|].
  split; [lia|]. split; [lia|]. vm_compute. reflexivity.
Qed.

(** Glyphs with points and components: the same. *)
Theorem C49_mixed_refuted : exists order st g i j code l st',
  fresh_store st /\ i <> j /\
  (exists a x z, order = [a; g] /\ st = [(a, x); (g, z)] /\
     lg_nodes x = 2 /\ lg_components x = [] /\ lg_nodes z = 2 /\ lg_components z = [0]) /\
  0 <= i < 4 + 2 /\ 0 <= j < 4 + 2 /\
  run_requests 5 order st [Request g i code 1; Request g j code 1] = Ok ([l; l], st').
Proof.
  exists [py "a"; py "c"],
    [(py "a", LGlyph [] 2 [] []); (py "c", LGlyph [0] 2 [] [])], (py "c"), 4, 5, (py "AlignTop"), (py "invalid").
  eexists. split.
  { split; [|repeat apply Forall_cons; try apply Forall_nil; (split; [reflexivity|]; split; [reflexivity|]; vm_compute; discriminate)].
    repeat apply NoDup_cons; try apply NoDup_nil; cbn; intuition discriminate. }
  split; [discriminate|]. split; [do 3 eexists; split; [reflexivity|]; split; [reflexivity|]; auto|].
  split; [lia|]. split; [lia|]. vm_compute. reflexivity.
Qed.

(** A history that meets the hypotheses. *)
Example C49_example : exists st',
  let st := [(py "a", LGlyph [] 3 [] []); (py "acute", LGlyph [] 2 [] []); (py "aacute", LGlyph [0; 1] 0 [] [])] in
  let order := [py "a"; py "acute"; py "aacute"] in
  let h := [Request (py "aacute") 3 (py "AlignTop") 1; Request (py "a") 0 (py "DoubleLinkH") 1;
            Request (py "a") 1 (py "DoubleLinkH") 1; Request (py "aacute") 1 (py "AlignTop") 1;
            Request (py "aacute") 5 (py "AlignTop") 1; Request (py "aacute") 4 (py "AlignTop") 0;
            Request (py "acute") 0 (py "FDeltaV") 1] in
  fresh_store st /\ Forall (good_request st order) h /\
  run_requests 2 order st h =
    Ok ([py "at01-1"; py "dh01"; py "dh02"; py "dh02-0"; py "lsb"; py "at02-1"; py "at01"], st').
Proof.
  eexists. cbv zeta. split.
  { split; [|repeat apply Forall_cons; try apply Forall_nil; (split; [reflexivity|]; split; [reflexivity|]; vm_compute; discriminate)].
    repeat apply NoDup_cons; try apply NoDup_nil; cbn; intuition discriminate. }
  assert (S0 : forall st g n x, In (g, x) st -> lg_components x = [] -> lg_nodes x = n -> simple_glyph st g n) by (intros; eexists; eauto).
  assert (S1 : simple_glyph [(py "a", LGlyph [] 3 [] []); (py "acute", LGlyph [] 2 [] []); (py "aacute", LGlyph [0; 1] 0 [] [])] (py "a") 3)
    by (eapply S0; [now left|reflexivity|reflexivity]).
  assert (S2 : simple_glyph [(py "a", LGlyph [] 3 [] []); (py "acute", LGlyph [] 2 [] []); (py "aacute", LGlyph [0; 1] 0 [] [])] (py "acute") 2)
    by (eapply S0; [right; now left|reflexivity|reflexivity]).
  assert (P : points_of [(py "a", LGlyph [] 3 [] []); (py "acute", LGlyph [] 2 [] []); (py "aacute", LGlyph [0; 1] 0 [] [])]
                [py "a"; py "acute"; py "aacute"] (py "aacute") 5).
  { right. exists [(py "a", 3); (py "acute", 2)]. split; [|reflexivity]. split; [discriminate|].
    eexists. split; [right; right; now left|]. cbn [lg_components]. repeat apply Forall2_cons; try apply Forall2_nil; split; try reflexivity; assumption. }
  split.
  - repeat apply Forall_cons; try apply Forall_nil;
      (split; [|split; [vm_compute; tauto|vm_compute; discriminate]]); cbn [rq_glyph rq_index];
      first [exists 5; split; [exact P|lia] | exists 3; split; [left; exact S1|lia] | exists 2; split; [left; exact S2|lia]].
  - vm_compute. reflexivity.
Qed.

Print Assumptions C49_unique.
Print Assumptions C49_attached.
Print Assumptions C49_stored.
Print Assumptions C49_nested_refuted.
Print Assumptions C49_mixed_refuted.
