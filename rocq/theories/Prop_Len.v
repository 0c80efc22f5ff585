(** C101: the number of contours of a glyph. *)
From Coq Require Import String ZifyBool ZifyNat.
From Verif Require Import Base Lib M_Py M_Text M_Glyph M_Paths M_Pens M_Len S_Paths S_Pens P_Glyph P_Paths P_Pens Prop_Paths Prop_Pens.
Local Open Scope list_scope.

(** how many contours the calls of a pen start *)
Definition moves (calls : list seg_call) : nat := List.length (filter (fun c => match c with PMove _ => true | _ => false end) calls).
Definition begins (calls : list (M_Paths.pen_call Z)) : nat := List.length (filter (fun c => match c with BeginPath => true | _ => false end) calls).
Definition ends (calls : list (M_Paths.pen_call Z)) : nat := List.length (filter (fun c => match c with EndPath => true | _ => false end) calls).

Lemma count_app : forall a b, count_moves (a ++ b) = count_moves a + count_moves b.
Proof. induction a as [|n a IH]; intros b; cbn [app count_moves]; [reflexivity|]. rewrite IH. lia. Qed.
Lemma count_pos : forall l, 0 <= count_moves l.
Proof. induction l as [|n l IH]; cbn [count_moves]; [lia|]. destruct (cmd_eqb _ _); lia. Qed.
Lemma moves_app : forall a b, moves (a ++ b) = (moves a + moves b)%nat.
Proof. intros a b. unfold moves. rewrite filter_app, app_length. reflexivity. Qed.
Lemma moves_finish : forall st, moves (finish st) = 0%nat.
Proof. intros st. unfold finish. destruct (ds_in_path st); [|reflexivity]. destruct (ds_open st); reflexivity. Qed.

Lemma draw_moves : forall m nodes st calls st', draw_nodes m nodes st = Ok (calls, st') -> Z.of_nat (moves calls) = count_moves nodes.
Proof.
  intros m nodes. induction nodes as [|n nodes IH]; intros st calls st' H; cbn [draw_nodes count_moves] in *; [injection H as <- <-; reflexivity|].
  destruct (draw_node m n st) as [[c st1]|] eqn:E; [|discriminate]. cbn [rthen fst snd] in H. destruct (draw_nodes m nodes st1) as [[cs st2]|] eqn:E2; [|discriminate].
  cbn [rthen fst snd] in H. injection H as <- <-. rewrite moves_app, Nat2Z.inj_add. rewrite (IH _ _ _ E2). f_equal. clear - E. unfold draw_node in E.
  destruct (py_index (nd_points n) m) as [row|]; [|discriminate]. cbn [rthen] in E. destruct (py_index row 0) as [pt|]; [|discriminate]. cbn [rthen] in E.
  destruct (nd_type n); cbn [cmd_eqb].
  - injection E as <- <-. rewrite !moves_app, moves_finish. destruct (ds_in_q st); reflexivity.
  - destruct (ds_in_q st); injection E as <- <-; reflexivity.
  - destruct row as [|a [|b [|d [|]]]]; try discriminate. injection E as <- <-. reflexivity.
  - injection E as <- <-. reflexivity.
Qed.
(** ** The number is that of the contours that draw gives, *)
Theorem C101_draw : forall order m g calls n, draw order m g = Ok calls -> glyph_len g = Ok n -> Z.of_nat (moves calls) = n.
Proof.
  intros order m g calls n D L. unfold glyph_len in L. unfold draw in D. destruct (g_nodes g) as [nodes|]; [|discriminate].
  destruct (draw_nodes m nodes draw_start) as [[cs st]|] eqn:E; [|discriminate]. cbn [rthen fst snd] in D. destruct (res_map _ _) as [xs|]; [|discriminate]. cbn [rthen] in D. injection D as <-.
  rewrite !moves_app, moves_finish. assert (X : moves (map (fun c : pystr * list Z => PComponent (fst c) (snd c)) xs) = 0%nat) by (clear; induction xs; auto).
  rewrite X, Nat.add_0_l, Nat.add_0_r. rewrite (draw_moves _ _ _ _ _ E). destruct nodes; injection L as <-; reflexivity.
Qed.

Lemma append_count : forall st, List.length (ps_contours (append_contour st)) =
  (List.length (ps_contours st) + match ps_contour st with [] => 0 | _ => 1 end)%nat.
Proof.
  intros st. unfold append_contour. destruct (ps_contour st) as [|p0 rest]; [lia|]. destruct (flush_contour _ _ _ _) as [c r]. cbn [ps_contours]. rewrite app_length. reflexivity.
Qed.
Definition started (st : pstate) : nat := (List.length (ps_contours st) + match ps_contour st with [] => 0 | _ => 1 end)%nat.
Lemma turn_count : forall m name n st st', node_turn m name n st = Ok st' ->
  ps_contour st' <> [] /\ (ps_contour st <> [] \/ nd_type n = Move -> Z.of_nat (started st') = Z.of_nat (started st) + if cmd_eqb (nd_type n) Move then 1 else 0).
Proof.
  intros m name n st st' H. unfold node_turn in H. destruct (py_index (nd_points n) m) as [row|]; [|discriminate]. cbn [rthen] in H. destruct (py_index row 0) as [pt|]; [|discriminate]. cbn [rthen] in H.
  pose proof (append_count st) as A. destruct (nd_type n); cbn [cmd_eqb].
  - injection H as <-. cbn [ps_contour ps_contours]. split; [discriminate|]. intros _. unfold started at 1. cbn [ps_contour ps_contours]. rewrite A. unfold started. lia.
  - injection H as <-. unfold add_points, started. cbn [ps_contour ps_contours]. split; [destruct (ps_contour st); discriminate|]. intros [Ne|]; [|discriminate]. destruct (ps_contour st); [congruence|]. cbn [app]. lia.
  - destruct row as [|a [|b [|d [|]]]]; try discriminate. injection H as <-. unfold add_points, started. cbn [ps_contour ps_contours]. split; [destruct (ps_contour st); discriminate|]. intros [Ne|]; [|discriminate]. destruct (ps_contour st); [congruence|]. cbn [app]. lia.
  - injection H as <-. unfold add_points, started. cbn [ps_contour ps_contours]. split; [destruct (ps_contour st); discriminate|]. intros [Ne|]; [|discriminate]. destruct (ps_contour st); [congruence|]. cbn [app]. lia.
Qed.
Lemma loop_count : forall m labels nodes i st st', nodes_loop m labels i nodes st = Ok st' -> ps_contour st <> [] \/ (exists n rest, nodes = n :: rest /\ nd_type n = Move) \/ nodes = [] ->
  Z.of_nat (started st') = Z.of_nat (started st) + count_moves nodes.
Proof.
  intros m labels nodes. induction nodes as [|n nodes IH]; intros i st st' H S; cbn [nodes_loop count_moves] in *; [injection H as <-; lia|].
  destruct (node_turn m (labels i) n st) as [st1|] eqn:E; [|discriminate]. cbn [rthen] in H. destruct (turn_count _ _ _ _ _ E) as (Ne & C). rewrite (IH _ _ _ H) by (now left). rewrite C; [lia|].
  destruct S as [S|[(? & ? & [= <- <-] & S)|S]]; auto. discriminate S.
Qed.
Lemma begins_draw : forall cs, begins (draw_points cs []) = List.length cs /\ ends (draw_points cs []) = List.length cs.
Proof.
  intros cs. unfold draw_points, begins, ends. cbn [map]. rewrite app_nil_r. induction cs as [|c cs (IH1 & IH2)]; [split; reflexivity|]. cbn [map concat app].
  assert (X : forall f : M_Paths.pen_call Z -> bool, (forall p, f (AddPoint p) = false) -> filter f (map AddPoint c) = []) by (intros f F; clear - F; induction c as [|p c IH]; [reflexivity|]; cbn [map filter]; now rewrite F).
  split; cbn [filter]; rewrite <- ?app_assoc, !filter_app, X by reflexivity; cbn [app filter List.length]; lia.
Qed.
(** and of those that drawPoints gives, if the outline starts with a node of type move, *)
Theorem C101_points : forall m g cs calls n, draw_cached m g None = (Some cs, Ok calls) -> glyph_len g = Ok n ->
  g_nodes g = Some [] \/ (exists a rest, g_nodes g = Some (a :: rest) /\ nd_type a = Move) ->
  Z.of_nat (begins calls) = n /\ Z.of_nat (ends calls) = n.
Proof.
  intros m g cs calls n D L S. unfold draw_cached in D. unfold glyph_len in L. destruct (g_nodes g) as [nodes|]; [|discriminate].
  unfold extract_contours in D. destruct (nodes_loop m (fun _ => None) 0 nodes (PState [] [] [] false false)) as [st|] eqn:E; [|discriminate]. cbn [rmap] in D. injection D as <- <-.
  destruct (begins_draw (ps_contours (append_contour st))) as (-> & ->). rewrite append_count. fold (started st). rewrite (loop_count _ _ _ _ _ _ E).
  - cbn. destruct nodes; injection L as <-; split; reflexivity.
  - destruct S as [[= ->]|(a & rest & [= ->] & T)]; right; [now right|left; eauto].
Qed.
(** but not otherwise: then drawPoints gives one contour that is not counted. *)
Theorem C101_headless_refuted : forall p q f, exists g cs calls, draw_cached 0 g None = (Some cs, Ok calls) /\
  glyph_len g = Ok 0 /\ begins calls = 1%nat /\ the (g_nodes g) = [MMNode Line f [[p]]; MMNode Line f [[q]]].
Proof.
  intros p q f. exists (with_nodes [MMNode Line f [[p]]; MMNode Line f [[q]]]). unfold draw_cached. cbn [g_nodes with_nodes].
  destruct (extract_contours 0 (fun _ => None) [MMNode Line f [[p]]; MMNode Line f [[q]]]) as [[cs r]|] eqn:E; [|vm_compute in E; discriminate].
  exists cs, (draw_points cs []). split; [reflexivity|]. split; [reflexivity|]. split; [|reflexivity].
  rewrite (proj1 (begins_draw cs)). unfold extract_contours in E. destruct (nodes_loop _ _ _ _ _) as [st|] eqn:N; [|discriminate]. cbn [rmap] in E. injection E as <- <-. rewrite append_count. vm_compute in N. injection N as <-. reflexivity.
Qed.

(** ** A glyph without contours has none, in both, *)
Theorem C101_cleared : forall g order m calls, glyph_len (clear_data g) = Ok 0 /\ (draw order m (clear_data g) = Ok calls -> moves calls = 0%nat).
Proof. intros g order m calls. split; [reflexivity|]. intros D. apply (C101_draw _ _ _ _ 0) in D; [lia|reflexivity]. Qed.

(** ** and drawing into a glyph adds as many as contours with points were drawn. *)
Definition pcalls_of (c : list (Z * Z * option seg)) : list pcall := CBegin :: map (fun x => CPoint (fst x) (snd x)) c ++ [CEnd].
Lemma points_run : forall masters order ps path q ns cs rest st, pen_calls masters order (map (fun x => CPoint (fst x) (snd x)) ps ++ rest) (PenSt (Some path) q ns cs) = Ok st -> path <> [] ->
  exists path' q', pen_calls masters order rest (PenSt (Some (path ++ path')) q' ns cs) = Ok st /\ count_moves path' = 0.
Proof.
  intros masters order ps. induction ps as [|[p t] ps IH]; intros path q ns cs rest st H Ne; cbn [map app] in H.
  - exists [], q. rewrite app_nil_r. split; [assumption|reflexivity].
  - cbn [pen_calls fst snd M_Pens.pen_call pe_path pe_in_q pe_nodes pe_components] in H. destruct path as [|a path]; [congruence|].
    assert (X : forall ty q1, nd_type (pen_node masters 0 ty p) <> Move -> rthen (Ok (PenSt (Some ((a :: path) ++ [pen_node masters 0 ty p])) q1 ns cs)) (pen_calls masters order (map (fun x => CPoint (fst x) (snd x)) ps ++ rest)) = Ok st ->
      exists path' q', pen_calls masters order rest (PenSt (Some ((a :: path) ++ path')) q' ns cs) = Ok st /\ count_moves path' = 0).
    { intros ty q1 T H1. cbn [rthen] in H1. apply IH in H1; [|discriminate]. destruct H1 as (path' & q' & H1 & C). rewrite <- app_assoc in H1. eexists _, q'. split; [exact H1|]. cbn [app count_moves]. rewrite C. cbn [pen_node nd_type] in *. destruct ty; [congruence|reflexivity..]. }
    destruct t as [[]|]; try discriminate H; (eapply X; [|exact H]; discriminate).
Qed.
Lemma contour_run : forall masters order c q ns cs rest st, pen_calls masters order (pcalls_of c ++ rest) (PenSt None q ns cs) = Ok st ->
  exists path q', pen_calls masters order rest (PenSt None q' (Some (the ns ++ path)) cs) = Ok st /\ count_moves path = match c with [] => 0 | _ => 1 end.
Proof.
  intros masters order c q ns cs rest st H. unfold pcalls_of in H. cbn [app pen_calls M_Pens.pen_call rthen pe_in_q pe_nodes pe_components] in H. destruct c as [|[p t] c].
  - cbn [map app pen_calls M_Pens.pen_call pe_path rthen pe_in_q pe_nodes pe_components] in H. exists [], q. split; [exact H|reflexivity].
  - cbn [map app pen_calls M_Pens.pen_call pe_path rthen pe_in_q pe_nodes pe_components fst snd] in H. rewrite <- app_assoc in H. apply points_run in H; [|discriminate].
    destruct H as (path' & q' & H & C). cbn [app pen_calls M_Pens.pen_call pe_path rthen pe_in_q pe_nodes pe_components] in H. eexists _, q'. split; [exact H|]. cbn [count_moves pen_node nd_type cmd_eqb]. rewrite C. reflexivity.
Qed.
Lemma contours_run : forall masters order css q ns cs st, pen_calls masters order (concat (map pcalls_of css)) (PenSt None q ns cs) = Ok st ->
  count_moves (the (pe_nodes st)) = count_moves (the ns) + Z.of_nat (List.length (filter (fun c => match c with [] => false | _ => true end) css)) /\ (css <> [] \/ ns <> None -> pe_nodes st <> None).
Proof.
  intros masters order css. induction css as [|c css IH]; intros q ns cs st H; cbn [map concat] in H.
  - cbn [pen_calls] in H. injection H as <-. cbn [pe_nodes filter List.length]. split; [lia|]. intros [H|H]; congruence.
  - apply contour_run in H. destruct H as (path & q' & H & C). apply IH in H. destruct H as (E & N). rewrite E. split; [|intros _; apply N; right; discriminate]. unfold the at 1. rewrite count_app, C.
    cbn [filter]. destruct c; cbn [List.length]; lia.
Qed.
Theorem C101_pen : forall masters order g n css st, glyph_len g = Ok n -> pen_calls masters order (concat (map pcalls_of css)) (pen_start g) = Ok st ->
  glyph_len (pen_result g st) = Ok (n + Z.of_nat (List.length (filter (fun c => match c with [] => false | _ => true end) css))).
Proof.
  intros masters order g n css st L H. unfold pen_start in H. apply contours_run in H. destruct H as (E & N). unfold glyph_len in *. cbn [pen_result g_nodes]. destruct (g_nodes g) as [nodes|]; [|discriminate].
  destruct (pe_nodes st) as [l|]; [|exfalso; apply N; [right; discriminate|reflexivity]]. cbn [the] in E. assert (Ln : n = count_moves nodes) by (destruct nodes; injection L as <-; reflexivity). rewrite Ln, <- E. destruct l; reflexivity.
Qed.

(** ** Examples: a glyph with a closed and an open contour, drawn and drawn into. *)
Definition len_ex : glyph := with_nodes [nd Move 0 [(0, 0)]; nd Line 0 [(10, 0)]; nd QCurve 0 [(10, 10)]; nd Line 0 [(0, 10)]; nd Move 8 [(5, 5)]; nd Line 0 [(6, 6)]].
Example C101_ex : glyph_len len_ex = Ok 2 /\ (exists calls, draw [] 0 len_ex = Ok calls /\ moves calls = 2%nat) /\
  (exists cs calls, draw_cached 0 len_ex None = (Some cs, Ok calls) /\ begins calls = 2%nat) /\
  (exists st, pen_calls 1 [] (concat (map pcalls_of [[((1, 1), Some SLine); ((2, 2), Some SLine)]; []])) (pen_start len_ex) = Ok st /\ glyph_len (pen_result len_ex st) = Ok 3).
Proof.
  split; [reflexivity|]. split; [eexists; split; reflexivity|]. split; [do 2 eexists; split; reflexivity|]. eexists. split; reflexivity.
Qed.
Print Assumptions C101_draw.
Print Assumptions C101_points.
Print Assumptions C101_headless_refuted.
Print Assumptions C101_cleared.
Print Assumptions C101_pen.
