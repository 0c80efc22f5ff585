(** C50: contours of the UFO. *)
From Coq Require Import String ZifyBool ZifyNat.
From Verif Require Import Base M_Py M_Text M_Glyph M_Paths S_Paths Lib P_Glyph P_Paths.
Local Open Scope list_scope.

(** Each contour of the node list becomes one contour, with all its points in order; only the end of a
    curve to the start of a closed contour is left out. *)
Theorem C50_contours : forall m labels nodes gs,
  Forall (node_ok m) nodes -> contours_of nodes gs ->
  exists cs renames, extract_contours (Z.of_nat m) labels nodes = Ok (cs, renames) /\
    List.length cs = List.length gs /\
    forall k g c, nth_error gs k = Some g -> nth_error cs k = Some c ->
      (joined m g -> map up_pt c = removelast (all_coords m g)) /\
      (~ joined m g -> map up_pt c = all_coords m g).
Proof.
  intros m labels nodes gs F C. rewrite (extract_ok m labels nodes gs F C).
  destruct (flush_all m labels 0 gs []) as [cs ren] eqn:E. exists cs, ren. split; [reflexivity|].
  destruct (flush_all_nth m labels gs 0 []) as [L N]. rewrite E in L, N. cbn [fst] in L, N. split; [assumption|].
  intros k g c Hg Hc. rewrite (N k g Hg) in Hc. injection Hc as <-. destruct C as [<- C]. apply flush_points.
  - rewrite Forall_forall in C. apply C. eapply nth_error_In; eauto.
  - apply nth_error_In in Hg. apply in_split in Hg. destruct Hg as (a & b & ->). rewrite concat_app in F. apply Forall_app in F.
    destruct F as [_ F]. cbn [concat] in F. apply Forall_app in F. tauto.
Qed.

(** What is drawn is the same: start, lines, curves with their control points, and whether the contour is
    open. *)
Theorem C50_path : forall m labels nodes gs,
  Forall (node_ok m) nodes -> contours_of nodes gs ->
  exists cs renames, extract_contours (Z.of_nat m) labels nodes = Ok (cs, renames) /\
    forall k n rest c, nth_error gs k = Some (n :: rest) -> nth_error cs k = Some c -> rest <> [] ->
      ufo_path c = Some (source_path m (Z.odd (nd_flags n / 8)) n rest).
Proof.
  intros m labels nodes gs F C. rewrite (extract_ok m labels nodes gs F C).
  destruct (flush_all m labels 0 gs []) as [cs ren] eqn:E. exists cs, ren. split; [reflexivity|].
  destruct (flush_all_nth m labels gs 0 []) as [L N]. rewrite E in L, N. cbn [fst] in L, N.
  intros k n rest c Hg Hc Ne. rewrite (N k _ Hg) in Hc. injection Hc as <-. destruct C as [_ C].
  rewrite Forall_forall in C. destruct (C _ (nth_error_In _ _ Hg)) as (n' & rest' & Eg & T & Tr). injection Eg as <- <-.
  rewrite <- bit3. now apply flush_path.
Qed.
(** A contour of one node becomes one point, of type move. *)
Theorem C50_single : forall m labels nodes gs k n,
  Forall (node_ok m) nodes -> contours_of nodes gs -> nth_error gs k = Some [n] ->
  exists cs renames c p, extract_contours (Z.of_nat m) labels nodes = Ok (cs, renames) /\
    nth_error cs k = Some c /\ c = [p] /\ up_type p = Some SMove /\ up_pt p = node_pt m n.
Proof.
  intros m labels nodes gs k n F C Hg. rewrite (extract_ok m labels nodes gs F C).
  destruct (flush_all m labels 0 gs []) as [cs ren] eqn:E. exists cs, ren.
  destruct (flush_all_nth m labels gs 0 []) as [L N]. rewrite E in L, N. cbn [fst] in L, N.
  exists [own m labels (0 + Z.of_nat (base gs k)) (Some SMove) n], (own m labels (0 + Z.of_nat (base gs k)) (Some SMove) n). split; [reflexivity|]. split.
  - rewrite (N k _ Hg). cbn [flush_group raw flush_contour last own up_type]. destruct (Z.testbit (nd_flags n) 3); reflexivity.
  - auto.
Qed.

(** The point of every node is at its place, smooth if the node is, and has the label of the node, or the
    label that the label was renamed to. *)
Theorem C50_named : forall m labels nodes gs,
  Forall (node_ok m) nodes -> contours_of nodes gs ->
  (forall i j l, labels i = Some l -> labels j = Some l -> i = j) ->
  exists cs renames, extract_contours (Z.of_nat m) labels nodes = Ok (cs, renames) /\
    forall k g c j n pos, nth_error gs k = Some g -> nth_error cs k = Some c ->
      nth_error g j = Some n -> place m g j pos ->
      exists p, nth_error c pos = Some p /\ up_pt p = node_pt m n /\
        (forall l, labels (Z.of_nat (base gs k + j)) = Some l ->
           up_name p = Some l \/ exists l', up_name p = Some l' /\ In (l, l') renames) /\
        (labels (Z.of_nat (base gs k + j)) = None -> ~ joined m g -> up_name p = None) /\
        (nd_type n <> QCurve -> (joined m g -> j <> 0%nat) -> up_smooth p = Z.odd (nd_flags n)).
Proof.
  intros m labels nodes gs F C Inj. rewrite (extract_ok m labels nodes gs F C). destruct C as [<- C].
  exists (fst (flush_all m labels 0 gs [])), (snd (flush_all m labels 0 gs [])). split; [now destruct (flush_all m labels 0 gs [])|].
  intros k g c j n pos Hg Hc Hn P.
  destruct (all_named m labels gs 0 [] k g c j n pos C F Inj Hg Hc Hn P) as (p & A & B & N1 & N2 & S).
  exists p. split; [assumption|]. split; [assumption|]. split; [|split].
  - intros l L. destruct (N1 l L) as [H|(l' & H & R)]; [auto|]. right. exists l'. split; [assumption|].
    now apply (aget_In str_eqb str_eqb_eq) in R.
  - exact N2.
  - rewrite <- bit0. exact S.
Qed.
(** Without labels (the mask) nothing is named and nothing is renamed. *)
Theorem C50_unnamed : forall m nodes gs, Forall (node_ok m) nodes -> contours_of nodes gs ->
  exists cs, extract_contours (Z.of_nat m) (fun _ => None) nodes = Ok (cs, []) /\
    Forall (Forall (fun p => up_name p = None)) cs.
Proof.
  intros m nodes gs F C. rewrite (extract_ok m _ nodes gs F C). destruct C as [_ C]. clear F.
  assert (H : forall gs i, Forall contour gs -> exists cs, flush_all m (fun _ => None) i gs [] = (cs, []) /\ Forall (Forall (fun p => up_name p = None)) cs).
  { clear. induction gs as [|g gs IH]; intros i C; [exists []; split; [reflexivity|constructor]|].
    inversion C as [|? ? (n & rest & -> & T & Tr) C']; subst. cbn [flush_all].
    assert (R : forall nodes i q, Forall (fun p => up_name p = None) (raw m (fun _ => None) i q nodes)).
    { clear. induction nodes as [|n nodes IH]; intros i q; cbn [raw]; [constructor|]. apply Forall_app. split; [|apply IH].
      unfold raw1. destruct (nd_type n); try (apply Forall_cons; [reflexivity|apply Forall_nil]); [apply Forall_nil|].
      apply Forall_app. split; [|apply Forall_cons; [reflexivity|apply Forall_nil]]. induction (tl (row m n)); constructor; auto. }
    destruct (flush_shape m (fun _ => None) i n rest [] Tr) as [[O E]|[(O & Er & E)|(O & mid & l & Er & [[Tl E]|[(Tl & Pl & E)|(Tl & Pl & E)]])]];
      rewrite E; destruct (IH (i + Z.of_nat (List.length (n :: rest))) C') as (cs & -> & Hcs);
      eexists; (split; [reflexivity|]); constructor; auto; constructor; auto;
      try reflexivity; try apply R.
    all: apply Forall_app; split; [apply R|]; apply Forall_forall; intros x Hx; apply in_map_iff in Hx; destruct Hx as (? & <- & _); reflexivity. }
  destruct (H gs 0 C) as (cs & -> & Hcs). eauto.
Qed.

(** Drawing gives the pen all points of all contours, each between one begin and one end. *)
Theorem C50_draw : forall F (contours : list (list upoint)) (components : list (ucomponent F)),
  balanced (draw_points contours components) contours.
Proof.
  intros F contours components. unfold draw_points. induction contours as [|c cs IH]; cbn [map concat app].
  - induction components; cbn [map]; [constructor|]. now constructor.
  - rewrite <- !app_assoc. cbn [app]. now apply bal_contour.
Qed.
(** Components refer to the glyph with their number and have the offsets of the master. *)
Theorem C50_components : forall F (round15 : F -> F) order m (cs : list (component F)),
  Forall (fun c => (m < List.length (co_scale_x c))%nat /\ (m < List.length (co_scale_y c))%nat /\
     (m < List.length (co_offset_x c))%nat /\ (m < List.length (co_offset_y c))%nat /\
     0 <= co_gid c < Z.of_nat (List.length order)) cs ->
  exists us, extract_components round15 order (Z.of_nat m) cs = Ok us /\
    Forall2 (fun c u => nth_error order (Z.to_nat (co_gid c)) = Some (uc_name _ u) /\
      nth_error (co_offset_x c) m = Some (uc_dx _ u) /\ nth_error (co_offset_y c) m = Some (uc_dy _ u) /\
      (exists x, nth_error (co_scale_x c) m = Some x /\ uc_xx _ u = round15 x) /\
      (exists y, nth_error (co_scale_y c) m = Some y /\ uc_yy _ u = round15 y)) cs us.
Proof.
  intros F round15 order m cs H.
  assert (X : forall A (l : list A), (m < List.length l)%nat -> exists x, py_index l (Z.of_nat m) = Ok x /\ nth_error l m = Some x).
  { intros A l L. destruct l as [|d l'] eqn:El; [cbn in L; lia|]. rewrite <- El in *. exists (nth m l d). split; [now apply py_index_nth|].
    now apply nth_error_nth'. }
  unfold extract_components. induction H as [|c cs (A & B & C & D & E) H IH]; cbn [res_map].
  - exists []. split; [reflexivity|constructor].
  - destruct IH as (us & -> & F2). unfold extract_component.
    destruct (X _ _ A) as (xx & -> & Nx). destruct (X _ _ B) as (yy & -> & Ny). destruct (X _ _ C) as (dx & -> & Ndx). destruct (X _ _ D) as (dy & -> & Ndy).
    assert (Y : exists x, py_index order (co_gid c) = Ok x /\ nth_error order (Z.to_nat (co_gid c)) = Some x).
    { destruct order as [|d l'] eqn:El; [cbn in E; lia|]. rewrite <- El in *. exists (nth (Z.to_nat (co_gid c)) order d). split.
      - replace (co_gid c) with (Z.of_nat (Z.to_nat (co_gid c))) at 1 by lia. apply py_index_nth. lia.
      - apply nth_error_nth'. lia. }
    destruct Y as (name & -> & Nn). cbn [rthen rmap]. eexists. split; [reflexivity|]. constructor; [|assumption].
    cbn. repeat split; eauto.
Qed.

(** A square that is closed by a line, an open quadratic curve and a joined pair of curves. *)
Definition ex_nodes : list mm_node :=
  let nd t f ps := MMNode t f [ps] in
  [nd Move 0 [(0, 0)]; nd Line 0 [(10, 0)]; nd Line 0 [(10, 10)]; nd Line 1 [(0, 10)];
   nd Move 8 [(20, 0)]; nd QCurve 0 [(25, 5)]; nd Line 0 [(30, 0)];
   nd Move 0 [(0, 50)]; nd Curve 1 [(10, 60); (0, 55); (5, 60)]; nd Curve 0 [(0, 50); (15, 60); (5, 45)]].
Example C50_example :
  Forall (node_ok 0) ex_nodes /\
  contours_of ex_nodes [firstn 4 ex_nodes; firstn 3 (skipn 4 ex_nodes); skipn 7 ex_nodes] /\
  joined 0 (skipn 7 ex_nodes) /\ ~ joined 0 (firstn 4 ex_nodes) /\ open_contour (firstn 3 (skipn 4 ex_nodes)) /\
  exists cs renames, extract_contours 0 (fun i => if i =? 7 then Some (py "hr00") else if i =? 9 then Some (py "at01") else None) ex_nodes
    = Ok (cs, renames) /\ renames = [(py "hr00", py "at01")] /\
    map (map up_pt) cs = [[(0, 0); (10, 0); (10, 10); (0, 10)]; [(20, 0); (25, 5); (30, 0)];
                          [(0, 50); (0, 55); (5, 60); (10, 60); (15, 60); (5, 45)]].
Proof.
  split; [|split; [|split; [|split; [|split]]]].
  - unfold ex_nodes. repeat apply Forall_cons; try apply Forall_nil; eexists; split; reflexivity.
  - split; [reflexivity|]. repeat apply Forall_cons; try apply Forall_nil; do 2 eexists; (split; [reflexivity|]); (split; [reflexivity|]);
      repeat apply Forall_cons; try apply Forall_nil; discriminate.
  - split.
    + intros (n & rest & E & O). injection E as <- _. discriminate O.
    + exists (nth 7 ex_nodes (MMNode Move 0 [])), [nth 8 ex_nodes (MMNode Move 0 [])], (nth 9 ex_nodes (MMNode Move 0 [])). repeat split.
  - intros (_ & n & mid & l & E & T & _). apply (f_equal (fun x => nd_type (last x (MMNode Move 0 [])))) in E.
    rewrite app_comm_cons, last_last, T in E. discriminate E.
  - do 2 eexists. split; reflexivity.
  - do 2 eexists. split; [vm_compute; reflexivity|]. split; reflexivity.
Qed.

Print Assumptions C50_contours.
Print Assumptions C50_path.
Print Assumptions C50_single.
Print Assumptions C50_named.
Print Assumptions C50_unnamed.
Print Assumptions C50_draw.
Print Assumptions C50_components.
