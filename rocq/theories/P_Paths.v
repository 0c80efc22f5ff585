(** Proofs about outlines. *)
From Coq Require Import String ZifyBool ZifyNat.
From Verif Require Import Base M_Py M_Text M_Glyph M_Paths S_Paths Lib P_Glyph P_Labels.
Local Open Scope list_scope.

Lemma last_snoc : forall A (a : list A) x d, last (a ++ [x]) d = x.
Proof. intros. apply last_last. Qed.
Lemma pt_eqb_eq : forall a b, pt_eqb a b = true <-> a = b.
Proof. intros [a b] [c d]. unfold pt_eqb. cbn [fst snd]. split; [intros H; f_equal; lia|intros [= -> ->]; lia]. Qed.
Lemma bit3 : forall z, Z.testbit z 3 = Z.odd (z / 8).
Proof. intros z. rewrite Z.testbit_odd, Z.shiftr_div_pow2 by lia. reflexivity. Qed.
Lemma bit0 : forall z, Z.testbit z 0 = Z.odd z.
Proof. intros z. apply Z.bit0_odd. Qed.


Section Paths.
  Variable m : nat.
  Variable labels : Z -> option pystr.
  Notation zm := (Z.of_nat m).

  (** the points of a node, of a list of nodes without move, of a contour *)
  Definition own (i : Z) (t : option seg) (n : mm_node) : upoint :=
    UPoint t (Z.testbit (nd_flags n) 0) (labels i) (node_pt m n).
  Definition raw1 (i : Z) (q : bool) (n : mm_node) : list upoint :=
    match nd_type n with
    | Move => []
    | Line => [own i (Some (if q then SQCurve else SLine)) n]
    | Curve => map (UPoint None false None) (tl (row m n)) ++ [own i (Some SCurve) n]
    | QCurve => [UPoint None false (labels i) (node_pt m n)]
    end.
  Definition next_q (n : mm_node) : bool := match nd_type n with QCurve => true | _ => false end.
  Fixpoint raw (i : Z) (q : bool) (nodes : list mm_node) : list upoint :=
    match nodes with
    | [] => []
    | n :: nodes => raw1 i q n ++ raw (i + 1) (next_q n) nodes
    end.
  Definition flush_group (i : Z) (g : list mm_node) (ren : list (pystr * pystr)) :=
    match g with
    | [] => ([], ren)
    | n :: rest => flush_contour (own i (Some SMove) n) (raw (i + 1) false rest) (Z.testbit (nd_flags n) 3) ren
    end.
  Fixpoint flush_all (i : Z) (gs : list (list mm_node)) (ren : list (pystr * pystr)) :=
    match gs with
    | [] => ([], ren)
    | g :: gs => let '(c, ren1) := flush_group i g ren in
                 let '(cs, ren2) := flush_all (i + Z.of_nat (List.length g)) gs ren1 in (c :: cs, ren2)
    end.

  Lemma node_ok_row : forall n, node_ok m n -> exists r, py_index (nd_points n) zm = Ok r /\ row m n = r /\
    List.length r = match nd_type n with Curve => 3%nat | _ => 1%nat end.
  Proof.
    intros n (r & E & L). exists r. unfold row. rewrite (nth_error_nth _ _ _ E). split; [|auto].
    assert (H : (m < List.length (nd_points n))%nat) by (apply nth_error_Some; congruence).
    rewrite (py_index_nth _ _ _ [] H). f_equal. now apply nth_error_nth.
  Qed.
  Lemma turn_rest : forall i n st, node_ok m n -> nd_type n <> Move ->
    node_turn zm (labels i) n st = Ok (add_points (raw1 i (ps_qcurve st) n) (next_q n) st).
  Proof.
    intros i n st OK T. destruct (node_ok_row n OK) as (r & E & R & L). unfold node_turn, raw1, own, next_q, node_pt. rewrite E, R. cbn [rthen].
    destruct (nd_type n); [congruence| | |].
    - destruct r as [|p [|? ?]]; try discriminate. reflexivity.
    - destruct r as [|p [|c1 [|c2 [|? ?]]]]; try discriminate. reflexivity.
    - destruct r as [|p [|? ?]]; try discriminate. reflexivity.
  Qed.
  Lemma turn_move : forall i n st, node_ok m n -> nd_type n = Move ->
    node_turn zm (labels i) n st =
    Ok (PState (ps_contours (append_contour st)) (ps_renames (append_contour st)) [own i (Some SMove) n]
               (Z.testbit (nd_flags n) 3) false).
  Proof.
    intros i n st OK T. destruct (node_ok_row n OK) as (r & E & R & L). unfold node_turn, own, node_pt. rewrite E, R. cbn [rthen].
    rewrite T in *. destruct r as [|p [|? ?]]; try discriminate. reflexivity.
  Qed.
  Definition last_q (q : bool) (nodes : list mm_node) : bool := fold_left (fun _ n => next_q n) nodes q.
  Lemma loop_rest : forall nodes i st tl, Forall (node_ok m) nodes -> Forall (fun n => nd_type n <> Move) nodes ->
    nodes_loop zm labels i (nodes ++ tl) st =
    nodes_loop zm labels (i + Z.of_nat (List.length nodes)) tl
      (add_points (raw i (ps_qcurve st) nodes) (last_q (ps_qcurve st) nodes) st).
  Proof.
    induction nodes as [|n nodes IH]; intros i st tl F T; cbn [app raw List.length].
    - replace (i + Z.of_nat 0) with i by lia. unfold add_points, last_q. cbn [fold_left]. rewrite app_nil_r. now destruct st.
    - inversion F; inversion T; subst. cbn [nodes_loop]. rewrite turn_rest by assumption. cbn [rthen].
      rewrite IH by assumption. f_equal; [lia|]. unfold add_points. cbn [ps_contours ps_renames ps_contour ps_open ps_qcurve last_q fold_left].
      rewrite <- app_assoc. reflexivity.
  Qed.
  Lemma loop_groups : forall gs i st, Forall (node_ok m) (concat gs) -> Forall contour gs ->
    rmap (fun st => let st := append_contour st in (ps_contours st, ps_renames st)) (nodes_loop zm labels i (concat gs) st) =
    Ok (let '(cs, ren) := flush_all i gs (ps_renames (append_contour st)) in (ps_contours (append_contour st) ++ cs, ren)).
  Proof.
    induction gs as [|g gs IH]; intros i st F C.
    - cbn [concat nodes_loop rmap flush_all]. rewrite app_nil_r. reflexivity.
    - inversion C as [|? ? (n & rest & -> & T & Tr) C']; subst. cbn [concat app] in F |- *.
      inversion F as [|? ? F1 F2]; subst. apply Forall_app in F2. destruct F2 as [F2 F3].
      cbn [nodes_loop]. rewrite turn_move by assumption. cbn [rthen]. rewrite loop_rest by assumption.
      rewrite IH by assumption. f_equal. unfold add_points.
      cbn [flush_all flush_group]. cbn [ps_contours ps_renames ps_contour ps_open ps_qcurve append_contour app].
      destruct (flush_contour _ _ _ _) as [c ren1]. cbn [ps_contours ps_renames].
      replace (i + Z.of_nat (List.length (n :: rest))) with (i + 1 + Z.of_nat (List.length rest)) by (cbn [List.length]; lia).
      destruct (flush_all _ _ _) as [cs ren2]. rewrite <- app_assoc. reflexivity.
  Qed.
  Theorem extract_ok : forall nodes gs, Forall (node_ok m) nodes -> contours_of nodes gs ->
    extract_contours zm labels nodes = Ok (flush_all 0 gs []).
  Proof.
    intros nodes gs F [<- C]. unfold extract_contours. rewrite loop_groups by assumption. f_equal.
    cbn [append_contour ps_contour ps_contours ps_renames app]. now destruct (flush_all 0 gs []).
  Qed.

  Lemma flush_group_fst : forall i g r r', fst (flush_group i g r) = fst (flush_group i g r').
  Proof.
    intros i [|n rest] r r'; [reflexivity|]. unfold flush_group, flush_contour, apply_closepath.
    destruct (Z.testbit _ _); [reflexivity|]. destruct (up_type _) as [[]|]; try reflexivity;
      destruct (_ && _); try reflexivity; destruct (up_name (own _ _ _)); try reflexivity; destruct (up_name (last _ _)); reflexivity.
  Qed.
  Lemma flush_all_nth : forall gs i ren, List.length (fst (flush_all i gs ren)) = List.length gs /\
    forall k g, nth_error gs k = Some g ->
      nth_error (fst (flush_all i gs ren)) k = Some (fst (flush_group (i + Z.of_nat (base gs k)) g [])).
  Proof.
    induction gs as [|g gs IH]; intros i ren; cbn [flush_all].
    - split; [reflexivity|]. intros [|k] g H; discriminate.
    - destruct (flush_group i g ren) as [c ren1] eqn:E. specialize (IH (i + Z.of_nat (List.length g)) ren1).
      destruct (flush_all _ gs ren1) as [cs ren2]. cbn [fst] in *. destruct IH as [L IH]. split; [cbn; congruence|].
      intros [|k] g' H; cbn [nth_error] in *.
      + injection H as <-. f_equal. unfold base. cbn [firstn concat List.length]. replace (i + Z.of_nat 0) with i by lia.
        rewrite (flush_group_fst i g [] ren), E. reflexivity.
      + rewrite (IH k g' H). do 3 f_equal. unfold base. cbn [firstn concat]. rewrite app_length. lia.
  Qed.

  (** ** Coordinates *)
  Lemma raw1_pts : forall i q n, nd_type n <> Move -> node_ok m n -> map up_pt (raw1 i q n) = coords m n.
  Proof.
    intros i q n T OK. destruct (node_ok_row n OK) as (r & E & R & L). unfold raw1, coords, own, node_pt. rewrite R.
    destruct (nd_type n); [congruence| | |]; try (destruct r as [|p [|? ?]]; try discriminate; reflexivity).
    rewrite map_app, map_map. cbn [up_pt map]. now rewrite map_id.
  Qed.
  Lemma raw_pts : forall nodes i q, Forall (node_ok m) nodes -> Forall (fun n => nd_type n <> Move) nodes ->
    map up_pt (raw i q nodes) = all_coords m nodes.
  Proof.
    induction nodes as [|n nodes IH]; intros i q F T; [reflexivity|]. inversion F; inversion T; subst.
    cbn [raw]. unfold all_coords. cbn [map concat]. rewrite map_app, raw1_pts, IH by assumption. reflexivity.
  Qed.
  Lemma move_coords : forall n, node_ok m n -> nd_type n = Move -> coords m n = [node_pt m n].
  Proof.
    intros n OK T. destruct (node_ok_row n OK) as (r & E & R & L). unfold coords. rewrite R. rewrite T in L.
    destruct r as [|p [|? ?]]; try discriminate. reflexivity.
  Qed.
  (** the last point *)
  Lemma raw_snoc : forall mid i q l, raw i q (mid ++ [l]) =
    raw i q mid ++ raw1 (i + Z.of_nat (List.length mid)) (last_q q mid) l.
  Proof.
    induction mid as [|n mid IH]; intros i q l; cbn [app raw List.length].
    - rewrite app_nil_r. replace (i + Z.of_nat 0) with i by lia. reflexivity.
    - rewrite IH, app_assoc. replace (i + 1 + Z.of_nat (List.length mid)) with (i + Z.of_nat (S (List.length mid))) by lia. reflexivity.
  Qed.
  Lemma raw1_last : forall i q n, nd_type n <> Move -> exists a, raw1 i q n = a ++
    [own i (match nd_type n with Curve => Some SCurve | QCurve => None | _ => Some (if q then SQCurve else SLine) end) n] \/
    (nd_type n = QCurve /\ raw1 i q n = [UPoint None false (labels i) (node_pt m n)]).
  Proof.
    intros i q n T. unfold raw1. destruct (nd_type n); [congruence| | |].
    - exists []. now left.
    - eexists. left. reflexivity.
    - exists []. right. auto.
  Qed.
  (** The four shapes of a flushed contour *)
  Definition is_joined (i : Z) (n : mm_node) (rest : list mm_node) : Prop :=
    Z.testbit (nd_flags n) 3 = false /\ exists mid l, rest = mid ++ [l] /\ nd_type l = Curve /\ node_pt m l = node_pt m n.
  Definition joined_name (i : Z) (rest : list mm_node) (l : upoint) : upoint :=
    match labels i, labels (i + Z.of_nat (List.length rest)) with
    | Some a, None => set_name a l
    | _, _ => l
    end.
  Lemma joined_name_pt : forall i rest l, up_pt (joined_name i rest l) = up_pt l.
  Proof. intros. unfold joined_name. destruct (labels i); [|reflexivity]. destruct (labels (i + Z.of_nat (List.length rest))); reflexivity. Qed.
  Lemma joined_name_type : forall i rest l, up_type (joined_name i rest l) = up_type l.
  Proof. intros. unfold joined_name. destruct (labels i); [|reflexivity]. destruct (labels (i + Z.of_nat (List.length rest))); reflexivity. Qed.
  Lemma flush_shape : forall i n rest ren, Forall (fun n => nd_type n <> Move) rest ->
    let p0 := own i (Some SMove) n in let ps := raw (i + 1) false rest in
    (Z.testbit (nd_flags n) 3 = true /\ flush_group i (n :: rest) ren = (p0 :: ps, ren)) \/
    (Z.testbit (nd_flags n) 3 = false /\ rest = [] /\ flush_group i (n :: rest) ren = ([p0], ren)) \/
    (Z.testbit (nd_flags n) 3 = false /\ exists mid l, rest = mid ++ [l] /\
      ((nd_type l = QCurve /\ flush_group i (n :: rest) ren = (set_type SQCurve p0 :: ps, ren)) \/
       (nd_type l = Curve /\ node_pt m l = node_pt m n /\
        let o := own (i + Z.of_nat (List.length rest)) (Some SCurve) l in
        flush_group i (n :: rest) ren =
          (joined_name i rest o :: raw (i + 1) false mid ++ map (UPoint None false None) (tl (row m l)),
           match labels i, labels (i + Z.of_nat (List.length rest)) with Some a, Some b => aset str_eqb a b ren | _, _ => ren end)) \/
       (nd_type l <> QCurve /\ (nd_type l = Curve -> node_pt m l <> node_pt m n) /\
        flush_group i (n :: rest) ren = (set_type SLine p0 :: ps, ren)))).
  Proof.
    intros i n rest ren T p0 ps. unfold flush_group. fold p0 ps. unfold flush_contour.
    destruct (Z.testbit (nd_flags n) 3) eqn:Eo; [left; auto|right].
    assert (Ne : rest = [] \/ rest <> []) by (destruct rest; [now left|right; discriminate]).
    destruct Ne as [Er|Ne]; [left; subst ps; rewrite Er; auto|]. right. split; [reflexivity|].
    destruct (exists_last Ne) as (mid & l & E). clear Ne.
    exists mid, l. split; [assumption|]. 
    assert (Eps : ps = raw (i + 1) false mid ++ raw1 (i + 1 + Z.of_nat (List.length mid)) (last_q false mid) l)
      by (subst ps; rewrite E; apply raw_snoc).
    clearbody ps. rewrite Eps. rewrite E in T. apply Forall_app in T. destruct T as [T Tl].
    assert (Tl' : nd_type l <> Move) by (inversion Tl; assumption). clear Tl.
    replace (i + 1 + Z.of_nat (List.length mid)) with (i + Z.of_nat (List.length rest)) by (rewrite E, app_length; cbn [List.length]; lia).
    set (j := i + Z.of_nat (List.length rest)).
    unfold raw1. destruct (nd_type l) eqn:Et; [congruence| | |].
    - right. right. split; [discriminate|]. split; [discriminate|]. rewrite last_snoc.
      unfold apply_closepath. rewrite last_snoc. cbn [own up_type].
      destruct (last_q false mid); rewrite andb_false_r; reflexivity.
    - right. rewrite app_assoc. rewrite last_snoc. unfold apply_closepath. rewrite last_snoc, removelast_last. cbn [own up_type up_pt up_name p0].
      rewrite andb_true_r. destruct (pt_eqb (node_pt m l) (node_pt m n)) eqn:Ep.
      + left. apply pt_eqb_eq in Ep. split; [reflexivity|]. split; [assumption|]. cbv zeta. unfold joined_name. fold j.
        destruct (labels i) as [a|], (labels j) as [b|]; reflexivity.
      + right. split; [discriminate|]. split; [|reflexivity].
        intros _ Eq. apply pt_eqb_eq in Eq. congruence.
    - left. split; [reflexivity|]. rewrite last_snoc. reflexivity.
  Qed.

  Lemma joined_iff : forall n rest, joined m (n :: rest) <->
    (Z.testbit (nd_flags n) 3 = false /\ exists mid l, rest = mid ++ [l] /\ nd_type l = Curve /\ node_pt m l = node_pt m n).
  Proof.
    intros n rest. unfold joined, open_contour. rewrite bit3. split.
    - intros [O (n' & mid & l & E & T & P)]. injection E as <- ->. split; [|eauto].
      destruct (Z.odd (nd_flags n / 8)) eqn:Eo; [|reflexivity]. exfalso. apply O. eauto.
    - intros [O (mid & l & -> & T & P)]. split; [|eauto 8].
      intros (n' & rest' & E & Eo). injection E as <- _. congruence.
  Qed.
  Theorem flush_points : forall i g, contour g -> Forall (node_ok m) g ->
    (joined m g -> map up_pt (fst (flush_group i g [])) = removelast (all_coords m g)) /\
    (~ joined m g -> map up_pt (fst (flush_group i g [])) = all_coords m g).
  Proof.
    intros i g (n & rest & -> & T & Tr) F. inversion F as [|? ? F1 F2]; subst.
    assert (A : all_coords m (n :: rest) = node_pt m n :: all_coords m rest).
    { unfold all_coords. cbn [map concat]. rewrite (move_coords n F1 T). reflexivity. }
    rewrite joined_iff, A.
    assert (R : map up_pt (raw (i + 1) false rest) = all_coords m rest) by (now apply raw_pts).
    destruct (flush_shape i n rest [] Tr) as [[O E]|[(O & Er & E)|(O & mid & l & Er & [[Tl E]|[(Tl & P & E)|(Tl & P & E)]])]];
      rewrite E; cbn [fst map up_pt own set_type]; (split; intros J).
    - destruct J. congruence.
    - now rewrite R.
    - subst rest. destruct J as (_ & [|? ?] & l & J & _); discriminate.
    - now subst rest.
    - destruct J as (_ & mid' & l' & J & Tl' & _). rewrite Er in J. apply app_inj_tail in J. destruct J as [_ <-]. congruence.
    - now rewrite R.
    - rewrite map_app, map_map. cbn [up_pt]. rewrite map_id, raw_pts.
      2,3: rewrite Er in F2, Tr; apply Forall_app in F2; apply Forall_app in Tr; tauto.
      rewrite Er. unfold all_coords at 2. rewrite map_app, concat_app. cbn [map concat]. fold (all_coords m mid). unfold coords. rewrite app_nil_r.
      rewrite (app_assoc (all_coords m mid) (tl (row m l)) [node_pt m l]), (app_comm_cons _ [node_pt m l]), removelast_last. f_equal. rewrite joined_name_pt. assumption.
    - exfalso. apply J. split; [assumption|]. eauto.
    - destruct J as (_ & mid' & l' & J & Tl' & Pl). rewrite Er in J. apply app_inj_tail in J. destruct J as [_ <-]. elim (P Tl' Pl).
    - now rewrite R.
  Qed.

  (** ** Paths *)
  Lemma segs_raw : forall nodes i q offs, Forall (fun n => nd_type n <> Move) nodes -> q = match offs with [] => false | _ => true end ->
    ufo_segments offs (raw i q nodes) = source_segments m offs nodes.
  Proof.
    induction nodes as [|n nodes IH]; intros i q offs T E; [reflexivity|]. inversion T; subst. cbn [raw source_segments].
    unfold raw1, next_q. destruct (nd_type n) eqn:Et; [congruence| | |]; cbn [app ufo_segments own up_type up_pt].
    - rewrite IH by auto. destruct offs; reflexivity.
    - rewrite <- app_assoc. generalize (tl (row m n)) as cs. intros cs. revert offs.
      induction cs as [|c cs IHc]; intros offs; cbn [map app ufo_segments up_type up_pt].
      + rewrite app_nil_r. rewrite IH by auto. cbn [own up_type up_pt]. reflexivity.
      + rewrite IHc. rewrite <- app_assoc. reflexivity.
    - rewrite IH by (auto; now destruct offs). reflexivity.
  Qed.
  Lemma ufo_snoc : forall ps offs p t, up_type p = Some t ->
    ufo_segments offs (ps ++ [p]) = (let '(s, r) := ufo_segments offs ps in (s ++ [(t, r, up_pt p)], [])).
  Proof.
    induction ps as [|x ps IH]; intros offs p t E; cbn [app ufo_segments].
    - rewrite E. reflexivity.
    - destruct (up_type x); [|now apply IH]. rewrite (IH [] p t E). destruct (ufo_segments [] ps). reflexivity.
  Qed.
  Lemma source_snoc : forall mid offs l, nd_type l <> Move -> source_segments m offs (mid ++ [l]) =
    (let '(s, r) := source_segments m offs mid in
     match nd_type l with
     | QCurve => (s, r ++ [node_pt m l])
     | Curve => (s ++ [(SCurve, r ++ tl (row m l), node_pt m l)], [])
     | _ => (s ++ [(match r with [] => SLine | _ => SQCurve end, r, node_pt m l)], [])
     end).
  Proof.
    induction mid as [|n mid IH]; intros offs l T.
    - cbn [app source_segments]. destruct (nd_type l); reflexivity.
    - cbn [app source_segments]. destruct (nd_type n); rewrite IH by assumption;
        try (destruct (source_segments m [] mid); destruct (nd_type l); reflexivity); reflexivity.
  Qed.
  Theorem flush_path : forall i n rest, nd_type n = Move -> Forall (fun n => nd_type n <> Move) rest -> rest <> [] ->
    ufo_path (fst (flush_group i (n :: rest) [])) = Some (source_path m (Z.testbit (nd_flags n) 3) n rest).
  Proof.
    intros i n rest T Tr Ne. unfold source_path.
    pose proof (segs_raw rest (i + 1) false [] Tr eq_refl) as R.
    destruct (flush_shape i n rest [] Tr) as [[O E]|[(O & Er & E)|(O & mid & l & Er & [[Tl E]|[(Tl & P & E)|(Tl & P & E)]])]];
      rewrite E, O; cbn [fst ufo_path up_type own set_type].
    - rewrite R. destruct (source_segments m [] rest). reflexivity.
    - congruence.
    - rewrite (ufo_snoc _ _ _ SQCurve) by reflexivity. rewrite R. rewrite Er, source_snoc, Tl by congruence.
      destruct (source_segments m [] mid) as [s r]. cbn [up_pt set_type own]. destruct (r ++ [node_pt m l]) eqn:Ex; [symmetry in Ex; now apply app_cons_not_nil in Ex|]. reflexivity.
    - assert (Tn : Forall (fun n => nd_type n <> Move) mid) by (rewrite Er in Tr; apply Forall_app in Tr; tauto).
      assert (U : up_type (joined_name i rest (own (i + Z.of_nat (List.length rest)) (Some SCurve) l)) = Some SCurve).
      { apply joined_name_type. }
      assert (V : up_pt (joined_name i rest (own (i + Z.of_nat (List.length rest)) (Some SCurve) l)) = node_pt m n).
      { rewrite joined_name_pt. assumption. }
      rewrite U. rewrite (ufo_snoc _ _ _ SCurve U). rewrite V.
      assert (W : ufo_segments [] (raw (i + 1) false mid ++ map (UPoint None false None) (tl (row m l))) =
                  (let '(s, r) := source_segments m [] mid in (s, r ++ tl (row m l)))).
      { rewrite <- (segs_raw mid (i + 1) false [] Tn eq_refl). generalize (raw (i + 1) false mid) as ps. generalize (@nil (Z * Z)) as offs.
        intros offs ps. revert offs. induction ps as [|x ps IH]; intros offs; cbn [app ufo_segments].
        - generalize (tl (row m l)) as cs. intros cs. revert offs. induction cs as [|c cs IH]; intros offs; cbn [map ufo_segments up_type up_pt].
          + now rewrite app_nil_r.
          + rewrite IH, <- app_assoc. reflexivity.
        - destruct (up_type x); [|now apply IH]. rewrite IH. destruct (ufo_segments [] ps). reflexivity. }
      rewrite W, Er, source_snoc, Tl by congruence. destruct (source_segments m [] mid) as [s r].
      rewrite last_snoc. cbn [curve_to]. rewrite (proj2 (pt_eqb_eq _ _) P). rewrite P. reflexivity.
    - rewrite (ufo_snoc _ _ _ SLine) by reflexivity. rewrite R. rewrite Er, source_snoc.
      2:{ rewrite Er in Tr. apply Forall_app in Tr. destruct Tr as [_ Tr]. now inversion Tr. }
      destruct (source_segments m [] mid) as [s r]. cbn [up_pt set_type own].
      destruct (nd_type l) eqn:El; [| | |congruence]; rewrite last_snoc; cbn [curve_to].
      + destruct r; reflexivity.
      + destruct r; reflexivity.
      + destruct (pt_eqb (node_pt m l) (node_pt m n)) eqn:Ep; [|reflexivity]. apply pt_eqb_eq in Ep. elim (P eq_refl Ep).
  Qed.

  (** ** Names *)
  Lemma coords_pos : forall n, (1 <= List.length (coords m n))%nat.
  Proof. intros n. unfold coords. rewrite app_length. cbn [List.length]. lia. Qed.
  Lemma raw_at : forall rest i q k n, Forall (node_ok m) rest -> Forall (fun n => nd_type n <> Move) rest -> nth_error rest k = Some n ->
    exists p, nth_error (raw i q rest) (List.length (all_coords m (firstn (S k) rest)) - 1) = Some p /\
      up_pt p = node_pt m n /\ up_name p = labels (i + Z.of_nat k) /\ (nd_type n <> QCurve -> up_smooth p = Z.testbit (nd_flags n) 0).
  Proof.
    induction rest as [|x rest IH]; intros i q k n F T N; [destruct k; discriminate|]. inversion F; inversion T; subst.
    pose proof (raw1_pts i q x ltac:(assumption) ltac:(assumption)) as R. apply (f_equal (@List.length _)) in R. rewrite map_length in R.
    pose proof (coords_pos x) as C.
    destruct k as [|k]; cbn [nth_error] in N.
    - injection N as ->. cbn [firstn raw]. unfold all_coords. cbn [map concat]. rewrite app_nil_r.
      rewrite nth_error_app1 by lia. replace (i + Z.of_nat 0) with i by lia.
      assert (L : exists a p, raw1 i q n = a ++ [p] /\ up_pt p = node_pt m n /\ up_name p = labels i /\ (nd_type n <> QCurve -> up_smooth p = Z.testbit (nd_flags n) 0)).
      { unfold raw1. destruct (nd_type n) eqn:Et; [congruence| | |].
        - exists [], (own i (Some (if q then SQCurve else SLine)) n). auto.
        - eexists _, (own i (Some SCurve) n). split; [reflexivity|]. auto.
        - exists [], (UPoint None false (labels i) (node_pt m n)). split; [reflexivity|]. split; [reflexivity|]. split; [reflexivity|congruence]. }
      destruct L as (a & p & L & H). exists p. split; [|exact H]. rewrite L in *. rewrite app_length in R. cbn [List.length] in R.
      rewrite nth_error_app2 by lia. replace (_ - _)%nat with 0%nat by lia. reflexivity.
    - destruct (IH (i + 1) (next_q x) k n) as (p & E & G1 & G2 & G3); auto.
      exists p. split; [|split; [assumption|split; [|assumption]]].
      + change (firstn (S (S k)) (x :: rest)) with (x :: firstn (S k) rest). unfold all_coords in *. cbn [map concat raw]. rewrite app_length.
        assert (P : (1 <= List.length (concat (map (coords m) (firstn (S k) rest))))%nat).
        { destruct rest as [|y rest']; [destruct k; discriminate|]. cbn [firstn map concat]. rewrite app_length. pose proof (coords_pos y). lia. }
        rewrite nth_error_app2 by lia. rewrite R. replace (_ - _ - _)%nat with (List.length (concat (map (coords m) (firstn (S k) rest))) - 1)%nat by lia.
        assumption.
      + rewrite G2. f_equal. lia.
  Qed.

  Lemma position_0 : forall n rest, node_ok m n -> nd_type n = Move -> position m (n :: rest) 0 = 0%nat.
  Proof. intros n rest OK T. unfold position, all_coords. cbn [firstn map concat]. rewrite (move_coords n OK T). reflexivity. Qed.
  Lemma position_S : forall n rest k x, node_ok m n -> nd_type n = Move -> nth_error rest k = Some x ->
    position m (n :: rest) (S k) = S (List.length (all_coords m (firstn (S k) rest)) - 1).
  Proof.
    intros n rest k x OK T N. unfold position. change (firstn (S (S k)) (n :: rest)) with (n :: firstn (S k) rest).
    unfold all_coords. cbn [map concat]. rewrite (move_coords n OK T). cbn [app List.length].
    destruct rest as [|y rest]; [destruct k; discriminate|]. cbn [firstn map concat]. rewrite app_length. pose proof (coords_pos y). lia.
  Qed.
  Theorem flush_named : forall i g k n pos ren, contour g -> Forall (node_ok m) g -> nth_error g k = Some n -> place m g k pos ->
    let c := fst (flush_group i g ren) in let ren' := snd (flush_group i g ren) in
    exists p, nth_error c pos = Some p /\ up_pt p = node_pt m n /\
      (up_name p = labels (i + Z.of_nat k) \/
       (joined m g /\ (k = 0%nat \/ S k = List.length g) /\
         match labels i, labels (i + Z.of_nat (List.length g) - 1) with
         | Some a, Some b => up_name p = Some b /\ ren' = aset str_eqb a b ren
         | Some a, None => up_name p = Some a
         | None, b => up_name p = b
         end)) /\
      (nd_type n <> QCurve -> (joined m g -> k <> 0%nat) -> up_smooth p = Z.testbit (nd_flags n) 0).
  Proof.
    intros i g k x pos ren (n & rest & -> & T & Tr) F N P c ren'. inversion F as [|? ? F1 F2]; subst.
    assert (NJ : ~ joined m (n :: rest) -> forall t, exists p, nth_error (own i t n :: raw (i + 1) false rest) pos = Some p /\ up_pt p = node_pt m x /\
       up_name p = labels (i + Z.of_nat k) /\ (nd_type x <> QCurve -> up_smooth p = Z.testbit (nd_flags x) 0)).
    { intros J t. destruct P as [[P _]|[_ ->]]; [contradiction|]. destruct k as [|k].
      - injection N as ->. rewrite position_0 by assumption. exists (own i t x). replace (i + Z.of_nat 0) with i by lia. auto.
      - cbn [nth_error] in N. rewrite (position_S _ _ _ _ F1 T N). cbn [nth_error].
        destruct (raw_at rest (i + 1) false k x F2 Tr N) as (p & E & H1 & H2 & H3). exists p. split; [assumption|]. split; [assumption|].
        split; [|assumption]. rewrite H2. f_equal. lia. }
    pose proof (joined_iff n rest) as JI.
    destruct (flush_shape i n rest ren Tr) as [[O E]|[(O & Er & E)|(O & mid & l & Er & [[Tl E]|[(Tl & Pl & E)|(Tl & Pl & E)]])]];
      subst c ren'; rewrite E; cbn [fst snd].
    - destruct (NJ ltac:(rewrite JI; intros [H _]; congruence) (Some SMove)) as (p & A & B & C & D). exists p. auto 10.
    - rewrite Er in NJ, JI. destruct (NJ ltac:(rewrite JI; intros (_ & [|? ?] & l9 & H & _); discriminate) (Some SMove)) as (p & A & B & C & D). exists p. auto 10.
    - assert (J : ~ joined m (n :: rest)).
      { rewrite JI. intros (_ & mid' & l' & H & Tl' & _). rewrite Er in H. apply app_inj_tail in H. destruct H as [_ <-]. congruence. }
      destruct (NJ J (Some SQCurve)) as (p & A & B & C & D). exists p. auto 10.
    - clear NJ.
      assert (J : joined m (n :: rest)) by (apply JI; split; [assumption|exists mid, l; auto]).
      set (o := joined_name i rest (own (i + Z.of_nat (List.length rest)) (Some SCurve) l)).
      assert (Eo : up_pt o = node_pt m l) by (apply joined_name_pt).
      assert (So : up_smooth o = Z.testbit (nd_flags l) 0).
      { unfold o, joined_name. destruct (labels i); [|reflexivity]. destruct (labels (i + Z.of_nat (List.length rest))); reflexivity. }
      assert (Ln : i + Z.of_nat (List.length (n :: rest)) - 1 = i + Z.of_nat (List.length rest)) by (cbn [List.length]; lia).
      rewrite Ln.
      assert (No : match labels i, labels (i + Z.of_nat (List.length rest)) with
         | Some a, Some b => up_name o = Some b /\
             match labels i with Some a => match labels (i + Z.of_nat (List.length rest)) with Some b => aset str_eqb a b ren | None => ren end | None => ren end = aset str_eqb a b ren
         | Some a, None => up_name o = Some a
         | None, b => up_name o = b
         end).
      { unfold o, joined_name. destruct (labels i) as [a|]; [|reflexivity].
        destruct (labels (i + Z.of_nat (List.length rest))) as [b|] eqn:Eb; cbn [up_name own set_name]; auto. }
      destruct P as [(_ & P & ->)|[P ->]].
      + (* the last node *)
        cbn [List.length] in P. exists o. split; [reflexivity|].
        assert (x = l). { destruct k as [|k]; [rewrite Er, app_length in P; cbn in P; lia|]. cbn [nth_error] in N. rewrite Er in N.
          rewrite Er, app_length in P. cbn [List.length] in P. rewrite nth_error_app2 in N by lia. replace (k - List.length mid)%nat with 0%nat in N by lia. now injection N. }
        subst x. split; [assumption|]. split; [|auto]. right. split; [assumption|]. split; [right; cbn [List.length]; congruence|exact No].
      + destruct k as [|k].
        * injection N as ->. rewrite position_0 by assumption. exists o. split; [reflexivity|]. split; [congruence|].
          split; [|intros _ H; elim (H J eq_refl)]. right. split; [assumption|]. split; [now left|exact No].
        * cbn [nth_error] in N. rewrite (position_S _ _ _ _ F1 T N). cbn [nth_error].
          assert (K : (k < List.length mid)%nat).
          { assert (K : (k < List.length rest)%nat) by (apply nth_error_Some; congruence). rewrite Er, app_length in K. cbn [List.length] in K.
            assert (~ k = List.length mid); [|lia]. intros ->. apply P. split; [assumption|]. cbn [List.length]. rewrite Er, app_length. cbn [List.length]. lia. }
          assert (N' : nth_error mid k = Some x) by (rewrite Er, nth_error_app1 in N by assumption; assumption).
          assert (Fm : Forall (node_ok m) mid) by (rewrite Er in F2; apply Forall_app in F2; tauto).
          assert (Tm : Forall (fun n => nd_type n <> Move) mid) by (rewrite Er in Tr; apply Forall_app in Tr; tauto).
          destruct (raw_at mid (i + 1) false k x Fm Tm N') as (p & E1 & H1 & H2 & H3). exists p.
          split; [|split; [assumption|split; [|auto]]].
          -- rewrite Er. rewrite firstn_app. replace (S k - List.length mid)%nat with 0%nat by lia. rewrite firstn_O, app_nil_r.
             rewrite nth_error_app1; [assumption|]. apply nth_error_Some. congruence.
          -- left. rewrite H2. f_equal. lia.
    - assert (J : ~ joined m (n :: rest)).
      { rewrite JI. intros (_ & mid' & l' & H & Tl' & Pl'). rewrite Er in H. apply app_inj_tail in H. destruct H as [_ <-]. elim (Pl Tl' Pl'). }
      destruct (NJ J (Some SLine)) as (p & A & B & C & D). exists p. auto 10.
  Qed.

  (** the renames at the end *)
  Lemma flush_group_ren : forall i g ren, contour g ->
    snd (flush_group i g ren) = ren \/ exists a b, labels i = Some a /\ snd (flush_group i g ren) = aset str_eqb a b ren.
  Proof.
    intros i g ren (n & rest & -> & T & Tr).
    destruct (flush_shape i n rest ren Tr) as [[O E]|[(O & Er & E)|(O & mid & l & Er & [[Tl E]|[(Tl & Pl & E)|(Tl & Pl & E)]])]];
      rewrite E; cbn [snd]; auto.
    destruct (labels i) as [a|]; [|auto]. destruct (labels (i + Z.of_nat (List.length rest))) as [b|]; [|auto]. right. eauto.
  Qed.
  Lemma flush_all_ren : forall gs i ren l, Forall contour gs -> (forall j, i <= j -> labels j <> Some l) ->
    aget str_eqb l (snd (flush_all i gs ren)) = aget str_eqb l ren.
  Proof.
    induction gs as [|g gs IH]; intros i ren l C H; [reflexivity|]. inversion C as [|? ? C1 C2]; subst. cbn [flush_all].
    pose proof (flush_group_ren i g ren C1) as R. destruct (flush_group i g ren) as [c ren1]. cbn [snd] in R.
    specialize (IH (i + Z.of_nat (List.length g)) ren1 l C2). destruct (flush_all _ gs ren1) as [cs ren2]. cbn [snd] in *.
    rewrite IH by (intros j Hj; apply H; lia). destruct R as [->|(a & b & L & ->)]; [reflexivity|]. rewrite aseta.
    destruct (str_eqb l a) eqn:E; [|reflexivity]. apply str_eqb_eq in E. subst a. elim (H i ltac:(lia) L).
  Qed.
  Theorem all_named : forall gs i0 ren k g c j n pos, Forall contour gs -> Forall (node_ok m) (concat gs) ->
    (forall x y l, labels x = Some l -> labels y = Some l -> x = y) ->
    nth_error gs k = Some g -> nth_error (fst (flush_all i0 gs ren)) k = Some c -> nth_error g j = Some n -> place m g j pos ->
    exists p, nth_error c pos = Some p /\ up_pt p = node_pt m n /\
      (forall l, labels (i0 + Z.of_nat (base gs k + j)) = Some l -> up_name p = Some l \/
         exists l', up_name p = Some l' /\ aget str_eqb l (snd (flush_all i0 gs ren)) = Some l') /\
      (labels (i0 + Z.of_nat (base gs k + j)) = None -> ~ joined m g -> up_name p = None) /\
      (nd_type n <> QCurve -> (joined m g -> j <> 0%nat) -> up_smooth p = Z.testbit (nd_flags n) 0).
  Proof.
    induction gs as [|g0 gs IH]; intros i0 ren k g c j n pos C F Inj Hg Hc Hn P; [destruct k; discriminate|].
    inversion C as [|? ? C1 C2]; subst. cbn [concat] in F. apply Forall_app in F. destruct F as [F1 F2]. cbn [flush_all] in *.
    destruct (flush_group i0 g0 ren) as [c0 ren1] eqn:E0. destruct (flush_all (i0 + Z.of_nat (List.length g0)) gs ren1) as [cs ren2] eqn:E1.
    cbn [fst snd] in *. destruct k as [|k]; cbn [nth_error] in *.
    - injection Hg as ->. injection Hc as ->. unfold base. cbn [firstn concat List.length]. replace (i0 + Z.of_nat (0 + j)) with (i0 + Z.of_nat j) by lia.
      destruct (flush_named i0 g j n pos ren C1 F1 Hn P) as (p & A & B & N & S). rewrite E0 in A, N. cbn [fst snd] in A, N.
      exists p. split; [assumption|]. split; [assumption|]. split; [|split; [|assumption]].
      + intros l L. destruct N as [N|(J & K & N)]; [left; congruence|].
        destruct K as [->|K].
        * replace (i0 + Z.of_nat 0) with i0 in L by lia. rewrite L in N.
          destruct (labels (i0 + Z.of_nat (List.length g) - 1)) as [b|] eqn:Eb; [|now left]. destruct N as [N ->]. right. exists b. split; [assumption|].
          replace ren2 with (snd (flush_all (i0 + Z.of_nat (List.length g)) gs (aset str_eqb l b ren))) by (now rewrite E1).
          rewrite flush_all_ren; [rewrite aseta, str_eqb_refl; reflexivity|assumption|].
          intros x Hx Lx. specialize (Inj _ _ _ L Lx). destruct C1 as (? & ? & -> & _). cbn [List.length] in Hx. lia.
        * replace (i0 + Z.of_nat j) with (i0 + Z.of_nat (List.length g) - 1) in L by lia. rewrite L in N.
          destruct (labels i0) as [a|]; [|now left]. left. tauto.
      + intros L NJ. destruct N as [N|(J & _)]; [congruence|contradiction].
    - specialize (IH (i0 + Z.of_nat (List.length g0)) ren1 k g c j n pos C2 F2 Inj Hg). rewrite E1 in IH. cbn [fst snd] in IH.
      specialize (IH Hc Hn P). unfold base in *. cbn [firstn concat]. rewrite app_length.
      replace (i0 + Z.of_nat (List.length g0 + List.length (concat (firstn k gs)) + j))
        with (i0 + Z.of_nat (List.length g0) + Z.of_nat (List.length (concat (firstn k gs)) + j)) by lia.
      exact IH.
  Qed.
End Paths.
