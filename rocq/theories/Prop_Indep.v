(** C119: glyphs that share no component do not influence each other's outlines, point names and hint sets. *)
From Coq Require Import String.
From Verif Require Import Base M_Py M_Glyph M_Labels M_PsHints M_Paths M_Export Lib.
Local Open Scope list_scope.

(** ** Specification *)
(** [fam] tells the glyphs of a family: a component is in the family exactly if the glyph that uses it is *)
Definition is_family (order : list pystr) (st : store) (fam : pystr -> bool) : Prop :=
  forall name g gid c, aget str_eqb name st = Some g -> In gid (lg_components g) -> py_index order gid = Ok c ->
    fam c = fam name.
(** what is left of a font, of the builder's labels, or of a UFO, without the glyphs outside of the family *)
Definition only {A} (fam : pystr -> bool) (d : list (pystr * A)) : list (pystr * A) :=
  filter (fun kv => fam (fst kv)) d.

(** ** Proof *)
Section Family.
  (** the order of the other font: it has the same components at the indices that the family uses *)
  Variables order order2 : list pystr.
  Variable fam : pystr -> bool.
  Definition agree (a b : store) : Prop := forall n, fam n = true -> aget str_eqb n a = aget str_eqb n b.
  Definition sep (st : store) : Prop := is_family order st fam /\
    forall name g gid, aget str_eqb name st = Some g -> In gid (lg_components g) -> fam name = true ->
      py_index order2 gid = py_index order gid.

  Lemma agree_trans : forall a b c, agree a b -> agree b c -> agree a c.
  Proof. intros a b c H1 H2 n F. rewrite (H1 n F). exact (H2 n F). Qed.
  Lemma aget_only : forall A n (d : list (pystr * A)), fam n = true -> aget str_eqb n (only fam d) = aget str_eqb n d.
  Proof.
    intros A n d F. induction d as [|[k v] d IH]; [reflexivity|]. cbn [only filter fst]. fold (only fam d).
    cbn [aget]. destruct (fam k) eqn:Ek.
    - cbn [aget]. rewrite IH. reflexivity.
    - rewrite IH. destruct (str_eqb n k) eqn:E; [|reflexivity]. apply str_eqb_eq in E. congruence.
  Qed.
  Lemma simple_comps : forall g i code s l g', simple_label g i code s = Ok (l, g') -> lg_components g' = lg_components g.
  Proof.
    intros g i code s l g'. unfold simple_label. destruct (aget Z.eqb i (lg_points g)); [now intros [= _ <-]|].
    destruct (i =? lg_nodes g); [now intros [= _ <-]|]. destruct (i =? lg_nodes g + 1); [now intros [= _ <-]|].
    destruct (aget_res str_eqb code label_codes); cbn [rthen]; [|discriminate].
    destruct (new_label _ _ _ _); cbn [rthen]; [|discriminate]. now intros [= _ <-].
  Qed.
  Lemma aget_res_some : forall V k (d : list (pystr * V)) v, aget_res str_eqb k d = Ok v -> aget str_eqb k d = Some v.
  Proof. intros V k d v. unfold aget_res. destruct (aget str_eqb k d); [now intros [= <-]|discriminate]. Qed.
  Lemma find_in : forall st gids i index total j c k,
    find_component st order gids i index total = Ok (inl (j, c, k)) ->
    exists gid, In gid gids /\ py_index order gid = Ok c.
  Proof.
    intros st gids. induction gids as [|gid gids IH]; intros i index total j c k; cbn [find_component]; [discriminate|].
    destruct (py_index order gid) as [nm|e] eqn:E; cbn [rthen]; [|discriminate].
    destruct (aget_res str_eqb nm st) as [g|e]; cbn [rthen]; [|discriminate].
    destruct (index <? lg_nodes g).
    - intros [= _ <- _]. exists gid. split; [now left|exact E].
    - intros H. destruct (IH _ _ _ _ _ _ H) as (x & I & P). exists x. split; [now right|exact P].
  Qed.
  (** a request changes the labels of the family of its glyph only *)
  Lemma request_sep : forall fuel st name i code s l st', sep st ->
    get_point_label fuel order st name i code s = Ok (l, st') ->
    sep st' /\ (fam name = false -> agree st st').
  Proof.
    intros fuel. induction fuel as [|f IH]; intros st name i code s l st' P; cbn [get_point_label]; [discriminate|].
    destruct (aget_res str_eqb name st) as [g|e] eqn:G; cbn [rthen]; [|discriminate]. apply aget_res_some in G.
    destruct (lg_components g) as [|g0 gs] eqn:C.
    - destruct (simple_label g i code s) as [[l' g']|e] eqn:E; cbn [rmap rthen fst snd]; [|discriminate].
      intros [= <- <-]. pose proof (simple_comps _ _ _ _ _ _ E) as E'. split.
      + destruct P as (P & P2). split; intros n x gid; [intros c|]; rewrite (aget_aset str_eqb str_eqb_eq); destruct (str_eqb n name) eqn:Q.
        * intros [= <-]. rewrite E', C. intros [].
        * apply P.
        * intros [= <-]. rewrite E', C. intros [].
        * apply P2.
      + intros F n Fn. rewrite (aget_aset str_eqb str_eqb_eq). destruct (str_eqb n name) eqn:Q; [|reflexivity].
        apply str_eqb_eq in Q. congruence.
    - rewrite <- C. destruct (find_component st order (lg_components g) 0 i 0) as [[[[j c] k]|t]|e] eqn:E; cbn [rthen]; [| |discriminate].
      + destruct (find_in _ _ _ _ _ _ _ _ E) as (gid & I & X). pose proof (proj1 P _ _ _ _ G I X) as Q.
        destruct (get_point_label f order st c k code 1) as [[l' st1]|e] eqn:R; cbn [rmap rthen fst snd]; [|discriminate].
        intros [= _ <-]. rewrite <- Q. exact (IH _ _ _ _ _ _ _ P R).
      + intros [= _ <-]. split; [exact P|intros _ n _; reflexivity].
  Qed.
  Lemma find_agree : forall a b gids i index total, agree a b ->
    (forall gid, In gid gids -> py_index order2 gid = py_index order gid) ->
    (forall gid c, In gid gids -> py_index order gid = Ok c -> fam c = true) ->
    find_component a order gids i index total = find_component b order2 gids i index total.
  Proof.
    intros a b gids. induction gids as [|gid gids IH]; intros i index total A O H; cbn [find_component]; [reflexivity|].
    rewrite (O _ (or_introl eq_refl)). destruct (py_index order gid) as [nm|e] eqn:E; cbn [rthen]; [|reflexivity].
    unfold aget_res. rewrite (A nm (H _ _ (or_introl eq_refl) E)). destruct (aget str_eqb nm b); cbn [rthen]; [|reflexivity].
    destruct (index <? _); [reflexivity|]. apply IH; [exact A|intros x I; apply O; now right|]. intros x c I. apply H. now right.
  Qed.
  (** the same request to stores that agree on the family *)
  Lemma request_agree : forall fuel a b name i code s l a', sep a -> agree a b -> fam name = true ->
    get_point_label fuel order a name i code s = Ok (l, a') ->
    exists b', get_point_label fuel order2 b name i code s = Ok (l, b') /\ agree a' b'.
  Proof.
    intros fuel. induction fuel as [|f IH]; intros a b name i code s l a' P A F; cbn [get_point_label]; [discriminate|].
    destruct (aget_res str_eqb name a) as [g|e] eqn:G; cbn [rthen]; [|discriminate]. apply aget_res_some in G.
    assert (aget_res str_eqb name b = Ok g) as -> by (unfold aget_res; rewrite <- (A name F), G; reflexivity). cbn [rthen].
    destruct (lg_components g) as [|g0 gs] eqn:C.
    - destruct (simple_label g i code s) as [[l' g']|e] eqn:E; cbn [rmap rthen fst snd]; [|discriminate].
      intros [= <- <-]. eexists. split; [reflexivity|]. intros n Fn. rewrite !(aget_aset str_eqb str_eqb_eq).
      destruct (str_eqb n name); [reflexivity|exact (A n Fn)].
    - rewrite <- C. rewrite <- (find_agree a b (lg_components g) 0 i 0 A).
      2:{ intros gid I. exact (proj2 P _ _ _ G I F). }
      2:{ intros gid c I X. rewrite (proj1 P _ _ _ _ G I X). exact F. }
      destruct (find_component a order (lg_components g) 0 i 0) as [[[[j c] k]|t]|e] eqn:E; cbn [rthen]; [| |discriminate].
      + destruct (find_in _ _ _ _ _ _ _ _ E) as (gid & I & X). pose proof (proj1 P _ _ _ _ G I X) as Q. rewrite F in Q.
        destruct (get_point_label f order a c k code 1) as [[l' a1]|e] eqn:R; cbn [rmap rthen fst snd]; [|discriminate].
        intros [= <- <-]. destruct (IH _ _ _ _ _ _ _ _ P A Q R) as (b' & -> & A'). cbn [rmap rthen fst snd].
        exists b'. split; [reflexivity|exact A'].
      + intros [= <- <-]. exists b. split; [reflexivity|exact A].
  Qed.

  (** any computation on stores, with the order: it keeps to the family of [name] and gives the same for stores that
      agree *)
  Definition keeps {A} (name : pystr) (f : list pystr -> store -> res (A * store)) : Prop :=
    forall a x a', sep a -> f order a = Ok (x, a') ->
      sep a' /\ (fam name = false -> agree a a') /\
      (fam name = true -> forall b, agree a b -> exists b', f order2 b = Ok (x, b') /\ agree a' b').
  Lemma keeps_ret : forall A name (x : A), keeps name (fun _ st => Ok (x, st)).
  Proof.
    intros A name x a y a' P [= <- <-]. split; [exact P|]. split; [intros _ n _; reflexivity|].
    intros _ b H. exists b. split; [reflexivity|exact H].
  Qed.
  Lemma keeps_bind : forall A B name (f : list pystr -> store -> res (A * store)) (g : list pystr -> A * store -> res (B * store)),
    keeps name f -> (forall x, keeps name (fun od st => g od (x, st))) -> keeps name (fun od st => rthen (f od st) (g od)).
  Proof.
    intros A B name f g Kf Kg a y a2 P. destruct (f order a) as [[x a1]|e] eqn:E; cbn [rthen]; [|discriminate]. intros E2.
    destruct (Kf _ _ _ P E) as (P1 & O1 & I1). destruct (Kg x _ _ _ P1 E2) as (P2 & O2 & I2).
    split; [exact P2|]. split.
    - intros F. exact (agree_trans _ _ _ (O1 F) (O2 F)).
    - intros F b H. destruct (I1 F b H) as (b1 & -> & H1). cbn [rthen]. exact (I2 F b1 H1).
  Qed.
  Lemma keeps_map : forall A B name (f : list pystr -> store -> res (A * store)) (h : A * store -> B * store), keeps name f ->
    (forall x, exists y, forall st, h (x, st) = (y, st)) -> keeps name (fun od st => rmap h (f od st)).
  Proof.
    intros A B name f h K H a y a2 P. destruct (f order a) as [[x a1]|e] eqn:E; cbn [rmap]; [|discriminate].
    destruct (H x) as (z & Hz). rewrite Hz. intros [= <- <-]. destruct (K _ _ _ P E) as (P1 & O1 & I1).
    split; [exact P1|]. split; [exact O1|]. intros F b A1. destruct (I1 F b A1) as (b1 & -> & H1). cbn [rmap]. rewrite Hz.
    exists b1. split; [reflexivity|exact H1].
  Qed.
  Lemma keeps_pure : forall A B name (r : res A) (g : A -> list pystr -> store -> res (B * store)), (forall x, keeps name (g x)) ->
    keeps name (fun od st => rthen r (fun x => g x od st)).
  Proof. intros A B name [x|e] g K; cbn [rthen]; [exact (K x)|]. intros a y a' _ [=]. Qed.
  Lemma keeps_pure_map : forall A B name (r : res A) (h : A -> B), keeps name (fun _ st => rmap (fun x => (h x, st)) r).
  Proof. intros A B name [x|e] h; cbn [rmap]; [apply keeps_ret|]. intros a y a' _ [=]. Qed.
  Lemma keeps_request : forall fuel name node code start, keeps name (fun od st => get_point_label fuel od st name node code start).
  Proof.
    intros fuel name node code start a l a' P H. destruct (request_sep _ _ _ _ _ _ _ _ P H) as (H1 & H2). split; [exact H1|]. split; [exact H2|].
    intros F b A. exact (request_agree _ _ _ _ _ _ _ _ _ P A F H).
  Qed.
  Lemma keeps_turn : forall fuel name h v s mask, keeps name (fun od st => mask_turn fuel od name h v s st mask).
  Proof.
    intros fuel name h v s mask. unfold mask_turn.
    apply (keeps_pure _ _ name (mask_stems h v mask)
      (fun new od st => let stems := hs_stems s ++ new in
        if str_eqb (fst mask) (py "r") then
          rmap (fun r => (HsState (if snd mask <? 0 then Z.abs (snd mask) - 1 else snd mask) [] (hs_sets s ++ [(fst r, stems)]), snd r))
               (hint_label fuel od name st (hs_node s))
        else Ok (HsState (hs_node s) stems (hs_sets s), st))).
    intros new. cbv zeta. destruct (str_eqb (fst mask) (py "r")); [|apply keeps_ret].
    apply (keeps_map _ _ name (fun od st => hint_label fuel od name st (hs_node s))); [apply keeps_request|].
    intros x. eexists. intros st. cbn [fst snd]. reflexivity.
  Qed.
  Lemma keeps_loop : forall fuel name h v masks s, keeps name (fun od st => mask_loop fuel od name h v s st masks).
  Proof.
    intros fuel name h v masks. induction masks as [|mask masks IH]; intros s; cbn [mask_loop]; [apply keeps_ret|].
    apply (keeps_bind _ _ name (fun od st => mask_turn fuel od name h v s st mask)
             (fun od r => mask_loop fuel od name h v (fst r) (snd r) masks) (keeps_turn _ _ _ _ _ _)). intros x. cbn [fst snd]. apply IH.
  Qed.
  Lemma keeps_last : forall fuel name s, keeps name (fun od st => last_set fuel od name s st).
  Proof.
    intros fuel name s. unfold last_set. destruct (hs_stems s) as [|x l]; [apply keeps_ret|].
    apply (keeps_map _ _ name (fun od st => hint_label fuel od name st (hs_node s))); [apply keeps_request|].
    intros y. eexists. intros st. cbn [fst snd]. reflexivity.
  Qed.
  Lemma keeps_hints : forall fuel name masks h v, keeps name (fun od st => build_ps_glyph_hints fuel od name masks h v st).
  Proof.
    intros fuel name masks h v. unfold build_ps_glyph_hints.
    apply (keeps_map _ _ name (fun od st => match masks with
      | [] => last_set fuel od name (HsState 0 (h ++ v) []) st
      | _ => rthen (mask_loop fuel od name h v (HsState 0 [] []) st masks) (fun r => last_set fuel od name (fst r) (snd r)) end)).
    - destruct masks as [|m ms]; [apply keeps_last|].
      apply (keeps_bind _ _ name (fun od st => mask_loop fuel od name h v (HsState 0 [] []) st (m :: ms))
               (fun od r => last_set fuel od name (fst r) (snd r)) (keeps_loop _ _ _ _ _ _)). intros s. cbn [fst snd]. apply keeps_last.
    - intros x. eexists. intros st. cbn [fst snd]. reflexivity.
  Qed.
  Lemma keeps_glyph : forall fuel ps m name g, keeps name (fun od st => export_glyph fuel od ps m name g st).
  Proof.
    intros fuel ps m name g. unfold export_glyph.
    apply (keeps_bind _ _ name
      (fun od st => if ps then rthen (get_master_hints m (eg_h g) (eg_v g) (eg_links g) (eg_nodes g)) (fun hv =>
                   build_ps_glyph_hints fuel od name (eg_masks g) (fst hv) (snd hv) st) else Ok ([], st))
      (fun od r => rthen (aget_res str_eqb name (snd r)) (fun lg =>
         rmap (fun c => (Exported (fst r) (fst c) (snd c), snd r))
              (extract_contours m (fun i => aget Z.eqb i (lg_points lg)) (eg_nodes g))))).
    - destruct ps; [|apply keeps_ret].
      apply (keeps_pure _ _ name _ (fun hv od st => build_ps_glyph_hints fuel od name (eg_masks g) (fst hv) (snd hv) st)).
      intros hv. apply keeps_hints.
    - intros hs a x a' P. cbn [fst snd]. destruct (aget_res str_eqb name a) as [lg|e] eqn:G; cbn [rthen]; [|discriminate]. apply aget_res_some in G.
      destruct (extract_contours m _ (eg_nodes g)) as [c|e] eqn:E; cbn [rmap rthen]; [|discriminate]. intros [= <- <-].
      split; [exact P|]. split; [intros _ n _; reflexivity|]. intros F b A.
      assert (aget_res str_eqb name b = Ok lg) as -> by (unfold aget_res; rewrite <- (A name F), G; reflexivity). cbn [rthen].
      rewrite E. cbn [rmap rthen]. exists b. split; [reflexivity|exact A].
  Qed.
  Lemma master_only : forall fuel ps m font a b out a', sep a -> agree a b ->
    export_master fuel order ps m font a = Ok (out, a') ->
    sep a' /\ exists b', export_master fuel order2 ps m (only fam font) b = Ok (only fam out, b') /\ agree a' b'.
  Proof.
    intros fuel ps m font. induction font as [|[name g] font IH]; intros a b out a' P A.
    - cbn [export_master]. intros [= <- <-]. split; [exact P|]. exists b. split; [reflexivity|exact A].
    - cbn [export_master]. destruct (export_glyph fuel order ps m name g a) as [[x a1]|e] eqn:E; cbn [rthen fst snd]; [|discriminate].
      destruct (export_master fuel order ps m font a1) as [[xs a2]|e] eqn:R; cbn [rmap rthen fst snd]; [|discriminate].
      intros [= <- <-]. destruct (keeps_glyph fuel ps m name g _ _ _ P E) as (P1 & O & I).
      cbn [only filter fst]. fold (only fam font). fold (only fam xs). destruct (fam name) eqn:F.
      + destruct (I eq_refl b A) as (b1 & E1 & A1). destruct (IH _ b1 _ _ P1 A1 R) as (P2 & b2 & E2 & A2).
        split; [exact P2|]. exists b2. split; [|exact A2]. cbn [export_master]. rewrite E1. cbn [rthen fst snd]. rewrite E2. reflexivity.
      + assert (agree a1 b) as A1 by (intros n Fn; rewrite <- (O eq_refl n Fn); exact (A n Fn)).
        exact (IH _ b _ _ P1 A1 R).
  Qed.
  Lemma masters_only : forall fuel ps font n m a b out a', sep a -> agree a b ->
    export_masters fuel order ps m n font a = Ok (out, a') ->
    exists b', export_masters fuel order2 ps m n (only fam font) b = Ok (map (only fam) out, b') /\ agree a' b'.
  Proof.
    intros fuel ps font n. induction n as [|n IH]; intros m a b out a' P A; cbn [export_masters].
    - intros [= <- <-]. exists b. split; [reflexivity|exact A].
    - destruct (export_master fuel order ps m font a) as [[x a1]|e] eqn:E; cbn [rthen fst snd]; [|discriminate].
      destruct (export_masters fuel order ps (m + 1) n font a1) as [[xs a2]|e] eqn:R; cbn [rmap rthen fst snd]; [|discriminate].
      intros [= <- <-]. destruct (master_only _ _ _ _ _ b _ _ P A E) as (P1 & b1 & -> & A1). cbn [rthen fst snd].
      destruct (IH _ _ b1 _ _ P1 A1 R) as (b2 & -> & A2). exists b2. split; [reflexivity|exact A2].
  Qed.
End Family.

(** ** The property *)
(** C119: exporting only the glyphs of a family gives, in every master, exactly what the family has in the
    export of the whole font: the same outlines, the same names of points, the same hint sets *)
Theorem C119_family : forall fuel order ps m n font st fam out st',
  is_family order st fam ->
  export_masters fuel order ps m n font st = Ok (out, st') ->
  exists st'', export_masters fuel order ps m n (only fam font) (only fam st) = Ok (map (only fam) out, st'').
Proof.
  intros fuel order ps m n font st fam out st' P E.
  destruct (masters_only order order fam fuel ps font n m st (only fam st) out st' (conj P (fun _ _ _ _ _ _ => eq_refl))) as (b' & H & _); [|exact E|exists b'; exact H].
  intros k F. symmetry. now apply aget_only.
Qed.
Print Assumptions C119_family.

(** two fonts with the same family and any other glyphs *)
Theorem C119_others : forall fuel order ps m n font1 font2 st1 st2 fam out1 out2 st1' st2',
  is_family order st1 fam -> is_family order st2 fam ->
  only fam font1 = only fam font2 -> only fam st1 = only fam st2 ->
  export_masters fuel order ps m n font1 st1 = Ok (out1, st1') ->
  export_masters fuel order ps m n font2 st2 = Ok (out2, st2') ->
  map (only fam) out1 = map (only fam) out2.
Proof.
  intros fuel order ps m n f1 f2 s1 s2 fam o1 o2 s1' s2' P1 P2 F S E1 E2.
  destruct (C119_family _ _ _ _ _ _ _ _ _ _ P1 E1) as (a & A). destruct (C119_family _ _ _ _ _ _ _ _ _ _ P2 E2) as (b & B).
  rewrite F, S, B in A. now injection A as <- _.
Qed.
Print Assumptions C119_others.

(** ** Examples *)
(** "b" uses "a"; "c" is on its own. All three have stems. *)
Definition in_base : eglyph :=
  EGlyph [MMNode Move 0 [[(0, 0)]; [(0, 0)]]; MMNode Line 0 [[(50, 0)]; [(60, 0)]]; MMNode Line 0 [[(50, 70)]; [(60, 70)]]]
         [] [] [] (Links [] []).
Definition in_user : eglyph := EGlyph [] [] [[(0, 20); (0, 22)]] [] (Links [] []).
Definition in_alone : eglyph :=
  EGlyph [MMNode Move 0 [[(5, 5)]; [(5, 5)]]; MMNode Line 0 [[(55, 5)]; [(65, 5)]]; MMNode Line 0 [[(55, 75)]; [(65, 75)]]]
         [] [[(5, 20); (5, 22)]] [] (Links [] []).
Definition in_order : list pystr := [py "a"; py "b"; py "c"].
Definition in_font : list (pystr * eglyph) := [(py "a", in_base); (py "b", in_user); (py "c", in_alone)].
Definition in_store : store := [(py "a", LGlyph [] 3 [] []); (py "b", LGlyph [0] 0 [] []); (py "c", LGlyph [] 3 [] [])].
Definition in_fam (n : pystr) : bool := str_eqb n (py "c").

Lemma in_is_family : is_family in_order in_store in_fam.
Proof.
  intros name g gid c H I X. unfold in_store in H. cbn [aget] in H.
  destruct (str_eqb name (py "a")); [injection H as <-; destruct I|].
  destruct (str_eqb name (py "b")) eqn:E.
  - injection H as <-. cbn [lg_components In] in I. destruct I as [<-|[]]. vm_compute in X. injection X as <-.
    apply str_eqb_eq in E. subst name. reflexivity.
  - destruct (str_eqb name (py "c")); [injection H as <-; destruct I|discriminate].
Qed.
(** the family {c} is there, with a hint set at a named point in both masters *)
Example C119_meets : exists out st' o0 a,
  is_family in_order in_store in_fam /\ export_masters 3 in_order true 0 2 in_font in_store = Ok (out, st') /\
  List.length out = 2%nat /\ nth_error out 1 = Some o0 /\ only in_fam o0 = [(py "c", a)] /\
  ex_hints a = [(py "hr00", [py "hstem 5 22"])].
Proof.
  do 4 eexists. split; [exact in_is_family|]. split; [vm_compute; reflexivity|]. split; [reflexivity|].
  split; [reflexivity|]. split; vm_compute; reflexivity.
Qed.
(** The condition is needed: "a" without "b" is no family, and exported alone it has other names of points. *)
Theorem C119_users_matter : exists fuel order ps m n font st fam out st' out2 st2,
  export_masters fuel order ps m n font st = Ok (out, st') /\
  export_masters fuel order ps m n (only fam font) (only fam st) = Ok (out2, st2) /\
  out2 <> map (only fam) out.
Proof.
  exists 3%nat, in_order, true, 0, 2%nat, in_font, in_store, (fun n => str_eqb n (py "a")). do 4 eexists.
  split; [vm_compute; reflexivity|]. split; [vm_compute; reflexivity|]. vm_compute. discriminate.
Qed.
Print Assumptions C119_users_matter.
