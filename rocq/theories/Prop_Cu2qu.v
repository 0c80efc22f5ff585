(** C93: the converter to quadratic curves. *)
From Coq Require Import String ZifyBool ZifyNat.
From Verif Require Import Base Lib M_Stream M_Text M_Py M_Glyph M_Container M_Table M_GlyphAccess M_Paths M_Pens M_Designspace M_Tools M_Cu2qu.
From Verif Require Import S_File S_GlyphAccess P_GlyphAccess Prop_Container Prop_GlyphAccess Prop_Tools.
Local Open Scope list_scope.

(** ** Reading and decompiling with dropped keys *)
Lemma append_drop : forall D i (e : entry D) v, v_drop (append_entry i e v) = v_drop v.
Proof. intros. unfold append_entry. destruct (zmem _ _); reflexivity. Qed.
Lemma remember_drop : forall D (T : codecs D) i d v, v_drop (remember T i d v) = v_drop v.
Proof. intros. unfold remember. destruct (i =? F_FLVersion); [reflexivity|]. destruct (i =? F_MasterCount); reflexivity. Qed.
Lemma read_loop_drop : forall D (T : codecs D) fuel v s, v_drop (fst (read_loop T fuel v s)) = v_drop v.
Proof.
  intros D T. induction fuel as [|fuel IH]; intros v s; [reflexivity|]. cbn [read_loop].
  destruct (read_entry (v_ctx v) s) as [e r|x r].
  2: { destruct x; reflexivity. }
  destruct (e_id e) as [i|]; [|reflexivity]. destruct (is_eager i).
  - destruct (entry_decompile T (v_ctx v) e) as [[e' err] o]. destruct o as [u|x]; [|reflexivity].
    destruct (e_data e'); rewrite IH, append_drop; try reflexivity. apply remember_drop.
  - destruct (i =? F_BlockFileDataEnd); [apply append_drop|]. rewrite IH. apply append_drop.
Qed.
Lemma read_drop : forall D (T : codecs D) fuel dropk only uni file,
  v_drop (fst (vfb_read_bytes T fuel (new_vfb dropk only uni) file)) = dropk.
Proof.
  intros. unfold vfb_read_bytes, read_stream. destruct (parse_header file) as [h r|x r]; [|reflexivity].
  cbn [v_only_header with_header vfb_clear with_entries new_vfb]. destruct only; [reflexivity|]. now rewrite read_loop_drop.
Qed.
Definition decoded {D} (e : entry D) : Prop := exists i d, e_id e = Some i /\ e_data e = Dec d.
Lemma decompiled_all : forall D (T : codecs D) c dropk es es' err, Forall (fun e => not_dropped dropk e = true) es ->
  decompile_entries T c dropk es = (es', err, Ok tt) -> Forall decoded es'.
Proof.
  intros D T c dropk. induction es as [|e es IH]; intros es' err F E; cbn [decompile_entries] in E.
  - injection E as <- _. constructor.
  - apply Forall_cons_iff in F. destruct F as (F1 & F2). unfold not_dropped in F1. unfold zmem in E.
    destruct (e_id e) as [i|] eqn:Ei.
    + destruct (existsb (Z.eqb i) dropk); [discriminate|]. unfold entry_decompile in E. rewrite Ei in E.
      destruct (e_data e) as [b|d|] eqn:Ed; [|..].
      * destruct (cd_parse T i c b) as [d|x]; [|discriminate].
        destruct (decompile_entries T c dropk es) as [[es2 err2] o2] eqn:E2. injection E as <- _ ->. constructor; [|eapply IH; eauto].
        exists i, d. split; [exact Ei|reflexivity].
      * destruct (decompile_entries T c dropk es) as [[es2 err2] o2] eqn:E2. injection E as <- _ ->. constructor; [|eapply IH; eauto].
        exists i, d. split; assumption.
      * discriminate.
    + unfold entry_decompile in E. rewrite Ei in E. discriminate.
Qed.
Lemma all_decoded : forall D (T : codecs D) fuel dropk uni file v0 rest v,
  vfb_read_bytes T fuel (new_vfb dropk false uni) file = (v0, ROk tt rest) -> vfb_decompile T v0 = (v, Ok tt) ->
  Forall decoded (v_entries v) /\ v_ctx v = v_ctx v0.
Proof.
  intros D T fuel dropk uni file v0 rest v R E.
  pose proof (read_drop D T fuel dropk false uni file) as Dr. rewrite R in Dr. cbn [fst] in Dr.
  destruct (vfb_read_bytes T fuel (new_vfb [] false uni) file) as [p op] eqn:Ep.
  destruct (C18_drop_keys D T dropk false uni fuel file p v0 op _ Ep R) as (_ & _ & _ & _ & _ & Es).
  unfold vfb_decompile in E. destruct (header_decompile (v_header (with_errors false v0))) as [h|x]; [|discriminate].
  cbn [v_ctx v_drop v_entries with_header with_errors] in E.
  destruct (decompile_entries T (v_ctx v0) (v_drop v0) (v_entries v0)) as [[es err] o] eqn:De. injection E as <- ->.
  split; [|reflexivity]. cbn [v_entries with_errors with_entries]. eapply decompiled_all; [|exact De]. rewrite Dr, Es.
  apply Forall_forall. intros e I. apply filter_In in I. apply I.
Qed.

(** ** Blank glyphs *)
Lemma draw_blank : forall m n, draw_cached m (blank n) None = (Some [], Ok []).
Proof. reflexivity. Qed.
(** all glyphs are blank, and have been accessed *)
Definition blanked (st : vfb value * gtable) : Prop :=
  gt_glyphs (snd st) <> [] /\ forall name g, aget str_eqb name (gt_glyphs (snd st)) = Some g ->
    exists e n, nth_error (v_entries (fst st)) (go_entry g) = Some e /\ e_data e = Dec (DGlyph (blank n)).
Lemma positions_id : forall i es k p, In p (positions i k es) -> (k <= p)%nat /\ exists e, nth_error es (p - k) = Some e /\ e_id e = Some i.
Proof.
  intros i. induction es as [|e es IH]; intros k p I; [destruct I|]. cbn [positions] in I. apply in_app_or in I. destruct I as [I|I].
  - destruct (e_id e) as [j|] eqn:E; [|destruct I]. destruct (j =? i) eqn:Ej; [|destruct I]. destruct I as [<-|[]].
    apply Z.eqb_eq in Ej. subst j. split; [lia|]. exists e. rewrite Nat.sub_diag. auto.
  - destruct (IH _ _ I) as (L & f & N & F). split; [lia|]. exists f. replace (p - k)%nat with (S (p - S k)) by lia. auto.
Qed.
Lemma accessed : forall T v, related_ok T v -> exists st names, vfb_keys T (v, no_glyphs) = (st, Ok names) /\
  (names = [] \/ blanked st) /\ names = map fst (gt_glyphs (snd st)).
Proof.
  intros T v R. destruct (C42_blank T v no_glyphs eq_refl eq_refl R) as (st & K & B).
  destruct (C42_objects T v no_glyphs eq_refl eq_refl R) as (st' & items & It & _ & _ & P & _ & F).
  unfold vfb_keys in K. unfold vfb_items in It. destruct (ensure T (v, no_glyphs)) as [st0 o] eqn:E. injection K as <- K. injection It as <- It.
  destruct o as [u|x]; [|discriminate]. cbn [rmap] in K, It. apply Ok_inj in It. exists st0, (map fst (gt_glyphs (snd st0))).
  split; [unfold vfb_keys; rewrite E; reflexivity|]. split; [|reflexivity].
  destruct (gt_glyphs (snd st0)) as [|q l] eqn:G; [left; reflexivity|right]. split; [rewrite G; discriminate|].
  intros name g A. rewrite G in A. apply (aget_In _ str_eqb_eq) in A. rewrite It in A.
  assert (I : In (go_entry g) (positions 2001 0 (v_entries v))).
  { rewrite <- P. change (go_entry g) with ((fun x : pystr * gobj => go_entry (snd x)) (name, g)). apply in_map. exact A. }
  apply positions_id in I. destruct I as (_ & e & N & Ei). rewrite Nat.sub_0_r in N.
  assert (X : exists e', nth_error (v_entries (fst st0)) (go_entry g) = Some e' /\ e_id e' = Some 2001).
  { clear - F N Ei. revert N. generalize (go_entry g). induction F as [|a b la lb (Ha & _) F IH]; intros k N; destruct k as [|k]; try discriminate.
    - cbn in N. injection N as ->. exists b. split; [reflexivity|congruence].
    - exact (IH k N). }
  destruct X as (e' & N' & Ei'). exists e', (num_masters (v_ctx v)). split; [exact N'|]. eapply B; eassumption.
Qed.

Section Converter.
  Variable T : codecs value.
  Variable convert : pystr -> list (list (M_Paths.pen_call Z)) -> vfb value * gtable -> (vfb value * gtable) * res bool.

  Lemma drawn_blank : forall st name m, blanked st -> In name (map fst (gt_glyphs (snd st))) -> draw_master T name m st = (st, Ok []).
  Proof.
    intros st name m (N & B) I. unfold draw_master, vfb_getitem, ensure. destruct (gt_glyphs (snd st)) as [|q l] eqn:G; [congruence|].
    rewrite G. destruct (aget str_eqb name (q :: l)) as [g|] eqn:A.
    2: { exfalso. apply (aget_None str_eqb str_eqb_eq) in A. exact (A I). }
    cbn [rthen]. destruct (B name g A) as (e & n & Hn & He). rewrite Hn, He, draw_blank. reflexivity.
  Qed.
  Lemma masters_blank : forall st name count m, blanked st -> In name (map fst (gt_glyphs (snd st))) ->
    draw_masters T name m count st = (st, Ok (repeat [] count)).
  Proof.
    intros st name. induction count as [|count IH]; intros m B I; [reflexivity|]. cbn [draw_masters]. rewrite drawn_blank by assumption.
    rewrite IH by assumption. reflexivity.
  Qed.
  Lemma glyphs_blank : forall st count names, blanked st -> Forall (fun name => In name (map fst (gt_glyphs (snd st)))) names ->
    glyphs_to_quadratic T convert count names st = (st, Ok false).
  Proof.
    intros st count. induction names as [|name names IH]; intros B F; [reflexivity|]. apply Forall_cons_iff in F. destruct F as (F1 & F2).
    cbn [glyphs_to_quadratic]. unfold glyph_to_quadratic. rewrite masters_blank by assumption.
    replace (forallb _ (repeat [] count)) with true; [rewrite IH by assumption; reflexivity|].
    clear. induction count as [|n IH]; [reflexivity|exact IH].
  Qed.
  Lemma find_upm_ok : forall c es, Forall decoded es -> exists es' u, find_upm T c es = (es', Ok u) /\ es' = es.
  Proof.
    intros c. induction es as [|e es IH]; intros F; cbn [find_upm]; [do 2 eexists; split; reflexivity|].
    apply Forall_cons_iff in F. destruct F as ((i & d & Ei & Ed) & F). rewrite Ei. destruct (IH F) as (es' & u & E & ->). rewrite E.
    destruct (i =? F_upm); [|do 2 eexists; split; reflexivity]. unfold entry_decompile. rewrite Ei, Ed, Ed. do 2 eexists. split; reflexivity.
  Qed.
  Lemma quadratic_never : forall v count, Forall decoded (v_entries v) ->
    exists st, to_quadratic T convert count (v, no_glyphs) = (st, Ok false).
  Proof.
    intros v count F. unfold to_quadratic, unitsPerEm. cbn [fst snd]. destruct (find_upm_ok (v_ctx v) (v_entries v) F) as (es & u & E & ->). rewrite E.
    assert (R : related_ok T (with_entries (v_entries v) v)).
    { intros e I _. cbn [v_entries with_entries] in I. rewrite Forall_forall in F. destruct (F e I) as (i & d & Ei & Ed). unfold entry_decompile.
      rewrite Ei, Ed. reflexivity. }
    destruct (accessed T _ R) as (st & names & K & [->|B] & Hn); rewrite K; [eexists; reflexivity|].
    exists st. apply glyphs_blank; [exact B|]. rewrite Hn. apply Forall_forall. auto.
  Qed.
End Converter.

(** ** C93 *)
(** What the tool does with any file, whatever fontTools would do to the outlines: it fails if the file cannot be read
    or decompiled, it declines if the number of masters is not positive, and otherwise it says that the file was not
    modified. *)
Theorem C93_exact : forall T convert fuel folder force input o file fs,
  vfbcu2qu T convert fuel folder force input o file fs =
  (fs, match vfb_read_bytes T fuel (new_vfb [2008] false false) file with
       | (_, RErr x _) => CuFailed x
       | (v, ROk _ _) =>
           match vfb_decompile T v with
           | (_, Err x) => CuFailed x
           | (v, Ok _) => if num_masters (v_ctx v) <? 1 then CuUnsupported else CuUnmodified
           end
       end).
Proof.
  intros T convert fuel folder force input o file fs. unfold vfbcu2qu. change G_Links with 2008.
  destruct (vfb_read_bytes T fuel (new_vfb [2008] false false) file) as [v0 [[] r|x r]] eqn:R; [|reflexivity].
  destruct (vfb_decompile T v0) as [v [[]|x]] eqn:D; [|reflexivity]. destruct (num_masters (v_ctx v) <? 1); [reflexivity|].
  destruct (all_decoded _ T _ _ _ _ _ _ _ R D) as (F & _).
  destruct (quadratic_never T convert v (Z.to_nat (num_masters (v_ctx v))) F) as (st & E). rewrite E. reflexivity.
Qed.
(** So it never writes a file. *)
Theorem C93_never : forall T convert fuel folder force input o file fs,
  fst (vfbcu2qu T convert fuel folder force input o file fs) = fs /\
  snd (vfbcu2qu T convert fuel folder force input o file fs) <> CuSaved.
Proof.
  intros. rewrite C93_exact. split; [reflexivity|]. cbn [snd]. destruct (vfb_read_bytes _ _ _ _) as [v0 [u r|x r]]; [|discriminate].
  destruct (vfb_decompile _ _) as [v [u'|x]]; [|discriminate]. destruct (_ <? 1); discriminate.
Qed.
Definition c93_glyph : glyph :=
  Glyph (Some (py "o")) (Some 1) (Some [MMNode Move 0 [[(0, 0)]]; MMNode Curve 0 [[(100, 100); (0, 50); (50, 100)]]; MMNode Line 0 [[(100, 0)]]])
        (Some [(600, 0)]) None None None None None None.
(** a font with one master and this glyph, which has a cubic curve *)
Definition c93_file : bytes := file_of 7
  [(1503, [1; 0]);
   (2001, [1; 9; 7; 1; 1; 140; 111; 8; 140; 165; 142; 0; 139; 139; 3; 239; 239; 39; 89; 189; 189; 1; 189; 39; 2; 248; 236; 139; 15]);
   (2, [])].
(** That the font is converted is false: this file is read and decompiled to that glyph, and the tool does not convert it,
    whatever fontTools would make of its outline. *)
Theorem C93_refuted : forall o convert folder force input out fs, exists v0 v,
  vfb_read_bytes (table o) 3 (new_vfb [2008] false false) c93_file = (v0, ROk tt []) /\
  vfb_decompile (table o) v0 = (v, Ok tt) /\
  In (mkEntry (Some 2001) (Dec (DGlyph c93_glyph)) None) (v_entries v) /\
  vfbcu2qu (table o) convert 3 folder force input out c93_file fs = (fs, CuUnmodified).
Proof.
  intros o convert folder force input out fs.
  assert (R : exists v0, vfb_read_bytes (table o) 3 (new_vfb [2008] false false) c93_file = (v0, ROk tt []) /\
    exists v, vfb_decompile (table o) v0 = (v, Ok tt) /\ In (mkEntry (Some 2001) (Dec (DGlyph c93_glyph)) None) (v_entries v) /\ num_masters (v_ctx v) = 1).
  { eexists. split; [vm_compute; reflexivity|]. eexists. split; [vm_compute; reflexivity|]. split; [right; left; reflexivity|reflexivity]. }
  destruct R as (v0 & R & v & D & I & N). exists v0, v. split; [exact R|]. split; [exact D|]. split; [exact I|].
  rewrite C93_exact, R, D, N. reflexivity.
Qed.

Print Assumptions C93_exact.
Print Assumptions C93_never.
Print Assumptions C93_refuted.
