(** C119 for files: an edit of the outline, hints or metrics of a glyph stays in its family. *)
From Coq Require Import String ZifyBool QArith.
From Verif Require Import Base M_Py M_Helpers M_Simple M_Text M_TrueType M_Glyph M_Options M_Container M_Table M_Groups M_Info M_FontInfo M_Tth M_Programs.
From Verif Require Import M_Builder M_Master M_Features M_Designspace M_Build M_Labels M_PsHints M_Paths M_Guides M_Export M_Ufo.
From Verif Require Import S_Build Lib P_Build Prop_Local Prop_Ufo Prop_Indep Prop_Indep2 Prop_Indep3.
Local Open Scope list_scope.
Local Open Scope Z_scope.

(** ** Glyphs with the same name and the same components *)
Definition parts_of (g : bglyph gvalue) : list M_Glyph.component := match bg_data g with VGlyph x _ => mg_components x | VData _ => [] end.
Definition alike (g g' : bglyph gvalue) : Prop := bg_name g' = bg_name g /\ parts_of g' = parts_of g.
Lemma alike_kept : kept alike.
Proof.
  constructor; unfold alike, parts_of; cbn [bg_name bg_data]; tauto.
Qed.
Lemma one_only : forall fam k l l', fam k = false -> one alike k l l' -> only fam l = only fam l'.
Proof.
  intros fam k l l' Fk F. induction F as [|[n g] [n' g'] l l' (N & _ & E) F IH]; [reflexivity|]. cbn [fst snd] in *. subst n'.
  cbn [only filter fst]. fold (only fam l). fold (only fam l'). rewrite IH. destruct (fam n) eqn:Fn; [|reflexivity].
  rewrite E; [reflexivity|]. intros ->. congruence.
Qed.
Lemma one_in : forall k l l', one alike k l l' -> forall n g', In (n, g') l' -> exists g, In (n, g) l /\ parts_of g' = parts_of g.
Proof.
  intros k l l' F. induction F as [|[n g] [n' g'] l l' (N & (_ & P) & _) F IH]; intros m h I; [destruct I|]. cbn [fst snd] in *. subst n'. destruct I as [I|I].
  - injection I as <- <-. exists g. split; [now left|exact P].
  - destruct (IH _ _ I) as (y & J & K). exists y. split; [now right|exact K].
Qed.

(** ** The property *)
(** C119: the entry of a glyph is replaced by one with another outline, other hints, metrics, guides or TrueType
    programs, with the same name, components and kerning. The glyphs of every family without it are the same in the
    UFOs of every master. *)
Theorem C119_edited : forall c o before x x' after n s us us' ,
  g_name x = Some n -> g_name x' = Some n -> g_components x' = g_components x -> g_kerning x' = g_kerning x ->
  build_font c (before ++ (2001, Some (DGlyph x)) :: after) = Ok s ->
  vfb_to_ufos c o (before ++ (2001, Some (DGlyph x)) :: after) = Ok us ->
  vfb_to_ufos c o (before ++ (2001, Some (DGlyph x')) :: after) = Ok us' ->
  exists k, exported_name n k /\ forall fam, fam k = false -> glyph_family s fam ->
    forall m u u', nth_error us m = Some u -> nth_error us' m = Some u' ->
    only fam (uf_glyphs u) = only fam (uf_glyphs u') /\ only fam (uf_background u) = only fam (uf_background u').
Proof.
  intros c o before x x' after n s us us' N N' C K B E E'. unfold vfb_to_ufos in E, E'. rewrite B in E. cbn [rthen] in E.
  destruct (build_font c (before ++ (2001, Some (DGlyph x')) :: after)) as [s'|] eqn:B'; [|discriminate]. cbn [rthen] in E'.
  assert (App : forall a s0 e r, res_fold (build_step c) s0 (a ++ e :: r) = rthen (res_fold (build_step c) s0 a) (fun t => rthen (build_step c t e) (fun t => res_fold (build_step c) t r))).
  { intros a. induction a as [|y a IH]; intros s0 e r; cbn [app res_fold]; [reflexivity|]. destruct (build_step c s0 y); cbn [rthen]; [apply IH|reflexivity]. }
  unfold build_font in B, B'. rewrite App in B, B'. clear App. destruct (res_fold (build_step c) new_font before) as [t|]; [|discriminate]. cbn [rthen] in B, B'.
  rewrite step_2001 in B, B'. unfold glyph_entry in B, B'.
  assert (Mm : forall y r, g_name y = Some n -> build_mm_glyph (st_minimal c) (st_ps_hints c) y = Ok r ->
    mg_name (fst r) = n /\ mg_components (fst r) = match g_components y with Some l => l | None => [] end).
  { intros y r Hy Hr. unfold build_mm_glyph in Hr. rewrite Hy in Hr. cbn [get_key rthen] in Hr. destruct (g_metrics y); [|discriminate]. cbn [get_key rthen] in Hr.
    destruct (g_nodes y); [|discriminate]. cbn [get_key rmap] in Hr. apply Ok_inj in Hr. subst r. split; reflexivity. }
  destruct (build_mm_glyph _ _ x) as [r|] eqn:Mx; [|discriminate]. destruct (build_mm_glyph _ _ x') as [r'|] eqn:Mx'; [|discriminate].
  destruct (Mm _ _ N Mx) as (A1 & A2). destruct (Mm _ _ N' Mx') as (A1' & A2'). cbn [rthen] in B, B'. rewrite A1 in B. rewrite A1', K in B'.
  unfold on_glyphs in B, B'. cbn [b_add rmap rthen] in B, B'. set (kern := match g_kerning x with Some k => k | None => [] end) in *.
  set (b := new_glyph n kern (VGlyph (fst r) (ex_side_names (fo_tt t))) (store_glyph (fo_glyphs t))) in *.
  set (b' := new_glyph n kern (VGlyph (fst r') (ex_side_names (fo_tt t))) (store_glyph (fo_glyphs t))) in *.
  change (Font _ b _ _ _ _ _ _ _ _ _ _) with (wg b t) in B. change (Font _ b' _ _ _ _ _ _ _ _ _ _) with (wg b' t) in B'.
  assert (D : differs alike n b b').
  { left. unfold b, b', new_glyph. do 2 eexists. cbn [bs_current bs_glyphs bs_order bs_kerning bs_masters bs_axes bs_infos]. split; [reflexivity|]. split; [|split; reflexivity].
    split; [reflexivity|]. unfold parts_of. cbn [bg_data]. now rewrite A2, A2', C. }
  pose proof (fold_differs _ c after n t b b' alike_kept D) as H. clearbody b b'.
  destruct (res_fold (build_step c) (wg b t) after) as [t1|] eqn:F1; [|discriminate]. destruct H as (t0 & y & y' & Ey & Ey' & D').
  rewrite Ey' in B'. cbn [rthen] in B, B'. rewrite Ey in B.
  destruct (finish_differs _ alike_kept _ _ _ D') as (k & X & F & O & _). cbv zeta in F, O. destruct (fix_parts (store_last y)) as (P1 & P2). destruct (fix_parts (store_last y')) as (P1' & P2').
  rewrite P1, P1' in F. rewrite P2, P2' in O.
  destruct (finish_parts _ _ B) as (X1 & X2 & X3). destruct (finish_parts _ _ B') as (Y1 & Y2 & Y3). cbn [wg fo_glyphs fo_tt] in X1, X2, X3, Y1, Y2, Y3.
  exists k. split; [exact X|]. intros fam Fk Fam m u u' Hu Hu'.
  assert (Od : bs_order (fo_glyphs s') = bs_order (fo_glyphs s)) by congruence.
  apply (C119_ufos c o s s' fam us us' m u u' Fam); try assumption.
  - intros nm g z w kk cc I Dg Kk Ix. rewrite Y1 in I. destruct (one_in _ _ _ F _ _ I) as (h & J & Pp). rewrite Od in Ix.
    unfold parts_of in Pp. rewrite Dg in Pp. destruct (bg_data h) as [q w'|] eqn:Dh; [|rewrite Pp in Kk; destruct Kk]. rewrite Pp in Kk.
    rewrite <- X1 in J. exact (Fam _ _ _ _ _ _ J Dh Kk Ix).
  - intros nm g z w kk _ _ _ _. now rewrite Od.
  - rewrite X1, Y1. exact (one_only fam k _ _ Fk F).
  - congruence.
Qed.
Print Assumptions C119_edited.

(** ** Entries: the outline of "B", which is alone, changes in a file that also has "A" and "Aacute" *)
Definition c119_b' : glyph :=
  Glyph (Some (py "B")) (Some 2) (Some (rev c86_outline ++ c86_outline)) (Some [(700, 0); (740, 0)]) None None None (Some [(0, [-5; -5])]) None None.
Example C119_edited_meets : forall ops up asm number,
  let c := Settings false false false ops up asm in let es x := c86_entries ++ (2001, Some (DGlyph x)) :: [(1250, Some (DInts [66]))] in
  let out x := rmap (map (fun u => map (fun p => (fst p, og_width (snd p))) (uf_glyphs u))) (vfb_to_ufos c (c86_options number) (es x)) in
  build_font c (es c119_b) = Ok (c119_font c (es c119_b)) /\ glyph_family (c119_font c (es c119_b)) c119_fam /\ c119_fam (py "B") = false /\
  out c119_b = Ok [[(py "A", 600); (py "Aacute", 600); (py "B", 500)]; [(py "A", 640); (py "Aacute", 640); (py "B", 540)]] /\
  out c119_b' = Ok [[(py "A", 600); (py "Aacute", 600); (py "B", 700)]; [(py "A", 640); (py "Aacute", 640); (py "B", 740)]].
Proof.
  intros ops up asm number c es out.
  assert (O1 : out c119_b = Ok [[(py "A", 600); (py "Aacute", 600); (py "B", 500)]; [(py "A", 640); (py "Aacute", 640); (py "B", 540)]]) by (vm_compute; reflexivity).
  assert (O2 : out c119_b' = Ok [[(py "A", 600); (py "Aacute", 600); (py "B", 700)]; [(py "A", 640); (py "Aacute", 640); (py "B", 740)]]) by (vm_compute; reflexivity).
  assert (B : build_font c (es c119_b) = Ok (c119_font c (es c119_b))) by (exact (c119_built c (es c119_b) ltac:(vm_compute; reflexivity))).
  set (s := c119_font c (es c119_b)) in *.
  assert (R : each_component s (fun n gid => resolves_to (bs_order (fo_glyphs s)) gid (py "A") && c119_fam n) = true) by (vm_compute; reflexivity).
  clearbody s. split; [exact B|]. split; [|split; [reflexivity|split; [exact O1|exact O2]]].
  intros name g x z k a I D K X. pose proof (each_ok _ _ R _ _ _ _ _ I D K) as H. apply andb_true_iff in H. destruct H as (H & ->).
  unfold resolves_to in H. rewrite X in H. apply str_eqb_eq in H. subst a. reflexivity.
Qed.
