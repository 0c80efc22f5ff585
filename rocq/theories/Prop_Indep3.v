(** C119 for files: a glyph that is added at the end of a VFB leaves the other glyphs of the UFOs as they are. *)
From Coq Require Import String ZifyBool QArith.
From Verif Require Import Base M_Py M_Helpers M_Simple M_Text M_TrueType M_Glyph M_Options M_Container M_Table M_Groups M_Info M_FontInfo M_Tth M_Programs.
From Verif Require Import M_Builder M_Master M_Features M_Designspace M_Build M_Labels M_PsHints M_Paths M_Guides M_Export M_Ufo.
From Verif Require Import S_Build S_Ufo Lib P_Build P_Ufo2 Prop_Build Prop_Ufo Prop_Indep Prop_Indep2.
Local Open Scope list_scope.
Local Open Scope Z_scope.

(** ** Specification *)
(** the components of all glyphs of a file are glyphs of the file *)
Definition components_there (l : list (Z * value)) : Prop :=
  Forall (fun x => Forall (fun k => 0 <= M_Glyph.co_gid k < Z.of_nat (List.length (names_of l)))
                          (match g_components x with Some ks => ks | None => [] end)) (glyph_entries l).

(** ** Proof *)
Definition stored_named (s : bstate gvalue) : Prop := incl (map fst (bs_glyphs s)) (bs_order s).
Lemma store_named : forall s, stored_named s -> stored_named (store_glyph s).
Proof.
  intros s H. unfold store_glyph. destruct (bs_current s) as [g|]; [|exact H].
  assert (P : forall k, stored_named (BState (Some g) (aset str_eqb k g (bs_glyphs s)) (bs_order s ++ [k]) (bs_kerning s) (bs_masters s) (bs_axes s) (bs_infos s))).
  { intros k n I. cbn [bs_glyphs bs_order] in *. apply (aset_keys str_eqb str_eqb_eq) in I. apply in_or_app. destruct I as [->|I]; [right; now left|left; exact (H _ I)]. }
  destruct (aget str_eqb (bg_name g) (bs_glyphs s)); [destruct (free_name _ _ _ _); [apply P|exact H]|apply P].
Qed.
Lemma add_named : forall s e s', stored_named s -> b_add s e = Ok s' -> stored_named s'.
Proof.
  intros s e s' H. destruct e; cbn [b_add]; unfold with_glyph; try (destruct (bs_current s) as [g|]; [|discriminate]); intros X; apply Ok_inj in X; subst s'; try exact H.
  exact (store_named s H).
Qed.
Lemma fold_named : forall es s s', stored_named s -> res_fold b_add s es = Ok s' -> stored_named s'.
Proof.
  intros es. induction es as [|e es IH]; intros s s' H; cbn [res_fold]; [intros X; apply Ok_inj in X; now subst|].
  destruct (b_add s e) as [s1|] eqn:E; cbn [rthen]; [|discriminate]. intros R. exact (IH _ _ (add_named _ _ _ H E) R).
Qed.
Lemma fix_parts : forall (s : bstate gvalue), bs_glyphs (fix_masters_count s) = bs_glyphs s /\ bs_order (fix_masters_count s) = bs_order s.
Proof. intros s. unfold fix_masters_count. destruct (_ <? _); split; reflexivity. Qed.
Lemma finish_parts : forall t s, finish t = Ok s ->
  bs_glyphs (fo_glyphs s) = bs_glyphs (store_last (fo_glyphs t)) /\ bs_order (fo_glyphs s) = bs_order (store_last (fo_glyphs t)) /\ fo_tt s = fo_tt t.
Proof.
  intros t s. unfold finish, on_info. cbn [fo_info]. destruct (fix_underline_position _) as [i|]; cbn [rmap]; [|discriminate].
  intros X. apply Ok_inj in X. subst s. cbn [fo_glyphs fo_tt]. destruct (fix_parts (store_last (fo_glyphs t))) as (-> & ->). repeat split.
Qed.
Lemma fold_app : forall c a s e, res_fold (build_step c) s (a ++ [e]) = rthen (res_fold (build_step c) s a) (fun t => build_step c t e).
Proof.
  intros c a. induction a as [|x a IH]; intros s e; cbn [app res_fold].
  - cbn [rthen]. destruct (build_step c s e); reflexivity.
  - destruct (build_step c s x) as [t|]; cbn [rthen]; [apply IH|reflexivity].
Qed.
Lemma step_2001 : forall c x s, build_step c s (2001, Some (DGlyph x)) = glyph_entry c x s.
Proof. intros c x s. unfold build_step, skip_keys. destruct (st_vfb_minimal c); reflexivity. Qed.
Lemma only_all : forall A fam (l : list (pystr * A)), (forall n, In n (map fst l) -> fam n = true) -> only fam l = l.
Proof.
  intros A fam l. induction l as [|[n a] l IH]; intros H; [reflexivity|]. cbn [only filter fst]. fold (only fam l).
  rewrite (H n (or_introl eq_refl)), IH; [reflexivity|]. intros m I. apply H. now right.
Qed.
Lemma only_app : forall A fam (a b : list (pystr * A)), only fam (a ++ b) = only fam a ++ only fam b.
Proof. intros A fam a b. unfold only. apply filter_app. Qed.
Lemma all_names : forall c o od m glyphs cmds st gs ks st', export_all c o od m glyphs cmds st = Ok (gs, ks, st') -> map fst gs = map fst glyphs.
Proof.
  intros c o od m glyphs cmds. induction glyphs as [|[n g] glyphs IH]; intros st gs ks st'; cbn [export_all]; [intros X; apply Ok_inj in X; now injection X as <- _ _|].
  destruct (export_one _ _ _ _ _ _ _ _) as [[[u k] st1]|]; cbn [rthen fst snd]; [|discriminate].
  destruct (export_all _ _ _ _ glyphs _ _) as [[[us ks1] st2]|] eqn:E; cbn [rmap fst snd]; [|discriminate].
  intros X. apply Ok_inj in X. injection X as <- _ _. cbn [map fst]. f_equal. exact (IH _ _ _ _ E).
Qed.
Lemma ufo_names : forall c o s us k u, get_ufo_masters c o s = Ok us -> nth_error us k = Some u -> map fst (uf_glyphs u) = map fst (bs_glyphs (fo_glyphs s)).
Proof.
  intros c o s us k u H N. unfold get_ufo_masters in H. destruct (tt_glyph_lib _ _ _ _ _) as [[cmds st0]|]; [|discriminate]. cbn [rthen fst snd] in H.
  destruct (transform_groups _ _ _ _); [|discriminate]. cbn [rthen] in H. destruct (export_shared _ _ _ _ _ _ _ _); [|discriminate]. cbn [rthen] in H.
  change 0 with (Z.of_nat 0) in H. destruct (masters_nth _ _ _ _ _ _ _ _ _ _ H) as [_ R]. destruct (R k u N) as (st1 & st2 & E). clear H R.
  unfold get_ufo_master in E. destruct (get_master_kerning _ _); [|discriminate]. cbn [rthen] in E.
  destruct (get_master_info _ _ _ _ _); [|discriminate]. cbn [rthen] in E. destruct (font_guides _ _ _ _); [|discriminate]. cbn [rthen] in E.
  destruct (export_all _ _ _ _ _ _ _) as [[[gs ks] st3]|] eqn:Ee; [|discriminate]. cbn [rmap fst snd] in E. apply Ok_inj in E. injection E as <- _.
  cbn [uf_glyphs]. exact (all_names _ _ _ _ _ _ _ _ _ _ Ee).
Qed.
Lemma index_in : forall (l : list pystr) i x, py_index l i = Ok x -> In x l.
Proof.
  intros l i x. unfold py_index. cbv zeta. destruct (_ || _); [discriminate|]. destruct (nth_error l _) eqn:E; [|discriminate].
  intros X. apply Ok_inj in X. subst. eapply nth_error_In. exact E.
Qed.
Lemma index_app : forall (l r : list pystr) i, 0 <= i < Z.of_nat (List.length l) -> py_index (l ++ r) i = py_index l i.
Proof.
  intros l r i H. unfold py_index. cbv zeta. rewrite app_length.
  assert (i <? 0 = false) as -> by lia.
  assert ((i <? 0) || (Z.of_nat (List.length l + List.length r) <=? i) = false) as -> by lia.
  assert ((i <? 0) || (Z.of_nat (List.length l) <=? i) = false) as -> by lia.
  rewrite nth_error_app1 by lia. reflexivity.
Qed.
Lemma from_in : forall xs gs, Forall2 glyph_from xs gs -> forall g, In g gs -> exists x, In x xs /\ glyph_from x g.
Proof.
  intros xs gs F. induction F as [|x g xs gs H F IH]; intros g' I; [destruct I|]. destruct I as [<-|I].
  - exists x. split; [now left|exact H].
  - destruct (IH _ I) as (y & J & K). exists y. split; [now right|exact K].
Qed.

(** ** The property *)
(** C119: a glyph with a new name and without components is added at the end of the file. In every master the glyphs
    that were there are the same as before, and so are their masks; the new one comes after them. *)
Theorem C119_added : forall c o es x name us1 us2 k u1 u2,
  Forall typed es -> let l := used (st_vfb_minimal c) es in good_glyphs l -> components_there l ->
  g_name x = Some name -> ~ In name (names_of l) -> (g_components x = None \/ g_components x = Some []) ->
  vfb_to_ufos c o es = Ok us1 -> vfb_to_ufos c o (es ++ [(2001, Some (DGlyph x))]) = Ok us2 ->
  nth_error us1 k = Some u1 -> nth_error us2 k = Some u2 ->
  (exists q, uf_glyphs u2 = uf_glyphs u1 ++ [(name, q)]) /\
  filter (fun p => negb (str_eqb (fst p) name)) (uf_background u2) = filter (fun p => negb (str_eqb (fst p) name)) (uf_background u1).
Proof.
  intros c o es x name us1 us2 k u1 u2 T l Gd Cs Nx Nin Cx E1 E2 N1 N2. pose proof Gd as (G1 & G2 & G3 & G4 & G5).
  unfold vfb_to_ufos in E1, E2. destruct (build_font c es) as [s1|] eqn:B1; [|discriminate]. cbn [rthen] in E1.
  destruct (build_font c (es ++ _)) as [s2|] eqn:B2; [|discriminate]. cbn [rthen] in E2.
  destruct (C85_glyphs c es s1 T B1 G1 G2 G3 G4 G5) as (Kn & On & Fr & _). fold l in Kn, On, Fr. fold (names_of l) in Kn, On.
  unfold build_font in B1, B2. rewrite fold_app in B2. destruct (res_fold (build_step c) new_font es) as [t|] eqn:R; [|discriminate].
  cbn [rthen] in B1, B2. rewrite step_2001 in B2.
  pose proof (loop_parts c es new_font T (complete_glyphs_ok c _ (built_complete _ _ _ _ R))) as P. rewrite R in P. destruct P as [_ Pg _ _ _ _ _ _ _ _ _ _].
  assert (Sn : stored_named (fo_glyphs t)) by (eapply fold_named; [|exact Pg]; intros n []). clear Pg.
  destruct (finish_parts _ _ B1) as (X1 & X2 & X3). rewrite X1 in Kn. rewrite X2 in On.
  unfold glyph_entry in B2. destruct (build_mm_glyph _ _ x) as [[mx rest]|] eqn:Mx; [|discriminate]. cbn [rthen fst] in B2.
  assert (Mn : mg_name mx = name /\ mg_components mx = []).
  { unfold build_mm_glyph in Mx. rewrite Nx in Mx. cbn [get_key rthen] in Mx. destruct (g_metrics x); [|discriminate]. cbn [get_key rthen] in Mx.
    destruct (g_nodes x); [|discriminate]. cbn [get_key rmap] in Mx. apply Ok_inj in Mx. injection Mx as <- _. cbn [mg_name mg_components].
    split; [reflexivity|]. destruct Cx as [-> | ->]; reflexivity. }
  destruct Mn as (Mn & Mc). rewrite Mn in B2. unfold on_glyphs in B2. cbn [b_add rmap rthen] in B2.
  destruct (finish_parts _ _ B2) as (Y1 & Y2 & Y3). cbn [fo_glyphs fo_tt] in Y1, Y2, Y3.
  assert (St : bs_glyphs (store_glyph (fo_glyphs t)) = bs_glyphs (store_last (fo_glyphs t)) /\ bs_order (store_glyph (fo_glyphs t)) = bs_order (store_last (fo_glyphs t))).
  { unfold store_glyph, store_last in *. destruct (bs_current (fo_glyphs t)) as [g|]; [|split; reflexivity].
    destruct (aget str_eqb (bg_name g) (bs_glyphs (fo_glyphs t))) as [g'|] eqn:A; [|split; reflexivity]. exfalso.
    cbn [bs_order] in On. rewrite <- On in G3. apply NoDup_remove_2 in G3. apply G3. rewrite app_nil_r. apply Sn.
    apply (aget_In str_eqb str_eqb_eq) in A. apply in_map_iff. exists (bg_name g, g'). split; [reflexivity|exact A]. }
  destruct St as (St1 & St2). unfold store_last at 1 in Y1. unfold store_last at 1 in Y2. unfold new_glyph in Y1, Y2.
  cbn [bs_current bs_glyphs bs_order bg_name] in Y1, Y2. rewrite St1 in Y1. rewrite St2 in Y2. rewrite (aset_notin str_eqb str_eqb_eq) in Y1 by (rewrite Kn; exact Nin).
  set (gs := bs_glyphs (store_last (fo_glyphs t))) in *. rewrite On in X2, Y2.
  set (gx := BGlyph name _ [] [] []) in Y1. set (fam := fun n => negb (str_eqb n name)).
  assert (Fn : fam name = false) by (unfold fam; rewrite (proj2 (str_eqb_eq name name) eq_refl); reflexivity).
  assert (Fi : forall n, In n (names_of l) -> fam n = true).
  { intros n I. unfold fam. destruct (str_eqb n name) eqn:E; [|reflexivity]. apply str_eqb_eq in E. now subst. }
  assert (Og : only fam gs = gs) by (apply only_all; intros n I; apply Fi; now rewrite Kn in I).
  assert (Rg : forall n g y z kk, In (n, g) gs -> bg_data g = VGlyph y z -> In kk (mg_components y) -> 0 <= M_Glyph.co_gid kk < Z.of_nat (List.length (names_of l))).
  { intros n g y z kk I D K. rewrite X1 in Fr. destruct (from_in _ _ Fr g) as (y0 & J & (m & z0 & D0 & _ & _ & _ & _ & Ec)); [apply in_map_iff; exists (n, g); split; [reflexivity|exact I]|].
    rewrite D in D0. injection D0 as <- <-. rewrite <- Ec in K. unfold components_there in Cs. rewrite Forall_forall in Cs. specialize (Cs _ J). rewrite Forall_forall in Cs. exact (Cs _ K). }
  assert (F1 : glyph_family s1 fam).
  { intros n g y z kk cc I D K X. rewrite X1 in I. rewrite X2 in X. rewrite (Fi cc (index_in _ _ _ X)). symmetry. apply Fi. rewrite <- Kn.
    apply in_map_iff. exists (n, g). split; [reflexivity|exact I]. }
  assert (F2 : glyph_family s2 fam).
  { intros n g y z kk cc I D K X. rewrite Y1 in I. rewrite Y2 in X. apply in_app_or in I. destruct I as [I|[I|[]]].
    - rewrite (index_app _ _ _ (Rg _ _ _ _ _ I D K)) in X. rewrite (Fi cc (index_in _ _ _ X)). symmetry. apply Fi. rewrite <- Kn.
      apply in_map_iff. exists (n, g). split; [reflexivity|exact I].
    - injection I as <- <-. unfold gx in D. cbn [bg_data] in D. injection D as <- _. rewrite Mc in K. destruct K. }
  assert (S : same_components s2 s1 fam).
  { intros n g y z kk I F D K. rewrite X2, Y2. rewrite Y1 in I. apply in_app_or in I. destruct I as [I|[I|[]]].
    - symmetry. apply index_app. exact (Rg _ _ _ _ _ I D K).
    - injection I as <- _. congruence. }
  assert (G : only fam (bs_glyphs (fo_glyphs s1)) = only fam (bs_glyphs (fo_glyphs s2))).
  { rewrite X1, Y1, only_app. cbn [only filter fst]. rewrite Fn. now rewrite app_nil_r. }
  destruct (C119_ufos c o s1 s2 fam us1 us2 k u1 u2 F1 F2 S G (eq_trans X3 (eq_sym Y3)) E1 E2 N1 N2) as (H1 & H2).
  split; [|symmetry; exact H2].
  pose proof (ufo_names _ _ _ _ _ _ E1 N1) as U1. pose proof (ufo_names _ _ _ _ _ _ E2 N2) as U2. rewrite X1 in U1. rewrite Y1, map_app in U2. cbn [map fst] in U2.
  rewrite only_all in H1 by (intros n I; apply Fi; rewrite U1 in I; now rewrite <- Kn).
  destruct (map_eq_app _ _ _ _ U2) as (a & b & Ea & Ha & Hb). destruct b as [|[n q] [|]]; try discriminate. injection Hb as ->.
  exists q. rewrite Ea. f_equal. rewrite H1, Ea, only_app. cbn [only filter fst]. rewrite Fn, app_nil_r. symmetry. apply only_all.
  intros n I. apply Fi. rewrite Ha in I. now rewrite <- Kn.
Qed.
Print Assumptions C119_added.

(** "B" is added after "A" and "Aacute" *)
Definition c119_b : glyph :=
  Glyph (Some (py "B")) (Some 2) (Some c86_outline) (Some [(500, 0); (540, 0)]) None None None (Some [(0, [-5; -5])]) None None.
Example C119_added_meets : forall ops up asm number,
  let c := Settings false false false ops up asm in
  Forall typed c86_entries /\ good_glyphs (used false c86_entries) /\ components_there (used false c86_entries) /\
  ~ In (py "B") (names_of (used false c86_entries)) /\
  rmap (map (fun u => map fst (uf_glyphs u))) (vfb_to_ufos c (c86_options number) c86_entries) = Ok [[py "A"; py "Aacute"]; [py "A"; py "Aacute"]] /\
  rmap (map (fun u => map fst (uf_glyphs u))) (vfb_to_ufos c (c86_options number) (c86_entries ++ [(2001, Some (DGlyph c119_b))]))
    = Ok [[py "A"; py "Aacute"; py "B"]; [py "A"; py "Aacute"; py "B"]].
Proof.
  intros. split; [exact c86_typed|]. split; [exact c86_good|]. split; [|split; [|split; vm_compute; reflexivity]].
  - unfold components_there. vm_compute. repeat constructor; discriminate.
  - vm_compute. intros H. repeat (destruct H as [H|H]; [discriminate H|]). exact H.
Qed.
