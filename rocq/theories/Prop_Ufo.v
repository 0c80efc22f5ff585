(** C86 and C87: the glyphs and masks of the UFOs, from the entries of a VFB. *)
From Coq Require Import String QArith Lia ZifyBool ZifyNat.
From Verif Require Import Base Lib M_Py M_Helpers M_Simple M_Text M_TrueType M_Bitmap M_Glyph M_Options M_Container M_Table M_Groups.
From Verif Require Import M_Info M_FontInfo M_Tth M_Programs M_Builder M_Master M_Features M_Designspace M_Build M_Labels M_PsHints.
From Verif Require Import M_Paths M_Guides M_Export M_Ufo S_Build S_Paths S_Guides S_Ufo S_Builder.
From Verif Require Import Prop_Builder Prop_Build P_Ufo P_Ufo2.
Local Open Scope list_scope.
Local Open Scope Z_scope.

Lemma blocks_entries : forall l, map fst (glyph_blocks l) = glyph_entries l.
Proof.
  unfold glyph_blocks. induction l as [|[j d] l IH]; [reflexivity|]. unfold glyph_entries in *. cbn [flat_map fst snd].
  rewrite <- IH. cbn [split_glyphs]. destruct (split_glyphs l) as [D B]. cbn [fst snd]. destruct (Z.eqb_spec j 2001) as [->|N].
  - destruct d; reflexivity.
  - destruct j as [|p|p]; try reflexivity; by_keys.
Qed.
Lemma axes_fold : forall V (es : list (b_entry V)) a, fold_left (fun a e => match e with BAxisCount n => n | _ => a end) es a
  = last_or a (flat_map (fun e => match e with BAxisCount n => [n] | _ => [] end) es).
Proof.
  intros V. induction es as [|e es IH]; intros a; [reflexivity|]. cbn [fold_left flat_map]. rewrite IH.
  destruct e; try reflexivity. cbn [app]. unfold last_or. generalize (flat_map (fun e : b_entry V => match e with BAxisCount n0 => [n0] | _ => [] end) es).
  intros l. clear. destruct l as [|y l]; [reflexivity|]. cbn [last]. revert y. induction l as [|z l IH]; intros y; [reflexivity|]. cbn [last] in *. apply IH.
Qed.
Lemma parts_names : forall c l z, Forall (fun e => type_of_key (fst e) (snd e) = true) l ->
  List.length (entry_names (glyph_parts c z l)) = List.length (flat_map (data_part 1504) l) /\
  flat_map (fun e => match e with BAxisCount n => [n] | _ => [] end) (glyph_parts c z l) = flat_map (int_part 1513) l.
Proof.
  intros c. induction l as [|[k d] l IH]; intros z T; [split; reflexivity|]. inversion_clear T as [|? ? T1 T2]. cbn [fst snd] in T1.
  destruct (IH (zones_of (k, d) z) T2) as [I1 I2]. cbn [glyph_parts]. unfold entry_names in *. rewrite map_app, concat_app, app_length, I1, flat_map_app, I2.
  cbn [flat_map]. rewrite app_length. clear I1 I2 IH T2.
  assert (X : List.length (concat (map (fun e => match e with BMasterName n => [n] | _ => [] end) (glyph_part c z (k, d)))) = List.length (data_part 1504 (k, d)) /\
              flat_map (fun e => match e with BAxisCount n => [n] | _ => [] end) (glyph_part c z (k, d)) = int_part 1513 (k, d)).
  { unfold data_part, int_part. cbn [fst snd]. destruct (Z.eqb_spec k 1504) as [->|N1].
    { change (type_of_key 1504 d) with (match d with DStr _ => true | _ => false end) in T1. destruct d; try discriminate T1. split; reflexivity. }
    destruct (Z.eqb_spec k 1513) as [->|N2].
    { change (type_of_key 1513 d) with (match d with DInt _ => true | _ => false end) in T1. destruct d; try discriminate T1. split; reflexivity. }
    unfold glyph_part. destruct k as [|p|p]; try (split; reflexivity).
    repeat (match goal with |- context [match ?p with xH => _ | xO _ => _ | xI _ => _ end] => destruct p end; try (split; reflexivity); try congruence);
      destruct d; try (split; reflexivity).
    - destruct (build_mm_glyph _ _ _) as [[? ?]|]; split; reflexivity.
    - destruct (gd_anchors x); split; reflexivity. }
  destruct X as [X1 X2]. rewrite X1, X2. split; reflexivity.
Qed.

(** ** C86 *)
(** One UFO per master. *)
Theorem C86_masters : forall c o es ufos, Forall typed es -> vfb_to_ufos c o es = Ok ufos ->
  Z.of_nat (List.length ufos) = count_of_masters (used (st_vfb_minimal c) es).
Proof.
  intros c o es ufos T H. unfold vfb_to_ufos in H. destruct (build_font c es) as [s|] eqn:B; [|discriminate]. cbn [rthen] in H.
  unfold get_ufo_masters in H. destruct (tt_glyph_lib _ _ _ _ _) as [t|]; [|discriminate]. cbn [rthen] in H.
  destruct (transform_groups _ _ _ _) as [tg|]; [|discriminate]. cbn [rthen] in H. destruct (export_shared _ _ _ _ _ _ _ _) as [sh|]; [|discriminate]. cbn [rthen] in H.
  change 0 with (Z.of_nat 0) in H. destruct (masters_nth _ _ _ _ _ _ _ _ _ _ H) as [L _]. rewrite L.
  destruct (C85_parts c es s T B) as [_ _ M _ _ _ _ _ _ _ _ _ _]. destruct (C53_completed _ _ _ M) as (_ & E & _). cbv zeta in E. rewrite E.
  unfold count_of_masters. cbv zeta. unfold axes_of. rewrite axes_fold.
  assert (Tl : Forall (fun e => type_of_key (fst e) (snd e) = true) (used (st_vfb_minimal c) es)).
  { eapply Forall_impl; [|apply used_typed; exact T]. intros e X. exact (proj1 X). }
  destruct (parts_names c _ None Tl) as [P1 P2]. rewrite P1, P2. reflexivity.
Qed.

Lemma ufo_is : forall c o es ufos m u, Forall typed es -> vfb_to_ufos c o es = Ok ufos ->
  let l := used (st_vfb_minimal c) es in good_glyphs l -> nth_error ufos m = Some u ->
  map fst (uf_glyphs u) = names_of l /\
  Forall2 (fun b q => glyph_shown c o (names_of l) m (fst b) (snd b) (snd q)) (glyph_blocks l) (uf_glyphs u) /\
  (if st_minimal c then uf_background u = []
   else Forall2 (fun b q => g_name (fst b) = Some (fst q) /\ mask_shown m (fst b) (snd b) (snd q)) (filter has_mask (glyph_blocks l)) (uf_background u)).
Proof.
  intros c o es ufos m u T H l (G1 & G2 & G3 & G4 & G5) Hu. unfold vfb_to_ufos in H. destruct (build_font c es) as [s|] eqn:B; [|discriminate]. cbn [rthen] in H.
  destruct (glyphs_of_file c es s T B G1 G2 G3 G4 G5) as (N & O & F & _). fold l in N, O, F. fold (names_of l) in N, O.
  unfold get_ufo_masters in H. destruct (tt_glyph_lib _ _ _ _ _) as [[commands st0]|] eqn:Et; [|discriminate]. cbn [rthen fst snd] in H.
  destruct (transform_groups _ _ _ _) as [tg|]; [|discriminate]. cbn [rthen] in H. destruct (export_shared _ _ _ _ _ _ _ _) as [sh|]; [|discriminate]. cbn [rthen] in H.
  change 0 with (Z.of_nat 0) in H. destruct (masters_nth _ _ _ _ _ _ _ _ _ _ H) as [_ R]. destruct (R m u Hu) as (st1 & st2 & E). clear H R.
  cbn [Nat.add] in E. unfold get_ufo_master in E. destruct (get_master_kerning _ _) as [k|]; [|discriminate]. cbn [rthen] in E.
  destruct (get_master_info _ _ _ _ _) as [i|]; [|discriminate]. cbn [rthen] in E. destruct (font_guides _ _ _ _) as [gd|]; [|discriminate]. cbn [rthen] in E.
  destruct (export_all _ _ _ _ _ _ _) as [[[gs ks] st3]|] eqn:Ee; [|discriminate]. cbn [rmap fst snd] in E. apply Ok_inj in E. injection E as <- _.
  cbn [uf_glyphs uf_background]. rewrite O in Ee, Et.
  assert (Fn : Forall2 (fun b p => g_name (fst b) = Some (fst p)) (glyph_blocks l) (bs_glyphs (fo_glyphs s))).
  { assert (X : flat_map name_of (map fst (glyph_blocks l)) = map fst (bs_glyphs (fo_glyphs s))) by (rewrite blocks_entries; symmetry; exact N).
    clear - F X. remember (bs_glyphs (fo_glyphs s)) as gs. clear Heqgs. revert F X. generalize (glyph_blocks l). induction gs as [|g gs IH]; intros bs F X; cbn [map] in *.
    - inversion F; subst. constructor.
    - inversion F as [|b ? bs' ? [(mg & y & z & Rb & _) _ _ _ _] F2]; subst. cbn [map flat_map] in X. unfold name_of in X at 1.
      unfold build_mm_glyph in Rb. destruct (g_name (fst b)) as [nm|] eqn:En; [|discriminate]. cbn [app] in X. injection X as X1 X2. constructor; [congruence|]. now apply IH. }
  assert (Ft : Forall2 (fun b p => g_tth (fst b) = None -> aget str_eqb (fst p) commands = None) (glyph_blocks l) (bs_glyphs (fo_glyphs s))).
  { assert (Nd : NoDup (map fst (bs_glyphs (fo_glyphs s)))) by (rewrite N; exact G3).
    assert (Keys : forall name, aget str_eqb name commands <> None -> exists g x z, In (name, g) (bs_glyphs (fo_glyphs s)) /\ bg_data g = VGlyph x z /\ mg_tth x <> None).
    { intros name A. destruct (tt_lib_keys _ _ _ _ _ _ _ Et name A) as (g & x & z & I & X). exists g, x, z. split; [now apply sorted_in|exact X]. }
    enough (Sub : forall l0 bs, (forall p, In p l0 -> In p (bs_glyphs (fo_glyphs s))) -> Forall2 (fun b p => g_name (fst b) = Some (fst p)) bs l0 ->
        Forall2 (glyph_data c) bs (map snd l0) -> Forall2 (fun b p => g_tth (fst b) = None -> aget str_eqb (fst p) commands = None) bs l0)
      by (apply Sub; [auto|exact Fn|exact F]).
    clear Fn F. induction l0 as [|[name g] l0 IH]; intros bs Sub Fn F; cbn [map] in F; inversion F as [|b ? bs' ? F1 F2]; subst; [constructor|].
    inversion_clear Fn as [|? ? ? ? Fn1 Fn2]. constructor; [|apply IH; [intros p I; apply Sub; now right|exact Fn2|exact F2]].
    cbn [fst]. intros Tn. destruct (aget str_eqb name commands) eqn:A; [|reflexivity]. exfalso.
    destruct (Keys name ltac:(congruence)) as (g' & x & z & I & D & Hx).
    assert (Eg : g' = g).
    { assert (I2 : In (name, g) (bs_glyphs (fo_glyphs s))) by (apply Sub; now left).
      apply (In_aget str_eqb str_eqb_eq) in I; [|exact Nd]. apply (In_aget str_eqb str_eqb_eq) in I2; [|exact Nd]. congruence. }
    subst g'. destruct F1 as [(mg & y & z' & Rb & Hd) _ _ _ _]. cbn [snd] in Hd. rewrite D in Hd. injection Hd as -> ->.
    unfold build_mm_glyph in Rb. destruct (g_name (fst b)); [|discriminate]. cbn [get_key rthen] in Rb. destruct (g_metrics (fst b)); [|discriminate].
    cbn [get_key rthen] in Rb. destruct (g_nodes (fst b)); [|discriminate]. cbn [get_key rmap] in Rb. apply Ok_inj in Rb. injection Rb as Rb _.
    apply Hx. rewrite <- Rb. exact Tn. }
  destruct (all_shown c o (names_of l) m commands _ _ _ _ _ _ F Fn Ft Ee) as (A1 & A2 & A3). split; [congruence|]. split; [exact A2|exact A3].
Qed.
(** Every UFO has the glyphs of the file, in its order, each with what its glyph entry and the entries after it say
    about the master. *)
Theorem C86_glyphs : forall c o es ufos m u, Forall typed es -> vfb_to_ufos c o es = Ok ufos ->
  let l := used (st_vfb_minimal c) es in good_glyphs l -> nth_error ufos m = Some u ->
  map fst (uf_glyphs u) = names_of l /\
  Forall2 (fun b q => glyph_shown c o (names_of l) m (fst b) (snd b) (snd q)) (glyph_blocks l) (uf_glyphs u).
Proof. intros c o es ufos m u T H l G Hu. destruct (ufo_is c o es ufos m u T H G Hu) as (A & B & _). split; assumption. Qed.
(** No UFO has a note of a glyph. *)
Theorem C86_no_notes : forall c o es ufos u q, vfb_to_ufos c o es = Ok ufos -> In u ufos -> In q (uf_glyphs u) -> og_note (snd q) = None.
Proof.
  intros c o es ufos u q H Iu Iq. unfold vfb_to_ufos in H. destruct (build_font c es) as [s|] eqn:B; [|discriminate]. cbn [rthen] in H.
  unfold get_ufo_masters in H. destruct (tt_glyph_lib _ _ _ _ _) as [[commands st0]|] eqn:Et; [|discriminate]. cbn [rthen fst snd] in H.
  destruct (transform_groups _ _ _ _) as [tg|]; [|discriminate]. cbn [rthen] in H. destruct (export_shared _ _ _ _ _ _ _ _) as [sh|]; [|discriminate]. cbn [rthen] in H.
  change 0 with (Z.of_nat 0) in H. destruct (masters_nth _ _ _ _ _ _ _ _ _ _ H) as [_ R]. apply In_nth_error in Iu. destruct Iu as (m & Hu).
  destruct (R m u Hu) as (st1 & st2 & E). clear H R. unfold get_ufo_master in E. destruct (get_master_kerning _ _) as [k|]; [|discriminate]. cbn [rthen] in E.
  destruct (get_master_info _ _ _ _ _) as [i|]; [|discriminate]. cbn [rthen] in E. destruct (font_guides _ _ _ _) as [gd|]; [|discriminate]. cbn [rthen] in E.
  destruct (export_all _ _ _ _ _ _ _) as [[[gs ks] st3]|] eqn:Ee; [|discriminate]. cbn [rmap fst snd] in E. apply Ok_inj in E. injection E as <- _. cbn [uf_glyphs] in Iq.
  clear - Ee Iq. revert st1 gs ks st3 Ee Iq. induction (bs_glyphs (fo_glyphs s)) as [|[n g] l IH]; intros st1 gs ks st3 Ee Iq; cbn [export_all] in Ee.
  { apply Ok_inj in Ee. injection Ee as <- _ _. destruct Iq. }
  destruct (export_one _ _ _ _ _ _ _ _) as [[[u k] st2]|] eqn:E1; [|discriminate]. cbn [rthen fst snd] in Ee.
  destruct (export_all _ _ _ _ _ _ _) as [[[gs1 ks1] st4]|] eqn:E2; [|discriminate]. cbn [rmap fst snd] in Ee. apply Ok_inj in Ee. injection Ee as <- _ _.
  destruct Iq as [<-|Iq]; [|eapply IH; eassumption]. cbn [snd]. clear - E1. unfold export_one in E1. destruct (bg_data g); [|discriminate].
  repeat (match type of E1 with (rthen ?x _) = _ => destruct x; [|discriminate]; cbn [rthen] in E1 end).
  destruct (finalize_tth _ _); [|discriminate]. cbn [rmap] in E1. apply Ok_inj in E1. injection E1 as <- _ _. reflexivity.
Qed.

(** ** C87 *)
(** The background layer of every UFO has the masks of the glyphs that have one, and it is empty in a minimal export. *)
Theorem C87_masks : forall c o es ufos m u, Forall typed es -> vfb_to_ufos c o es = Ok ufos -> st_minimal c = false ->
  let l := used (st_vfb_minimal c) es in good_glyphs l -> nth_error ufos m = Some u ->
  Forall2 (fun b q => g_name (fst b) = Some (fst q) /\ mask_shown m (fst b) (snd b) (snd q)) (filter has_mask (glyph_blocks l)) (uf_background u).
Proof. intros c o es ufos m u T H E l G Hu. destruct (ufo_is c o es ufos m u T H G Hu) as (_ & _ & A). rewrite E in A. exact A. Qed.
Theorem C87_minimal : forall c o es ufos m u, Forall typed es -> vfb_to_ufos c o es = Ok ufos -> st_minimal c = true ->
  good_glyphs (used (st_vfb_minimal c) es) -> nth_error ufos m = Some u -> uf_background u = [].
Proof. intros c o es ufos m u T H E G Hu. destruct (ufo_is c o es ufos m u T H G Hu) as (_ & _ & A). rewrite E in A. exact A. Qed.

(** A file with two masters: an outline with anchors, a note, a colour and a mask, and a composite. *)
Definition c86_node (t : path_cmd) (x y x' y' : Z) : mm_node := MMNode t 0 [[(x, y)]; [(x', y')]].
Definition c86_outline : list mm_node :=
  [c86_node Move 0 0 0 0; c86_node Line 300 700 320 700; c86_node Line 600 0 640 0].
Definition c86_psinfo (a : Z) : ps_info := PSInfo [] 1 [-10; 0; 500; 510; 0; 0] [] [] [] 0x3FA44189374BC6A8 7 1 0 0 [80; 0] [] 0 0 0 0 0 0 0 a (-200) 500 700.
Definition c86_entries : list (Z * option value) :=
  [(1024, Some (DStr (py "Test"))); (1277, Some (DStr (py "_A: A' Aacute"))); (1503, Some (DInt 2)); (1513, Some (DInt 1));
   (1504, Some (DStr (py "Light"))); (1504, Some (DStr (py "Bold"))); (1536, Some (DPSInfo (c86_psinfo 750))); (1536, Some (DPSInfo (c86_psinfo 760)));
   (2001, Some (DGlyph (Glyph (Some (py "A")) (Some 2) (Some c86_outline) (Some [(600, 0); (640, 0)]) None None None (Some [(1, [-10; -20])]) None None)));
   (1250, Some (DInts [65])); (2012, Some (DInt 10)); (2017, Some (DStr (py "a note"))); (2015, Some (DStr (py "data")));
   (2018, Some (DGdef (Gdef None (Some [GdefAnchor (Some (py "top")) 300 700]) None None)));
   (2029, Some (DAnchors [MMAnchor [300; 320] [700; 710]]));
   (2009, Some (DMask (Mask [] (MaskOutlines 2 (Some [c86_node Move 0 0 0 0; c86_node Line 100 100 110 100])))));
   (2001, Some (DGlyph (Glyph (Some (py "Aacute")) (Some 2) (Some []) (Some [(600, 0); (640, 0)]) None None
      (Some [M_Glyph.Component 0 [0; 0] [0; 0] [0x3FF0000000000000; 0x3FF0000000000000] [0x3FF0000000000000; 0x3FF0000000000000]]) None None None)));
   (1253, Some (DInts [193]))].
Example c86_typed : Forall typed c86_entries.
Proof.
  unfold c86_entries, typed. repeat constructor; cbn [fst snd]; intros I; exfalso; cbn [In] in I;
    repeat (destruct I as [I|I]; [discriminate I|]); exact I.
Qed.
Example c86_good : good_glyphs (used false c86_entries).
Proof.
  unfold good_glyphs. split; [|split; [vm_compute; discriminate|split; [|split]]].
  - vm_compute. repeat first [left; reflexivity | right; split; [intros I; repeat (destruct I as [I|I]; [discriminate I|]); exact I|]].
  - vm_compute. repeat constructor; cbn [In]; intuition discriminate.
  - vm_compute. repeat constructor.
  - vm_compute. repeat constructor; cbn [In]; tauto.
Qed.
Definition c86_options (number : Z -> Q) : options := Options false false false number (fun x => x) 10.
Example c86_exported : forall ops up asm number, exists a b,
  vfb_to_ufos (Settings false false false ops up asm) (c86_options number) c86_entries = Ok [a; b] /\
  map fst (uf_glyphs b) = [py "A"; py "Aacute"] /\ map fst (uf_background b) = [py "A"] /\
  map (fun q => (og_width (snd q), og_unicodes (snd q), og_anchors (snd q))) (uf_glyphs b)
    = [(640, [65], [GdefAnchor (Some (py "top")) 320 710]); (640, [193], [])] /\
  map (fun q => gl_mark (og_lib (snd q))) (uf_glyphs b) = [Some (py "0.9520,0.7195,0.6480,1"); None] /\
  uf_kerning b = [((py "A", py "Aacute"), -20)].
Proof. intros. do 2 eexists. split; [vm_compute; reflexivity|]. repeat split. Qed.
(** So the notes of a file are lost: the two files, one with a note, give the same UFOs. *)
Theorem C86_notes_refuted : forall ops up asm number, exists es es' ufos,
  Forall typed es /\ Forall typed es' /\
  said 2017 (flat_map snd (glyph_blocks (used false es))) = Some (DStr (py "a note")) /\
  said 2017 (flat_map snd (glyph_blocks (used false es'))) = None /\
  vfb_to_ufos (Settings false false false ops up asm) (c86_options number) es = Ok ufos /\
  vfb_to_ufos (Settings false false false ops up asm) (c86_options number) es' = Ok ufos.
Proof.
  intros. exists c86_entries, (filter (fun e => negb (fst e =? 2017)) c86_entries). eexists. split; [exact c86_typed|].
  split; [rewrite Forall_forall in *; intros e I; apply filter_In in I; eapply (proj1 (Forall_forall _ _) c86_typed); apply I|].
  split; [vm_compute; reflexivity|]. split; [vm_compute; reflexivity|]. split; vm_compute; reflexivity.
Qed.
Print Assumptions C86_masters.
Print Assumptions C86_glyphs.
Print Assumptions C86_no_notes.
Print Assumptions C86_notes_refuted.
Print Assumptions C87_masks.
Print Assumptions C87_minimal.
