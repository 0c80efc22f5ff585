(** C118: the ids of TrueType instructions. *)
From Coq Require Import String ZifyBool ZifyNat QArith.
From Verif Require Import Base Lib M_Py M_Text M_Glyph M_Table M_Builder M_Build M_Paths M_Ufo M_Hash S_Build S_Paths S_Ufo S_Hash S_Fine Prop_Ufo Prop_Fine.
Local Open Scope list_scope.
Local Open Scope Z_scope.

Lemma draw_shows : forall u fuel g t, hash_draw u fuel g = Ok t -> shows u g t.
Proof.
  intros u. induction fuel as [|fuel IH]; intros g t H; cbn [hash_draw] in H; [discriminate|].
  destruct (res_map _ (og_components g)) as [l|] eqn:E; [|discriminate]. cbn [rmap] in H. apply Ok_inj in H. subst t.
  unfold hash_contours. rewrite flat_map_concat_map. constructor. revert l E. induction (og_components g) as [|k ks IHk]; intros l E; cbn [res_map] in E.
  - apply Ok_inj in E. subst l. constructor.
  - destruct (aget str_eqb (uc_name _ k) u) as [b|] eqn:A.
    + destruct (hash_draw u fuel b) as [t|] eqn:D; [|discriminate]. cbn [rmap rthen] in E. destruct (res_map _ ks) as [m|]; [|discriminate].
      cbn [rmap] in E. apply Ok_inj in E. subst l. cbn [concat app]. rewrite <- app_assoc. cbn [app]. apply (AComponent u k b t ks (concat m)); auto.
    + cbn [rthen] in E. destruct (res_map _ ks) as [m|]; [|discriminate]. cbn [rmap] in E. apply Ok_inj in E. subst l. cbn [concat app].
      apply (AMissing u k ks (concat m)); auto.
Qed.
Scheme shows_ind2 := Minimality for shows Sort Prop
  with components_ind2 := Minimality for components_show Sort Prop.
Combined Scheme shows_both from shows_ind2, components_ind2.
Lemma shows_one : forall u, (forall g t, shows u g t -> forall t', shows u g t' -> t' = t) /\
  (forall ks t, components_show u ks t -> forall t', components_show u ks t' -> t' = t).
Proof.
  intros u. apply shows_both.
  - intros g ts _ IH t' H. inversion_clear H as [? ts' H']. now rewrite (IH _ H').
  - intros t' H. now inversion H.
  - intros k b t ks ts A _ IHb _ IHk t' H. inversion H as [|? b' s ? ts' A' S' K'|? ? ts' A' K']; subst; [|congruence].
    assert (b' = b) by congruence. subst b'. now rewrite (IHb _ S'), (IHk _ K').
  - intros k ks ts A _ IHk t' H. inversion H as [|? b' s ? ts' A' S' K'|? ? ts' A' K']; subst; [congruence|]. now rewrite (IHk _ K').
Qed.

Lemma map_each : forall A B (f : A -> res B) l, (forall x, In x l -> exists y, f x = Ok y) -> exists m, res_map f l = Ok m.
Proof.
  intros A B f l. induction l as [|x l IH]; intros H; cbn [res_map]; [eauto|]. destruct (H x (or_introl eq_refl)) as (y & ->). cbn [rthen].
  destruct (IH (fun z I => H z (or_intror I))) as (m & ->). cbn [rmap]. eauto.
Qed.
(** For all UFOs: if the ids are made, there is one for every glyph with instructions, in the order of the glyphs,
    and it is made from the width of the glyph and what the glyph shows, which is one thing. *)
Theorem C118_ids : forall digest u fuel ids, glyph_hashes digest u fuel = Ok ids ->
  Forall2 (fun p id => fst id = fst p /\ exists t, snd id = digest (HWidth (og_width (snd p)) :: t) /\ shows u (snd p) t /\
                       forall t', shows u (snd p) t' -> t' = t)
    (filter (fun p => has_instructions (snd p)) u) ids.
Proof.
  intros digest u fuel ids H. unfold glyph_hashes in H. change (fun p : pystr * ufo_glyph => match gl_program (og_lib (snd p)) with Some _ => true | None => false end)
    with (fun p : pystr * ufo_glyph => has_instructions (snd p)) in H. revert ids H.
  induction (filter (fun p => has_instructions (snd p)) u) as [|p l IH]; intros ids H; cbn [res_map] in H.
  - apply Ok_inj in H. subst ids. constructor.
  - unfold glyph_hash in H at 1. destruct (hash_draw u fuel (snd p)) as [t|] eqn:D; [|discriminate]. cbn [rmap rthen] in H.
    destruct (res_map _ l) as [m|]; [|discriminate]. cbn [rmap] in H. apply Ok_inj in H. subst ids. constructor; [|now apply IH].
    split; [reflexivity|]. exists t. apply draw_shows in D. split; [reflexivity|]. split; [exact D|]. intros t' S. exact (proj1 (shows_one u) _ _ D _ S).
Qed.

Lemma draw_ends : forall u (rank : pystr -> nat), (forall name g k, In (name, g) u -> In k (og_components g) -> (rank (uc_name _ k) < rank name)%nat) ->
  forall fuel name g, In (name, g) u -> (rank name < fuel)%nat -> exists t, hash_draw u fuel g = Ok t.
Proof.
  intros u rank R. induction fuel as [|fuel IH]; intros name g I L; [lia|]. cbn [hash_draw].
  match goal with |- exists t, rmap _ (res_map ?h ?l) = _ => destruct (map_each _ _ h l) as (m & ->) end.
  - intros k K. specialize (R name g k I K). destruct (aget str_eqb (uc_name _ k) u) as [b|] eqn:A; [|eauto].
    apply (aget_In str_eqb str_eqb_eq) in A. destruct (IH _ b A ltac:(lia)) as (t & ->). cbn [rmap]. eauto.
  - cbn [rmap]. eauto.
Qed.
Lemma bounded : forall (u : list (pystr * ufo_glyph)) (rank : pystr -> nat), exists n, forall p, In p u -> (rank (fst p) < n)%nat.
Proof.
  intros u rank. induction u as [|p u (n & H)]; [exists O; intros p []|]. exists (S (rank (fst p)) + n)%nat. intros q [->|I]; [lia|]. specialize (H q I). lia.
Qed.
(** For all UFOs in which no glyph is a component of itself: the ids are made. *)
Theorem C118_ends : forall digest u, acyclic u -> exists n, forall fuel, (n <= fuel)%nat -> exists ids, glyph_hashes digest u fuel = Ok ids.
Proof.
  intros digest u (rank & R). destruct (bounded u rank) as (n & B). exists n. intros fuel L. unfold glyph_hashes. apply map_each. intros [name g] I.
  apply filter_In in I. destruct I as [I _]. destruct (draw_ends u rank R fuel name g I) as (t & D); [specialize (B _ I); cbn [fst] in B; lia|].
  unfold glyph_hash. cbn [fst snd]. rewrite D. cbn [rmap]. eauto.
Qed.

(** For all VFBs that can be exported (C91) and in which no glyph is a component of itself: there is one UFO for
    every master, and the ids of its instructions are made. *)
Fixpoint index_of (name : pystr) (l : list pystr) : nat :=
  match l with [] => O | x :: l => if str_eqb name x then O else S (index_of name l) end.
Lemma index_nth : forall l i name, NoDup l -> nth_error l i = Some name -> index_of name l = i.
Proof.
  induction l as [|x l IH]; intros i name N H; [destruct i; discriminate|]. inversion_clear N as [|? ? N1 N2]. cbn [index_of]. destruct i as [|i]; cbn [nth_error] in H.
  - injection H as ->. now rewrite str_eqb_refl.
  - destruct (str_eqb name x) eqn:E; [|f_equal; now apply IH]. apply str_eqb_eq in E. subst x. exfalso. apply N1. eapply nth_error_In, H.
Qed.
Lemma shown_acyclic : forall c o es ufos m u, Forall typed es -> vfb_to_ufos c o es = Ok ufos ->
  let l := used (st_vfb_minimal c) es in good_glyphs l -> acyclic_entries l -> nth_error ufos m = Some u -> acyclic (uf_glyphs u).
Proof.
  intros c o es ufos m u T H l G (rank & R) Hu. destruct (C86_glyphs c o es ufos m u T H G Hu) as [N F]. fold l in N, F.
  assert (Nd : NoDup (names_of l)) by (destruct G as (_ & _ & G3 & _); exact G3).
  exists (fun name => rank (index_of name (names_of l))). intros name g k I K.
  apply In_nth_error in I. destruct I as (i & I).
  assert (Ni : nth_error (names_of l) i = Some name) by (rewrite <- N; rewrite nth_error_map, I; reflexivity).
  rewrite (index_nth _ _ _ Nd Ni).
  assert (B : exists b, nth_error (glyph_blocks l) i = Some b /\ glyph_shown c o (names_of l) m (fst b) (snd b) g).
  { clear - F I. revert i I. induction F as [|b q bs qs X F IH]; intros i I; [destruct i; discriminate|]. destruct i as [|i]; cbn [nth_error] in *.
    - injection I as ->. exists b. split; [reflexivity|exact X].
    - exact (IH i I). }
  destruct B as (b & B & S). pose proof (sh_components _ _ _ _ _ _ _ S) as C.
  assert (X : exists j, In j (match g_components (fst b) with Some ks => ks | None => [] end) /\ component_shown (op_round15 o) (names_of l) m j k).
  { clear - C K. induction C as [|j k' js ks X C IH]; [destruct K|]. destruct K as [->|K]; [exists j; split; [now left|exact X]|].
    destruct (IH K) as (j' & J & Y). exists j'. split; [now right|exact Y]. }
  destruct X as (j & J & Y). assert (E : nth_error (glyph_entries l) i = Some (fst b)) by (rewrite <- blocks_entries, nth_error_map, B; reflexivity).
  destruct (R i (fst b) j E J) as [P L]. destruct Y as (Y & _). specialize (Y P). rewrite (index_nth _ _ _ Nd Y). exact L.
Qed.
Theorem C118_entries : forall digest c o es, Forall typed es -> (2 <= op_fuel o)%nat ->
  let l := used (st_vfb_minimal c) es in exportable c o l -> acyclic_entries l ->
  exists ufos, vfb_to_ufos c o es = Ok ufos /\ Z.of_nat (List.length ufos) = count_of_masters l /\
    forall u, In u ufos -> exists n, forall fuel, (n <= fuel)%nat -> exists ids, glyph_hashes digest (uf_glyphs u) fuel = Ok ids.
Proof.
  intros digest c o es T Hf l X A. destruct (C91_succeeds c o es T Hf X) as (ufos & H & L). exists ufos. split; [exact H|]. split; [exact L|].
  intros u I. apply In_nth_error in I. destruct I as (m & I). apply C118_ends. eapply shown_acyclic; [exact T|exact H| |exact A|exact I].
  destruct X as (_ & G & _). exact G.
Qed.

Lemma map_diverges : forall A B (f : A -> res B) l x, (forall y e, f y = Err e -> e = Diverge) -> In x l -> f x = Err Diverge -> res_map f l = Err Diverge.
Proof.
  intros A B f l x O I D. induction l as [|y l IH]; [destruct I|]. cbn [res_map]. destruct I as [->|I]; [rewrite D; reflexivity|].
  destruct (f y) as [z|e] eqn:E; cbn [rthen]; [|now rewrite (O y e E)]. rewrite (IH I). reflexivity.
Qed.
Lemma map_only : forall A B (f : A -> res B) l e, (forall y e, f y = Err e -> e = Diverge) -> res_map f l = Err e -> e = Diverge.
Proof.
  intros A B f l. induction l as [|y l IH]; intros e O H; cbn [res_map] in H; [discriminate|]. destruct (f y) eqn:E; cbn [rthen] in H.
  - destruct (res_map f l) eqn:M; [discriminate|]. cbn [rmap] in H. injection H as <-. now apply IH.
  - injection H as <-. now apply (O y).
Qed.
Lemma draw_only : forall u fuel g e, hash_draw u fuel g = Err e -> e = Diverge.
Proof.
  intros u. induction fuel as [|fuel IH]; intros g e H; cbn [hash_draw] in H; [congruence|].
  match type of H with rmap _ (res_map ?h ?l) = _ => destruct (res_map h l) as [m|e'] eqn:M end; cbn [rmap] in H; [discriminate|]. injection H as <-.
  eapply map_only; [|exact M]. intros k e Ek. cbv beta in Ek. destruct (aget str_eqb (uc_name _ k) u) as [b|]; [|discriminate].
  destruct (hash_draw u fuel b) eqn:D; [discriminate|]. cbn [rmap] in Ek. injection Ek as <-. now apply (IH b).
Qed.
(** For all UFOs and all sets of glyphs, each of which has a component in the set: if one of them has instructions,
    the computation of the ids does not end. *)
Theorem C118_endless : forall digest u (P : ufo_glyph -> Prop) name g,
  (forall x, P x -> exists k b, In k (og_components x) /\ aget str_eqb (uc_name _ k) u = Some b /\ P b) ->
  In (name, g) u -> has_instructions g = true -> P g -> forall fuel, glyph_hashes digest u fuel = Err Diverge.
Proof.
  intros digest u P name g C I H Pg fuel. unfold glyph_hashes.
  assert (D : forall fuel x, P x -> hash_draw u fuel x = Err Diverge).
  { clear - C. induction fuel as [|fuel IH]; intros x Px; cbn [hash_draw]; [reflexivity|]. destruct (C x Px) as (k & b & K & A & Pb).
    rewrite (map_diverges _ _ _ _ k); [reflexivity| |exact K|rewrite A, (IH b Pb); reflexivity].
    intros y e E. cbv beta in E. destruct (aget str_eqb (uc_name _ y) u) as [b'|]; [|discriminate]. destruct (hash_draw u fuel b') eqn:F; [discriminate|].
    cbn [rmap] in E. injection E as <-. now apply draw_only in F. }
  apply (map_diverges _ _ _ _ (name, g)).
  - intros y e E. cbv beta in E. unfold glyph_hash in E. destruct (hash_draw u fuel (snd y)) eqn:F; [discriminate|]. cbn [rmap] in E. injection E as <-. now apply draw_only in F.
  - apply filter_In. split; [exact I|]. exact H.
  - unfold glyph_hash. cbn [snd]. rewrite (D fuel g Pg). reflexivity.
Qed.

Lemma same_get : forall u u' n, same_outlines u u' ->
  match aget str_eqb n u, aget str_eqb n u' with
  | Some g, Some g' => og_contours g = og_contours g' /\ og_components g = og_components g'
  | None, None => True
  | _, _ => False
  end.
Proof.
  intros u u' n F. induction F as [|[a g] [a' g'] u u' (E & _ & X & Y & _) F IH]; cbn [aget]; [exact I|]. cbn [fst snd] in *. subst a'.
  destruct (str_eqb n a); [split; assumption|exact IH].
Qed.
Lemma draw_same : forall u u', same_outlines u u' -> forall fuel g g', og_contours g = og_contours g' -> og_components g = og_components g' ->
  hash_draw u fuel g = hash_draw u' fuel g'.
Proof.
  intros u u' S. induction fuel as [|fuel IH]; intros g g' X Y; cbn [hash_draw]; [reflexivity|]. unfold hash_contours. rewrite X, Y. clear X Y. f_equal.
  induction (og_components g') as [|k ks IHk]; cbn [res_map]; [reflexivity|]. rewrite IHk. pose proof (same_get u u' (uc_name _ k) S) as G.
  destruct (aget str_eqb (uc_name _ k) u) as [b|], (aget str_eqb (uc_name _ k) u') as [b'|]; try contradiction; [|reflexivity].
  destruct G as [G1 G2]. now rewrite (IH b b' G1 G2).
Qed.
(** For all UFOs with the same outlines: the ids are the same. *)
Theorem C118_outlines_only : forall digest u u' fuel, same_outlines u u' -> glyph_hashes digest u fuel = glyph_hashes digest u' fuel.
Proof.
  intros digest u u' fuel S. unfold glyph_hashes, glyph_hash. pose proof (draw_same u u' S fuel) as D. revert D. generalize (hash_draw u fuel) (hash_draw u' fuel). intros h h' D.
  induction S as [|[a g] [a' g'] u u' (E & W & X & Y & Z) S IH]; cbn [filter]; [reflexivity|]. cbn [fst snd] in *. subst a'. unfold has_instructions in Z. rewrite Z.
  destruct (match gl_program (og_lib g') with Some _ => true | None => false end); [|exact IH]. cbn [res_map fst snd]. rewrite W, (D g g' X Y).
  destruct (h' g') as [t|]; cbn [rmap rthen]; [|reflexivity]. now rewrite IH.
Qed.

(** ** VFBs: a composite glyph with instructions; [gid] is the number of its component *)
Definition c118_entries (gid : Z) : list (Z * option value) :=
  firstn 16 c86_entries ++
  [(2001, Some (DGlyph (Glyph (Some (py "Aacute")) (Some 2) (Some []) (Some [(600, 0); (640, 0)]) None None
      (Some [M_Glyph.Component gid [0; 0] [5; 6] [0x3FF0000000000000; 0x3FF0000000000000] [0x3FF0000000000000; 0x3FF0000000000000]]) None
      (Some (Imported None None None (Some [py "NOP[]"]) None)) None)))].
Definition c118_ufos ops up asm number gid := vfb_to_ufos (Settings false false false ops up asm) (c86_options number) (c118_entries gid).
(** what the id of the second glyph is made from: the contours of the first, and the place of the component *)
Example C118_meets : forall ops up asm number, acyclic_entries (used false (c118_entries 0)) /\
  exists a b, c118_ufos ops up asm number 0 = Ok [a; b] /\ acyclic (uf_glyphs b) /\
    let k := UComponent (py "A") 0x3FF0000000000000 0x3FF0000000000000 0 6 in
    forall digest, glyph_hashes digest (uf_glyphs b) 2 =
      Ok [(py "Aacute", digest [HWidth 640; HStart; HPoint (Some SLine) (0, 0); HPoint (Some SLine) (320, 700); HPoint (Some SLine) (640, 0); HEnd; HTransform k])].
Proof.
  intros. split.
  - exists (fun i => i). intros i x k E K. assert (G : exists x y, glyph_entries (used false (c118_entries 0)) = [x; y] /\ g_components x = None /\
      exists k0, g_components y = Some [k0] /\ M_Glyph.co_gid k0 = 0) by (do 2 eexists; repeat split; eexists; split; reflexivity).
    destruct G as (y & z & G & Gy & k0 & Gz & Gk). rewrite G in E. destruct i as [|[|i]]; cbn [nth_error] in E; [| |destruct i; discriminate].
    + injection E as <-. rewrite Gy in K. destruct K.
    + injection E as <-. rewrite Gz in K. destruct K as [<-|[]]. rewrite Gk. lia.
  - do 2 eexists. split; [vm_compute; reflexivity|]. split; [|intros k digest; vm_compute; reflexivity].
    exists (fun n => List.length n). intros name g k I K. cbn [uf_glyphs] in I. destruct I as [I|[I|[]]]; injection I as <- <-; cbn [og_components] in K; [destruct K|].
    destruct K as [<-|[]]. cbn. lia.
Qed.
(** the VFB of C91 meets the conditions of C118_entries (the others are c91_typed and c91_fine) *)
Example C118_entries_meets : acyclic_entries (used false c91_entries).
Proof.
  exists (fun i => i). intros i x k E K. assert (G : exists x y, glyph_entries (used false c91_entries) = [x; y] /\ g_components x = None /\
    exists k0, g_components y = Some [k0] /\ M_Glyph.co_gid k0 = 0) by (do 2 eexists; repeat split; eexists; split; reflexivity).
  destruct G as (y & z & G & Gy & k0 & Gz & Gk). rewrite G in E. destruct i as [|[|i]]; cbn [nth_error] in E; [| |destruct i; discriminate].
  - injection E as <-. rewrite Gy in K. destruct K.
  - injection E as <-. rewrite Gz in K. destruct K as [<-|[]]. rewrite Gk. lia.
Qed.
(** Refuted: a VFB with a glyph that has instructions and is its own component has UFOs, but no ids. *)
Theorem C118_refuted : forall ops up asm number digest, exists a b, c118_ufos ops up asm number 1 = Ok [a; b] /\
  forall fuel, glyph_hashes digest (uf_glyphs a) fuel = Err Diverge.
Proof.
  intros. do 2 eexists. split; [vm_compute; reflexivity|].
  match goal with |- forall fuel, glyph_hashes _ (uf_glyphs (Ufo _ _ _ _ _ _ [?p; (?n, ?g)] _)) fuel = _ =>
    apply (C118_endless digest _ (fun x => x = g) n g) end.
  - intros x ->. do 2 eexists. split; [left; reflexivity|]. split; [vm_compute; reflexivity|reflexivity].
  - right. left. reflexivity.
  - reflexivity.
  - reflexivity.
Qed.
Print Assumptions C118_ids.
Print Assumptions C118_ends.
Print Assumptions C118_entries.
Print Assumptions C118_endless.
Print Assumptions C118_outlines_only.
Print Assumptions C118_refuted.
