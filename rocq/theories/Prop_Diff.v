(** C98: vfbdiff. *)
From Coq Require Import ZifyBool ZifyNat String Permutation.
From Verif Require Import Base M_Stream M_Py M_Helpers M_Text M_Simple M_Bitmap M_TrueType M_Glyph M_Float M_Options
  M_Container M_Table M_Tools S_Encoding M_Json M_Diff S_Json S_Dump S_Diff S_File Lib P_Helpers P_Dec P_Container P_File Prop_File P_Json P_JsonData
  P_JsonFile P_Tools P_Diff Prop_Json.
Local Open Scope list_scope.

(** ** The lines of Vfbs with the same content *)
Ltac nodup := repeat (apply NoDup_cons; [cbn; intros ?; repeat match goal with H : _ \/ _ |- _ => destruct H as [H|H]; [discriminate H|] end; assumption|]); apply NoDup_nil.
Lemma imported_keys : forall i, NoDup (map fst (imported_items i)).
Proof. intros i. rewrite imported_items_flat. apply flat_nodup. cbn [map fst imported_fields]. nodup. Qed.
Lemma glyph_keys : forall g imp, NoDup (map fst (glyph_items g imp)).
Proof. intros g imp. rewrite glyph_items_flat. apply flat_nodup. cbn [map fst glyph_fields]. nodup. Qed.
Definition sorted_item (p : pystr * pyval) : pystr * pyval := (fst p, sort_keys (snd p)).
Lemma sort_dict_perm : forall d d', Permutation (map sorted_item d) (map sorted_item d') -> NoDup (map fst d) -> sort_keys (PDict d) = sort_keys (PDict d').
Proof.
  intros d d' P N. cbn [sort_keys]. f_equal. apply sort_unique; [exact P|]. rewrite map_map. cbn [fst sorted_item]. exact N.
Qed.
Lemma value_sorted : forall v t t', value_py v t -> value_py v t' -> sort_keys t = sort_keys t'.
Proof.
  intros v t t' V V'. destruct v; cbn [value_py] in V, V'; try congruence.
  destruct V as (imp & d & -> & P & I), V' as (imp' & d' & -> & P' & I'). apply sort_dict_perm.
  - eapply perm_trans; [apply Permutation_map; exact P|]. eapply perm_trans; [|apply Permutation_map, Permutation_sym; exact P'].
    replace (map sorted_item (glyph_items x imp')) with (map sorted_item (glyph_items x imp)); [apply Permutation_refl|].
    assert (E : option_map sort_keys imp = option_map sort_keys imp').
    { destruct (g_imported x) as [i|], imp as [y|], imp' as [y'|]; try contradiction; [|reflexivity].
      destruct I as (l & -> & Q), I' as (l' & -> & Q'). cbn [option_map]. f_equal. apply sort_dict_perm.
      - apply Permutation_map. eapply perm_trans; [exact Q|]. apply Permutation_sym. exact Q'.
      - eapply Permutation_NoDup; [apply Permutation_map, Permutation_sym; exact Q|apply imported_keys]. }
    unfold glyph_items. rewrite !map_app. do 8 f_equal. f_equal. destruct imp as [y|], imp' as [y'|]; try discriminate; [|reflexivity].
    cbn [option_map] in E. cbn [opt map]. unfold sorted_item. cbn [fst snd]. congruence.
  - eapply Permutation_NoDup; [apply Permutation_map, Permutation_sym; exact P|apply glyph_keys].
Qed.
Lemma json_sorted : forall j t t', json_py j t -> json_py j t' -> sort_keys t = sort_keys t'.
Proof. intros [|s|h|d] t t' J J'; cbn [json_py] in J, J'; try congruence. eapply value_sorted; eassumption. Qed.
Lemma entry_sorted : forall e t t', entry_py e t -> entry_py e t' -> sort_keys t = sort_keys t'.
Proof.
  intros [[k size] j] t t' (x & J & ->) (x' & J' & ->). apply sort_dict_perm.
  - replace (map sorted_item ((py "key", PStr k) :: opt "size" PInt size ++ [(py "decompiled", x')])) with (map sorted_item ((py "key", PStr k) :: opt "size" PInt size ++ [(py "decompiled", x)])); [apply Permutation_refl|].
    cbn [map]. f_equal. rewrite !map_app. f_equal. cbn [map]. unfold sorted_item. cbn [fst snd]. rewrite (json_sorted _ _ _ J J'). reflexivity.
  - destruct size; cbn [opt app map fst]; nodup.
Qed.
Lemma vfb_shape : forall x l, sort_keys (pd [("header", pd [("decompiled", x)]); ("entries", PList l)]%string) =
  PDict [(py "entries", PList (map sort_keys l)); (py "header", PDict [(py "decompiled", sort_keys x)])].
Proof. reflexivity. Qed.
Lemma vfb_shape' : forall x l, sort_keys (PDict (map (fun p => (py (fst p), snd p)) [("header", pd [("decompiled", x)]); ("entries", PList l)]%string)) =
  PDict [(py "entries", PList (map sort_keys l)); (py "header", PDict [(py "decompiled", sort_keys x)])].
Proof. reflexivity. Qed.
Lemma header_shape : forall a b c d e, sort_keys (header_py (mkHdr a b c d e)) =
  PDict [(py "app_version", PInt b); (py "file_version", PInt c); (py "signature", PInt a); (py "version_major", PInt d); (py "version_minor", PInt e)].
Proof. reflexivity. Qed.

(** If two Vfbs have the same header and the same entries with the same data, their lines are the same, in whatever
    order the keys of their dicts are, and nothing is printed. *)
Theorem C98_same : forall o number unified_diff v v' t t' l, diff_ok unified_diff ->
  v_header v = v_header v' -> map (fun e => (e_id e, e_data e)) (v_entries v) = map (fun e => (e_id e, e_data e)) (v_entries v') ->
  vfb_py o v t -> vfb_py o v' t' ->
  diff_lines number t = Ok l -> diff_lines number t' = Ok l /\ diffvfb number unified_diff t t' = Ok [].
Proof.
  intros o number ud v v' t t' l U Hh He V V' E.
  assert (S : sort_keys t = sort_keys t').
  { unfold vfb_py, as_dict in V, V'. rewrite <- Hh in V'. destruct V as (x & m & X & F & ->), V' as (x' & m' & X' & F' & ->).
    rewrite !vfb_shape, (json_sorted _ _ _ X X'). do 4 f_equal. clear - F F' He.
    revert He m m' F F'. generalize (v_entries v') as es'. induction (v_entries v) as [|e es IH]; intros [|e' es'] He m m' F F'; try discriminate.
    - inversion F; inversion F'; reflexivity.
    - cbn [map] in *. inversion F as [|? a ? m0 A F0]; subst. inversion F' as [|? a' ? m0' A' F0']; subst. cbn [map].
      f_equal; [|eapply (IH es'); [congruence|eassumption|eassumption]].
      assert (X : entry_as_dict (key_of o) JData e = entry_as_dict (key_of o) (@JData value) e').
      { unfold entry_as_dict. replace (e_id e') with (e_id e) by congruence. replace (e_data e') with (e_data e) by congruence. reflexivity. }
      rewrite <- X in A'. eapply entry_sorted; eassumption. }
  unfold diffvfb, diff_lines in *. rewrite <- S. rewrite E. split; [reflexivity|]. cbn [rthen rmap]. f_equal. apply U. reflexivity.
Qed.
Print Assumptions C98_same.

(** ** If nothing is printed *)
Lemma entry_same : forall number o e e' t t', has_data o e -> has_data o e' ->
  entry_py (entry_as_dict (key_of o) JData e) t -> entry_py (entry_as_dict (key_of o) JData e') t' ->
  shown number (sort_keys t) = shown number (sort_keys t') -> same_content number e e'.
Proof.
  intros number o e e' t t' (i & Ei & De) (i' & Ei' & De') V V' E. unfold entry_as_dict in V, V'. unfold same_content. rewrite Ei, Ei' in *.
  assert (Z3 : forall k n x, sort_keys (PDict ((py "key", PStr k) :: opt "size" PInt (Some n) ++ [(py "decompiled", x)])) =
    PDict [(py "decompiled", sort_keys x); (py "key", PStr k); (py "size", PInt n)]) by reflexivity.
  assert (Z2 : forall k x, sort_keys (PDict ((py "key", PStr k) :: opt "size" PInt None ++ [(py "decompiled", x)])) =
    PDict [(py "decompiled", sort_keys x); (py "key", PStr k)]) by reflexivity.
  destruct (e_data e) as [b|d|], (e_data e') as [b'|d'|]; try contradiction; destruct V as (x & J & ->), V' as (x' & J' & ->); rewrite ?Z2, ?Z3 in E;
    cbn [S_Dump.shown map fst snd] in E; apply JsDict_eq in E.
  - cbn [json_py] in J, J'. subst x x'. cbn [sort_keys S_Dump.shown] in E. assert (K : key_of o i = key_of o i') by congruence.
    apply C60_names in K. subst i'. split; [reflexivity|]. apply hexStr_inj; [exact De|exact De'|]. congruence.
  - exfalso. apply (f_equal (@List.length _)) in E. discriminate.
  - exfalso. apply (f_equal (@List.length _)) in E. discriminate.
  - assert (K : key_of o i = key_of o i') by congruence. apply C60_names in K. subst i'. split; [reflexivity|].
    exists x, x'. split; [exact J|]. split; [exact J'|]. apply sorted_same. congruence.
Qed.
(** If nothing is printed, the Vfbs have the same header and the same entries, in the same order, with the same ids
    and, up to the order of keys, the same data, if no string of theirs has a NEL, LS or PS in it. *)
Theorem C98_silent : forall o number unified_diff v v' t t' h, numbers_ok number -> diff_ok unified_diff ->
  v_header v = HDec h -> (exists h', v_header v' = HDec h') ->
  Forall (has_data o) (v_entries v) -> Forall (has_data o) (v_entries v') ->
  vfb_py o v t -> vfb_py o v' t' -> one_line t = true -> one_line t' = true ->
  diffvfb number unified_diff t t' = Ok [] ->
  v_header v' = HDec h /\ Forall2 (same_content number) (v_entries v) (v_entries v').
Proof.
  intros o number ud v v' t t' h N U Hv (h' & Hv') M M' V V' O O' D. unfold diffvfb in D.
  destruct (diff_lines number t) as [a|] eqn:A; [|discriminate]. cbn [rthen] in D. destruct (diff_lines number t') as [a'|] eqn:A'; [|discriminate].
  cbn [rmap] in D. apply Ok_inj in D. apply (proj1 (U a a')) in D. subst a'.
  unfold vfb_py, as_dict in V, V'. rewrite Hv in V. rewrite Hv' in V'. cbn [header_as_dict] in V, V'.
  destruct V as (x & l & X & F & ->), V' as (x' & l' & X' & F' & ->). cbn [json_py] in X, X'. subst x x'.
  pose proof (same_lines number _ _ _ (proj1 N) O O' A A') as E. clear O O' A A' Hv.
  rewrite !vfb_shape' in E. cbn [S_Dump.shown map fst snd] in E.
  apply JsDict_eq in E. apply member_eq in E. destruct E as (E2 & E1). apply member_eq in E1. destruct E1 as (E1 & _). apply JsDict_eq in E1. apply member_eq in E1. destruct E1 as (E1 & _).
  apply JsList_eq in E2. rewrite !map_map in E2. rewrite Hv'. split.
  - clear - E1. destruct h as [a b c d e], h' as [a' b' c' d' e'].
    rewrite !header_shape in E1. cbn [S_Dump.shown map fst snd] in E1. apply JsDict_eq in E1.
    repeat match type of E1 with _ :: _ = _ :: _ => apply member_eq in E1; let Q := fresh "Q" in destruct E1 as (Q & E1); injection Q as Q end.
    clear E1. subst. reflexivity.
  - clear E1 Hv'. revert M M' l l' F F' E2. generalize (v_entries v') as es'. induction (v_entries v) as [|e es IH].
    + intros [|e' es'] M M' l l' F F' E; [constructor|]. inversion F; subst. inversion F'; subst. discriminate.
    + intros [|e' es'] M M' l l' F F' E.
      * inversion F; subst. inversion F'; subst. discriminate.
      * cbn [map] in F, F'. inversion F as [|? t0 ? l0 A B]; subst. inversion F' as [|? t1 ? l1 A' B']; subst. cbn [map] in E. apply item_eq in E. destruct E as (E1 & E2).
        apply Forall_cons_iff in M, M'. destruct M as (M1 & M2), M' as (M1' & M2'). constructor; [|exact (IH es' M2 M2' l0 l1 B B' E2)].
        exact (entry_same number o e e' t0 t1 M1 M1' A A' E1).
Qed.
Print Assumptions C98_silent.

(** ** Files *)
Lemma diff_read_made : forall o fuel file v, bytes_ok file -> diff_read o fuel file = (v, Ok tt) ->
  Forall (has_data o) (v_entries v) /\ exists h, v_header v = HDec h.
Proof.
  intros o fuel file v B. unfold diff_read. destruct (vfb_read_bytes (table o) fuel (new_vfb [] false false) file) as [v0 [u r|x r]]; [|discriminate].
  pose proof (read_made o fuel v0 file B) as M. destruct (vfb_read_bytes (table o) fuel v0 file) as [v1 [u1 r1|x r1]] eqn:R; [|discriminate].
  cbn [fst] in M. intros D. split; [exact (vfb_decompile_made o bytes_ok _ _ M D)|].
  destruct u1. destruct (read_header o _ _ _ _ _ R) as (h & Hh). destruct (vfb_decompile_drop _ _ _ D) as (_ & _ & G & H).
  specialize (H ltac:(congruence)). destruct (v_header v) as [b|hh|]; [destruct (G b eq_refl)|eexists; reflexivity|congruence].
Qed.
(** vfbdiff prints nothing for a file and itself ... *)
Theorem C98_same_file : forall o number unified_diff fuel file v t t' l, diff_ok unified_diff ->
  diff_read o fuel file = (v, Ok tt) -> vfb_py o v t -> vfb_py o v t' -> diff_lines number t = Ok l ->
  diffvfb number unified_diff t t' = Ok [].
Proof. intros. eapply C98_same; try eassumption; reflexivity. Qed.
Print Assumptions C98_same_file.
(** ... and if it prints nothing, the files have the same content. *)
Theorem C98_files : forall o number unified_diff fuel fuel' file file' v v' t t', numbers_ok number -> diff_ok unified_diff ->
  bytes_ok file -> bytes_ok file' -> diff_read o fuel file = (v, Ok tt) -> diff_read o fuel' file' = (v', Ok tt) ->
  vfb_py o v t -> vfb_py o v' t' -> one_line t = true -> one_line t' = true ->
  diffvfb number unified_diff t t' = Ok [] ->
  v_header v' = v_header v /\ Forall2 (same_content number) (v_entries v) (v_entries v').
Proof.
  intros o number ud fuel fuel' file file' v v' t t' N U B B' R R' V V' O O' D.
  destruct (diff_read_made _ _ _ _ B R) as (M & h & H). destruct (diff_read_made _ _ _ _ B' R') as (M' & H').
  rewrite H. eapply C98_silent; eassumption.
Qed.
Print Assumptions C98_files.

(** ** Refuted: differences are always printed *)
(** In these files, a name has an LS or a PS in it. [splitlines] breaks the string there, and both have the same
    lines. *)
Definition separator_file (c : Z) : bytes := file_of 7
  [(1138, [140; 140; 142; 140; 139; 140; 255; 0; 0; 0x20; c]); (2, [])].
Theorem C98_separators_refuted : forall o number unified_diff, diff_ok unified_diff -> exists file file' v v' t t',
  bytes_ok file /\ bytes_ok file' /\ diff_read o 20 file = (v, Ok tt) /\ diff_read o 20 file' = (v', Ok tt) /\
  vfb_py o v t /\ vfb_py o v' t' /\ map e_data (v_entries v) <> map e_data (v_entries v') /\
  diffvfb number unified_diff t t' = Ok [].
Proof.
  intros o number ud U. exists (separator_file 0x28), (separator_file 0x29). eexists _, _, _, _.
  split; [apply bytes_okb_ok; vm_compute; reflexivity|]. split; [apply bytes_okb_ok; vm_compute; reflexivity|].
  split; [vm_compute; reflexivity|]. split; [vm_compute; reflexivity|].
  split; [|split; [|split]].
  - eexists _, _. split; [reflexivity|]. split; [|reflexivity].
    repeat (apply Forall2_cons; [eexists; split; reflexivity|]). apply Forall2_nil.
  - eexists _, _. split; [reflexivity|]. split; [|reflexivity].
    repeat (apply Forall2_cons; [eexists; split; reflexivity|]). apply Forall2_nil.
  - discriminate.
  - unfold diffvfb.
    match goal with |- rthen (diff_lines number ?a) (fun x => rmap _ (diff_lines number ?b)) = _ =>
      assert (E : diff_lines number a = diff_lines number b) by (vm_compute; reflexivity);
      assert (X : exists l, diff_lines number b = Ok l) by (eexists; vm_compute; reflexivity) end.
    destruct X as (l & X). rewrite E, X. cbn [rthen rmap]. f_equal. apply U. reflexivity.
Qed.
Print Assumptions C98_separators_refuted.

(** ** Example *)
Definition sample_diff (a b : list pystr) : list pystr := if list_eq_dec (list_eq_dec Z.eq_dec) a b then [] else [py "different"].
Example sample_diff_ok : diff_ok sample_diff.
Proof. intros a b. unfold sample_diff. destruct (list_eq_dec (list_eq_dec Z.eq_dec) a b); split; intros H; try reflexivity; congruence. Qed.
(** two files that differ in the angle *)
Definition c98_file (c : Z) : bytes := file_of 7
  [(10, [1; 139; 2; 255; 0; 0; 0; 1; 3; 139; 0]); (1026, [65; 0xE9]); (1029, [0; 0; 0; 0; 0; 0; c; 0xC0]); (2, [])].
Example C98_ex : forall o, exists v v' t t',
  bytes_ok (c98_file 0x28) /\ bytes_ok (c98_file 0x24) /\ diff_read o 20 (c98_file 0x28) = (v, Ok tt) /\ diff_read o 20 (c98_file 0x24) = (v', Ok tt) /\
  vfb_py o v t /\ vfb_py o v' t' /\ one_line t = true /\ one_line t' = true /\
  diffvfb sample_number sample_diff t t = Ok [] /\ diffvfb sample_number sample_diff t t' = Ok [py "different"].
Proof.
  intros o. eexists _, _, _, _. split; [apply bytes_okb_ok; vm_compute; reflexivity|]. split; [apply bytes_okb_ok; vm_compute; reflexivity|].
  split; [vm_compute; reflexivity|]. split; [vm_compute; reflexivity|]. split; [|split].
  - eexists _, _. split; [reflexivity|]. split; [|reflexivity].
    repeat (apply Forall2_cons; [eexists; split; reflexivity|]). apply Forall2_nil.
  - eexists _, _. split; [reflexivity|]. split; [|reflexivity].
    repeat (apply Forall2_cons; [eexists; split; reflexivity|]). apply Forall2_nil.
  - repeat split; vm_compute; reflexivity.
Qed.
