(** Proofs: the size of a decompiled glyph (C107). *)
From Coq Require Import ZifyBool ZifyNat String Permutation.
From Verif Require Import Base M_Stream M_Py M_Helpers M_Text M_Simple M_Bitmap M_TrueType M_Glyph M_Float M_Options
  M_Container M_Table M_Json S_Stream S_Size Lib P_Stream P_Loop P_Dec P_Simple P_Simple2 P_Simple3 P_Table P_Text P_Text2 P_TrueType P_Size.
Local Open Scope list_scope.
Open Scope rd_scope.
Local Notation len l := (Z.of_nat (length l)).

(** a loop that cannot end at the end of the data *)
Lemma while_alive : forall St (body : St -> rd (St + St)) (m : St -> Z) K fuel st s a s' k c,
  (forall st, csn (body st) (fun x n => match x with inl st' => m st' <= m st + K * n | inr _ => True end)) ->
  (forall st s a s', body st s = ROk (inr a) s' -> a = st) -> (forall st x s', body st [] <> ROk (inr x) s') ->
  0 <= K -> small s -> 0 <= k -> (s <> [] -> m st <= K * k + c) -> rwhile fuel body st s = ROk a s' ->
  small s' /\ len s' <= len s /\ m a <= K * (k + (len s - len s')) + c.
Proof.
  intros St body m K fuel st s a s' k c HT HE HD HK. revert st s k. induction fuel as [|f IH]; intros st s k Hs Hk J E; cbn [rwhile] in E; [discriminate|]. unfold rbind in E.
  destruct (body st s) as [[d'|a'] s1|] eqn:T; [| |discriminate].
  - destruct (HT st s _ s1 Hs T) as (S1 & L1 & X). cbv beta iota in X.
    destruct (IH d' s1 (k + (len s - len s1))) as (S2 & L2 & Y); [exact S1|lia| |exact E|].
    + intros N. assert (N0 : s <> []) by (intros ->; destruct s1; [congruence|cbn [length] in L1; lia]). specialize (X N). specialize (J N0). lia.
    + split; [exact S2|]. split; [lia|]. replace (k + (len s - len s')) with (k + (len s - len s1) + (len s1 - len s')) by lia. exact Y.
  - destruct (HT st s _ s1 Hs T) as (S1 & L1 & _). apply HE in T as T'. subst a'. inversion E; subst. assert (N0 : s <> []) by (intros ->; eapply HD; exact T).
    specialize (J N0). split; [exact S1|]. split; [lia|]. nia.
Qed.
Lemma loop_alive : forall St (body : St -> rd (St + St)) (m : St -> Z) K st,
  (forall st, csn (body st) (fun x n => match x with inl st' => m st' <= m st + K * n | inr _ => True end)) ->
  (forall st s a s', body st s = ROk (inr a) s' -> a = st) -> (forall st x s', body st [] <> ROk (inr x) s') ->
  0 <= K -> cs (rloop body st) (fun a n => m a <= K * n + m st).
Proof.
  intros St body m K st HT HE HD HK s a s' Hs E. unfold rloop in E.
  apply (while_alive St body m K _ st s a s' 0 (m st) HT HE HD HK Hs (Z.le_refl 0)) in E; [exact E|lia].
Qed.
Lemma csn_raise : forall A e (Q : A -> Z -> Prop), csn (rraise e) Q. Proof. intros. apply csn_cs, cs_raise. Qed.

(** ** Measures: what has been read for each key *)
Definition om {A} (m : A -> Z) (o : option A) : Z := match o with Some x => m x | None => 0 end.
Notation lines_size := (sumz (fun l : pystr => 1 + len l)).
Definition im_size (i : imported) : Z :=
  om (fun m => 60 + len (ib_bbox m)) (im_metrics i) + om (fun p => 40 + len (snd p)) (im_contours i) +
  om (fun l => size (plist binary_node_py l)) (im_nodes i) + om (fun l => lines_size l) (im_instructions i) + om (fun l => len l) (im_hdmx i).
Definition row_of {A} (f : A -> pyval) (r : list A) : Z := match r with [] => 0 | _ => size (plist f r) end.
Definition hints_size (h : mm_hints) : Z :=
  30 + sumz (row_of hint_py) (mh_v h) + sumz (row_of hint_py) (mh_h h) + om (fun l => size (plist hintmask_py l)) (mh_masks h).
Definition guides_size (g : guides) : Z := 30 + sumz (row_of guide_py) (gs_h g) + sumz (row_of guide_py) (gs_v g).
Definition nodes_of (n : option Z) (l : option (list mm_node)) : Z :=
  match n with Some n => if 1 <=? n then om (fun l => size (plist node_py l)) l else 0 | None => om (fun l => size (plist node_py l)) l end.
Definition gl_size (g : glyph) : Z :=
  om (fun s => 1 + len s) (g_name g) + nodes_of (g_num_masters g) (g_nodes g) + om (fun l => size (ppairs l)) (g_metrics g) +
  om hints_size (g_hints g) + om guides_size (g_guides g) + om (fun l => size (plist component_py l)) (g_components g) +
  om (fun l => size (pint_dict pints l)) (g_kerning g) + om im_size (g_imported g) + om (fun l => size (plist instruction_py l)) (g_tth g).
Lemma om_pos : forall A (m : A -> Z) o, (forall x, 0 <= m x) -> 0 <= om m o. Proof. intros A m [x|] H; cbn [om]; [apply H|lia]. Qed.
Lemma sumz_pos : forall A (m : A -> Z) l, (forall x, 0 <= m x) -> 0 <= sumz m l.
Proof. intros A m l H. induction l as [|x l IH]; cbn [sumz]; [lia|]. specialize (H x). lia. Qed.
Lemma row_of_pos : forall A (f : A -> pyval) r, 0 <= row_of f r.
Proof. intros A f [|x r]; cbn [row_of]; [lia|apply size_pos]. Qed.
Lemma lines_pos : forall l, 0 <= lines_size l. Proof. intros. apply sumz_pos. intros. lia. Qed.
Lemma size_pos0 : forall v, 0 <= size v. Proof. intros v. pose proof (size_pos v). lia. Qed.
Lemma im_pos : forall i, 0 <= im_size i.
Proof.
  intros i. unfold im_size. repeat apply Z.add_nonneg_nonneg; apply om_pos; intros; try lia; first [apply size_pos0|apply lines_pos].
Qed.
Lemma hints_pos : forall h, 0 <= hints_size h.
Proof. intros h. unfold hints_size. repeat apply Z.add_nonneg_nonneg; try lia; first [apply om_pos; intros; apply size_pos0|apply sumz_pos; intros; apply row_of_pos]. Qed.
Lemma guides_pos : forall h, 0 <= guides_size h.
Proof. intros h. unfold guides_size. repeat apply Z.add_nonneg_nonneg; try lia; apply sumz_pos; intros; apply row_of_pos. Qed.
Lemma nodes_pos : forall n l, 0 <= nodes_of n l.
Proof. intros n l. assert (H : 0 <= om (fun l => size (plist node_py l)) l) by (apply om_pos; intros; apply size_pos0). destruct n as [n|]; cbn [nodes_of]; [destruct (1 <=? n)|]; lia. Qed.

Ltac sc := match goal with H : sumz (fun _ => _) _ <= _ |- _ => rewrite sumz_const in H end.
(** ** The parts *)
Lemma cs_per_master : forall A nm (r : rd A) (m : A -> Z) K, 0 <= K -> cs r (fun a n => m a <= K * n) -> cs (per_master nm r) (fun l k => sumz m l <= K * k).
Proof. intros A [n|] r m K HK H; cbn [per_master]; [apply cs_range, H|apply cs_raise]. Qed.
Lemma cs_metrics : forall nm, cs (per_master nm read_pair) (fun l k => size (ppairs l) <= 100 * k + 1).
Proof.
  intros nm. eapply cs_weaken; [apply (cs_per_master _ nm read_pair (fun _ => 2) 1); [lia|]; eapply cs_weaken; [apply cs_pair|cbv beta; lia]|].
  cbv beta. intros l k Hk H. rewrite sumz_const in H. rewrite size_pairs. lia.
Qed.
Lemma cs_rows : forall A (f : A -> pyval) (r : rd A) c nm num, (forall a, size (f a) <= c) -> 0 <= c <= 50 -> cs r (fun a n => 1 <= n) ->
  cs (rrange num (per_master nm r)) (fun l k => sumz (row_of f) l <= 100 * k).
Proof.
  intros A f r c nm num F C H. apply cs_range. eapply cs_weaken; [apply (cs_per_master _ nm r (fun _ => 1) 1); [lia|]; eapply cs_weaken; [exact H|cbv beta; lia]|].
  cbv beta. intros l k Hk L. rewrite sumz_const in L. unfold row_of. destruct l as [|x l]; [lia|]. rewrite size_plist.
  assert (G : forall l, sumz (fun a => size (f a)) l <= c * len l) by (induction l0 as [|y l0 IH]; cbn [sumz length]; [lia|]; specialize (F y); lia).
  specialize (G (x :: l)). cbn [length] in *. nia.
Qed.
Lemma cs_hints : forall nm, cs (parse_hints nm) (fun h k => hints_size h <= 100 * k + 40).
Proof.
  intros nm. unfold parse_hints. assert (R : forall num, cs (rrange num (per_master nm read_pair)) (fun l k => sumz (row_of hint_py) l <= 100 * k)).
  { intros num. apply (cs_rows _ hint_py _ 20); [|lia|eapply cs_weaken; [apply cs_pair|cbv beta; lia]].
    intros [x y]. unfold hint_py, pd. cbn [map fst snd]. rewrite size_dict. cbn [sumz]. unfold entry_size. cbn [fst snd size]. keys. lia. }
  bind prim. bind ltac:(apply R). bind prim. bind ltac:(apply R). bind prim.
  bind ltac:(apply (cs_list _ _ hintmask_py); unfold read_hintmask; bind prim; bind prim;
    eapply cs_bind; [apply (cs_lift _ _ (fun t _ => len t <= 1)); intros t T; unfold aget_res, replace_types in T; cbn [aget] in T;
      repeat (match type of T with context [if ?b then _ else _] => destruct b end; [inversion T; cbv; discriminate|]); discriminate|];
    intros t m Hm T; cbv beta in T; apply cs_ret; unfold hintmask_py; cbn [fst snd]; rewrite size_list; cbn [sumz size]; lia).
  apply cs_ret. unfold hints_size. cbn [mh_v mh_h mh_masks]. destruct a4 as [|x l]; cbn [some_if_any om]; [|]; pose proof (size_pos (plist hintmask_py [])); lia.
Qed.
Lemma cs_guides_part : forall o n, cs (parse_guides o n) (fun g k => guides_size g <= 100 * k + 30).
Proof.
  intros o n. unfold parse_guides. assert (R : forall num, cs (rrange num (rrange n (read_guide_master o))) (fun l k => sumz (row_of guide_py) l <= 100 * k)).
  { intros num. apply (cs_rows _ guide_py _ 20 (Some n)); [|lia|].
    - intros [x y]. unfold guide_py, pd, pdouble. cbn [map fst snd gm_pos gm_angle]. rewrite size_dict. cbn [sumz]. unfold entry_size. cbn [fst snd size]. keys. lia.
    - unfold read_guide_master. bind prim. bind prim. apply cs_ret. lia. }
  bind prim. bind ltac:(apply R). bind prim. bind ltac:(apply R). apply cs_ret. unfold guides_size. cbn [gs_h gs_v]. lia.
Qed.
Lemma cs_components : forall nm, cs (parse_components nm) (fun l k => size (plist component_py l) <= 100 * k + 1).
Proof.
  intros nm. unfold parse_components. bind prim. eapply cs_weaken; [apply (cs_list _ _ component_py)|cbv beta; lia].
  unfold parse_component. bind prim. bind ltac:(apply (cs_per_master _ nm read_offset_scale (fun _ => 1) 1); [lia|];
    unfold read_offset_scale; bind prim; bind prim; bind prim; destruct a3 as [|x [|y [|z r]]]; try apply cs_raise; apply cs_ret; lia).
  sc. apply cs_ret. unfold component_py, pd. cbn [co_gid co_x co_y co_sx co_sy map fst snd]. rewrite size_dict. cbn [sumz]. unfold entry_size. cbn [fst snd]. keys.
  rewrite !size_ints, !size_doubles, !map_length. cbn [size]. lia.
Qed.
Lemma cs_kerning : forall nm, cs (parse_kerning nm) (fun l k => size (pint_dict pints l) <= 100 * k + 1).
Proof.
  intros nm. unfold parse_kerning. bind prim. eapply cs_weaken; [apply (cs_times _ _ (fun d k => size (pint_dict pints d) <= 100 * k + 1) _ _ 0); [lia|vm_compute; discriminate|]|].
  - intros d k Hk J. unfold kerning_turn. bind prim.
    bind ltac:(apply (cs_per_master _ nm read_value (fun _ => 1) 1); [lia|]; eapply cs_weaken; [apply cs_value|cbv beta; lia]). sc. apply cs_ret.
    rewrite size_int_dict in *.
    pose proof (sumz_aset _ _ Z.eqb (fun k => len (dec_str k)) (fun v => size (pints v)) ltac:(intros; cbv beta; lia) ltac:(intros; apply size_pos0) a0 a1 d) as E.
    cbv beta in E. rewrite size_ints in E. pose proof (dec_str_len a0). unfold i32 in *. lia.
  - cbv beta. lia.
Qed.
Lemma combine_sum : forall (names : list pystr) (ps : list Z), (length names <= 4)%nat -> Forall (fun s => len s <= 5) names ->
  sumz (fun p : pystr * Z => len (fst p) + size (PInt (snd p))) (combine names ps) <= 24.
Proof.
  intros names ps L F. enough (sumz (fun p : pystr * Z => len (fst p) + size (PInt (snd p))) (combine names ps) <= 6 * len names) by lia. clear L.
  revert ps. induction F as [|s names Hs F IH]; intros [|x ps]; cbn [combine sumz length fst snd size]; try lia. specialize (IH ps). cbn [size] in IH. lia.
Qed.
Lemma cs_instructions : cs parse_instructions (fun l k => size (plist instruction_py l) <= 100 * k + 1).
Proof.
  unfold parse_instructions. bind prim. bind prim. bind ltac:(apply (cs_list _ _ instruction_py)).
  - unfold parse_instruction. bind prim.
    eapply cs_bind; [apply (cs_lift _ _ (fun c _ => len (fst c) <= 12 /\ (1 <= length (snd c) <= 4)%nat /\ Forall (fun s => len s <= 5) (snd c)))|].
    { intros c C. unfold aget_res in C. assert (T : Forall (fun p => len (fst (snd p)) <= 12 /\ (1 <= length (snd (snd p)) <= 4)%nat /\ Forall (fun s => len s <= 5) (snd (snd p))) tt_commands).
      { repeat constructor; vm_compute; try discriminate; lia. }
      revert C. generalize T. generalize tt_commands. clear. intros l F. induction F as [|[k x] l H F IH]; cbn [aget]; [discriminate|].
      destruct (a1 =? k); [|exact IH]. intros C. inversion C; subst. exact H. }
    intros c m Hm (C1 & C2 & C3).
    bind ltac:(unfold rrange; apply (cs_repeat _ read_value (fun _ => 1) 1); eapply cs_weaken; [apply cs_value|cbv beta; lia]). sc.
    apply cs_ret. unfold instruction_py, pd. cbn [in_cmd in_params map fst snd]. rewrite size_dict. cbn [sumz]. unfold entry_size. cbn [fst snd]. keys. rewrite size_str_dict.
    pose proof (combine_sum (snd c) a2 ltac:(lia) C3). cbn [size] in *. lia.
  - eapply cs_bind; [apply (cs_repeat _ read_value (fun _ => 1) 1); eapply cs_weaken; [apply cs_value|cbv beta; lia]|]. intros l2 k2 K2 _. apply cs_ret. lia.
Qed.

(** *** imported binary data *)
Definition asm_linear (o : oracles) : Prop := forall b l, o_asm o b = Ok l -> lines_size l <= 100 * len b + 100.
Lemma asm_proportion : forall o, asm_in_proportion o -> asm_linear o.
Proof. intros o H b l E. specialize (H b l E). rewrite size_strs in H. lia. Qed.
Lemma cs_uvalues : forall n, cs (rrange n read_uvalue) (fun l k => len l <= k).
Proof.
  intros n. eapply cs_weaken; [apply (cs_range _ read_uvalue (fun _ => 1) 1); eapply cs_weaken; [apply cs_uvalue|cbv beta; lia]|].
  cbv beta. intros l k Hk H. rewrite sumz_const in H. lia.
Qed.
Lemma cs_binary_nodes : forall n, cs (rtimes n binary_nodes_turn ([], (0, 0))) (fun st k => size (plist binary_node_py (fst st)) <= 100 * k + 1).
Proof.
  intros n. eapply cs_weaken; [apply (cs_times _ _ (fun st k => size (plist binary_node_py (fst st)) <= 100 * k + 1) _ _ 0); [lia|vm_compute; discriminate|]|cbv beta; auto].
  intros [l p] k Hk J. unfold binary_nodes_turn. bind prim. bind prim. apply cs_ret. cbn [fst] in *. rewrite size_plist in *. rewrite sumz_app. cbn [sumz].
  unfold binary_node_py at 2, pd. cbn [bn_flags bn_on bn_point map fst snd]. rewrite size_dict. cbn [sumz]. unfold entry_size. cbn [fst snd]. keys. rewrite size_pair. cbn [size]. lia.
Qed.
Definition turn_ok {St} (m : St -> Z) (st : St) (r : rd (St + St)) : Prop :=
  csn r (fun x k => forall n, 0 <= n -> 1 <= n -> match x with inl st' => m st' <= m st + 300 * (n + k) | inr _ => True end).
Lemma turn_part : forall St A (m : St -> Z) st (r : rd A) (f : A -> St) (cost : A -> Z), csn r (fun x k => cost x <= 300 * k + 300) ->
  (forall x, m (f x) <= m st + cost x) -> turn_ok m st (x <- r ;; ret (inl (f x))).
Proof.
  intros St A m st r f cost H F. unfold turn_ok. eapply csn_bind; [exact H|]. intros x. apply csn_cs, cs_ret. intros n Hn C j Hj J. specialize (F x). lia.
Qed.
Lemma turn_start : forall St (m : St -> Z) st (k : Z -> rd (St + St)), (forall v, turn_ok m st (k v)) ->
  csn (v <- read_uint8 ;; k v) (fun x n => match x with inl st' => m st' <= m st + 300 * n | inr _ => True end).
Proof.
  intros St m st k H. eapply csn_bind; [apply csn_uint8|]. intros v. eapply csn_weaken; [apply H|]. cbv beta. intros x n Hn X j Hj (_ & J). specialize (X j Hj J).
  destruct x; [|exact I]. lia.
Qed.
Lemma turn_end : forall St (m : St -> Z) st a, turn_ok m st (ret (inr a)).
Proof. intros. apply csn_cs, cs_ret. auto. Qed.
Lemma turn_if : forall St (m : St -> Z) st (b : bool) r1 r2, turn_ok m st r1 -> turn_ok m st r2 -> turn_ok m st (if b then r1 else r2).
Proof. intros. destruct b; auto. Qed.
Ltac nonneg := match goal with
  | |- context [om ?m ?o] => let H := fresh in assert (H : 0 <= om m o) by (apply om_pos; intros; first [apply size_pos0|apply lines_pos|apply hints_pos|apply guides_pos|apply im_pos|lia]); revert H; generalize (om m o); intros
  | |- context [nodes_of ?n ?l] => let H := fresh in pose proof (nodes_pos n l) as H; revert H; generalize (nodes_of n l); intros
  end.
Lemma im_turn : forall o i, asm_linear o -> csn (binary_turn o i) (fun x n => match x with inl i' => im_size i' <= im_size i + 300 * n | inr _ => True end).
Proof.
  intros o i O. unfold binary_turn. apply turn_start. intros v. apply turn_if; [apply turn_end|]. apply turn_if; [|apply turn_if; [|apply turn_if; [|apply turn_if; [|apply csn_raise]]]].
  - apply csn_cs. do 5 bind prim. bind ltac:(apply (cs_repeat _ read_value (fun _ => 1) 1); eapply cs_weaken; [apply cs_value|cbv beta; lia]). apply cs_ret. intros nn Hnn Nn.
    unfold im_size. cbn [im_metrics im_contours im_nodes im_instructions im_hdmx ib_bbox om]. rewrite H10. repeat nonneg. lia.
  - apply csn_cs. bind prim. bind ltac:(apply cs_uvalues). bind prim. bind ltac:(apply cs_binary_nodes). apply cs_ret. intros nn Hnn Nn.
    unfold im_size. cbn [im_metrics im_contours im_nodes im_instructions im_hdmx om snd].
    assert (X : om (fun l => size (plist binary_node_py l)) (match fst a2 with [] => im_nodes i | l => Some l end) <= om (fun l => size (plist binary_node_py l)) (im_nodes i) + size (plist binary_node_py (fst a2))).
    { destruct (fst a2) as [|x l]; cbn [om]; [pose proof (size_pos (plist binary_node_py [])); lia|]. nonneg. lia. }
    revert X. generalize (om (fun l => size (plist binary_node_py l)) (match fst a2 with [] => im_nodes i | l => Some l end)). intros z X. revert X. repeat nonneg. lia.
  - apply csn_cs. bind prim. bind prim. bind ltac:(apply (cs_lift _ _ (fun l _ => lines_size l <= 100 * len a0 + 100)); intros l L; apply O, L). apply cs_ret. intros nn Hnn Nn.
    unfold im_size. cbn [im_metrics im_contours im_nodes im_instructions im_hdmx om]. repeat nonneg. lia.
  - unfold turn_ok. eapply csn_bind; [apply csn_cs, cs_value|]. intros c. eapply csn_bind; [apply csn_uint8s|]. intros l. apply csn_cs, cs_ret.
    intros k Hk L j Hj _ n Hn N. unfold im_size. cbn [im_metrics im_contours im_nodes im_instructions im_hdmx om]. repeat nonneg. lia.
Qed.
Ltac ends E := unfold rbind, ret in E; repeat match type of E with
  | context [if ?b then _ else _] => destruct b
  | match ?x with _ => _ end = _ => destruct x; try discriminate
  | ROk _ _ = ROk _ _ => inversion E; reflexivity
  | _ => discriminate
  end.
Lemma im_end : forall o i s a s', binary_turn o i s = ROk (inr a) s' -> a = i.
Proof. intros o i s a s' E. unfold binary_turn, rraise in E. ends E. Qed.
Lemma cs_binary : forall o, asm_linear o -> cs (parse_binary o) (fun i n => im_size i <= 300 * n).
Proof.
  intros o O. eapply cs_weaken; [apply (loop_alive _ _ im_size 300)|].
  - intros i. apply im_turn, O.
  - apply im_end.
  - intros i x s' E. discriminate E.
  - lia.
  - cbv beta. intros i n Hn H. change (im_size empty_imported) with 0 in H. lia.
Qed.

(** *** the glyph *)
Lemma gl_turn : forall o g, asm_linear o -> csn (glyph_turn o g) (fun x n => match x with inl g' => gl_size g' <= gl_size g + 300 * n | inr _ => True end).
Proof.
  intros o g O. unfold glyph_turn. cbv zeta. apply turn_start. intros v.
  assert (W : forall A (r : rd A) Q (cost : A -> Z), cs r Q -> (forall x k, 0 <= k -> Q x k -> cost x <= 300 * k + 300) -> csn r (fun x k => cost x <= 300 * k + 300)).
  { intros A r Q cost C H. apply csn_cs. eapply cs_weaken; [exact C|]. cbv beta. auto. }
  repeat apply turn_if; try apply turn_end.
  - apply turn_part with (cost := fun s => 1 + len s); [eapply W; [apply cs_str_with_len|cbv beta; lia]|]. intros x. unfold gl_size, set_name. cbn [g_name g_num_masters g_nodes g_metrics g_hints g_guides g_components g_kerning g_imported g_tth]. cbn [om]. repeat nonneg. lia.
  - apply turn_part with (cost := fun l => size (ppairs l)); [eapply W; [apply cs_metrics|cbv beta; lia]|]. intros x. unfold gl_size, set_metrics. cbn [g_name g_num_masters g_nodes g_metrics g_hints g_guides g_components g_kerning g_imported g_tth]. cbn [om]. repeat nonneg. lia.
  - apply turn_part with (cost := hints_size); [eapply W; [apply cs_hints|cbv beta; lia]|]. intros x.
    assert (X : gl_size (set_hints x g) <= gl_size g + hints_size x) by (unfold gl_size, set_hints; cbn [g_name g_num_masters g_nodes g_metrics g_hints g_guides g_components g_kerning g_imported g_tth]; cbn [om]; repeat nonneg; lia).
    pose proof (hints_pos x). unfold store_hints. destruct (mh_v x); [destruct (mh_h x); [destruct (mh_masks x)|]|]; lia.
  - destruct (g_num_masters g) as [n|]; [|apply csn_raise]. destruct (g_name g); [|apply csn_raise].
    apply turn_part with (cost := guides_size); [eapply W; [apply cs_guides_part|cbv beta; lia]|]. intros x. unfold gl_size, set_guides. cbn [g_name g_num_masters g_nodes g_metrics g_hints g_guides g_components g_kerning g_imported g_tth]. cbn [om]. repeat nonneg. lia.
  - apply turn_part with (cost := fun l => size (plist component_py l)); [eapply W; [apply cs_components|cbv beta; lia]|]. intros x. unfold gl_size, set_components. cbn [g_name g_num_masters g_nodes g_metrics g_hints g_guides g_components g_kerning g_imported g_tth]. cbn [om]. repeat nonneg. lia.
  - apply turn_part with (cost := fun l => size (pint_dict pints l)); [eapply W; [apply cs_kerning|cbv beta; lia]|]. intros x. unfold gl_size, set_kerning. cbn [g_name g_num_masters g_nodes g_metrics g_hints g_guides g_components g_kerning g_imported g_tth]. cbn [om]. repeat nonneg. lia.
  - apply csn_cs, cs_ret. lia.
  - apply turn_part with (cost := fun r => nodes_of (Some (fst r)) (Some (snd r))); [eapply W; [apply cs_outlines|]|].
    + intros x k Hk H. cbv beta in H. cbn [nodes_of om]. destruct (Z.leb_spec 1 (fst x)); [specialize (H ltac:(lia))|]; lia.
    + intros x. unfold gl_size, set_outlines. cbn [g_name g_num_masters g_nodes g_metrics g_hints g_guides g_components g_kerning g_imported g_tth]. repeat nonneg. lia.
  - apply turn_part with (cost := im_size); [eapply W; [apply cs_binary, O|cbv beta; lia]|]. intros x. unfold gl_size, set_imported. cbn [g_name g_num_masters g_nodes g_metrics g_hints g_guides g_components g_kerning g_imported g_tth]. cbn [om]. repeat nonneg. lia.
  - apply turn_part with (cost := fun l => size (plist instruction_py l)); [eapply W; [apply cs_instructions|cbv beta; lia]|]. intros x.
    assert (X : gl_size (set_tth x g) <= gl_size g + size (plist instruction_py x)) by (unfold gl_size, set_tth; cbn [g_name g_num_masters g_nodes g_metrics g_hints g_guides g_components g_kerning g_imported g_tth]; cbn [om]; repeat nonneg; lia).
    pose proof (size_pos (plist instruction_py x)). destruct x; lia.
  - unfold turn_ok. eapply csn_bind; [apply csn_cs, cs_read_all|]. intros. apply csn_raise.
Qed.
Lemma gl_end : forall o g s a s', glyph_turn o g s = ROk (inr a) s' -> a = g.
Proof. intros o g s a s' E. unfold glyph_turn, rraise in E. cbv zeta in E. ends E. destruct (g_num_masters g); ends E.
Qed.
Lemma cs_glyph : forall o, asm_linear o -> cs (parse_glyph o) (fun g n => gl_size g <= 300 * n).
Proof.
  intros o O. unfold parse_glyph. bind prim. bind ltac:(apply cs_if; intros ?; [apply (cs_ret _ _ (fun _ _ => True)); exact I|apply cs_raise]).
  eapply cs_weaken; [apply (loop_alive _ _ gl_size 300)|].
  - intros g. apply gl_turn, O.
  - apply gl_end.
  - intros g x s' E. discriminate E.
  - lia.
  - cbv beta. intros g k Hk L. change (gl_size empty_glyph_data) with 0 in L. lia.
Qed.
Lemma rows_size : forall A (f : A -> pyval) l, Forall (fun r => r <> []) l -> size (plist (plist f) l) = 1 + sumz (row_of f) l.
Proof.
  intros A f l F. rewrite size_plist. f_equal. induction F as [|r l Hr F IH]; cbn [sumz]; [reflexivity|]. rewrite IH. destruct r; [congruence|reflexivity].
Qed.
Lemma perm_sum : forall A (m : A -> Z) l l', Permutation l l' -> sumz m l = sumz m l'.
Proof. intros A m l l' P. induction P; cbn [sumz]; lia. Qed.
Lemma opt_size : forall A k (f : A -> pyval) o, sumz entry_size (opt k f o) <= len (py k) + om (fun x => size (f x)) o.
Proof. intros A k f [x|]; cbn [opt sumz om]; [|lia]. unfold entry_size. cbn [fst snd]. lia. Qed.
Lemma imported_size : forall i l, Permutation l (imported_items i) -> size (PDict l) <= im_size i + 30.
Proof.
  intros i l P. rewrite size_dict, (perm_sum _ _ _ _ P). unfold imported_items. rewrite !sumz_app.
  pose proof (opt_size _ "nodes" (plist binary_node_py) (im_nodes i)) as A1. pose proof (opt_size _ "instructions" pstrs (im_instructions i)) as A2. pose proof (opt_size _ "hdmx" pints (im_hdmx i)) as A3.
  revert A1 A2 A3. keys. intros A1 A2 A3. unfold im_size.
  assert (B1 : sumz entry_size (match im_metrics i with Some m => [(py "width", PInt (ib_width m)); (py "lsb", PInt (ib_lsb m)); (py "unknown1", PInt (ib_unknown1 m));
               (py "unknown2", PInt (ib_unknown2 m)); (py "unknown3", PInt (ib_unknown3 m)); (py "bbox", pints (ib_bbox m))] | None => [] end) <= om (fun m => 60 + len (ib_bbox m)) (im_metrics i)).
  { destruct (im_metrics i) as [m|]; cbn [om sumz]; [|lia]. unfold entry_size. cbn [fst snd]. keys. rewrite size_ints. cbn [size]. lia. }
  assert (B2 : sumz entry_size (match im_contours i with Some (n, l) => [(py "num_contours", PInt n); (py "endpoints", pints l)] | None => [] end) <= om (fun p => 40 + len (snd p)) (im_contours i)).
  { destruct (im_contours i) as [[n x]|]; cbn [om sumz snd]; [|lia]. unfold entry_size. cbn [fst snd]. keys. rewrite size_ints. cbn [size]. lia. }
  assert (B3 : om (fun x => size (pstrs x)) (im_instructions i) <= om (fun l => lines_size l) (im_instructions i) + 1).
  { destruct (im_instructions i); cbn [om]; [rewrite size_strs|]; cbv beta; lia. }
  assert (B4 : om (fun x => size (pints x)) (im_hdmx i) <= om (fun l => len l) (im_hdmx i) + 1) by (destruct (im_hdmx i); cbn [om]; [rewrite size_ints|]; lia).
  lia.
Qed.
Lemma glyph_size : forall g v, stored_glyph g -> glyph_py g v -> size v <= gl_size g + 200.
Proof.
  intros g v (S1 & S2 & S3) (imp & d & -> & P & I). rewrite size_dict, (perm_sum _ _ _ _ P). unfold glyph_items. rewrite !sumz_app.
  pose proof (opt_size _ "name" PStr (g_name g)) as A1. pose proof (opt_size _ "num_masters" PInt (g_num_masters g)) as A2. pose proof (opt_size _ "nodes" (plist node_py) (g_nodes g)) as A3.
  pose proof (opt_size _ "metrics" ppairs (g_metrics g)) as A4. pose proof (opt_size _ "hints" hints_py (g_hints g)) as A5. pose proof (opt_size _ "guides" guides_py (g_guides g)) as A6.
  pose proof (opt_size _ "components" (plist component_py) (g_components g)) as A7. pose proof (opt_size _ "kerning" (pint_dict pints) (g_kerning g)) as A8.
  pose proof (opt_size _ "imported" (fun x => x) imp) as A9. pose proof (opt_size _ "tth" (plist instruction_py) (g_tth g)) as A10.
  revert A1 A2 A3 A4 A5 A6 A7 A8 A9 A10. keys. intros A1 A2 A3 A4 A5 A6 A7 A8 A9 A10. unfold gl_size.
  assert (B1 : om (fun x => size (PStr x)) (g_name g) = om (fun s => 1 + len s) (g_name g)) by (destruct (g_name g); reflexivity).
  assert (B2 : om (fun x => size (PInt x)) (g_num_masters g) <= 1) by (destruct (g_num_masters g); cbn [om size]; lia).
  assert (B3 : om (fun x => size (plist node_py x)) (g_nodes g) = nodes_of (g_num_masters g) (g_nodes g)).
  { unfold nodes_of. destruct (g_num_masters g) as [n|]; [|reflexivity]. specialize (S1 n eq_refl). now rewrite (proj2 (Z.leb_le 1 n) S1). }
  assert (B5 : om (fun x => size (hints_py x)) (g_hints g) <= om hints_size (g_hints g)).
  { destruct (g_hints g) as [h|]; cbn [om]; [|lia]. destruct (S2 h eq_refl) as (V & H). unfold hints_py, hints_size. rewrite size_dict. cbn [sumz]. unfold entry_size at 1 2. cbn [fst snd]. keys.
    pose proof (opt_size _ "hintmasks" (plist hintmask_py) (mh_masks h)) as X. revert X. keys. intros X. rewrite (rows_size _ _ _ V), (rows_size _ _ _ H). lia. }
  assert (B6 : om (fun x => size (guides_py x)) (g_guides g) <= om guides_size (g_guides g)).
  { destruct (g_guides g) as [h|]; cbn [om]; [|lia]. destruct (S3 h eq_refl) as (V & H). unfold guides_py, guides_size, pd. cbn [map fst snd]. rewrite size_dict. cbn [sumz]. unfold entry_size. cbn [fst snd]. keys.
    rewrite (rows_size _ _ _ V), (rows_size _ _ _ H). lia. }
  cbv beta in A9.
  assert (B9 : om (fun x => size x) imp <= om im_size (g_imported g) + 30).
  { destruct (g_imported g) as [i|], imp as [x|]; try contradiction; cbn [om]; [|lia]. destruct I as (l & -> & Q). now apply imported_size. }
  lia.
Qed.

(** ** The table *)
Definition in_proportion (p : ctx -> rd value) : Prop :=
  forall c b d t, small b -> run_parser (p c) b = Ok d -> stored c d -> value_py d t -> size t <= 300 * len b + 2000.
Lemma run_plain : forall A (C : A -> value) (r : rd A) b d, run_parser (plain C r) b = Ok d -> exists x, d = C x /\ run_parser r b = Ok x.
Proof.
  intros A C r b d. unfold run_parser, plain, rbind, ret. destruct (r b) as [a rest|] eqn:E; [|discriminate]. destruct rest; [|discriminate].
  intros X. inversion X; subst. eauto.
Qed.
Lemma prop_holds : forall A (C : A -> value) (r : ctx -> rd A), (forall x t, value_py (C x) t -> t = plain_py (C x)) -> (forall c, holds C (r c)) -> in_proportion (fun c => plain C (r c)).
Proof.
  intros A C r K H c b d t Hb E _ V. apply run_plain in E. destruct E as (x & -> & E). apply K in V. subst t. specialize (H c b x Hb E). lia.
Qed.
Lemma prop_fits : forall A (C : A -> value) (r : ctx -> rd A), (forall x t, value_py (C x) t -> t = plain_py (C x)) -> (forall c, fits C (r c)) -> in_proportion (fun c => plain C (r c)).
Proof. intros A C r K H. apply prop_holds; [exact K|]. intros c. apply fits_holds, H. Qed.
Lemma prop_if : forall A (P : A -> Prop) (C : A -> value) (r : rd A), (forall x t, value_py (C x) t -> t = plain_py (C x)) -> (forall c x, stored c (C x) -> P x) ->
  fits_if P C r -> in_proportion (fun c => plain C r).
Proof.
  intros A P C r K S H c b d t Hb E G V. apply run_plain in E. destruct E as (x & -> & E). apply K in V. subst t. apply S in G.
  unfold run_parser in E. destruct (r b) as [y [|z s']|] eqn:R; try discriminate. inversion E; subst.
  destruct (H b x [] Hb R) as (_ & _ & S1). cbv beta in S1. cbn [length] in S1. specialize (S1 G). lia.
Qed.
Lemma prop_guides : forall o, in_proportion (GlobalGuidesParser o).
Proof.
  intros o c b d t Hb E G V. apply run_plain in E. destruct E as (x & -> & E). cbn [value_py] in V. subst t. cbn [stored] in G.
  pose proof (fits_holds _ _ _ (f_guides o (num_masters c) G) b x Hb E). lia.
Qed.
Lemma prop_kern_pair : in_proportion MMKernPairParser.
Proof.
  intros c b d t Hb E G V. apply run_plain in E. destruct E as (x & -> & E). cbn [value_py] in V. subst t. cbn [stored] in G.
  pose proof (fits_holds _ _ _ (f_kern_pair (num_masters c) G) b x Hb E). lia.
Qed.
Lemma prop_tt_info : in_proportion TrueTypeInfoParser.
Proof. intros c b d t Hb E G V. apply run_plain in E. destruct E as (x & -> & E). cbn [value_py] in V. subst t. now apply h_tt_info. Qed.
Lemma prop_glyph : forall o, asm_linear o -> in_proportion (GlyphParser o).
Proof.
  intros o O c b d t Hb E G V. apply run_plain in E. destruct E as (x & -> & E). cbn [value_py] in V. cbn [stored] in G.
  unfold run_parser in E. destruct (parse_glyph o b) as [y [|z s']|] eqn:R; try discriminate. inversion E; subst.
  destruct (cs_glyph o O b x [] Hb R) as (_ & _ & S1). cbv beta in S1. cbn [length] in S1. pose proof (glyph_size x t G V). lia.
Qed.
Lemma prop_none : forall A (C : A -> value) (r : ctx -> rd A), (forall c x, stored c (C x) -> False) -> in_proportion (fun c => plain C (r c)).
Proof. intros A C r K c b d t Hb E G V. apply run_plain in E. destruct E as (x & -> & E). destruct (K c x G). Qed.
Ltac same := intros ? ? ?V; exact V.
Lemma rows_in_proportion : forall o, asm_linear o -> Forall (fun r => in_proportion (snd (fst (snd r)))) (parser_classes o).
Proof.
  intros o O. unfold parser_classes.
  repeat first [apply Forall_nil | apply Forall_cons; [cbn [fst snd];
    first [apply prop_guides|apply prop_kern_pair|apply prop_tt_info|apply prop_glyph; exact O
      |apply prop_none; intros ? ? F; exact F
      |eapply prop_if; [same| |apply f_anchors]; intros ? l F; cbn [stored] in F; unfold each in F; rewrite Forall_map in F; exact F
      |eapply prop_if; [same| |apply f_global_mask]; intros ? ? F; exact F
      |eapply prop_if; [same| |apply f_mask]; intros ? ? F; exact F
      |apply prop_holds; [same|intros ?]; first [apply h_doubles|apply h_int_list|apply h_unicodes|apply h_unicodes_supp|apply h_axis_mappings]
      |apply prop_fits; [same|intros ?]; first [apply f_hex|apply f_string|apply f_fl_version|apply f_encoding|apply f_int16|apply f_sint16|apply f_sint32|apply f_double|apply f_panose
        |apply f_unicode_ranges|apply f_values|apply f_counted|apply f_class_flags|apply f_mapping_mode|apply f_binary_table|apply f_cmaps|apply f_anisotropic|apply f_axis_counts
        |apply f_master_location|apply f_pclt|apply f_ps_info|apply f_ps_global|apply f_ps_glyph|apply f_export_options|apply f_links|apply f_int16_pair|apply f_mask_metrics|apply f_mask_metrics_mm
        |apply f_sketch|apply f_anchor_props|apply f_vdmx|apply f_gasp|apply f_zones|apply f_stems|apply f_ppems2345|apply f_ppems23|apply f_ppems1|apply f_deltas|apply f_instances|apply f_names
        |apply f_guide_props|apply f_gdef|apply f_font_options|apply f_lines]]|]].
Qed.
Lemma table_in_proportion : forall o i, asm_linear o -> in_proportion (parser_of o i).
Proof.
  intros o i O. unfold parser_of, row. destruct (aget Z.eqb i (parser_classes o)) as [[[k p] w]|] eqn:E.
  - apply (aget_In Z.eqb Z.eqb_eq) in E. exact (proj1 (Forall_forall _ _) (rows_in_proportion o O) _ E).
  - apply prop_fits; [same|]. intros c. apply f_hex.
Qed.
