(** Proofs about M_Glyph.v: small entries, guides, outlines, hinting commands. *)
From Coq Require Import String Permutation ZifyBool ZifyNat.
From Verif Require Import Base M_Stream M_Helpers M_Text M_Py M_Simple M_Glyph S_Stream S_Bits S_Text S_Entry S_Glyph
  Lib P_Stream P_Helpers P_Text P_Text2 P_Loop P_Simple P_Simple2 P_Simple3 P_TrueType P_TrueType2.
Local Open Scope list_scope.
Open Scope rd_scope.
Ltac Zify.zify_post_hook ::= Z.div_mod_to_equations.

(** ** indexing *)
Lemma zseq_length : forall n, length (zseq n) = Z.to_nat n.
Proof. intros. unfold zseq. rewrite map_length, seq_length. reflexivity. Qed.
Lemma py_index_nth : forall A (l : list A) i d, (i < length l)%nat -> py_index l (Z.of_nat i) = Ok (nth i l d).
Proof.
  intros A l i d H. unfold py_index.
  replace (Z.of_nat i <? 0) with false by lia. cbv iota.
  replace ((Z.of_nat i <? 0) || (Z.of_nat (length l) <=? Z.of_nat i)) with false by lia.
  rewrite Nat2Z.id. rewrite (nth_error_nth' l d H). reflexivity.
Qed.
Lemma seq_map_nth : forall A (l : list A) d, map (fun i => nth i l d) (seq 0 (length l)) = l.
Proof.
  induction l as [|x l IH]; intros d; [reflexivity|]. cbn [length seq map nth].
  rewrite <- seq_shift, map_map. f_equal. apply IH.
Qed.
(** a loop over the masters with an index is a loop over the list *)
Lemma wlist_index : forall A (l : list A) (w : A -> wr) n, Z.of_nat (length l) = n ->
  wlist (fun i => wlet (py_index l i) w) (zseq n) = wlist w l.
Proof.
  intros A l w n <-. unfold zseq. rewrite wlist_map, Nat2Z.id.
  destruct l as [|d l']; [reflexivity|]. set (l := d :: l').
  transitivity (wlist w (map (fun i => nth i l d) (seq 0 (length l)))).
  - rewrite wlist_map. apply wlist_ext. intros i Hi. apply in_seq in Hi.
    rewrite (py_index_nth _ l i d) by lia. reflexivity.
  - rewrite seq_map_nth. reflexivity.
Qed.
(** the same with two lists *)
Lemma wlist_index2 : forall A B (l : list A) (m : list B) (w : A -> wr) (v : B -> wr) n,
  Z.of_nat (length l) = n -> Z.of_nat (length m) = n ->
  wlist (fun i => wlet (py_index l i) w +++ wlet (py_index m i) v) (zseq n)
  = wlist (fun p => w (fst p) +++ v (snd p)) (combine l m).
Proof.
  intros A B l m w v n Hl Hm. assert (E : length l = length m) by lia.
  transitivity (wlist (fun i => wlet (py_index (combine l m) i) (fun p => w (fst p) +++ v (snd p))) (zseq n)).
  - apply wlist_ext. intros i Hi. unfold zseq in Hi. apply in_map_iff in Hi. destruct Hi as (k & <- & Hk).
    apply in_seq in Hk. destruct l as [|d1 l']; [cbn in *; lia|]. destruct m as [|d2 m']; [cbn in *; lia|].
    rewrite (py_index_nth _ (d1 :: l') k d1), (py_index_nth _ (d2 :: m') k d2),
      (py_index_nth _ (combine (d1 :: l') (d2 :: m')) k (d1, d2)) by (rewrite ?combine_length; lia).
    rewrite combine_nth by exact E. reflexivity.
  - apply wlist_index. rewrite combine_length. lia.
Qed.

Lemma wrt_pair : forall p, int32_pair p -> wrt (write_pair p) read_pair p.
Proof.
  intros [x y] [Hx Hy]. cbn [fst snd] in *. unfold write_pair, read_pair. cbn [fst snd].
  rd_unfold_ranges. wrt_seq.
Qed.
Lemma rps_pair : rps read_pair int32_pair.
Proof. unfold read_pair. rps_seq. apply rps_ret. split; assumption. Qed.
#[export] Hint Resolve wrt_pair : wrt.
#[export] Hint Resolve rps_pair : rps.
Lemma tot_pair : tot read_pair. Proof. unfold read_pair. tot_auto. Qed.
Lemma wrt_pairs : forall l n, n = Z.of_nat (length l) -> Forall int32_pair l ->
  wrt (wlist write_pair l) (rrange n read_pair) l.
Proof. intros l n E H. apply wrt_range_id; auto. intros x Hx. apply wrt_pair. exact (Forall_In _ _ _ _ H Hx). Qed.
Lemma wrt_values : forall l n, n = Z.of_nat (length l) -> Forall int32 l ->
  wrt (wlist write_value l) (rrange n read_value) l.
Proof. intros l n E H. apply wrt_range_id; auto. intros x Hx. apply wrt_value. exact (Forall_In _ _ _ _ H Hx). Qed.
Lemma wrt_ucount : forall A (l : list A), countable l ->
  wrt (write_uvalue (Z.of_nat (length l))) read_value (Z.of_nat (length l)).
Proof. intros A l H. apply wrt_uvalue_value. unfold countable in H. lia. Qed.
#[export] Hint Resolve wrt_ucount : wrt.
Lemma combine_split_id : forall A B (l : list A) (m : list B), length l = length m ->
  map fst (combine l m) = l /\ map snd (combine l m) = m.
Proof.
  induction l as [|x l IH]; intros [|y m] H; cbn in *; try discriminate; [auto|].
  destruct (IH m); [lia|]. split; f_equal; auto.
Qed.
Lemma Forall_combine : forall A B (P : A -> Prop) (Q : B -> Prop) l m, Forall P l -> Forall Q m ->
  Forall (fun p => P (fst p) /\ Q (snd p)) (combine l m).
Proof.
  intros A B P Q l m H. revert m. induction H as [|x l Hx Hl IH]; intros m Hm; [constructor|].
  destruct Hm as [|y m Hy Hm]; [constructor|]. cbn. constructor; auto.
Qed.

(** ** Anchors *)
Lemma wrt_anchors : forall n l, 0 <= n < 2 ^ 31 -> countable l -> Forall (wf_anchor n) l ->
  wrt (compile_anchors (Some n) l) parse_anchors l.
Proof.
  intros n l Hn Hc Hl. unfold compile_anchors, parse_anchors, with_vfb.
  eapply wrt_bind; [apply wrt_ucount, Hc|].
  eapply wrt_bind; [apply wrt_uvalue_value; lia|].
  apply wrt_range_id; [reflexivity|]. intros a Ha. destruct (Forall_In _ _ _ _ Hl Ha) as [[Lx Hx] [Ly Hy]].
  rewrite wlist_index2 by auto.
  destruct (combine_split_id _ _ (an_x a) (an_y a) ltac:(lia)) as [E1 E2].
  eapply wrt_bind_ret; [apply (wrt_pairs (combine (an_x a) (an_y a)) n)|].
  - rewrite combine_length. lia.
  - apply Forall_combine; auto.
  - intros s. rewrite E1, E2. destruct a. reflexivity.
Qed.
Lemma tot_anchors : tot parse_anchors. Proof. unfold parse_anchors. tot_auto; apply tot_pair. Qed.
(** everything the parser returns has the same number of masters in all anchors *)
Lemma rps_anchors : rps parse_anchors (fun l => countable l /\ exists n, 0 <= n < 2 ^ 31 /\ Forall (wf_anchor n) l).
Proof.
  unfold parse_anchors. eapply rps_bind; [apply rps_value|]. intros k Hk.
  eapply rps_bind; [apply rps_value|]. intros n Hn.
  eapply rps_weaken; [apply rps_range|].
  - eapply rps_bind; [apply rps_range, rps_pair|]. intros l [Ll Hl].
    apply rps_ret. instantiate (1 := wf_anchor (Z.max 0 n)).
    split; (split; [cbn; rewrite map_length; lia|]); cbn; apply Forall_map; eapply Forall_impl; try exact Hl;
      intros p [Hx Hy]; assumption.
  - cbn beta. intros l [Ll Hl]. split; [eapply range_countable; [|eassumption]; assumption|].
    exists (Z.max 0 n). split; [unfold i32 in Hn; lia|exact Hl].
Qed.

Lemma wrt_anchor_props : forall l, countable l -> Forall wf_anchor_props l ->
  wrt (compile_anchor_props l) parse_anchor_props l.
Proof.
  intros l Hc Hl. unfold compile_anchor_props, parse_anchor_props.
  eapply wrt_bind; [apply wrt_ucount, Hc|]. apply wrt_range_id; [reflexivity|].
  intros a Ha. destruct (Forall_In _ _ _ _ Hl Ha) as (h & d & -> & Hh & Hd). cbn [ap_hue ap_data or_zero].
  eapply wrt_bind; [apply wrt_uvalue_value, Hh|].
  eapply wrt_bind_ret; [apply wrt_uvalue_value, Hd|]. reflexivity.
Qed.
Lemma tot_anchor_props : tot parse_anchor_props. Proof. unfold parse_anchor_props. tot_auto. Qed.

(** ** GDEF *)
Lemma wrt_gdef_anchor : forall a, wf_gdef_anchor a ->
  wrt (compile_gdef_anchor a) parse_gdef_anchor (GdefAnchor (some_if_text (or_empty (ga_name a))) (ga_x a) (ga_y a)).
Proof.
  intros a (Hn & Hx & Hy). unfold compile_gdef_anchor, parse_gdef_anchor. rd_unfold_ranges.
  assert (i32 (-1)) by (unfold i32; lia). wrt_seq.
Qed.
Lemma or_empty_text : forall s, or_empty (some_if_text s) = s. Proof. intros []; reflexivity. Qed.
Lemma or_nil_any : forall A (l : list A), or_nil (some_if_any l) = l. Proof. intros A []; reflexivity. Qed.
Definition gdef_read (d : gdef) : gdef :=
  Gdef (if str_eqb (class_of d) (py "unassigned") then None else Some (class_of d))
    (some_if_any (map (fun a => GdefAnchor (some_if_text (or_empty (ga_name a))) (ga_x a) (ga_y a)) (or_nil (gd_anchors d))))
    (some_if_any (or_nil (gd_carets d))) (some_if_any (or_nil (gd_ot_classes d))).
Lemma gdef_class_index : forall c, In c gdef_class_names -> exists i,
  py_find c gdef_class_names 0 = Ok i /\ 0 <= i < 5 /\ py_index gdef_class_names i = Ok c.
Proof.
  intros c H. cbn [gdef_class_names In] in H.
  destruct H as [<-|[<-|[<-|[<-|[<-|[]]]]]]; eexists; (split; [vm_compute; reflexivity|]); (split; [lia|vm_compute; reflexivity]).
Qed.
Lemma class_of_in : forall d, wf_gdef d -> In (class_of d) gdef_class_names.
Proof.
  intros d (Hc & _). unfold class_of. destruct Hc as [->|[->|(c & -> & H)]].
  - left. reflexivity.
  - left. reflexivity.
  - right. exact H.
Qed.
Lemma wrt_gdef : forall d, wf_gdef d -> wrt (compile_gdef d) parse_gdef (gdef_read d).
Proof.
  intros d Hd. destruct (gdef_class_index _ (class_of_in d Hd)) as (i & E1 & Hi & E2).
  destruct Hd as (_ & Ca & Ha & Cc & Hc & Co & Ho). unfold compile_gdef, parse_gdef.
  change (match gd_class d with Some c => c | None => py "unassigned" end) with (class_of d).
  rewrite E1. cbn [wlet].
  eapply wrt_bind; [apply wrt_uvalue_value; lia|].
  eapply wrt_pre; [intros s; unfold rlift; rewrite E2; reflexivity|].
  eapply wrt_bind; [apply wrt_ucount, Ca|].
  eapply wrt_bind; [apply wrt_range; [reflexivity|]; intros a Hin; apply wrt_gdef_anchor, (Forall_In _ _ _ _ Ha Hin)|].
  eapply wrt_bind; [apply wrt_ucount, Cc|].
  eapply wrt_bind; [apply (wrt_pairs _ _ eq_refl Hc)|].
  eapply wrt_bind; [apply wrt_ucount, Co|].
  eapply wrt_bind_ret; [apply (wrt_values _ _ eq_refl Ho)|]. reflexivity.
Qed.
Lemma gdef_read_same : forall d, same_gdef d (gdef_read d).
Proof.
  intros d. unfold same_gdef, gdef_read. cbn [gd_anchors gd_carets gd_ot_classes]. rewrite !or_nil_any.
  split; [|split; [|split; reflexivity]].
  - unfold class_of at 2. cbn [gd_class]. destruct (str_eqb (class_of d) (py "unassigned")) eqn:E; [|reflexivity].
    apply str_eqb_eq in E. exact E.
  - induction (or_nil (gd_anchors d)) as [|a l IH]; cbn [map]; constructor; [|exact IH].
    unfold same_gdef_anchor. cbn [ga_name ga_x ga_y]. rewrite or_empty_text. auto.
Qed.
Lemma tot_gdef : tot parse_gdef.
Proof.
  unfold parse_gdef, parse_gdef_anchor, read_pair. tot_auto.
  apply tot_lift. unfold py_index. destruct (_ || _); [discriminate|].
  destruct (nth_error _ _); discriminate.
Qed.
Lemma rps_gdef_anchor : rps parse_gdef_anchor (fun a => wf_gdef_anchor a /\ ga_name a <> Some []).
Proof.
  unfold parse_gdef_anchor. rps_seq. apply rps_ret. split.
  - split; [cbn; rewrite or_empty_text; assumption|]. split; assumption.
  - cbn. destruct a; discriminate.
Qed.
Lemma rps_gdef : rps parse_gdef (fun d => wf_gdef d /\ gdef_read d = d).
Proof.
  unfold parse_gdef. eapply rps_bind; [apply rps_value|]. intros k Hk.
  eapply rps_bind; [apply rps_lift; intros c Ec; exact Ec|]. cbv beta. intros c Ec.
  eapply rps_bind; [apply rps_value|]. intros na Hna.
  eapply rps_bind; [apply rps_range, rps_gdef_anchor|]. intros la [La Ha].
  eapply rps_bind; [apply rps_value|]. intros nc Hnc.
  eapply rps_bind; [apply rps_range, rps_pair|]. intros lc [Lc Hc].
  eapply rps_bind; [apply rps_value|]. intros no Hno.
  eapply rps_bind; [apply rps_range, rps_value|]. intros lo [Lo Ho].
  apply rps_ret.
  assert (Hin : In c gdef_class_names).
  { unfold py_index in Ec. destruct (_ || _); [discriminate|].
    destruct (nth_error gdef_class_names _) eqn:N; [|discriminate]. inversion Ec; subst.
    eapply nth_error_In; eauto. }
  split.
  - unfold wf_gdef. cbn [gd_class gd_anchors gd_carets gd_ot_classes]. rewrite !or_nil_any.
    split; [|repeat split].
    + destruct (str_eqb c (py "unassigned")) eqn:E; [left; reflexivity|]. right. right.
      exists c. split; [reflexivity|]. destruct Hin as [<-|H]; [discriminate|exact H].
    + eapply range_countable; [|eassumption]; assumption.
    + eapply Forall_impl; [|exact Ha]. cbn. tauto.
    + eapply range_countable; [|eassumption]; assumption.
    + exact Hc.
    + eapply range_countable; [|eassumption]; assumption.
    + exact Ho.
  - unfold gdef_read, class_of. cbn [gd_class gd_anchors gd_carets gd_ot_classes]. rewrite !or_nil_any.
    assert (Ea : map (fun a => GdefAnchor (some_if_text (or_empty (ga_name a))) (ga_x a) (ga_y a)) la = la).
    { clear - Ha. induction Ha as [|a l Ha Hl IH]; [reflexivity|]. cbn [map]. rewrite IH. f_equal.
      destruct a as [[[|x n]|] x0 y0]; destruct Ha as [_ Ha]; cbn in *; try congruence; reflexivity. }
    rewrite Ea. destruct (str_eqb c (py "unassigned")) eqn:E; [reflexivity|]. rewrite E. reflexivity.
Qed.

(** ** Origin, mask metrics, sketch, unicodes, links *)
Lemma wrt_int16_pair : forall p, int16 (fst p) -> int16 (snd p) -> wrt (compile_int16_pair p) parse_int16_pair p.
Proof.
  intros [x y] Hx Hy. cbn [fst snd] in *. unfold compile_int16_pair, parse_int16_pair. rd_unfold_ranges. wrt_seq.
Qed.
Lemma tot_int16_pair : tot parse_int16_pair. Proof. unfold parse_int16_pair. tot_auto. Qed.
Lemma rps_int16_pair : rps parse_int16_pair (fun p => int16 (fst p) /\ int16 (snd p)).
Proof. unfold parse_int16_pair. rps_seq. apply rps_ret. split; assumption. Qed.
Lemma int16_pair_exact : exact_at 4 compile_int16_pair parse_int16_pair.
Proof.
  apply fix_exact. unfold parse_int16_pair. change 4%nat with (2 + (2 + 0))%nat.
  eapply rfix_bind; [apply rfix_int16|]. intros x b1 E1.
  eapply rfix_bind; [apply rfix_int16|]. intros y b2 E2.
  apply rfix_ret. unfold compile_int16_pair. cbn [fst snd]. rewrite E1, E2, app_nil_r. reflexivity.
Qed.

Definition int32_triple (t : Z * Z * Z) : Prop := int32 (fst (fst t)) /\ int32 (snd (fst t)) /\ int32 (snd t).
Lemma wrt_sketch : forall l, countable l -> Forall int32_triple l -> wrt (compile_sketch l) parse_sketch l.
Proof.
  intros l Hc Hl. unfold compile_sketch, parse_sketch.
  eapply wrt_bind; [apply wrt_uvalue; unfold u32, countable in *; lia|].
  apply wrt_range_id; [reflexivity|]. intros [[a b] c] Hx. destruct (Forall_In _ _ _ _ Hl Hx) as (Ha & Hb & Hd).
  cbn [fst snd] in *. unfold read_triple. rd_unfold_ranges. wrt_seq.
Qed.
Lemma tot_sketch : tot parse_sketch. Proof. unfold parse_sketch, read_triple. tot_auto. Qed.
Lemma wrt_links : forall d, wf_links d -> wrt (compile_links d) parse_links d.
Proof.
  intros [x y] (Cx & Hx & Cy & Hy). cbn [lk_x lk_y] in *. unfold compile_links, parse_links. cbn [lk_x lk_y].
  eapply wrt_bind; [wrt_field|]. eapply wrt_bind; [apply (wrt_pairs _ _ eq_refl Hy)|].
  eapply wrt_bind; [wrt_field|]. eapply wrt_bind_ret; [apply (wrt_pairs _ _ eq_refl Hx)|]. reflexivity.
Qed.
Lemma tot_links : tot parse_links. Proof. unfold parse_links, read_pair. tot_auto. Qed.
Lemma rps_links : rps parse_links wf_links.
Proof.
  unfold parse_links. eapply rps_bind; [apply rps_value|]. intros k Hk.
  eapply rps_bind; [apply rps_range, rps_pair|]. intros ly [Ly Hy].
  eapply rps_bind; [apply rps_value|]. intros m Hm.
  eapply rps_bind; [apply rps_range, rps_pair|]. intros lx [Lx Hx].
  apply rps_ret. unfold wf_links. cbn [lk_x lk_y]. repeat split; auto; (eapply range_countable; [|eassumption]; assumption).
Qed.
Lemma wrt_mask_metrics_mm : forall n l, Z.of_nat (length l) = n - 1 -> Forall int32_pair l ->
  wrt (compile_mask_metrics_mm l) (parse_mask_metrics_mm (Some n)) l.
Proof. intros n l E H. apply wrt_pairs; auto. Qed.
Lemma tot_mask_metrics_mm : forall o, tot (parse_mask_metrics_mm o).
Proof. intros [n|]; cbn; tot_auto. apply tot_pair. Qed.
Lemma rps_mask_metrics_mm : forall n, rps (parse_mask_metrics_mm (Some n))
  (fun l => length l = Z.to_nat (n - 1) /\ Forall int32_pair l).
Proof. intros. apply rps_range, rps_pair. Qed.

(** fixed width lists that fill the entry *)
Section Unicodes.
  Variables (k : nat) (r : rd Z) (w : Z -> wr) (P : Z -> Prop).
  Hypothesis Hk : (0 < k)%nat.
  Hypothesis Hw : forall v, P v -> wrt (w v) r v.
  Hypothesis Hl : forall v b, w v = Ok b -> length b = k.
  Hypothesis Hf : rfix k r (fun v b => w v = Ok b).
  Let parse : rd (list Z) := fun s => rrange (Z.of_nat (length s) / Z.of_nat k) r s.
  Lemma fill_length : forall l bs, wlist w l = Ok bs -> length bs = (length l * k)%nat.
  Proof.
    induction l as [|v l IH]; intros bs E; cbn [wlist] in E.
    - inversion E; reflexivity.
    - apply wseq_ok in E. destruct E as (b1 & b2 & E1 & E2 & ->). rewrite app_length, (Hl _ _ E1), (IH _ E2).
      cbn [length]. lia.
  Qed.
  Lemma fill_survives : forall l, Forall P l -> survives (wlist w) parse l.
  Proof.
    intros l H. destruct (wrt_range_id _ w r (Z.of_nat (length l)) l eq_refl) as (bs & E & O & R).
    { intros v Hv. apply Hw. exact (Forall_In _ _ _ _ H Hv). }
    exists bs. split; [exact E|]. split; [exact O|]. unfold run_parser, parse.
    rewrite (fill_length _ _ E).
    replace (Z.of_nat (length l * k) / Z.of_nat k) with (Z.of_nat (length l)) by (rewrite Nat2Z.inj_mul, Z.div_mul; lia).
    specialize (R []). rewrite app_nil_r in R. rewrite R. reflexivity.
  Qed.
  Lemma fill_exact : forall n, exact_at (n * k) (wlist w) parse.
  Proof.
    intros n data O L. unfold run_parser, parse. rewrite L.
    replace (Z.of_nat (n * k) / Z.of_nat k) with (Z.of_nat n) by (rewrite Nat2Z.inj_mul, Z.div_mul; lia).
    unfold rrange. rewrite Nat2Z.id.
    destruct (rfix_repeat _ n k r w Hf data [] L O) as (l & E & _ & C). rewrite app_nil_r in E.
    exists l. rewrite E. auto.
  Qed.
  (** a rest of fewer bytes than one item is refused *)
  Lemma fill_rest : forall n m data, bytes_ok data -> (0 < m < k)%nat -> length data = (n * k + m)%nat ->
    run_parser parse data = Err AssertionError.
  Proof.
    intros n m data O Hm L. unfold run_parser, parse. rewrite L.
    replace (Z.of_nat (n * k + m) / Z.of_nat k) with (Z.of_nat n)
      by (apply (Z.div_unique _ _ _ (Z.of_nat m)); lia).
    unfold rrange. rewrite Nat2Z.id.
    assert (L1 : length (firstn (n * k) data) = (n * k)%nat) by (rewrite firstn_length; lia).
    assert (O1 : bytes_ok (firstn (n * k) data)).
    { rewrite <- (firstn_skipn (n * k) data) in O. apply bytes_ok_app in O. tauto. }
    destruct (rfix_repeat _ n k r w Hf (firstn (n * k) data) (skipn (n * k) data) L1 O1) as (l & E & _).
    rewrite firstn_skipn in E. rewrite E.
    assert (L2 : length (skipn (n * k) data) = m) by (rewrite skipn_length; lia).
    destruct (skipn (n * k) data); [cbn in L2; lia|reflexivity].
  Qed.
End Unicodes.
Lemma to_bytes_u_length : forall n v b, to_bytes_u n v = Ok b -> length b = n.
Proof. intros n v b E. unfold to_bytes_u in E. destruct (urange n v); [|discriminate]. inversion E. apply le_enc_length. Qed.
Lemma unicodes_survives : forall l, Forall uint16 l -> survives compile_unicodes parse_unicodes l.
Proof.
  intros l H. apply (fill_survives 2 read_uint16 write_uint16 uint16); auto; try lia.
  - intros v Hv. apply wrt_uint16. exact Hv.
  - intros v b. apply to_bytes_u_length.
Qed.
Lemma unicodes_exact : forall n, exact_at (n * 2) compile_unicodes parse_unicodes.
Proof. intros n. apply (fill_exact 2 read_uint16 write_uint16 ltac:(lia) (to_bytes_u_length 2) rfix_uint16). Qed.
Lemma unicodes_supp_survives : forall l, Forall uint32 l -> survives compile_unicodes_supp parse_unicodes_supp l.
Proof.
  intros l H. apply (fill_survives 4 read_uint32 write_uint32 uint32); auto; try lia.
  - intros v Hv. apply wrt_uint32. exact Hv.
  - intros v b. apply to_bytes_u_length.
Qed.
Lemma unicodes_supp_exact : forall n, exact_at (n * 4) compile_unicodes_supp parse_unicodes_supp.
Proof. intros n. apply (fill_exact 4 read_uint32 write_uint32 ltac:(lia) (to_bytes_u_length 4) rfix_uint32). Qed.
Lemma tot_unicodes : tot parse_unicodes.
Proof. intros s Hs. unfold parse_unicodes. apply (tot_range _ _ _ tot_uint16 s Hs). Qed.
Lemma tot_unicodes_supp : tot parse_unicodes_supp.
Proof. intros s Hs. unfold parse_unicodes_supp. apply (tot_range _ _ _ tot_uint32 s Hs). Qed.
