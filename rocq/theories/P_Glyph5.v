(** Proofs about M_Glyph.v: termination, and what the glyph parser returns. *)
From Coq Require Import String Permutation ZifyBool ZifyNat.
From Verif Require Import Base M_Stream M_Helpers M_Text M_Py M_Simple M_Glyph S_Stream S_Bits S_Text S_Entry S_Glyph
  Lib P_Stream P_Helpers P_Text P_Text2 P_Loop P_Simple P_Simple2 P_Simple3 P_TrueType P_TrueType2
  P_Glyph P_Glyph2 P_Glyph3 P_Glyph4.
Local Open Scope list_scope.
Open Scope rd_scope.
Ltac Zify.zify_post_hook ::= Z.div_mod_to_equations.

(** ** Termination *)
Lemma progl_uint8 : forall St A (k : Z -> rd (St + A)), (forall v, tot (k v)) -> progl (k 0) ->
  progl (rbind read_uint8 k).
Proof.
  intros St A k Ht H0 s st s' Hs E. destruct s as [|b s].
  - apply (H0 [] st s' Hs). exact E.
  - inversion Hs; subst. unfold rbind in E. rewrite uint8_cons in E by assumption.
    pose proof (tot_length _ _ s (Ht b)) as L. rewrite E in L. cbn [rest_of length] in *. specialize (L H3). lia.
Qed.
Definition asm_total (o : oracles) : Prop := forall b, o_asm o b <> Err Diverge.
Lemma tot_binary_turn_k : forall o i, asm_total o -> forall key, tot (
  if key =? 0x28 then ret (inr i)
  else if key =? 0x29 then
    width <- read_uvalue ;; lsb <- read_value ;; u1 <- read_value ;; u2 <- read_value ;;
    u3 <- read_value ;; bbox <- rrepeat 4 read_value ;;
    ret (inl (Imported (Some (ImportedMetrics width lsb u1 u2 u3 bbox)) (im_contours i) (im_nodes i)
                       (im_instructions i) (im_hdmx i)))
  else if key =? 0x2A then
    num_contours <- read_value ;;
    endpoints <- rrange num_contours read_uvalue ;;
    num_nodes <- read_uvalue ;;
    st <- rtimes (Z.to_nat num_nodes) binary_nodes_turn ([], (0, 0)) ;;
    ret (inl (Imported (im_metrics i) (Some (num_contours, endpoints))
                (match fst st with [] => im_nodes i | l => Some l end)
                (im_instructions i) (im_hdmx i)))
  else if key =? 0x2B then
    num_bytes <- read_uvalue ;;
    instructions <- read_bytes num_bytes ;;
    l <- rlift (o_asm o instructions) ;;
    ret (inl (Imported (im_metrics i) (im_contours i) (im_nodes i) (Some l) (im_hdmx i)))
  else if key =? 0x2C then
    num <- read_value ;;
    hdmx <- rrange num read_uint8 ;;
    ret (inl (Imported (im_metrics i) (im_contours i) (im_nodes i) (im_instructions i) (Some hdmx)))
  else rraise (A := imported + imported) ValueError).
Proof.
  intros o i Ho key. tot_auto.
  - unfold binary_nodes_turn. destruct st as [nodes p]. tot_auto. apply tot_pair.
  - apply tot_lift, Ho.
Qed.
Lemma tot_binary : forall o, asm_total o -> tot (parse_binary o).
Proof.
  intros o Ho. apply tot_loop; intros i.
  - apply tot_bind; [apply tot_uint8|]. apply tot_binary_turn_k, Ho.
  - apply progl_uint8; [apply tot_binary_turn_k, Ho|]. apply progl_raise.
Qed.
Lemma tot_per_master : forall A nm (r : rd A), tot r -> tot (per_master nm r).
Proof. intros A [n|] r H; cbn; [apply tot_range; exact H|apply tot_raise; discriminate]. Qed.
Lemma tot_hints : forall nm, tot (parse_hints nm).
Proof.
  intros nm. unfold parse_hints, read_hintmask. tot_auto; try (apply tot_per_master; apply tot_pair).
  apply tot_lift. unfold aget_res. destruct (aget _ _ _); discriminate.
Qed.
Lemma tot_components : forall nm, tot (parse_components nm).
Proof.
  intros nm. unfold parse_components, parse_component. tot_auto. apply tot_per_master.
  unfold read_offset_scale. tot_auto.
Qed.
Lemma tot_kerning : forall nm, tot (parse_kerning nm).
Proof. intros nm. unfold parse_kerning, kerning_turn. tot_auto. apply tot_per_master, tot_value. Qed.
Lemma tot_glyph : forall o, asm_total o -> tot (parse_glyph o).
Proof.
  intros o Ho. unfold parse_glyph. apply tot_bind; [apply tot_read_bytes|]. intros b.
  apply tot_bind; [tot_auto|]. intros _.
  assert (K : forall g v, tot (
    let nm := g_num_masters g in
    if v =? 0x01 then name <- read_str_with_len ;; ret (inl (set_name name g))
    else if v =? 0x02 then m <- per_master nm read_pair ;; ret (inl (set_metrics m g))
    else if v =? 0x03 then h <- parse_hints nm ;; ret (inl (store_hints h g))
    else if v =? 0x04 then
      match nm, g_name g with
      | Some n, Some _ => gs <- parse_guides o n ;; ret (inl (set_guides gs g))
      | _, _ => rraise AttributeError
      end
    else if v =? 0x05 then c <- parse_components nm ;; ret (inl (set_components c g))
    else if v =? 0x06 then k <- parse_kerning nm ;; ret (inl (set_kerning k g))
    else if v =? 0x07 then ret (inl g)
    else if v =? 0x08 then ol <- parse_outlines ;; ret (inl (set_outlines (fst ol) (snd ol) g))
    else if v =? 0x09 then i <- parse_binary o ;; ret (inl (set_imported i g))
    else if v =? 0x0A then
      l <- parse_instructions ;;
      ret (inl (match l with [] => g | _ => set_tth l g end))
    else if v =? 0x0F then ret (inr g)
    else read_all ;;; rraise (A := glyph + glyph) ValueError)).
  { intros g v. cbv zeta. tot_auto;
      first [apply tot_per_master, tot_pair|apply tot_hints|apply tot_guides|apply tot_components|apply tot_kerning
            |apply tot_outlines|apply tot_binary, Ho|apply tot_instructions]. }
  apply tot_loop; intros g.
  - apply tot_bind; [apply tot_uint8|]. apply (K g).
  - apply progl_uint8; [apply (K g)|]. cbn [Z.eqb]. apply progl_bind_r; [apply tot_read_all|]. intros. apply progl_raise.
Qed.
Lemma tot_global_mask : tot parse_global_mask.
Proof. unfold parse_global_mask. apply tot_bind; [apply tot_outlines|intros; apply tot_ret]. Qed.

(** ** Counts: a reader that makes progress succeeds at most once per byte *)
Lemma times_prog : forall St (f : St -> rd St) n st s st' s', (forall st, tot (f st)) -> (forall st, prog (f st)) ->
  bytes_ok s -> rtimes n f st s = ROk st' s' -> (n + length s' <= length s)%nat.
Proof.
  intros St f n. induction n as [|n IH]; intros st s st' s' Ht Hp Hs E; cbn [rtimes] in E.
  - inversion E; subst. lia.
  - unfold rbind in E. pose proof (tot_rest_ok _ _ s (Ht st) Hs) as O. destruct (f st s) as [st1 s1|] eqn:E1; [|discriminate].
    apply Hp in E1; [|exact Hs]. apply IH in E; auto. lia.
Qed.
Lemma range_prog : forall A (r : rd A) n s l s', tot r -> prog r -> bytes_ok s -> rrange n r s = ROk l s' ->
  (Z.to_nat n + length s' <= length s)%nat.
Proof.
  intros A r n s l s' Ht Hp. unfold rrange. generalize (Z.to_nat n) as k. clear n. intros k.
  revert s l s'. induction k as [|k IH]; intros s l s' Hs E; cbn [rrepeat] in E.
  - inversion E; subst. lia.
  - unfold rbind in E. pose proof (tot_rest_ok _ _ s Ht Hs) as O. destruct (r s) as [x s1|] eqn:E1; [|discriminate].
    apply Hp in E1; [|exact Hs]. destruct (rrepeat k r s1) as [l1 s2|] eqn:E2; [|discriminate].
    apply IH in E2; auto. inversion E; subst. cbn [rest_of] in O. lia.
Qed.
Lemma rps_range_short : forall A (r : rd A) P n, tot r -> prog r -> rps r P ->
  rps (rrange n r) (fun l => countable l /\ Forall P l).
Proof.
  intros A r P n Ht Hp H s l s' Hs E. destruct (rps_range _ _ _ n H s l s' Hs E) as [[L F] S].
  split; [|exact S]. split; [|exact F]. pose proof (range_prog _ _ _ _ _ _ Ht Hp (proj1 Hs) E) as B.
  unfold countable. destruct Hs. rewrite L. lia.
Qed.
Lemma prog_pair : prog read_pair.
Proof. unfold read_pair. apply prog_bind_l; [apply prog_value|apply tot_value|]. intros. tot_auto. Qed.
Lemma rps_sketch : rps parse_sketch (fun l => countable l /\ Forall int32_triple l).
Proof.
  unfold parse_sketch. eapply rps_bind; [apply rps_uvalue|]. intros n _. apply rps_range_short.
  - unfold read_triple. tot_auto.
  - unfold read_triple. apply prog_bind_l; [apply prog_value|apply tot_value|]. intros. tot_auto.
  - unfold read_triple. rps_seq. apply rps_ret. split; [assumption|split; assumption].
Qed.

(** ** Guides *)
Definition read_slopes (o : oracles) (g : list guide_master) : Prop :=
  Forall (fun gm => int32 (gm_pos gm) /\ exists s, int32 s /\ gm_angle gm = o_angle o s) g.
Lemma rps_guides : forall o n, rps (parse_guides o n) (fun d =>
  countable (gs_h d) /\ countable (gs_v d) /\ Forall (fun l => length l = Z.to_nat n /\ read_slopes o l) (gs_h d ++ gs_v d)).
Proof.
  intros o n. unfold parse_guides.
  assert (R : rps (rrange n (read_guide_master o)) (fun l => length l = Z.to_nat n /\ read_slopes o l)).
  { apply rps_range. unfold read_guide_master. eapply rps_bind; [apply rps_value|]. intros p Hp.
    eapply rps_bind; [apply rps_value|]. intros v Hv. apply rps_ret. split; [exact Hp|]. exists v. auto. }
  eapply rps_bind; [apply rps_value|]. intros nh Hnh. eapply rps_bind; [apply rps_range, R|]. intros h [Lh Fh].
  eapply rps_bind; [apply rps_value|]. intros nv Hnv. eapply rps_bind; [apply rps_range, R|]. intros v [Lv Fv].
  apply rps_ret. cbn [gs_h gs_v]. split; [exact (range_countable _ _ _ Hnh Lh)|].
  split; [exact (range_countable _ _ _ Hnv Lv)|]. apply Forall_app. split; assumption.
Qed.

(** ** Outlines *)
Lemma small_steps_app : forall p q path, small_steps p (path ++ q) <->
  small_steps p path /\ small_steps (last path p) q.
Proof.
  intros p q path. revert p. induction path as [|x path IH]; intros p; cbn [app small_steps last].
  - tauto.
  - rewrite IH. destruct path as [|y path]; [tauto|].
    replace (last (y :: path) x) with (last (y :: path) p); [tauto|].
    clear. generalize p, x. induction path as [|z path IH] in y |- *; intros; [reflexivity|].
    change (last (z :: path) p0 = last (z :: path) x0). apply IH.
Qed.
(** after some nodes, [ref] holds the last point of every master *)
Definition outlines_inv (n : Z) (st : list mm_node * list (Z * Z)) : Prop :=
  Forall (wf_node n) (fst st) /\ Z.of_nat (length (snd st)) = n /\
  forall m, Z.of_nat m < n -> small_steps (0, 0) (master_path (fst st) m) /\
    nth m (snd st) (0, 0) = last (master_path (fst st) m) (0, 0).
Lemma rps_row : forall n ref, Z.of_nat (length ref) = n -> rps (read_row n ref) (fun row =>
  Z.of_nat (length row) = n /\ forall m, Z.of_nat m < n -> int32_pair (psub (nth m row (0, 0)) (nth m ref (0, 0)))).
Proof.
  intros n ref Hr. unfold read_row. eapply rps_bind; [apply rps_range, rps_pair|]. intros rel [L F]. apply rps_ret.
  split; [rewrite map2_length; lia|].
  assert (E : length ref = length rel) by lia. intros m Hm.
  assert (X : forall ref rel m, length ref = length rel -> (m < length ref)%nat ->
    psub (nth m (map2 padd ref rel) (0, 0)) (nth m ref (0, 0)) = nth m rel (0, 0)).
  { clear. induction ref as [|p ref IH]; intros [|q rel] m L H; cbn in *; try discriminate; try lia.
    destruct m as [|m]; [|apply IH; lia]. destruct p, q. unfold psub, padd. cbn. f_equal; lia. }
  rewrite X by lia. apply (Forall_In _ _ _ _ F), nth_In. lia.
Qed.
Lemma nth_add_row : forall pts row m, length pts = length row -> (m < length pts)%nat ->
  nth m (add_row pts row) [] = nth m pts [] ++ [nth m row (0, 0)].
Proof.
  unfold add_row. induction pts as [|p pts IH]; intros [|q row] m L H; cbn in *; try discriminate; try lia.
  destruct m; [reflexivity|]. apply IH; lia.
Qed.
Lemma add_row_shape : forall n k pts row, masters n (fun ps => length ps = k) pts -> Z.of_nat (length row) = n ->
  masters n (fun ps => length ps = S k) (add_row pts row).
Proof.
  intros n k pts row [L F] Lr. unfold add_row. split; [rewrite map2_length; lia|].
  apply Forall_map2 with (d := []) (e := (0, 0)); [lia|]. intros i Hi. rewrite app_length. cbn.
  rewrite (Forall_In _ _ _ (nth i pts []) F) by (apply nth_In; exact Hi). lia.
Qed.
Lemma last_snoc : forall A (l : list A) x d, last (l ++ [x]) d = x.
Proof. intros. rewrite last_last. reflexivity. Qed.
Lemma outlines_add : forall n acc ref nd (ref' : list (Z * Z)), outlines_inv n (acc, ref) -> wf_node n nd ->
  Z.of_nat (length ref') = n ->
  (forall m, Z.of_nat m < n -> nth m (nd_points nd) [] <> [] /\
     small_steps (nth m ref (0, 0)) (nth m (nd_points nd) []) /\
     last (nth m (nd_points nd) []) (0, 0) = nth m ref' (0, 0)) ->
  outlines_inv n (acc ++ [nd], ref').
Proof.
  intros n acc ref nd ref' (F & L & S) W L' H. cbn [fst snd] in *. split; [apply Forall_app; auto|]. split; [exact L'|].
  intros m Hm. cbn [fst snd]. destruct (S m Hm) as [S1 S2]. destruct (H m Hm) as (NE & H1 & H2).
  unfold master_path in *. rewrite flat_map_app. cbn [flat_map]. rewrite app_nil_r.
  split.
  - apply small_steps_app. split; [exact S1|]. rewrite <- S2. exact H1.
  - rewrite <- H2. set (l1 := flat_map _ acc). destruct (nth m (nd_points nd) []) as [|p q] using rev_ind; [congruence|].
    rewrite app_assoc, !last_snoc. reflexivity.
Qed.
Lemma masters_0 : forall n, 0 <= n -> masters n (fun ps : list (Z * Z) => length ps = 0%nat) (repeat [] (Z.to_nat n)).
Proof.
  intros n Hn. split; [rewrite repeat_length; lia|]. apply Forall_forall. intros x Hx. apply repeat_spec in Hx. subst. reflexivity.
Qed.
Lemma rps_outlines_turn : forall n st, 1 <= n -> outlines_inv n st -> rps (outlines_turn n st) (outlines_inv n).
Proof.
  intros n [acc ref] Hn I. unfold outlines_turn. pose proof I as (_ & Lr & _). cbn [snd] in Lr.
  eapply rps_bind; [apply rps_uint8|]. intros b Hb.
  eapply rps_bind; [apply rps_lift; intros c Ec; exact Ec|]. cbv beta. intros c Ec. cbv zeta.
  assert (HF : 0 <= Z.shiftr b 4 <= 15).
  { rewrite Z.shiftr_div_pow2 by lia. change (2 ^ 4) with 16. unfold byteZ in Hb. lia. }
  eapply rps_bind; [apply rps_row, Lr|]. intros r1 [L1 S1].
  pose proof (add_row_shape n 0 _ r1 (masters_0 n ltac:(lia)) L1) as A1.
  assert (P1 : forall m, Z.of_nat m < n -> nth m (add_row (repeat [] (Z.to_nat n)) r1) [] = [nth m r1 (0, 0)]).
  { intros m Hm. rewrite nth_add_row by (rewrite ?repeat_length; lia). rewrite nth_repeat. reflexivity. }
  assert (ONE : node_points c = 1%nat ->
     rps (ret (acc ++ [MMNode c (Z.shiftr b 4) (add_row (repeat [] (Z.to_nat n)) r1)], r1)) (outlines_inv n)).
  { intros E. apply rps_ret. eapply outlines_add; [exact I| |exact L1|].
    - split; [exact HF|]. cbn [nd_type nd_points]. rewrite E. exact A1.
    - intros m Hm. cbn [nd_points]. rewrite (P1 m Hm). destruct (S1 m Hm) as [Sx Sy].
      split; [discriminate|]. split; [|reflexivity]. cbn [small_steps psub fst snd] in *. auto. }
  destruct c; try (apply ONE; reflexivity).
  eapply rps_bind; [apply rps_row, L1|]. intros r2 [L2 S2].
  pose proof (add_row_shape n 1 _ r2 A1 L2) as A2.
  eapply rps_bind; [apply rps_row, L2|]. intros r3 [L3 S3].
  pose proof (add_row_shape n 2 _ r3 A2 L3) as A3.
  apply rps_ret. eapply outlines_add; [exact I| |exact L3|].
  - split; [exact HF|exact A3].
  - intros m Hm. cbn [nd_points]. destruct A1 as [B1 _]. destruct A2 as [B2 _].
    rewrite nth_add_row by lia. rewrite nth_add_row by lia. rewrite (P1 m Hm).
    destruct (S1 m Hm) as [Sx Sy]. destruct (S2 m Hm) as [Tx Ty]. destruct (S3 m Hm) as [Ux Uy].
    split; [discriminate|]. split; [|reflexivity]. cbn [app small_steps psub fst snd] in *. auto 10.
Qed.
Lemma rps_outlines : rps parse_outlines (fun r => 1 <= fst r -> Forall (wf_node (fst r)) (snd r) /\
  forall m, Z.of_nat m < fst r -> small_steps (0, 0) (master_path (snd r) m)).
Proof.
  unfold parse_outlines. eapply rps_bind; [apply rps_uvalue|]. intros n _.
  eapply rps_bind; [apply rps_value|]. intros _ _. eapply rps_bind; [apply rps_value|]. intros k _.
  destruct (Z_lt_le_dec n 1) as [Hn|Hn].
  - eapply rps_bind; [apply rps_true|].
    + apply tot_times. intros [segments ref]. unfold outlines_turn. tot_auto; first [apply tot_path_command|apply tot_row].
    + intros st _. apply rps_ret. cbn [fst]. lia.
  - eapply rps_bind; [apply (rps_times _ (outlines_inv n))|].
    + split; [constructor|]. cbn [fst snd]. split; [rewrite repeat_length; lia|].
      intros m Hm. rewrite nth_repeat. split; [exact I|reflexivity].
    + intros st Hst. apply rps_outlines_turn; assumption.
    + intros [nodes ref] (F & _ & S). apply rps_ret. cbn [fst snd] in *. intros _. split; [exact F|]. intros m Hm. apply (S m Hm).
Qed.

(** ** Hinting commands *)
Lemma rps_instruction : rps parse_instruction wf_instruction.
Proof.
  unfold parse_instruction. eapply rps_bind; [apply rps_uint8|]. intros k _.
  eapply rps_bind; [apply rps_lift; intros c Ec; exact Ec|]. cbv beta. intros [name params] Ec.
  eapply rps_bind; [apply rps_range, rps_value|]. intros l [L F]. apply rps_ret. cbn [fst snd] in *. rewrite Nat2Z.id in L.
  unfold aget_res in Ec. destruct (aget Z.eqb k tt_commands) as [c|] eqn:G; [|discriminate]. apply Ok_inj in Ec. subst.
  apply zget_in in G. exists params. split; [exact (tt_commands_known _ _ _ G)|]. cbn [in_params].
  destruct (combine_split_id _ _ params l (eq_sym L)) as [E1 E2]. rewrite E1. split; [apply Permutation_refl|].
  apply Forall_forall. intros [a b] Hin. apply in_combine_r in Hin. exact (Forall_In _ _ _ _ F Hin).
Qed.
Lemma rps_instructions : rps parse_instructions (Forall wf_instruction).
Proof.
  unfold parse_instructions. eapply rps_bind; [apply rps_value|]. intros _ _.
  eapply rps_bind; [apply rps_value|]. intros n _. eapply rps_bind; [apply rps_range, rps_instruction|]. intros l [_ F].
  eapply rps_bind; [apply rps_true; tot_auto|]. intros _ _. apply rps_ret. exact F.
Qed.

(** ** Other parts *)
Lemma rps_per_master : forall A nm (r : rd A) P, rps r P -> rps (per_master nm r) (Forall P).
Proof.
  intros A [n|] r P H; cbn [per_master]; [|apply rps_raise].
  eapply rps_weaken; [apply rps_range, H|]. cbn. tauto.
Qed.
Lemma rps_hints : forall nm, rps (parse_hints nm) (fun h =>
  countable (mh_h h) /\ Forall (Forall int32_pair) (mh_h h) /\ countable (mh_v h) /\ Forall (Forall int32_pair) (mh_v h) /\
  countable (or_nil (mh_masks h)) /\ Forall wf_hintmask (or_nil (mh_masks h))).
Proof.
  intros nm. unfold parse_hints.
  eapply rps_bind; [apply rps_value|]. intros nh Hnh.
  eapply rps_bind; [apply rps_range, rps_per_master, rps_pair|]. intros h [Lh Fh].
  eapply rps_bind; [apply rps_value|]. intros nv Hnv.
  eapply rps_bind; [apply rps_range, rps_per_master, rps_pair|]. intros v [Lv Fv].
  eapply rps_bind; [apply rps_value|]. intros nk Hnk.
  eapply rps_bind; [apply (rps_range _ _ wf_hintmask)|].
  - unfold read_hintmask. eapply rps_bind; [apply rps_uint8|]. intros k _. eapply rps_bind; [apply rps_value|]. intros x Hx.
    eapply rps_bind; [apply rps_lift; intros c Ec; exact Ec|]. cbv beta. intros c Ec. apply rps_ret. split; [|exact Hx].
    unfold aget_res in Ec. destruct (aget Z.eqb k replace_types) as [c'|] eqn:G; [|discriminate]. apply Ok_inj in Ec. subst.
    apply zget_in in G. cbn [fst]. cbn [replace_types In] in *.
    destruct G as [G|[G|[G|[]]]]; inversion G; subst; auto.
  - intros l [Lk Fk]. apply rps_ret. cbn [mh_h mh_v mh_masks]. rewrite or_nil_any.
    split; [exact (range_countable _ _ _ Hnh Lh)|]. split; [exact Fh|].
    split; [exact (range_countable _ _ _ Hnv Lv)|]. split; [exact Fv|].
    split; [exact (range_countable _ _ _ Hnk Lk)|]. exact Fk.
Qed.
Definition read_component (c : component) : Prop :=
  int32 (co_gid c) /\ Forall int32 (co_x c) /\ Forall int32 (co_y c) /\ Forall double (co_sx c) /\ Forall double (co_sy c) /\
  length (co_y c) = length (co_x c) /\ length (co_sx c) = length (co_x c) /\ length (co_sy c) = length (co_x c).
Lemma rps_offset_scale : rps read_offset_scale (fun t => let '(x, y, u, v) := t in int32 x /\ int32 y /\ double u /\ double v).
Proof.
  unfold read_offset_scale. eapply rps_bind; [apply rps_value|]. intros x Hx. eapply rps_bind; [apply rps_value|]. intros y Hy.
  eapply rps_bind; [apply rps_doubles; lia|]. intros l Hl. destruct l as [|u [|v [|]]]; try apply rps_raise.
  apply rps_ret. destruct Hl as [_ Hl]. inversion Hl as [|? ? Hu Hl1]; subst. inversion Hl1; subst. auto.
Qed.
Lemma rps_components : forall nm, rps (parse_components nm) (fun l => countable l /\ Forall read_component l).
Proof.
  intros nm. unfold parse_components. eapply rps_bind; [apply rps_value|]. intros n Hn.
  eapply rps_weaken; [apply (rps_range _ _ read_component)|].
  - unfold parse_component. eapply rps_bind; [apply rps_value|]. intros g Hg.
    eapply rps_bind; [apply rps_per_master, rps_offset_scale|]. intros l F. apply rps_ret.
    split; [exact Hg|]. cbn [co_x co_y co_sx co_sy]. rewrite !map_length.
    repeat split; apply Forall_map; (eapply Forall_impl; [|exact F]); intros [[[x y] u] v]; cbn; tauto.
  - intros l [L F]. split; [exact (range_countable _ _ _ Hn L)|exact F].
Qed.
Lemma rps_kerning : forall nm, rps (parse_kerning nm) (fun l => countable l /\ NoDup (map fst l) /\
  Forall (fun kv => int32 (fst kv) /\ Forall int32 (snd kv)) l).
Proof.
  intros nm. unfold parse_kerning. eapply rps_bind; [apply rps_value|]. intros n Hn.
  eapply rps_weaken; [apply (rps_times_n _ (fun k l => (length l <= k)%nat /\ NoDup (map fst l) /\
    Forall (fun kv => int32 (fst kv) /\ Forall int32 (snd kv)) l) _ _ 0%nat)|].
  - repeat constructor.
  - intros k l (L & N & F). unfold kerning_turn. eapply rps_bind; [apply rps_value|]. intros g Hg.
    eapply rps_bind; [apply rps_per_master, rps_value|]. intros vs Hvs. apply rps_ret.
    split; [|split; [apply zset_nodup, N|apply zset_Forall; [exact F|split; assumption]]].
    assert (X : forall d, (length (aset Z.eqb g vs d) <= S (length d))%nat).
    { clear. induction d as [|[k v] d IH]; cbn; [lia|]. destruct (g =? k); cbn; lia. }
    specialize (X l). lia.
  - intros l (L & N & F). split; [|split; assumption]. unfold countable, i32 in *. lia.
Qed.
Definition read_imp (i : imported) : Prop :=
  on_some wf_imported_metrics (im_metrics i) /\
  on_some (fun c => int32 (fst c) /\ Z.of_nat (length (snd c)) = Z.max 0 (fst c) /\ Forall uvalue (snd c)) (im_contours i) /\
  countable (or_nil (im_nodes i)) /\ Forall wf_binary_node (or_nil (im_nodes i)) /\
  small_steps (0, 0) (map bn_point (or_nil (im_nodes i))) /\
  countable (or_nil (im_hdmx i)) /\ Forall uint8 (or_nil (im_hdmx i)).
Lemma rps_binary_nodes : forall k, rps (rtimes k binary_nodes_turn ([], (0, 0))) (fun st =>
  countable (fst st) /\ Forall wf_binary_node (fst st) /\ small_steps (0, 0) (map bn_point (fst st))).
Proof.
  intros k.
  assert (R : rps (rtimes k binary_nodes_turn ([], (0, 0))) (fun st => length (fst st) = (k + 0)%nat /\
    Forall wf_binary_node (fst st) /\ small_steps (0, 0) (map bn_point (fst st)) /\
    snd st = last (map bn_point (fst st)) (0, 0))).
  { apply (rps_times_n _ (fun k st => length (fst st) = k /\ Forall wf_binary_node (fst st) /\
      small_steps (0, 0) (map bn_point (fst st)) /\ snd st = last (map bn_point (fst st)) (0, 0))).
    - cbn. repeat split; constructor.
    - intros j [l p] (L & F & S & E). cbn [fst snd] in *. unfold binary_nodes_turn.
      eapply rps_bind; [apply rps_pair|]. intros d [Dx Dy]. eapply rps_bind; [apply rps_uint8|]. intros f Hf. apply rps_ret.
      cbn [fst snd]. split; [rewrite app_length; cbn; lia|]. split.
      + apply Forall_app. split; [exact F|]. constructor; [|constructor]. split; [exact Hf|]. cbn [bn_on bn_flags].
        change 1 with (Z.ones 1). rewrite Z.land_ones by lia. reflexivity.
      + rewrite map_app. cbn [map bn_point]. split; [|rewrite last_snoc; reflexivity].
        apply small_steps_app. split; [exact S|]. rewrite <- E. cbn [small_steps padd fst snd].
        destruct p as [px py], d as [dx dy]. cbn [fst snd] in *.
        replace (px + dx - px) with dx by lia. replace (py + dy - py) with dy by lia. auto. }
  intros s st s' Hs E. destruct (R s st s' Hs E) as [(L & F & S & _) Sm]. split; [|exact Sm]. split; [|auto].
  apply times_prog in E.
  - unfold countable. destruct Hs. lia.
  - intros [l p]. unfold binary_nodes_turn. tot_auto. apply tot_pair.
  - intros [l p]. unfold binary_nodes_turn. apply prog_bind_l; [apply prog_pair|apply tot_pair|]. intros. tot_auto.
  - apply Hs.
Qed.
Lemma rps_binary : forall o, rps (parse_binary o) read_imp.
Proof.
  intros o. unfold parse_binary. apply (rps_loop _ _ _ read_imp).
  - repeat split; cbn; try constructor; try lia.
  - intros i (I1 & I2 & I3 & I4 & I5 & I6 & I7). unfold binary_turn.
    eapply rps_bind; [apply rps_uint8|]. intros k _.
    apply rps_if; intros _.
    { apply rps_ret. repeat split; assumption. }
    apply rps_if; intros _.
    { eapply rps_bind; [apply rps_uvalue|]. intros w Hw.
      do 4 (eapply rps_bind; [apply rps_value|]; intros).
      eapply rps_bind; [apply rps_repeat, rps_value|]. intros l [L F]. apply rps_ret.
      unfold read_imp. cbn [im_metrics im_contours im_nodes im_hdmx]. split; [|auto 10].
      cbn [on_some]. unfold wf_imported_metrics. cbn [ib_width ib_lsb ib_unknown1 ib_unknown2 ib_unknown3 ib_bbox].
      repeat split; try apply H; try apply H0; try apply H1; try apply H2; try apply Hw; assumption. }
    apply rps_if; intros _.
    { eapply rps_bind; [apply rps_value|]. intros nc Hnc.
      eapply rps_bind; [apply rps_range, rps_uvalue|]. intros ep [Le Fe].
      eapply rps_bind; [apply rps_uvalue|]. intros nn _.
      eapply rps_bind; [apply rps_binary_nodes|]. intros [nodes p] (C & F & S). apply rps_ret. cbn [fst] in *.
      unfold read_imp. cbn [im_metrics im_contours im_nodes im_hdmx]. split; [exact I1|].
      split; [split; [exact Hnc|split; [cbn [fst snd]; lia|exact Fe]]|].
      destruct nodes; cbn [or_nil]; auto 10. }
    apply rps_if; intros _.
    { eapply rps_bind; [apply rps_uvalue|]. intros. eapply rps_bind; [apply rps_read_bytes|]. intros.
      eapply rps_bind; [apply rps_lift with (P := fun _ => True); auto|]. intros. apply rps_ret. repeat split; assumption. }
    apply rps_if; intros _; [|apply rps_raise].
    eapply rps_bind; [apply rps_value|]. intros n Hn. eapply rps_bind; [apply rps_range, rps_uint8|]. intros l [L F].
    apply rps_ret. unfold read_imp. cbn [im_metrics im_contours im_nodes im_hdmx or_nil].
    repeat (split; [assumption|]). split; [exact (range_countable _ _ _ Hn L)|exact F].
Qed.

(** ** The glyph *)
Definition read_glyph (o : oracles) (g : glyph) : Prop :=
  text (or_empty (g_name g)) /\
  (forall n, g_num_masters g = Some n -> 1 <= n -> Forall (wf_node n) (or_nil (g_nodes g)) /\
     forall m, Z.of_nat m < n -> small_steps (0, 0) (master_path (or_nil (g_nodes g)) m)) /\
  Forall int32_pair (or_nil (g_metrics g)) /\
  on_some (fun h => countable (mh_h h) /\ Forall (Forall int32_pair) (mh_h h) /\ countable (mh_v h) /\
     Forall (Forall int32_pair) (mh_v h) /\ countable (or_nil (mh_masks h)) /\ Forall wf_hintmask (or_nil (mh_masks h))) (g_hints g) /\
  on_some (fun d => countable (gs_h d) /\ countable (gs_v d) /\ Forall (read_slopes o) (gs_h d ++ gs_v d)) (g_guides g) /\
  (countable (or_nil (g_components g)) /\ Forall read_component (or_nil (g_components g))) /\
  (countable (or_nil (g_kerning g)) /\ NoDup (map fst (or_nil (g_kerning g))) /\
     Forall (fun kv => int32 (fst kv) /\ Forall int32 (snd kv)) (or_nil (g_kerning g))) /\
  on_some read_imp (g_imported g) /\
  Forall wf_instruction (or_nil (g_tth g)).
Lemma rps_glyph : forall o, rps (parse_glyph o) (read_glyph o).
Proof.
  intros o. unfold parse_glyph. eapply rps_bind; [apply rps_read_bytes|]. intros b _.
  eapply rps_bind; [apply (rps_true _ _); tot_auto|]. intros _ _.
  apply (rps_loop _ _ _ (read_glyph o)).
  - unfold read_glyph. cbn. repeat split; try constructor; try lia; discriminate.
  - intros g HG. pose proof HG as (G1 & G2 & G3 & G4 & G5 & G6 & G7 & G8 & G9). unfold glyph_turn. cbv zeta.
    eapply rps_bind; [apply rps_uint8|]. intros v _.
    apply rps_if; intros _.
    { eapply rps_bind; [apply rps_str_with_len|]. intros s Hs. apply rps_ret. unfold read_glyph. cbn [set_name g_name g_num_masters g_nodes g_metrics g_hints g_guides g_components g_kerning g_imported g_tth]. split; [exact Hs|auto 10]. }
    apply rps_if; intros _.
    { eapply rps_bind; [apply rps_per_master, rps_pair|]. intros m Hm. apply rps_ret. unfold read_glyph. cbn [set_metrics g_name g_num_masters g_nodes g_metrics g_hints g_guides g_components g_kerning g_imported g_tth]. auto 12. }
    apply rps_if; intros _.
    { eapply rps_bind; [apply rps_hints|]. intros h Hh. apply rps_ret. unfold store_hints.
      assert (X : read_glyph o (set_hints h g)).
      { unfold read_glyph. cbn [set_hints g_name g_num_masters g_nodes g_metrics g_hints g_guides g_components g_kerning g_imported g_tth]. auto 12. }
      destruct (mh_v h), (mh_h h), (mh_masks h); assumption. }
    apply rps_if; intros _.
    { destruct (g_num_masters g) as [n|] eqn:En; [|apply rps_raise]. destruct (g_name g) eqn:Enm; [|apply rps_raise].
      eapply rps_bind; [apply rps_guides|]. intros d (D1 & D2 & D3). apply rps_ret. unfold read_glyph. cbn [set_guides g_name g_num_masters g_nodes g_metrics g_hints g_guides g_components g_kerning g_imported g_tth].
      rewrite Enm, En. do 4 (split; [assumption|]). split; [|auto 10]. cbn [on_some]. split; [exact D1|]. split; [exact D2|].
      eapply Forall_impl; [|exact D3]. cbn. tauto. }
    apply rps_if; intros _.
    { eapply rps_bind; [apply rps_components|]. intros c Hc. apply rps_ret. unfold read_glyph. cbn [set_components g_name g_num_masters g_nodes g_metrics g_hints g_guides g_components g_kerning g_imported g_tth]. auto 12. }
    apply rps_if; intros _.
    { eapply rps_bind; [apply rps_kerning|]. intros c Hc. apply rps_ret. unfold read_glyph. cbn [set_kerning g_name g_num_masters g_nodes g_metrics g_hints g_guides g_components g_kerning g_imported g_tth]. auto 12. }
    apply rps_if; intros _.
    { apply rps_ret. exact HG. }
    apply rps_if; intros _.
    { eapply rps_bind; [apply rps_outlines|]. intros [n nodes] Ho. apply rps_ret. unfold read_glyph. cbn [set_outlines g_name g_num_masters g_nodes g_metrics g_hints g_guides g_components g_kerning g_imported g_tth fst snd or_nil].
      split; [assumption|]. split; [|auto 10]. intros k Ek Hk. inversion Ek; subst. apply Ho. exact Hk. }
    apply rps_if; intros _.
    { eapply rps_bind; [apply rps_binary|]. intros i Hi. apply rps_ret. unfold read_glyph. cbn [set_imported g_name g_num_masters g_nodes g_metrics g_hints g_guides g_components g_kerning g_imported g_tth]. auto 12. }
    apply rps_if; intros _.
    { eapply rps_bind; [apply rps_instructions|]. intros l Hl. apply rps_ret.
      destruct l; [exact HG|]. unfold read_glyph. cbn [set_tth g_name g_num_masters g_nodes g_metrics g_hints g_guides g_components g_kerning g_imported g_tth]. auto 12. }
    apply rps_if; intros _.
    { apply rps_ret. exact HG. }
    eapply rps_bind; [apply rps_read_all|]. intros. apply rps_raise.
Qed.
Lemma Forall_and : forall A (P Q : A -> Prop) l, Forall P l -> Forall Q l -> Forall (fun x => P x /\ Q x) l.
Proof. intros A P Q l H. induction H; intros K; inversion K; subst; constructor; auto. Qed.
Lemma regular_wf : forall o v n g, read_glyph o g -> regular o v n g -> wf_glyph o v n g.
Proof.
  intros o v n g (G1 & G2 & G3 & G4 & G5 & (G6 & G6') & (G7 & G7' & G7'') & G8 & G9)
    (R1 & R2 & R3 & R4 & R5 & R6 & R7 & R8 & R9 & R10).
  destruct (G2 n R1 (proj1 R2)) as [G2a G2b].
  unfold wf_glyph. split; [exact R1|]. split; [exact R2|]. split; [exact G1|].
  split; [split; [exact G2a|split; [exact G2b|exact R3]]|].
  split. { destruct (g_metrics g) as [l|]; [|left; reflexivity]. right. right. exists l. split; [reflexivity|]. split; assumption. }
  split. { destruct (g_hints g) as [h|]; [|exact I]. destruct G4 as (A & B & C & D & E & F). destruct R5 as [Ra Rb].
    cbn [on_some]. unfold wf_hints.
    split; [exact A|]. split.
    { eapply Forall_impl; [|apply (Forall_and _ _ _ _ Ra B)]. intros l [L1 L2]. split; assumption. }
    split; [exact C|]. split; [|split; assumption].
    eapply Forall_impl; [|apply (Forall_and _ _ _ _ Rb D)]. intros l [L1 L2]. split; assumption. }
  split. { destruct (g_guides g) as [d|]; [|exact I]. cbn [on_some] in *. destruct G5 as (A & B & C). destruct R6 as (Ra & Rb & Rc).
    split; [|split; assumption].
    pose proof (Forall_and _ _ _ _ C Rc) as X. apply Forall_app in X. destruct X as [Xh Xv].
    assert (K : forall l, read_slopes o l /\ (has_masters n l /\ Forall (fun gm => exists s, o_slope o (gm_angle gm) = Ok s /\ int32 s) l) ->
       masters n (wf_guide_master o) l).
    { intros l (K1 & K2 & K3). split; [exact K2|]. eapply Forall_impl; [|apply (Forall_and _ _ _ _ K1 K3)].
      intros gm ((P & _) & S). split; assumption. }
    unfold wf_guides. split; [exact A|]. split; [eapply Forall_impl; [apply K|exact Xh]|].
    split; [exact B|]. eapply Forall_impl; [apply K|exact Xv]. }
  split; [exact G6|]. split.
  { eapply Forall_impl; [|apply (Forall_and _ _ _ _ G6' R7)]. intros c ((A & B & C & D & E & L1 & L2 & L3) & M).
    unfold has_masters in M. split; [exact A|]. split; [split; [exact M|exact B]|].
    split; [split; [lia|exact C]|]. split; [split; [lia|exact D]|]. split; [lia|exact E]. }
  split; [exact G7|]. split.
  { split; [exact G7'|]. eapply Forall_impl; [|apply (Forall_and _ _ _ _ G7'' R8)]. intros kv ((A & B) & M). split; [exact A|]. split; assumption. }
  split.
  { destruct (g_imported g) as [i|]; [|exact I]. cbn [on_some] in *. destruct G8 as (I1 & I2 & I3 & I4 & I5 & I6 & I7).
    destruct R9 as (Ra & Rb & Rc). unfold wf_imported.
    destruct (im_metrics i) as [m|]; [|congruence]. destruct (im_contours i) as [[nc ep]|]; [|congruence].
    cbn [on_some fst snd] in I1, I2.
    split; [exists m; auto|]. split; [exists nc, ep; tauto|]. auto 10. }
  split; assumption.
Qed.
