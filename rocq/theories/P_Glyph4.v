(** Proofs about M_Glyph.v: the glyph entry. *)
From Coq Require Import String Permutation ZifyBool ZifyNat.
From Verif Require Import Base M_Stream M_Helpers M_Text M_Py M_Simple M_Glyph S_Stream S_Bits S_Text S_Entry S_Glyph
  Lib P_Stream P_Helpers P_Text P_Text2 P_Loop P_Simple P_Simple2 P_Simple3 P_TrueType P_TrueType2
  P_Glyph P_Glyph2 P_Glyph3.
Local Open Scope list_scope.
Open Scope rd_scope.
Ltac Zify.zify_post_hook ::= Z.div_mod_to_equations.

(** ** Sections of a loop: what is written takes the loop from one state to another *)
Definition wrs {St A} (w : wr) (body : St -> rd (St + A)) (st st' : St) : Prop :=
  exists bs, w = Ok bs /\ bytes_ok bs /\ forall fuel rest, (length bs <= fuel)%nat ->
    exists fuel', (fuel - length bs <= fuel')%nat /\
      rwhile fuel body st (bs ++ rest) = rwhile fuel' body st' rest.
Lemma wrs_nil : forall St A (body : St -> rd (St + A)) st, wrs wnil body st st.
Proof.
  intros. exists []. split; [reflexivity|]. split; [constructor|]. intros fuel rest _. exists fuel.
  split; [cbn; lia|reflexivity].
Qed.
Lemma wrs_step : forall St A (body : St -> rd (St + A)) w st st', wne w ->
  wrt w (body st) (inl st') -> wrs w body st st'.
Proof.
  intros St A body w st st' Hne (bs & E & O & R). exists bs. split; [exact E|]. split; [exact O|].
  intros fuel rest Hf. specialize (Hne bs E). destruct bs as [|b bs]; [tauto|]. cbn [length] in *.
  destruct fuel as [|fuel]; [lia|]. exists fuel. split; [lia|].
  apply rwhile_step. apply R.
Qed.
Lemma wrs_seq : forall St A (body : St -> rd (St + A)) w1 w2 st st1 st2,
  wrs w1 body st st1 -> wrs w2 body st1 st2 -> wrs (w1 +++ w2) body st st2.
Proof.
  intros St A body w1 w2 st st1 st2 (b1 & E1 & O1 & R1) (b2 & E2 & O2 & R2). exists (b1 ++ b2).
  rewrite E1, E2. split; [reflexivity|]. split; [apply bytes_ok_app; auto|]. intros fuel rest Hf.
  rewrite app_length in *. rewrite <- app_assoc.
  destruct (R1 fuel (b2 ++ rest)) as (f1 & L1 & X1); [lia|].
  destruct (R2 f1 rest) as (f2 & L2 & X2); [lia|]. exists f2. split; [lia|]. rewrite X1. exact X2.
Qed.
Lemma wrs_end : forall St A (body : St -> rd (St + A)) w we st st' a,
  wrs w body st st' -> wrt we (body st') (inr a) -> wrt (w +++ we) (rloop body st) a.
Proof.
  intros St A body w we st st' a (b1 & E1 & O1 & R1) (b2 & E2 & O2 & R2). exists (b1 ++ b2).
  rewrite E1, E2. split; [reflexivity|]. split; [apply bytes_ok_app; auto|]. intros rest.
  unfold rloop. rewrite <- app_assoc.
  destruct (R1 (S (length (b1 ++ b2 ++ rest))) (b2 ++ rest)) as (f1 & L1 & X1); [rewrite app_length; lia|].
  rewrite X1. rewrite app_length in L1. destruct f1 as [|f1]; [lia|]. cbn [rwhile]. unfold rbind. rewrite R2. reflexivity.
Qed.

(** ** Sections *)
Lemma name_section : forall o g, text (or_empty (g_name g)) ->
  wrs (compile_glyph_name g) (glyph_turn o) empty_glyph_data
    (match or_empty (g_name g) with [] => empty_glyph_data | s => set_name s empty_glyph_data end).
Proof.
  intros o g H. unfold compile_glyph_name. destruct (g_name g) as [[|c s]|]; cbn [or_empty] in *; try apply wrs_nil.
  pose proof (wrt_str_text _ H) as W. unfold write_str_with_len in W.
  destruct (cp1252_encode (c :: s)) as [b|] eqn:E; [|destruct W as (? & ? & _); discriminate]. cbn [wlet].
  apply wrs_step; [apply wne_l, wne_uint8|]. unfold glyph_turn.
  eapply wrt_bind; [apply wrt_uint8; unfold byteZ; lia|]. cbn [Z.eqb Pos.eqb].
  eapply wrt_bind_ret; [exact W|]. reflexivity.
Qed.
Lemma outlines_section : forall o n nodes st, master_count n -> wf_nodes n (or_nil nodes) ->
  wrs (write_uint8 8 +++ compile_outlines n nodes) (glyph_turn o) st (set_outlines n (or_nil nodes) st).
Proof.
  intros o n nodes st Hn Hw. apply wrs_step; [apply wne_l, wne_uint8|]. unfold glyph_turn.
  eapply wrt_bind; [apply wrt_uint8; unfold byteZ; lia|]. cbn [Z.eqb Pos.eqb].
  eapply wrt_bind_ret; [apply wrt_outlines; assumption|]. reflexivity.
Qed.
Lemma metrics_section : forall o n g st, master_count n -> g_num_masters st = Some n ->
  (g_metrics g = None \/ g_metrics g = Some [] \/ exists l, g_metrics g = Some l /\ masters n int32_pair l) ->
  wrs (compile_metrics n g) (glyph_turn o) st (match or_nil (g_metrics g) with [] => st | m => set_metrics m st end).
Proof.
  intros o n g st Hn Hm H. unfold compile_metrics.
  destruct H as [->|[->|(l & -> & [L F])]]; try apply wrs_nil. unfold master_count in Hn.
  destruct l as [|p l]; [cbn in L; lia|]. cbn [or_nil].
  apply wrs_step; [apply wne_l, wne_uint8|]. unfold glyph_turn.
  eapply wrt_bind; [apply wrt_uint8; unfold byteZ; lia|]. cbn [Z.eqb Pos.eqb]. rewrite Hm. cbn [per_master].
  rewrite wlist_index by exact L.
  eapply wrt_bind_ret; [apply wrt_pairs; [symmetry; exact L|exact F]|]. reflexivity.
Qed.
Lemma wrt_hint_dir : forall B n l (k : list (list (Z * Z)) -> rd B) w b,
  countable l -> Forall (masters n int32_pair) l -> wrt w (k l) b ->
  wrt (compile_hint_dir n l +++ w) (nh <- read_value ;; h <- rrange nh (per_master (Some n) read_pair) ;; k h) b.
Proof.
  intros B n l k w b C F W. unfold compile_hint_dir. rewrite wseq_assoc.
  eapply wrt_bind; [wrt_field|]. eapply wrt_bind; [|exact W].
  apply wrt_range_id; [reflexivity|]. intros h Hh. destruct (Forall_In _ _ _ _ F Hh) as [L Fh].
  rewrite wlist_index by exact L. apply wrt_pairs; [symmetry; exact L|exact Fh].
Qed.
Lemma wrt_hintmask : forall kv, wf_hintmask kv -> wrt (compile_hintmask kv) read_hintmask kv.
Proof.
  intros [k v] [Hk Hv]. cbn [fst snd] in *. unfold compile_hintmask, read_hintmask. cbn [fst snd].
  assert (X : exists c, aget_res str_eqb k hintmask_keys = Ok c /\ 0 <= c < 256 /\ aget_res Z.eqb c replace_types = Ok k).
  { destruct Hk as [<-|[<-|[<-|[]]]]; eexists; (split; [vm_compute; reflexivity|]); (split; [lia|vm_compute; reflexivity]). }
  destruct X as (c & E1 & B & E2). rewrite E1. cbn [wlet].
  eapply wrt_bind; [apply wrt_uint8; exact B|]. eapply wrt_bind_ret; [apply wrt_value, Hv|].
  intros s. unfold rbind, rlift. rewrite E2. reflexivity.
Qed.
Definition read_hints (h : mm_hints) : mm_hints := MMHints (mh_h h) (mh_v h) (some_if_any (or_nil (mh_masks h))).
Lemma hints_section : forall o n g st, g_num_masters st = Some n -> on_some (wf_hints n) (g_hints g) ->
  wrs (compile_hints n g) (glyph_turn o) st (match g_hints g with None => st | Some h => store_hints (read_hints h) st end).
Proof.
  intros o n g st Hm H. unfold compile_hints. destruct (g_hints g) as [h|]; [|apply wrs_nil].
  destruct H as (Ch & Fh & Cv & Fv & Cm & Fm).
  apply wrs_step; [apply wne_l, wne_uint8|]. unfold glyph_turn.
  eapply wrt_bind; [apply wrt_uint8; unfold byteZ; lia|]. cbn [Z.eqb Pos.eqb]. rewrite Hm.
  eapply wrt_bind_ret with (a := read_hints h); [|reflexivity]. unfold parse_hints.
  apply wrt_hint_dir; [exact Ch|exact Fh|]. apply wrt_hint_dir; [exact Cv|exact Fv|].
  eapply wrt_bind; [wrt_field|].
  eapply wrt_bind_ret; [apply wrt_range_id; [reflexivity|]; intros kv Hkv; apply wrt_hintmask, (Forall_In _ _ _ _ Fm Hkv)|].
  reflexivity.
Qed.
Lemma guides_section : forall o v n g st, g_num_masters st = Some n ->
  (g_guides g <> None -> v = Some n /\ g_name st <> None) -> on_some (wf_guides o n) (g_guides g) ->
  wrs (compile_glyph_guides o v g) (glyph_turn o) st
    (match g_guides g with None => st | Some d => set_guides (stored_guides o d) st end).
Proof.
  intros o v n g st Hm Hv H. unfold compile_glyph_guides. destruct (g_guides g) as [d|]; [|apply wrs_nil].
  destruct Hv as [-> Hnm]; [discriminate|]. cbn [on_some] in H.
  apply wrs_step; [apply wne_l, wne_uint8|]. unfold glyph_turn.
  eapply wrt_bind; [apply wrt_uint8; unfold byteZ; lia|]. cbn [Z.eqb Pos.eqb]. rewrite Hm.
  destruct (g_name st) as [nm|]; [|congruence].
  eapply wrt_bind_ret; [apply wrt_guides; exact H|]. reflexivity.
Qed.
(** a loop over an index of several lists is a loop over one list *)
Lemma wlist_zseq : forall A (F : Z -> wr) (G : A -> wr) (l : list A) d n, Z.of_nat (length l) = n ->
  (forall k, (k < length l)%nat -> F (Z.of_nat k) = G (nth k l d)) -> wlist F (zseq n) = wlist G l.
Proof.
  intros A F G l d n <- H. unfold zseq. rewrite wlist_map, Nat2Z.id.
  transitivity (wlist G (map (fun i => nth i l d) (seq 0 (length l)))); [|rewrite seq_map_nth; reflexivity].
  rewrite wlist_map. apply wlist_ext. intros i Hi. apply in_seq in Hi. apply H. lia.
Qed.
Definition quads (c : component) : list (Z * Z * Z * Z) :=
  combine (combine (combine (co_x c) (co_y c)) (co_sx c)) (co_sy c).
Lemma wrt_component : forall n c, wf_component n c -> wrt (compile_component n c) (parse_component (Some n)) c.
Proof.
  intros n c (Hg & [Lx Fx] & [Ly Fy] & [Lu Fu] & [Lv Fv]). unfold compile_component, parse_component. cbn [per_master].
  eapply wrt_bind; [apply wrt_value, Hg|].
  assert (LQ : length (quads c) = length (co_x c)) by (unfold quads; rewrite !combine_length; lia).
  rewrite (wlist_zseq _ _ (fun t => write_value (fst (fst (fst t))) +++ write_value (snd (fst (fst t))) +++
     write_double (snd (fst t)) +++ write_double (snd t)) (quads c) (0, 0, 0, 0)).
  2: lia.
  2:{ intros k Hk. rewrite (py_index_nth _ (co_x c) k 0), (py_index_nth _ (co_y c) k 0),
      (py_index_nth _ (co_sx c) k 0), (py_index_nth _ (co_sy c) k 0) by lia. cbn [wlet].
      unfold quads. rewrite !combine_nth by (rewrite ?combine_length; lia). reflexivity. }
  eapply wrt_bind_ret.
  - apply (wrt_range_id _ _ read_offset_scale _ (quads c)); [lia|]. intros [[[x y] u] v] Hin.
    unfold quads in Hin. apply in_combine_l in Hin as H1. apply in_combine_r in Hin as H4.
    apply in_combine_l in H1 as H2. apply in_combine_r in H1 as H3.
    apply in_combine_l in H2 as H5. apply in_combine_r in H2 as H6. cbn [fst snd].
    unfold read_offset_scale.
    eapply wrt_bind; [apply wrt_value, (Forall_In _ _ _ _ Fx H5)|].
    eapply wrt_bind; [apply wrt_value, (Forall_In _ _ _ _ Fy H6)|].
    eapply wrt_bind_ret with (a := [u; v]); [|reflexivity].
    pose proof (wrt_doubles [u; v] 2) as D. unfold write_doubles in D. cbn [wlist] in D. rewrite wseq_nil_r in D.
    apply D; [|reflexivity]. constructor; [exact (Forall_In _ _ _ _ Fu H3)|].
    constructor; [exact (Forall_In _ _ _ _ Fv H4)|constructor].
  - intros s. unfold ret. f_equal. destruct c as [gid x y u v]. cbn [co_gid co_x co_y co_sx co_sy] in *. unfold quads. cbn [co_x co_y co_sx co_sy].
    set (q := combine (combine (combine x y) u) v).
    destruct (combine_split_id _ _ x y ltac:(lia)) as [E1 E2].
    destruct (combine_split_id _ _ (combine x y) u ltac:(rewrite combine_length; lia)) as [E3 E4].
    destruct (combine_split_id _ _ (combine (combine x y) u) v ltac:(rewrite !combine_length; lia)) as [E5 E6].
    fold q in E5, E6.
    f_equal.
    + clearbody q. rewrite <- E1. rewrite <- E3, <- E5, !map_map. reflexivity.
    + clearbody q. rewrite <- E2. rewrite <- E3, <- E5, !map_map. reflexivity.
    + clearbody q. rewrite <- E4. rewrite <- E5, !map_map. reflexivity.
    + exact E6.
Qed.
Lemma components_section : forall o n g st, g_num_masters st = Some n ->
  countable (or_nil (g_components g)) -> Forall (wf_component n) (or_nil (g_components g)) ->
  wrs (compile_components n g) (glyph_turn o) st
    (match or_nil (g_components g) with [] => st | l => set_components l st end).
Proof.
  intros o n g st Hm C F. unfold compile_components. destruct (g_components g) as [[|c l]|]; cbn [or_nil] in *; try apply wrs_nil.
  apply wrs_step; [apply wne_l, wne_uint8|]. unfold glyph_turn.
  eapply wrt_bind; [apply wrt_uint8; unfold byteZ; lia|]. cbn [Z.eqb Pos.eqb]. rewrite Hm.
  unfold parse_components. eapply wrt_bind_ret with (a := c :: l); [|reflexivity].
  eapply wrt_bind; [wrt_field|]. apply wrt_range_id; [reflexivity|].
  intros x Hx. apply wrt_component, (Forall_In _ _ _ _ F Hx).
Qed.
Lemma zaset_fresh : forall V k (v : V) d, ~ In k (map fst d) -> aset Z.eqb k v d = d ++ [(k, v)].
Proof.
  induction d as [|[k' v'] d IH]; intros H; [reflexivity|]. cbn in *. destruct (k =? k') eqn:E; [lia|].
  rewrite IH by tauto. reflexivity.
Qed.
Lemma zfold_aset : forall V (l2 l1 : list (Z * V)), NoDup (map fst (l1 ++ l2)) ->
  fold_left (fun d p => aset Z.eqb (fst p) (snd p) d) l2 l1 = l1 ++ l2.
Proof.
  intros V. induction l2 as [|[k v] l2 IH]; intros l1 H; cbn; [rewrite app_nil_r; reflexivity|].
  rewrite zaset_fresh.
  - rewrite IH by (rewrite <- app_assoc; exact H). rewrite <- app_assoc. reflexivity.
  - rewrite map_app in H. cbn in H. apply NoDup_remove_2 in H. intros X. apply H, in_or_app. auto.
Qed.
Lemma kerning_section : forall o n g st, g_num_masters st = Some n ->
  countable (or_nil (g_kerning g)) -> wf_kerning n (or_nil (g_kerning g)) ->
  wrs (compile_kerning g) (glyph_turn o) st
    (match or_nil (g_kerning g) with [] => st | l => set_kerning l st end).
Proof.
  intros o n g st Hm C [N F]. unfold compile_kerning. destruct (g_kerning g) as [[|c l]|]; cbn [or_nil] in *; try apply wrs_nil.
  apply wrs_step; [apply wne_l, wne_uint8|]. unfold glyph_turn.
  eapply wrt_bind; [apply wrt_uint8; unfold byteZ; lia|]. cbn [Z.eqb Pos.eqb]. rewrite Hm.
  unfold parse_kerning. eapply wrt_bind_ret with (a := c :: l); [|reflexivity].
  eapply wrt_bind; [wrt_field|]. rewrite Nat2Z.id.
  set (kl := c :: l) in *.
  assert (E : kl = fold_left (fun d p => aset Z.eqb (fst p) (snd p) d) kl []) by (rewrite zfold_aset by exact N; reflexivity).
  rewrite E at 3. apply wrt_times. intros l1 [k v] l2 El. rewrite fold_left_app. cbn [fold_left fst snd].
  assert (Hin : In (k, v) kl) by (rewrite El; apply in_or_app; right; left; reflexivity).
  destruct (Forall_In _ _ _ _ F Hin) as [Hk [L Fv]]. cbn [fst snd] in *.
  unfold kerning_turn. cbn [per_master].
  eapply wrt_bind; [apply wrt_value, Hk|].
  eapply wrt_bind_ret; [apply wrt_values; [symmetry; exact L|exact Fv]|]. reflexivity.
Qed.
Lemma tth_section : forall o g st, Forall wf_instruction (or_nil (g_tth g)) -> Z.of_nat (length (or_nil (g_tth g))) < 2 ^ 26 ->
  exists l', Forall2 same_instruction (or_nil (g_tth g)) l' /\
  wrs (compile_tth g) (glyph_turn o) st (match l' with [] => st | _ => set_tth l' st end).
Proof.
  intros o g st F L. unfold compile_tth. destruct (g_tth g) as [[|i l]|]; cbn [or_nil] in *;
    try (exists []; split; [constructor|apply wrs_nil]).
  destruct (wrt_instructions _ F L) as (l' & R & W). exists l'. split; [exact R|].
  apply wrs_step; [apply wne_l, wne_uint8|]. unfold glyph_turn.
  eapply wrt_bind; [apply wrt_uint8; unfold byteZ; lia|]. cbn [Z.eqb Pos.eqb].
  eapply wrt_bind_ret; [exact W|]. intros s. unfold ret. destruct l'; reflexivity.
Qed.

(** ** The imported part *)
Lemma wrt_binary_nodes : forall l p acc, Forall wf_binary_node l -> small_steps p (map bn_point l) ->
  exists p', wrt (write_binary_nodes p l) (rtimes (length l) binary_nodes_turn (acc, p)) (acc ++ l, p').
Proof.
  induction l as [|b l IH]; intros p acc F S.
  - exists p. cbn [write_binary_nodes length rtimes]. rewrite app_nil_r. apply wrt_ret.
  - inversion F as [|? ? [Hb Ho] Fl]; subst. cbn [map small_steps] in S. destruct S as (Sx & Sy & Sl).
    destruct (IH (bn_point b) (acc ++ [b]) Fl Sl) as (p' & W). exists p'.
    cbn [write_binary_nodes length rtimes]. rewrite <- wseq_assoc.
    eapply wrt_bind; [|rewrite <- app_assoc in W; exact W].
    unfold binary_nodes_turn.
    eapply wrt_bind; [apply wrt_pair; split; assumption|].
    eapply wrt_bind_ret; [apply wrt_uint8; exact Hb|].
    assert (E : padd p (psub (bn_point b) p) = bn_point b).
    { destruct p, (bn_point b). unfold padd, psub. cbn. f_equal; lia. }
    cbv zeta. rewrite E. replace (Z.land (bn_flags b) 1) with (bn_on b).
    + destruct b. reflexivity.
    + rewrite Ho. change 1 with (Z.ones 1). rewrite Z.land_ones by lia. reflexivity.
Qed.
Definition read_imported (i : imported) : imported :=
  Imported (im_metrics i) (im_contours i)
    (match or_nil (im_nodes i) with [] => None | l => Some l end)
    (Some (or_nil (im_instructions i))) (Some (or_nil (im_hdmx i))).
Lemma wrt_imported : forall o i, wf_imported o i ->
  exists w, compile_imported o i = write_uint8 9 +++ w /\ wrt w (parse_binary o) (read_imported i).
Proof.
  intros o i ((m & Em & Wm) & (nc & ep & Ec & Hnc & Lep & Fep) & Cn & Fn & Sn & Hp & Ch & Fh).
  unfold compile_imported. rewrite Em, Ec.
  set (wp := match or_nil (im_instructions i) with [] => write_uvalue 0 | l => _ end).
  eexists. split; [reflexivity|].
  set (i1 := Imported (Some m) None None None None).
  set (i2 := Imported (Some m) (Some (nc, ep)) (match or_nil (im_nodes i) with [] => None | l => Some l end) None None).
  set (i3 := Imported (Some m) (Some (nc, ep)) (match or_nil (im_nodes i) with [] => None | l => Some l end)
               (Some (or_nil (im_instructions i))) None).
  assert (S1 : wrs (write_uint8 0x29 +++ write_uvalue (ib_width m) +++ write_value (ib_lsb m) +++ write_value (ib_unknown1 m) +++
      write_value (ib_unknown2 m) +++ write_value (ib_unknown3 m) +++ wlist write_value (ib_bbox m))
      (binary_turn o) empty_imported i1).
  { destruct Wm as (W1 & W2 & W3 & W4 & W5 & W6 & W7).
    apply wrs_step; [apply wne_l, wne_uint8|]. unfold binary_turn.
    eapply wrt_bind; [apply wrt_uint8; unfold byteZ; lia|]. cbn [Z.eqb Pos.eqb].
    eapply wrt_bind; [apply wrt_uvalue; exact W1|].
    do 4 (eapply wrt_bind; [apply wrt_value; assumption|]).
    eapply wrt_bind_ret; [apply (wrt_values (ib_bbox m) 4); [lia|exact W7]|]. destruct m. reflexivity. }
  assert (S2 : wrs (write_uint8 0x2A +++ (write_value nc +++ wlist write_uvalue ep) +++
      write_uvalue (Z.of_nat (length (or_nil (im_nodes i)))) +++ write_binary_nodes (0, 0) (or_nil (im_nodes i)))
      (binary_turn o) i1 i2).
  { apply wrs_step; [apply wne_l, wne_uint8|]. unfold binary_turn.
    eapply wrt_bind; [apply wrt_uint8; unfold byteZ; lia|]. cbn [Z.eqb Pos.eqb]. rewrite wseq_assoc.
    eapply wrt_bind; [apply wrt_value; exact Hnc|].
    eapply wrt_bind.
    { replace (rrange nc read_uvalue) with (rrange (Z.of_nat (length ep)) read_uvalue)
        by (unfold rrange; f_equal; lia).
      apply wrt_range_id; [reflexivity|]. intros x Hx. apply wrt_uvalue. exact (Forall_In _ _ _ _ Fep Hx). }
    eapply wrt_bind; [apply wrt_uvalue; unfold u32, countable in *; lia|]. rewrite Nat2Z.id.
    destruct (wrt_binary_nodes (or_nil (im_nodes i)) (0, 0) [] Fn Sn) as (p' & W).
    eapply wrt_bind_ret; [exact W|]. intros s. cbn [app fst i1 im_metrics im_contours im_nodes im_instructions im_hdmx]. reflexivity. }
  assert (S3 : wrs (write_uint8 0x2B +++ wp) (binary_turn o) i2 i3).
  { apply wrs_step; [apply wne_l, wne_uint8|]. unfold binary_turn.
    eapply wrt_bind; [apply wrt_uint8; unfold byteZ; lia|]. cbn [Z.eqb Pos.eqb]. subst wp i3.
    unfold wf_program in Hp. destruct (or_nil (im_instructions i)) as [|c p].
    - eapply wrt_bind_ret; [apply wrt_uvalue; unfold u32; lia|]. intros s. unfold rbind, read_bytes.
      change (take 0 s) with (@nil Z). change (drop 0 s) with s. unfold rlift. rewrite Hp. reflexivity.
    - destruct Hp as (bc & E1 & O & C & E2). rewrite E1. cbn [wlet].
      eapply wrt_bind; [apply wrt_uvalue; unfold u32, countable in *; lia|].
      eapply wrt_bind_ret with (a := bc).
      + exists bc. split; [reflexivity|]. split; [exact O|]. intros rest. unfold read_bytes.
        rewrite take_app_exact, drop_app_exact by lia. reflexivity.
      + intros s. unfold rbind, rlift. rewrite E2. reflexivity. }
  assert (S4 : wrs (write_uint8 0x2C +++ write_uvalue (Z.of_nat (length (or_nil (im_hdmx i)))) +++ wlist write_uint8 (or_nil (im_hdmx i)))
      (binary_turn o) i3 (read_imported i)).
  { apply wrs_step; [apply wne_l, wne_uint8|]. unfold binary_turn.
    eapply wrt_bind; [apply wrt_uint8; unfold byteZ; lia|]. cbn [Z.eqb Pos.eqb].
    eapply wrt_bind; [apply wrt_ucount, Ch|].
    eapply wrt_bind_ret; [apply wrt_range_id; [reflexivity|]; intros x Hx; apply wrt_uint8, (Forall_In _ _ _ _ Fh Hx)|].
    intros s. unfold read_imported. rewrite Em, Ec. reflexivity. }
  pose proof (wrs_end _ _ _ _ (write_uint8 0x28) _ _ (read_imported i)
    (wrs_seq _ _ _ _ _ _ _ _ S1 (wrs_seq _ _ _ _ _ _ _ _ S2 (wrs_seq _ _ _ _ _ _ _ _ S3 S4)))) as W.
  rewrite !wseq_assoc in W. rewrite !wseq_assoc. apply W.
  unfold binary_turn. eapply wrt_bind_ret; [apply wrt_uint8; unfold byteZ; lia|]. reflexivity.
Qed.
Lemma binary_section : forall o g st, on_some (wf_imported o) (g_imported g) ->
  wrs (compile_binary o g) (glyph_turn o) st
    (match g_imported g with None => st | Some i => set_imported (read_imported i) st end).
Proof.
  intros o g st H. unfold compile_binary. destruct (g_imported g) as [i|]; [|apply wrs_nil]. cbn [on_some] in H.
  destruct (wrt_imported o i H) as (w & E & W).
  replace (match i with Imported None None None None None => wnil | _ => compile_imported o i end) with (compile_imported o i).
  2:{ destruct H as ((m & Em & _) & _). destruct i as [[m'|] ? ? ? ?]; [reflexivity|discriminate]. }
  rewrite E. apply wrs_step; [apply wne_l, wne_uint8|]. unfold glyph_turn.
  eapply wrt_bind; [apply wrt_uint8; unfold byteZ; lia|]. cbn [Z.eqb Pos.eqb].
  eapply wrt_bind_ret; [exact W|]. reflexivity.
Qed.

(** ** The glyph *)
Lemma glyph_sections : forall o v n g, wf_glyph o v n g ->
  exists g' w, same_glyph (with_stored_angles o g) g' /\
    compile_glyph o v g = write_bytes [1; 9; 7; 1] +++ w +++ write_uint8 15 /\
    wrs w (glyph_turn o) empty_glyph_data g'.
Proof.
  intros o v n g (Hm & Hn & Ht & Hno & Hme & Hh & Hg & Cc & Fc & Ck & Fk & Hi & Ftt & Ltt).
  unfold compile_glyph. rewrite Hm.
  set (g1 := match or_empty (g_name g) with [] => empty_glyph_data | s => set_name s empty_glyph_data end).
  set (g2 := set_outlines n (or_nil (g_nodes g)) g1).
  set (g3 := match or_nil (g_metrics g) with [] => g2 | m => set_metrics m g2 end).
  set (g4 := match g_hints g with None => g3 | Some h => store_hints (read_hints h) g3 end).
  set (g5 := match g_guides g with None => g4 | Some d => set_guides (stored_guides o d) g4 end).
  set (g6 := match or_nil (g_components g) with [] => g5 | l => set_components l g5 end).
  set (g7 := match or_nil (g_kerning g) with [] => g6 | l => set_kerning l g6 end).
  set (g8 := match g_imported g with None => g7 | Some i => set_imported (read_imported i) g7 end).
  assert (M2 : g_num_masters g2 = Some n) by reflexivity.
  assert (M3 : g_num_masters g3 = Some n) by (unfold g3; destruct (or_nil (g_metrics g)); [exact M2|exact M2]).
  assert (SH : forall h s, g_num_masters (store_hints h s) = g_num_masters s /\ g_name (store_hints h s) = g_name s).
  { intros h s. unfold store_hints. destruct (mh_v h), (mh_h h), (mh_masks h); split; reflexivity. }
  assert (M4 : g_num_masters g4 = Some n) by (unfold g4; destruct (g_hints g); [rewrite (proj1 (SH _ _))|]; exact M3).
  assert (M5 : g_num_masters g5 = Some n) by (unfold g5; destruct (g_guides g); exact M4).
  assert (M6 : g_num_masters g6 = Some n) by (unfold g6; destruct (or_nil (g_components g)); exact M5).
  assert (N4 : g_name g4 = match or_empty (g_name g) with [] => None | s => Some s end).
  { assert (g_name g4 = g_name g3) as -> by (unfold g4; destruct (g_hints g); [apply (proj2 (SH _ _))|reflexivity]).
    unfold g3. assert (E : g_name g2 = match or_empty (g_name g) with [] => None | s => Some s end).
    { unfold g2, g1. destruct (or_empty (g_name g)); reflexivity. }
    destruct (or_nil (g_metrics g)); exact E. }
  destruct (tth_section o g g8 Ftt Ltt) as (l' & Rtt & Stt).
  set (g9 := match l' with [] => g8 | _ => set_tth l' g8 end) in *.
  exists g9, (compile_glyph_name g +++ (write_uint8 8 +++ compile_outlines n (g_nodes g)) +++ compile_metrics n g +++
        compile_hints n g +++ compile_glyph_guides o v g +++ compile_components n g +++ compile_kerning g +++
        compile_binary o g +++ compile_tth g).
  split; [|split; [rewrite !wseq_assoc; reflexivity|]].
  - (* the same glyph *)
    assert (X8 : g_name g8 = match or_empty (g_name g) with [] => None | s => Some s end /\
      g_num_masters g8 = Some n /\ g_nodes g8 = Some (or_nil (g_nodes g)) /\
      or_nil (g_metrics g8) = or_nil (g_metrics g) /\ same_hints (hints_of g) (hints_of g8) /\
      g_guides g8 = option_map (stored_guides o) (g_guides g) /\
      or_nil (g_components g8) = or_nil (g_components g) /\ or_nil (g_kerning g8) = or_nil (g_kerning g) /\
      same_option same_imported (g_imported g) (g_imported g8) /\ g_tth g8 = None).
    { clear - N4 M4. unfold g8, g7, g6, g5, g4, g3, g2, g1.
      unfold hints_of.
      destruct (or_empty (g_name g)); destruct (or_nil (g_metrics g)); destruct (g_guides g); destruct (or_nil (g_components g));
      destruct (or_nil (g_kerning g)); destruct (g_imported g) as [i|]; destruct (g_hints g) as [[hh hv hm]|];
      unfold store_hints, read_hints; cbn [mh_h mh_v mh_masks];
      try (destruct hv as [|? ?]; destruct hh as [|? ?]; destruct hm as [[|? ?]|]; cbn [or_nil some_if_any]);
      repeat split; cbn; try reflexivity; destruct (or_nil (im_nodes i)); reflexivity. }
    destruct X8 as (X1 & X2 & X3 & X4 & X5 & X6 & X7 & X9 & X10 & X11).
    assert (Y : forall l, g_name (set_tth l g8) = g_name g8) by reflexivity.
    assert (T : or_nil (g_tth g9) = l') by (unfold g9; destruct l'; [rewrite X11|]; reflexivity).
    assert (Z9 : same_glyph (with_stored_angles o g) (set_tth l' g8)).
    { unfold same_glyph, with_stored_angles, set_tth. cbn [g_name g_num_masters g_nodes g_metrics g_hints g_guides g_components g_kerning g_imported g_tth].
      repeat split; try (rewrite X3; reflexivity); try congruence; try apply X5; try exact X10; try exact Rtt.
      rewrite X1. destruct (or_empty (g_name g)); reflexivity. }
    unfold g9. destruct l' as [|i l']; [|exact Z9].
    unfold same_glyph in *. cbn [set_tth g_name g_num_masters g_nodes g_metrics g_guides g_components g_kerning g_imported g_tth] in Z9.
    rewrite X11. exact Z9.
  - (* the bytes *)
    eapply wrs_seq; [apply name_section; exact Ht|]. fold g1.
    eapply wrs_seq; [apply outlines_section; [exact Hn|exact Hno]|]. fold g2.
    eapply wrs_seq; [apply metrics_section; [exact Hn|exact M2|exact Hme]|]. fold g3.
    eapply wrs_seq; [apply hints_section; [exact M3|exact Hh]|]. fold g4.
    eapply wrs_seq; [apply (guides_section o v n g g4 M4)|].
    + destruct (g_guides g); [|congruence]. cbn [on_some] in Hg. intros _. destruct Hg as (_ & -> & Hnm). split; [reflexivity|].
        rewrite N4. destruct (or_empty (g_name g)); [congruence|discriminate].
    + destruct (g_guides g); [exact (proj1 Hg)|exact I].
    + fold g5. eapply wrs_seq; [apply (components_section o n g g5 M5 Cc Fc)|]. fold g6.
      eapply wrs_seq; [apply (kerning_section o n g g6 M6 Ck Fk)|]. fold g7.
      eapply wrs_seq; [apply (binary_section o g g7 Hi)|]. fold g8. exact Stt.
Qed.
Lemma glyph_roundtrip : forall o v n g, wf_glyph o v n g ->
  exists g', same_glyph (with_stored_angles o g) g' /\ wrt (compile_glyph o v g) (parse_glyph o) g'.
Proof.
  intros o v n g H. destruct (glyph_sections o v n g H) as (g' & w & S & E & ST). exists g'. split; [exact S|].
  rewrite E. unfold parse_glyph.
  eapply wrt_bind with (a := [1; 9; 7; 1]).
  { exists [1; 9; 7; 1]. split; [reflexivity|]. split; [repeat constructor; unfold is_byte; lia|]. intros rest. reflexivity. }
  eapply wrt_pre; [intros s; reflexivity|].
  apply (wrs_end _ _ _ _ (write_uint8 15) _ _ g' ST).
  unfold glyph_turn. eapply wrt_bind_ret; [apply wrt_uint8; unfold byteZ; lia|]. reflexivity.
Qed.
