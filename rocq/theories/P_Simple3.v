(** Proofs about the small entry codecs, continued: cmaps, anisotropic interpolations, kern pairs,
    FL version, binary tables, PCLT, PostScript info. *)
From Coq Require Import String Sorting.Sorted Permutation.
From Verif Require Import Base M_Stream M_Helpers M_Text M_Py M_Simple S_Bits S_Text S_Entry
  Lib P_Stream P_Helpers P_Text P_Text2 P_Loop P_Simple P_Simple2.
Local Open Scope list_scope.
Open Scope rd_scope.
From Coq Require Import ZifyBool ZifyNat.
Ltac Zify.zify_post_hook ::= Z.div_mod_to_equations.

(** ** Custom cmaps *)
Lemma wrt_cmap : forall c, wf_cmap c -> wrt (compile_custom_cmap c) parse_custom_cmap c.
Proof.
  intros c (H1 & H2 & H3 & H4 & H5 & H6). rd_unfold_ranges. destruct c. cbn in *.
  unfold compile_custom_cmap, parse_custom_cmap. cbn. wrt_seq.
Qed.
Lemma wrt_cmaps : forall l, Forall wf_cmap l -> countable l ->
  wrt (compile_custom_cmaps l) parse_custom_cmaps l.
Proof.
  intros l H Hl. unfold compile_custom_cmaps, parse_custom_cmaps. eapply wrt_bind; [wrt_field|].
  apply wrt_range_id; [reflexivity|]. intros x Hx. apply wrt_cmap. exact (Forall_In _ _ _ _ H Hx).
Qed.
Lemma rps_cmaps : rps parse_custom_cmaps (fun l => Forall wf_cmap l /\ countable l).
Proof.
  unfold parse_custom_cmaps. eapply rps_bind; [apply rps_value|]. intros n Hn.
  eapply rps_weaken.
  - apply rps_range with (P := wf_cmap). unfold parse_custom_cmap. rps_seq. apply rps_ret.
    unfold wf_cmap. cbn. tauto.
  - cbn beta. intros l [Hl Hf]. split; [exact Hf|]. eapply range_countable; eauto.
Qed.
Lemma tot_cmaps : tot parse_custom_cmaps.
Proof. unfold parse_custom_cmaps, parse_custom_cmap. tot_auto. Qed.

(** ** Anisotropic interpolations *)
Lemma wrt_pair : forall p, i32 (fst p) /\ i32 (snd p) -> wrt (write_pair p) read_pair p.
Proof. intros [a b] [H1 H2]. cbn in *. unfold write_pair, read_pair. cbn. wrt_seq. Qed.
Lemma tot_anisotropic : tot parse_anisotropic.
Proof. unfold parse_anisotropic, read_pair. tot_auto. Qed.
Lemma wrt_axis : forall ax, wf_axis ax ->
  wrt (write_value (Z.of_nat (length ax)) +++ wlist write_pair ax)
      (n <- read_value ;; rrange n read_pair) ax.
Proof.
  intros ax [Hc H]. eapply wrt_bind; [wrt_field|]. apply wrt_range_id; [reflexivity|].
  intros x Hx. apply wrt_pair. exact (Forall_In _ _ _ _ H Hx).
Qed.
Lemma anisotropic_survives : forall l, Forall wf_axis l ->
  survives compile_anisotropic parse_anisotropic l.
Proof.
  intros l H. unfold survives, compile_anisotropic, parse_anisotropic.
  apply wrun_loop with (f := fun a x => a ++ [x]).
  - intros l1 x l2 ->. split; [apply wne_l, wne_value_gen|].
    assert (Hx : wf_axis x) by (eapply Forall_In; [exact H|apply in_or_app; right; left; auto]).
    destruct (wrt_axis x Hx) as (b & E & O & R). exists b. split; [exact E|]. split; [exact O|].
    intros rest. specialize (R rest). unfold rtry, rbind in *.
    destruct (read_value (b ++ rest)) as [n s1|e s1]; [|discriminate].
    rewrite R. rewrite !fold_snoc. reflexivity.
  - rewrite fold_snoc. reflexivity.
  - apply wlist_ok. intros x Hx. eapply wrt_ok, wrt_axis. exact (Forall_In _ _ _ _ H Hx).
Qed.
Lemma rps_anisotropic : rps parse_anisotropic (Forall wf_axis).
Proof.
  unfold parse_anisotropic. eapply rps_loop with (I := Forall wf_axis); [constructor|].
  intros st Hst. apply rps_try_eof.
  - unfold read_pair. tot_auto.
  - eapply rps_bind; [apply rps_value|]. intros n Hn.
    eapply rps_bind; [apply rps_range with (P := fun p => i32 (fst p) /\ i32 (snd p))|].
    + unfold read_pair. rps_seq. apply rps_ret. auto.
    + cbv beta. intros ax [Hl Hf]. apply rps_ret. apply Forall_app. split; [exact Hst|].
      constructor; [|constructor]. split; [eapply range_countable; eauto|exact Hf].
  - apply rps_ret. exact Hst.
Qed.
Lemma tot_kern_pair : forall n, tot (parse_kern_pair n).
Proof. intros. unfold parse_kern_pair. tot_auto. Qed.

(** ** FL version *)
Lemma be_dec_4 : forall a b c d, be_dec [a; b; c; d] = d + 256 * (c + 256 * (b + 256 * a)).
Proof. intros. unfold be_dec. cbn [rev app le_dec]. lia. Qed.
Definition version_of (v : Z) : list Z :=
  map (fun i => Z.land (Z.shiftr v i) 0xFF) [24; 16; 8; 0].
Lemma version_div : forall v,
  version_of v = [v / 2 ^ 24 mod 256; v / 2 ^ 16 mod 256; v / 2 ^ 8 mod 256; v mod 256].
Proof.
  intros v. unfold version_of. cbn [map]. change 255 with (Z.ones 8).
  rewrite !Z.land_ones by lia. rewrite !Z.shiftr_div_pow2 by lia. rewrite Z.div_1_r. reflexivity.
Qed.
Lemma version_be : forall a b c d, is_byte a -> is_byte b -> is_byte c -> is_byte d ->
  version_of (be_dec_s [a; b; c; d]) = [a; b; c; d].
Proof.
  intros a b c d Ha Hb Hc Hd. rewrite version_div. unfold be_dec_s. cbn [length].
  rewrite be_dec_4. unfold to_signed. change (2 ^ (8 * Z.of_nat 4 - 1)) with 2147483648.
  change (2 ^ (8 * Z.of_nat 4)) with 4294967296. change (2 ^ 24) with 16777216.
  change (2 ^ 16) with 65536. change (2 ^ 8) with 256. unfold is_byte in *.
  destruct (2147483648 <=? _) eqn:E; repeat f_equal; lia.
Qed.
Lemma version_bytes : forall v, Forall byteZ (version_of v) /\ length (version_of v) = 4%nat.
Proof.
  intros. rewrite version_div. split; [|reflexivity].
  repeat constructor; unfold byteZ; try (apply Z.mod_pos_bound; lia).
Qed.
Lemma wlist_uint8 : forall l, Forall byteZ l -> wlist write_uint8 l = Ok l.
Proof.
  induction 1 as [|x l Hx Hl IH]; [reflexivity|]. cbn [wlist]. rewrite IH.
  unfold write_uint8, to_bytes_u, urange, in_range. unfold byteZ in Hx.
  change (2 ^ (8 * Z.of_nat 1)) with 256.
  replace ((0 <=? x) && (x <? 256)) with true by (symmetry; lia). cbn.
  rewrite Z.mod_small by lia. reflexivity.
Qed.
Lemma wrt_version : forall l, length l = 4%nat -> Forall byteZ l -> exists v,
  wrt (write_uint8 0xFF +++ wlist write_uint8 l) read_value v /\ version_of v = l.
Proof.
  intros l Hl H. destruct l as [|a [|b [|c [|d [|e l]]]]]; try discriminate.
  exists (be_dec_s [a; b; c; d]).
  assert (Hb : bytes_ok [a; b; c; d]) by exact H.
  split.
  - exists (255 :: [a; b; c; d]). rewrite wlist_uint8 by exact H. split; [reflexivity|].
    split; [constructor; [unfold is_byte; lia|exact Hb]|].
    intros rest. rewrite <- app_comm_cons. unfold read_value. rewrite read_value_cons.
    apply (vb_long true [a; b; c; d] rest). reflexivity.
  - rewrite !Forall_cons_iff in H. destruct H as (H1 & H2 & H3 & H4 & _).
    apply version_be; assumption.
Qed.
Lemma tot_fl_version : tot parse_fl_version.
Proof.
  unfold parse_fl_version. tot_auto;
    try (apply tot_lift; unfold aget_res; destruct (aget _ _ _); discriminate).
Qed.
Lemma wrt_fl_version : forall d, wf_fl_version d ->
  wrt (compile_fl_version d) parse_fl_version d.
Proof.
  intros d (Hp & Hv1 & Hv2 & Ho). rd_unfold_ranges.
  destruct (wrt_version _ Hv1 Hv2) as (v & Wv & Ev).
  assert (Hk : exists k, aget_res str_eqb (fv_platform d) platform_ids = Ok k /\
               aget_res Z.eqb k platform_names = Ok (fv_platform d) /\ i32 k).
  { destruct Hp as [-> | ->]; [exists 1|exists 0]; (split; [vm_compute; reflexivity|]);
      (split; [vm_compute; reflexivity|]); unfold i32; lia. }
  destruct Hk as (k & Ek & Es & Hk).
  set (items := [ (write_uint8 1 +++ write_value k, FLVersion (fv_platform d) [5; 2; 2; 128] 0);
                  (write_uint8 2 +++ (write_uint8 0xFF +++ wlist write_uint8 (fv_version d)),
                   FLVersion (fv_platform d) (fv_version d) 0);
                  (write_uint8 3 +++ write_value (fv_owner d),
                   FLVersion (fv_platform d) (fv_version d) (fv_owner d)) ]).
  assert (E : compile_fl_version d = wlist fst items +++ write_uint8 0).
  { unfold compile_fl_version. rewrite Ek, Hv1. cbn [wlet wlist items fst wassert Nat.eqb].
    rewrite wseq_nil_r, wseq_nil_l, !wseq_assoc. reflexivity. }
  rewrite E. unfold parse_fl_version. eapply wrt_loop_seq.
  - unfold items. cbn [chain].
    repeat match goal with
    | |- _ /\ _ => split
    | |- wne _ => apply wne_l, wne_uint8
    | |- wrt _ _ _ =>
        eapply wrt_bind; [apply wrt_uint8; unfold byteZ; lia|];
        eapply wrt_bind_ret; [first [apply wrt_value; assumption | exact Wv]|];
        intros; cbn -[aget_res version_of]; rewrite ?Es; try reflexivity
    | |- _ = _ => reflexivity
    end.
    cbn in Ev. rewrite Ev. reflexivity.
  - eapply wrt_bind_ret; [apply wrt_uint8; unfold byteZ; lia|].
    intros. cbn. destruct d; reflexivity.
Qed.
Lemma rps_fl_version : rps parse_fl_version wf_fl_version.
Proof.
  unfold parse_fl_version. eapply rps_loop with (I := wf_fl_version).
  - split; [left; reflexivity|]. split; [reflexivity|]. split; [|unfold int32; cbn; lia].
    repeat constructor; unfold uint8; lia.
  - intros st (H1 & H2 & H3 & H4). eapply rps_bind; [apply rps_uint8|]. intros key _.
    apply rps_if; intros _; [apply rps_ret; repeat split; auto; apply H4|].
    eapply rps_bind; [apply rps_value|]. intros v Hv.
    apply rps_if; intros _; [|apply rps_if; intros _; [|apply rps_if; intros _]].
    + eapply rps_bind.
      * apply rps_lift with (P := fun p => p = py "macos" \/ p = py "windows").
        intros p E. unfold aget_res, platform_names in E. cbn [aget] in E.
        destruct (v =? 0); [inversion E; auto|]. destruct (v =? 1); [inversion E; auto|discriminate].
      * cbv beta. intros p Hp. apply rps_ret. repeat split; auto; apply H4.
    + apply rps_ret. destruct (version_bytes v) as [A B]. split; [exact H1|].
      split; [exact B|]. split; [exact A|exact H4].
    + apply rps_ret. split; [exact H1|]. split; [exact H2|]. split; [exact H3|exact Hv].
    + apply rps_ret. split; [exact H1|]. split; [exact H2|]. split; [exact H3|exact H4].
Qed.

(** ** Binary tables *)
Lemma tot_binary_table : tot parse_binary_table.
Proof. unfold parse_binary_table. tot_auto. Qed.
Lemma deHex_of : forall s, hex_text s -> exists b, deHexStr s = Ok b /\ bytes_ok b /\ hexStr b = s.
Proof.
  intros s Hs. destruct (hexStr_onto s Hs) as (b & Ob & ->). exists b.
  split; [apply deHexStr_hexStr; auto|auto].
Qed.
Lemma binary_table_survives : forall d, wf_binary_table d ->
  survives compile_binary_table parse_binary_table d.
Proof.
  intros [tag data] (He & Hh & Hl). cbn [bt_tag bt_data] in *.
  apply encodable_encode in He. destruct He as [bt Et].
  destruct (deHex_of data Hh) as (bd & Ed & Od & Sd).
  pose proof (encode_length _ _ Et) as Lt. pose proof (encode_bytes_ok _ _ Et) as Ot.
  exists (bt ++ bd). unfold compile_binary_table. cbn [bt_tag bt_data].
  rewrite (write_str_ok _ _ Et), Ed. split; [reflexivity|].
  split; [apply bytes_ok_app; auto|].
  unfold run_parser, parse_binary_table, rbind. destruct Hl as [Hl | [Hl Hd]].
  - destruct (wrt_str tag bt 4 Et ltac:(lia)) as (b' & E' & _ & R). inversion E'; subst b'.
    rewrite R. unfold read_all, ret. rewrite Sd. reflexivity.
  - subst data. destruct bd as [|x bd]; [|discriminate]. rewrite app_nil_r.
    unfold read_str. change (4 =? 0) with false. cbv iota. unfold rbind, read_bytes, take, drop.
    change (4 <? 0) with false. cbv iota. rewrite firstn_all2, skipn_all2 by (cbn; lia).
    unfold rlift. rewrite (decode_encode _ _ Et). reflexivity.
Qed.
Lemma rps_binary_table : rps parse_binary_table wf_binary_table.
Proof.
  intros s d s' Hs E. unfold parse_binary_table, rbind in E.
  pose proof (rps_str 4 s) as Hr.
  destruct (read_str 4 s) as [tag s1|e s1] eqn:E1; [|discriminate].
  destruct (Hr tag s1 Hs eq_refl) as [[Ht _] [Hs1 _]].
  unfold read_all, ret in E. inv_rok E. split; [|split; [constructor|cbn; lia]].
  unfold wf_binary_table. cbn [bt_tag bt_data]. split; [exact Ht|].
  split; [apply hex_text_of, Hs1|].
  unfold read_str in E1. change (4 =? 0) with false in E1. cbv iota in E1.
  unfold rbind, read_bytes, rlift in E1.
  destruct (cp1252_decode (take 4 s)) as [t|] eqn:Ed; [|discriminate]. inv_rok E1.
  apply encode_decode in Ed. apply encode_length in Ed. unfold take, drop in *.
  change (4 <? 0) with false in *. cbv iota in *. change (Z.to_nat 4) with 4%nat in *.
  rewrite firstn_length in Ed. destruct (Nat.le_gt_cases 4 (length s)) as [L|L].
  - left. lia.
  - right. split; [lia|]. rewrite skipn_all2 by lia. reflexivity.
Qed.

(** ** PCLT *)
Definition pad_text (n : nat) (s : pystr) : pystr := s ++ repeat 0 (n - length s).
Definition padded_pclt (p : pclt) : pclt :=
  Pclt (pc_font_number p) (pc_pitch p) (pc_x_height p) (pc_style p) (pc_type_family p)
    (pc_cap_height p) (pc_symbol_set p) (pad_text 16 (pc_typeface p)) (pc_complement p)
    (pad_text 6 (pc_file_name p)) (pc_stroke_weight p) (pc_width_type p) (pc_serif_style p).
Lemma tot_pclt : tot parse_pclt.
Proof. unfold parse_pclt. tot_auto. Qed.
Lemma wrt_str_pad : forall n s, encodable s -> (length s <= n)%nat ->
  wrt (write_str_pad (Z.of_nat n) s) (read_str (Z.of_nat n)) (pad_text n s).
Proof.
  intros n s He Hl. apply encodable_encode in He. destruct He as [b Eb].
  pose proof (encode_length _ _ Eb) as L.
  assert (Ep : cp1252_encode (pad_text n s) = Ok (b ++ repeat 0 (n - length s))).
  { apply encode_app; [exact Eb|apply encode_zeros]. }
  unfold write_str_pad. rewrite Eb. cbn [rmap].
  replace (Z.to_nat (Z.of_nat n - Z.of_nat (length b))) with (n - length s)%nat by lia.
  apply wrt_str; [exact Ep|]. unfold pad_text. rewrite app_length, repeat_length. lia.
Qed.
Lemma wrt_pclt : forall p,
  -1131 <= pc_font_number p < 2 ^ 32 -> i32 (pc_pitch p) -> i32 (pc_x_height p) ->
  i32 (pc_style p) -> i32 (pc_type_family p) -> i32 (pc_cap_height p) ->
  i32 (pc_symbol_set p) -> encodable (pc_typeface p) -> (length (pc_typeface p) <= 16)%nat ->
  array 8 byteZ (pc_complement p) ->
  encodable (pc_file_name p) -> (length (pc_file_name p) <= 6)%nat ->
  0 <= pc_stroke_weight p < 128 -> 0 <= pc_width_type p < 128 -> byteZ (pc_serif_style p) ->
  wrt (compile_pclt p) parse_pclt (padded_pclt p).
Proof.
  intros p H1 H2 H3 H4 H5 H6 H7 H8 H9 H10 H11 H12 H13 H14 H15.
  unfold compile_pclt, parse_pclt, padded_pclt.
  assert (W8 : forall v, 0 <= v < 128 -> wrt (write_uint8 v) read_int8 v).
  { intros v Hv. destruct (wrt_uint8 v ltac:(unfold byteZ; lia)) as (b & E & O & R).
    exists b. split; [exact E|]. split; [exact O|].
    destruct (wrt_int8 v ltac:(unfold i8; lia)) as (b' & E' & _ & R').
    unfold write_uint8, write_int8, to_bytes_u, to_bytes_s in *.
    destruct (urange 1 v); [|discriminate]. destruct (srange 1 v); [|discriminate].
    rewrite E in E'. inversion E'; subst b'. exact R'. }
  do 7 (eapply wrt_bind; [first [apply wrt_uvalue; exact H1 | wrt_field]|]).
  eapply wrt_bind; [apply (wrt_str_pad 16); assumption|].
  eapply wrt_bind; [apply (wrt_array_Z _ _ _ _ _ H10); exact wrt_uint8|].
  eapply wrt_bind; [apply (wrt_str_pad 6); assumption|].
  eapply wrt_bind; [apply W8; assumption|].
  eapply wrt_bind; [apply W8; assumption|].
  eapply wrt_bind_ret; [apply wrt_uint8; assumption|reflexivity].
Qed.
Lemma pclt_survives : forall p, wf_pclt p -> survives compile_pclt parse_pclt p.
Proof.
  intros p (H1 & H2 & H3 & H4 & H5 & H6 & H7 & [H8 L8] & H9 & [H10 L10] & H11 & H12 & H13).
  apply wrt_survives. replace p with (padded_pclt p) at 2.
  - apply wrt_pclt; auto; lia.
  - unfold padded_pclt, pad_text. rewrite L8, L10. rewrite !Nat.sub_diag. cbn [repeat].
    rewrite !app_nil_r. destruct p; reflexivity.
Qed.

(** ** PostScript info *)
Lemma tot_ps_info : tot parse_ps_info.
Proof. unfold parse_ps_info. tot_auto. Qed.
Lemma wrt_exactly : forall A n (w : Z -> wr) (r : rd A) l a, length l = n ->
  wrt (wlist w l) r a -> wrt (write_exactly n w l) r a.
Proof. intros A n w r l a H Hw. unfold write_exactly. rewrite H, Nat.eqb_refl. rewrite wseq_nil_l. exact Hw. Qed.
Lemma wrt_exactly_Z : forall n (w : Z -> wr) r l P, array n P l -> (forall x, P x -> wrt (w x) r x) ->
  wrt (write_exactly n w l) (rrepeat n r) l.
Proof.
  intros n w r l P H Hw. apply wrt_exactly; [apply H|]. apply (wrt_array_Z _ _ _ _ _ H Hw).
Qed.
Lemma wrt_matrix : forall l, array 6 is_double l ->
  wrt (write_exactly 6 write_double l) (read_doubles 6) l.
Proof.
  intros l [Hl H]. apply wrt_exactly; [exact Hl|]. apply wrt_doubles; [exact H|]. rewrite Hl. reflexivity.
Qed.
Lemma wrt_ps_info : forall d, wf_ps_info d -> wrt (compile_ps_info d) parse_ps_info d.
Proof.
  intros d H. unfold wf_ps_info in H. rd_unfold_ranges.
  repeat match goal with H : _ /\ _ |- _ => destruct H as [? H] end.
  unfold compile_ps_info, parse_ps_info.
  repeat first
    [ eapply wrt_bind_ret; [apply wrt_int32; assumption|destruct d; reflexivity]
    | eapply wrt_bind;
      [ first [ apply wrt_matrix; assumption
              | solve [eapply wrt_exactly_Z; [eassumption | auto with wrt]]
              | solve [auto with wrt] ] | cbv beta ] ].
Qed.
Lemma rps_ps_info : rps parse_ps_info wf_ps_info.
Proof.
  unfold parse_ps_info.
  eapply rps_bind; [apply rps_doubles; lia|]. cbv beta. intros fm [Hf1 Hf2].
  repeat (eapply rps_bind; [solve [eauto with rps] | cbv beta; intros ? ?]).
  apply rps_ret. unfold wf_ps_info. cbn.
  assert (array 6 double fm) by (split; [lia|exact Hf2]).
  repeat match goal with |- _ /\ _ => split; [assumption|] end. assumption.
Qed.
Lemma fix_exactly : forall n k (r : rd Z) w, rfix k r (fun a b => w a = Ok b) ->
  rfix (n * k) (rrepeat n r) (fun l b => write_exactly n w l = Ok b).
Proof.
  intros n k r w H. eapply rfix_weaken; [apply rfix_repeat; exact H|]. cbv beta.
  intros l b [Hl E]. unfold write_exactly. rewrite Hl, Nat.eqb_refl, wseq_nil_l. exact E.
Qed.
Lemma fix_matrix : rfix 48 (read_doubles 6) (fun l b => write_exactly 6 write_double l = Ok b).
Proof.
  eapply rfix_weaken; [apply (rfix_doubles 6)|]. cbv beta. intros l b [Hl E].
  unfold write_exactly. rewrite Hl. cbn [Nat.eqb wassert]. rewrite wseq_nil_l. exact E.
Qed.
Definition ps_info_size : nat :=
  48 + (4 + (14 * 4 + (10 * 4 + (14 * 4 + (10 * 4 + (8 + (4 + (4 + (4 + (4 + (12 * 4 + (12 * 4 +
  (2 + (2 + (2 + (2 + (4 + (4 + (4 + (4 + (4 + (4 + (4 + 0))))))))))))))))))))))).
Lemma fix_ps_info : rfix ps_info_size parse_ps_info (fun d b => compile_ps_info d = Ok b).
Proof.
  unfold parse_ps_info, ps_info_size.
  eapply rfix_bind; [apply fix_matrix|]. cbv beta. intros fm b1 E1.
  repeat (eapply rfix_bind;
    [ first [ apply rfix_int32 | apply rfix_uint32 | apply rfix_int16 | apply rfix_double
            | apply (fix_exactly _ 4); first [apply rfix_int32 | apply rfix_uint32] ]
    | cbv beta; intros ? ? ? ]).
  apply rfix_ret. unfold compile_ps_info. cbn [ps_font_matrix ps_force_bold ps_blue_values
    ps_other_blues ps_family_blues ps_family_other_blues ps_blue_scale ps_blue_shift ps_blue_fuzz
    ps_std_hw ps_std_vw ps_stem_snap_h ps_stem_snap_v ps_xMin ps_yMin ps_xMax ps_yMax
    ps_adv_width_min ps_adv_width_max ps_adv_width_avg ps_ascender ps_descender ps_x_height
    ps_cap_height].
  repeat match goal with E : _ = Ok _ |- _ => rewrite E; clear E end.
  cbn [wseq]. rewrite ?app_assoc, app_nil_r. reflexivity.
Qed.
