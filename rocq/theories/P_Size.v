(** Proofs: the size of decompiled data (C107). *)
From Coq Require Import ZifyBool ZifyNat String Permutation.
From Verif Require P_Glyph3.
From Verif Require Import Base M_Stream M_Py M_Helpers M_Text M_Simple M_Bitmap M_TrueType M_Glyph M_Float M_Options
  M_Container M_Table M_Json S_Stream S_Size Lib P_Stream P_Loop P_Dec P_Simple P_Simple2 P_Simple3 P_Table P_Text P_Text2 P_TrueType.
Local Open Scope list_scope.
Open Scope rd_scope.
Local Notation len l := (Z.of_nat (length l)).

(** ** Sizes *)
Fixpoint sumz {A} (m : A -> Z) (l : list A) : Z := match l with [] => 0 | x :: l' => m x + sumz m l' end.
Lemma sumz_app : forall A (m : A -> Z) l l', sumz m (l ++ l') = sumz m l + sumz m l'.
Proof. induction l as [|x l IH]; intros l'; cbn [sumz app]; [lia|]. rewrite IH. lia. Qed.
Lemma sumz_map : forall A B (f : A -> B) (m : B -> Z) l, sumz m (map f l) = sumz (fun a => m (f a)) l.
Proof. induction l as [|x l IH]; cbn [sumz map]; [lia|]. now rewrite IH. Qed.
Lemma sumz_const : forall A (c : Z) (l : list A), sumz (fun _ => c) l = c * len l.
Proof. induction l as [|x l IH]; cbn [sumz length]; [lia|]. rewrite IH. lia. Qed.
Lemma sumz_le : forall A (m m' : A -> Z) l, Forall (fun a => m a <= m' a) l -> sumz m l <= sumz m' l.
Proof. induction 1; cbn [sumz]; lia. Qed.
Lemma sumz_bound : forall A (m : A -> Z) c l, Forall (fun a => m a <= c) l -> sumz m l <= c * len l.
Proof. intros A m c l H. rewrite <- sumz_const. apply sumz_le. exact H. Qed.
Definition entry_size (p : pystr * pyval) : Z := len (fst p) + size (snd p).
Lemma size_list : forall l, size (PList l) = 1 + sumz size l.
Proof. intros l. cbn [size]. f_equal. induction l as [|x l IH]; cbn [sumz]; [reflexivity|]. now rewrite IH. Qed.
Lemma size_dict : forall d, size (PDict d) = 1 + sumz entry_size d.
Proof. intros d. cbn [size]. f_equal. induction d as [|[k x] d IH]; cbn [sumz]; [reflexivity|]. rewrite IH. unfold entry_size. cbn [fst snd]. lia. Qed.
Lemma size_plist : forall A (f : A -> pyval) l, size (plist f l) = 1 + sumz (fun a => size (f a)) l.
Proof. intros. unfold plist. now rewrite size_list, sumz_map. Qed.
Lemma size_ints : forall l, size (pints l) = 1 + len l.
Proof. intros. unfold pints. rewrite size_plist. cbn [size]. rewrite sumz_const. lia. Qed.
Lemma size_doubles : forall l, size (pdoubles l) = 1 + len l.
Proof. intros. unfold pdoubles. rewrite size_plist. unfold pdouble. cbn [size]. rewrite sumz_const. lia. Qed.
Lemma size_strs : forall l, size (pstrs l) = 1 + sumz (fun s : pystr => 1 + len s) l.
Proof. intros. unfold pstrs. now rewrite size_plist. Qed.
Lemma size_pair : forall p, size (ppair p) = 3. Proof. reflexivity. Qed.
Lemma size_pairs : forall l, size (ppairs l) = 1 + 3 * len l.
Proof. intros. unfold ppairs. rewrite size_plist. now rewrite (sumz_const _ 3). Qed.
Lemma size_str_dict : forall A (f : A -> pyval) d, size (pstr_dict f d) = 1 + sumz (fun p => len (fst p) + size (f (snd p))) d.
Proof. intros. unfold pstr_dict. now rewrite size_dict, sumz_map. Qed.
Lemma size_int_dict : forall A (f : A -> pyval) d, size (pint_dict f d) = 1 + sumz (fun p => len (dec_str (fst p)) + size (f (snd p))) d.
Proof. intros. unfold pint_dict. now rewrite size_dict, sumz_map. Qed.
Lemma size_pos : forall v, 0 <= size v.
Proof.
  fix IH 1. intros [| | | |s|l|d]; cbn [size]; try lia.
  - assert (G : 0 <= (fix go l := match l with [] => 0 | x :: l' => size x + go l' end) l); [|lia].
    induction l as [|x l IHl]; [lia|]. specialize (IH x). lia.
  - assert (G : 0 <= (fix go d := match d with [] => 0 | (k, x) :: d' => len k + size x + go d' end) d); [|lia].
    induction d as [|[k x] d IHd]; [lia|]. specialize (IH x). lia.
Qed.
Lemma dec_digits_len : forall k fuel n, 0 <= n < 10 ^ Z.of_nat (S k) -> (length (dec_digits fuel n) <= S k)%nat.
Proof.
  induction k as [|k IH]; intros fuel n H; destruct fuel as [|f]; cbn [dec_digits length]; try lia.
  - replace (n <? 10) with true by (cbn in H; lia). cbn [length]. lia.
  - destruct (n <? 10) eqn:E; [cbn [length]; lia|]. rewrite app_length. cbn [length].
    specialize (IH f (n / 10)). replace (Z.of_nat (S (S k))) with (1 + Z.of_nat (S k)) in H by lia. rewrite Z.pow_add_r in H by lia.
    assert (0 <= n / 10 < 10 ^ Z.of_nat (S k)) by (split; [apply Z.div_pos; lia|apply Z.div_lt_upper_bound; lia]). lia.
Qed.
Lemma dec_str_len : forall n, - 2 ^ 32 < n < 2 ^ 32 -> len (dec_str n) <= 11.
Proof.
  intros n H. unfold dec_str, dec_nat. destruct (n <? 0) eqn:E; cbn [length].
  - pose proof (dec_digits_len 9 (S (Z.to_nat (Z.log2 (- n)))) (- n)). lia.
  - pose proof (dec_digits_len 9 (S (Z.to_nat (Z.log2 n))) n). lia.
Qed.

(** ** [cs r Q]: what [r] makes is in proportion to what it reads; [Q a n] says so of the value and the number of
    bytes read *)
Definition cs {A} (r : rd A) (Q : A -> Z -> Prop) : Prop :=
  forall s a s', small s -> r s = ROk a s' -> small s' /\ len s' <= len s /\ Q a (len s - len s').
Lemma cs_ret : forall A (a : A) (Q : A -> Z -> Prop), Q a 0 -> cs (ret a) Q.
Proof. intros A a Q H s x s' Hs E. inversion E; subst. replace (len s' - len s') with 0 by lia. auto with zarith. Qed.
Lemma cs_raise : forall A e (Q : A -> Z -> Prop), cs (rraise e) Q.
Proof. intros A e Q s x s' Hs E. discriminate. Qed.
Lemma cs_lift : forall A (x : res A) (Q : A -> Z -> Prop), (forall a, x = Ok a -> Q a 0) -> cs (rlift x) Q.
Proof.
  intros A x Q H s a s' Hs E. unfold rlift in E. destruct x as [y|]; [|discriminate]. inversion E; subst.
  replace (len s' - len s') with 0 by lia. auto with zarith.
Qed.
Lemma cs_bind : forall A B (r : rd A) (k : A -> rd B) (Q : A -> Z -> Prop) (R : B -> Z -> Prop),
  cs r Q -> (forall a n, 0 <= n -> Q a n -> cs (k a) (fun b m => R b (n + m))) -> cs (rbind r k) R.
Proof.
  intros A B r k Q R Hr Hk s b s2 Hs E. unfold rbind in E. destruct (r s) as [a s1|] eqn:E1; [|discriminate].
  destruct (Hr s a s1 Hs E1) as (S1 & L1 & Q1). assert (N : 0 <= len s - len s1) by lia. destruct (Hk a _ N Q1 s1 b s2 S1 E) as (S2 & L2 & Q2).
  replace (len s - len s2) with (len s - len s1 + (len s1 - len s2)) by lia. split; [exact S2|]. split; [lia|exact Q2].
Qed.
Lemma cs_weaken : forall A (r : rd A) (Q R : A -> Z -> Prop), cs r Q -> (forall a n, 0 <= n -> Q a n -> R a n) -> cs r R.
Proof. intros A r Q R H I s a s' Hs E. destruct (H s a s' Hs E) as (S1 & L1 & Q1). split; [exact S1|]. split; [exact L1|]. apply I; [lia|exact Q1]. Qed.
Lemma cs_and : forall A (r : rd A) (P : A -> Prop) (Q : A -> Z -> Prop), rps r P -> cs r Q -> cs r (fun a n => P a /\ Q a n).
Proof. intros A r P Q HP HQ s a s' Hs E. destruct (HQ s a s' Hs E) as (S1 & L1 & Q1). destruct (HP s a s' Hs E). auto. Qed.
Lemma cs_tot : forall A (r : rd A) P, tot r -> rps r P -> cs r (fun a n => P a).
Proof.
  intros A r P T H s a s' Hs E. destruct (H s a s' Hs E) as (Pa & S1). pose proof (tot_length _ r s T (proj1 Hs)) as L. rewrite E in L. cbn in L.
  split; [exact S1|]. split; [lia|exact Pa].
Qed.
Lemma cs_if : forall A (b : bool) (r1 r2 : rd A) Q, (b = true -> cs r1 Q) -> (b = false -> cs r2 Q) -> cs (if b then r1 else r2) Q.
Proof. intros. destruct b; auto. Qed.
Lemma cs_prog : forall A (r : rd A) P, tot r -> prog r -> rps r P -> cs r (fun a n => P a /\ 1 <= n).
Proof.
  intros A r P T G H s a s' Hs E. destruct (H s a s' Hs E) as (Pa & S1). pose proof (G s a s' (proj1 Hs) E) as L.
  split; [exact S1|]. split; [lia|]. split; [exact Pa|lia].
Qed.
Lemma cs_repeat : forall A (r : rd A) (m : A -> Z) K n, cs r (fun a n => m a <= K * n) ->
  cs (rrepeat n r) (fun l k => sumz m l <= K * k /\ len l = Z.of_nat n).
Proof.
  intros A r m K n H. induction n as [|n IH]; cbn [rrepeat]; [apply cs_ret; cbn [sumz length]; lia|].
  eapply cs_bind; [exact H|]. intros a k Hk Ha. eapply cs_bind; [exact IH|]. intros l j Hj (Hl & Hn). apply cs_ret. cbv beta in *. cbn [sumz length].
  rewrite Z.add_0_r, Z.mul_add_distr_l. lia.
Qed.
Lemma cs_range : forall A (r : rd A) (m : A -> Z) K n, cs r (fun a n => m a <= K * n) -> cs (rrange n r) (fun l k => sumz m l <= K * k).
Proof. intros. eapply cs_weaken; [apply cs_repeat; eassumption|]. cbv beta. tauto. Qed.
Lemma cs_times : forall St (f : St -> rd St) (J : St -> Z -> Prop) n st k, 0 <= k -> J st k ->
  (forall st k, 0 <= k -> J st k -> cs (f st) (fun st' m => J st' (k + m))) -> cs (rtimes n f st) (fun st' m => J st' (k + m)).
Proof.
  intros St f J n. induction n as [|n IH]; intros st k Hk Hst H; cbn [rtimes]; [apply cs_ret; now rewrite Z.add_0_r|].
  eapply cs_bind; [apply H; eassumption|]. intros st' m Hm Hst'. cbv beta. eapply cs_weaken; [apply (IH st' (k + m)); auto with zarith|].
  cbv beta. intros a j Hj Ha. now rewrite Z.add_assoc.
Qed.
Lemma cs_while : forall St A (body : St -> rd (St + A)) (J : St -> Z -> Prop) (Q : A -> Z -> Prop) fuel st k, 0 <= k -> J st k ->
  (forall st k, 0 <= k -> J st k -> cs (body st) (fun x m => match x with inl st' => J st' (k + m) | inr a => Q a (k + m) end)) ->
  cs (rwhile fuel body st) (fun a m => Q a (k + m)).
Proof.
  intros St A body J Q fuel. induction fuel as [|f IH]; intros st k Hk Hst H; cbn [rwhile]; [apply cs_raise|].
  eapply cs_bind; [apply H; eassumption|]. intros [st'|a] m Hm Hx; cbv beta iota in Hx |- *.
  - eapply cs_weaken; [apply (IH st' (k + m)); auto with zarith|]. cbv beta. intros a j Hj Ha. now rewrite Z.add_assoc.
  - apply cs_ret. now rewrite Z.add_0_r.
Qed.
Lemma cs_loop : forall St A (body : St -> rd (St + A)) (J : St -> Z -> Prop) (Q : A -> Z -> Prop) st, J st 0 ->
  (forall st k, 0 <= k -> J st k -> cs (body st) (fun x m => match x with inl st' => J st' (k + m) | inr a => Q a (k + m) end)) ->
  cs (rloop body st) Q.
Proof.
  intros St A body J Q st Hst H s a s' Hs E. unfold rloop in E. eapply (cs_while _ _ body J Q _ st 0) in E; [|lia|exact Hst|exact H|exact Hs]. exact E.
Qed.
Lemma cs_try_eof : forall A (r : rd A) (a0 : A) (Q : A -> Z -> Prop), tot r -> cs r Q -> (forall n, 0 <= n -> Q a0 n) -> cs (rtry r (on_eof (ret a0))) Q.
Proof.
  intros A r a0 Q T H H0 s a s' Hs E. unfold rtry in E. pose proof (tot_rest_small _ r s T Hs) as RS. pose proof (tot_length _ r s T (proj1 Hs)) as L.
  destruct (r s) as [x s1|e s1] eqn:E1.
  - inversion E; subst. now apply (H s a s' Hs).
  - destruct e; cbn in E; try discriminate. inversion E; subst. cbn in RS, L. split; [exact RS|]. split; [lia|]. apply H0. lia.
Qed.

(** *** What is read *)
Lemma cs_value : cs read_value (fun v n => i32 v /\ 1 <= n).
Proof. apply cs_prog; [apply tot_value|apply prog_value|apply rps_value]. Qed.
Lemma cs_uvalue : cs read_uvalue (fun v n => u32 v /\ 1 <= n).
Proof. apply cs_prog; [apply tot_uvalue|apply prog_uvalue|apply rps_uvalue]. Qed.
Lemma cs_read_bytes : forall n, cs (read_bytes n) (fun b k => bytes_ok b /\ len b = k).
Proof.
  intros n s a s' Hs E. pose proof (rps_read_bytes n s a s' Hs E) as (B & S1). inversion E; subst. pose proof (f_equal (@length Z) (take_drop n s)) as L.
  rewrite app_length in L. split; [exact S1|]. split; [lia|]. split; [exact B|lia].
Qed.
Lemma cs_read_all : cs read_all (fun b k => bytes_ok b /\ len b = k).
Proof. intros s a s' Hs E. pose proof (rps_read_all s a s' Hs E) as (B & S1). inversion E; subst. split; [exact S1|]. cbn [length]. split; [lia|]. split; [exact B|lia]. Qed.
Lemma cs_int8 : cs read_int8 (fun v n => True). Proof. eapply cs_weaken; [apply cs_tot; [apply tot_int8|apply rps_int8]|auto]. Qed.
Lemma cs_int16 : cs read_int16 (fun v n => True). Proof. eapply cs_weaken; [apply cs_tot; [apply tot_int16|apply rps_int16]|auto]. Qed.
Lemma cs_int32 : cs read_int32 (fun v n => True). Proof. eapply cs_weaken; [apply cs_tot; [apply tot_int32|apply rps_int32]|auto]. Qed.
Lemma cs_uint8 : cs read_uint8 (fun v n => byteZ v /\ (v <> 0 -> 1 <= n)).
Proof.
  apply cs_and; [apply rps_uint8|]. unfold read_uint8. eapply cs_bind; [apply cs_read_bytes|]. intros b n Hn (B & L). apply cs_ret.
  intros H. destruct b as [|x b]; [now destruct H|]. cbn [length] in L. lia.
Qed.
Lemma cs_uint16 : cs read_uint16 (fun v n => True). Proof. eapply cs_weaken; [apply cs_tot; [apply tot_uint16|apply rps_uint16]|auto]. Qed.
Lemma cs_uint32 : cs read_uint32 (fun v n => True). Proof. eapply cs_weaken; [apply cs_tot; [apply tot_uint32|apply rps_uint32]|auto]. Qed.
Lemma cs_double : cs read_double (fun v n => 8 = n).
Proof.
  unfold read_double. eapply cs_bind; [apply cs_read_bytes|]. intros b n Hn (B & L). apply cs_if; intros E; [|apply cs_raise]. apply cs_ret. lia.
Qed.
Lemma cs_doubles : forall n, cs (read_doubles n) (fun l k => len l <= k).
Proof.
  intros n. unfold read_doubles. eapply cs_bind; [apply cs_read_bytes|]. intros b k Hk (B & L). apply cs_if; intros E; [|apply cs_raise]. apply cs_ret.
  rewrite map_length. assert (G : forall n (b : bytes), length (chunks n 8 b) = n) by (induction n0 as [|j IH]; intros b0; cbn [chunks length]; [|rewrite IH]; reflexivity).
  rewrite G. lia.
Qed.
Lemma decode_len : forall b t, cp1252_decode b = Ok t -> length t = length b.
Proof. intros b t D. apply encode_decode in D. apply encode_length in D. lia. Qed.
Lemma cs_str : forall n, cs (read_str n) (fun t k => len t <= k).
Proof.
  intros n. unfold read_str. apply cs_if; intros E; [apply cs_ret; cbn [length]; lia|]. eapply cs_bind; [apply cs_read_bytes|]. intros b k Hk (B & L).
  apply cs_lift. intros t D. apply decode_len in D. lia.
Qed.
Lemma cs_str_with_len : cs read_str_with_len (fun t k => 1 + len t <= k).
Proof. unfold read_str_with_len. eapply cs_bind; [apply cs_uvalue|]. intros n k Hk (_ & L). eapply cs_weaken; [apply cs_str|]. cbv beta. lia. Qed.
Lemma cs_str_all : cs read_str_all (fun t k => len t <= k).
Proof. unfold read_str_all. eapply cs_bind; [apply cs_read_all|]. intros b k Hk (B & L). apply cs_lift. intros t D. apply decode_len in D. lia. Qed.
Lemma cs_pair : cs read_pair (fun p n => 2 <= n).
Proof.
  unfold read_pair. eapply cs_bind; [apply cs_value|]. intros a n Hn (_ & L). eapply cs_bind; [apply cs_value|]. intros b m Hm (_ & M). apply cs_ret. lia.
Qed.

(** ** The parsers *)
Definition fits {A} (C : A -> value) (r : rd A) : Prop := cs r (fun a n => size (plain_py (C a)) <= 100 * n + 2000).
Ltac prim := first [apply cs_value | apply cs_uvalue | apply cs_int8 | apply cs_int16 | apply cs_int32 | apply cs_uint8 | apply cs_uint16 | apply cs_uint32
  | apply cs_double | apply cs_doubles | apply cs_str_with_len | apply cs_str_all | apply cs_str | apply cs_pair | apply cs_read_bytes | apply cs_read_all].
Ltac parts H := cbv beta in H; try match type of H with _ /\ _ => destruct H | True => clear H end.
Ltac bind L := eapply cs_bind; [L | let a := fresh "a" in let n := fresh "n" in let N := fresh "N" in let H := fresh "H" in intros a n N H; parts H].
Ltac keys := repeat match goal with |- context [Z.of_nat (length (py ?s))] =>
  let v := eval vm_compute in (Z.of_nat (length (py s))) in change (Z.of_nat (length (py s))) with v end.
Ltac proj := cbn [mm_mode mm_m2 mm_m3 mm_id v_mode v_m2 v_m3 v_id cc_language_id cc_platform_id cc_encoding_id cc_format cc_option cc_page_name kp_l kp_r kp_values fv_platform fv_version fv_owner bt_tag bt_data pc_font_number pc_pitch pc_x_height pc_style pc_type_family pc_cap_height pc_symbol_set pc_typeface pc_complement pc_file_name pc_stroke_weight pc_width_type pc_serif_style ps_font_matrix ps_force_bold ps_blue_values ps_other_blues ps_family_blues ps_family_other_blues ps_blue_scale ps_blue_shift ps_blue_fuzz ps_std_hw ps_std_vw ps_stem_snap_h ps_stem_snap_v ps_xMin ps_yMin ps_xMax ps_yMax ps_adv_width_min ps_adv_width_max ps_adv_width_avg ps_ascender ps_descender ps_x_height ps_cap_height po_named po_other gr_ppem gr_flags ts_value ts_name ts_stem ts_round tts_v tts_h tz_position tz_value tz_name tz_top tz_bottom vx_height vx_max vx_min nr_name nr_plat nr_enc nr_lang nr_text an_x an_y ap_hue ap_data ga_name ga_x ga_y gd_class gd_anchors gd_carets gd_ot_classes lk_x lk_y gm_pos gm_angle gs_h gs_v gp_index gp_color gp_name gps_h gps_v nd_type nd_flags nd_points in_cmd in_params mh_h mh_v mh_masks co_gid co_x co_y co_sx co_sy bn_flags bn_on bn_point mo_num_masters mo_nodes in_name in_values mk_weight_vector mk_outlines].
Ltac rws := repeat first [rewrite size_list | rewrite size_dict | rewrite size_plist | rewrite size_ints | rewrite size_doubles
  | rewrite size_strs | rewrite size_pair | rewrite size_pairs | rewrite size_str_dict | rewrite size_int_dict];
  cbn [sumz map fst snd app opt entry_size]; unfold entry_size; cbn [fst snd]; proj.
Ltac sizes := cbn [plain_py]; cbv beta delta [pd mapping_mode_py option_py cmap_py kern_pair_py fl_version_py binary_table_py pclt_py ps_info_py ps_options_py
  gasp_py tt_stem_py tt_stems_py tt_zone_py tt_zones_py vdmx_py name_record_py anchor_py anchor_props_py gdef_anchor_py gdef_py origin_py sketch_py links_py
  guide_py guides_py guide_prop_py guide_props_py node_py outlines_py mask_py instance_py pdouble]; rws; rws; rws.
Ltac done := apply cs_ret; sizes; keys; cbn [size]; try lia.
Lemma hex_len : forall b, length (hexStr b) = (2 * length b)%nat.
Proof. induction b as [|x b IH]; cbn [hexStr length]; [reflexivity|]. rewrite IH. lia. Qed.
Lemma bits_fuel : forall fuel v c l, binaryToIntList_loop fuel v c = Ok l -> (length l <= fuel)%nat.
Proof.
  induction fuel as [|f IH]; intros v c l E; cbn [binaryToIntList_loop] in E; [discriminate|]. destruct (v =? 0); [inversion E; cbn; lia|].
  destruct (binaryToIntList_loop f (Z.shiftr v 1) (c + 1)) as [l0|] eqn:E0; [|discriminate]. apply IH in E0.
  inversion E. destruct (Z.land v 1 =? 1); cbn [length]; lia.
Qed.
Lemma bits_len : forall v c l k, 1 <= k -> v < 2 ^ k -> binaryToIntList v c = Ok l -> len l <= k + 1.
Proof.
  intros v c l k Hk Hv E. apply bits_fuel in E. destruct (Z.le_gt_cases v 0) as [H|H].
  - rewrite Z.log2_nonpos in E by lia. cbn in E. lia.
  - assert (Z.log2 v < k) by (apply Z.log2_lt_pow2; lia). lia.
Qed.
Lemma f_hex : fits DStr parse_hex.
Proof. unfold fits, parse_hex. bind prim. done. rewrite hex_len. lia. Qed.
Lemma lstrip_len : forall s, (length (lstrip0 s) <= length s)%nat.
Proof. induction s as [|c s IH]; cbn [lstrip0]; [lia|]. destruct (c =? 0); cbn [length]; lia. Qed.
Lemma f_string : fits DStr parse_string.
Proof.
  unfold fits, parse_string. bind prim. done. unfold strip0. rewrite rev_length. pose proof (lstrip_len (rev (lstrip0 a))) as L.
  rewrite rev_length in L. pose proof (lstrip_len a). lia.
Qed.
Lemma f_fl_version : fits DFLVersion parse_fl_version.
Proof.
  unfold fits, parse_fl_version.
  apply (cs_loop _ _ _ (fun v _ => len (fv_platform v) <= 7 /\ len (fv_version v) <= 4)); [split; cbv; discriminate|].
  intros st k Hk (H1 & H2). bind prim. apply cs_if; intros E; [done|]. bind prim.
  apply cs_if; intros E1.
  { eapply cs_bind; [apply cs_lift with (Q := fun p n => len p <= 7)|].
    - intros p Hp. unfold aget_res, platform_names in Hp. cbn [aget] in Hp. destruct (a0 =? 0); [inversion Hp; cbv; discriminate|].
      destruct (a0 =? 1); [inversion Hp; cbv; discriminate|discriminate].
    - intros p n1 N1 Hp. apply cs_ret. cbn [fv_platform fv_version]. auto. }
  repeat (apply cs_if; intros ?); apply cs_ret; (split; [exact H1|]); first [exact H2|vm_compute; discriminate].
Qed.
Lemma f_encoding : fits DEncoding parse_encoding.
Proof. unfold fits, parse_encoding. bind prim. bind prim. done. Qed.
Lemma f_int16 : fits DInt parse_int16. Proof. eapply cs_weaken; [apply cs_uint16|]. cbv beta. cbn [plain_py size]. unfold pdouble. cbn [size]. lia. Qed.
Lemma f_sint16 : fits DInt parse_sint16. Proof. eapply cs_weaken; [apply cs_int16|]. cbv beta. cbn [plain_py size]. unfold pdouble. cbn [size]. lia. Qed.
Lemma f_sint32 : fits DInt parse_sint32. Proof. eapply cs_weaken; [apply cs_int32|]. cbv beta. cbn [plain_py size]. unfold pdouble. cbn [size]. lia. Qed.
Lemma f_double : fits DDouble parse_double. Proof. eapply cs_weaken; [apply cs_double|]. cbv beta. cbn [plain_py size]. unfold pdouble. cbn [size]. lia. Qed.

Definition holds {A} (C : A -> value) (r : rd A) : Prop :=
  forall b a, small b -> run_parser r b = Ok a -> size (plain_py (C a)) <= 100 * len b + 2000.
Lemma fits_holds : forall A (C : A -> value) r, fits C r -> holds C r.
Proof.
  intros A C r H b a Hb E. unfold run_parser in E. destruct (r b) as [x [|y s']|] eqn:R; try discriminate. inversion E; subst.
  destruct (H b a [] Hb R) as (_ & _ & S1). cbv beta in S1. cbn [length] in S1. lia.
Qed.
Lemma repeat_len : forall A (r : rd A) n s l s', rrepeat n r s = ROk l s' -> length l = n.
Proof.
  induction n as [|n IH]; intros s l s' E; cbn [rrepeat] in E; [inversion E; reflexivity|]. unfold rbind in E. destruct (r s) as [a s1|]; [|discriminate].
  destruct (rrepeat n r s1) as [l1 s2|] eqn:E1; [|discriminate]. inversion E; subst. cbn [length]. now rewrite (IH _ _ _ E1).
Qed.
Lemma filling_holds : forall A (r : rd A) (C : list A -> value) k, 1 <= k -> (forall l, size (plain_py (C l)) <= 1 + 3 * len l) ->
  holds C (fun s => rrange (len s / k) r s).
Proof.
  intros A r C k K H b a Hb E. unfold run_parser in E. destruct (rrange (len b / k) r b) as [x [|y s']|] eqn:R; try discriminate. inversion E; subst.
  apply repeat_len in R. specialize (H a). assert (len b / k <= len b) by (apply Z.div_le_upper_bound; nia). assert (0 <= len b / k) by (apply Z.div_pos; lia).
  rewrite R in H. lia.
Qed.
Lemma h_doubles : holds DDoubles parse_doubles.
Proof. apply filling_holds; [lia|]. intros l. sizes. lia. Qed.
Lemma h_int_list : holds DInts parse_int_list.
Proof. apply filling_holds; [lia|]. intros l. sizes. lia. Qed.
Lemma h_unicodes : holds DInts parse_unicodes.
Proof. apply filling_holds; [lia|]. intros l. sizes. lia. Qed.
Lemma h_unicodes_supp : holds DInts parse_unicodes_supp.
Proof. apply filling_holds; [lia|]. intros l. sizes. lia. Qed.
Lemma h_axis_mappings : holds DDoublePairs parse_axis_mappings.
Proof. apply filling_holds; [lia|]. intros l. sizes. rewrite (sumz_const _ 3). lia. Qed.
Lemma f_panose : fits DInts parse_panose.
Proof. unfold fits, parse_panose. bind prim. apply cs_if; intros E; [|apply cs_raise]. done. rewrite map_length. lia. Qed.
Lemma f_unicode_ranges : fits DInts parse_unicode_ranges.
Proof.
  unfold fits, parse_unicode_ranges. bind prim. apply cs_lift. intros l E. sizes. pose proof (le_dec_range a H) as R.
  destruct (Z.eq_dec (len a) 0) as [Z0|Z0]; [|apply bits_len with (k := 8 * len a) in E; lia].
  apply bits_len with (k := 1) in E; [lia|lia|]. rewrite Z0 in R. cbn in R. lia.
Qed.
Lemma f_values : fits DInts parse_values.
Proof.
  unfold fits, parse_values. apply (cs_loop _ _ _ (fun l n => len l <= n)); [cbn; lia|]. intros st k Hk J. apply cs_try_eof; [tot_auto| |].
  - bind prim. apply cs_ret. rewrite app_length. cbn [length]. lia.
  - intros n Hn. sizes. lia.
Qed.
Lemma cs_values : forall n, cs (rrange n read_value) (fun l k => len l <= k).
Proof.
  intros n. eapply cs_weaken; [apply (cs_range _ read_value (fun _ => 1) 1); eapply cs_weaken; [apply cs_value|cbv beta; lia]|].
  cbv beta. intros l k Hk H. rewrite sumz_const in H. lia.
Qed.
Lemma f_counted : fits DInts parse_counted.
Proof. unfold fits, parse_counted. bind prim. eapply cs_weaken; [apply cs_values|]. cbv beta. intros l k Hk L. sizes. lia. Qed.
Lemma sumz_aset : forall K V (eqb : K -> K -> bool) (mk : K -> Z) (mv : V -> Z), (forall k, 0 <= mk k) -> (forall v, 0 <= mv v) ->
  forall k v d, sumz (fun p => mk (fst p) + mv (snd p)) (aset eqb k v d) <= mk k + mv v + sumz (fun p => mk (fst p) + mv (snd p)) d.
Proof.
  intros K V eqb mk mv HK HV k v d. induction d as [|[k' v'] d IH]; cbn [aset sumz fst snd]; [lia|].
  specialize (HK k). specialize (HV v'). destruct (eqb k k'); cbn [sumz fst snd]; lia.
Qed.
Lemma f_class_flags : forall n, fits DFlags (parse_class_flags n).
Proof.
  intros n. unfold fits, parse_class_flags. bind prim.
  eapply cs_weaken; [apply (cs_times _ _ (fun d k => size (pstr_dict pints d) <= 3 * k + 1) _ _ 0); [lia|cbn; lia|]|].
  - intros d k Hk J. bind prim.
    eapply cs_bind; [apply (cs_repeat _ read_value (fun _ => 1) 1); eapply cs_weaken; [apply cs_value|cbv beta; lia]|]. intros fl m Hm (L & _).
    apply cs_ret. rewrite sumz_const in L. rewrite size_str_dict in *.
    pose proof (sumz_aset _ _ str_eqb (fun k : pystr => len k) (fun v => size (pints v)) ltac:(intros; cbv beta; lia) ltac:(intros; apply size_pos) a0 fl d) as G.
    cbv beta in G. rewrite size_ints in G. lia.
  - cbv beta. cbn [plain_py]. lia.
Qed.
Lemma get_or_str_len : forall t v, Forall (fun p => len (snd p) <= 60) t -> i32 v \/ byteZ v -> len (get_or_str t v) <= 60.
Proof.
  intros t v F V. unfold get_or_str. assert (D : len (dec_str v) <= 60) by (pose proof (dec_str_len v); unfold i32, byteZ in V; lia).
  induction F as [|[k s] t H F IH]; cbn [aget]; [exact D|]. destruct (v =? k); [exact H|exact IH].
Qed.
Lemma f_mapping_mode : fits DMappingMode parse_mapping_mode.
Proof.
  unfold fits, parse_mapping_mode. apply (cs_loop _ _ _ (fun v _ => forall s, v_mode v = Some s -> len s <= 60)); [discriminate|].
  intros st k Hk J. bind prim. apply cs_if; intros E.
  - destruct (v_mode st) as [md|] eqn:M; [|apply cs_raise]. destruct (v_m2 st); [|apply cs_raise]. destruct (v_m3 st); [|apply cs_raise].
    destruct (v_id st); [|apply cs_raise]. specialize (J md eq_refl). done.
  - bind prim. apply cs_if; intros E1.
    { apply cs_ret. cbn [v_mode]. intros s X. injection X as <-. apply get_or_str_len; [|auto]. repeat constructor; vm_compute; discriminate. }
    repeat (apply cs_if; intros ?); try apply cs_raise; apply cs_ret; exact J.
Qed.
Lemma f_binary_table : fits DBinaryTable parse_binary_table.
Proof. unfold fits, parse_binary_table. bind prim. bind prim. done. rewrite hex_len. lia. Qed.
Lemma cs_list : forall A (r : rd A) (f : A -> pyval) n, cs r (fun a n => size (f a) <= 100 * n) -> cs (rrange n r) (fun l k => size (plist f l) <= 100 * k + 1).
Proof. intros A r f n H. eapply cs_weaken; [apply (cs_range _ r (fun a => size (f a)) 100), H|]. cbv beta. intros l k Hk L. rewrite size_plist. lia. Qed.
Ltac list_of f := eapply cs_weaken; [apply (cs_list _ _ f)|cbv beta; intros; cbn [plain_py]; lia].
Lemma f_cmaps : fits DCmaps parse_custom_cmaps.
Proof. unfold fits, parse_custom_cmaps. bind prim. list_of cmap_py. unfold parse_custom_cmap. do 6 bind prim. done. Qed.
Lemma cs_pairs : forall n, cs (rrange n read_pair) (fun l k => 2 * len l <= k).
Proof.
  intros n. eapply cs_weaken; [apply (cs_range _ read_pair (fun _ => 2) 1); eapply cs_weaken; [apply cs_pair|cbv beta; lia]|].
  cbv beta. intros l k Hk H. rewrite sumz_const in H. lia.
Qed.
Definition row_size {A} (row : list A) : Z := 1 + 3 * len row.
Lemma f_anisotropic : fits DAxes parse_anisotropic.
Proof.
  unfold fits, parse_anisotropic. apply (cs_loop _ _ _ (fun l n => sumz row_size l <= 3 * n)); [cbn [sumz]; lia|].
  intros st k Hk J. change M_Simple.read_pair with read_pair. apply cs_try_eof; [tot_auto; unfold read_pair; tot_auto| |].
  - bind prim. bind ltac:(apply cs_pairs). apply cs_ret. rewrite sumz_app. cbn [sumz]. unfold row_size at 2. lia.
  - intros n Hn. cbn [plain_py]. rewrite size_plist. pose proof (sumz_le _ (fun a => size (ppairs a)) row_size st) as G. enough (Forall (fun a => size (ppairs a) <= row_size a) st) as F by (specialize (G F); lia).
    apply Forall_forall. intros a _. rewrite size_pairs. unfold row_size. lia.
Qed.
Lemma cs_fixed : forall A (r : rd A) n, cs r (fun _ _ => True) -> cs (rrepeat n r) (fun l k => len l = Z.of_nat n).
Proof.
  intros A r n H. eapply cs_weaken; [apply (cs_repeat _ r (fun _ => 0) 0); eapply cs_weaken; [exact H|cbv beta; lia]|]. cbv beta. tauto.
Qed.
Ltac fixed := apply cs_fixed; eapply cs_weaken; [prim|auto].
Lemma f_axis_counts : fits DInts parse_axis_counts.
Proof. unfold fits, parse_axis_counts. eapply cs_weaken; [fixed|]. cbv beta. intros l k Hk L. sizes. lia. Qed.
Lemma f_master_location : fits DMasterLocation parse_master_location.
Proof. unfold fits, parse_master_location. bind prim. bind fixed. done. Qed.
Lemma f_pclt : fits DPclt parse_pclt.
Proof. unfold fits, parse_pclt. do 7 bind prim. bind prim. bind fixed. do 4 bind prim. done. Qed.
Lemma f_ps_info : fits DPSInfo parse_ps_info.
Proof.
  unfold fits, parse_ps_info. bind prim. bind prim. do 4 bind fixed. do 5 bind prim. do 2 bind fixed. do 11 bind prim. done.
Qed.
Lemma take_named_len : forall opts bits, Forall (fun p : pystr * Z => len (fst p) <= 60) opts ->
  len (snd (take_named opts bits)) <= len bits /\ sumz (fun p : pystr * Z => len (fst p) + 1) (fst (take_named opts bits)) <= 61 * len opts.
Proof.
  induction opts as [|[k bit] opts IH]; intros bits F; cbn [take_named]; [cbn [fst snd sumz length]; lia|]. inversion F as [|? ? H1 H2]; subst. cbn [fst] in H1.
  destruct (existsb (Z.eqb bit) bits).
  - specialize (IH (filter (fun b => negb (b =? bit)) bits) H2). destruct (take_named opts _) as [d r]. cbn [fst snd sumz length] in *.
    assert (len (filter (fun b => negb (b =? bit)) bits) <= len bits) by (clear; induction bits as [|x l IH]; cbn [filter length]; [lia|]; destruct (negb (x =? bit)); cbn [length]; lia).
    lia.
  - specialize (IH bits H2). cbn [length]. lia.
Qed.
Lemma f_ps_options : forall opts r, (length opts <= 3)%nat -> Forall (fun p : pystr * Z => len (fst p) <= 60) opts -> cs r (fun v n => v < 2 ^ 32) ->
  fits DPSOptions (parse_ps_options opts r).
Proof.
  intros opts r L F R. unfold fits, parse_ps_options. bind ltac:(exact R).
  eapply cs_bind; [apply (cs_lift _ _ (fun l _ => len l <= 33)); intros l E; apply bits_len with (k := 32) in E; lia|]. intros bits m Hm B. cbv beta in B.
  destruct (take_named opts bits) as [d other] eqn:T. pose proof (take_named_len opts bits F) as (L1 & L2). rewrite T in L1, L2. cbn [fst snd] in L1, L2.
  done. rewrite sumz_app, sumz_map. cbn [fst snd sumz size]. rewrite size_ints. keys. lia.
Qed.
Lemma f_ps_global : fits DPSOptions parse_ps_global.
Proof.
  apply f_ps_options; [cbn; lia|repeat constructor; vm_compute; discriminate|].
  eapply cs_weaken; [apply cs_tot; [apply tot_uint16|apply rps_uint16]|]. cbv beta. unfold u16. lia.
Qed.
Lemma f_ps_glyph : fits DPSOptions parse_ps_glyph.
Proof.
  apply f_ps_options; [cbn; lia|repeat constructor; vm_compute; discriminate|].
  eapply cs_weaken; [apply cs_tot; [apply tot_uint32|apply rps_uint32]|]. cbv beta. unfold w32. lia.
Qed.
Lemma f_export_options : fits DOptionList parse_export_options.
Proof.
  unfold fits, parse_export_options. eapply cs_bind; [apply cs_tot; [apply tot_uint16|apply rps_uint16]|]. intros v n Hn V.
  eapply cs_bind; [apply (cs_lift _ _ (fun l _ => len l <= 17)); intros l E; apply bits_len with (k := 16) in E; unfold u16 in V; lia|]. intros bits m Hm B. cbv beta in B.
  apply cs_ret. cbn [plain_py]. rewrite size_plist, sumz_map.
  pose proof (sumz_bound _ (fun b => size (option_py (export_name b))) 60 bits) as G. enough (Forall (fun b => size (option_py (export_name b)) <= 60) bits) as F by (specialize (G F); lia). apply Forall_forall. intros b _.
  unfold export_name, export_options. cbn [aget]. repeat (match goal with |- context [b =? ?k] => destruct (b =? k) end; [vm_compute; discriminate|]). cbn [option_py size]. lia.
Qed.
Lemma f_links : fits DLinks parse_links.
Proof. unfold fits, parse_links. bind prim. bind ltac:(apply cs_pairs). bind prim. bind ltac:(apply cs_pairs). done. Qed.
Lemma f_int16_pair : fits DOrigin parse_int16_pair.
Proof. unfold fits, parse_int16_pair. bind prim. bind prim. done. Qed.
Lemma f_mask_metrics : fits DPair parse_int16_pair.
Proof. unfold fits, parse_int16_pair. bind prim. bind prim. done. Qed.
Lemma f_mask_metrics_mm : forall n, fits DPairs (parse_mask_metrics_mm n).
Proof. intros [n|]; unfold fits, parse_mask_metrics_mm; [|apply cs_raise]. eapply cs_weaken; [apply cs_pairs|]. cbv beta. intros. sizes. lia. Qed.
Lemma f_sketch : fits DSketch parse_sketch.
Proof. unfold fits, parse_sketch. bind prim. list_of sketch_py. unfold read_triple. do 3 bind prim. done. Qed.
Lemma f_anchor_props : fits DAnchorProps parse_anchor_props.
Proof. unfold fits, parse_anchor_props. bind prim. list_of anchor_props_py. do 2 bind prim. done. Qed.
Lemma f_vdmx : fits DVdmx parse_vdmx.
Proof. unfold fits, parse_vdmx. bind prim. list_of vdmx_py. do 3 bind prim. done. Qed.
Lemma f_gasp : fits DGasp parse_gasp.
Proof.
  unfold fits, parse_gasp. bind prim. eapply cs_bind; [apply (cs_lift _ _ (fun l _ => len l <= len a))|].
  - assert (G : forall k (b : bytes) l, (length b <= k)%nat -> unpack_H b = Ok l -> (length l <= length b)%nat); [|intros l E; apply (G (length a)) in E; lia].
    induction k as [|k IH]; intros [|x [|y b]] l L E; cbn [unpack_H length] in *; try discriminate; try lia; try (inversion E; cbn [length]; lia).
    destruct (unpack_H b) as [l'|] eqn:U; [|discriminate]. inversion E; subst. cbn [length]. apply IH in U; lia.
  - intros l m Hm L. cbv beta in L. done. rewrite (sumz_const _ 15).
    assert (G : forall k (l : list Z), (length l <= k)%nat -> (length (pairs l) <= length l)%nat); [|specialize (G (length l) l); lia].
    induction k as [|k IH]; intros [|x [|y b]] K; cbn [pairs length] in *; try lia. specialize (IH b). lia.
Qed.
Ltac shell f := apply cs_ret; cbn [plain_py]; unfold f, pd; proj; cbn [opt app map fst snd]; rewrite size_dict; cbn [sumz]; unfold entry_size; cbn [fst snd]; keys; try lia.
Lemma f_zones : fits DZones parse_tt_zones.
Proof.
  unfold fits, parse_tt_zones. assert (Z1 : forall n, cs (rrange n parse_tt_zone) (fun l k => size (plist tt_zone_py l) <= 100 * k + 1)).
  { intros n. apply cs_list. unfold parse_tt_zone. do 3 bind prim. done. }
  bind prim. bind ltac:(apply Z1). bind prim. bind ltac:(apply Z1). shell tt_zones_py.
Qed.
Lemma f_stems : fits DStems parse_tt_stems.
Proof.
  unfold fits, parse_tt_stems. assert (Z1 : forall n, cs (rrange n parse_tt_stem) (fun l k => size (plist tt_stem_py l) <= 100 * k + 1)).
  { intros n. apply cs_list. unfold parse_tt_stem. do 3 bind prim. eapply cs_bind; [apply (cs_lift _ _ (fun t _ => len t = len a1)); intros t D; apply decode_len in D; lia|].
    intros t m Hm T. cbv beta in T. bind prim. done. change (len (dec_str 6)) with 1. lia. }
  bind prim. bind ltac:(apply Z1). bind prim. bind ltac:(apply Z1). shell tt_stems_py.
Qed.
Lemma foldM_values : forall ks d, cs (rfoldM (fun d k => ppm <- read_value ;; ret (aset Z.eqb k ppm d)) d ks) (fun d' n => len ks <= n).
Proof.
  induction ks as [|k ks IH]; intros d; cbn [rfoldM]; [apply cs_ret; cbn [length]; lia|].
  eapply cs_bind with (Q := fun _ n => 1 <= n); [bind prim; apply cs_ret; lia|]. intros d' n Hn H. eapply cs_weaken; [apply IH|]. cbv beta. cbn [length]. lia.
Qed.
Definition small_keys (ks : list Z) : Prop := NoDup ks /\ 1 <= len ks <= 4 /\ Forall (fun k => len (dec_str k) <= 1) ks.
Lemma combine_keys : forall (ks ppms : list Z), length ppms = length ks -> map fst (combine ks ppms) = ks.
Proof. induction ks as [|k ks IH]; intros [|p ppms] L; try discriminate; [reflexivity|]. cbn [combine map fst]. f_equal. apply IH. now injection L. Qed.
Lemma stem_size : forall i ks ppms, Forall (fun k => len (dec_str k) <= 1) ks -> length ppms = length ks ->
  size (tt_stem_py (TTStem None None (Some i) (combine ks ppms))) <= 12 + 2 * len ks.
Proof.
  intros i ks ppms F Lp.
  assert (G : sumz (fun p => len (dec_str (fst p)) + size (PInt (snd p))) (combine ks ppms) <= 2 * len ks).
  { revert ppms Lp. induction F as [|k ks Hk F IH]; intros [|p ppms] Lp; try discriminate; cbn [combine sumz fst snd size length].
    injection Lp as Lp. specialize (IH ppms Lp). cbn [size] in IH. lia. }
  cbv beta delta [tt_stem_py]. proj. cbn [opt app]. rws. rws. keys. cbn [size] in *. lia.
Qed.
Lemma cs_ppems_dir : forall ks n, small_keys ks -> cs (parse_ppems_dir ks n) (fun l k => size (plist tt_stem_py l) <= 100 * k + 1).
Proof.
  intros ks n (N & L & F). unfold parse_ppems_dir.
  eapply cs_bind; [apply (cs_times _ _ (fun st k => (snd st = [] \/ map fst (snd st) = ks) /\ sumz (fun s => size (tt_stem_py s)) (fst st) <= 100 * k) _ _ 0)|].
  - lia.
  - cbn [fst snd sumz]. split; [auto|lia].
  - intros [dir d] k Hk (J1 & J2). cbn [fst snd] in J1, J2. unfold ppems_turn.
    eapply cs_bind; [apply cs_and; [apply rps_foldM_values; [exact N|exact J1]|apply foldM_values]|]. intros d' m Hm ((ppms & -> & Lp & _) & M).
    apply cs_ret. cbn [fst snd]. rewrite combine_keys by exact Lp. split; [auto|]. rewrite sumz_app. cbn [sumz]. pose proof (stem_size (len dir) ks ppms F Lp). cbv beta in *. lia.
  - intros [dir d] k Hk (_ & J). cbn [fst snd] in J. cbv beta in J. apply cs_ret. rewrite size_plist. cbn [fst]. lia.
Qed.
Lemma f_ppems : forall ks, small_keys ks -> fits DStems (parse_ppems ks).
Proof.
  intros ks K. unfold fits, parse_ppems. bind prim. bind ltac:(apply cs_ppems_dir, K). bind prim. bind ltac:(apply cs_ppems_dir, K). shell tt_stems_py.
Qed.
Ltac small_list := split; [repeat constructor; cbn; intuition lia|split; [cbn; lia|repeat constructor; vm_compute; discriminate]].
Lemma f_ppems2345 : fits DStems parse_stem_ppems. Proof. apply f_ppems. small_list. Qed.
Lemma f_ppems23 : fits DStems parse_stem_ppems23. Proof. apply f_ppems. small_list. Qed.
Lemma f_ppems1 : forall v h, fits DStems (parse_stem_ppems1 v h).
Proof.
  intros v h. assert (K : small_keys [1]) by small_list. unfold fits, parse_stem_ppems1. destruct v; [|apply cs_raise]. bind ltac:(apply cs_ppems_dir, K).
  destruct h; [|apply cs_raise]. bind ltac:(apply cs_ppems_dir, K). shell tt_stems_py.
Qed.
Definition deltas_size (d : zone_deltas) : Z := sumz (fun p => len (dec_str (fst p)) + size (pint_dict PInt (snd p))) d.
Lemma deltas_turn_size : forall index ppm shift d, len (dec_str index) <= 11 -> len (dec_str ppm) <= 11 ->
  deltas_size (match aget Z.eqb index d with
       | Some spec => aset Z.eqb index (aset Z.eqb ppm shift spec) d
       | None => aset Z.eqb index [(ppm, shift)] d
       end) <= deltas_size d + 30.
Proof.
  intros index ppm shift d I P. destruct (aget Z.eqb index d) as [spec|] eqn:G.
  - assert (X : size (pint_dict PInt (aset Z.eqb ppm shift spec)) <= size (pint_dict PInt spec) + 12).
    { rewrite !size_int_dict. pose proof (sumz_aset _ _ Z.eqb (fun k => len (dec_str k)) (fun v => size (PInt v)) ltac:(intros; cbv beta; lia) ltac:(intros; apply size_pos) ppm shift spec) as E.
      cbv beta in E. cbn [size] in *. lia. }
    unfold deltas_size. induction d as [|[k v] d IH]; cbn [aget aset] in *; [discriminate|]. destruct (index =? k).
    + injection G as ->. cbn [sumz fst snd]. lia.
    + specialize (IH G). cbn [sumz fst snd]. lia.
  - pose proof (sumz_aset _ _ Z.eqb (fun k => len (dec_str k)) (fun v => size (pint_dict PInt v)) ltac:(intros; cbv beta; lia) ltac:(intros; apply size_pos) index [(ppm, shift)] d) as E.
    cbv beta in E. rewrite size_int_dict in E. cbn [sumz fst snd size] in E. unfold deltas_size. lia.
Qed.
Lemma f_deltas : fits DDeltas parse_zone_deltas.
Proof.
  unfold fits, parse_zone_deltas. bind prim. eapply cs_weaken; [apply (cs_times _ _ (fun d k => deltas_size d <= 100 * k) _ _ 0); [lia|cbn; lia|]|].
  - intros d k Hk J. unfold deltas_turn. do 3 bind prim. apply cs_ret. pose proof (deltas_turn_size a0 a1 a2 d) as T.
    pose proof (dec_str_len a0). pose proof (dec_str_len a1). unfold i32 in *. lia.
  - cbv beta. intros d k Hk J. cbn [plain_py]. rewrite size_int_dict. unfold deltas_size in J. lia.
Qed.
Lemma f_instances : fits DInstances parse_instances.
Proof.
  unfold fits, parse_instances. bind prim. list_of instance_py. unfold parse_instance. bind prim.
  eapply cs_bind; [apply (cs_repeat _ _ (fun v => size (pnum v)) 1); bind prim; apply cs_ret; cbn [pnum size]; lia|]. intros l m Hm (L & _). cbv beta in L. done.
Qed.
Lemma name_text_len : forall A B (f : A -> res B) l l', res_map f l = Ok l' -> length l' = length l.
Proof.
  induction l as [|x l IH]; intros l' E; cbn [res_map] in E; [inversion E; reflexivity|]. unfold rthen, rmap in E. destruct (f x); [|discriminate].
  destruct (res_map f l) as [l1|] eqn:E1; [|discriminate]. inversion E; subst. cbn [length]. now rewrite (IH l1).
Qed.
Lemma f_names : fits DNames parse_name_records.
Proof.
  unfold fits, parse_name_records. bind prim. list_of name_record_py. unfold parse_name_record. do 5 bind prim. bind ltac:(apply cs_values).
  eapply cs_bind; [apply (cs_lift _ _ (fun t _ => len t = len a5)); intros t T; apply name_text_len in T; lia|]. intros t m Hm T. cbv beta in T. done.
Qed.
Lemma f_guide_props : fits DGuideProps parse_guide_props.
Proof.
  assert (Z1 : cs (rloop guide_props_turn []) (fun l k => size (plist guide_prop_py l) <= 100 * k + 1)).
  { apply (cs_loop _ _ _ (fun l k => size (plist guide_prop_py l) <= 100 * k + 1)); [vm_compute; discriminate|]. intros l k Hk J. unfold guide_props_turn. bind prim.
    apply cs_if; intros E; [apply cs_ret; lia|]. bind prim. bind prim. apply cs_ret. rewrite size_plist in *. rewrite sumz_app. cbn [sumz].
    assert (G : size (guide_prop_py (GuideProp a (guide_color a0) (some_if_text a1))) <= 80 + len a1); [|lia].
    assert (C : forall s, guide_color a0 = Some s -> len s <= 40).
    { unfold guide_color. intros s X. destruct (-1 <? a0) eqn:P; [|discriminate]. injection X as <-. cbn [app length]. unfold swap_color, slice, slice_from.
      rewrite !app_length, !firstn_length, !skipn_length. assert (H6 : (length (hex06 a0) <= 38)%nat); [|change (length (py "#")) with 1%nat; lia].
      unfold hex06. rewrite app_length, repeat_length. unfold hex_nat.
      assert (HD : forall f n, (length (hex_digits f n) <= f)%nat).
      { induction f as [|f IH]; intros n2; cbn [hex_digits]; [cbn; lia|]. destruct (n2 <? 16); cbn [length]; [lia|]. rewrite app_length. specialize (IH (n2 / 16)). cbn [length]. lia. }
      specialize (HD (S (Z.to_nat (Z.log2 a0))) a0). assert (Z.log2 a0 < 31); [|lia].
      destruct (Z.eq_dec a0 0) as [->|]; [reflexivity|]. apply Z.log2_lt_pow2; unfold i32 in *; lia. }
    unfold guide_prop_py. proj. rewrite size_dict. rewrite size_dict || idtac. cbn [sumz]. unfold entry_size at 1. cbn [fst snd]. rewrite sumz_app.
    destruct (guide_color a0) as [c|]; [specialize (C c eq_refl)|]; destruct a1 as [|x t]; cbn [some_if_text opt sumz]; unfold entry_size; cbn [fst snd size]; keys; lia. }
  unfold fits, parse_guide_props. bind ltac:(exact Z1). bind ltac:(exact Z1). shell guide_props_py.
Qed.
Lemma size_some : forall A k (f : A -> pyval) l, sumz entry_size (opt k (plist f) (some_if_any l)) <= len (py k) + size (plist f l).
Proof. intros A k f [|x l]; cbn [some_if_any opt sumz]; [pose proof (size_pos (plist f [])); lia|]. unfold entry_size. cbn [fst snd]. lia. Qed.
Lemma index_in : forall A (l : list A) i a, py_index l i = Ok a -> In a l.
Proof.
  intros A l i a E. unfold py_index in E. cbv zeta in E. destruct (_ || _)%bool; [discriminate|].
  destruct (nth_error l _) as [x|] eqn:N; [|discriminate]. injection E as <-. eapply nth_error_In. exact N.
Qed.
Lemma f_gdef : fits DGdef parse_gdef.
Proof.
  unfold fits, parse_gdef. bind prim.
  eapply cs_bind; [apply (cs_lift _ _ (fun t _ => len t <= 20))|].
  { intros t T. assert (I : In t gdef_class_names) by (revert T; apply index_in).
    cbn in I. repeat (destruct I as [<-|I]; [vm_compute; discriminate|]). destruct I. }
  intros t m Hm T. cbv beta in T. bind prim.
  bind ltac:(apply (cs_list _ _ gdef_anchor_py); unfold parse_gdef_anchor; do 5 bind prim; apply cs_ret; destruct a1 as [|x t1]; cbn [some_if_text]; sizes; keys; cbn [size]; try lia).
  bind prim. bind ltac:(apply cs_pairs). bind prim. bind ltac:(apply cs_values). apply cs_ret. cbn [plain_py]. unfold gdef_py. proj.
  rewrite size_dict, !sumz_app. pose proof (size_some _ "anchors" gdef_anchor_py a1). pose proof (size_some _ "carets" ppair a3). pose proof (size_some _ "ot_classes" PInt a5).
  change (size (plist ppair a3)) with (size (ppairs a3)) in *. change (size (plist PInt a5)) with (size (pints a5)) in *. rewrite size_pairs in *. rewrite size_ints in *.
  change (plist ppair) with ppairs in *. change (plist PInt) with pints in *. assert (X : sumz entry_size (opt "glyph_class" PStr (if str_eqb t (py "unassigned") then None else Some t)) <= 40).
  { destruct (str_eqb t (py "unassigned")); cbn [opt sumz]; [lia|]. unfold entry_size. cbn [fst snd size]. keys. lia. }
  revert H10 H11 H12. keys. lia.
Qed.

(** *** outlines *)
Lemma map2_len : forall A B C (f : A -> B -> C) l m, (length (map2 f l m) <= length m)%nat.
Proof. induction l as [|x l IH]; intros [|y m]; cbn [map2 length]; try lia. specialize (IH m). lia. Qed.
Lemma cs_row : forall n ref, cs (read_row n ref) (fun row k => 2 * len row <= k).
Proof.
  intros n ref. unfold read_row. bind ltac:(apply cs_pairs). apply cs_ret. pose proof (map2_len _ _ _ padd ref a). lia.
Qed.
Lemma add_row_size : forall points row, Forall (fun ps => 1 <= row_size ps) points ->
  sumz (@row_size (Z * Z)) (add_row points row) <= sumz row_size points + 3 * len row.
Proof.
  induction points as [|ps points IH]; intros [|p row] F; unfold add_row in *; cbn [map2 sumz length]; try lia.
  - inversion F as [|? ? F1 F2]; subst. assert (0 <= sumz row_size points) by (clear - F2; induction F2; cbn [sumz]; lia). lia.
  - inversion F as [|? ? F1 F2]; subst. specialize (IH row F2). unfold row_size at 1. rewrite app_length. unfold row_size at 2. cbn [length]. lia.
Qed.
Lemma row_pos : forall A (l : list (list A)), Forall (fun ps => 1 <= row_size ps) l.
Proof. intros A l. apply Forall_forall. intros ps _. unfold row_size. lia. Qed.
Lemma add_first_size : forall n row, sumz (@row_size (Z * Z)) (add_row (repeat [] n) row) <= 4 * len row.
Proof.
  induction n as [|n IH]; intros [|p row]; unfold add_row in *; cbn [repeat map2 sumz length app]; try lia. specialize (IH row). unfold row_size at 1. cbn [length]. lia.
Qed.
Lemma node_size : forall n, size (node_py n) <= 25 + sumz row_size (nd_points n).
Proof.
  intros [c f p]. unfold node_py, pd. proj. cbn [map fst snd]. rewrite size_dict. cbn [sumz]. unfold entry_size. cbn [fst snd]. keys. rewrite size_plist.
  assert (G : sumz (fun a => size (ppairs a)) p <= sumz row_size p) by (apply sumz_le, Forall_forall; intros a _; rewrite size_pairs; unfold row_size; lia).
  assert (P : size (path_cmd_py c) <= 7) by (destruct c; vm_compute; discriminate). cbn [size]. lia.
Qed.
Lemma cs_row1 : forall n ref, 1 <= n -> cs (read_row n ref) (fun row k => 2 <= k /\ 2 * len row <= k).
Proof.
  intros n ref N. unfold read_row, rrange.
  bind ltac:(apply (cs_repeat _ read_pair (fun _ => 2) 1); eapply cs_weaken; [apply cs_pair|cbv beta; lia]). rewrite sumz_const in H.
  apply cs_ret. pose proof (map2_len _ _ _ padd ref a). lia.
Qed.
Notation nodes_size := (sumz (fun x => size (node_py x))).
Lemma outlines_turn_size : forall n st k, 1 <= n -> nodes_size (fst st) <= 100 * k ->
  cs (outlines_turn n st) (fun st' m => nodes_size (fst st') <= 100 * (k + m)).
Proof.
  intros n [segs ref] k N J. cbn [fst] in J. unfold outlines_turn. bind prim. bind ltac:(apply (cs_lift _ _ (fun _ _ => True)); auto). bind ltac:(apply cs_row1, N).
  pose proof (add_first_size (Z.to_nat n) a1) as A1.
  assert (S1 : forall c f pts b, sumz row_size pts <= b -> nodes_size (segs ++ [MMNode c f pts]) <= 100 * k + 25 + b).
  { intros c f pts b Hb. rewrite sumz_app. cbn [sumz]. pose proof (node_size (MMNode c f pts)) as X. cbn [nd_points] in X. lia. }
  destruct a0; try (apply cs_ret; cbn [fst]; specialize (S1 Move (Z.shiftr a 4) _ _ A1) as X; first [pose proof (S1 Move (Z.shiftr a 4) _ _ A1)|idtac]; first [pose proof (S1 Line (Z.shiftr a 4) _ _ A1)|idtac]; pose proof (S1 QCurve (Z.shiftr a 4) _ _ A1); lia).
  bind ltac:(apply cs_row1, N). bind ltac:(apply cs_row1, N). apply cs_ret. cbn [fst].
  pose proof (add_row_size (add_row (repeat [] (Z.to_nat n)) a1) a0 (row_pos _ _)) as A2. pose proof (add_row_size (add_row (add_row (repeat [] (Z.to_nat n)) a1) a0) a2 (row_pos _ _)) as A3.
  assert (A4 : sumz row_size (add_row (add_row (add_row (repeat [] (Z.to_nat n)) a1) a0) a2) <= 4 * len a1 + 3 * len a0 + 3 * len a2) by lia.
  pose proof (S1 Curve (Z.shiftr a 4) _ _ A4). lia.
Qed.
Lemma tot_outlines_turn : forall n st, tot (outlines_turn n st).
Proof.
  intros n [segments ref]. unfold outlines_turn. apply tot_bind; [apply tot_uint8|]. intros b. apply tot_bind; [apply P_Glyph3.tot_path_command|]. intros c.
  apply tot_bind; [apply P_Glyph3.tot_row|]. intros r1. destruct c; try apply tot_ret. apply tot_bind; [apply P_Glyph3.tot_row|]. intros r2. apply tot_bind; [apply P_Glyph3.tot_row|]. intros r3. apply tot_ret.
Qed.
Lemma cs_outlines : cs parse_outlines (fun r k => 1 <= fst r -> size (plist node_py (snd r)) <= 100 * k + 1).
Proof.
  unfold parse_outlines. do 3 bind prim. destruct (Z.leb_spec 1 a) as [Na|Na].
  - eapply cs_bind; [apply (cs_times _ _ (fun st k => nodes_size (fst st) <= 100 * k) _ _ 0); [lia|cbn [fst sumz]; lia|]|].
    + intros st k Hk J. now apply outlines_turn_size.
    + intros st k Hk J. cbv beta in J. apply cs_ret. cbn [fst snd]. intros _. rewrite size_plist. lia.
  - eapply cs_bind; [apply cs_tot with (P := fun _ => True)|].
    + apply tot_times. intros st. apply tot_outlines_turn.
    + apply rps_true, tot_times. intros st. apply tot_outlines_turn.
    + intros st k Hk _. apply cs_ret. cbn [fst]. lia.
Qed.

(** *** what needs a master in the data or in the font *)
Definition fits_if {A} (P : A -> Prop) (C : A -> value) (r : rd A) : Prop := cs r (fun a n => P a -> size (plain_py (C a)) <= 100 * n + 2000).
Lemma f_global_mask : fits_if (fun m => 1 <= mo_num_masters m) DGlobalMask parse_global_mask.
Proof.
  unfold fits_if, parse_global_mask. bind ltac:(apply cs_outlines). apply cs_ret. proj. intros M. specialize (H M). cbn [plain_py]. unfold outlines_py. proj.
  rewrite size_dict. cbn [opt sumz]. unfold entry_size. cbn [fst snd]. keys. cbn [size]. lia.
Qed.
Lemma f_mask : fits_if (fun m => 1 <= mo_num_masters (mk_outlines m)) DMask parse_mask.
Proof.
  unfold fits_if, parse_mask. bind prim. bind ltac:(apply (cs_range _ _ (fun v => size (pnum v)) 1); bind prim; apply cs_ret; cbn [pnum size]; lia).
  bind ltac:(apply cs_outlines). apply cs_ret. proj. intros M. specialize (H2 M). cbn [plain_py]. unfold mask_py, outlines_py. proj.
  rewrite size_dict. cbn [opt sumz]. unfold entry_size. cbn [fst snd]. keys. rewrite (size_plist _ pnum). cbn [size]. lia.
Qed.
Lemma f_anchors : fits_if (Forall (fun a => an_x a <> [])) DAnchors parse_anchors.
Proof.
  unfold fits_if, parse_anchors. do 2 bind prim.
  eapply cs_weaken; [apply (cs_range _ _ (fun a => match an_x a with [] => 0 | _ => size (anchor_py a) end) 100)|].
  - bind ltac:(apply cs_pairs). apply cs_ret. proj. destruct a1 as [|p l]; cbn [map]; [lia|].
    change (size (anchor_py (MMAnchor (map fst (p :: l)) (map snd (p :: l)))) <= 100 * (n1 + 0)). sizes. keys. cbn [map length] in *. rewrite !map_length. lia.
  - cbv beta. intros l k Hk L F. cbn [plain_py]. rewrite size_plist. enough (E : sumz (fun a => size (anchor_py a)) l = sumz (fun a => match an_x a with [] => 0 | _ => size (anchor_py a) end) l) by lia.
    clear - F. induction F as [|x l Hx F IH]; cbn [sumz]; [reflexivity|]. rewrite IH. destruct (an_x x); [congruence|reflexivity].
Qed.
Lemma cs_guide : forall o n, 1 <= n -> cs (rrange n (read_guide_master o)) (fun g k => size (plist guide_py g) <= 100 * k).
Proof.
  intros o n N. unfold rrange. eapply cs_weaken; [apply (cs_repeat _ _ (fun g => size (guide_py g) + 1) 100)|].
  - unfold read_guide_master. do 2 bind prim. apply cs_ret. sizes. keys. cbn [size]. lia.
  - cbv beta. intros g k Hk (L & E). rewrite size_plist.
    assert (X : sumz (fun a => size (guide_py a)) g + len g <= 100 * k); [|lia].
    replace (sumz (fun a => size (guide_py a)) g + len g) with (sumz (fun g => size (guide_py g) + 1) g); [exact L|].
    clear. induction g as [|x g IH]; cbn [sumz length]; lia.
Qed.
Lemma f_guides : forall o n, 1 <= n -> fits DGuides (parse_global_guides o (Some n)).
Proof.
  intros o n N. unfold fits, parse_global_guides, parse_guides. apply (cs_bind _ _ _ _ (fun g k => size (guides_py g) <= 100 * k + 50)).
  - bind prim. bind ltac:(apply (cs_list _ _ (plist guide_py)), cs_guide, N). bind prim. bind ltac:(apply (cs_list _ _ (plist guide_py)), cs_guide, N).
    shell guides_py.
  - intros g k Hk H. cbv beta in H. bind prim. unfold rassert. bind ltac:(apply cs_if; intros ?; [apply (cs_ret _ _ (fun _ _ => True)); exact I|apply cs_raise]).
    apply cs_ret. cbn [plain_py]. lia.
Qed.
Lemma f_kern_pair : forall n, n <= 1000 -> fits DKernPair (parse_kern_pair n).
Proof.
  intros n N. unfold fits, parse_kern_pair. do 2 bind prim.
  bind ltac:(unfold rrange; apply (cs_repeat _ read_int16 (fun _ => 0) 0); eapply cs_weaken; [apply cs_int16|cbv beta; lia]). done.
Qed.

(** *** OpenType lines *)
Notation text_size := (sumz (fun l : pystr => 1 + len l)).
Lemma splitlines_size : forall n s cur, (length s <= n)%nat -> text_size (splitlines_from cur s) <= 1 + len cur + 2 * len s.
Proof.
  induction n as [|n IH]; intros s cur L.
  - destruct s; [|cbn [length] in L; lia]. cbn [splitlines_from]. destruct cur; cbn [sumz length]; lia.
  - destruct s as [|c s]; [cbn [splitlines_from]; destruct cur; cbn [sumz length]; lia|]. cbn [length] in L. cbn [splitlines_from].
    destruct (line_break c).
    + cbn [sumz]. destruct s as [|d s2]; [cbn [splitlines_from sumz length]; lia|]. destruct (_ && _)%bool.
      * cbn [length] in *. specialize (IH s2 [] ltac:(lia)). cbn [length] in IH. lia.
      * specialize (IH (d :: s2) [] ltac:(lia)). cbn [length] in *. lia.
    + specialize (IH s (cur ++ [c]) ltac:(lia)). rewrite app_length in IH. cbn [length] in *. lia.
Qed.
Lemma filter_size : forall ls c, text_size (filter_blank c ls) <= text_size ls.
Proof.
  induction ls as [|l ls IH]; intros c; cbn [filter_blank sumz]; [lia|]. destruct (negb (blank l)); cbn [sumz]; [specialize (IH 0); lia|].
  specialize (IH (c + 1)). destruct (c <? 2); cbn [sumz]; lia.
Qed.
Lemma pop_size : forall rl l, pop_empty rl = Ok l -> text_size l <= text_size rl.
Proof.
  induction rl as [|x rl IH]; intros l E; cbn [pop_empty] in E; [discriminate|]. destruct x as [|c x]; [specialize (IH l E); cbn [sumz length]; lia|].
  injection E as <-. lia.
Qed.
Lemma rev_size : forall l, text_size (rev l) = text_size l.
Proof. induction l as [|x l IH]; cbn [rev sumz]; [reflexivity|]. rewrite sumz_app. cbn [sumz]. lia. Qed.
Lemma normalize_size : forall ls l, normalize_lines ls = Ok l -> text_size l <= text_size ls + 1.
Proof.
  intros ls l E. unfold normalize_lines in E. cbv zeta in E. pose proof (filter_size ls 0) as F. destruct (1 <? len (filter_blank 0 ls)).
  - destruct (pop_empty (rev (filter_blank 0 ls))) as [rl|] eqn:P; [|discriminate]. cbn [rmap] in E. injection E as <-. apply pop_size in P.
    rewrite sumz_app, rev_size. rewrite rev_size in P. cbn [sumz length]. lia.
  - injection E as <-. rewrite sumz_app. cbn [sumz length]. lia.
Qed.
Lemma f_lines : fits DLines parse_opentype_string.
Proof.
  unfold fits, parse_opentype_string. bind prim. apply cs_lift. intros l E. apply normalize_size in E. unfold splitlines in E.
  pose proof (splitlines_size (length a) a [] (Nat.le_refl _)) as S1. cbn [length] in S1. cbn [plain_py]. rewrite size_strs. cbv beta in *. lia.
Qed.

(** *** font options *)
Notation options_size := (sumz (fun p : pystr * opt_val => len (fst p) + size (opt_val_py (snd p)))).
Lemma options_aset : forall k v d, options_size (aset str_eqb k v d) <= len k + size (opt_val_py v) + options_size d.
Proof.
  intros k v d. apply (sumz_aset _ _ str_eqb (fun k : pystr => len k) (fun v => size (opt_val_py v))); [intros; cbv beta; lia|intros; apply size_pos].
Qed.
Lemma cs_key_values : cs parse_key_values (fun l k => len l <= k /\ Forall (fun p => byteZ (fst p)) l).
Proof.
  unfold parse_key_values. apply (cs_loop _ _ _ (fun l k => len l <= k /\ Forall (fun p => byteZ (fst p)) l)); [split; [cbn; lia|constructor]|].
  intros l k Hk (L & F). bind prim. apply cs_if; intros E; [apply cs_ret; split; [lia|exact F]|]. bind prim. apply cs_ret. rewrite app_length. cbn [length].
  split; [lia|]. apply Forall_app. split; [exact F|]. constructor; [exact H|constructor].
Qed.
Lemma collect_size : forall l d, Forall (fun p : Z * Z => byteZ (fst p)) l ->
  options_size (fold_left (fun d kv => aset str_eqb (get_or_str font_options (fst kv)) (OInt (snd kv)) d) l d) <= options_size d + 61 * len l.
Proof.
  induction l as [|[k v] l IH]; intros d F; cbn [fold_left]; [cbn [length]; lia|]. inversion F as [|? ? F1 F2]; subst. cbn [fst snd] in *.
  specialize (IH (aset str_eqb (get_or_str font_options k) (OInt v) d) F2). pose proof (options_aset (get_or_str font_options k) (OInt v) d) as A.
  assert (G : len (get_or_str font_options k) <= 60) by (apply get_or_str_len; [repeat constructor; vm_compute; discriminate|auto]). cbn [opt_val_py size] in A. cbn [length]. lia.
Qed.
Lemma update_size : forall k f d b, (forall v, size (opt_val_py (f v)) <= size (opt_val_py v) + b) -> 0 <= b -> options_size (update_option k f d) <= options_size d + b.
Proof.
  intros k f d b H B. unfold update_option. destruct (aget str_eqb k d) as [v|] eqn:E; [|lia]. specialize (H v). revert E.
  induction d as [|[k' v'] d IH]; cbn [aget aset sumz]; [discriminate|]. destruct (str_eqb k k') eqn:K; intros E.
  - injection E as <-. apply str_eqb_eq in K as <-. cbn [sumz fst snd]. lia.
  - specialize (IH E). cbn [sumz fst snd]. lia.
Qed.
Lemma f_font_options : fits DFontOptions parse_font_options.
Proof.
  unfold fits, parse_font_options. bind ltac:(apply cs_key_values). apply cs_ret. cbn [plain_py]. rewrite size_str_dict.
  pose proof (collect_size a [] H0) as C. cbn [sumz] in C. fold (collect_options a) in C. unfold post_process.
  pose proof (update_size (py "auto_hinting_h_ratio") to_ratio (collect_options a) 0) as U1.
  pose proof (update_size (py "auto_hinting_v_ratio") to_ratio (update_option (py "auto_hinting_h_ratio") to_ratio (collect_options a)) 0) as U2.
  pose proof (update_size (py "autohinting_options") to_autohint (update_option (py "auto_hinting_v_ratio") to_ratio (update_option (py "auto_hinting_h_ratio") to_ratio (collect_options a))) 400) as U3.
  pose proof (update_size (py "expand_kern_flags") to_expand_kern (update_option (py "autohinting_options") to_autohint (update_option (py "auto_hinting_v_ratio") to_ratio (update_option (py "auto_hinting_h_ratio") to_ratio (collect_options a)))) 400) as U4.
  assert (R : forall v, size (opt_val_py (to_ratio v)) <= size (opt_val_py v) + 0) by (intros [n1|x|d]; cbn [to_ratio opt_val_py size]; lia).
  assert (A : forall v, size (opt_val_py (to_autohint v)) <= size (opt_val_py v) + 400).
  { intros [n1|x|d]; cbn [to_autohint]; try lia. cbn [opt_val_py]. rewrite size_str_dict. unfold unpack_autohint, unpack_flags, autohint_flags, precision_key. cbn [map sumz fst snd size]. keys. lia. }
  assert (X : forall v, size (opt_val_py (to_expand_kern v)) <= size (opt_val_py v) + 400).
  { intros [n1|x|d]; cbn [to_expand_kern]; try lia. cbn [opt_val_py]. rewrite size_str_dict. unfold unpack_flags, expand_kern_table. cbn [map sumz fst snd size]. keys. lia. }
  specialize (U1 R ltac:(lia)). specialize (U2 R ltac:(lia)). specialize (U3 A ltac:(lia)). specialize (U4 X ltac:(lia)). lia.
Qed.

(** *** TrueType info: its lists may be read past the end of the data, but the loop does not end there *)
Definition csn {A} (r : rd A) (Q : A -> Z -> Prop) : Prop :=
  forall s a s', small s -> r s = ROk a s' -> small s' /\ len s' <= len s /\ (s' <> [] -> Q a (len s - len s')).
Lemma csn_cs : forall A (r : rd A) Q, cs r Q -> csn r Q.
Proof. intros A r Q H s a s' Hs E. destruct (H s a s' Hs E) as (S1 & L & X). auto. Qed.
Lemma csn_bind : forall A B (r : rd A) (k : A -> rd B) (Q : A -> Z -> Prop) (R : B -> Z -> Prop),
  csn r Q -> (forall a, csn (k a) (fun b m => forall n, 0 <= n -> Q a n -> R b (n + m))) -> csn (rbind r k) R.
Proof.
  intros A B r k Q R Hr Hk s b s2 Hs E. unfold rbind in E. destruct (r s) as [a s1|] eqn:E1; [|discriminate].
  destruct (Hr s a s1 Hs E1) as (S1 & L1 & Q1). destruct (Hk a s1 b s2 S1 E) as (S2 & L2 & Q2).
  split; [exact S2|]. split; [lia|]. intros N. assert (N1 : s1 <> []) by (intros ->; destruct s2; [congruence|cbn [length] in L2; lia]).
  specialize (Q2 N (len s - len s1) ltac:(lia) (Q1 N1)). replace (len s - len s2) with (len s - len s1 + (len s1 - len s2)) by lia. exact Q2.
Qed.
Lemma csn_weaken : forall A (r : rd A) (Q R : A -> Z -> Prop), csn r Q -> (forall a n, 0 <= n -> Q a n -> R a n) -> csn r R.
Proof. intros A r Q R H I s a s' Hs E. destruct (H s a s' Hs E) as (S1 & L1 & Q1). split; [exact S1|]. split; [exact L1|]. intros N. apply I; [lia|auto]. Qed.
Lemma csn_uint8 : csn read_uint8 (fun v n => byteZ v /\ 1 <= n).
Proof.
  intros s a s' Hs E. destruct (cs_uint8 s a s' Hs E) as (S1 & L & B & _). split; [exact S1|]. split; [exact L|]. intros N. split; [exact B|].
  destruct s as [|x s]; [unfold read_uint8, rbind in E; cbn in E; inversion E; subst; congruence|]. unfold read_uint8, rbind in E. cbn in E. inversion E; subst. cbn [length]. lia.
Qed.
Lemma csn_uint8s : forall n, csn (rrepeat n read_uint8) (fun l k => len l <= k).
Proof.
  induction n as [|n IH]; cbn [rrepeat]; [apply csn_cs, cs_ret; cbn; lia|]. eapply csn_bind; [apply csn_uint8|]. intros v.
  eapply csn_bind; [exact IH|]. intros l. apply csn_cs, cs_ret. cbn [length]. lia.
Qed.
Notation info_size := (sumz (fun p : pystr * tt_value => len (fst p) + size (tt_value_py (snd p)))).
Lemma info_aset : forall k v d, info_size (aset str_eqb k v d) <= len k + size (tt_value_py v) + info_size d.
Proof.
  intros k v d. apply (sumz_aset _ _ str_eqb (fun k : pystr => len k) (fun v => size (tt_value_py v))); [intros; cbv beta; lia|intros; apply size_pos].
Qed.
Lemma tt_key_len : forall k, byteZ k -> len (tt_key k) <= 30.
Proof.
  intros k K. unfold tt_key. assert (D : len (dec_str k) <= 30) by (pose proof (dec_str_len k); unfold byteZ in K; lia).
  assert (F : Forall (fun p => len (snd p) <= 30) ttinfo_names) by (repeat constructor; vm_compute; discriminate).
  induction F as [|[i s] t H F IH]; cbn [aget]; [exact D|]. destruct (k =? i); [exact H|exact IH].
Qed.
Lemma flags_size : forall v fo, i32 v -> convert_int_to_flags_options v = Ok fo -> size (tt_value_py fo) <= 560.
Proof.
  intros v fo V E. unfold convert_int_to_flags_options, rthen in E. destruct (binaryToIntList (Z.land v 65535) 0) as [fl|] eqn:E1; [|discriminate].
  destruct (binaryToIntList (Z.shiftr v 16) 0) as [os|] eqn:E2; [|discriminate]. injection E as <-.
  assert (L1 : len fl <= 17).
  { apply bits_len with (k := 16) in E1; [lia|lia|]. change 65535 with (Z.ones 16). rewrite Z.land_ones by lia. apply Z.mod_pos_bound. reflexivity. }
  assert (L2 : len os <= 17).
  { apply bits_len with (k := 16) in E2; [lia|lia|]. rewrite Z.shiftr_div_pow2 by lia. unfold i32 in V. apply Z.div_lt_upper_bound; lia. }
  cbn [tt_value_py]. unfold pd. cbn [map fst snd]. rewrite size_dict. cbn [sumz]. unfold entry_size. cbn [fst snd]. keys. rewrite size_ints, size_strs.
  assert (O : forall l, Forall (fun i => 0 <= i < 100) l -> sumz (fun s : pystr => 1 + len s) (map tt_option_name l) <= 29 * len l).
  { intros l F. induction F as [|i l Hi F IH]; cbn [map sumz length]; [lia|]. assert (len (tt_option_name i) <= 28); [|lia].
    unfold tt_option_name. assert (D : len (dec_str i) <= 28) by (pose proof (dec_str_len i); lia).
    assert (G : Forall (fun p => len (snd p) <= 28) tt_settings) by (repeat constructor; vm_compute; discriminate).
    induction G as [|[j s] t H G IH2]; cbn [aget]; [exact D|]. destruct (i =? j); [exact H|exact IH2]. }
  assert (B : Forall (fun i => 0 <= i < 100) os).
  { assert (X : forall fuel v k l, binaryToIntList_loop fuel v k = Ok l -> Forall (fun b => k <= b < k + Z.of_nat fuel) l).
    { induction fuel as [|f IH]; intros v1 k l E; cbn [binaryToIntList_loop] in E; [discriminate|]. destruct (v1 =? 0); [injection E as <-; constructor|].
      destruct (binaryToIntList_loop f (Z.shiftr v1 1) (k + 1)) as [m|] eqn:G; [|discriminate]. apply IH in G. injection E as <-.
      assert (G' : Forall (fun b => k <= b < k + Z.of_nat (S f)) m) by (eapply Forall_impl; [|exact G]; cbv beta; lia).
      destruct (Z.land v1 1 =? 1); [constructor; [lia|exact G']|exact G']. }
    apply X in E2. eapply Forall_impl; [|exact E2]. cbv beta. intros i Hi. destruct (Z.le_gt_cases (Z.shiftr v 16) 0) as [Z0|Z0].
    - rewrite Z.log2_nonpos in Hi by exact Z0. cbn in Hi. lia.
    - assert (Z.log2 (Z.shiftr v 16) < 16); [|lia]. apply Z.log2_lt_pow2; [exact Z0|]. rewrite Z.shiftr_div_pow2 by lia. unfold i32 in V. apply Z.div_lt_upper_bound; lia. }
  specialize (O os B). cbv beta in O. lia.
Qed.
Lemma csn_if : forall A (b : bool) (r1 r2 : rd A) Q, (b = true -> csn r1 Q) -> (b = false -> csn r2 Q) -> csn (if b then r1 else r2) Q.
Proof. intros. destruct b; auto. Qed.
Lemma cs_unique : forall d k, cs (assert_unique d k) (fun _ _ => True).
Proof. intros d k. unfold assert_unique. destruct (aget str_eqb k d); [apply cs_raise|apply cs_ret; exact I]. Qed.
Lemma tt_turn_size : forall d, csn (tt_info_turn d) (fun x n => match x with inl d' => info_size d' <= info_size d + 300 * n | inr d' => True end).
Proof.
  intros d. unfold tt_info_turn. eapply csn_bind; [apply csn_uint8|]. intros k.
  assert (ST : forall v (n : Z), byteZ k -> size (tt_value_py v) <= 560 \/ size (tt_value_py v) <= 270 * n -> 2 <= n -> info_size (aset str_eqb (tt_key k) v d) <= info_size d + 300 * n).
  { intros v n K V N. pose proof (info_aset (tt_key k) v d). pose proof (tt_key_len k K). lia. }
  apply csn_if; intros E1; [apply csn_cs, cs_ret; auto|].
  apply csn_if; intros E2.
  { eapply csn_bind; [apply csn_cs, cs_unique|]. intros u. eapply csn_bind; [apply csn_cs, cs_value|]. intros v. apply csn_cs, cs_ret.
    intros n Hn (_ & N1) m Hm _ j Hj (K & J). apply ST; [exact K|left; cbn; lia|lia]. }
  apply csn_if; intros E3.
  { eapply csn_bind; [apply csn_cs, cs_unique|]. intros u. eapply csn_bind; [apply csn_cs, cs_value|]. intros v.
    eapply csn_bind; [apply csn_cs; apply (cs_lift _ _ (fun fo _ => convert_int_to_flags_options v = Ok fo)); auto|]. intros fo. apply csn_cs, cs_ret.
    intros m Hm C n Hn (V & N1) i Hi _ j Hj (K & J). apply ST; [exact K|left; eapply flags_size; eassumption|lia]. }
  apply csn_if; intros E4.
  { eapply csn_bind; [apply csn_cs, cs_unique|]. intros u. eapply csn_bind; [apply (csn_uint8s 10)|]. intros l. apply csn_cs, cs_ret.
    intros n Hn L m Hm _ j Hj (K & J). pose proof (info_aset (tt_key k) (VList l) d). pose proof (tt_key_len k K). cbn [tt_value_py] in *. rewrite size_ints in *. lia. }
  apply csn_if; intros E5.
  { eapply csn_bind; [apply csn_cs, cs_unique|]. intros u. eapply csn_bind; [apply csn_cs, cs_value|]. intros c. eapply csn_bind; [apply csn_uint8s|]. intros l. apply csn_cs, cs_ret.
    intros n Hn L i Hi (_ & N1) m Hm _ j Hj (K & J). apply ST; [exact K|right; cbn [tt_value_py]; rewrite size_ints; lia|lia]. }
  apply csn_if; intros E6; [|apply csn_cs, cs_ret; lia].
  eapply csn_bind; [apply csn_cs, cs_unique|]. intros u. eapply csn_bind; [apply csn_cs, cs_uvalue|]. intros v1. eapply csn_bind; [apply csn_cs, cs_uvalue|]. intros v2. apply csn_cs, cs_ret.
  intros n Hn (_ & N1) i Hi (_ & N2) m Hm _ j Hj (K & J). apply ST; [exact K|left; vm_compute; discriminate|lia].
Qed.
Lemma tt_turn_end : forall d s a s', tt_info_turn d s = ROk (inr a) s' -> a = d.
Proof.
  intros d s a s' E. unfold tt_info_turn, rbind in E. destruct (read_uint8 s) as [k s1|]; [|discriminate]. revert E.
  repeat match goal with |- context [if ?b then _ else _] => destruct b end; unfold rbind, ret;
  repeat match goal with |- match ?x with _ => _ end = _ -> _ => destruct x; try discriminate end; intros E; inversion E; reflexivity.
Qed.
Lemma tt_while_size : forall fuel d s a s' k, small s -> 0 <= k -> (s <> [] -> info_size d <= 300 * k) -> rwhile fuel tt_info_turn d s = ROk a s' -> info_size a <= 300 * (k + len s).
Proof.
  induction fuel as [|f IH]; intros d s a s' k Hs Hk J E; cbn [rwhile] in E; [discriminate|]. unfold rbind in E.
  destruct (tt_info_turn d s) as [[d'|a'] s1|] eqn:T; [| |discriminate].
  - destruct (tt_turn_size d s _ s1 Hs T) as (S1 & L1 & X). cbv beta iota in X.
    assert (E1 : info_size a <= 300 * (k + (len s - len s1) + len s1)); [|lia]. eapply (IH d' s1 a s'); [exact S1|lia| |exact E].
    intros N. assert (N0 : s <> []) by (intros ->; destruct s1; [congruence|cbn [length] in L1; lia]). specialize (X N). specialize (J N0). lia.
  - apply tt_turn_end in T as T'. subst a'. inversion E; subst. assert (N0 : s <> []) by (intros ->; vm_compute in T; discriminate). specialize (J N0). lia.
Qed.
Lemma h_tt_info : forall b a, small b -> run_parser parse_tt_info b = Ok a -> size (plain_py (DTTInfo a)) <= 300 * len b + 2000.
Proof.
  intros b a Hb E. unfold run_parser in E. destruct (parse_tt_info b) as [x [|y s']|] eqn:R; try discriminate. inversion E; subst. unfold parse_tt_info, rloop in R.
  eapply tt_while_size with (k := 0) in R; [|exact Hb|lia|cbn [sumz]; lia]. cbn [plain_py]. rewrite size_str_dict. lia.
Qed.
