(** Proofs about M_Glyph.v: guides, guide properties, outlines, hinting commands. *)
From Coq Require Import String Permutation ZifyBool ZifyNat.
From Verif Require Import Base M_Stream M_Helpers M_Text M_Py M_Simple M_Glyph S_Stream S_Bits S_Text S_Entry S_Glyph
  Lib P_Stream P_Helpers P_Text P_Text2 P_Loop P_Simple P_Simple2 P_Simple3 P_TrueType P_TrueType2 P_Glyph.
Local Open Scope list_scope.
Open Scope rd_scope.
Ltac Zify.zify_post_hook ::= Z.div_mod_to_equations.

(** ** Guides *)
Lemma wrt_guide_master : forall o g, wf_guide_master o g ->
  wrt (write_value (gm_pos g) +++ wlet (o_slope o (gm_angle g)) write_value) (read_guide_master o) (stored_angle o g).
Proof.
  intros o g (Hp & s & Es & Hs). unfold read_guide_master, stored_angle. rewrite Es. cbn [wlet].
  eapply wrt_bind; [apply wrt_value, Hp|]. eapply wrt_bind_ret; [apply wrt_value, Hs|]. reflexivity.
Qed.
Lemma wrt_guide : forall o n g, masters n (wf_guide_master o) g ->
  wrt (compile_guide o n g) (rrange n (read_guide_master o)) (map (stored_angle o) g).
Proof.
  intros o n g [L H]. unfold compile_guide. rewrite wlist_index by exact L.
  apply wrt_range; [auto|]. intros m Hm. apply wrt_guide_master, (Forall_In _ _ _ _ H Hm).
Qed.
Lemma wrt_guides : forall o n d, wf_guides o n d ->
  wrt (compile_guides o (Some n) d) (parse_guides o n) (stored_guides o d).
Proof.
  intros o n [h v] (Ch & Hh & Cv & Hv). cbn [gs_h gs_v] in *. unfold compile_guides, parse_guides, with_vfb, stored_guides.
  cbn [gs_h gs_v].
  eapply wrt_bind; [wrt_field|].
  eapply wrt_bind; [apply wrt_range; [reflexivity|]; intros g Hg; apply wrt_guide, (Forall_In _ _ _ _ Hh Hg)|].
  eapply wrt_bind; [wrt_field|].
  eapply wrt_bind_ret; [apply wrt_range; [reflexivity|]; intros g Hg; apply wrt_guide, (Forall_In _ _ _ _ Hv Hg)|].
  reflexivity.
Qed.
Lemma stored_exact : forall o d, exact_guides o d -> stored_guides o d = d.
Proof.
  intros o [h v] [Hh Hv]. unfold stored_guides. cbn [gs_h gs_v] in *.
  assert (E : forall l, Forall (Forall (exact_angle o)) l -> map (map (stored_angle o)) l = l).
  { intros l Hl. induction Hl as [|g l Hg _ IH]; [reflexivity|]. cbn [map]. f_equal; [|exact IH].
    induction Hg as [|m g Hm _ IHg]; [reflexivity|]. cbn [map]. f_equal; [|exact IHg].
    unfold stored_angle, exact_angle in *. destruct m as [p a]. cbn [gm_angle gm_pos] in *.
    destruct (o_slope o a) as [s|]; [|reflexivity]. rewrite (Hm s eq_refl). reflexivity. }
  rewrite !E by assumption. reflexivity.
Qed.
Lemma tot_guides : forall o n, tot (parse_guides o n).
Proof. intros. unfold parse_guides, read_guide_master. tot_auto. Qed.
Lemma tot_global_guides : forall o v, tot (parse_global_guides o v).
Proof. intros o [n|]; unfold parse_global_guides; tot_auto; apply tot_guides. Qed.
Lemma global_guides_run : forall o n d, wf_guides o n d ->
  wrun (compile_guides o (Some n) d) (parse_global_guides o (Some n)) (stored_guides o d).
Proof.
  intros o n d H. destruct (wrt_guides o n d H) as (bs & E & O & R). exists bs. split; [exact E|]. split; [exact O|].
  unfold run_parser, parse_global_guides, rbind. specialize (R []). rewrite app_nil_r in R. rewrite R. reflexivity.
Qed.

(** ** Colours *)
Fixpoint hexn (m : nat) (n : Z) : pystr :=
  match m with O => [] | S m' => hexn m' (n / 16) ++ [hexc (n mod 16)] end.
Lemma hexn_length : forall m n, length (hexn m n) = m.
Proof. induction m as [|m IH]; intros n; cbn [hexn]; [reflexivity|]. rewrite app_length, IH. cbn. lia. Qed.
Lemma hexn_zero : forall m, hexn m 0 = repeat 48 m.
Proof.
  induction m as [|m IH]; [reflexivity|]. cbn [hexn]. rewrite Zdiv_0_l, IH.
  change (repeat 48 m ++ [hexc (0 mod 16)]) with (repeat 48 m ++ repeat 48 1). rewrite <- repeat_app.
  f_equal. lia.
Qed.
Lemma hex_digits_hexn : forall m f n, (0 < m)%nat -> 0 <= n < 16 ^ Z.of_nat m -> Z.of_nat f > Z.log2 n ->
  repeat 48 (m - length (hex_digits f n)) ++ hex_digits f n = hexn m n /\ (length (hex_digits f n) <= m)%nat.
Proof.
  induction m as [|m IH]; intros f n Hm Hn Hf; [lia|].
  pose proof (Z.log2_nonneg n) as L0. destruct f as [|f]; [lia|].
  cbn [hex_digits hexn]. destruct (n <? 16) eqn:E.
  - cbn [length]. replace (n / 16) with 0 by lia. replace (n mod 16) with n by lia. rewrite hexn_zero.
    replace (S m - 1)%nat with m by lia. split; [reflexivity|lia].
  - assert (Hm0 : (0 < m)%nat). { destruct m; [|lia]. cbn in Hn. lia. }
    assert (Hl : Z.log2 (n / 16) < Z.of_nat f).
    { replace (n / 16) with (Z.shiftr n 4) by (rewrite Z.shiftr_div_pow2 by lia; reflexivity).
      rewrite Z.log2_shiftr by lia. pose proof (Z.log2_le_mono 16 n ltac:(lia)) as L4. change (Z.log2 16) with 4 in L4. lia. }
    assert (Hb : 0 <= n / 16 < 16 ^ Z.of_nat m).
    { rewrite Nat2Z.inj_succ, Z.pow_succ_r in Hn by lia. lia. }
    destruct (IH f (n / 16) Hm0 Hb ltac:(lia)) as [IH1 IH2]. rewrite app_length. cbn [length].
    replace (S m - (length (hex_digits f (n / 16)) + 1))%nat with (m - length (hex_digits f (n / 16)))%nat by lia.
    rewrite app_assoc, IH1. split; [reflexivity|lia].
Qed.
Lemma hex06_hexn : forall n, 0 <= n < 2 ^ 24 -> hex06 n = hexn 6 n.
Proof.
  intros n H. unfold hex06, hex_nat. apply (hex_digits_hexn 6); [lia|cbn; lia|].
  pose proof (Z.log2_nonneg n). lia.
Qed.
Definition lower_hex (c : Z) : Prop := 48 <= c <= 57 \/ 97 <= c <= 102.
Lemma hexd_lower : forall c, lower_hex c -> exists d, hexd c = Some d /\ 0 <= d < 16 /\ hexc d = c.
Proof.
  intros c H. unfold hexd, in_range, hexc. destruct H as [H|H].
  - exists (c - 48). replace ((48 <=? c) && (c <? 58)) with true by lia.
    replace (c - 48 <? 10) with true by lia. repeat split; lia.
  - exists (c - 87). replace ((48 <=? c) && (c <? 58)) with false by lia.
    replace ((97 <=? c) && (c <? 103)) with true by lia.
    replace (c - 87 <? 10) with false by lia. repeat split; lia.
Qed.
Lemma int16_from_hexn : forall s k acc, 0 <= acc -> Forall lower_hex s ->
  exists v, int16_from acc s = Ok v /\ 0 <= v < (acc + 1) * 16 ^ Z.of_nat (length s) /\
    hexn (k + length s) v = hexn k acc ++ s.
Proof.
  induction s as [|c s IH]; intros k acc Ha H.
  - exists acc. cbn. rewrite Nat.add_0_r, app_nil_r. repeat split; lia.
  - inversion H as [|? ? Hc Hs]; subst. destruct (hexd_lower c Hc) as (d & Ed & Hd & Ec).
    cbn [int16_from]. rewrite Ed. destruct (IH (S k) (16 * acc + d) ltac:(lia) Hs) as (v & E & B & X).
    exists v. split; [exact E|]. split.
    + cbn [length]. rewrite Nat2Z.inj_succ, Z.pow_succ_r by lia.
      assert (0 < 16 ^ Z.of_nat (length s)) by (apply Z.pow_pos_nonneg; lia). nia.
    + cbn [length]. replace (k + S (length s))%nat with (S k + length s)%nat by lia. rewrite X.
      cbn [hexn]. replace ((16 * acc + d) / 16) with acc by lia. replace ((16 * acc + d) mod 16) with d by lia.
      rewrite Ec, <- app_assoc. reflexivity.
Qed.
Lemma int_base16_hexn : forall s, length s = 6%nat -> Forall lower_hex s ->
  exists v, int_base16 s = Ok v /\ 0 <= v < 2 ^ 24 /\ hex06 v = s.
Proof.
  intros s L H. destruct (int16_from_hexn s 0 0 ltac:(lia) H) as (v & E & B & X).
  exists v. rewrite L in B. cbn in B. split; [destruct s; [discriminate|exact E]|].
  split; [lia|]. rewrite hex06_hexn by lia. rewrite L in X. exact X.
Qed.
Lemma color_ok : forall c, rgb_color c -> exists v,
  color_value c = Ok v /\ 0 <= v < 2 ^ 24 /\ guide_color v = Some c.
Proof.
  intros c (L & t & -> & Ht). change (py "#") with [35] in *.
  destruct t as [|r1 [|r2 [|g1 [|g2 [|b1 [|b2 [|]]]]]]]; cbn in L; try discriminate.
  unfold color_value, slice_from, slice. cbn [app skipn firstn Nat.sub].
  repeat match goal with H : Forall _ (_ :: _) |- _ => inversion_clear H end.
  destruct (int_base16_hexn [b1; b2; g1; g2; r1; r2]) as (v & E & B & X); [reflexivity|(repeat (apply Forall_cons; [assumption|])); apply Forall_nil|].
  exists v. split; [exact E|]. split; [exact B|]. unfold guide_color. replace (-1 <? v) with true by lia.
  rewrite X. reflexivity.
Qed.
Lemma hexc_lower : forall n, 0 <= n < 16 -> lower_hex (hexc n).
Proof. intros n H. unfold hexc, lower_hex. destruct (n <? 10) eqn:E; lia. Qed.
Lemma hexn_lower : forall m n, Forall lower_hex (hexn m n).
Proof.
  induction m as [|m IH]; intros n; cbn [hexn]; [constructor|]. apply Forall_app. split; [apply IH|].
  constructor; [apply hexc_lower; lia|constructor].
Qed.
Lemma color_read : forall v c, v < 2 ^ 24 -> guide_color v = Some c -> rgb_color c.
Proof.
  intros v c H E. unfold guide_color in E. destruct (-1 <? v) eqn:Ev; [|discriminate]. injection E as <-.
  rewrite hex06_hexn by lia. pose proof (hexn_length 6 v) as L. pose proof (hexn_lower 6 v) as F.
  destruct (hexn 6 v) as [|a [|b [|c [|d [|e [|f [|]]]]]]]; cbn in L; try discriminate.
  split; [reflexivity|]. exists (swap_color [a; b; c; d; e; f]). split; [reflexivity|].
  unfold swap_color, slice_from, slice. cbn [skipn firstn Nat.sub app].
  repeat match goal with H : Forall _ (_ :: _) |- _ => inversion_clear H end. (repeat (apply Forall_cons; [assumption|])); apply Forall_nil.
Qed.

(** ** Guide properties *)
Lemma value_long_sign : forall v, 0 <= v < 2 ^ 31 -> write_value_long false v = write_value_long true v.
Proof.
  intros v H. unfold write_value_long, pack_be_u, pack_be_s.
  replace (urange 4 v) with true by (symmetry; unfold urange, in_range; cbn; lia).
  replace (srange 4 v) with true by (symmetry; unfold srange, in_range; cbn; lia). reflexivity.
Qed.
Lemma wrt_guide_prop : forall g st, wf_guide_prop g ->
  wrt (compile_guide_prop g) (guide_props_turn st) (inl (st ++ [g])).
Proof.
  intros [i c nm] st (Hi & H0 & Hc & Hn). cbn [gp_index gp_color gp_name] in *.
  unfold compile_guide_prop, guide_props_turn. cbn [gp_index gp_color gp_name].
  eapply wrt_bind; [apply wrt_value, Hi|]. replace (i =? 0) with false by lia. cbv iota.
  assert (HT : text (or_empty nm)).
  { destruct nm as [nm|]; [apply (Hn nm eq_refl)|]. split; [apply Forall_nil|reflexivity]. }
  assert (HN : some_if_text (or_empty nm) = nm).
  { destruct nm as [[|x nm]|]; [destruct (Hn [] eq_refl); congruence|reflexivity|reflexivity]. }
  destruct c as [c|].
  - destruct (color_ok c (Hc c eq_refl)) as (v & E & B & X). assert (Lc : c <> []) by (intros ->; discriminate (proj1 (Hc [] eq_refl))).
    destruct c as [|x c]; [congruence|]. rewrite E. cbn [wlet]. rewrite value_long_sign by lia.
    eapply wrt_bind; [apply (wrt_value_long true); unfold i32; lia|].
    eapply wrt_bind_ret; [apply wrt_str_text, HT|]. rewrite X, HN. reflexivity.
  - eapply wrt_bind; [apply wrt_value; unfold i32; lia|].
    eapply wrt_bind_ret; [apply wrt_str_text, HT|]. rewrite HN. reflexivity.
Qed.
Lemma wrt_guide_prop_list : forall l, Forall wf_guide_prop l ->
  wrt (wlist compile_guide_prop l +++ write_value 0) (rloop guide_props_turn []) l.
Proof.
  intros l H.
  assert (HH : forall l1 x l2, l = l1 ++ x :: l2 -> wf_guide_prop x).
  { intros l1 x l2 ->. apply Forall_app in H. destruct H as [_ H]. inversion H; auto. }
  apply wrt_loop with (f := fun st x => st ++ [x]).
  - intros l1 x l2 E. split; [apply wne_l, wne_value_gen|].
    rewrite !fold_snoc. cbn [app]. apply wrt_guide_prop. eauto.
  - rewrite fold_snoc. cbn [app]. unfold guide_props_turn.
    eapply wrt_bind_ret; [apply wrt_value; unfold i32; lia|]. reflexivity.
  - apply wlist_ok. intros x Hx. eapply wrt_ok, (wrt_guide_prop x []). exact (Forall_In _ _ _ _ H Hx).
Qed.
Lemma wrt_guide_props : forall d, wf_guide_props d -> wrt (compile_guide_props d) parse_guide_props d.
Proof.
  intros [h v] [Hh Hv]. cbn [gps_h gps_v] in *. unfold compile_guide_props, parse_guide_props. cbn [gps_h gps_v].
  rewrite <- wseq_assoc.
  eapply wrt_bind; [apply wrt_guide_prop_list, Hh|].
  eapply wrt_bind_ret; [apply wrt_guide_prop_list, Hv|]. reflexivity.
Qed.
Lemma tot_guide_props : tot parse_guide_props.
Proof. unfold parse_guide_props, guide_props_turn. tot_auto. Qed.
