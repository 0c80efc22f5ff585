(** Proofs about the small entry codecs, continued: fixed layouts, bit fields, multiple master
    entries, FL version, binary tables, PCLT, PostScript info and options. *)
From Coq Require Import String Sorting.Sorted Permutation.
From Verif Require Import Base M_Stream M_Helpers M_Text M_Py M_Simple S_Bits S_Text S_Entry
  Lib P_Stream P_Helpers P_Text P_Text2 P_Loop P_Simple.
Local Open Scope list_scope.
Open Scope rd_scope.
From Coq Require Import ZifyBool ZifyNat.
Ltac Zify.zify_post_hook ::= Z.div_mod_to_equations.

(** ** Lists that fill the entry: as many items of [k] bytes as fit *)
Definition filling {A} (k : nat) (r : rd A) : rd (list A) :=
  fun s => rrange (Z.of_nat (length s) / Z.of_nat k) r s.
Lemma wlist_length : forall A (w : A -> wr) k l bs,
  (forall x b, In x l -> w x = Ok b -> length b = k) ->
  wlist w l = Ok bs -> length bs = (length l * k)%nat.
Proof.
  induction l as [|x l IH]; intros bs H E; cbn in *.
  - inversion E. reflexivity.
  - apply wseq_ok in E. destruct E as (b1 & b2 & E1 & E2 & ->). rewrite app_length.
    rewrite (H x b1 (or_introl eq_refl) E1), (IH b2); [reflexivity| |exact E2].
    intros y b Hy. apply H. right. exact Hy.
Qed.
Lemma filling_survives : forall A k (w : A -> wr) (r : rd A) l, (0 < k)%nat ->
  (forall x, In x l -> wrt (w x) r x) ->
  (forall x b, In x l -> w x = Ok b -> length b = k) ->
  survives (wlist w) (filling k r) l.
Proof.
  intros A k w r l Hk Hw Hl.
  destruct (wrt_range_id _ w r (Z.of_nat (length l)) l eq_refl Hw) as (bs & E & O & R).
  exists bs. split; [exact E|]. split; [exact O|].
  unfold run_parser, filling. rewrite (wlist_length _ _ _ _ _ Hl E).
  rewrite Nat2Z.inj_mul, Z.div_mul by lia.
  specialize (R []). rewrite app_nil_r in R. rewrite R. reflexivity.
Qed.
Lemma filling_exact : forall A k n (w : A -> wr) (r : rd A), (0 < k)%nat ->
  rfix k r (fun x b => w x = Ok b) -> exact_at (n * k) (wlist w) (filling k r).
Proof.
  intros A k n w r Hk Hr data Hd Hn.
  destruct (rfix_run _ _ _ _ data (rfix_repeat _ n k r w Hr) Hn Hd) as (l & E & _ & C).
  exists l. split; [|exact C]. rewrite <- E. unfold run_parser, filling.
  rewrite Hn, Nat2Z.inj_mul, Z.div_mul by lia. unfold rrange. rewrite Nat2Z.id. reflexivity.
Qed.
Lemma rps_filling : forall A k (r : rd A) P, rps r P -> rps (filling k r) (Forall P).
Proof.
  intros A k r P H s l s' Hs E.
  destruct (rps_range _ r P _ H s l s' Hs E) as [[_ Hf] Hs']. auto.
Qed.
Lemma tot_filling : forall A k (r : rd A), tot r -> tot (filling k r).
Proof. intros A k r H s Hs. unfold filling. apply tot_range; auto. Qed.

Ltac fixed_len := unfold write_double, write_uint32, write_int32, write_uint16, write_int16,
  write_uint8, to_bytes_u, to_bytes_s, pack_le_u, pack_le_s;
  let E := fresh in
  intros ? ? _ E;
  match type of E with (if ?c then _ else _) = _ => destruct c; [apply Ok_inj in E; subst|discriminate E] end;
  apply le_enc_length.

Lemma doubles_survives : forall l, Forall double l -> survives compile_doubles parse_doubles l.
Proof.
  intros l H. apply (filling_survives _ 8); [lia| |fixed_len].
  intros x Hx. apply wrt_double. exact (Forall_In _ _ _ _ H Hx).
Qed.
Lemma doubles_exact : forall n, exact_at (n * 8) compile_doubles parse_doubles.
Proof. intros. apply (filling_exact _ 8); [lia|apply rfix_double]. Qed.
Lemma rps_doubles_entry : rps parse_doubles (Forall is_double).
Proof. apply (rps_filling _ 8), rps_double. Qed.
Lemma int_list_survives : forall l, Forall uint32 l -> survives compile_int_list parse_int_list l.
Proof.
  intros l H. apply (filling_survives _ 4); [lia| |fixed_len].
  intros x Hx. apply wrt_uint32. exact (Forall_In _ _ _ _ H Hx).
Qed.
Lemma int_list_exact : forall n, exact_at (n * 4) compile_int_list parse_int_list.
Proof. intros. apply (filling_exact _ 4); [lia|apply rfix_uint32]. Qed.
Lemma rps_int_list : rps parse_int_list (Forall w32).
Proof. apply (rps_filling _ 4), rps_uint32. Qed.

Definition wf_pair_double (p : Z * Z) : Prop := is_double (fst p) /\ is_double (snd p).
Lemma wrt_double_pair : forall p, wf_pair_double p ->
  wrt (write_double (fst p) +++ write_double (snd p)) read_double_pair p.
Proof.
  intros [a b] [H1 H2]. cbn [fst snd] in *. unfold read_double_pair.
  eapply wrt_bind; [wrt_field|]. eapply wrt_bind_ret; [wrt_field|reflexivity].
Qed.
Lemma fix_double_pair :
  rfix 16 read_double_pair (fun p b => write_double (fst p) +++ write_double (snd p) = Ok b).
Proof.
  unfold read_double_pair. apply (rfix_bind _ _ 8 8) with (1 := rfix_double). intros a b1 E1.
  apply (rfix_bind _ _ 8 0) with (1 := rfix_double). intros c b2 E2.
  apply rfix_ret. cbn [fst snd]. rewrite E1, E2, app_nil_r. reflexivity.
Qed.
Lemma axis_mappings_survives : forall l, Forall wf_pair_double l ->
  survives compile_axis_mappings parse_axis_mappings l.
Proof.
  intros l H. apply (filling_survives _ 16); [lia| |].
  - intros x Hx. apply wrt_double_pair. exact (Forall_In _ _ _ _ H Hx).
  - intros x b _ E. apply wseq_ok in E. destruct E as (b1 & b2 & E1 & E2 & ->).
    unfold write_double, pack_le_u in *.
    destruct (urange 8 (fst x)); [apply Ok_inj in E1|discriminate].
    destruct (urange 8 (snd x)); [apply Ok_inj in E2|discriminate]. subst b1 b2.
    rewrite app_length, !le_enc_length. reflexivity.
Qed.
Lemma axis_mappings_exact : forall n, exact_at (n * 16) compile_axis_mappings parse_axis_mappings.
Proof. intros. apply (filling_exact _ 16); [lia|apply fix_double_pair]. Qed.
Lemma rps_axis_mappings : rps parse_axis_mappings (Forall wf_pair_double).
Proof.
  apply (rps_filling _ 16). unfold read_double_pair.
  eapply rps_bind; [apply rps_double|]. intros a Ha. eapply rps_bind; [apply rps_double|].
  intros b Hb. apply rps_ret. split; auto.
Qed.

(** ** Plain numbers *)
Lemma tot_panose : tot parse_panose.
Proof. unfold parse_panose. tot_auto. Qed.
Lemma le_enc_1 : forall b, is_byte b -> le_enc 1 (le_dec_s [b]) = [b].
Proof. intros b H. apply (le_enc_dec_s [b]). constructor; [exact H|constructor]. Qed.
Lemma panose_bytes : forall b, bytes_ok b ->
  wlist (pack_le_s 1) (map (fun x => le_dec_s [x]) b) = Ok b.
Proof.
  induction 1 as [|x b Hx Hb IH]; [reflexivity|]. cbn [map wlist].
  assert (E : pack_le_s 1 (le_dec_s [x]) = Ok [x]).
  { unfold pack_le_s.
    pose proof (le_dec_s_range [x] ltac:(constructor; [exact Hx|constructor]) ltac:(cbn; lia)) as R.
    unfold srange, in_range. cbn [length] in R.
    replace ((- 2 ^ (8 * Z.of_nat 1 - 1) <=? le_dec_s [x]) &&
             (le_dec_s [x] <? 2 ^ (8 * Z.of_nat 1 - 1))) with true by (symmetry; lia).
    rewrite le_enc_1; auto. }
  rewrite E, IH. reflexivity.
Qed.
Lemma panose_exact : exact_at 10 compile_panose parse_panose.
Proof.
  intros data Hd Hl. exists (map (fun x => le_dec_s [x]) data). split.
  - unfold run_parser, parse_panose, rbind, read_all. rewrite Hl. reflexivity.
  - unfold compile_panose. rewrite map_length, Hl. apply panose_bytes, Hd.
Qed.
Lemma panose_survives : forall l, array 10 int8 l -> survives compile_panose parse_panose l.
Proof.
  intros l [Hl H]. unfold survives, compile_panose. rewrite Hl. cbn [Nat.eqb].
  assert (G : exists bs, wlist (pack_le_s 1) l = Ok bs /\ bytes_ok bs /\ length bs = length l /\
            map (fun x => le_dec_s [x]) bs = l).
  { clear Hl. induction H as [|x l Hx Hl IH].
    - exists []. repeat split. constructor.
    - destruct IH as (bs & E & O & L & M). exists (x mod 256 :: bs). cbn [wlist].
      assert (Ex : pack_le_s 1 x = Ok [x mod 256]).
      { unfold pack_le_s, srange, in_range. unfold int8 in Hx.
        change (2 ^ (8 * Z.of_nat 1 - 1)) with 128.
        replace ((- (128) <=? x) && (x <? 128)) with true by (symmetry; lia). reflexivity. }
      rewrite Ex, E. repeat split.
      + constructor; [|exact O]. unfold is_byte. lia.
      + cbn. congruence.
      + cbn [map]. rewrite M. f_equal.
        pose proof (le_dec_s_enc 1 x ltac:(lia)) as R. cbn [le_enc] in R. apply R. exact Hx. }
  destruct G as (bs & E & O & L & M). exists bs. split; [exact E|]. split; [exact O|].
  unfold run_parser, parse_panose, rbind, read_all. rewrite L, Hl. cbn [Nat.eqb].
  unfold ret. rewrite M. reflexivity.
Qed.
Lemma rps_panose : rps parse_panose (array 10 i8).
Proof.
  unfold parse_panose. eapply rps_bind; [apply rps_read_all|]. intros b Hb.
  apply rps_if; intros E; [|apply rps_raise]. apply rps_ret. apply Nat.eqb_eq in E. split.
  - rewrite map_length. exact E.
  - apply Forall_map. eapply Forall_impl; [|exact Hb]. intros x Hx.
    apply (le_dec_s_range [x]); [constructor; [exact Hx|constructor]|cbn; lia].
Qed.

Lemma wrt_axis_counts : forall l, array 4 w32 l -> wrt (compile_axis_counts l) parse_axis_counts l.
Proof.
  intros l [Hl H]. unfold compile_axis_counts, parse_axis_counts. rewrite <- Hl.
  rewrite <- (map_id l) at 3. apply wrt_repeat. intros x Hx. apply wrt_uint32.
  exact (Forall_In _ _ _ _ H Hx).
Qed.
Lemma fix_axis_counts : rfix 16 parse_axis_counts (fun l b => compile_axis_counts l = Ok b).
Proof.
  eapply rfix_weaken; [apply (rfix_repeat _ 4 4 _ write_uint32), rfix_uint32|].
  intros l b [_ E]. exact E.
Qed.
Lemma wrt_array : forall A n (w : A -> wr) r l, length l = n -> (forall x, In x l -> wrt (w x) r x) ->
  wrt (wlist w l) (rrepeat n r) l.
Proof.
  intros A n w r l <- H. rewrite <- (map_id l) at 3. apply wrt_repeat. exact H.
Qed.
Lemma wrt_array_Z : forall n (w : Z -> wr) r l P, array n P l -> (forall x, P x -> wrt (w x) r x) ->
  wrt (wlist w l) (rrepeat n r) l.
Proof.
  intros n w r l P [Hl H] Hw. apply wrt_array; [exact Hl|]. intros x Hx. apply Hw.
  exact (Forall_In _ _ _ _ H Hx).
Qed.
Definition wf_location (d : Z * list Z) : Prop := w32 (fst d) /\ array 4 is_double (snd d).
Lemma wrt_master_location : forall d, wf_location d ->
  wrt (compile_master_location d) parse_master_location d.
Proof.
  intros [i l] [Hi Hl]. cbn [fst snd] in *. unfold compile_master_location, parse_master_location.
  cbn [fst snd]. eapply wrt_bind; [wrt_field|]. eapply wrt_bind_ret; [|reflexivity].
  apply (wrt_array_Z _ _ _ _ _ Hl). exact wrt_double.
Qed.
Lemma fix_master_location :
  rfix 36 parse_master_location (fun d b => compile_master_location d = Ok b).
Proof.
  unfold parse_master_location. apply (rfix_bind _ _ 4 32) with (1 := rfix_uint32). intros i b1 E1.
  apply (rfix_bind _ _ 32 0) with (1 := rfix_repeat _ 4 8 _ write_double rfix_double).
  intros l b2 [_ E2]. apply rfix_ret. unfold compile_master_location, write_doubles.
  cbn [fst snd]. rewrite E1, E2, app_nil_r. reflexivity.
Qed.
Lemma rps_master_location : rps parse_master_location wf_location.
Proof.
  unfold parse_master_location. eapply rps_bind; [apply rps_uint32|]. intros i Hi.
  eapply rps_bind; [apply rps_repeat, rps_double|]. intros l Hl. apply rps_ret. split; auto.
Qed.

(** ** Bit fields *)
Lemma bits_below : forall v n, 0 <= v -> 0 <= n -> (forall i, n <= i -> Z.testbit v i = false) -> v < 2 ^ n.
Proof.
  intros v n Hv Hn H. destruct (Z.lt_ge_cases v (2 ^ n)) as [|Hge]; [assumption|].
  assert (0 < 2 ^ n) by (apply Z.pow_pos_nonneg; lia).
  exfalso. specialize (H (Z.log2 v)). rewrite Z.bit_log2 in H by lia.
  enough (true = false) by discriminate. apply H. apply Z.log2_le_pow2; lia.
Qed.
Lemma sum_pow2_below : forall n l, 0 <= n -> NoDup l -> Forall (fun b => 0 <= b < n) l ->
  0 <= sum_pow2 l < 2 ^ n.
Proof.
  intros n l Hn Hd H.
  assert (H0 : Forall (fun b => 0 <= b) l) by (eapply Forall_impl; [|exact H]; cbn; intros; lia).
  split; [apply sum_pow2_nonneg; exact H0|]. apply bits_below; [apply sum_pow2_nonneg; exact H0|lia|].
  intros i Hi. destruct (Z.testbit (sum_pow2 l) i) eqn:E; [|reflexivity].
  apply sum_pow2_testbit in E; auto. pose proof (Forall_In _ _ _ _ H E). cbn in *. lia.
Qed.
Lemma bit_list_below : forall v l n, 0 <= v < 2 ^ n -> is_bit_list v 0 l ->
  bit_set n l.
Proof.
  intros v l n Hv [Hs Hl]. split; [exact Hs|]. apply Forall_forall. intros b Hb.
  apply Hl in Hb. destruct Hb as [Hb Ht]. rewrite Z.sub_0_r in Ht. split; [lia|].
  destruct (Z.lt_ge_cases b n) as [|Hge]; [assumption|].
  rewrite Z.bits_above_log2 in Ht; [discriminate|lia|].
  destruct (Z.eq_dec v 0) as [->|]; [cbn|].
  - destruct (Z.eq_dec b 0) as [->|]; [|lia]. rewrite Z.bits_0 in Ht. discriminate.
  - apply Z.lt_le_trans with n; [|lia]. apply Z.log2_lt_pow2; lia.
Qed.
Lemma tot_bits : forall v, 0 <= v -> tot (rlift (binaryToIntList v 0)).
Proof.
  intros v Hv. apply tot_lift. destruct (binaryToIntList_spec v 0 Hv) as (l & E & _).
  rewrite E. discriminate.
Qed.
Lemma tot_unicode_ranges : tot parse_unicode_ranges.
Proof.
  unfold parse_unicode_ranges. eapply tot_bind_post; [apply tot_read_bytes|apply rpost_read_bytes|].
  intros b Hb. apply tot_bits. apply le_dec_range, Hb.
Qed.
Lemma unicode_ranges_survives : forall l, bit_set 128 l ->
  survives compile_unicode_ranges parse_unicode_ranges l.
Proof.
  intros l [Hs Hr]. unfold survives, compile_unicode_ranges.
  assert (H0 : Forall (fun b => 0 <= b) l) by (eapply Forall_impl; [|exact Hr]; cbn; intros; lia).
  rewrite intListToBinary_ok by exact H0. cbn [wlet].
  pose proof (sum_pow2_below 128 l ltac:(lia) (sorted_nodup _ Hs) Hr) as B.
  exists (le_enc 16 (sum_pow2 l)). split.
  { unfold to_bytes_u, urange, in_range. change (2 ^ (8 * Z.of_nat 16)) with (2 ^ 128).
    replace ((0 <=? sum_pow2 l) && (sum_pow2 l <? 2 ^ 128)) with true by (symmetry; lia). reflexivity. }
  split; [apply le_enc_ok|]. unfold run_parser, parse_unicode_ranges, rbind, read_bytes, take, drop.
  change (64 <? 0) with false. cbv iota.
  rewrite firstn_all2 by (rewrite le_enc_length; cbn; lia).
  rewrite skipn_all2 by (rewrite le_enc_length; cbn; lia).
  rewrite le_dec_enc_u by exact B. unfold rlift.
  rewrite (binaryToIntList_is _ 0 l); [reflexivity|lia|].
  apply is_bit_list_sum; auto. apply sorted_nodup, Hs.
Qed.
Lemma unicode_ranges_exact : exact_at 16 compile_unicode_ranges parse_unicode_ranges.
Proof.
  intros data Hd Hl. pose proof (le_dec_range data Hd) as R. rewrite Hl in R.
  destruct (binaryToIntList_spec (le_dec data) 0 ltac:(lia)) as (l & E & B). exists l. split.
  - unfold run_parser, parse_unicode_ranges, rbind, read_bytes, take, drop.
    change (64 <? 0) with false. cbv iota.
    rewrite firstn_all2 by (rewrite Hl; cbn; lia). rewrite skipn_all2 by (rewrite Hl; cbn; lia).
    unfold rlift. rewrite E. reflexivity.
  - unfold compile_unicode_ranges. rewrite intListToBinary_ok by (eapply is_bit_list_nonneg; [|exact B]; lia).
    cbn [wlet]. rewrite (sum_of_bits _ _ (proj1 R) B). apply to_bytes_u_dec; auto.
Qed.
Lemma rps_unicode_ranges : rps parse_unicode_ranges (bit_set 512).
Proof.
  unfold parse_unicode_ranges. intros s l s' [Hs Hl] E. unfold rbind, read_bytes in E.
  pose proof (le_dec_take_range 64 s ltac:(lia) Hs) as R.
  destruct (binaryToIntList_spec (le_dec (take 64 s)) 0 ltac:(lia)) as (m & Em & B).
  unfold rlift in E. rewrite Em in E. inv_rok E. split.
  - eapply bit_list_below; [|exact B]. exact R.
  - split; [apply bytes_ok_drop, Hs|]. pose proof (f_equal (@length Z) (take_drop 64 s)) as T.
    rewrite app_length in T. lia.
Qed.

(** *** Export options *)
Lemma tot_export_options : tot parse_export_options.
Proof.
  unfold parse_export_options. eapply tot_bind_post; [apply tot_uint16|apply rpost_uint16|].
  intros v Hv. apply tot_bind; [apply tot_bits; unfold u16 in Hv; lia|intros; apply tot_ret].
Qed.
Lemma export_options_value : forall v, 0 <= v < 65536 ->
  exists l, is_bit_list v 0 l /\ parse_export_options (le_enc 2 v) = ROk (map export_name l) [] /\
    forall rest, parse_export_options (le_enc 2 v ++ rest) = ROk (map export_name l) rest.
Proof.
  intros v Hv. destruct (binaryToIntList_spec v 0 ltac:(lia)) as (l & E & B). exists l.
  split; [exact B|].
  destruct (wrt_uint16 v Hv) as (b & Eb & _ & R).
  assert (b = le_enc 2 v) as ->.
  { unfold write_uint16, to_bytes_u, urange, in_range in Eb.
    destruct ((0 <=? v) && _); inversion Eb. reflexivity. }
  assert (G : forall rest, parse_export_options (le_enc 2 v ++ rest) = ROk (map export_name l) rest).
  { intros rest. unfold parse_export_options, rbind. rewrite R. unfold rlift. rewrite E. reflexivity. }
  split; [|exact G]. rewrite <- (app_nil_r (le_enc 2 v)) at 1. apply G.
Qed.
Lemma export_bits : forall l, Forall (fun b => 0 <= b < 3) l ->
  res_map export_bit (map export_name l) = Ok l.
Proof.
  induction 1 as [|b l Hb Hl IH]; [reflexivity|]. cbn [map res_map].
  assert (b = 0 \/ b = 1 \/ b = 2) as [-> | [-> | ->]] by lia;
    (match goal with |- context [export_bit ?x] =>
       let y := eval vm_compute in (export_bit x) in change (export_bit x) with y end);
    cbn [rthen]; rewrite IH; reflexivity.
Qed.
Lemma export_bits_unknown : forall l b, In b l -> 3 <= b -> res_map export_bit (map export_name l) = Err KeyError.
Proof.
  induction l as [|a l IH]; intros b [] Hb; cbn [map res_map].
  - subst a. unfold export_name at 1, export_options. cbn [aget].
    replace (b =? 0) with false by lia. replace (b =? 1) with false by lia.
    replace (b =? 2) with false by lia. reflexivity.
  - assert (D : (exists k, export_bit (export_name a) = Ok k) \/ export_bit (export_name a) = Err KeyError).
    { destruct (export_bit (export_name a)) as [k|e] eqn:E; [left; eauto|right].
      unfold export_bit, aget_res in E. destruct (export_name a); [|congruence].
      destruct (aget str_eqb s (rev_table export_options)); congruence. }
    destruct D as [[k ->] | ->]; [|reflexivity]. cbn. rewrite (IH b); auto.
Qed.
Lemma export_options_exact : forall v, 0 <= v < 8 ->
  exists x, run_parser parse_export_options (le_enc 2 v) = Ok x /\
            compile_export_options x = Ok (le_enc 2 v).
Proof.
  intros v Hv. destruct (export_options_value v ltac:(lia)) as (l & B & E & _).
  exists (map export_name l). split; [unfold run_parser; rewrite E; reflexivity|].
  pose proof (bit_list_below v l 3 ltac:(lia) B) as [_ Hb].
  unfold compile_export_options. rewrite export_bits by exact Hb. cbn [wlet].
  rewrite intListToBinary_ok by (eapply is_bit_list_nonneg; [|exact B]; lia). cbn [wlet].
  rewrite (sum_of_bits v _ ltac:(lia) B). unfold write_uint16, to_bytes_u, urange, in_range.
  change (2 ^ (8 * Z.of_nat 2)) with 65536.
  replace ((0 <=? v) && (v <? 65536)) with true by (symmetry; lia). reflexivity.
Qed.
Lemma export_options_unknown : forall v, 8 <= v < 65536 ->
  exists x, run_parser parse_export_options (le_enc 2 v) = Ok x /\
            compile_export_options x = Err KeyError.
Proof.
  intros v Hv. destruct (export_options_value v ltac:(lia)) as (l & B & E & _).
  exists (map export_name l). split; [unfold run_parser; rewrite E; reflexivity|].
  unfold compile_export_options. rewrite (export_bits_unknown l (Z.log2 v)); [reflexivity| |].
  - apply B. rewrite Z.sub_0_r, Z.bit_log2 by lia. split; [apply Z.log2_nonneg|reflexivity].
  - apply (Z.log2_le_mono 8 v). lia.
Qed.

(** *** PostScript hinting options *)
Lemma named_bits_skip : forall opts k v d, ~ In k (map fst opts) ->
  named_bits opts ((k, v) :: d) = named_bits opts d.
Proof.
  induction opts as [|[k' b'] opts IH]; intros k v d H; [reflexivity|].
  cbn [named_bits aget map fst] in *. destruct (str_eqb k' k) eqn:E.
  - apply str_eqb_eq in E. subst. exfalso. apply H. left. reflexivity.
  - rewrite IH by (intros F; apply H; right; exact F). reflexivity.
Qed.
Lemma take_named_keys : forall opts bits k, In k (map fst (fst (take_named opts bits))) ->
  In k (map fst opts).
Proof.
  induction opts as [|[k' b'] opts IH]; intros bits k H; [destruct H|].
  cbn [take_named map fst] in *. destruct (existsb (Z.eqb b') bits).
  - specialize (IH (filter (fun b => negb (b =? b')) bits) k).
    destruct (take_named opts _) as [d r]. cbn [fst map] in *.
    destruct H as [H|H]; [left; exact H|right; apply IH; exact H].
  - right. eapply IH; eauto.
Qed.
Lemma aget_none : forall V k (d : list (pystr * V)), ~ In k (map fst d) -> aget str_eqb k d = None.
Proof.
  induction d as [|[k' v] d IH]; intros H; [reflexivity|]. cbn [aget map fst] in *.
  destruct (str_eqb k k') eqn:E.
  - apply str_eqb_eq in E. subst. exfalso. apply H. left. reflexivity.
  - apply IH. intros F. apply H. right. exact F.
Qed.
Lemma filter_out : forall b (bits : list Z), NoDup bits -> In b bits ->
  Permutation bits (b :: filter (fun x => negb (x =? b)) bits).
Proof.
  intros b bits Hd. induction Hd as [|x bits Hx Hd IH]; intros Hin; [destruct Hin|]. cbn [filter].
  destruct (x =? b) eqn:E; cbn [negb].
  - assert (x = b) by lia. subst. constructor.
    replace (filter (fun x => negb (x =? b)) bits) with bits; [reflexivity|].
    clear IH Hd Hin. induction bits as [|y bits IH]; [reflexivity|]. cbn in *.
    replace (y =? b) with false by (symmetry; apply Z.eqb_neq; intros ->; tauto). cbn.
    f_equal. apply IH. tauto.
  - destruct Hin as [->|Hin]; [rewrite Z.eqb_refl in E; discriminate|].
    rewrite (IH Hin) at 1. apply perm_swap.
Qed.
Lemma take_named_perm : forall opts bits, NoDup (map fst opts) -> NoDup bits ->
  Permutation bits (named_bits opts (fst (take_named opts bits)) ++ snd (take_named opts bits)).
Proof.
  induction opts as [|[k b] opts IH]; intros bits Ho Hb; cbn [take_named named_bits fst snd map] in *.
  - reflexivity.
  - apply NoDup_cons_iff in Ho. destruct Ho as [Hk Ho].
    destruct (existsb (Z.eqb b) bits) eqn:Ex.
    + apply existsb_exists in Ex. destruct Ex as (y & Hy & Ey). assert (b = y) by lia. subst y.
      pose proof (IH (filter (fun x => negb (x =? b)) bits) Ho (NoDup_filter _ Hb)) as P.
      destruct (take_named opts (filter (fun x => negb (x =? b)) bits)) as [d r].
      cbn [fst snd aget] in *. rewrite str_eqb_refl. change (1 =? 0) with false. cbv iota.
      rewrite named_bits_skip by exact Hk. cbn [app]. rewrite <- P. apply filter_out; auto.
    + rewrite aget_none; [apply IH; auto|].
      intros F. apply Hk. eapply take_named_keys; eauto.
Qed.
Lemma take_named_chosen : forall chosen opts bits other,
  NoDup (map fst opts) -> NoDup (map snd opts) ->
  StronglySorted Z.lt bits -> StronglySorted Z.lt other ->
  (forall b, In b (map snd opts) -> ~ In b other) ->
  (forall b, In b bits <-> In b (map snd (filter (fun p => chosen (fst p)) opts)) \/ In b other) ->
  take_named opts bits = (map (fun p => (fst p, 1)) (filter (fun p => chosen (fst p)) opts), other).
Proof.
  intros chosen. induction opts as [|[k b] opts IH]; intros bits other Hk Hb Hs Ho Hd Hin.
  - cbn in *. f_equal. apply sorted_ext; auto. intros x. rewrite Hin. tauto.
  - cbn [take_named map fst snd filter] in *.
    apply NoDup_cons_iff in Hk. destruct Hk as [Hk1 Hk].
    apply NoDup_cons_iff in Hb. destruct Hb as [Hb1 Hb].
    assert (Hsub : forall x, In x (map snd (filter (fun p => chosen (fst p)) opts)) -> In x (map snd opts)).
    { intros x Hx. apply in_map_iff in Hx. destruct Hx as (p & <- & Hp). apply filter_In in Hp.
      apply in_map. tauto. }
    destruct (chosen k) eqn:Ec.
    + assert (E : existsb (Z.eqb b) bits = true).
      { apply existsb_exists. exists b. split; [|apply Z.eqb_refl]. apply Hin. left. left. reflexivity. }
      rewrite E. rewrite (IH _ other); auto.
      * clear -Hs. induction Hs as [|x l Hl IH Hx]; [constructor|]. cbn.
        destruct (negb (x =? b)); [|exact IH]. constructor; [exact IH|].
        apply Forall_forall. intros y Hy. apply filter_In in Hy. rewrite Forall_forall in Hx. apply Hx, Hy.
      * intros x Hx. apply Hd. right. exact Hx.
      * intros x. rewrite filter_In, Hin. cbn [map snd In]. split.
        -- intros [[[H|H]|H] Hn]; [lia|auto|auto].
        -- intros [H|H].
           ++ split; [auto|]. assert (x <> b) by (intros ->; apply Hb1, Hsub, H). lia.
           ++ split; [auto|]. assert (x <> b) by (intros ->; exact (Hd b (or_introl eq_refl) H)). lia.
    + assert (E : existsb (Z.eqb b) bits = false).
      { destruct (existsb (Z.eqb b) bits) eqn:E; [|reflexivity]. exfalso.
        apply existsb_exists in E. destruct E as (y & Hy & Ey). assert (b = y) by lia. subst y.
        apply Hin in Hy. destruct Hy as [Hy|Hy]; [apply Hb1, Hsub, Hy|exact (Hd b (or_introl eq_refl) Hy)]. }
      rewrite E. apply IH; auto. intros x Hx. apply Hd. right. exact Hx.
Qed.
Lemma named_bits_chosen : forall chosen opts, NoDup (map fst opts) ->
  named_bits opts (map (fun p => (fst p, 1)) (filter (fun p => chosen (fst p)) opts)) =
  map snd (filter (fun p => chosen (fst p)) opts).
Proof.
  intros chosen. induction opts as [|[k b] opts IH]; intros Hk; [reflexivity|].
  cbn [map fst] in Hk. apply NoDup_cons_iff in Hk. destruct Hk as [Hk1 Hk].
  cbn [named_bits filter fst]. destruct (chosen k) eqn:E.
  - cbn [map fst snd aget]. rewrite str_eqb_refl. change (1 =? 0) with false. cbv iota.
    f_equal. rewrite named_bits_skip by exact Hk1. apply IH, Hk.
  - rewrite aget_none; [apply IH, Hk|]. intros F. apply Hk1.
    rewrite map_map in F. cbn in F. apply in_map_iff in F. destruct F as (p & <- & Hp).
    apply filter_In in Hp. apply in_map. tauto.
Qed.

Section PSOptions.
  Context (opts : list (pystr * Z)) (n : Z) (w : Z -> wr) (r : rd Z).
  Context (Hk : NoDup (map fst opts)) (Hb : NoDup (map snd opts)) (Hn : 0 <= n)
    (Hin : Forall (fun b => 0 <= b < n) (map snd opts))
    (Hw : forall v, 0 <= v < 2 ^ n -> wrt (w v) r v).
  Lemma wrt_ps_options : forall d, wf_ps_options opts n d ->
    wrt (compile_ps_options opts w d) (parse_ps_options opts r) d.
  Proof.
    intros [nm other] ((chosen & Hc) & [Hs Ho] & Hd). cbn [po_named po_other] in *. subst nm.
    unfold compile_ps_options, parse_ps_options. cbn [po_named po_other].
    rewrite named_bits_chosen by exact Hk.
    set (L := map snd (filter (fun p => chosen (fst p)) opts) ++ other).
    assert (Hsub : forall x, In x (map snd (filter (fun p => chosen (fst p)) opts)) -> In x (map snd opts)).
    { intros x Hx. apply in_map_iff in Hx. destruct Hx as (p & <- & Hp). apply filter_In in Hp.
      apply in_map. tauto. }
    assert (HL : Forall (fun b => 0 <= b < n) L).
    { apply Forall_app. split; [|exact Ho]. apply Forall_forall. intros x Hx.
      apply (Forall_In _ _ _ _ Hin), Hsub, Hx. }
    assert (HD : NoDup L).
    { assert (H1 : NoDup (map snd (filter (fun p => chosen (fst p)) opts))).
      { clear -Hb. induction opts as [|[k b] l IH]; [constructor|]. cbn in *.
        apply NoDup_cons_iff in Hb. destruct Hb as [Hb1 Hb2].
        destruct (chosen k); [|auto]. cbn. constructor; [|auto]. intros F. apply Hb1.
        apply in_map_iff in F. destruct F as (p & <- & Hp). apply filter_In in Hp. apply in_map. tauto. }
      unfold L. revert H1 Hsub. generalize (map snd (filter (fun p => chosen (fst p)) opts)).
      induction l as [|x l IH]; intros H1 H2; [apply sorted_nodup, Hs|]. cbn.
      apply NoDup_cons_iff in H1. destruct H1 as [H1 H3]. constructor.
      - rewrite in_app_iff. intros [F|F]; [tauto|]. apply (Hd x); [apply H2; left; auto|exact F].
      - apply IH; auto. intros y Hy. apply H2. right. exact Hy. }
    assert (HL0 : Forall (fun b => 0 <= b) L) by (eapply Forall_impl; [|exact HL]; cbn; intros; lia).
    rewrite intListToBinary_ok by exact HL0. cbn [wlet].
    pose proof (sum_pow2_below n L Hn HD HL) as B.
    destruct (binaryToIntList_spec (sum_pow2 L) 0 ltac:(lia)) as (bits & E & [Hbs Hbb]).
    eapply wrt_bind_ret; [apply Hw; exact B|]. intros s. unfold rbind, rlift. rewrite E.
    rewrite (take_named_chosen chosen opts bits other); auto.
    intros b. rewrite Hbb, Z.sub_0_r, sum_pow2_testbit by auto. unfold L. rewrite in_app_iff.
    split; [tauto|]. intros H. split; [|tauto]. pose proof (proj2 (in_app_iff L L b)) as _.
    assert (HbL : In b L) by (unfold L; rewrite in_app_iff; tauto).
    pose proof (Forall_In _ _ _ _ HL0 HbL). cbn in *. lia.
  Qed.
  Lemma ps_options_of : forall v, 0 <= v < 2 ^ n -> exists d,
    (forall s, (bits <- rlift (binaryToIntList v 0) ;;
      let (d, other) := take_named opts bits in ret (PSOptions d other)) s = ROk d s)
    /\ compile_ps_options opts w d = w v.
  Proof.
    intros v Hv. destruct (binaryToIntList_spec v 0 ltac:(lia)) as (bits & E & B).
    pose proof (take_named_perm opts bits Hk (sorted_nodup _ (proj1 B))) as P.
    destruct (take_named opts bits) as [d other] eqn:Et. cbn [fst snd] in P.
    exists (PSOptions d other). split.
    - intros s. unfold rbind, rlift. rewrite E, Et. reflexivity.
    - unfold compile_ps_options. cbn [po_named po_other].
      rewrite intListToBinary_ok.
      + cbn [wlet]. rewrite <- (sum_pow2_perm _ _ P), (sum_of_bits v _ ltac:(lia) B). reflexivity.
      + eapply Permutation_Forall; [exact P|]. eapply is_bit_list_nonneg; [|exact B]. lia.
  Qed.
  Lemma fix_ps_options : forall k, rfix k r (fun v b => w v = Ok b /\ 0 <= v < 2 ^ n) ->
    rfix k (parse_ps_options opts r) (fun d b => compile_ps_options opts w d = Ok b).
  Proof.
    intros k Hr b rest Hb1 Hb2. destruct (Hr b rest Hb1 Hb2) as (v & Ev & Ew & Hv).
    destruct (ps_options_of v Hv) as (d & Ed & Cd). exists d.
    split; [|rewrite Cd; exact Ew]. unfold parse_ps_options. unfold rbind at 1. rewrite Ev. apply Ed.
  Qed.
  (** what the parser returns comes from a value of the field, and compiles to that value *)
  Lemma ps_options_reparses : rps r (fun v => 0 <= v < 2 ^ n) ->
    reparses (compile_ps_options opts w) (parse_ps_options opts r).
  Proof.
    intros Hr. apply reparses_intro with (P := fun d => exists v, 0 <= v < 2 ^ n /\
       (forall s, (bits <- rlift (binaryToIntList v 0) ;;
          let (d, other) := take_named opts bits in ret (PSOptions d other)) s = ROk d s) /\
       compile_ps_options opts w d = w v).
    - unfold parse_ps_options. eapply rps_bind; [exact Hr|]. intros v Hv s d s' Hs E.
      destruct (ps_options_of v Hv) as (d' & Ed & Cd). rewrite Ed in E. inv_rok E.
      split; [exists v; auto|exact Hs].
    - intros d (v & Hv & Ed & Cd). apply wrt_survives. rewrite Cd. unfold parse_ps_options.
      eapply wrt_bind_ret; [apply Hw; exact Hv|]. exact Ed.
  Qed.
  Lemma tot_ps_options : tot r -> rpost r (fun v => 0 <= v) -> tot (parse_ps_options opts r).
  Proof.
    intros Ht Hp. unfold parse_ps_options. eapply tot_bind_post; [exact Ht|exact Hp|].
    intros v Hv. apply tot_bind; [apply tot_bits; exact Hv|]. intros bits. tot_auto.
  Qed.
End PSOptions.

Lemma ps_tables_ok :
  (NoDup (map fst ps_global_options) /\ NoDup (map snd ps_global_options) /\
   Forall (fun b => 0 <= b < 16) (map snd ps_global_options)) /\
  (NoDup (map fst ps_glyph_options) /\ NoDup (map snd ps_glyph_options) /\
   Forall (fun b => 0 <= b < 32) (map snd ps_glyph_options)).
Proof.
  repeat split;
    (repeat (apply Forall_cons || apply Forall_nil || apply NoDup_cons || apply NoDup_nil));
    cbn; try lia; intros F;
    repeat match type of F with _ \/ _ => destruct F as [F|F] end; try exact F;
    try discriminate.
Qed.
