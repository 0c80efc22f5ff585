(** Proofs about font options, primary instances and masks. *)
From Coq Require Import String.
From Verif Require Import Base M_Stream M_Text M_Py M_Simple M_Float M_Glyph M_Options
  Lib P_Stream P_Text P_Loop S_Bits S_Text S_Entry S_Glyph S_Options P_Simple P_Simple2 P_Simple3 P_Float
  P_Glyph P_Glyph2 P_Glyph3 P_Glyph4 P_Glyph5.
Local Open Scope list_scope.
Open Scope rd_scope.

(** ** Key-value lists *)
Definition write_kv (p : Z * Z) : wr := write_uint8 (fst p) +++ write_value (snd p).
Definition kv_ok (p : Z * Z) : Prop := byteZ (fst p) /\ fst p <> 0x64 /\ i32 (snd p).
Lemma wrt_key_values : forall l, Forall kv_ok l ->
  wrt (wlist write_kv l +++ write_uint8 0x64) parse_key_values l.
Proof.
  intros l H. unfold parse_key_values.
  apply wrt_loop with (f := fun acc p => acc ++ [p]).
  - intros l1 [k v] l2 E. split; [apply wne_l, wne_uint8|].
    assert (K : kv_ok (k, v)).
    { apply (Forall_In _ _ _ _ H). rewrite E. apply in_or_app. right. left. reflexivity. }
    destruct K as (Kb & Kn & Kv). cbn [fst snd] in *. unfold write_kv. cbn [fst snd].
    eapply wrt_bind; [apply wrt_uint8; exact Kb|].
    replace (k =? 100) with false by (symmetry; apply Z.eqb_neq; exact Kn).
    eapply wrt_bind_ret; [apply wrt_value; exact Kv|]. rewrite fold_left_app. reflexivity.
  - eapply wrt_bind_ret; [apply wrt_uint8; unfold byteZ; lia|]. cbn. rewrite fold_snoc. reflexivity.
  - apply wlist_ok. intros [k v] Hin. pose proof (Forall_In _ _ _ _ H Hin) as (Kb & _ & Kv).
    unfold write_kv. cbn [fst snd] in *.
    assert (W : wrt (write_uint8 k +++ write_value v)
                  (a <- read_uint8 ;; b <- read_value ;; ret (a, b)) (k, v)).
    { eapply wrt_bind; [apply wrt_uint8; exact Kb|].
      eapply wrt_bind_ret; [apply wrt_value; exact Kv|]. reflexivity. }
    exact (wrt_ok _ _ _ _ W).
Qed.
Lemma rps_key_values : rps parse_key_values (Forall kv_ok).
Proof.
  unfold parse_key_values. apply rps_loop with (I := Forall kv_ok); [constructor|].
  intros st Hst. eapply rps_bind; [apply rps_uint8|]. intros k Hk.
  destruct (k =? 100) eqn:E; [apply rps_ret; exact Hst|]. apply Z.eqb_neq in E.
  eapply rps_bind; [apply rps_value|]. intros v Hv. apply rps_ret.
  apply Forall_app. split; [exact Hst|]. constructor; [|constructor].
  repeat split; try apply Hk; try apply Hv; exact E.
Qed.

(** ** The tables *)
Lemma options_table : forall raw k, In (raw, k) font_options ->
  aget str_eqb k (rev_table font_options) = Some raw /\ get_or_str font_options raw = k /\
  byteZ raw /\ raw <> 0x64.
Proof.
  assert (T : forallb (fun p => match aget str_eqb (snd p) (rev_table font_options) with
                                | Some r => r =? fst p | None => false end &&
                                str_eqb (get_or_str font_options (fst p)) (snd p) &&
                                (0 <=? fst p) && (fst p <? 256) && negb (fst p =? 100)) font_options = true)
    by (vm_compute; reflexivity).
  rewrite forallb_forall in T. intros raw k Hin. specialize (T _ Hin). cbn [fst snd] in T.
  rewrite !andb_true_iff in T. destruct T as ((((A & B) & C) & D) & E).
  destruct (aget str_eqb k (rev_table font_options)) as [r|]; [|discriminate].
  apply Z.eqb_eq in A. apply str_eqb_eq in B. unfold byteZ. subst r.
  split; [reflexivity|]. split; [exact B|]. split; [lia|]. rewrite negb_true_iff, Z.eqb_neq in E. exact E.
Qed.
Lemma option_names_known : forall k, In k option_names -> exists raw, In (raw, k) font_options.
Proof.
  assert (T : forallb (fun k => existsb (fun p => str_eqb (snd p) k) font_options) option_names = true)
    by (vm_compute; reflexivity).
  rewrite forallb_forall in T. intros k Hin. specialize (T _ Hin). apply existsb_exists in T.
  destruct T as ([raw k'] & Hp & E). cbn in E. apply str_eqb_eq in E. subst. exists raw. exact Hp.
Qed.

Lemma in_pair_check : forall raw k l,
  existsb (fun p => (fst p =? raw) && str_eqb (snd p) k) l = true -> In (raw, k) l.
Proof.
  intros raw k l H. apply existsb_exists in H. destruct H as ([r k'] & Hin & E). cbn in E.
  apply andb_true_iff in E. destruct E as [E1 E2]. apply Z.eqb_eq in E1. apply str_eqb_eq in E2.
  subst. exact Hin.
Qed.

(** ** One option *)
(** what the parser does to the value of key [k] *)
Definition post1 (k : pystr) (v : opt_val) : opt_val :=
  (if str_eqb (py "expand_kern_flags") k then to_expand_kern else fun v => v)
  ((if str_eqb (py "autohinting_options") k then to_autohint else fun v => v)
  ((if str_eqb (py "auto_hinting_v_ratio") k then to_ratio else fun v => v)
  ((if str_eqb (py "auto_hinting_h_ratio") k then to_ratio else fun v => v) v))).

Lemma flags_cases : forall a, flag a -> a = 0 \/ a = 1. Proof. intros a H; exact H. Qed.
Ltac flag_cases :=
  repeat match goal with H : flag ?a |- _ => destruct H; subst a end.
Lemma autohint_pack : forall p a b c d e f, 0 <= p <= 7 -> flag a -> flag b -> flag c -> flag d ->
  flag e -> flag f -> exists n, i32 n /\
  pack_flags autohint_flags (autohint_dict p a b c d e f)
    (dget (autohint_dict p a b c d e f) precision_key 7) = n /\
  unpack_autohint n = autohint_dict p a b c d e f.
Proof.
  intros p a b c d e f Hp. intros.
  assert (P : p = 0 \/ p = 1 \/ p = 2 \/ p = 3 \/ p = 4 \/ p = 5 \/ p = 6 \/ p = 7) by lia. clear Hp.
  exists (p + 256 * a + 512 * b + 1024 * c + 2048 * d + 4096 * e + 8192 * f).
  split; [unfold i32; unfold flag in *; lia|].
  split.
  - unfold pack_flags. 
    transitivity (((((( p + a * 256) + b * 512) + c * 1024) + d * 2048) + e * 4096) + f * 8192);
      [reflexivity|ring].
  - flag_cases; repeat (destruct P as [P|P]); subst p; reflexivity.
Qed.
Lemma expand_kern_pack : forall a b c d e f g, flag a -> flag b -> flag c -> flag d -> flag e ->
  flag f -> flag g -> exists n, i32 n /\
  pack_flags expand_kern_table (expand_kern_dict a b c d e f g) 0 = n /\
  unpack_flags expand_kern_table n = expand_kern_dict a b c d e f g.
Proof.
  intros a b c d e f g. intros.
  exists (a + 2 * b + 4 * c + 8 * d + 16 * e + 32 * f + 4096 * g).
  split; [unfold i32; unfold flag in *; lia|]. split.
  - transitivity ((((((( 0 + a * 1) + b * 2) + c * 4) + d * 8) + e * 16) + f * 32) + g * 4096);
      [reflexivity|ring].
  - flag_cases; reflexivity.
Qed.

Lemma option_ok : forall k v, wf_option k v -> exists raw n,
  In (raw, k) font_options /\ option_int k v = Ok n /\ i32 n /\ post1 k (OInt n) = v.
Proof.
  intros k v H. destruct H as [k n [->| ->] Hn|p a b c d e f Hp|a b c d e f g|k v Hk Hr H1 H2 Hv].
  - exists 12, n. split; [apply in_pair_check; vm_compute; reflexivity|]. split; [|split; [exact Hn|reflexivity]].
    cbn -[Z.pow float_mul int_div py_round]. apply round_scaled; unfold int32 in Hn; lia.
  - exists 13, n. split; [apply in_pair_check; vm_compute; reflexivity|]. split; [|split; [exact Hn|reflexivity]].
    cbn -[Z.pow float_mul int_div py_round]. apply round_scaled; unfold int32 in Hn; lia.
  - destruct (autohint_pack p a b c d e f) as (n & Hn & E1 & E2); try assumption.
    exists 20, n. split; [apply in_pair_check; vm_compute; reflexivity|]. split; [rewrite <- E1; reflexivity|].
    split; [exact Hn|]. change (post1 _ (OInt n)) with (ODict (unpack_autohint n)). rewrite E2. reflexivity.
  - destruct (expand_kern_pack a b c d e f g) as (n & Hn & E1 & E2); try assumption.
    exists 48, n. split; [apply in_pair_check; vm_compute; reflexivity|]. split; [rewrite <- E1; reflexivity|].
    split; [exact Hn|]. change (post1 _ (OInt n)) with (ODict (unpack_flags expand_kern_table n)). rewrite E2. reflexivity.
  - destruct (option_names_known k Hk) as (raw & Hraw). exists raw, v. split; [exact Hraw|].
    assert (N1 : str_eqb k (py "auto_hinting_h_ratio") = false) by (apply str_eqb_neq; intro; apply Hr; left; assumption).
    assert (N2 : str_eqb k (py "auto_hinting_v_ratio") = false) by (apply str_eqb_neq; intro; apply Hr; right; assumption).
    assert (N3 : str_eqb k (py "autohinting_options") = false) by (apply str_eqb_neq; assumption).
    assert (N4 : str_eqb k (py "expand_kern_flags") = false) by (apply str_eqb_neq; assumption).
    unfold option_int, post1. rewrite N1, N2, N3, N4. split; [reflexivity|]. split; [exact Hv|].
    assert (S : forall a b, str_eqb a b = false -> str_eqb b a = false)
      by (intros a b E; apply str_eqb_neq in E; apply str_eqb_neq; congruence).
    rewrite (S _ _ N1), (S _ _ N2), (S _ _ N3), (S _ _ N4). reflexivity.
Qed.

(** ** The whole dict *)
Lemma update_map : forall key f (d : font_options_dict), NoDup (map fst d) ->
  update_option key f d = map (fun p => (fst p, (if str_eqb key (fst p) then f else fun v => v) (snd p))) d.
Proof.
  intros key f d. unfold update_option.
  induction d as [|[k v] d IH]; intros N; [reflexivity|]. inversion N; subst.
  cbn [aget map fst snd]. destruct (str_eqb key k) eqn:E.
  - apply str_eqb_eq in E. subst k. cbn [aset]. rewrite str_eqb_refl. f_equal.
    rewrite <- (map_id d) at 1. apply map_ext_in. intros [k' v'] Hin. cbn.
    replace (str_eqb key k') with false; [reflexivity|]. symmetry. apply str_eqb_neq. intros <-.
    apply H1. exact (in_map fst _ _ Hin).
  - specialize (IH H2). destruct (aget str_eqb key d) eqn:A.
    + cbn [aset]. rewrite E, IH. reflexivity.
    + rewrite <- IH. reflexivity.
Qed.
Lemma post_process_map : forall d, NoDup (map fst d) ->
  post_process d = map (fun p => (fst p, post1 (fst p) (snd p))) d.
Proof.
  intros d N. unfold post_process.
  assert (K : forall (f : pystr -> opt_val -> opt_val) (d : font_options_dict),
    map fst (map (fun p => (fst p, f (fst p) (snd p))) d) = map fst d)
    by (intros; rewrite map_map; reflexivity).
  rewrite (update_map _ to_ratio d N).
  rewrite (update_map _ to_ratio) by (rewrite map_map; exact N).
  rewrite (update_map _ to_autohint) by (rewrite !map_map; exact N).
  rewrite (update_map _ to_expand_kern) by (rewrite !map_map; exact N).
  rewrite !map_map. apply map_ext. intros [k v]. reflexivity.
Qed.
Lemma collect_fresh : forall l d0, NoDup (map fst d0 ++ map (fun kv => get_or_str font_options (fst kv)) l) ->
  fold_left (fun d kv => aset str_eqb (get_or_str font_options (fst kv)) (OInt (snd kv)) d) l d0
  = d0 ++ map (fun kv : Z * Z => (get_or_str font_options (fst kv), OInt (snd kv))) l.
Proof.
  induction l as [|kv l IH]; intros d0 N; cbn [fold_left map]; [symmetry; apply app_nil_r|].
  cbn [map] in N. rewrite aset_fresh.
  - rewrite IH; [rewrite <- app_assoc; reflexivity|]. rewrite map_app. cbn [map fst].
    rewrite <- app_assoc. exact N.
  - apply NoDup_remove_2 in N. rewrite in_app_iff in N. tauto.
Qed.

Definition kv_for (p : pystr * opt_val) (kv : Z * Z) : Prop :=
  get_or_str font_options (fst kv) = fst p /\ compile_option p = write_kv kv /\ kv_ok kv /\
  post1 (fst p) (OInt (snd kv)) = snd p.
Lemma options_kvs : forall d, Forall (fun p => wf_option (fst p) (snd p)) d ->
  exists l, Forall2 kv_for d l.
Proof.
  induction 1 as [|[k v] d H _ (l & IH)]; [exists []; constructor|]. cbn [fst snd] in H.
  destruct (option_ok k v H) as (raw & n & Hin & E1 & Hn & E2).
  destruct (options_table raw k Hin) as (T1 & T2 & T3 & T4).
  exists ((raw, n) :: l). constructor; [|exact IH].
  unfold kv_for. cbn [fst snd]. split; [exact T2|]. split.
  - unfold compile_option. cbn [fst snd]. rewrite T1, E1. reflexivity.
  - split; [split; [exact T3|split; [exact T4|exact Hn]]|exact E2].
Qed.

Lemma wrt_font_options : forall d, wf_font_options d ->
  wrt (compile_font_options d) parse_font_options d.
Proof.
  intros d (N & H). destruct (options_kvs d H) as (l & F). unfold compile_font_options, parse_font_options.
  assert (W : wlist compile_option d = wlist write_kv l).
  { clear -F. induction F as [|p kv d l K _ IH]; [reflexivity|]. cbn [wlist].
    destruct K as (_ & -> & _). rewrite IH. reflexivity. }
  rewrite W. eapply wrt_bind_ret.
  - apply wrt_key_values. clear -F. induction F as [|p kv d l K _ IH]; constructor; [apply K|exact IH].
  - assert (K : map (fun kv : Z * Z => get_or_str font_options (fst kv)) l = map fst d).
    { clear -F. induction F as [|p kv d l K _ IH]; [reflexivity|]. cbn [map]. destruct K as (-> & _).
      rewrite IH. reflexivity. }
    unfold collect_options. rewrite collect_fresh by (cbn; rewrite K; exact N). cbn [app].
    rewrite post_process_map.
    + assert (M : map (fun kv : Z * Z => (get_or_str font_options (fst kv),
                     post1 (get_or_str font_options (fst kv)) (OInt (snd kv)))) l = d).
      { clear -F. induction F as [|[k v] kv d l K _ IH]; [reflexivity|].
        cbn [map]. destruct K as (E & _ & _ & P). cbn [fst snd] in *. rewrite E, P, IH. reflexivity. }
      rewrite map_map. cbn [fst snd]. rewrite M. reflexivity.
    + rewrite map_map. cbn [fst]. rewrite K. exact N.
Qed.

(** ** What the parser returns *)
Lemma tot_font_options : tot parse_font_options.
Proof. unfold parse_font_options. apply tot_bind; [apply tot_key_values|intros; apply tot_ret]. Qed.

Lemma flag_of_flag : forall v m, flag (flag_of v m).
Proof. intros. unfold flag_of, flag. destruct (_ =? 0); auto. Qed.
Lemma post1_wf : forall k n, In k option_names -> i32 n -> wf_option k (post1 k (OInt n)).
Proof.
  intros k n Hk Hn.
  destruct (str_eqb k (py "auto_hinting_h_ratio")) eqn:E1.
  { apply str_eqb_eq in E1. subst k. apply wf_ratio; [left; reflexivity|exact Hn]. }
  destruct (str_eqb k (py "auto_hinting_v_ratio")) eqn:E2.
  { apply str_eqb_eq in E2. subst k. apply wf_ratio; [right; reflexivity|exact Hn]. }
  destruct (str_eqb k (py "autohinting_options")) eqn:E3.
  { apply str_eqb_eq in E3. subst k. change (post1 _ (OInt n)) with (ODict (unpack_autohint n)).
    change (unpack_autohint n) with (autohint_dict (Z.land n 7) (flag_of n 256) (flag_of n 512)
      (flag_of n 1024) (flag_of n 2048) (flag_of n 4096) (flag_of n 8192)).
    apply wf_autohint; try apply flag_of_flag.
    change 7 with (Z.ones 3). rewrite Z.land_ones by lia. pose proof (Z.mod_pos_bound n (2 ^ 3)). cbn in *. lia. }
  destruct (str_eqb k (py "expand_kern_flags")) eqn:E4.
  { apply str_eqb_eq in E4. subst k.
    change (post1 _ (OInt n)) with (ODict (expand_kern_dict (flag_of n 1) (flag_of n 2)
      (flag_of n 4) (flag_of n 8) (flag_of n 16) (flag_of n 32) (flag_of n 4096))).
    apply wf_expand_kern; apply flag_of_flag. }
  assert (S : forall a b, str_eqb a b = false -> str_eqb b a = false)
    by (intros a b E; apply str_eqb_neq in E; apply str_eqb_neq; congruence).
  unfold post1. rewrite (S _ _ E1), (S _ _ E2), (S _ _ E3), (S _ _ E4).
  apply str_eqb_neq in E1, E2, E3, E4. apply wf_plain; auto. intros [A|A]; contradiction.
Qed.

Lemma aset_keys_nodup : forall V (k : pystr) (v : V) d, NoDup (map fst d) -> NoDup (map fst (aset str_eqb k v d)).
Proof.
  induction d as [|[k' v'] d IH]; intros N; cbn [aset].
  - repeat constructor. intros [].
  - destruct (str_eqb k k') eqn:E; [exact N|]. cbn [map fst] in *. inversion N; subst.
    constructor; [|apply IH; assumption]. intros Hin. apply H1. clear - Hin E.
    induction d as [|[k2 v2] d IH]; cbn in *.
    + destruct Hin as [<-|[]]. rewrite str_eqb_refl in E. discriminate.
    + destruct (str_eqb k k2); cbn in Hin; tauto.
Qed.
Lemma aset_Forall : forall V (P : pystr * V -> Prop) k v d, P (k, v) -> Forall P d ->
  Forall P (aset str_eqb k v d).
Proof.
  intros V P k v d Hp. induction 1 as [|[k' v'] d H F IH]; cbn [aset]; [constructor; [exact Hp|constructor]|].
  destruct (str_eqb k k') eqn:E; constructor; auto. apply str_eqb_eq in E. subst. exact Hp.
Qed.
Definition int_option (p : pystr * opt_val) : Prop := exists n, snd p = OInt n /\ i32 n.
Lemma collect_ok : forall l, Forall kv_ok l ->
  NoDup (map fst (collect_options l)) /\ Forall int_option (collect_options l).
Proof.
  intros l. unfold collect_options.
  assert (G : forall d, Forall kv_ok l -> NoDup (map fst d) -> Forall int_option d ->
    NoDup (map fst (fold_left (fun d kv => aset str_eqb (get_or_str font_options (fst kv)) (OInt (snd kv)) d) l d)) /\
    Forall int_option (fold_left (fun d kv => aset str_eqb (get_or_str font_options (fst kv)) (OInt (snd kv)) d) l d)).
  { induction l as [|kv l IH]; intros d F N I; [auto|]. inversion F; subst. cbn [fold_left]. apply IH; [assumption| |].
    - apply aset_keys_nodup. exact N.
    - apply aset_Forall; [exists (snd kv); split; [reflexivity|apply H1]|exact I]. }
  intros F. apply G; [exact F|constructor|constructor].
Qed.
Lemma rps_font_options : rps parse_font_options
  (fun d => Forall (fun p => In (fst p) option_names) d -> wf_font_options d).
Proof.
  unfold parse_font_options. eapply rps_bind; [apply rps_key_values|]. intros l Hl. apply rps_ret.
  destruct (collect_ok l Hl) as [N I]. rewrite (post_process_map _ N). intros K. split.
  - rewrite map_map. exact N.
  - revert K I. generalize (collect_options l) as d. induction d as [|[k v] d IH]; intros K I; [constructor|].
    cbn [map fst snd] in *. inversion K; subst. inversion I; subst. constructor; [|apply IH; assumption].
    cbn [fst snd] in *. destruct H3 as (n & E & Hn). cbn in E. subst v. apply post1_wf; assumption.
Qed.

(** ** Scaled numbers, instances and masks *)
Lemma tot_instances : tot parse_instances.
Proof. unfold parse_instances, parse_instance. tot_auto. Qed.
Lemma tot_mask : tot parse_mask.
Proof.
  unfold parse_mask. apply tot_bind; [apply tot_value|]. intros.
  apply tot_bind; [tot_auto|]. intros. apply tot_bind; [apply tot_outlines|]. intros. apply tot_ret.
Qed.

Lemma wrt_weight : forall v, scaled_number 100000000 v ->
  wrt (wlet (num_round_mul v 100000000) write_value)
      (v <- read_value ;; ret (NFloat (int_div v 100000000))) v.
Proof.
  intros v (n & Hn & ->). cbn [num_round_mul]. unfold int32 in Hn.
  rewrite round_scaled by lia. cbn [wlet].
  eapply wrt_bind_ret; [apply wrt_value; unfold i32; lia|]. reflexivity.
Qed.
Lemma wrt_mask : forall m, wf_mask m -> wrt (compile_mask m) parse_mask m.
Proof.
  intros [wv [nm no]] (Hc & Hw & Hm & nodes & En & Hn). cbn [mk_weight_vector mk_outlines mo_num_masters mo_nodes] in *.
  subst no. unfold compile_mask, parse_mask. cbn [mk_weight_vector mk_outlines mo_num_masters mo_nodes].
  eapply wrt_bind; [apply wrt_value; apply count_i32; exact Hc|].
  eapply wrt_bind.
  - apply wrt_range_id; [reflexivity|]. intros x Hx. apply wrt_weight. exact (Forall_In _ _ _ _ Hw Hx).
  - eapply wrt_bind_ret; [exact (wrt_outlines nm (Some nodes) Hm Hn)|]. reflexivity.
Qed.
Lemma rps_scaled : forall d, rps (v <- read_value ;; ret (NFloat (int_div v d))) (scaled_number d).
Proof. intros d. eapply rps_bind; [apply rps_value|]. intros v Hv. apply rps_ret. exists v. auto. Qed.
Lemma rps_mask : rps parse_mask (fun m =>
  countable (mk_weight_vector m) /\ Forall (scaled_number 100000000) (mk_weight_vector m) /\
  exists nodes, mo_nodes (mk_outlines m) = Some nodes /\
  (1 <= mo_num_masters (mk_outlines m) -> Forall (wf_node (mo_num_masters (mk_outlines m))) nodes /\
   forall i, Z.of_nat i < mo_num_masters (mk_outlines m) -> small_steps (0, 0) (master_path nodes i))).
Proof.
  unfold parse_mask. eapply rps_bind; [apply rps_value|]. intros n Hn.
  eapply rps_bind; [apply rps_range, rps_scaled|]. intros wv [L F].
  eapply rps_bind; [apply rps_outlines|]. intros [nm nodes] O. apply rps_ret. cbn [fst snd] in *.
  cbn [mk_weight_vector mk_outlines mo_num_masters mo_nodes].
  split; [exact (range_countable _ _ _ Hn L)|]. split; [exact F|]. exists nodes. split; [reflexivity|exact O].
Qed.

(** *** Instances, written with truncation *)
(** [off_by_one n m]: [m] is [n], or [n] moved by one towards zero *)
Lemma instance_value : forall n, int32 n -> exists m, (m = n \/ m = n - Z.sgn n) /\
  num_int_mul (NFloat (int_div n 10000)) 10000 = Ok m.
Proof.
  intros n Hn. unfold int32 in Hn. cbn [num_int_mul].
  destruct (trunc_scaled n 10000) as [E|E]; [lia|lia| |]; rewrite E; eauto.
Qed.
Definition near (n m : Z) : Prop := m = n \/ m = n - Z.sgn n.
Lemma near_i32 : forall n m, int32 n -> near n m -> i32 m.
Proof. unfold int32, near, i32. intros. lia. Qed.
Lemma instance_values : forall vs, Forall int32 vs -> exists ms, Forall2 near vs ms /\
  wlist (fun v => wlet (num_int_mul v 10000) write_value) (map (fun n => NFloat (int_div n 10000)) vs)
  = wlist write_value ms.
Proof.
  induction 1 as [|n vs Hn _ (ms & F & E)]; [exists []; split; [constructor|reflexivity]|].
  destruct (instance_value n Hn) as (m & Hm & Em). exists (m :: ms). split; [constructor; assumption|].
  cbn [map wlist]. rewrite Em, E. reflexivity.
Qed.
Lemma wrt_instance : forall name vs, text name -> array 4 int32 vs ->
  exists ms, Forall2 near vs ms /\
  wrt (compile_instance (instance_of name vs)) parse_instance (instance_of name ms).
Proof.
  intros name vs Ht [L H]. destruct (instance_values vs H) as (ms & F & E). exists ms. split; [exact F|].
  unfold compile_instance, parse_instance, instance_of. cbn [in_name in_values]. rewrite E.
  eapply wrt_bind; [apply wrt_str_text; exact Ht|].
  eapply wrt_bind_ret with (a := map (fun n => NFloat (int_div n 10000)) ms); [|reflexivity].
  assert (Lm : length ms = 4%nat) by (rewrite <- L; symmetry; eapply Forall2_length; exact F).
  rewrite <- Lm. apply wrt_repeat. intros m Hm.
  eapply wrt_bind_ret; [|reflexivity]. apply wrt_value.
  clear - F H Hm. induction F as [|n m' vs ms N _ IH]; [destruct Hm|]. inversion H; subst.
  destruct Hm as [<-|Hm]; [exact (near_i32 _ _ H2 N)|auto].
Qed.
Definition wf_inst (p : pystr * list Z) : Prop := text (fst p) /\ array 4 int32 (snd p).
Definition inst (p : pystr * list Z) : instance := instance_of (fst p) (snd p).
Definition near_inst (p q : pystr * list Z) : Prop := fst p = fst q /\ Forall2 near (snd p) (snd q).
Lemma wrt_instances : forall l, countable l -> Forall wf_inst l ->
  exists l', Forall2 near_inst l l' /\
  wrt (compile_instances (map inst l)) parse_instances (map inst l').
Proof.
  intros l C H.
  assert (G : exists l', Forall2 (fun p q => near_inst p q /\ wrt (compile_instance (inst p)) parse_instance (inst q)) l l').
  { clear C. induction H as [|[name vs] l [Ht Ha] _ (l' & F)]; [exists []; constructor|].
    destruct (wrt_instance name vs Ht Ha) as (ms & N & W). exists ((name, ms) :: l').
    constructor; [|exact F]. split; [split; [reflexivity|exact N]|exact W]. }
  destruct G as (l' & F). exists l'. split.
  - clear -F. induction F as [|p q l l' [N _] _ IH]; constructor; auto.
  - unfold compile_instances, parse_instances. rewrite map_length.
    eapply wrt_bind; [apply wrt_value, count_i32; exact C|].
    unfold rrange. rewrite Nat2Z.id. clear -F.
    induction F as [|p q l l' [_ W] _ IH].
    + exists []. split; [reflexivity|split; [constructor|reflexivity]].
    + cbn [map wlist length rrepeat]. eapply wrt_bind; [exact W|].
      eapply wrt_bind_ret; [exact IH|]. reflexivity.
Qed.
Lemma rps_instances : rps parse_instances (fun l => exists il, l = map inst il /\ countable il /\ Forall wf_inst il).
Proof.
  unfold parse_instances. eapply rps_bind; [apply rps_value|]. intros n Hn.
  eapply rps_weaken.
  - apply rps_range with (P := fun i => exists p, i = inst p /\ wf_inst p).
    unfold parse_instance. eapply rps_bind; [apply rps_str_with_len|]. intros name Ht.
    eapply rps_bind; [apply rps_repeat, rps_scaled|]. intros vs [L F]. apply rps_ret.
    assert (G : exists ms, Forall int32 ms /\ vs = map (fun n => NFloat (int_div n 10000)) ms).
    { clear L. induction F as [|v vs (m & Hm & ->) _ (ms & F & ->)]; [exists []; split; [constructor|reflexivity]|].
      exists (m :: ms). split; [constructor; assumption|reflexivity]. }
    destruct G as (ms & Fm & ->). exists (name, ms). split; [reflexivity|]. split; [exact Ht|].
    split; [|exact Fm]. rewrite map_length in L. exact L.
  - cbv beta. intros l [L F].
    assert (G : exists il, l = map inst il /\ Forall wf_inst il).
    { clear L. induction F as [|i l (p & -> & Hp) _ (il & -> & F)]; [exists []; split; [reflexivity|constructor]|].
      exists (p :: il). split; [reflexivity|constructor; assumption]. }
    destruct G as (il & -> & Fi). exists il. split; [reflexivity|]. split; [|exact Fi].
    rewrite map_length in L. exact (range_countable _ _ _ Hn L).
Qed.
