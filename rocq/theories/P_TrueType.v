(** Proofs about the TrueType entries. *)
From Coq Require Import String Sorting.Sorted Permutation.
From Verif Require Import Base M_Stream M_Helpers M_Text M_Py M_Simple M_TrueType S_Bits S_Text S_Entry
  S_TrueType Lib P_Stream P_Helpers P_Text P_Text2 P_Loop P_Simple P_Simple2 P_Simple3.
Local Open Scope list_scope.
Open Scope rd_scope.
From Coq Require Import ZifyBool ZifyNat.
Ltac Zify.zify_post_hook ::= Z.div_mod_to_equations.

(** ** Association lists keyed by strings *)
Lemma aget_in : forall V k (v : V) d, aget str_eqb k d = Some v -> In (k, v) d.
Proof.
  induction d as [|[k' v'] d IH]; cbn; [discriminate|]. destruct (str_eqb k k') eqn:E; intros H.
  - inversion H; subst. apply str_eqb_eq in E. subst. auto.
  - auto.
Qed.
Lemma in_aget : forall V k (v : V) d, NoDup (map fst d) -> In (k, v) d -> aget str_eqb k d = Some v.
Proof.
  induction d as [|[k' v'] d IH]; cbn; [tauto|]. intros N [H|H].
  - inversion H; subst. rewrite str_eqb_refl. reflexivity.
  - inversion N; subst. destruct (str_eqb k k') eqn:E; [|auto].
    apply str_eqb_eq in E. subst. exfalso. apply H2. apply in_map_iff. exists (k', v). auto.
Qed.
Lemma aget_key : forall V k (d : list (pystr * V)), In k (map fst d) -> exists v, aget str_eqb k d = Some v.
Proof.
  induction d as [|[k' v'] d IH]; cbn; [tauto|]. intros H. destruct (str_eqb k k') eqn:E; [eauto|].
  destruct H as [->|H]; [rewrite str_eqb_refl in E; discriminate|auto].
Qed.

(** ** TrueType info *)
(** the order in which the compiler writes the keys *)
Definition tt_order : list Z :=
  [0x33; 0x34; 0x35; 0x36; 0x37; 0x38] ++ [0x39] ++ [0x3A; 0x3B; 0x3C] ++ [0x56; 0x57] ++
  [0x3D; 0x3E; 0x3F; 0x40; 0x41; 0x42; 0x43; 0x44; 0x45; 0x46; 0x47; 0x48; 0x49; 0x4A; 0x4B] ++
  [0x4C] ++ [0x4D; 0x4E; 0x4F; 0x50; 0x51; 0x52; 0x5C] ++ [0x53; 0x58] ++ [0x54].
Definition tt_item (p : Z * tt_value) : wr :=
  let (k, v) := p in
  write_uint8 k +++
  match v with
  | VInt n => write_value n
  | VFlags flags options =>
      wlet (convert_flags_options_to_int [(py "head_flags", v)]) write_value
  | VList l => (if k =? 0x4C then wnil else write_value (Z.of_nat (length l))) +++ wlist write_uint8 l
  | VPages a b => write_uvalue a +++ write_uvalue b
  end.
Definition tt_present (d : tt_info) (k : Z) : list (Z * tt_value) :=
  match aget str_eqb (tt_key k) d with Some v => [(k, v)] | None => [] end.
Definition tt_store (info : tt_info) (p : Z * tt_value) : tt_info :=
  aset str_eqb (tt_key (fst p)) (snd p) info.


(** every key whose value is stored has a name *)
Lemma tt_named : forall k, byteZ k ->
  (tt_plain k || (k =? 0x39) || (k =? 0x4C) || tt_hdmx k || (k =? 0x54))%bool = true ->
  aget Z.eqb k ttinfo_names <> None.
Proof.
  intros k Hk. assert (G : forallb (fun k => implb
     (tt_plain k || (k =? 0x39) || (k =? 0x4C) || tt_hdmx k || (k =? 0x54))
     match aget Z.eqb k ttinfo_names with Some _ => true | None => false end)%bool
     (map Z.of_nat (seq 0 256)) = true) by (vm_compute; reflexivity).
  rewrite forallb_forall in G. specialize (G k).
  assert (In k (map Z.of_nat (seq 0 256))) as I.
  { apply in_map_iff. exists (Z.to_nat k). unfold byteZ in Hk. split; [lia|apply in_seq; lia]. }
  specialize (G I). intros E. rewrite E in G. destruct (aget Z.eqb k ttinfo_names); [discriminate|discriminate].
Qed.
Lemma tt_keys_nodup : NoDup (map tt_key tt_order).
Proof.
  assert (G : forall l, (fix nd l := match l with [] => true | x :: l' =>
     negb (existsb (str_eqb x) l') && nd l' end) l = true -> NoDup l).
  { induction l as [|x l IH]; intros H; [constructor|]. apply andb_prop in H. destruct H as [H1 H2].
    constructor; [|auto]. intros Hin. apply Bool.negb_true_iff in H1.
    assert (existsb (str_eqb x) l = true); [|congruence].
    apply existsb_exists. exists x. split; [exact Hin|apply str_eqb_refl]. }
  apply G. vm_compute. reflexivity.
Qed.
Lemma tt_names_ordered : forall name, In name (tt_required_ints ++ tt_optional_ints ++
  [py "head_flags"; py "OpenTypeOS2Panose"; py "Hdmx PPMs 1"; py "Hdmx PPMs 2"; py "Codepages"]) ->
  exists k, In k tt_order /\ tt_key k = name.
Proof.
  intros name H.
  assert (G : forallb (fun n => existsb (fun k => str_eqb (tt_key k) n) tt_order)
    (tt_required_ints ++ tt_optional_ints ++ [py "head_flags"; py "OpenTypeOS2Panose";
      py "Hdmx PPMs 1"; py "Hdmx PPMs 2"; py "Codepages"]) = true) by (vm_compute; reflexivity).
  rewrite forallb_forall in G. specialize (G _ H). apply existsb_exists in G.
  destruct G as (k & Hk & E). exists k. split; [exact Hk|apply str_eqb_eq; exact E].
Qed.
Lemma tt_entry_name : forall name v, tt_entry_ok name v -> exists k, In k tt_order /\ tt_key k = name.
Proof.
  intros name v H. apply tt_names_ordered. destruct v; cbn in H.
  - apply in_or_app. destruct H as [[H|H] _]; [left; exact H|right; apply in_or_app; left; exact H].
  - destruct H as [-> _]. do 2 (apply in_or_app; right). cbn. auto.
  - do 2 (apply in_or_app; right). destruct H as [[-> _]|[[->| ->] _]]; cbn; auto 6.
  - destruct H as [-> _]. do 2 (apply in_or_app; right). cbn. auto 6.
Qed.

Definition tt_is_int (k : Z) : bool := existsb (str_eqb (tt_key k)) (tt_required_ints ++ tt_optional_ints).
Lemma tt_int_keys : forall k, In k tt_order -> tt_is_int k = true -> tt_plain k = true /\ k <> 0x32.
Proof.
  intros k H E.
  assert (G : forallb (fun k => implb (tt_is_int k) (tt_plain k)) tt_order = true) by (vm_compute; reflexivity).
  rewrite forallb_forall in G. specialize (G _ H). rewrite E in G. cbn in G. split; [exact G|].
  intros ->. vm_compute in E. discriminate.
Qed.
Lemma tt_key_of : forall k name, In k tt_order -> tt_key k = name ->
  (name = py "head_flags" -> k = 0x39) /\ (name = py "OpenTypeOS2Panose" -> k = 0x4C) /\
  (name = py "Hdmx PPMs 1" \/ name = py "Hdmx PPMs 2" -> k = 0x53 \/ k = 0x58) /\
  (name = py "Codepages" -> k = 0x54).
Proof.
  intros k name H <-.
  assert (G : forallb (fun k =>
     implb (str_eqb (tt_key k) (py "head_flags")) (k =? 0x39) &&
     implb (str_eqb (tt_key k) (py "OpenTypeOS2Panose")) (k =? 0x4C) &&
     implb (str_eqb (tt_key k) (py "Hdmx PPMs 1") || str_eqb (tt_key k) (py "Hdmx PPMs 2"))
           ((k =? 0x53) || (k =? 0x58)) &&
     implb (str_eqb (tt_key k) (py "Codepages")) (k =? 0x54)) tt_order = true) by (vm_compute; reflexivity).
  rewrite forallb_forall in G. specialize (G _ H).
  apply andb_prop in G. destruct G as [G G4]. apply andb_prop in G. destruct G as [G G3].
  apply andb_prop in G. destruct G as [G1 G2].
  repeat split; intros E.
  - rewrite E, str_eqb_refl in G1. cbn [implb] in G1. lia.
  - rewrite E, str_eqb_refl in G2. cbn [implb] in G2. lia.
  - assert (E' : str_eqb (tt_key k) (py "Hdmx PPMs 1") || str_eqb (tt_key k) (py "Hdmx PPMs 2") = true).
    { destruct E as [E|E]; rewrite E, str_eqb_refl; [reflexivity|apply Bool.orb_true_r]. }
    rewrite E' in G3. cbn [implb] in G3. lia.
  - rewrite E, str_eqb_refl in G4. cbn [implb] in G4. lia.
Qed.
Lemma tt_order_byte : forall k, In k tt_order -> byteZ k.
Proof.
  intros k H. assert (G : forallb (fun k => (0 <=? k) && (k <? 256)) tt_order = true) by (vm_compute; reflexivity).
  rewrite forallb_forall in G. specialize (G _ H). unfold byteZ. lia.
Qed.

(** head flags and options in one number *)
Lemma sublist_options : forall chosen : pystr -> bool,
  map fst (filter (fun kv => existsb (str_eqb (snd kv)) (filter chosen tt_option_names)) tt_settings)
  = map fst (filter (fun kv => chosen (snd kv)) tt_settings) /\
  filter chosen tt_option_names = map snd (filter (fun kv => chosen (snd kv)) tt_settings).
Proof.
  intros chosen. unfold tt_option_names, tt_settings. cbn [map filter fst snd].
  destruct (chosen (py "use_custom_tt_values")), (chosen (py "create_vdmx")),
    (chosen (py "add_null_cr_space")); vm_compute; split; reflexivity.
Qed.
Lemma tt_flags_value : forall flags chosen,
  bit_set 16 flags ->
  let options := filter chosen tt_option_names in
  exists v, convert_flags_options_to_int [(py "head_flags", VFlags flags options)] = Ok v /\
    0 <= v < 2 ^ 19 /\ convert_int_to_flags_options v = Ok (VFlags flags options).
Proof.
  intros flags chosen [Hs Hr] options.
  assert (H0 : Forall (fun b => 0 <= b) flags) by (eapply Forall_impl; [|exact Hr]; cbn; intros; lia).
  pose proof (sum_pow2_below 16 flags ltac:(lia) (sorted_nodup _ Hs) Hr) as B.
  assert (Hb : is_bit_list (sum_pow2 flags) 0 flags) by (apply is_bit_list_sum; auto using sorted_nodup).
  destruct (sublist_options chosen) as [E1 E2].
  set (ob := map fst (filter (fun kv => chosen (snd kv)) tt_settings)) in *.
  assert (Ho : exists o, intListToBinary ob = Ok o /\ 0 <= o < 8 /\
            rthen (binaryToIntList o 0) (fun l => Ok (map tt_option_name l)) = Ok options).
  { unfold options. rewrite E2. unfold ob, tt_settings. cbn [filter map fst snd].
    destruct (chosen (py "use_custom_tt_values")), (chosen (py "create_vdmx")),
      (chosen (py "add_null_cr_space")); (eexists; split; [vm_compute; reflexivity|]);
      (split; [lia|vm_compute; reflexivity]). }
  destruct Ho as (o & Eo & Bo & Ro).
  exists (sum_pow2 flags + Z.shiftl o 16).
  assert (Ev : convert_flags_options_to_int [(py "head_flags", VFlags flags options)]
               = Ok (sum_pow2 flags + Z.shiftl o 16)).
  { unfold convert_flags_options_to_int, aget_res. cbn [aget]. rewrite str_eqb_refl. cbn [rthen].
    rewrite intListToBinary_ok by exact H0. cbn [rthen].
    destruct options as [|x r] eqn:Eopt.
    - assert (ob = []).
      { unfold options in Eopt. rewrite E2 in Eopt. unfold ob.
        destruct (filter _ tt_settings); [reflexivity|discriminate]. }
      rewrite H in Eo. cbn in Eo. inversion Eo. rewrite Z.shiftl_0_l, Z.add_0_r. reflexivity.
    - rewrite <- Eopt. unfold options. rewrite E1. fold ob. rewrite Eo. reflexivity. }
  split; [exact Ev|]. rewrite Z.shiftl_mul_pow2 by lia. change (2 ^ 16) with 65536 in *.
  change (2 ^ 19) with 524288. split; [lia|].
  unfold convert_int_to_flags_options. change 0xFFFF with (Z.ones 16).
  rewrite Z.land_ones, Z.shiftr_div_pow2 by lia. change (2 ^ 16) with 65536.
  replace ((sum_pow2 flags + o * 65536) mod 65536) with (sum_pow2 flags) by lia.
  replace ((sum_pow2 flags + o * 65536) / 65536) with o by lia.
  rewrite (binaryToIntList_is _ 0 flags) by (auto; lia). cbn [rthen].
  destruct (binaryToIntList o 0) as [l|e]; [|discriminate]. cbn [rthen] in *.
  inversion Ro. reflexivity.
Qed.

Lemma tt_turn_unknown : forall info k rest, byteZ k -> tt_plain k = false -> tt_hdmx k = false ->
  k <> 0x32 -> k <> 0x39 -> k <> 0x4C -> k <> 0x54 ->
  tt_info_turn info (k :: rest) = ROk (inl info) rest.
Proof.
  intros info k rest Hk H1 H2 H3 H4 H5 H6. unfold tt_info_turn, rbind.
  replace (read_uint8 (k :: rest)) with (ROk k rest).
  2: { unfold read_uint8, rbind, read_bytes, ret. change (take 1 (k :: rest)) with [k].
       change (drop 1 (k :: rest)) with rest. cbn [le_dec]. f_equal. lia. }
  rewrite H1, H2. apply Z.eqb_neq in H3, H4, H5, H6. rewrite H3, H4, H5, H6. reflexivity.
Qed.

Lemma wrt_tt_item : forall info k v, In k tt_order -> tt_entry_ok (tt_key k) v ->
  aget str_eqb (tt_key k) info = None ->
  wrt (tt_item (k, v)) (tt_info_turn info) (inl (tt_store info (k, v))).
Proof.
  intros info k v Hk Hv Hf. unfold tt_item, tt_info_turn.
  destruct (tt_key_of k _ Hk eq_refl) as (K1 & K2 & K3 & K4).
  pose proof (tt_order_byte k Hk) as Hb.
  eapply wrt_bind; [apply wrt_uint8; exact Hb|]. cbv beta zeta.
  destruct v as [n|flags options|l|a b]; cbn [tt_entry_ok] in Hv.
  - destruct Hv as [Hv Hn]. destruct (tt_int_keys k Hk) as [P1 P2].
    { apply existsb_exists. exists (tt_key k). split; [apply in_or_app; exact Hv|apply str_eqb_refl]. }
    apply Z.eqb_neq in P2. rewrite P2, P1.
    eapply wrt_pre; [intros; unfold assert_unique; rewrite Hf; reflexivity|].
    eapply wrt_bind_ret; [apply wrt_value; exact Hn|reflexivity].
  - destruct Hv as (Hv & Hfl & chosen & ->). rewrite (K1 Hv) in *.
    destruct (tt_flags_value flags chosen Hfl) as (x & E1 & B & E2). rewrite E1. cbn [wlet].
    change (0x39 =? 0x32) with false. change (tt_plain 0x39) with false.
    change (0x39 =? 0x39) with true. cbv iota.
    eapply wrt_pre; [intros; unfold assert_unique; rewrite Hf; reflexivity|].
    eapply wrt_bind_ret; [apply wrt_value; unfold i32; lia|].
    intros s. unfold rbind, rlift. rewrite E2. reflexivity.
  - destruct Hv as [[Hv [Hl Hu]]|[Hv [Hu Hc]]].
    + rewrite (K2 Hv) in *. change (0x4C =? 0x4C) with true. cbv iota. rewrite wseq_nil_l.
      change (0x4C =? 0x32) with false. change (tt_plain 0x4C) with false.
      change (0x4C =? 0x39) with false. cbv iota.
      eapply wrt_pre; [intros; unfold assert_unique; rewrite Hf; reflexivity|].
      eapply wrt_bind_ret; [|reflexivity]. apply wrt_array; [exact Hl|].
      intros x Hx. apply wrt_uint8. exact (Forall_In _ _ _ _ Hu Hx).
    + assert (E : k =? 0x32 = false /\ tt_plain k = false /\ k =? 0x39 = false /\ k =? 0x4C = false
                  /\ tt_hdmx k = true) by (destruct (K3 Hv) as [-> | ->]; vm_compute; auto).
      destruct E as (E1 & E2 & E3 & E4 & E5). rewrite E1, E2, E3, E4, E5.
      eapply wrt_pre; [intros; unfold assert_unique; rewrite Hf; reflexivity|].
      eapply wrt_bind; [apply wrt_value, count_i32, Hc|].
      eapply wrt_bind_ret; [|reflexivity]. apply wrt_range_id; [reflexivity|].
      intros x Hx. apply wrt_uint8. exact (Forall_In _ _ _ _ Hu Hx).
  - destruct Hv as (Hv & Ha & Hbb). rewrite (K4 Hv) in *.
    change (0x54 =? 0x32) with false. change (tt_plain 0x54) with false.
    change (0x54 =? 0x39) with false. change (0x54 =? 0x4C) with false.
    change (tt_hdmx 0x54) with false. change (0x54 =? 0x54) with true. cbv iota.
    eapply wrt_pre; [intros; unfold assert_unique; rewrite Hf; reflexivity|].
    eapply wrt_bind; [apply wrt_uvalue; unfold u32, uint32 in *; lia|].
    eapply wrt_bind_ret; [apply wrt_uvalue; unfold u32, uint32 in *; lia|reflexivity].
Qed.

(** the compiler writes the entries that are present, in its order *)
Lemma present_app : forall d l1 l2,
  flat_map (tt_present d) (l1 ++ l2) = flat_map (tt_present d) l1 ++ flat_map (tt_present d) l2.
Proof. intros. apply flat_map_app. Qed.
Section Compile.
  Variable d : tt_info.
  Hypothesis Hd : wf_tt_info d.
  Lemma tt_value_ok : forall k v, aget str_eqb (tt_key k) d = Some v -> tt_entry_ok (tt_key k) v.
  Proof.
    intros k v E. destruct Hd as (_ & Hf & _). apply aget_in in E.
    exact (Forall_In _ _ _ (tt_key k, v) Hf E).
  Qed.
  Lemma tt_is_int_value : forall k v, tt_is_int k = true -> aget str_eqb (tt_key k) d = Some v ->
    exists n, v = VInt n.
  Proof.
    intros k v Hk E. apply tt_value_ok in E. apply existsb_exists in Hk. destruct Hk as (n & Hn & En).
    apply str_eqb_eq in En. rewrite En in E.
    assert (G : forallb (fun n => negb (str_eqb n (py "head_flags")) && negb (str_eqb n (py "OpenTypeOS2Panose"))
       && negb (str_eqb n (py "Hdmx PPMs 1")) && negb (str_eqb n (py "Hdmx PPMs 2"))
       && negb (str_eqb n (py "Codepages"))) (tt_required_ints ++ tt_optional_ints) = true)
      by (vm_compute; reflexivity).
    rewrite forallb_forall in G. specialize (G n Hn).
    repeat (apply andb_prop in G; let x := fresh in destruct G as [G x]).
    destruct v; [eauto| | |]; cbn [tt_entry_ok] in E; exfalso.
    - destruct E as [-> _]. rewrite str_eqb_refl in G. discriminate.
    - destruct E as [[-> _]|[[->| ->] _]];
        match goal with H : negb (str_eqb ?a ?a) = true |- _ => rewrite str_eqb_refl in H; discriminate end.
    - destruct E as [-> _].
        match goal with H : negb (str_eqb ?a ?a) = true |- _ => rewrite str_eqb_refl in H; discriminate end.
  Qed.
  Lemma tt_ints_if : forall ks, forallb tt_is_int ks = true ->
    wlist (write_if_exists d) ks = wlist tt_item (flat_map (tt_present d) ks).
  Proof.
    induction ks as [|k ks IH]; intros H; [reflexivity|]. cbn [forallb] in H. apply andb_prop in H.
    destruct H as [H1 H2]. cbn [wlist flat_map]. rewrite wlist_app, <- IH by exact H2.
    f_equal. unfold write_if_exists, tt_present.
    destruct (aget str_eqb (tt_key k) d) as [v|] eqn:E; [|reflexivity].
    destruct (tt_is_int_value k v H1 E) as [n ->]. cbn [wlist]. rewrite wseq_nil_r. reflexivity.
  Qed.
  Lemma tt_has : forall name, In name (tt_required_ints ++ [py "head_flags"; py "OpenTypeOS2Panose"; py "Codepages"]) ->
    exists v, aget str_eqb name d = Some v.
  Proof.
    intros name H. destruct Hd as (_ & _ & Hr). apply aget_key. exact (Forall_In _ _ _ _ Hr H).
  Qed.
  Lemma tt_ints_required : forall ks,
    forallb (fun k => existsb (str_eqb (tt_key k)) tt_required_ints) ks = true ->
    wlist (tt_write_required d) ks = wlist tt_item (flat_map (tt_present d) ks).
  Proof.
    induction ks as [|k ks IH]; intros H; [reflexivity|]. cbn [forallb] in H. apply andb_prop in H.
    destruct H as [H1 H2]. cbn [wlist flat_map]. rewrite wlist_app, <- IH by exact H2.
    f_equal. unfold tt_write_required, tt_present, aget_res.
    assert (Hi : tt_is_int k = true).
    { unfold tt_is_int. rewrite existsb_app, H1. reflexivity. }
    apply existsb_exists in H1. destruct H1 as (n & Hn & En). apply str_eqb_eq in En.
    destruct (tt_has (tt_key k)) as [v E]; [rewrite En; apply in_or_app; left; exact Hn|].
    rewrite E. destruct (tt_is_int_value k v Hi E) as [m ->]. cbn [wlist wlet]. rewrite wseq_nil_r.
    reflexivity.
  Qed.
  Lemma tt_compile_items :
    compile_tt_info d = wlist tt_item (flat_map (tt_present d) tt_order) +++ write_uint8 0x32.
  Proof.
    unfold compile_tt_info, tt_order. rewrite !present_app, !wlist_app, !wseq_assoc.
    rewrite tt_ints_required by (vm_compute; reflexivity). f_equal.
    rewrite <- (tt_ints_if [0x3A; 0x3B; 0x3C]), <- (tt_ints_if [0x56; 0x57]),
      <- (tt_ints_if [0x3D; 0x3E; 0x3F; 0x40; 0x41; 0x42; 0x43; 0x44; 0x45; 0x46; 0x47; 0x48;
                      0x49; 0x4A; 0x4B]),
      <- (tt_ints_if [0x4D; 0x4E; 0x4F; 0x50; 0x51; 0x52; 0x5C]) by (vm_compute; reflexivity).
    f_equal.
    { cbn [flat_map]. rewrite app_nil_r. unfold tt_present. change (tt_key 0x39) with (py "head_flags").
      destruct (tt_has (py "head_flags")) as [v E]; [apply in_or_app; right; cbn; auto|].
      pose proof (tt_value_ok 0x39 v E) as Hv. change (tt_key 0x39) with (py "head_flags") in Hv.
      destruct (tt_key_of 0x39 _ ltac:(cbn; auto 10) eq_refl) as (_ & K2 & K3 & K4).
      change (tt_key 0x39) with (py "head_flags") in K2, K3, K4.
      destruct v as [n|fl op|l|a b].
      - exfalso. destruct Hv as [Hv _].
        assert (G : existsb (str_eqb (py "head_flags")) (tt_required_ints ++ tt_optional_ints) = true).
        { apply existsb_exists. exists (py "head_flags"). split; [apply in_or_app; exact Hv|apply str_eqb_refl]. }
        vm_compute in G. discriminate.
      - rewrite E. cbn [wlist tt_item]. rewrite wseq_nil_r.
        unfold convert_flags_options_to_int, aget_res. rewrite E. cbn [aget]. rewrite str_eqb_refl.
        cbn [rthen]. destruct (intListToBinary fl) as [x|e]; [|reflexivity]. cbn [rthen].
        destruct op as [|y op]; [reflexivity|].
        destruct (intListToBinary _) as [z|e]; reflexivity.
      - exfalso. destruct Hv as [[Hv _]|[Hv _]]; [specialize (K2 Hv); discriminate|].
        destruct (K3 Hv); discriminate.
      - exfalso. destruct Hv as [Hv _]. specialize (K4 Hv). discriminate. }
    f_equal. f_equal. f_equal.
    f_equal.
    { cbn [flat_map]. rewrite app_nil_r. unfold tt_present, aget_res.
      destruct (tt_has (tt_key 0x4C)) as [v E]; [apply in_or_app; right; cbn; auto|].
      pose proof (tt_value_ok 0x4C v E) as Hv.
      destruct (tt_key_of 0x4C _ ltac:(vm_compute; auto 40) eq_refl) as (K1 & _ & K3 & K4).
      rewrite E. destruct v as [n|fl op|l|a b].
      - exfalso. destruct Hv as [Hv _].
        assert (G : existsb (str_eqb (tt_key 0x4C)) (tt_required_ints ++ tt_optional_ints) = true).
        { apply existsb_exists. exists (tt_key 0x4C). split; [apply in_or_app; exact Hv|apply str_eqb_refl]. }
        vm_compute in G. discriminate.
      - exfalso. destruct Hv as [Hv _]. specialize (K1 Hv). discriminate.
      - destruct Hv as [[Hv [Hl _]]|[Hv _]]; [|destruct (K3 Hv); discriminate].
        cbn [wlet tt_list wlist tt_item]. rewrite Hl. cbn [Nat.eqb wassert].
        change (0x4C =? 0x4C) with true. cbv iota. rewrite !wseq_nil_l, wseq_nil_r. reflexivity.
      - exfalso. destruct Hv as [Hv _]. specialize (K4 Hv). discriminate. }
    f_equal. f_equal.
    { assert (G : forall k, In k [0x53; 0x58] -> tt_write_hdmx d k = wlist tt_item (tt_present d k)).
      { intros k Hk. unfold tt_write_hdmx, tt_present.
        destruct (aget str_eqb (tt_key k) d) as [v|] eqn:E; [|reflexivity].
        pose proof (tt_value_ok k v E) as Hv.
        assert (Hko : In k tt_order) by (destruct Hk as [<-|[<-|[]]]; vm_compute; auto 50).
        destruct (tt_key_of k _ Hko eq_refl) as (K1 & K2 & _ & K4).
        assert (Hk3 : k =? 0x4C = false) by (destruct Hk as [<-|[<-|[]]]; reflexivity).
        assert (Hnk : k <> 0x39 /\ k <> 0x4C /\ k <> 0x54) by (destruct Hk as [<-|[<-|[]]]; lia).
        destruct v as [n|fl op|l|a b].
        - exfalso. destruct Hv as [Hv _].
          assert (G : existsb (str_eqb (tt_key k)) (tt_required_ints ++ tt_optional_ints) = true).
          { apply existsb_exists. exists (tt_key k). split; [apply in_or_app; exact Hv|apply str_eqb_refl]. }
          destruct Hk as [<-|[<-|[]]]; vm_compute in G; discriminate.
        - exfalso. destruct Hv as [Hv _]. specialize (K1 Hv). tauto.
        - cbn [wlet tt_list wlist tt_item]. rewrite Hk3, wseq_nil_r. reflexivity.
        - exfalso. destruct Hv as [Hv _]. specialize (K4 Hv). tauto. }
      cbn [wlist flat_map]. rewrite !wlist_app, !G by (cbn; auto). reflexivity. }
    f_equal.
    { cbn [flat_map]. rewrite app_nil_r. unfold tt_present, aget_res.
      destruct (tt_has (tt_key 0x54)) as [v E]; [apply in_or_app; right; cbn; auto|].
      pose proof (tt_value_ok 0x54 v E) as Hv.
      destruct (tt_key_of 0x54 _ ltac:(vm_compute; auto 50) eq_refl) as (K1 & K2 & K3 & _).
      rewrite E. destruct v as [n|fl op|l|a b].
      - exfalso. destruct Hv as [Hv _].
        assert (G : existsb (str_eqb (tt_key 0x54)) (tt_required_ints ++ tt_optional_ints) = true).
        { apply existsb_exists. exists (tt_key 0x54). split; [apply in_or_app; exact Hv|apply str_eqb_refl]. }
        vm_compute in G. discriminate.
      - exfalso. destruct Hv as [Hv _]. specialize (K1 Hv). discriminate.
      - exfalso. destruct Hv as [[Hv _]|[Hv _]]; [specialize (K2 Hv); discriminate|].
        destruct (K3 Hv); discriminate.
      - cbn [wlet wlist tt_item]. rewrite wseq_nil_r. reflexivity. }
  Qed.

  Definition tt_rewritten : tt_info :=
    map (fun p => (tt_key (fst p), snd p)) (flat_map (tt_present d) tt_order).
  Lemma present_keys : forall ks p, In p (flat_map (tt_present d) ks) -> In (fst p) ks /\
    aget str_eqb (tt_key (fst p)) d = Some (snd p).
  Proof.
    intros ks p H. apply in_flat_map in H. destruct H as (k & Hk & H). unfold tt_present in H.
    destruct (aget str_eqb (tt_key k) d) as [v|] eqn:E; [|destruct H].
    destruct H as [<-|[]]. cbn. auto.
  Qed.
  Lemma present_nodup : forall ks, NoDup (map tt_key ks) ->
    NoDup (map (fun p => tt_key (fst p)) (flat_map (tt_present d) ks)).
  Proof.
    induction ks as [|k ks IH]; intros H; cbn [flat_map map] in *; [constructor|].
    inversion H; subst. unfold tt_present at 1. destruct (aget str_eqb (tt_key k) d); cbn [app map]; [|auto].
    constructor; [|auto]. intros Hin. apply in_map_iff in Hin. destruct Hin as (p & E & Hp).
    apply present_keys in Hp. destruct Hp as [Hp _]. apply H2. cbn [fst] in E. rewrite <- E.
    apply in_map. exact Hp.
  Qed.
  Lemma rewritten_same : Permutation d tt_rewritten.
  Proof.
    destruct Hd as (Hn & Hf & _). unfold tt_rewritten. apply NoDup_Permutation.
    - eapply NoDup_map_inv. exact Hn.
    - eapply NoDup_map_inv with (f := fst). rewrite map_map. apply present_nodup, tt_keys_nodup.
    - intros [name v]. split; intros H.
      + pose proof (Forall_In _ _ _ _ Hf H) as Hv. cbn [fst snd] in Hv.
        destruct (tt_entry_name _ _ Hv) as (k & Hk & E). apply in_map_iff. exists (k, v).
        cbn [fst snd]. rewrite E. split; [reflexivity|]. apply in_flat_map. exists k. split; [exact Hk|].
        unfold tt_present. rewrite E, (in_aget _ _ _ _ Hn H). left. reflexivity.
      + apply in_map_iff in H. destruct H as ([k v'] & E & Hp). inversion E; subst. clear E.
        apply present_keys in Hp. apply aget_in. tauto.
  Qed.
  Lemma store_items : forall l, NoDup (map (fun p => tt_key (fst p)) l) ->
    fold_left tt_store l [] = map (fun p => (tt_key (fst p), snd p)) l.
  Proof.
    intros l H. pose proof (fold_aset tt_value [] (map (fun p => (tt_key (fst p), snd p)) l)) as F.
    cbn [app] in F. rewrite map_map in F. specialize (F H). rewrite <- F.
    clear. generalize (@nil (pystr * tt_value)). induction l as [|p l IH]; intros acc; [reflexivity|].
    cbn [fold_left map fst snd]. apply IH.
  Qed.
  Lemma tt_item_ok : forall l1 p l2, flat_map (tt_present d) tt_order = l1 ++ p :: l2 ->
    wne (tt_item p) /\
    wrt (tt_item p) (tt_info_turn (fold_left tt_store l1 [])) (inl (fold_left tt_store (l1 ++ [p]) [])).
  Proof.
    intros l1 [k v] l2 E. split; [apply wne_l, wne_uint8|].
    pose proof (present_nodup tt_order tt_keys_nodup) as N. rewrite E, map_app in N. cbn [map fst] in N.
    rewrite fold_left_app. cbn [fold_left].
    destruct (present_keys tt_order (k, v)) as [Hk Hv].
    { rewrite E. apply in_or_app. right. left. reflexivity. }
    cbn [fst snd] in *. apply wrt_tt_item; [exact Hk|apply tt_value_ok; exact Hv|].
    rewrite store_items.
    - apply aget_none. rewrite map_map. cbn [fst]. apply NoDup_remove_2 in N. intros Hin. apply N.
      apply in_or_app. left. exact Hin.
    - clear - N. induction (map (fun p : Z * tt_value => tt_key (fst p)) l1) as [|x r IH];
        [constructor|]. cbn [app] in N. inversion N; subst. constructor; [|auto].
      intros Hin. apply H1. apply in_or_app. left. exact Hin.
  Qed.
  Lemma tt_items_ok : exists bs, wlist tt_item (flat_map (tt_present d) tt_order) = Ok bs /\ bytes_ok bs.
  Proof.
    apply wlist_ok. intros p Hp. apply in_split in Hp. destruct Hp as (l1 & l2 & E).
    destruct (tt_item_ok _ _ _ E) as [_ H]. exact (wrt_ok _ _ _ _ H).
  Qed.
  Lemma wrt_tt_info : wrt (compile_tt_info d) parse_tt_info tt_rewritten.
  Proof.
    rewrite tt_compile_items. unfold parse_tt_info. apply wrt_loop with (f := tt_store).
    - apply tt_item_ok.
    - rewrite store_items by (apply present_nodup, tt_keys_nodup).
      eapply wrt_bind_ret; [apply wrt_uint8; unfold byteZ; lia|]. reflexivity.
    - exact tt_items_ok.
  Qed.
End Compile.

(** *** the loop without the end marker *)
Lemma tt_turn_eof : forall info, tt_info_turn info [] = ROk (inl info) [].
Proof. reflexivity. Qed.
Lemma tt_eof_diverges : forall n info, rwhile n tt_info_turn info [] = RErr Diverge [].
Proof.
  induction n as [|n IH]; intros info; [reflexivity|]. cbn [rwhile]. unfold rbind.
  rewrite tt_turn_eof. apply IH.
Qed.
(** turns that only raise what they read *)
Lemma tt_truncated : forall d, wf_tt_info d -> forall bs, compile_tt_info d = Ok (bs ++ [0x32]) ->
  never_stops bs.
Proof.
  intros d Hd bs E n. rewrite (tt_compile_items d Hd) in E.
  apply wseq_ok in E. destruct E as (x & y & Ex & Ey & E).
  assert (Hy : y = [0x32]).
  { cbn in Ey. inversion Ey. reflexivity. }
  rewrite Hy in E. apply app_inj_tail in E. destruct E as [<- _].
  unfold tt_info_turns.
  destruct (Nat.le_gt_cases (length bs) n) as [H|H].
  - destruct (while_items tt_info_turn tt_item tt_store _ [] bs (tt_item_ok d Hd) Ex n [] H) as [W _].
    rewrite app_nil_r in W. rewrite W. exists []. apply tt_eof_diverges.
  - destruct (while_items tt_info_turn tt_item tt_store _ [] bs (tt_item_ok d Hd) Ex (length bs) [] (le_n _)) as [W _].
    rewrite app_nil_r, tt_eof_diverges in W.
    assert (G : forall m k info s, rwhile (m + k) tt_info_turn info s = RErr Diverge [] ->
      exists rest, rwhile m tt_info_turn info s = RErr Diverge rest).
    { clear. induction m as [|m IH]; intros k info s H; [cbn; eauto|]. cbn [Nat.add rwhile] in *.
      unfold rbind in *. destruct (tt_info_turn info s) as [[st|a] s1|e s1].
      - eapply IH. exact H.
      - discriminate.
      - inversion H; subst. eauto. }
    apply (G n (length bs - n)%nat). replace (n + (length bs - n))%nat with (length bs) by lia. exact W.
Qed.

(** what a reader leaves is a suffix, if it returns *)
Definition shr {A} (r : rd A) : Prop := forall s a s', bytes_ok s -> r s = ROk a s' -> exists p, s = p ++ s'.
Lemma shr_tot : forall A (r : rd A), tot r -> shr r.
Proof. intros A r H s a s' Hs E. destruct (H s Hs) as [Hp _]. rewrite E in Hp. exact Hp. Qed.
Lemma shr_lift : forall A (x : res A), shr (rlift x).
Proof.
  intros A x s a s' _ E. unfold rlift in E. destruct x; [|discriminate]. inversion E; subst.
  exists []. reflexivity.
Qed.
Lemma shr_bind : forall A B (r : rd A) (k : A -> rd B), shr r -> (forall a, shr (k a)) -> shr (rbind r k).
Proof.
  intros A B r k Hr Hk s b s' Hs E. unfold rbind in E. destruct (r s) as [a s1|] eqn:E1; [|discriminate].
  destruct (Hr s a s1 Hs E1) as [p Hp]. assert (Hs1 : bytes_ok s1) by (rewrite Hp in Hs; eapply suffix_ok; eauto).
  destruct (Hk a s1 b s' Hs1 E) as [q Hq].
  exists (p ++ q). rewrite Hp, Hq, app_assoc. reflexivity.
Qed.
Lemma shr_if : forall A (b : bool) (r1 r2 : rd A), shr r1 -> shr r2 -> shr (if b then r1 else r2).
Proof. intros. destruct b; auto. Qed.
Lemma tot_unique : forall info k, tot (assert_unique info k).
Proof. intros. unfold assert_unique. destruct (aget _ _ _); tot_auto. Qed.
Ltac shr_step :=
  match goal with
  | |- shr (if _ then _ else _) => apply shr_if
  | |- shr (rbind _ _) => apply shr_bind; [|intros]
  | |- shr (rlift _) => apply shr_lift
  | |- shr (assert_unique _ _) => apply shr_tot, tot_unique
  | |- shr _ => apply shr_tot; solve [tot_auto]
  end.
Lemma uint8_cons : forall x t, is_byte x -> read_uint8 (x :: t) = ROk x t.
Proof.
  intros x t H. unfold read_uint8, rbind, read_bytes, ret. change (take 1 (x :: t)) with [x].
  change (drop 1 (x :: t)) with t. cbn [le_dec]. f_equal. lia.
Qed.
Lemma tt_turn_cons : forall info x t o s', is_byte x -> bytes_ok t ->
  tt_info_turn info (x :: t) = ROk o s' ->
  (exists p, t = p ++ s') /\ (forall a, o = inr a -> x = 0x32).
Proof.
  intros info x t o s' Hx Ht E. unfold tt_info_turn in E. unfold rbind at 1 in E.
  rewrite (uint8_cons x t Hx) in E.
  split.
  - match type of E with ?r t = _ => assert (G : shr r) by (repeat shr_step) end.
    exact (G t o s' Ht E).
  - intros a ->. destruct (x =? 0x32) eqn:E32; [lia|]. exfalso. revert E. clear.
    repeat match goal with |- context [if ?c then _ else _] => destruct c end;
    unfold rbind, rlift, ret, assert_unique;
    repeat match goal with
    | |- context [match aget ?a ?b ?c with _ => _ end] => destruct (aget a b c)
    | |- context [match convert_int_to_flags_options ?v with _ => _ end] =>
        destruct (convert_int_to_flags_options v)
    | |- context [match ?r t with _ => _ end] => destruct (r t)
    | |- context [match ?r ?u with ROk _ _ => _ | RErr _ _ => _ end] =>
        first [is_var u; destruct (r u)|fail]
    | |- _ => discriminate
    | |- _ => intros; discriminate
    end.
Qed.

Lemma tt_turns_enough : forall n info s m, bytes_ok s ->
  (forall r, rwhile n tt_info_turn info s <> RErr Diverge r) -> (length s < m)%nat ->
  rwhile m tt_info_turn info s = rwhile n tt_info_turn info s.
Proof.
  induction n as [|n IH]; intros info s m Hs Hn Hm; [exfalso; eapply Hn; reflexivity|].
  destruct s as [|x t].
  - exfalso. eapply Hn. apply tt_eof_diverges.
  - destruct m as [|m]; [lia|]. cbn [rwhile] in *. unfold rbind in *.
    apply Forall_cons_iff in Hs. destruct Hs as [Hx Ht].
    destruct (tt_info_turn info (x :: t)) as [[st|a] s1|e s1] eqn:E; auto.
    destruct (tt_turn_cons _ _ _ _ _ Hx Ht E) as [[p ->] _].
    apply IH; [eapply suffix_ok; eauto|exact Hn|]. cbn [length] in Hm.
    rewrite app_length in Hm. lia.
Qed.
Lemma tt_never_stops_iff : forall data, bytes_ok data ->
  (run_parser parse_tt_info data = Err Diverge <-> never_stops data).
Proof.
  intros data Hd. unfold run_parser, parse_tt_info, rloop. split.
  - intros H n. destruct (tt_info_turns n data) as [a r|e r] eqn:E.
    + exfalso. unfold tt_info_turns in E.
      rewrite (tt_turns_enough n [] data (S (length data))) in H; auto; rewrite E in *;
        [destruct r; discriminate|discriminate].
    + destruct e; eauto; exfalso; unfold tt_info_turns in E;
        (rewrite (tt_turns_enough n [] data (S (length data))) in H; auto; rewrite E in *; discriminate).
  - intros H. destruct (H (S (length data))) as [r E]. unfold tt_info_turns in E. rewrite E. reflexivity.
Qed.
Lemma tt_returns_marker : forall n info s a s', bytes_ok s ->
  rwhile n tt_info_turn info s = ROk a s' -> In 0x32 s.
Proof.
  induction n as [|n IH]; intros info s a s' Hs E; [discriminate|].
  destruct s as [|x t]; [rewrite tt_eof_diverges in E; discriminate|].
  cbn [rwhile] in E. unfold rbind in E. apply Forall_cons_iff in Hs. destruct Hs as [Hx Ht].
  destruct (tt_info_turn info (x :: t)) as [[st|b] s1|e s1] eqn:E1; [| |discriminate].
  - destruct (tt_turn_cons _ _ _ _ _ Hx Ht E1) as [[p ->] _]. right. apply in_or_app. right.
    eapply IH; [eapply suffix_ok; eauto|exact E].
  - destruct (tt_turn_cons _ _ _ _ _ Hx Ht E1) as [_ H]. left. rewrite (H b eq_refl). reflexivity.
Qed.
(** the head flags of a negative number *)
Lemma tt_negative_flags : forall v, v < 0 -> convert_int_to_flags_options v = Err Diverge.
Proof.
  intros v Hv. unfold convert_int_to_flags_options.
  change 0xFFFF with (Z.ones 16). rewrite Z.land_ones by lia.
  destruct (binaryToIntList_spec (v mod 2 ^ 16) 0) as (l & E & _); [lia|]. rewrite E. cbn [rthen].
  rewrite binaryToIntList_neg; [reflexivity|]. rewrite Z.shiftr_div_pow2 by lia. lia.
Qed.

(** ** Stems *)
Lemma wrt_stem : forall s, wf_stem s -> wrt (compile_tt_stem s) parse_tt_stem s.
Proof.
  intros s (w & n & p & -> & Hw & Hp & He & Hl). rd_unfold_ranges.
  unfold compile_tt_stem, parse_tt_stem. cbn [ts_value ts_name ts_round opt_res wlet rthen aget_res].
  apply encodable_encode in He. destruct He as [b Eb]. rewrite Eb. cbn [wlet].
  unfold aget_res. cbn [aget]. change (6 =? 6) with true. cbv iota. cbn [wlet].
  pose proof (encode_length _ _ Eb) as Lb.
  rewrite !wseq_assoc.
  eapply wrt_bind; [wrt_field|].
  eapply wrt_bind; [apply wrt_uint8; unfold byteZ; lia|].
  eapply wrt_bind with (a := b).
  { exists b. split; [reflexivity|]. split; [eapply encode_bytes_ok; eauto|].
    intros rest. unfold read_bytes. rewrite take_app_exact, drop_app_exact by reflexivity. reflexivity. }
  eapply wrt_pre; [intros; unfold rlift; rewrite (decode_encode _ _ Eb); reflexivity|].
  eapply wrt_bind_ret; [wrt_field|]. reflexivity.
Qed.
Lemma wrt_stems : forall d, wf_stems d -> wrt (compile_tt_stems d) parse_tt_stems d.
Proof.
  intros [v h] (H1 & H2 & H3 & H4). cbn [tts_v tts_h] in *.
  unfold compile_tt_stems, parse_tt_stems. cbn [tts_v tts_h].
  eapply wrt_bind; [wrt_field|].
  eapply wrt_bind; [apply wrt_range_id; [reflexivity|];
    intros x Hx; apply wrt_stem; exact (Forall_In _ _ _ _ H1 Hx)|].
  eapply wrt_bind; [wrt_field|].
  eapply wrt_bind_ret; [apply wrt_range_id; [reflexivity|];
    intros x Hx; apply wrt_stem; exact (Forall_In _ _ _ _ H3 Hx)|]. reflexivity.
Qed.
Lemma rps_stem : rps parse_tt_stem wf_stem.
Proof.
  unfold parse_tt_stem. eapply rps_bind; [apply rps_value|]. intros w Hw.
  eapply rps_bind; [apply rps_uint8|]. intros n Hn.
  intros s a s' Hs E. unfold rbind at 1 in E. unfold read_bytes at 1 in E.
  pose proof (tot_rest_small _ _ s (tot_read_bytes n) Hs) as Hr. cbn [rest_of read_bytes] in Hr.
  unfold rbind at 1 in E. unfold rlift at 1 in E.
  destruct (cp1252_decode (take n s)) as [t|] eqn:D; [|discriminate].
  unfold rbind in E. destruct (read_value (drop n s)) as [p s1|] eqn:Ep; [|discriminate].
  inv_rok E. destruct (rps_value _ _ _ Hr Ep) as [Hp Hs1]. split; [|exact Hs1].
  exists w, t, p. split; [reflexivity|]. split; [exact Hw|]. split; [exact Hp|].
  split; [eapply decode_encodable; eauto|].
  apply encode_decode in D. apply encode_length in D. unfold byteZ in Hn.
  pose proof (take_length n s ltac:(lia)). lia.
Qed.
Lemma rps_stems : rps parse_tt_stems wf_stems.
Proof.
  unfold parse_tt_stems. eapply rps_bind; [apply rps_value|]. intros nv Hnv.
  eapply rps_bind; [apply rps_range, rps_stem|]. intros v [Lv Hv].
  eapply rps_bind; [apply rps_value|]. intros nh Hnh.
  eapply rps_bind; [apply rps_range, rps_stem|]. intros h [Lh Hh].
  apply rps_ret. split; [exact Hv|]. split; [exact (range_countable _ v nv Hnv Lv)|].
  split; [exact Hh|exact (range_countable _ h nh Hnh Lh)].
Qed.
Lemma tot_stems : tot parse_tt_stems.
Proof.
  unfold parse_tt_stems, parse_tt_stem. tot_auto; apply tot_lift; intros E;
    apply map_codec_err in E; discriminate.
Qed.

(** ** PPEMs *)
(** writing all keys of [ks] gives them their new values, whatever was there with the same keys *)
Lemma fold_keys : forall ks vs pre (old : list (Z * Z)), NoDup (map fst pre ++ ks) ->
  length vs = length ks ->
  (old = [] \/ map fst old = ks) ->
  fold_left (fun d p => aset Z.eqb (fst p) (snd p) d) (combine ks vs) (pre ++ old)
  = pre ++ combine ks vs.
Proof.
  induction ks as [|k ks IH]; intros [|v vs] pre old N L O; try discriminate.
  - cbn. destruct O as [->|O]; [reflexivity|]. destruct old; [reflexivity|discriminate].
  - cbn [combine fold_left fst snd].
    assert (Hk : ~ In k (map fst pre)).
    { intros H. apply NoDup_remove_2 in N. apply N. apply in_or_app. auto. }
    assert (E : exists old', aset Z.eqb k v (pre ++ old) = (pre ++ [(k, v)]) ++ old' /\
                 (old' = [] \/ map fst old' = ks)).
    { destruct O as [->|O].
      - exists []. split; [|auto]. rewrite !app_nil_r. clear - Hk.
        induction pre as [|[k' v'] pre IH]; cbn in *; [reflexivity|].
        destruct (k =? k') eqn:E; [lia|]. rewrite IH by tauto. reflexivity.
      - destruct old as [|[k' v'] old]; [discriminate|]. cbn in O. inversion O; subst.
        exists old. split; [|auto]. rewrite <- app_assoc. cbn. clear - Hk.
        induction pre as [|[k'' v''] pre IH]; cbn in *; [rewrite Z.eqb_refl; reflexivity|].
        destruct (k =? k'') eqn:E; [lia|]. rewrite IH by tauto. reflexivity. }
    destruct E as (old' & -> & O'). rewrite IH; [|rewrite map_app; cbn; rewrite <- app_assoc; exact N
      |cbn in L; lia|exact O'].
    rewrite <- app_assoc. reflexivity.
Qed.
Lemma aget_combine : forall (ks vs : list Z) i k v, NoDup ks -> nth_error ks i = Some k -> nth_error vs i = Some v ->
  aget Z.eqb k (combine ks vs) = Some v.
Proof.
  induction ks as [|k0 ks IH]; intros vs [|i] k v N Hk Hv; try discriminate; destruct vs as [|v0 vs];
    try discriminate; cbn in *.
  - inversion Hk; inversion Hv; subst. rewrite Z.eqb_refl. reflexivity.
  - inversion N; subst. destruct (k =? k0) eqn:E.
    + apply Z.eqb_eq in E. subst. apply nth_error_In in Hk. tauto.
    + eapply IH; eauto.
Qed.
Lemma wlist_map : forall A B (f : A -> B) (w : B -> wr) l, wlist w (map f l) = wlist (fun x => w (f x)) l.
Proof. induction l as [|x l IH]; [reflexivity|]. cbn. rewrite IH. reflexivity. Qed.
Lemma wlist_ext : forall A (w w' : A -> wr) l, (forall x, In x l -> w x = w' x) -> wlist w l = wlist w' l.
Proof.
  induction l as [|x l IH]; intros H; [reflexivity|]. cbn. rewrite H by (left; auto).
  rewrite IH; [reflexivity|]. intros. apply H. right. auto.
Qed.
Lemma write_rounds_values : forall ks ppms a b c, NoDup ks -> length ppms = length ks ->
  write_rounds ks (TTStem a b c (combine ks ppms)) = wlist write_value ppms.
Proof.
  intros ks ppms a b c N L. unfold write_rounds. cbn [ts_round].
  assert (G : forall pre_k pre_v ks' ppms', ks = pre_k ++ ks' -> ppms = pre_v ++ ppms' ->
    length pre_k = length pre_v ->
    wlist (fun k => wlet (aget_res Z.eqb k (combine ks ppms)) write_value) ks' = wlist write_value ppms').
  { intros pk pv ks'. revert pk pv. induction ks' as [|k ks' IH]; intros pk pv ppms' E1 E2 E3.
    - rewrite E1, E2, !app_length in L. destruct ppms'; [reflexivity|cbn in L; lia].
    - destruct ppms' as [|v ppms']; [rewrite E1, E2, !app_length in L; cbn in L; lia|].
      cbn [wlist]. unfold aget_res at 1.
      rewrite (aget_combine ks ppms (length pk) k v N).
      + cbn [wlet]. f_equal. apply (IH (pk ++ [k]) (pv ++ [v])).
        * rewrite <- app_assoc. exact E1.
        * rewrite <- app_assoc. exact E2.
        * rewrite !app_length. cbn. lia.
      + rewrite E1, nth_error_app2, Nat.sub_diag by lia. reflexivity.
      + rewrite E2, nth_error_app2, E3, Nat.sub_diag by lia. reflexivity. }
  apply (G [] []); reflexivity.
Qed.
Lemma wrt_foldM_values : forall ks vs d, length vs = length ks -> Forall i32 vs ->
  wrt (wlist write_value vs)
      (rfoldM (fun d k => ppm <- read_value ;; ret (aset Z.eqb k ppm d)) d ks)
      (fold_left (fun d p => aset Z.eqb (fst p) (snd p) d) (combine ks vs) d).
Proof.
  induction ks as [|k ks IH]; intros [|v vs] d L H; try discriminate.
  - apply wrt_ret.
  - apply Forall_cons_iff in H. destruct H as [Hv H]. cbn [wlist rfoldM combine fold_left fst snd].
    eapply wrt_bind; [|apply IH; auto]. eapply wrt_bind_ret; [apply wrt_value; auto|reflexivity].
Qed.
Lemma wrt_ppems_dir : forall ks l n, NoDup ks -> wf_ppems_dir ks l -> n = Z.of_nat (length l) ->
  wrt (wlist (write_rounds ks) l) (parse_ppems_dir ks n) l.
Proof.
  intros ks l n N [Hc H] ->. unfold parse_ppems_dir. rewrite Nat2Z.id.
  set (f := fun (st : list tt_stem * list (Z * Z)) (s : tt_stem) => (fst st ++ [s], ts_round s)).
  assert (F : forall l1 d, fst (fold_left f l1 ([], d)) = l1).
  { assert (G : forall l1 acc d, fst (fold_left f l1 (acc, d)) = acc ++ l1).
    { induction l1 as [|x l1 IH]; intros acc d; cbn; [symmetry; apply app_nil_r|].
      unfold f at 2. cbn [fst snd]. rewrite IH, <- app_assoc. reflexivity. }
    intros. apply G. }
  eapply wrt_bind_ret with (a := fold_left f l ([], [])).
  2: { intros s. unfold ret. rewrite F. reflexivity. }
  apply wrt_times with (f := f). intros l1 x l2 E. rewrite fold_left_app. cbn [fold_left].
  unfold f at 2.
  destruct (H (length l1) x) as (ppms & -> & L & Hp).
  { rewrite E, nth_error_app2, Nat.sub_diag by lia. reflexivity. }
  rewrite write_rounds_values by auto. cbn [ts_round].
  assert (D : snd (fold_left f l1 ([], [])) = [] \/ map fst (snd (fold_left f l1 ([], []))) = ks).
  { destruct l1 as [|y l1] using rev_ind; [left; reflexivity|]. right.
    rewrite fold_left_app. cbn [fold_left f snd].
    destruct (H (length l1) y) as (ppms' & -> & L' & _).
    { rewrite E, <- app_assoc, nth_error_app2, Nat.sub_diag by lia. reflexivity. }
    cbn [ts_round]. clear - L'. revert ppms' L'. induction ks as [|k ks IH]; intros [|v vs] L; try discriminate; [reflexivity|].
    cbn. f_equal. apply IH. cbn in L. lia. }
  specialize (F l1 []). destruct (fold_left f l1 ([], [])) as [dir d] eqn:Ef. cbn [fst snd] in *. subst dir.
  unfold ppems_turn. eapply wrt_bind_ret; [apply wrt_foldM_values; auto|].
  intros s. unfold ret. pose proof (fold_keys ks ppms [] d) as K. cbn [app map] in K. rewrite K; auto.
Qed.
Lemma wrt_ppems : forall ks d, NoDup ks -> wf_ppems ks d -> wrt (compile_ppems ks d) (parse_ppems ks) d.
Proof.
  intros ks [v h] N [H1 H2]. cbn [tts_v tts_h] in *. unfold compile_ppems, parse_ppems. cbn [tts_v tts_h].
  eapply wrt_bind; [apply wrt_value, count_i32, H1|].
  eapply wrt_bind; [apply wrt_ppems_dir; auto|].
  eapply wrt_bind; [apply wrt_value, count_i32, H2|].
  eapply wrt_bind_ret; [apply wrt_ppems_dir; auto|]. reflexivity.
Qed.
Lemma wrt_ppems1 : forall d, wf_ppems [1] d ->
  wrt (compile_stem_ppems1 d)
      (parse_stem_ppems1 (Some (Z.of_nat (length (tts_v d)))) (Some (Z.of_nat (length (tts_h d))))) d.
Proof.
  intros [v h] [H1 H2]. cbn [tts_v tts_h] in *. unfold compile_stem_ppems1, parse_stem_ppems1. cbn [tts_v tts_h].
  assert (N : NoDup [1]) by (repeat constructor; cbn; tauto).
  eapply wrt_bind; [apply wrt_ppems_dir; auto|].
  eapply wrt_bind_ret; [apply wrt_ppems_dir; auto|]. reflexivity.
Qed.
Lemma tot_ppems_dir : forall ks n, tot (parse_ppems_dir ks n).
Proof. intros. unfold parse_ppems_dir, ppems_turn. tot_auto. Qed.
Lemma tot_ppems : forall ks, tot (parse_ppems ks).
Proof. intros. unfold parse_ppems. tot_auto; apply tot_ppems_dir. Qed.
Lemma tot_ppems1 : forall a b, tot (parse_stem_ppems1 a b).
Proof. intros. unfold parse_stem_ppems1. tot_auto; try apply tot_ppems_dir. Qed.
Lemma rps_foldM : forall A St (f : St -> A -> rd St) (I : list A -> St -> Prop) l pre st,
  I pre st -> (forall pre x st, I pre st -> rps (f st x) (I (pre ++ [x]))) ->
  rps (rfoldM f st l) (I (pre ++ l)).
Proof.
  induction l as [|x l IH]; intros pre st H Hf; cbn [rfoldM].
  - rewrite app_nil_r. apply rps_ret, H.
  - eapply rps_bind; [apply Hf, H|]. intros st' H'. 
    replace (pre ++ x :: l) with ((pre ++ [x]) ++ l) by (rewrite <- app_assoc; reflexivity).
    apply IH; auto.
Qed.
Lemma rps_foldM_values : forall ks d, NoDup ks -> (d = [] \/ map fst d = ks) ->
  rps (rfoldM (fun d k => ppm <- read_value ;; ret (aset Z.eqb k ppm d)) d ks)
      (fun d' => exists ppms, d' = combine ks ppms /\ length ppms = length ks /\ Forall i32 ppms).
Proof.
  intros ks d N D.
  eapply rps_weaken.
  - apply (rps_foldM _ _ _ (fun pre st => exists vs, length vs = length pre /\ Forall i32 vs /\
      st = fold_left (fun d p => aset Z.eqb (fst p) (snd p) d) (combine pre vs) d) ks []).
    + exists []. repeat split; auto.
    + intros pre x st (vs & L & F & ->). eapply rps_bind; [apply rps_value|]. intros v Hv.
      apply rps_ret. exists (vs ++ [v]). rewrite !app_length. split; [cbn; lia|].
      split; [apply Forall_app; auto|].
      assert (C : combine (pre ++ [x]) (vs ++ [v]) = combine pre vs ++ [(x, v)]).
      { clear - L. revert vs L. induction pre as [|p pre IH]; intros [|v' vs] L; try discriminate; [reflexivity|].
        cbn. rewrite IH; [reflexivity|]. cbn in L. lia. }
      rewrite C, fold_left_app. reflexivity.
  - cbn beta. intros d' (vs & L & F & ->). exists vs. cbn [app] in *. split; [|auto].
    pose proof (fold_keys ks vs [] d) as K. cbn [app map] in K. apply K; auto.
Qed.
Lemma nth_error_snoc : forall A (l : list A) x i y, nth_error (l ++ [x]) i = Some y ->
  (nth_error l i = Some y) \/ (i = length l /\ y = x).
Proof.
  intros A l x i y H. destruct (Nat.lt_ge_cases i (length l)) as [Hi|Hi].
  - rewrite nth_error_app1 in H by exact Hi. auto.
  - rewrite nth_error_app2 in H by exact Hi. destruct (i - length l)%nat as [|k] eqn:E.
    + cbn in H. inversion H. right. split; [lia|reflexivity].
    + cbn in H. destruct k; discriminate.
Qed.
Lemma rps_ppems_dir_len : forall ks n, NoDup ks -> i32 n ->
  rps (parse_ppems_dir ks n) (fun l => wf_ppems_dir ks l /\ length l = Z.to_nat n).
Proof.
  intros ks n N Hn. unfold parse_ppems_dir. eapply rps_bind.
  - apply rps_times_n with (k := 0%nat) (I := fun k st => length (fst st) = k /\
      (snd st = [] \/ map fst (snd st) = ks) /\
      forall i s, nth_error (fst st) i = Some s ->
        exists ppms, s = TTStem None None (Some (Z.of_nat i)) (combine ks ppms) /\
          length ppms = length ks /\ Forall int32 ppms).
    + cbn. split; [reflexivity|]. split; [auto|]. intros [|i] s H; discriminate.
    + intros k [dir d] (H1 & H2 & H3). cbn [fst snd] in *. unfold ppems_turn.
      eapply rps_bind; [apply rps_foldM_values; auto|]. intros d' (ppms & -> & L & F).
      apply rps_ret. cbn [fst snd]. rewrite app_length. cbn [length]. split; [lia|]. split.
      * right. clear - L. revert ppms L. induction ks as [|x ks IH]; intros [|v vs] L; try discriminate; [reflexivity|].
        cbn. f_equal. apply IH. cbn in L. lia.
      * intros i s Hi. apply nth_error_snoc in Hi. destruct Hi as [Hi|[-> ->]]; [auto|].
        exists ppms. auto.
  - intros [dir d] (H1 & _ & H3). cbn [fst] in *. apply rps_ret. split; [|lia]. split; [|exact H3].
    unfold countable, i32 in *. lia.
Qed.
Lemma rps_ppems_dir : forall ks n, NoDup ks -> i32 n -> rps (parse_ppems_dir ks n) (wf_ppems_dir ks).
Proof. intros. eapply rps_weaken; [apply rps_ppems_dir_len; auto|]. intros l H1. apply H1. Qed.
Lemma rps_ppems : forall ks, NoDup ks -> rps (parse_ppems ks) (wf_ppems ks).
Proof.
  intros ks N. unfold parse_ppems. eapply rps_bind; [apply rps_value|]. intros nv Hv.
  eapply rps_bind; [apply rps_ppems_dir; auto|]. intros v Wv.
  eapply rps_bind; [apply rps_value|]. intros nh Hh.
  eapply rps_bind; [apply rps_ppems_dir; auto|]. intros h Wh. apply rps_ret. split; auto.
Qed.

(** ** Zones *)
Lemma wrt_zone : forall z, wf_zone z -> wrt (compile_tt_zone z) parse_tt_zone z.
Proof.
  intros [p v n] (H1 & H2 & H3). cbn in *. rd_unfold_ranges. unfold compile_tt_zone, parse_tt_zone. cbn.
  eapply wrt_bind; [wrt_field|]. eapply wrt_bind; [wrt_field|].
  eapply wrt_bind_ret; [wrt_field|]. reflexivity.
Qed.
Lemma wrt_side : forall o, wf_side (side o) ->
  wrt (compile_side o) (n <- read_value ;; rrange n parse_tt_zone) (side o).
Proof.
  intros [l|] [H Hc]; cbn [side compile_side] in *.
  - eapply wrt_bind; [apply wrt_value, count_i32, Hc|]. apply wrt_range_id; [reflexivity|].
    intros z Hz. apply wrt_zone. exact (Forall_In _ _ _ _ H Hz).
  - eapply wrt_bind_ret; [apply wrt_value; unfold i32; lia|]. reflexivity.
Qed.
Lemma wrt_zones : forall t b, wf_side (side t) -> wf_side (side b) ->
  wrt (compile_tt_zones (TTZones t b)) parse_tt_zones (TTZones (Some (side t)) (Some (side b))).
Proof.
  intros t b Ht Hb. unfold compile_tt_zones. cbn [tz_top tz_bottom].
  apply wrt_ext with (r := x <- (n <- read_value ;; rrange n parse_tt_zone) ;;
     y <- (n <- read_value ;; rrange n parse_tt_zone) ;; ret (TTZones (Some x) (Some y))).
  { intros s. unfold parse_tt_zones, rbind. destruct (read_value s) as [n s1|]; [|reflexivity].
    destruct (rrange n parse_tt_zone s1) as [l s2|]; [|reflexivity].
    destruct (read_value s2) as [m s3|]; reflexivity. }
  eapply wrt_bind; [apply wrt_side; auto|]. eapply wrt_bind_ret; [apply wrt_side; auto|]. reflexivity.
Qed.
Lemma tot_zones : tot parse_tt_zones.
Proof. unfold parse_tt_zones, parse_tt_zone. tot_auto. Qed.
Lemma rps_zone : rps parse_tt_zone wf_zone.
Proof.
  unfold parse_tt_zone. eapply rps_bind; [apply rps_value|]. intros p Hp.
  eapply rps_bind; [apply rps_value|]. intros v Hv.
  eapply rps_bind; [apply rps_str_with_len|]. intros n Hn. apply rps_ret. repeat split; cbn; auto; try apply Hp; try apply Hv; apply Hn.
Qed.
Lemma rps_zones : rps parse_tt_zones (fun d => exists t b, d = TTZones (Some t) (Some b) /\ wf_side t /\ wf_side b).
Proof.
  unfold parse_tt_zones. eapply rps_bind; [apply rps_value|]. intros n Hn.
  eapply rps_bind; [apply rps_range, rps_zone|]. intros t [Lt Ht].
  eapply rps_bind; [apply rps_value|]. intros m Hm.
  eapply rps_bind; [apply rps_range, rps_zone|]. intros b [Lb Hb].
  apply rps_ret. exists t, b. split; [reflexivity|]. split; split; eauto using range_countable.
Qed.

(** ** VDMX and gasp *)
Lemma wrt_vdmx : forall l, wf_vdmx l -> wrt (compile_vdmx l) parse_vdmx l.
Proof.
  intros l [Hc H]. unfold compile_vdmx, parse_vdmx. eapply wrt_bind; [wrt_field|].
  apply wrt_range_id; [reflexivity|]. intros [h a i] Hx. apply (Forall_In _ _ _ _ H) in Hx.
  destruct Hx as (H1 & H2 & H3). cbn in *. rd_unfold_ranges.
  eapply wrt_bind; [wrt_field|]. eapply wrt_bind; [wrt_field|]. eapply wrt_bind_ret; [wrt_field|]. reflexivity.
Qed.
Lemma rps_vdmx : rps parse_vdmx wf_vdmx.
Proof.
  unfold parse_vdmx. eapply rps_bind; [apply rps_value|]. intros n Hn.
  eapply rps_weaken.
  - apply rps_range with (P := fun r => int32 (vx_height r) /\ int32 (vx_max r) /\ int32 (vx_min r)).
    eapply rps_bind; [apply rps_value|]. intros a Ha. eapply rps_bind; [apply rps_value|]. intros b Hb.
    eapply rps_bind; [apply rps_value|]. intros c Hc. apply rps_ret. cbn. auto.
  - cbn beta. intros l [L F]. split; eauto using range_countable.
Qed.
Lemma tot_vdmx : tot parse_vdmx. Proof. unfold parse_vdmx. tot_auto. Qed.

Lemma unpack_H_spec : forall b, bytes_ok b ->
  (exists l, unpack_H b = Ok l /\ Forall u16 l /\ length b = (2 * length l)%nat /\
     concat (map (le_enc 2) l) = b) \/ (unpack_H b = Err StructError /\ Nat.Odd (length b)).
Proof.
  assert (G : forall n b, (length b <= n)%nat -> bytes_ok b ->
    (exists l, unpack_H b = Ok l /\ Forall u16 l /\ length b = (2 * length l)%nat /\
     concat (map (le_enc 2) l) = b) \/ (unpack_H b = Err StructError /\ Nat.Odd (length b))).
  { induction n as [|n IH]; intros b Hl Hb.
    - destruct b; [|cbn in Hl; lia]. left. exists []. repeat split. constructor.
    - destruct b as [|x [|y b]].
      + left. exists []. repeat split. constructor.
      + right. split; [reflexivity|]. exists 0%nat. reflexivity.
      + apply Forall_cons_iff in Hb. destruct Hb as [Hx Hb]. apply Forall_cons_iff in Hb. destruct Hb as [Hy Hb].
        destruct (IH b) as [(l & E & F & L & C)|[E O]]; [cbn in Hl; lia|exact Hb| |].
        * left. exists (le_dec [x; y] :: l). cbn [unpack_H]. rewrite E. split; [reflexivity|].
          assert (Hxy : bytes_ok [x; y]) by (repeat constructor; auto; apply Hx || apply Hy).
          split; [constructor; [|exact F]|].
          { pose proof (le_dec_range [x; y] Hxy) as R. exact R. }
          split; [cbn [length]; lia|]. cbn [map concat]. rewrite C.
          change 2%nat with (length [x; y]). rewrite (le_enc_dec [x; y] Hxy). reflexivity.
        * right. cbn [unpack_H]. rewrite E. split; [reflexivity|]. destruct O as [k Hk]. exists (S k). cbn [length]. lia. }
  intros b. apply (G (length b)). lia.
Qed.
Definition gasp_words (l : list gasp_rec) : list Z := flat_map (fun r => [gr_ppem r; gr_flags r]) l.
Lemma pairs_words : forall l, pairs (gasp_words l) = l.
Proof. induction l as [|[a b] l IH]; cbn; [reflexivity|]. f_equal. exact IH. Qed.
Lemma write_u16 : forall v, u16 v -> write_uint16 v = Ok (le_enc 2 v).
Proof.
  intros v H. unfold write_uint16, pack_le_u, to_bytes_u, urange, in_range. unfold u16 in H.
  change (2 ^ (8 * Z.of_nat 2)) with 65536. replace ((0 <=? v) && (v <? 65536)) with true by lia. reflexivity.
Qed.
Lemma compile_gasp_words : forall l, wf_gasp l ->
  compile_gasp l = Ok (concat (map (le_enc 2) (gasp_words l))).
Proof.
  induction 1 as [|[a b] l [Ha Hb] H IH]; [reflexivity|]. unfold compile_gasp in *. cbn [wlist gr_ppem gr_flags] in *.
  rewrite !write_u16 by assumption. rewrite IH. reflexivity.
Qed.
Lemma unpack_word : forall v b, u16 v -> unpack_H (le_enc 2 v ++ b) = rmap (cons v) (unpack_H b).
Proof.
  intros v b Hv. pose proof (le_dec_enc_u 2 v Hv) as E. cbn [le_enc] in *. cbn [app unpack_H].
  rewrite E. reflexivity.
Qed.
Lemma unpack_words : forall l, Forall u16 l -> unpack_H (concat (map (le_enc 2) l)) = Ok l.
Proof.
  induction 1 as [|v l Hv H IH]; [reflexivity|]. cbn [map concat].
  rewrite unpack_word, IH by exact Hv. reflexivity.
Qed.
Lemma gasp_survives : forall l, wf_gasp l -> survives compile_gasp parse_gasp l.
Proof.
  intros l H. eexists. split; [apply compile_gasp_words; exact H|]. split.
  - clear H. induction (gasp_words l) as [|v r IH]; [constructor|]. cbn [map concat].
    apply bytes_ok_app. split; [apply le_enc_ok|exact IH].
  - unfold run_parser, parse_gasp, rbind, read_all, rlift.
    rewrite unpack_words.
    + unfold ret. rewrite pairs_words. reflexivity.
    + induction H as [|[a b] l [Ha Hb] H IH]; [constructor|]. cbn. constructor; [exact Ha|].
      constructor; [exact Hb|exact IH].
Qed.
Lemma pairs_even : forall n l, length l = (2 * n)%nat -> gasp_words (pairs l) = l.
Proof.
  induction n as [|n IH]; intros l H.
  - destruct l; [reflexivity|cbn in H; lia].
  - destruct l as [|a [|b l]]; [cbn in H; lia|cbn in H; lia|]. cbn. rewrite IH; [reflexivity|cbn in H; lia].
Qed.
Lemma pairs_odd : forall n l x, length l = (2 * n)%nat -> pairs (l ++ [x]) = pairs l.
Proof.
  induction n as [|n IH]; intros l x H.
  - destruct l; [reflexivity|cbn in H; lia].
  - destruct l as [|a [|b l]]; [cbn in H; lia|cbn in H; lia|]. cbn. rewrite IH; [reflexivity|cbn in H; lia].
Qed.
Lemma pairs_wf : forall l, Forall u16 l -> wf_gasp (pairs l).
Proof.
  assert (G : forall n l, (length l <= n)%nat -> Forall u16 l -> wf_gasp (pairs l)).
  { induction n as [|n IH]; intros l Hl H; (destruct l as [|a [|b l]]; [constructor|constructor|]).
    - cbn in Hl. lia.
    - apply Forall_cons_iff in H. destruct H as [Ha H]. apply Forall_cons_iff in H. destruct H as [Hb H].
      cbn. constructor; [split; assumption|]. apply IH; [cbn in Hl; lia|exact H]. }
  intros l. apply (G (length l)). lia.
Qed.
Lemma tot_gasp : tot parse_gasp.
Proof.
  unfold parse_gasp. eapply tot_bind_post; [apply tot_read_all|apply rpost_read_all|]. intros b Hb.
  apply tot_bind; [|intros; apply tot_ret]. apply tot_lift.
  destruct (unpack_H_spec b Hb) as [(l & E & _)|[E _]]; rewrite E; discriminate.
Qed.
Lemma rps_gasp : rps parse_gasp wf_gasp.
Proof.
  unfold parse_gasp. eapply rps_bind; [apply rps_read_all|]. intros b Hb.
  eapply rps_bind with (P := Forall u16).
  - apply rps_lift. intros l E. destruct (unpack_H_spec b Hb) as [(l' & E' & F & _)|[E' _]]; rewrite E' in E;
      [inversion E; subst; exact F|discriminate].
  - intros l H. apply rps_ret, pairs_wf, H.
Qed.
Lemma gasp_exact : forall n, exact_at (4 * n) compile_gasp parse_gasp.
Proof.
  intros n data Hd Hl. destruct (unpack_H_spec data Hd) as [(l & E & F & L & C)|[_ [k Hk]]]; [|lia].
  exists (pairs l). split.
  - unfold run_parser, parse_gasp, rbind, read_all, rlift. rewrite E. reflexivity.
  - rewrite compile_gasp_words by (apply pairs_wf, F). rewrite (pairs_even n) by lia. rewrite C. reflexivity.
Qed.
Lemma gasp_dropped : forall n data x y, bytes_ok data -> is_byte x -> is_byte y -> length data = (4 * n)%nat ->
  run_parser parse_gasp (data ++ [x; y]) = run_parser parse_gasp data.
Proof.
  intros n data x y Hd Hx Hy Hl.
  destruct (unpack_H_spec data Hd) as [(l & E & F & L & C)|[_ [k Hk]]]; [|lia].
  assert (E2 : unpack_H (data ++ [x; y]) = Ok (l ++ [le_dec [x; y]])).
  { rewrite <- C. clear - F. induction F as [|v l Hv F IH]; [reflexivity|].
    cbn [map concat]. rewrite <- app_assoc, unpack_word, IH by exact Hv. reflexivity. }
  unfold run_parser, parse_gasp, rbind, read_all, rlift. rewrite E, E2. unfold ret.
  rewrite (pairs_odd n) by lia. reflexivity.
Qed.
