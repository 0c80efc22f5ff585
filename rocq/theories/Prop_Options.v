(** C39, C58, C59 and parts of C40: font options, masks and primary instances. *)
From Coq Require Import String Reals Floats.SpecFloat.
From Flocq Require Import Core BinarySingleNaN.
From Verif Require Import Base M_Stream M_Text M_Py M_Simple M_Float M_Glyph M_Options
  Lib P_Stream P_Loop S_Bits S_Text S_Entry S_Glyph S_Options P_Simple P_Simple3 P_Float P_Glyph P_Glyph4 P_Glyph5 P_Options
  Prop_Simple Prop_TrueType Prop_Glyph.
Local Open Scope list_scope.
Open Scope Z_scope.

(** ** C39: font options round-trip *)
Theorem C39_font_options : forall d, wf_font_options d ->
  survives compile_font_options parse_font_options d.
Proof. intros d H. apply wrt_survives. apply wrt_font_options. exact H. Qed.
Print Assumptions C39_font_options.

(** [int_div n d], by which the ratios are given, is the binary64 number nearest to [n / d] (ties to
    even): the rounding of the real quotient. *)
Theorem C39_ratio_nearest : forall n d, Z.abs n < 2 ^ 52 -> 0 < d < 2 ^ 52 ->
  SF2R radix2 (int_div n d) =
  round radix2 (FLT_exp (-1074) 53) ZnearestE (IZR n / IZR d)%R.
Proof.
  intros n d Hn Hd. destruct (int_div_ok n d Hn Hd) as (b & -> & E & _).
  transitivity (B2R b); [destruct b; reflexivity|exact E].
Qed.
Print Assumptions C39_ratio_nearest.

(** The packed fields: which bit of the file belongs to which flag. Any dict is accepted: keys may come
    in any order, be absent (the precision is then 7, a flag 0), and unknown keys are ignored. *)
Definition key_or (d : list (pystr * Z)) (k : pystr) (default : Z) : Z :=
  match find (fun p => str_eqb k (fst p)) d with Some p => snd p | None => default end.
Lemma dget_key_or : forall d k z, dget d k z = key_or d k z.
Proof.
  intros d k z. unfold dget, key_or. induction d as [|[k' v] d IH]; [reflexivity|].
  cbn [aget find fst]. destruct (str_eqb k k'); [reflexivity|exact IH].
Qed.
Lemma single_option : forall raw k v n, In (raw, k) font_options -> option_int k v = Ok n -> i32 n ->
  exists b, write_value n = Ok b /\ compile_font_options [(k, v)] = Ok (raw :: b ++ [100]) /\
  run_parser parse_font_options (raw :: b ++ [100]) = Ok [(k, post1 k (OInt n))].
Proof.
  intros raw k v n Hin E Hn. destruct (options_table raw k Hin) as (T1 & T2 & T3 & T4).
  destruct (wrt_value n Hn) as (b & Eb & Ob & _). exists b. split; [exact Eb|].
  assert (W : write_uint8 raw = Ok [raw]) by (pose proof (wlist_uint8 [raw]) as U; cbn [wlist] in U; rewrite wseq_nil_r in U; apply U; constructor; [exact T3|constructor]).
  assert (C : compile_font_options [(k, v)] = Ok (raw :: b ++ [100])).
  { unfold compile_font_options. cbn [wlist]. unfold compile_option. cbn [fst snd]. rewrite T1, E.
    cbn [wlet]. rewrite W, Eb. cbn. rewrite <- app_assoc. reflexivity. }
  split; [exact C|].
  destruct (wrt_key_values [(raw, n)]) as (bs & Ebs & _ & R).
  { constructor; [|constructor]. split; [exact T3|]. split; [exact T4|exact Hn]. }
  cbn [wlist write_kv fst snd] in Ebs. unfold write_kv in Ebs. cbn [fst snd] in Ebs. rewrite W, Eb in Ebs.
  cbn in Ebs. apply Ok_inj in Ebs. rewrite app_nil_r in Ebs. subst bs.
  unfold run_parser, parse_font_options, rbind. specialize (R []). rewrite app_nil_r in R.
  cbn [app] in R. rewrite R. unfold ret.
  unfold collect_options. cbn [fold_left fst snd aset]. rewrite T2.
  rewrite post_process_map; [reflexivity|]. repeat constructor. intros [].
Qed.
Theorem C39_autohint_bits : forall d precision triple delta center cusp dbl rsb,
  precision = key_or d (py "single_link_attachment_precision") 7 -> 0 <= precision <= 7 ->
  triple = key_or d (py "generate_triple_hints") 0 -> flag triple ->
  delta = key_or d (py "generate_delta_instructions") 0 -> flag delta ->
  center = key_or d (py "direct_links_to_center_of_the_glyph_where_possible") 0 -> flag center ->
  cusp = key_or d (py "interpolate_positions_of_cusp_points") 0 -> flag cusp ->
  dbl = key_or d (py "interpolate_positions_of_double_links") 0 -> flag dbl ->
  rsb = key_or d (py "add_link_to_rsb") 0 -> flag rsb ->
  exists b, write_value (precision + 2 ^ 8 * triple + 2 ^ 9 * delta + 2 ^ 10 * center +
                         2 ^ 11 * cusp + 2 ^ 12 * dbl + 2 ^ 13 * rsb) = Ok b /\
  compile_font_options [(py "autohinting_options", ODict d)] = Ok (20 :: b ++ [100]) /\
  run_parser parse_font_options (20 :: b ++ [100]) =
    Ok [(py "autohinting_options", ODict (autohint_dict precision triple delta center cusp dbl rsb))].
Proof.
  intros d p a b c e f g Ep Hp Ea Ha Eb Hb Ec Hc Ee He Ef Hf Eg Hg.
  destruct (autohint_pack p a b c e f g) as (n & Hn & E1 & E2); try assumption.
  assert (N : n = p + 2 ^ 8 * a + 2 ^ 9 * b + 2 ^ 10 * c + 2 ^ 11 * e + 2 ^ 12 * f + 2 ^ 13 * g).
  { rewrite <- E1. transitivity (((((( p + a * 256) + b * 512) + c * 1024) + e * 2048) + f * 4096) + g * 8192);
      [reflexivity|lia]. }
  rewrite <- N. rewrite <- E2.
  change (ODict (unpack_autohint n)) with (post1 (py "autohinting_options") (OInt n)).
  apply single_option; [apply in_pair_check; vm_compute; reflexivity| |exact Hn].
  change (option_int (py "autohinting_options") (ODict d))
    with (Ok (pack_flags autohint_flags d (dget d precision_key 7))).
  rewrite <- E1. f_equal. unfold pack_flags, autohint_flags. cbn [fold_left fst snd].
  rewrite !dget_key_or. unfold precision_key. rewrite <- Ep, <- Ea, <- Eb, <- Ec, <- Ee, <- Ef, <- Eg. reflexivity.
Qed.
Print Assumptions C39_autohint_bits.
Theorem C39_expand_kern_bits : forall d action codepage cmap window count keep assist,
  action = key_or d (py "limit_action") 0 -> flag action ->
  codepage = key_or d (py "limit_codepage") 0 -> flag codepage ->
  cmap = key_or d (py "limit_cmap_10") 0 -> flag cmap ->
  window = key_or d (py "limit_font_window") 0 -> flag window ->
  count = key_or d (py "limit_count") 0 -> flag count ->
  keep = key_or d (py "limit_keep") 0 -> flag keep ->
  assist = key_or d (py "apply_to_assistance") 0 -> flag assist ->
  exists b, write_value (action + 2 * codepage + 4 * cmap + 8 * window + 16 * count + 32 * keep +
                         2 ^ 12 * assist) = Ok b /\
  compile_font_options [(py "expand_kern_flags", ODict d)] = Ok (48 :: b ++ [100]) /\
  run_parser parse_font_options (48 :: b ++ [100]) =
    Ok [(py "expand_kern_flags", ODict (expand_kern_dict action codepage cmap window count keep assist))].
Proof.
  intros d a b c e f g h Ea Ha Eb Hb Ec Hc Ee He Ef Hf Eg Hg Eh Hh.
  destruct (expand_kern_pack a b c e f g h) as (n & Hn & E1 & E2); try assumption.
  assert (N : n = a + 2 * b + 4 * c + 8 * e + 16 * f + 32 * g + 2 ^ 12 * h).
  { rewrite <- E1. transitivity ((((((( 0 + a * 1) + b * 2) + c * 4) + e * 8) + f * 16) + g * 32) + h * 4096);
      [reflexivity|lia]. }
  rewrite <- N. rewrite <- E2.
  change (ODict (unpack_flags expand_kern_table n)) with (post1 (py "expand_kern_flags") (OInt n)).
  apply single_option; [apply in_pair_check; vm_compute; reflexivity| |exact Hn].
  change (option_int (py "expand_kern_flags") (ODict d))
    with (Ok (pack_flags expand_kern_table d 0)).
  rewrite <- E1. f_equal. unfold pack_flags, expand_kern_table. cbn [fold_left fst snd].
  rewrite !dget_key_or. rewrite <- Ea, <- Eb, <- Ec, <- Ee, <- Ef, <- Eg, <- Eh. reflexivity.
Qed.
Print Assumptions C39_expand_kern_bits.

(** the data type of the options also allows a plain integer for the two packed fields (typing.py 132,
    160), and a JSON file may have an integer for a ratio; the compiler refuses them *)
Theorem C39_plain_integer_refuted : forall v,
  compile_font_options [(py "autohinting_options", OInt v)] = Err AssertionError /\
  compile_font_options [(py "expand_kern_flags", OInt v)] = Err AssertionError /\
  compile_font_options [(py "auto_hinting_h_ratio", OInt v)] = Err AssertionError.
Proof. intros v. repeat split; reflexivity. Qed.
Print Assumptions C39_plain_integer_refuted.

(** ** C40: what the parser of font options returns can be compiled, if it knows all the keys *)
Theorem C40_font_options : forall data d, entry_data data -> run_parser parse_font_options data = Ok d ->
  Forall (fun p => In (fst p) option_names) d -> survives compile_font_options parse_font_options d.
Proof.
  intros data d Hd E K. apply C39_font_options. exact (rps_run _ _ _ _ _ rps_font_options Hd E K).
Qed.
Print Assumptions C40_font_options.
(** An option the library does not know is read, and cannot be written back. *)
Theorem C40_font_options_refuted : exists data d, entry_data data /\
  run_parser parse_font_options data = Ok d /\ compile_font_options d = Err AssertionError.
Proof.
  exists [52; 139; 100]. eexists. split; [|split; [vm_compute; reflexivity|vm_compute; reflexivity]].
  split; [repeat constructor; lia|cbn; lia].
Qed.
Print Assumptions C40_font_options_refuted.
(** Bits of the packed fields that have no name are dropped: the data changes when the file is
    decompiled and written. *)
Theorem C40_font_options_bits_refuted : exists data d data', entry_data data /\
  run_parser parse_font_options data = Ok d /\ compile_font_options d = Ok data' /\ data' <> data /\
  run_parser parse_key_values data = Ok [(20, 8)] /\ run_parser parse_key_values data' = Ok [(20, 0)].
Proof.
  exists [20; 147; 100]. do 2 eexists. split; [split; [repeat constructor; lia|cbn; lia]|].
  split; [vm_compute; reflexivity|]. split; [vm_compute; reflexivity|].
  split; [discriminate|]. split; vm_compute; reflexivity.
Qed.
Print Assumptions C40_font_options_bits_refuted.

Example C39_example : wf_font_options
  [(py "fit_ascender", OInt 750); (py "auto_hinting_h_ratio", OFloat (int_div 12345 10000));
   (py "autohinting_options", ODict (autohint_dict 7 1 0 1 0 0 1)); (py "decompose", OInt (-1))].
Proof.
  split.
  - apply nodupb_ok. vm_compute. reflexivity.
  - constructor; [|constructor; [|constructor; [|constructor; [|constructor]]]]; cbn [fst snd].
    + apply wf_plain; [apply in_by_compute; vm_compute; reflexivity| | | |unfold int32; lia];
        [intros [E|E]|intros E|intros E]; vm_compute in E; discriminate.
    + apply wf_ratio; [left; reflexivity|unfold int32; lia].
    + apply wf_autohint; unfold flag; lia.
    + apply wf_plain; [apply in_by_compute; vm_compute; reflexivity| | | |unfold int32; lia];
        [intros [E|E]|intros E|intros E]; vm_compute in E; discriminate.
Qed.

(** ** C58: glyph masks round-trip *)
Theorem C58_mask : forall m, wf_mask m -> survives compile_mask parse_mask m.
Proof. intros m H. apply wrt_survives, wrt_mask, H. Qed.
Print Assumptions C58_mask.
Theorem C58_reparse : forall data m, entry_data data -> run_parser parse_mask data = Ok m ->
  master_count (mo_num_masters (mk_outlines m)) ->
  2 * stored_values (mo_num_masters (mk_outlines m)) (or_nil (mo_nodes (mk_outlines m))) < 2 ^ 31 ->
  survives compile_mask parse_mask m.
Proof.
  intros data m Hd E Hn HV. destruct (rps_run _ _ _ _ _ rps_mask Hd E) as (C & F & nodes & En & G).
  apply C58_mask. rewrite En in HV. cbn [or_nil] in HV. destruct (G (proj1 Hn)) as [G1 G2].
  split; [exact C|]. split; [exact F|]. split; [exact Hn|]. exists nodes. split; [exact En|].
  split; [exact G1|]. split; [exact G2|exact HV].
Qed.
Print Assumptions C58_reparse.

(** ** C59: primary instances *)
(** [moved n m]: [m] is [n], or [n] moved by one towards zero *)
Definition moved (n m : Z) : Prop := m = n \/ m = n - Z.sgn n.
(** Writing a list of instances and reading it: the names are kept, each value is at most 1/10000
    nearer to zero. *)
Theorem C59_instances : forall l, countable l ->
  Forall (fun p => text (fst p) /\ array 4 int32 (snd p)) l ->
  exists bs l', compile_instances (map (fun p => instance_of (fst p) (snd p)) l) = Ok bs /\
    run_parser parse_instances bs = Ok (map (fun p => instance_of (fst p) (snd p)) l') /\
    Forall2 (fun p q => fst p = fst q /\ Forall2 moved (snd p) (snd q)) l l'.
Proof.
  intros l C H. destruct (wrt_instances l C H) as (l' & F & W).
  destruct (wrt_run _ _ _ _ W) as (bs & E & _ & R). exists bs, l'. split; [exact E|]. split; [exact R|exact F].
Qed.
Print Assumptions C59_instances.
(** "The values are kept" is false of the code: the location 0.57 becomes 0.5699, and a value can lose
    1/10000 each time the file is saved: 1.001, 1.0009, 1.0008. *)
Theorem C59_instances_refuted :
  (exists bs, compile_instances [instance_of (py "Bold") [5700; 0; 0; 0]] = Ok bs /\
     run_parser parse_instances bs = Ok [instance_of (py "Bold") [5699; 0; 0; 0]]) /\
  (exists bs, compile_instances [instance_of (py "Bold") [10010; 0; 0; 0]] = Ok bs /\
     run_parser parse_instances bs = Ok [instance_of (py "Bold") [10009; 0; 0; 0]]) /\
  (exists bs, compile_instances [instance_of (py "Bold") [10009; 0; 0; 0]] = Ok bs /\
     run_parser parse_instances bs = Ok [instance_of (py "Bold") [10008; 0; 0; 0]]).
Proof.
  split; [|split]; eexists; (split; [vm_compute; reflexivity|]); vm_compute; reflexivity.
Qed.
Print Assumptions C59_instances_refuted.
(** What is read can always be written again, and read. *)
Theorem C59_reparse : forall data l, entry_data data -> run_parser parse_instances data = Ok l ->
  exists bs l', compile_instances l = Ok bs /\ run_parser parse_instances bs = Ok l' /\
                map in_name l' = map in_name l.
Proof.
  intros data l Hd E. destruct (rps_run _ _ _ _ _ rps_instances Hd E) as (il & -> & C & F).
  destruct (C59_instances il C F) as (bs & l' & E1 & E2 & G). exists bs. eexists.
  split; [exact E1|]. split; [exact E2|]. rewrite !map_map.
  clear -G. induction G as [|p q l l' [N _] _ IH]; [reflexivity|]. cbn [map]. f_equal; [symmetry; exact N|exact IH].
Qed.
Print Assumptions C59_reparse.
