(** C105: the names in the decompiled data stand for the numbers of the file that they should stand for. *)
From Coq Require Import ZifyBool ZifyNat String.
From Verif Require Import Base M_Stream M_Helpers M_Text M_Py M_Float M_Simple M_Options M_Glyph M_Container M_Table
  S_Stream S_Bits S_Entry S_Meaning Lib P_Stream P_Helpers P_Loop P_TrueType P_Simple P_Options P_Simple3.
Local Open Scope list_scope.
Open Scope rd_scope.
Ltac Zify.zify_post_hook ::= Z.div_mod_to_equations.

Lemma dec2 : forall a b, le_dec [a; b] = number2 a b.
Proof. intros. unfold number2, le_dec. lia. Qed.
Lemma dec4 : forall a b c d, le_dec [a; b; c; d] = number4 a b c d.
Proof. intros. unfold number4, le_dec. lia. Qed.
Lemma read_encoded : forall v e rest, write_value v = Ok e -> int32 v -> read_value (e ++ rest) = ROk v rest.
Proof.
  intros v e rest E H. destruct (wrt_value v H) as (bs & E1 & _ & R). rewrite E in E1. apply Ok_inj in E1. subst.
  apply R.
Qed.

(** ** Bits *)
Theorem C105_export_options : forall o c a b, is_byte a -> is_byte b ->
  exists l, cd_parse (table o) 1744 c [a; b] = Ok (DOptionList l) /\
    (forall k, 0 <= k -> In (export_option k) l <-> Z.testbit (number2 a b) k = true).
Proof.
  intros o c a b Ha Hb. unfold is_byte in *.
  destruct (binaryToIntList_spec (number2 a b) 0) as (l & E & _ & L); [unfold number2; lia|].
  exists (map export_name l). split.
  - change (cd_parse (table o) 1744 c [a; b]) with (run_parser (plain DOptionList parse_export_options) [a; b]).
    unfold run_parser, plain, parse_export_options, rbind, read_uint16, read_bytes, rbind.
    change (take 2 [a; b]) with [a; b]. change (drop 2 [a; b]) with (@nil Z). unfold ret at 1.
    rewrite dec2. unfold rlift at 1. rewrite E. reflexivity.
  - intros k Hk. specialize (L k). rewrite Z.sub_0_r in L.
    assert (N : forall k, export_option k = export_name k).
    { clear. intros k. unfold export_option, export_name, export_options. cbn [aget].
      destruct (k =? 0); [reflexivity|]. destruct (k =? 1); [reflexivity|]. destruct (k =? 2); reflexivity. }
    rewrite N, in_map_iff. split.
    + intros (j & Ej & Hj). rewrite <- !N in Ej. unfold export_option in Ej.
      assert (j = k); [|subst; tauto].
      destruct (Z.eqb_spec j 0), (Z.eqb_spec k 0); try lia;
      repeat match type of Ej with
        | context [if ?x =? ?y then _ else _] => destruct (Z.eqb_spec x y)
        end; first [lia | discriminate Ej | congruence].
    + intros H. exists k. split; [reflexivity|]. apply L. split; [lia|exact H].
Qed.
Print Assumptions C105_export_options.

Lemma take_named_spec : forall opts bits d r, NoDup (map snd opts) -> take_named opts bits = (d, r) ->
  (forall n, In n (map fst d) <-> exists k, In (n, k) opts /\ In k bits) /\
  (forall p, In p d -> snd p = 1) /\
  (forall k, In k r <-> In k bits /\ ~ In k (map snd opts)).
Proof.
  induction opts as [|[n0 b0] opts IH]; intros bits d r N E; cbn [take_named] in E.
  - injection E as <- <-. repeat split; try (intros []; fail); cbn [map In] in *; try tauto.
    intros (k & [] & _).
  - cbn [map snd] in N. inversion N as [|x l N1 N2]; subst.
    destruct (existsb (Z.eqb b0) bits) eqn:X.
    + destruct (take_named opts (filter (fun b => negb (b =? b0)) bits)) as [d' r'] eqn:T.
      injection E as <- <-. destruct (IH _ _ _ N2 T) as (I1 & I2 & I3).
      apply existsb_exists in X. destruct X as (b1 & Hb1 & Eb). apply Z.eqb_eq in Eb. subst b1.
      split; [|split].
      * intros n. cbn [map fst In]. rewrite I1. split.
        -- intros [<-|(k & Hk & Hb)]; [exists b0; auto|]. apply filter_In in Hb. exists k. tauto.
        -- intros (k & [Hk|Hk] & Hb); [left; congruence|]. right. exists k. split; [exact Hk|].
           apply filter_In. split; [exact Hb|]. destruct (Z.eqb_spec k b0) as [->|]; [|reflexivity].
           exfalso. apply N1. change b0 with (snd (n, b0)). apply in_map. exact Hk.
      * intros p [<-|Hp]; [reflexivity|auto].
      * intros k. rewrite I3, filter_In. cbn [map snd In]. destruct (Z.eqb_spec k b0); subst; cbn [negb]; intuition congruence.
    + destruct (IH _ _ _ N2 E) as (I1 & I2 & I3).
      assert (X0 : ~ In b0 bits).
      { intros Hb. assert (existsb (Z.eqb b0) bits = true); [|congruence]. apply existsb_exists.
        exists b0. split; [exact Hb|apply Z.eqb_refl]. }
      split; [|split; [exact I2|]].
      * intros n. rewrite I1. split; [intros (k & Hk & Hb); exists k; cbn; auto|].
        intros (k & [Hk|Hk] & Hb); [|exists k; auto]. injection Hk as -> ->. destruct (X0 Hb).
      * intros k. rewrite I3. cbn [map snd In]. intuition congruence.
Qed.
Lemma ps_bits : forall opts bits v l d r, NoDup (map snd opts) -> 0 <= v ->
  binaryToIntList v 0 = Ok l -> take_named opts l = (d, r) ->
  (forall n k, In (n, k) opts <-> In (k, n) bits) -> (forall k, In k (map snd opts) <-> In k (map fst bits)) ->
  Forall (fun p => 0 <= snd p) opts ->
  hinting_bits v bits d r.
Proof.
  intros opts bits v l d r N Hv E T B1 B2 P.
  destruct (binaryToIntList_spec v 0 Hv) as (l' & E' & _ & L). rewrite E in E'. apply Ok_inj in E'. subst l'.
  destruct (take_named_spec _ _ _ _ N T) as (I1 & I2 & I3).
  assert (L' : forall k, In k l <-> 0 <= k /\ Z.testbit v k = true).
  { intros k. specialize (L k). rewrite Z.sub_0_r in L. exact L. }
  split; [|split; [exact I2|]].
  - intros n. rewrite I1. split.
    + intros (k & Hk & Hb). exists k. split; [apply B1, Hk|apply L', Hb].
    + intros (k & Hk & Hb). apply B1 in Hk. exists k. split; [exact Hk|]. apply L'. split; [|exact Hb].
      rewrite Forall_forall in P. exact (P _ Hk).
  - intros k. rewrite I3, L', B2. tauto.
Qed.
Theorem C105_ps_options : forall o c a b, is_byte a -> is_byte b ->
  exists d, cd_parse (table o) 1093 c [a; b] = Ok (DPSOptions d) /\
    hinting_bits (number2 a b) global_hinting_bits (po_named d) (po_other d).
Proof.
  intros o c a b Ha Hb. unfold is_byte in *.
  assert (V : 0 <= number2 a b) by (unfold number2; lia).
  destruct (binaryToIntList_spec _ 0 V) as (l & E & _).
  destruct (take_named ps_global_options l) as [d r] eqn:T. exists (PSOptions d r). split.
  - change (cd_parse (table o) 1093 c [a; b]) with (run_parser (plain DPSOptions parse_ps_global) [a; b]).
    unfold run_parser, plain, parse_ps_global, parse_ps_options, rbind, read_uint16, read_bytes, rbind.
    change (take 2 [a; b]) with [a; b]. change (drop 2 [a; b]) with (@nil Z). unfold ret at 1.
    rewrite dec2. unfold rlift at 1. rewrite E, T. reflexivity.
  - eapply (ps_bits ps_global_options); eauto; try (repeat constructor; cbn; intuition lia).
    + intros n k. unfold ps_global_options, global_hinting_bits. cbn [In]. intuition congruence.
    + intros k. unfold ps_global_options, global_hinting_bits. cbn [map fst snd In]. tauto.
Qed.
Theorem C105_glyph_ps_options : forall o c x0 x1 x2 x3, is_byte x0 -> is_byte x1 -> is_byte x2 -> is_byte x3 ->
  exists d, cd_parse (table o) 2010 c [x0; x1; x2; x3] = Ok (DPSOptions d) /\
    hinting_bits (number4 x0 x1 x2 x3) glyph_hinting_bits (po_named d) (po_other d).
Proof.
  intros o c x0 x1 x2 x3 H0 H1 H2 H3. unfold is_byte in *.
  assert (V : 0 <= number4 x0 x1 x2 x3) by (unfold number4; lia).
  destruct (binaryToIntList_spec _ 0 V) as (l & E & _).
  destruct (take_named ps_glyph_options l) as [d r] eqn:T. exists (PSOptions d r). split.
  - change (cd_parse (table o) 2010 c [x0; x1; x2; x3]) with (run_parser (plain DPSOptions parse_ps_glyph) [x0; x1; x2; x3]).
    unfold run_parser, plain, parse_ps_glyph, parse_ps_options, rbind, read_uint32, read_bytes, rbind.
    change (take 4 [x0; x1; x2; x3]) with [x0; x1; x2; x3]. change (drop 4 [x0; x1; x2; x3]) with (@nil Z). unfold ret at 1.
    rewrite dec4. unfold rlift at 1. rewrite E, T. reflexivity.
  - eapply (ps_bits ps_glyph_options); eauto; try (repeat constructor; cbn; intuition lia).
    + intros n k. unfold ps_glyph_options, glyph_hinting_bits. cbn [In]. intuition congruence.
    + intros k. unfold ps_glyph_options, glyph_hinting_bits. cbn [map fst snd In]. tauto.
Qed.
Print Assumptions C105_ps_options. Print Assumptions C105_glyph_ps_options.

(** ** Font options *)
Lemma flag_bit : forall v k, 0 <= k -> flag_of v (2 ^ k) = stored_bit v k.
Proof.
  intros v k Hk. unfold flag_of, stored_bit. destruct (Z.testbit v k) eqn:B.
  - destruct (Z.eqb_spec (Z.land v (2 ^ k)) 0) as [E|]; [|reflexivity]. exfalso.
    assert (H : Z.testbit (Z.land v (2 ^ k)) k = true) by (rewrite Z.land_spec, B, Z.pow2_bits_true by lia; reflexivity).
    rewrite E, Z.bits_0 in H. discriminate.
  - replace (Z.land v (2 ^ k)) with 0; [reflexivity|]. symmetry. apply Z.bits_inj'. intros n Hn.
    rewrite Z.land_spec, Z.bits_0. destruct (Z.eq_dec n k) as [->|Ne]; [rewrite B; reflexivity|].
    rewrite Z.pow2_bits_false by lia. apply andb_false_r.
Qed.
Lemma option_value : forall k v, In k (map fst option_numbers) ->
  get_or_str font_options k = option_name k /\ post1 (option_name k) (OInt v) = option_meaning k v /\
  is_byte k /\ k <> 100.
Proof.
  intros k v H. unfold option_numbers in H. cbn [map fst] in H.
  repeat (destruct H as [<-|H];
    [split; [reflexivity|split; [|unfold is_byte; lia]]; try reflexivity|]);
    [| |destruct H].
  - change (post1 (option_name 20) (OInt v)) with (ODict (unpack_autohint v)).
    change (option_meaning 20 v) with
      (ODict [(py "single_link_attachment_precision", v mod 8); (py "generate_triple_hints", stored_bit v 8);
           (py "generate_delta_instructions", stored_bit v 9);
           (py "direct_links_to_center_of_the_glyph_where_possible", stored_bit v 10);
           (py "interpolate_positions_of_cusp_points", stored_bit v 11);
           (py "interpolate_positions_of_double_links", stored_bit v 12);
           (py "add_link_to_rsb", stored_bit v 13)]).
    unfold unpack_autohint, unpack_flags, autohint_flags. cbn [map fst snd].
    rewrite <- !flag_bit by lia. change 7 with (Z.ones 3). rewrite Z.land_ones by lia. reflexivity.
  - change (post1 (option_name 48) (OInt v)) with (ODict (unpack_flags expand_kern_table v)).
    change (option_meaning 48 v) with
      (ODict [(py "limit_action", stored_bit v 0); (py "limit_codepage", stored_bit v 1);
           (py "limit_cmap_10", stored_bit v 2); (py "limit_font_window", stored_bit v 3);
           (py "limit_count", stored_bit v 4); (py "limit_keep", stored_bit v 5);
           (py "apply_to_assistance", stored_bit v 12)]).
    unfold unpack_flags, expand_kern_table. cbn [map fst snd]. rewrite <- !flag_bit by lia. reflexivity.
Qed.
Lemma uint8_written : forall k, is_byte k -> write_uint8 k = Ok [k].
Proof.
  intros k H. pose proof (wlist_uint8 [k]) as U. cbn [wlist] in U. rewrite wseq_nil_r in U.
  apply U. constructor; [exact H|constructor].
Qed.
Lemma stored_written : forall l bs, stored_options l bs -> (forall k, In k (map fst l) -> is_byte k) ->
  wlist write_kv l +++ write_uint8 0x64 = Ok bs.
Proof.
  induction 1 as [|k v e l bs E Hv S IH]; intros B; [reflexivity|].
  cbn [wlist]. rewrite wseq_assoc, IH by (intros; apply B; now right). unfold write_kv. cbn [fst snd]. rewrite E.
  rewrite uint8_written by (apply B; now left). reflexivity.
Qed.
Lemma option_names_distinct : forall l : list (Z * Z), NoDup (map fst l) ->
  (forall k, In k (map fst l) -> In k (map fst option_numbers)) ->
  NoDup (map (fun kv => get_or_str font_options (fst kv)) l).
Proof.
  induction l as [|[k v] l IH]; intros N K; [constructor|]. cbn [map fst] in *. inversion N as [|x m N1 N2]; subst.
  constructor; [|apply IH; [exact N2|intros; apply K; now right]].
  intros H. apply in_map_iff in H. destruct H as ([k' v'] & E & H). cbn [fst] in E.
  apply N1. replace k with k'; [change k' with (fst (k', v')); apply in_map, H|].
  assert (K1 : In k (map fst option_numbers)) by (apply K; now left).
  assert (K2 : In k' (map fst option_numbers)) by (apply K; right; change k' with (fst (k', v')); apply in_map, H).
  assert (A : forallb (fun a => forallb (fun b => (a =? b) || negb (str_eqb (get_or_str font_options a) (get_or_str font_options b)))
                                  (map fst option_numbers)) (map fst option_numbers) = true) by (vm_compute; reflexivity).
  rewrite forallb_forall in A. specialize (A _ K2). rewrite forallb_forall in A. specialize (A _ K1).
  rewrite E, str_eqb_refl in A. cbn in A. rewrite orb_false_r in A. apply Z.eqb_eq. exact A.
Qed.
Theorem C105_font_options : forall o c l bs, stored_options l bs -> NoDup (map fst l) ->
  (forall k, In k (map fst l) -> In k (map fst option_numbers)) ->
  cd_parse (table o) 1743 c bs =
    Ok (DFontOptions (map (fun kv => (option_name (fst kv), option_meaning (fst kv) (snd kv))) l)).
Proof.
  intros o c l bs S N K.
  assert (V : Forall kv_ok l).
  { apply Forall_forall. intros [k v] H. assert (In k (map fst l)) by (change k with (fst (k, v)); apply in_map, H).
    destruct (option_value k v (K _ H0)) as (_ & _ & B & B'). split; [exact B|split; [exact B'|]].
    clear -S H. cbn [snd]. induction S as [|k' v' e l bs E Hv S IH]; [destruct H|].
    destruct H as [H|H]; [injection H as -> ->; exact Hv|auto]. }
  assert (W : wlist write_kv l +++ write_uint8 0x64 = Ok bs).
  { apply stored_written; [exact S|]. intros k H. apply (option_value k 0 (K _ H)). }
  destruct (wrt_key_values l V) as (bs' & E & _ & R). rewrite W in E. apply Ok_inj in E. subst bs'.
  specialize (R []). rewrite app_nil_r in R.
  change (cd_parse (table o) 1743 c bs) with (run_parser (plain DFontOptions parse_font_options) bs).
  unfold run_parser, plain, parse_font_options, rbind. rewrite R. unfold ret at 1.
  unfold collect_options. rewrite collect_fresh by (apply option_names_distinct; assumption).
  cbn [app]. rewrite post_process_map.
  2: { rewrite map_map. apply option_names_distinct; assumption. }
  rewrite map_map. unfold ret. do 2 f_equal. apply map_ext_in. intros [k v] H. cbn [fst snd].
  assert (H0 : In k (map fst l)) by (change k with (fst (k, v)); apply in_map, H).
  destruct (option_value k v (K _ H0)) as (-> & -> & _). reflexivity.
Qed.
Print Assumptions C105_font_options.

(** ** Mapping mode, program version *)
Lemma one_value : forall A (f : Z -> rd A) v e rest, write_value v = Ok e -> int32 v ->
  rbind read_value f (e ++ rest) = f v rest.
Proof. intros A f v e rest E H. unfold rbind. rewrite (read_encoded _ _ _ E H). reflexivity. Qed.
Lemma one_byte : forall A (f : Z -> rd A) k rest, is_byte k -> rbind read_uint8 f (k :: rest) = f k rest.
Proof. intros A f k rest H. unfold rbind. rewrite uint8_cons by exact H. reflexivity. Qed.
Lemma no_turns : forall A B (r : rd A) (f : list A -> rd B) s, rbind (rrange 0 r) f s = f [] s.
Proof. reflexivity. Qed.
Lemma next_turn : forall (St A : Type) (body : St -> rd (St + A)) n st st' s s',
  body st s = ROk (inl st') s' -> rwhile (S n) body st s = rwhile n body st' s'.
Proof. intros St A body n st st' s s' E. cbn [rwhile]. unfold rbind. rewrite E. reflexivity. Qed.
Lemma last_turn : forall (St A : Type) (body : St -> rd (St + A)) n st x s s',
  body st s = ROk (inr x) s' -> rwhile (S n) body st s = ROk x s'.
Proof. intros St A body n st x s s' E. cbn [rwhile]. unfold rbind. rewrite E. reflexivity. Qed.
Ltac turn E H :=
  erewrite next_turn; [|rewrite one_byte by (unfold is_byte; lia); cbv beta;
    repeat match goal with |- context [Z.eqb (Zpos ?p) ?q] =>
      let b := eval vm_compute in (Z.eqb (Zpos p) q) in change (Z.eqb (Zpos p) q) with b end; cbv iota;
    rewrite (one_value _ _ _ _ _ E H); reflexivity].
Theorem C105_mapping_mode : forall o c m1 m2 m3 m4 e1 e2 e3 e4,
  int32 m1 -> int32 m2 -> int32 m3 -> int32 m4 ->
  write_value m1 = Ok e1 -> write_value m2 = Ok e2 -> write_value m3 = Ok e3 -> write_value m4 = Ok e4 ->
  cd_parse (table o) 1742 c (1 :: e1 ++ 2 :: e2 ++ 3 :: e3 ++ 4 :: e4 ++ [0]) =
    Ok (DMappingMode (MappingMode (mapping_mode_name m1) m2 m3 m4)).
Proof.
  intros o c m1 m2 m3 m4 e1 e2 e3 e4 H1 H2 H3 H4 E1 E2 E3 E4.
  change (cd_parse (table o) 1742 c (1 :: e1 ++ 2 :: e2 ++ 3 :: e3 ++ 4 :: e4 ++ [0])) with
    (run_parser (plain DMappingMode parse_mapping_mode) (1 :: e1 ++ 2 :: e2 ++ 3 :: e3 ++ 4 :: e4 ++ [0])).
  unfold run_parser, plain, rbind at 1, parse_mapping_mode, rloop.
  assert (L : exists n, length (1 :: e1 ++ 2 :: e2 ++ 3 :: e3 ++ 4 :: e4 ++ [0]) = (4 + n)%nat).
  { exists (length (1 :: e1 ++ 2 :: e2 ++ 3 :: e3 ++ 4 :: e4 ++ [0])%Z - 4)%nat.
    repeat (cbn [length]; rewrite ?app_length). lia. }
  destruct L as (n & ->). cbn [Nat.add].
  turn E1 H1. cbv beta iota. cbn [v_mode v_m2 v_m3 v_id].
  turn E2 H2. turn E3 H3. turn E4 H4.
  erewrite last_turn by (rewrite one_byte by (unfold is_byte; lia); reflexivity).
  unfold ret. do 3 f_equal. unfold mapping_mode_name, get_or_str, mapping_modes. cbn [aget].
  destruct (m1 =? 0); [reflexivity|]. destruct (m1 =? 1); [reflexivity|]. destruct (m1 =? 3); reflexivity.
Qed.
Print Assumptions C105_mapping_mode.
(** the platform is 0 or 1; the version is stored as a number of four bytes, the first of the version
    being the highest *)
Theorem C105_fl_version : forall o c p owner v1 v2 v3 v4 e1 e3,
  p = 0 \/ p = 1 -> int32 owner -> is_byte v1 -> is_byte v2 -> is_byte v3 -> is_byte v4 ->
  write_value p = Ok e1 -> write_value owner = Ok e3 ->
  cd_parse (table o) 10 c (1 :: e1 ++ [2; 255; v1; v2; v3; v4] ++ 3 :: e3 ++ [0]) =
    Ok (DFLVersion (FLVersion (if p =? 0 then py "windows" else py "macos") [v1; v2; v3; v4] owner)).
Proof.
  intros o c p owner v1 v2 v3 v4 e1 e3 Hp Ho B1 B2 B3 B4 E1 E3.
  assert (W : compile_fl_version (FLVersion (if p =? 0 then py "windows" else py "macos") [v1; v2; v3; v4] owner) =
              Ok (1 :: e1 ++ [2; 255; v1; v2; v3; v4] ++ 3 :: e3 ++ [0])).
  { unfold compile_fl_version. cbn [fv_platform fv_version fv_owner].
    replace (aget_res str_eqb (if p =? 0 then py "windows" else py "macos") platform_ids) with (Ok p)
      by (destruct Hp as [->| ->]; reflexivity).
    cbn [wlet]. rewrite E1, E3. cbn [length Nat.eqb wassert].
    rewrite !wlist_uint8 by (repeat (constructor; [assumption|]); constructor).
    reflexivity. }
  destruct (wrt_fl_version (FLVersion (if p =? 0 then py "windows" else py "macos") [v1; v2; v3; v4] owner)) as (bs & E & _ & R).
  { split; [cbn [fv_platform]; destruct Hp as [->| ->]; auto|]. split; [reflexivity|].
    split; [|exact Ho]. cbn [fv_version]. unfold uint8. unfold is_byte in *. repeat (constructor; [lia|]). constructor. }
  rewrite W in E. apply Ok_inj in E. subst bs. specialize (R []). rewrite app_nil_r in R.
  change (cd_parse (table o) 10 c (1 :: e1 ++ [2; 255; v1; v2; v3; v4] ++ 3 :: e3 ++ [0])) with
    (run_parser (plain DFLVersion parse_fl_version) (1 :: e1 ++ [2; 255; v1; v2; v3; v4] ++ 3 :: e3 ++ [0])).
  unfold run_parser, plain, rbind. rewrite R. reflexivity.
Qed.
Print Assumptions C105_fl_version.

(** ** Glyph classes: whatever follows, the number of the class gives the name; 0 is none *)
Theorem C105_gdef_class : forall o c k name e0 e rest d, In (k, name) gdef_classes ->
  write_value 0 = Ok e0 -> write_value k = Ok e ->
  cd_parse (table o) 2018 c (e0 ++ rest) = Ok (DGdef d) ->
  gd_class d = None /\
  cd_parse (table o) 2018 c (e ++ rest) =
    Ok (DGdef (Gdef (Some name) (gd_anchors d) (gd_carets d) (gd_ot_classes d))).
Proof.
  intros o c k name e0 e rest d K E0 E P.
  change (cd_parse (table o) 2018 c) with (run_parser (plain DGdef parse_gdef)) in *.
  assert (I : int32 k) by (unfold int32; cbn in K; decompose [or] K; try tauto; match goal with H : (_, _) = _ |- _ => injection H as <- _ end; lia).
  unfold run_parser, plain in *. unfold rbind at 1 in P. unfold rbind at 1. unfold parse_gdef in *.
  rewrite (one_value _ _ _ _ _ E0) in P by (unfold int32; lia). rewrite (one_value _ _ _ _ _ E I).
  assert (X0 : py_index gdef_class_names 0 = Ok (py "unassigned")) by reflexivity.
  assert (X : py_index gdef_class_names k = Ok name /\ str_eqb name (py "unassigned") = false).
  { cbn in K. decompose [or] K; try tauto; match goal with H : (_, _) = _ |- _ => injection H as <- <- end; split; reflexivity. }
  destruct X as (X & N). rewrite X0 in P. rewrite X. clear X X0 K E E0 I.
  unfold rlift in *. unfold rbind at 1 in P. unfold rbind at 1. unfold ret at 1 in P. unfold ret at 1.
  change (str_eqb (py "unassigned") (py "unassigned")) with true in P. rewrite N. cbv iota in *.
  unfold rbind, ret in *.
  destruct (read_value rest) as [n1 s1|]; [|discriminate].
  destruct (rrange n1 parse_gdef_anchor s1) as [l1 s2|]; [|discriminate].
  destruct (read_value s2) as [n2 s3|]; [|discriminate].
  destruct (rrange n2 read_pair s3) as [l2 s4|]; [|discriminate].
  destruct (read_value s4) as [n3 s5|]; [|discriminate].
  destruct (rrange n3 read_value s5) as [l3 s6|]; [|discriminate].
  destruct s6; [|discriminate]. apply Ok_inj in P. injection P as <-. split; reflexivity.
Qed.
Print Assumptions C105_gdef_class.

(** ** Hint masks and TrueType commands of a glyph *)
Lemma masks_read : forall l bs, stored_masks l bs -> forall l' rest,
  Forall2 (fun kv m => In (fst kv, fst m) hintmask_names /\ snd m = snd kv) l l' ->
  rrepeat (length l) read_hintmask (bs ++ rest) = ROk l' rest.
Proof.
  induction 1 as [|k v e l bs E H S IH]; intros l' rest F; inversion F as [|x m l1 l2 [Hm Hv] F']; subst; [reflexivity|].
  cbn [length rrepeat fst snd] in *. rewrite <- app_comm_cons, <- app_assoc.
  assert (R : read_hintmask (k :: e ++ bs ++ rest) = ROk m (bs ++ rest)).
  { unfold read_hintmask. rewrite one_byte.
    2: { unfold is_byte. cbn in Hm. decompose [or] Hm; try tauto; match goal with H : (_, _) = _ |- _ => injection H as <- _ end; lia. }
    rewrite (one_value _ _ _ _ _ E H).
    assert (A : aget_res Z.eqb k replace_types = Ok (fst m)).
    { cbn in Hm. decompose [or] Hm; try tauto; match goal with H : (_, _) = _ |- _ => injection H as <- <- end; reflexivity. }
    rewrite A. unfold rlift, rbind, ret. rewrite <- Hv. destruct m; reflexivity. }
  unfold rbind at 1. rewrite R. unfold rbind at 1. rewrite (IH _ _ F'). reflexivity.
Qed.
Theorem C105_hint_masks : forall o c l l' bs e, stored_masks l bs -> l <> [] ->
  write_value (Z.of_nat (length l)) = Ok e -> int32 (Z.of_nat (length l)) ->
  Forall2 (fun kv m => In (fst kv, fst m) hintmask_names /\ snd m = snd kv) l l' ->
  exists g, cd_parse (table o) 2001 c ([1; 9; 7; 1; 3; 139; 139] ++ e ++ bs ++ [15]) = Ok (DGlyph g) /\
    g_hints g = Some (MMHints [] [] (Some l')).
Proof.
  intros o c l l' bs e S N E I F.
  change (cd_parse (table o) 2001 c) with (run_parser (plain DGlyph (parse_glyph o))).
  exists (store_hints (MMHints [] [] (Some l')) empty_glyph_data).
  assert (N' : l' <> []) by (inversion F; subst; congruence).
  split; [|reflexivity].
  unfold run_parser, plain, parse_glyph, rbind at 1. unfold rbind at 1.
  change (read_bytes 4 ([1; 9; 7; 1; 3; 139; 139] ++ e ++ bs ++ [15])) with (ROk [1; 9; 7; 1] ([3; 139; 139] ++ e ++ bs ++ [15])).
  cbv iota beta. change (Nat.eqb (length [1; 9; 7; 1]) 4) with true. cbv iota. unfold rbind at 1. unfold ret at 1.
  unfold rloop. change ([3; 139; 139] ++ e ++ bs ++ [15]) with (3 :: [139] ++ [139] ++ e ++ bs ++ [15]).
  cbn [length app]. erewrite next_turn.
  2: { unfold glyph_turn. rewrite one_byte by (unfold is_byte; lia). cbn [Z.eqb Pos.eqb].
       unfold parse_hints, rbind at 1.
       change (139 :: 139 :: e ++ bs ++ [15]) with ([139] ++ [139] ++ e ++ bs ++ [15]).
       rewrite (one_value _ _ 0 [139]) by (reflexivity || (unfold int32; lia)).
       rewrite no_turns. rewrite (one_value _ _ 0 [139]) by (reflexivity || (unfold int32; lia)).
       rewrite no_turns, (one_value _ _ _ _ _ E I).
       unfold rrange. rewrite Nat2Z.id. unfold rbind at 1. rewrite (masks_read _ _ S _ [15] F).
       unfold ret. reflexivity. }
  erewrite last_turn by (unfold glyph_turn; rewrite one_byte by (unfold is_byte; lia); reflexivity).
  unfold ret. replace (some_if_any l') with (Some l') by (destruct l'; [congruence|reflexivity]). reflexivity.
Qed.
Print Assumptions C105_hint_masks.

Lemma values_read : forall vs bs, stored_values vs bs -> forall rest,
  rrepeat (length vs) read_value (bs ++ rest) = ROk vs rest.
Proof.
  induction 1 as [|v e l bs E H S IH]; intros rest; [reflexivity|]. cbn [length rrepeat]. rewrite <- app_assoc.
  rewrite (one_value _ _ _ _ _ E H). unfold rbind. rewrite IH. reflexivity.
Qed.
Lemma command_known : forall k name params, In (k, (name, params)) command_numbers ->
  is_byte k /\ aget_res Z.eqb k tt_commands = Ok (name, params).
Proof.
  intros k name params H. unfold command_numbers in H. cbv zeta in H. cbn [In] in H.
  repeat (destruct H as [H|H]; [injection H as <- <- <-; split; [unfold is_byte; lia|reflexivity]|]). destruct H.
Qed.
Lemma commands_read : forall l bs, stored_commands l bs -> exists is,
  Forall2 command_meaning l is /\ forall rest, rrepeat (length l) parse_instruction (bs ++ rest) = ROk is rest.
Proof.
  induction 1 as [|k name params vs e l bs K L V S (is & F & R)]; [exists []; split; [constructor|reflexivity]|].
  exists (Instruction name (combine params vs) :: is). split.
  - constructor; [|exact F]. exists name, params. auto.
  - intros rest. destruct (command_known _ _ _ K) as (B & A). cbn [length rrepeat].
    assert (X : parse_instruction ((k :: e ++ bs) ++ rest) = ROk (Instruction name (combine params vs)) (bs ++ rest)).
    { cbn [app]. unfold parse_instruction. rewrite one_byte by exact B. rewrite A. unfold rlift, rbind at 1, ret at 1.
      cbn [fst snd]. rewrite <- L. unfold rrange. rewrite Nat2Z.id, <- app_assoc. unfold rbind at 1.
      rewrite (values_read _ _ V). reflexivity. }
    unfold rbind at 1. rewrite X. unfold rbind. rewrite R. reflexivity.
Qed.
Theorem C105_commands : forall o c l bs first e0 e, stored_commands l bs -> l <> [] ->
  write_value (Z.of_nat (length l)) = Ok e -> int32 (Z.of_nat (length l)) ->
  write_value first = Ok e0 -> int32 first ->
  exists g is, cd_parse (table o) 2001 c ([1; 9; 7; 1; 10] ++ e0 ++ e ++ bs ++ [139; 139; 139; 15]) = Ok (DGlyph g) /\
    g_tth g = Some is /\ Forall2 command_meaning l is.
Proof.
  intros o c l bs first e0 e S N E I E0 I0. destruct (commands_read _ _ S) as (is & F & R).
  change (cd_parse (table o) 2001 c) with (run_parser (plain DGlyph (parse_glyph o))).
  exists (set_tth is empty_glyph_data), is.
  assert (N' : is <> []) by (inversion F; subst; congruence).
  split; [|split; [reflexivity|exact F]].
  unfold run_parser, plain, parse_glyph, rbind at 1. unfold rbind at 1.
  change (read_bytes 4 ([1; 9; 7; 1; 10] ++ e0 ++ e ++ bs ++ [139; 139; 139; 15])) with
    (ROk [1; 9; 7; 1] (10 :: e0 ++ e ++ bs ++ [139; 139; 139; 15])).
  cbv iota beta. change (Nat.eqb (length [1; 9; 7; 1]) 4) with true. cbv iota. unfold rbind at 1. unfold ret at 1.
  unfold rloop.
  assert (L : exists n, length (10 :: e0 ++ e ++ bs ++ [139; 139; 139; 15]) = Datatypes.S n) by (eexists; reflexivity).
  destruct L as (n & ->). erewrite next_turn.
  2: { unfold glyph_turn. rewrite one_byte by (unfold is_byte; lia). cbn [Z.eqb Pos.eqb].
       unfold parse_instructions, rbind at 1.
       rewrite (one_value _ _ _ _ _ E0 I0), (one_value _ _ _ _ _ E I).
       unfold rrange. rewrite Nat2Z.id. unfold rbind at 1. rewrite R.
       unfold rbind at 1. change [139; 139; 139; 15] with ([139; 139; 139] ++ [15]).
       assert (V : stored_values [0; 0; 0] [139; 139; 139]).
       { repeat (apply (values_next 0 [139]); [reflexivity|unfold int32; lia|]). constructor. }
       rewrite (values_read _ _ V [15] : rrepeat 3 read_value _ = _).
       unfold ret. reflexivity. }
  erewrite last_turn by (unfold glyph_turn; rewrite one_byte by (unfold is_byte; lia); reflexivity).
  unfold ret. destruct is; [congruence|reflexivity].
Qed.
Print Assumptions C105_commands.

(** ** Cases *)
Example C105_options_case : forall o c,
  cd_parse (table o) 1743 c [114; 140; 48; 247; 0; 2; 134; 100] =
    Ok (DFontOptions [(py "duplicate_place_y", OInt 1);
      (py "expand_kern_flags", ODict [(py "limit_action", 0); (py "limit_codepage", 0); (py "limit_cmap_10", 1);
         (py "limit_font_window", 1); (py "limit_count", 0); (py "limit_keep", 1); (py "apply_to_assistance", 0)]);
      (py "fit_descender", OInt (-5))]).
Proof.
  intros o c. rewrite (C105_font_options o c [(114, 1); (48, 108); (2, -5)]); [vm_compute; reflexivity| | |].
  - apply (stored_option 114 1 [140]); [reflexivity|unfold int32; lia|].
    apply (stored_option 48 108 [247; 0]); [reflexivity|unfold int32; lia|].
    apply (stored_option 2 (-5) [134]); [reflexivity|unfold int32; lia|]. constructor.
  - repeat constructor; cbn; intuition lia.
  - intros k. cbn. tauto.
Qed.
Example C105_bits_case : forall o c,
  cd_parse (table o) 2010 c [1; 0; 0; 96] =
    Ok (DPSOptions (PSOptions [(py "hint_replacement", 1); (py "horizontal_3_stem", 1)] [0])) /\
  cd_parse (table o) 1093 c [3; 0] = Ok (DPSOptions (PSOptions [(py "generate_flex", 1)] [1])) /\
  cd_parse (table o) 1744 c [6; 1] =
    Ok (DOptionList [SStr (py "use_default_opentype_export_options"); SStr (py "use_custom_cmap_encoding"); SInt 8]).
Proof. intros. repeat split; vm_compute; reflexivity. Qed.
Example C105_gdef_case : forall o c,
  cd_parse (table o) 2018 c [142; 139; 140; 149; 139; 139] =
    Ok (DGdef (Gdef (Some (py "mark")) None (Some [(10, 0)]) None)).
Proof.
  intros o c. refine (proj2 (C105_gdef_class o c 3 (py "mark") [139] [142] [139; 140; 149; 139; 139]
    (Gdef None None (Some [(10, 0)]) None) _ _ _ _)); try reflexivity. cbn; tauto.
Qed.
Example C105_masks_case : forall o c, exists g,
  cd_parse (table o) 2001 c [1; 9; 7; 1; 3; 139; 139; 141; 255; 142; 2; 139; 15] = Ok (DGlyph g) /\
  g_hints g = Some (MMHints [] [] (Some [(py "r", 3); (py "v", 0)])).
Proof.
  intros o c. apply (C105_hint_masks o c [(255, 3); (2, 0)] [(py "r", 3); (py "v", 0)] [255; 142; 2; 139] [141]);
    try reflexivity; try discriminate; [|unfold int32; cbn; lia|].
  - apply (masks_next 255 3 [142]); [reflexivity|unfold int32; lia|].
    apply (masks_next 2 0 [139]); [reflexivity|unfold int32; lia|]. constructor.
  - repeat constructor; cbn; tauto.
Qed.
Example C105_commands_case : forall o c, exists g is,
  cd_parse (table o) 2001 c [1; 9; 7; 1; 10; 139; 140; 5; 142; 143; 138; 139; 139; 139; 15] = Ok (DGlyph g) /\
  g_tth g = Some is /\ is = [Instruction (py "DoubleLinkH") [(py "pt1", 3); (py "pt2", 4); (py "stem", -1)]].
Proof. intros o c. do 2 eexists. split; [vm_compute; reflexivity|split; reflexivity]. Qed.
