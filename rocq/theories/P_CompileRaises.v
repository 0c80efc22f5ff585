(** Proofs for C108: the exceptions a writer can raise. *)
From Coq Require Import ZifyBool ZifyNat String.
From Verif Require Import Base M_Stream M_Helpers M_Text M_Py M_Simple M_Bitmap M_TrueType M_Glyph
  M_Float M_Options M_Container M_Table S_Raises S_CompileRaises Lib.
From Verif Require P_Simple.
Local Open Scope list_scope.

(** [wex P w]: the exceptions of [w] satisfy [P] *)
Definition wex (P : exn -> Prop) (w : wr) : Prop := forall x, w = Err x -> P x.
Definition rex' {A} (P : exn -> Prop) (r : res A) : Prop := forall x, r = Err x -> P x.

Section Wex.
  Variable P : exn -> Prop.
  Lemma wex_ok : forall b, wex P (Ok b).
  Proof. intros b x H. discriminate. Qed.
  Lemma wex_nil : wex P wnil.
  Proof. apply wex_ok. Qed.
  Lemma wex_err : forall e, P e -> wex P (Err e).
  Proof. intros e H x [= <-]. exact H. Qed.
  Lemma wex_bytes : forall b, wex P (write_bytes b).
  Proof. intros. apply wex_ok. Qed.
  Lemma wex_seq : forall a b, wex P a -> wex P b -> wex P (a +++ b).
  Proof.
    intros a b Ha Hb x H. unfold wseq in H. destruct a as [u|e]; [|injection H as <-; apply Ha; reflexivity].
    destruct b as [w|e]; [discriminate|injection H as <-; apply Hb; reflexivity].
  Qed.
  Lemma wex_list : forall A (w : A -> wr) l, (forall a, In a l -> wex P (w a)) -> wex P (wlist w l).
  Proof.
    intros A w l. induction l as [|a l IH]; intros H; cbn [wlist]; [apply wex_nil|].
    apply wex_seq; [apply H; left; reflexivity|apply IH; intros b Hb; apply H; right; exact Hb].
  Qed.
  Lemma wex_let : forall A (r : res A) k, rex' P r -> (forall a, r = Ok a -> wex P (k a)) -> wex P (wlet r k).
  Proof.
    intros A r k Hr Hk x H. unfold wlet in H. destruct r as [a|e]; [|injection H as <-; apply Hr; reflexivity].
    apply (Hk a eq_refl); exact H.
  Qed.
  Lemma wex_u : P OverflowError -> forall n v, wex P (to_bytes_u n v).
  Proof. intros H n v x E. unfold to_bytes_u in E. destruct (urange n v); congruence. Qed.
  Lemma wex_s : P OverflowError -> forall n v, wex P (to_bytes_s n v).
  Proof. intros H n v x E. unfold to_bytes_s in E. destruct (srange n v); congruence. Qed.
  Lemma wex_const : forall n v, urange n v = true -> wex P (to_bytes_u n v).
  Proof. intros n v H x E. unfold to_bytes_u in E. rewrite H in E. discriminate. Qed.
  Lemma wex_gen : P StructError -> forall s v, wex P (write_value_gen s v).
  Proof.
    intros H s v. unfold write_value_gen, write_value_long, pack_be_u, pack_be_s.
    destruct (_ && _); [|destruct (_ && _); [|destruct (_ && _); [|apply wex_seq; [|destruct s]]]];
      match goal with |- wex P (if ?b then _ else _) => destruct b; [apply wex_ok|apply wex_err; exact H] end.
  Qed.
  Lemma wex_value : P StructError -> forall v, wex P (write_value v).
  Proof. intros H v. apply wex_gen; exact H. Qed.
  Lemma wex_uvalue : P StructError -> forall v, wex P (write_uvalue v).
  Proof. intros H v. apply wex_gen; exact H. Qed.
  Lemma wex_long : P StructError -> forall s v, wex P (write_value_long s v).
  Proof.
    intros H s v. unfold write_value_long, pack_be_u, pack_be_s. apply wex_seq; [|destruct s];
      match goal with |- wex P (if ?b then _ else _) => destruct b; [apply wex_ok|apply wex_err; exact H] end.
  Qed.
  Lemma wex_double : P StructError -> forall v, wex P (write_double v).
  Proof. intros H v. unfold write_double, pack_le_u. destruct (urange 8 v); [apply wex_ok|apply wex_err; exact H]. Qed.
  Lemma wex_real : forall v, double_bits v -> wex P (write_double v).
  Proof.
    intros v H. unfold write_double, pack_le_u. replace (urange 8 v) with true; [apply wex_ok|].
    unfold double_bits in H. unfold urange, in_range. change (2 ^ (8 * Z.of_nat 8)) with (2 ^ 64). lia.
  Qed.
  Lemma wex_assert : P AssertionError -> forall b, wex P (wassert b).
  Proof. intros H [|]; [apply wex_nil|apply wex_err; exact H]. Qed.
  Lemma wex_if : forall (b : bool) u v, wex P u -> wex P v -> wex P (if b then u else v).
  Proof. intros [|]; auto. Qed.

  Lemma rex_codec : forall f e s, P e -> rex' P (map_codec f e s).
  Proof.
    intros f e s H. induction s as [|x s IH]; cbn [map_codec]; [discriminate|].
    destruct (f x); [|intros y [= <-]; exact H]. destruct (map_codec f e s) eqn:E; [discriminate|].
    intros y [= <-]. apply IH. reflexivity.
  Qed.
  Lemma rex_encode : P UnicodeEncodeError -> forall s, rex' P (cp1252_encode s).
  Proof. intros H s. apply rex_codec. exact H. Qed.
  Lemma rex_key : P KeyError -> forall K V eqb k (d : list (K * V)), rex' P (aget_res eqb k d).
  Proof. intros H K V eqb k d x. unfold aget_res. destruct (aget eqb k d); congruence. Qed.
  Lemma rex_opt : P KeyError -> forall A (d : option A), rex' P (opt_res d).
  Proof. intros H A [a|] x; cbn [opt_res]; congruence. Qed.
  Lemma rex_index : P IndexError -> forall A (l : list A) i, rex' P (py_index l i).
  Proof. intros H A l i x. unfold py_index. destruct (_ || _); [congruence|]. destruct (nth_error _ _); congruence. Qed.
  Lemma rex_then : forall A B (r : res A) (k : A -> res B), rex' P r -> (forall a, rex' P (k a)) -> rex' P (rthen r k).
  Proof. intros A B r k Hr Hk x. unfold rthen. destruct r as [a|e]; [apply Hk|]. intros [= <-]. apply Hr. reflexivity. Qed.
  Lemma rex_resmap : forall A B (f : A -> res B) l, (forall a, rex' P (f a)) -> rex' P (res_map f l).
  Proof.
    intros A B f l H. induction l as [|a l IH]; cbn [res_map]; [discriminate|]. apply rex_then; [apply H|].
    intros b x. unfold rmap. destruct (res_map f l); [discriminate|]. intros [= <-]. apply IH. reflexivity.
  Qed.
  Lemma rex_hex : P ValueError -> forall s, rex' P (deHexStr s).
  Proof.
    intros H. assert (X : forall n s, (length s <= n)%nat -> rex' P (deHexStr s)).
    { induction n as [|n IH]; intros s L; destruct s as [|c s]; [discriminate|cbn in L; lia|discriminate|].
      cbn [length] in L. cbn [deHexStr]. destruct (ascii_space c); [apply IH; lia|]. destruct s as [|d s]; [intros x [= <-]; exact H|].
      cbn [length] in L. destruct (hex_value c); [|intros x [= <-]; exact H]. destruct (hex_value d); [|intros x [= <-]; exact H].
      intros x. unfold rmap. specialize (IH s ltac:(lia)). destruct (deHexStr s); [discriminate|]. intros [= <-]. apply IH. reflexivity. }
    intros s. apply (X (length s)). lia.
  Qed.
  Lemma rex_int16 : P ValueError -> forall s, rex' P (int_base16 s).
  Proof.
    intros H s. unfold int_base16. destruct s as [|c s]; [intros x [= <-]; exact H|]. generalize (c :: s) as l, 0 as acc.
    induction l as [|d l IH]; intros acc; cbn [int16_from]; [discriminate|]. destruct (hexd d); [apply IH|intros x [= <-]; exact H].
  Qed.
  Lemma rex_bits : forall l, Forall (Z.le 0) l -> rex' P (intListToBinary l).
  Proof.
    intros l. unfold intListToBinary. generalize 0 at 2 as acc. induction l as [|b l IH]; intros acc H; cbn [intListToBinary_from]; [discriminate|].
    inversion H; subst. replace (b <? 0) with false by lia. apply IH; assumption.
  Qed.
  Lemma rex_to_int : P OverflowError -> P ValueError -> forall pick x, rex' P (float_to_int pick x).
  Proof. intros HO HV pick x y. unfold float_to_int. destruct x; congruence. Qed.
  Lemma rex_find : P ValueError -> forall x l i, rex' P (py_find x l i).
  Proof. intros H x. induction l as [|y l IH]; intros i; cbn [py_find]; [intros z [= <-]; exact H|]. destruct (str_eqb x y); [discriminate|apply IH]. Qed.

  Lemma wex_str_pad : P UnicodeEncodeError -> forall n s, wex P (write_str_pad n s).
  Proof.
    intros H n s x. unfold write_str_pad, rmap. pose proof (rex_encode H s) as R. destruct (cp1252_encode s); [discriminate|].
    intros [= <-]. apply R. reflexivity.
  Qed.
  Lemma wex_str_len : P UnicodeEncodeError -> P StructError -> forall s, wex P (write_str_with_len s).
  Proof.
    intros H HS s. unfold write_str_with_len. pose proof (rex_encode H s) as R. destruct (cp1252_encode s); [|apply wex_err, R; reflexivity].
    apply wex_seq; [apply wex_value; exact HS|apply wex_bytes].
  Qed.
End Wex.

(** one step through a writer; what is left are the exceptions and the lists *)
Ltac wstep :=
  match goal with
  | |- wex _ (Ok _) => apply wex_ok
  | |- wex _ wnil => apply wex_nil
  | |- wex _ (Err _) => apply wex_err
  | |- wex _ (write_bytes _) => apply wex_bytes
  | |- wex _ (wseq _ _) => apply wex_seq
  | |- wex _ (wlist _ _) => apply wex_list; intros ? ?
  | |- wex _ (wlet _ _) => apply wex_let; [|intros ? ?]
  | |- wex _ (write_value _) => apply wex_value
  | |- wex _ (write_uvalue _) => apply wex_uvalue
  | |- wex _ (write_value_long _ _) => apply wex_long
  | |- wex _ (write_uint8 ?n) => first [apply (wex_const _ 1%nat n); reflexivity | apply wex_u]
  | |- wex _ (write_uint16 _) => apply wex_u
  | |- wex _ (write_uint32 _) => apply wex_u
  | |- wex _ (write_int8 _) => apply wex_s
  | |- wex _ (write_int16 _) => apply wex_s
  | |- wex _ (write_int32 _) => apply wex_s
  | |- wex _ (to_bytes_u _ _) => apply wex_u
  | |- wex _ (write_double _) => first [apply wex_double; (cbn; tauto) | apply wex_real]
  | |- wex _ (wassert _) => apply wex_assert
  | |- wex _ (write_str_pad _ _) => apply wex_str_pad
  | |- wex _ (write_str _) => apply wex_str_pad
  | |- wex _ (write_str_with_len _) => apply wex_str_len
  | |- wex _ (if _ then _ else _) => apply wex_if
  | |- wex _ (let '(_, _) := ?x in _) => destruct x
  | |- wex _ (match ?x with _ => _ end) => destruct x
  | |- rex' _ (cp1252_encode _) => apply rex_encode
  | |- rex' _ (aget_res _ _ _) => apply rex_key
  | |- rex' _ (opt_res _) => apply rex_opt
  | |- rex' _ (py_index _ _) => apply rex_index
  | |- rex' _ (rthen _ _) => apply rex_then; [|intros ?]
  | |- rex' _ (res_map _ _) => apply rex_resmap; intros ?
  | |- rex' _ (deHexStr _) => apply rex_hex
  | |- rex' _ (int_base16 _) => apply rex_int16
  | |- rex' _ (intListToBinary _) => apply rex_bits
  | |- rex' _ (py_round _) => apply rex_to_int
  | |- rex' _ (py_int _) => apply rex_to_int
  | |- rex' _ (py_find _ _ _) => apply rex_find
  | |- rex' _ (Ok _) => discriminate
  | |- rex' _ (if _ then _ else _) => match goal with |- rex' _ (if ?b then _ else _) => destruct b end
  | |- rex' _ (match ?x with _ => _ end) => destruct x
  | |- rex' _ (Err _) => intros ? [= <-]
  end.
Ltac wx := repeat wstep; try (cbn; tauto).

(** ** Outlines and glyphs *)
Section Parts.
  Variable P : exn -> Prop.
  Hypothesis HS : P StructError.
  Hypothesis HI : P IndexError.
  Lemma wex_pair : forall p, wex P (M_Glyph.write_pair p).
  Proof. intros p. unfold M_Glyph.write_pair. wx; exact HS. Qed.
  Lemma wex_nodes : P OverflowError -> forall n nodes ref, wex P (write_nodes n ref nodes).
  Proof.
    intros HO n. induction nodes as [|a nodes IH]; intros ref; cbn [write_nodes]; [apply wex_nil|].
    apply wex_seq; [apply wex_u; exact HO|]. apply wex_let.
    - unfold node_rows, node_row. wx; exact HI.
    - intros rows _. apply wex_seq; [|apply IH]. clear - HS. revert ref. induction rows as [|r rows IH]; intros ref; cbn [write_rows]; [apply wex_nil|].
      apply wex_seq; [|apply IH]. unfold write_row. apply wex_list. intros p _. apply wex_pair.
  Qed.
  Lemma wex_outlines : P OverflowError -> forall n nodes, wex P (compile_outlines n nodes).
  Proof.
    intros HO n nodes. unfold compile_outlines. apply wex_seq; [apply wex_value; exact HS|].
    destruct nodes as [[|a l]|]; wx; try exact HS. apply wex_nodes. exact HO.
  Qed.
  Variable o : oracles.
  Hypothesis Hs : forall a e, o_slope o a = Err e -> P e.
  Lemma wex_guides : forall n d, wex P (compile_guides o (Some n) d).
  Proof.
    intros n d. unfold compile_guides, with_vfb, compile_guide. wx; try exact HS; try exact HI; intros e E; eapply Hs; exact E.
  Qed.
  Hypothesis Hb : forall l e, o_bytecode o l = Err e -> P e.
  Hypothesis HK : P KeyError.
  Hypothesis HO : P OverflowError.
  Hypothesis HU : P UnicodeEncodeError.
  Lemma wex_imported : forall i, wex P (compile_imported o i).
  Proof.
    assert (N : forall l p, wex P (write_binary_nodes p l)).
    { induction l as [|b l IH]; intros p; cbn [write_binary_nodes]; [apply wex_nil|]. apply wex_seq; [apply wex_pair|]. wx. apply IH. }
    intros i. unfold compile_imported. wx; try exact HS; try exact HK; try exact HO; try apply N. intros e E. eapply Hb; exact E.
  Qed.
  Lemma wex_glyph : forall n g, wex P (compile_glyph o (Some n) g).
  Proof.
    intros n g. unfold compile_glyph. apply wex_seq; [apply wex_bytes|]. destruct (g_num_masters g) as [m|]; [|apply wex_err; exact HK].
    repeat match goal with |- wex _ (wseq _ _) => apply wex_seq end.
    - unfold compile_glyph_name. wx; try exact HU; exact HS.
    - wx.
    - apply wex_outlines. exact HO.
    - unfold compile_metrics. wx; try exact HI; apply wex_pair.
    - unfold compile_hints, compile_hint_dir, compile_hintmask. wx; try exact HS; try exact HI; try exact HK; try exact HO; apply wex_pair.
    - unfold compile_glyph_guides. destruct (g_guides g); [|apply wex_nil]. apply wex_seq; [wx|apply wex_guides].
    - unfold compile_components, compile_component. destruct (g_components g) as [[|c l]|]; try apply wex_nil.
      apply wex_seq; [wx|]. apply wex_seq; [wx; exact HS|]. apply wex_list. intros a _. apply wex_seq; [wx; exact HS|].
      apply wex_list. intros j _. repeat apply wex_seq; (apply wex_let; [apply rex_index; exact HI|intros ? _]);
        solve [apply wex_value; exact HS | apply wex_double; exact HS].
    - unfold compile_kerning. wx; exact HS.
    - unfold compile_binary. destruct (g_imported g) as [[me k nd ins h]|]; [|apply wex_nil].
      destruct me, k, nd, ins, h; try apply wex_imported; apply wex_nil.
    - unfold compile_tth. destruct (g_tth g) as [[|a l]|]; try apply wex_nil. apply wex_seq; [wx|]. apply wex_let.
      + change (wex P (compile_instructions (a :: l))). unfold compile_instructions, compile_instruction. wx; try exact HS; try exact HK; exact HO.
      + intros b _. wx.
    - wx.
  Qed.
End Parts.

(** ** The table *)
Lemma plain_form : forall A (inj : A -> value) r data v0, run_parser (plain inj r) data = Ok v0 -> exists a, v0 = inj a.
Proof.
  intros A inj r data v0 H. unfold run_parser, plain, rbind in H. destruct (r data) as [a s|e s]; [|discriminate].
  destruct s; [|discriminate]. injection H as <-. eauto.
Qed.

(** TrueType info *)
Section TT.
  Variable P : exn -> Prop.
  Hypothesis HS : P StructError.
  Hypothesis HO : P OverflowError.
  Hypothesis HK : P KeyError.
  Hypothesis HA : P AssertionError.
  Lemma aget_in : forall V k (d : list (pystr * V)) v, aget str_eqb k d = Some v -> In (k, v) d.
  Proof.
    intros V k d v. induction d as [|[k' v'] d IH]; cbn [aget]; [discriminate|]. destruct (str_eqb k k') eqn:E.
    - intros [= ->]. apply str_eqb_eq in E. subst. left. reflexivity.
    - intros H. right. apply IH. exact H.
  Qed.
  Lemma tt_get : forall d k v, Forall tt_member d -> aget str_eqb k d = Some v -> tt_member (k, v).
  Proof. intros d k v F H. apply aget_in in H. rewrite Forall_forall in F. exact (F _ H). Qed.
  Definition int_keys : list Z :=
    [0x33; 0x34; 0x35; 0x36; 0x37; 0x38; 0x3A; 0x3B; 0x3C; 0x56; 0x57; 0x3D; 0x3E; 0x3F; 0x40; 0x41; 0x42; 0x43; 0x44; 0x45; 0x46; 0x47;
     0x48; 0x49; 0x4A; 0x4B; 0x4D; 0x4E; 0x4F; 0x50; 0x51; 0x52; 0x5C].
  Lemma int_member : forall d k v, In k int_keys -> Forall tt_member d -> aget str_eqb (tt_key k) d = Some v -> exists n, v = VInt n.
  Proof.
    intros d k v I F H. pose proof (tt_get _ _ _ F H) as M. clear F H.
    repeat (destruct I as [<-|I]; [destruct v; cbn in M; try destruct M; eexists; reflexivity|]). destruct I.
  Qed.
  Lemma wex_required : forall d k, In k int_keys -> Forall tt_member d -> wex P (tt_write_required d k).
  Proof.
    intros d k I F. unfold tt_write_required. apply wex_seq; [apply wex_u; exact HO|]. apply wex_let; [apply rex_key; exact HK|].
    intros v E. unfold aget_res in E. destruct (aget str_eqb (tt_key k) d) as [u|] eqn:G; [|discriminate]. injection E as <-.
    destruct (int_member _ _ _ I F G) as (n & ->). apply wex_value. exact HS.
  Qed.
  Lemma wex_exists : forall d k, In k int_keys -> Forall tt_member d -> wex P (write_if_exists d k).
  Proof.
    intros d k I F. unfold write_if_exists. destruct (aget str_eqb (tt_key k) d) as [u|] eqn:G; [|apply wex_nil].
    destruct (int_member _ _ _ I F G) as (n & ->). apply wex_seq; [apply wex_u; exact HO|apply wex_value; exact HS].
  Qed.
  Lemma list_member : forall d k v, In k [0x4C; 0x53; 0x58] -> Forall tt_member d -> aget str_eqb (tt_key k) d = Some v -> exists l, v = VList l.
  Proof.
    intros d k v I F H. pose proof (tt_get _ _ _ F H) as M. clear F H.
    repeat (destruct I as [<-|I]; [destruct v; cbn in M; try destruct M; eexists; reflexivity|]). destruct I.
  Qed.
  Lemma wex_tt : forall d, Forall tt_member d -> wex P (compile_tt_info d).
  Proof.
    intros d F. assert (K : forall l, forallb (fun k => existsb (Z.eqb k) int_keys) l = true -> forall k, In k l -> In k int_keys).
    { intros l H k I. rewrite forallb_forall in H. specialize (H k I). apply existsb_exists in H. destruct H as (j & Ij & E). apply Z.eqb_eq in E. congruence. }
    assert (X : forall l, forallb (fun k => existsb (Z.eqb k) int_keys) l = true -> wex P (wlist (write_if_exists d) l)).
    { intros l H. apply wex_list. intros k I. apply wex_exists; [exact (K l H k I)|exact F]. }
    unfold compile_tt_info.
    apply wex_seq; [apply wex_list; intros k I; apply wex_required; [revert k I; apply K; reflexivity|exact F]|].
    apply wex_seq.
    { apply wex_let; [|intros; wx]. unfold convert_flags_options_to_int. intros x. unfold rthen at 1, aget_res.
      destruct (aget str_eqb (py "head_flags") d) as [h|] eqn:G; [|congruence]. pose proof (tt_get _ _ _ F G) as M.
      destruct h as [v|flags options|l|r1 r2]; try congruence. cbn in M. unfold rthen.
      pose proof (rex_bits P flags M) as R. destruct (intListToBinary flags) as [n|e]; [|intros [= <-]; apply R; reflexivity].
      destruct options as [|a options]; [discriminate|]. set (bits := map fst _).
      assert (Fb : Forall (Z.le 0) bits).
      { unfold bits. apply Forall_forall. intros b Hb. apply in_map_iff in Hb. destruct Hb as ((b' & n') & <- & Hb). apply filter_In in Hb. destruct Hb as [Hb _].
        cbn [tt_settings In] in Hb. cbn [fst]. repeat (destruct Hb as [[= <- _]|Hb]; [lia|]). destruct Hb. }
      pose proof (rex_bits P bits Fb) as R'. unfold rmap. destruct (intListToBinary bits) as [m|e]; [discriminate|]. intros [= <-]. apply R'. reflexivity. }
    do 3 (apply wex_seq; [apply X; reflexivity|]).
    apply wex_seq.
    { unfold aget_res. destruct (aget str_eqb (tt_key 0x4C) d) as [v|] eqn:G; [|apply wex_err; exact HK].
      destruct (list_member _ _ _ ltac:(cbn; tauto) F G) as (l & ->). cbn [wlet tt_list]. wx. }
    apply wex_seq; [apply X; reflexivity|].
    apply wex_seq.
    { apply wex_list. intros k I. unfold tt_write_hdmx. destruct (aget str_eqb (tt_key k) d) as [v|] eqn:G; [|apply wex_nil].
      assert (I' : In k [0x4C; 0x53; 0x58]) by (cbn in I |- *; tauto).
      destruct (list_member _ _ _ I' F G) as (l & ->). cbn [wlet tt_list]. wx. }
    apply wex_seq; [|wx].
    unfold aget_res. destruct (aget str_eqb (tt_key 0x54) d) as [v|] eqn:G; [|apply wex_err; exact HK].
    pose proof (tt_get _ _ _ F G) as M. destruct v; cbn in M; try destruct M. cbn [wlet]. wx.
  Qed.
End TT.
