(** Proofs for C104: the exceptions a reader can raise. *)
From Coq Require Import ZifyBool ZifyNat String.
From Verif Require Import Base M_Stream M_Helpers M_Text M_Py M_Simple M_Bitmap M_TrueType M_Glyph
  M_Float M_Options M_Container M_Table S_Raises Lib P_Stream P_Text P_Loop.
Local Open Scope list_scope.
Open Scope rd_scope.

(** ** [rex L r]: [r] raises nothing but the exceptions of [L] (or does not come to an end) *)
Definition rex {A} (L : list exn) (r : rd A) : Prop :=
  forall s x s', r s = RErr x s' -> In x L \/ x = Diverge.

Lemma rex_ret : forall A L (a : A), rex L (ret a).
Proof. intros A L a s x s' E. discriminate. Qed.
Lemma rex_raise : forall A L e, In e L \/ e = Diverge -> rex L (rraise (A:=A) e).
Proof. intros A L e H s x s' E. inversion E; subst. exact H. Qed.
Lemma rex_bind : forall A B L (r : rd A) (k : A -> rd B),
  rex L r -> (forall a, rex L (k a)) -> rex L (rbind r k).
Proof.
  intros A B L r k Hr Hk s x s' E. unfold rbind in E. destruct (r s) as [a s1|e s1] eqn:E1.
  - eapply Hk; eauto.
  - inversion E; subst. eapply Hr; eauto.
Qed.
Lemma rex_bytes : forall L n, rex L (read_bytes n).
Proof. intros L n s x s' E. discriminate. Qed.
Lemma rex_all : forall L, rex L read_all.
Proof. intros L s x s' E. discriminate. Qed.
Lemma rex_lift : forall A L (r : res A), (forall e, r = Err e -> In e L \/ e = Diverge) -> rex L (rlift r).
Proof. intros A L [a|e] H s x s' E; inversion E; subst. apply H. reflexivity. Qed.
Lemma rex_if : forall A L (b : bool) (r1 r2 : rd A), rex L r1 -> rex L r2 -> rex L (if b then r1 else r2).
Proof. intros. destruct b; auto. Qed.
Lemma rex_repeat : forall A L n (r : rd A), rex L r -> rex L (rrepeat n r).
Proof.
  induction n as [|n IH]; intros r H; cbn [rrepeat]; [apply rex_ret|].
  apply rex_bind; [exact H|]. intros a. apply rex_bind; [apply IH; exact H|]. intros l. apply rex_ret.
Qed.
Lemma rex_range : forall A L n (r : rd A), rex L r -> rex L (rrange n r).
Proof. intros. apply rex_repeat. auto. Qed.
Lemma rex_times : forall St L n (f : St -> rd St) st, (forall st, rex L (f st)) -> rex L (rtimes n f st).
Proof.
  induction n as [|n IH]; intros f st H; cbn [rtimes]; [apply rex_ret|]. apply rex_bind; auto.
Qed.
Lemma rex_foldM : forall A St L (f : St -> A -> rd St) l st,
  (forall st x, rex L (f st x)) -> rex L (rfoldM f st l).
Proof.
  induction l as [|x l IH]; intros st H; cbn [rfoldM]; [apply rex_ret|]. apply rex_bind; auto.
Qed.
Lemma rex_while : forall St A L n (body : St -> rd (St + A)) st,
  (forall st, rex L (body st)) -> rex L (rwhile n body st).
Proof.
  induction n as [|n IH]; intros body st H; cbn [rwhile]; [apply rex_raise; right; reflexivity|].
  apply rex_bind; [apply H|]. intros [st'|a]; [apply IH; exact H|apply rex_ret].
Qed.
Lemma rex_loop : forall St A L (body : St -> rd (St + A)) st,
  (forall st, rex L (body st)) -> rex L (rloop body st).
Proof. intros St A L body st H s. apply rex_while. exact H. Qed.
(** [except EOFError] takes that exception away *)
Lemma rex_eof : forall A L (r h : rd A), rex (EOFError :: L) r -> rex L h -> rex L (rtry r (on_eof h)).
Proof.
  intros A L r h Hr Hh s x s' E. unfold rtry in E. destruct (r s) as [a s1|e s1] eqn:E1; [discriminate|].
  destruct (Hr _ _ _ E1) as [[<-|Hi]|Hd].
  - cbn [on_eof] in E. eapply Hh; eauto.
  - destruct e; cbn [on_eof] in E; try (inversion E; subst; left; assumption). eapply Hh; eauto.
  - subst e. cbn [on_eof] in E. inversion E. right. reflexivity.
Qed.
Lemma rex_assert : forall L b, In AssertionError L -> rex L (M_Py.rassert b).
Proof. intros L [] H; cbn; [apply rex_ret|apply rex_raise; left; exact H]. Qed.

Lemma in_value : forall L, In EOFError L -> In ValueError L -> forall sg, rex L (read_value_gen sg).
Proof.
  intros L He Hv sg. unfold read_value_gen. apply rex_bind; [apply rex_bytes|]. intros b.
  repeat (apply rex_if || apply rex_ret || (apply rex_raise; left; assumption) ||
          (apply rex_bind; [apply rex_bytes|intros])).
Qed.
Lemma rex_value : forall L, In EOFError L -> In ValueError L -> rex L read_value.
Proof. intros. apply in_value; assumption. Qed.
Lemma rex_uvalue : forall L, In EOFError L -> In ValueError L -> rex L read_uvalue.
Proof. intros. apply in_value; assumption. Qed.
Lemma rex_decode : forall L b, In UnicodeDecodeError L -> rex L (rlift (cp1252_decode b)).
Proof. intros L b H. apply rex_lift. intros e E. apply map_codec_err in E. subst. left. exact H. Qed.
Lemma rex_str : forall L n, In UnicodeDecodeError L -> rex L (read_str n).
Proof.
  intros L n H. unfold read_str. apply rex_if; [apply rex_ret|]. apply rex_bind; [apply rex_bytes|].
  intros b. apply rex_decode, H.
Qed.
Lemma rex_str_with_len : forall L, In EOFError L -> In ValueError L -> In UnicodeDecodeError L ->
  rex L read_str_with_len.
Proof. intros. apply rex_bind; [apply rex_uvalue; assumption|]. intros n. apply rex_str. assumption. Qed.
Lemma rex_str_all : forall L, In UnicodeDecodeError L -> rex L read_str_all.
Proof. intros. apply rex_bind; [apply rex_all|]. intros b. apply rex_decode. assumption. Qed.
Lemma rex_double : forall L, In StructError L -> rex L read_double.
Proof.
  intros L H. apply rex_bind; [apply rex_bytes|]. intros b.
  apply rex_if; [apply rex_ret|apply rex_raise; left; exact H].
Qed.
Lemma rex_doubles : forall L n, In StructError L -> rex L (read_doubles n).
Proof.
  intros L n H. apply rex_bind; [apply rex_bytes|]. intros b.
  apply rex_if; [apply rex_ret|apply rex_raise; left; exact H].
Qed.
Lemma rex_bits : forall L v n, rex L (rlift (binaryToIntList v n)).
Proof.
  intros L v n. apply rex_lift. unfold binaryToIntList. generalize (S (S (Z.to_nat (Z.log2 v)))) as f.
  intros f. revert v n. induction f as [|f IH]; intros v n e E; cbn [binaryToIntList_loop] in E.
  - inversion E. right. reflexivity.
  - destruct (v =? 0); [discriminate|].
    destruct (binaryToIntList_loop f (Z.shiftr v 1) (n + 1)) as [l|e'] eqn:E1; [discriminate|].
    inversion E; subst. eapply IH; eauto.
Qed.
Lemma rex_aget : forall K V L eqb (k : K) (t : list (K * V)), In KeyError L -> rex L (rlift (aget_res eqb k t)).
Proof.
  intros K V L eqb k t H. apply rex_lift. intros e E. unfold aget_res in E.
  destruct (aget eqb k t); [discriminate|]. inversion E. left. exact H.
Qed.

Ltac in_auto := cbn [In]; tauto.
Ltac rex_step :=
  match goal with
  | |- rex _ (rloop _ _) => apply rex_loop; intros
  | |- rex _ (rbind _ _) => apply rex_bind; [|intros]
  | |- rex _ (ret _) => apply rex_ret
  | |- rex _ (rraise _) => apply rex_raise; left; in_auto
  | |- rex _ read_value => apply rex_value; in_auto
  | |- rex _ read_uvalue => apply rex_uvalue; in_auto
  | |- rex _ read_int8 => apply rex_bind; [apply rex_bytes|intros; apply rex_ret]
  | |- rex _ read_int16 => apply rex_bind; [apply rex_bytes|intros; apply rex_ret]
  | |- rex _ read_int32 => apply rex_bind; [apply rex_bytes|intros; apply rex_ret]
  | |- rex _ read_uint8 => apply rex_bind; [apply rex_bytes|intros; apply rex_ret]
  | |- rex _ read_uint16 => apply rex_bind; [apply rex_bytes|intros; apply rex_ret]
  | |- rex _ read_uint32 => apply rex_bind; [apply rex_bytes|intros; apply rex_ret]
  | |- rex _ read_double => apply rex_double; in_auto
  | |- rex _ (read_doubles _) => apply rex_doubles; in_auto
  | |- rex _ (read_str _) => apply rex_str; in_auto
  | |- rex _ read_str_with_len => apply rex_str_with_len; in_auto
  | |- rex _ read_str_all => apply rex_str_all; in_auto
  | |- rex _ (read_bytes _) => apply rex_bytes
  | |- rex _ read_all => apply rex_all
  | |- rex _ (rlift (binaryToIntList _ _)) => apply rex_bits
  | |- rex _ (rlift (aget_res _ _ _)) => apply rex_aget; in_auto
  | |- rex _ (rlift (cp1252_decode _)) => apply rex_decode; in_auto
  | |- rex _ (rrepeat _ _) => apply rex_repeat
  | |- rex _ (rrange _ _) => apply rex_range
  | |- rex _ (rtimes _ _ _) => apply rex_times; intros
  | |- rex _ (rfoldM _ _ _) => apply rex_foldM; intros
  | |- rex _ (M_Py.rassert _) => apply rex_assert; in_auto
  | |- rex _ (rtry _ (on_eof _)) => apply rex_eof
  | |- rex _ (if _ then _ else _) => apply rex_if
  | |- rex _ (let (_, _) := ?p in _) => destruct p
  | |- rex _ (match ?x with _ => _ end) => destruct x
  end.
Ltac rex_auto := repeat rex_step.

(** ** The parsers *)
(** numbers of fixed size: a short read gives fewer bytes; the lists have room for their numbers *)
Lemma rex_doubles_fit : forall n s, (8 * n <= length s)%nat -> exists l s', rrepeat n read_double s = ROk l s'.
Proof.
  induction n as [|n IH]; intros s H; cbn [rrepeat]; [exists [], s; reflexivity|].
  unfold rbind at 1. unfold read_double at 1, rbind at 1, read_bytes.
  assert (L : (length (take 8 s) = 8)%nat) by (unfold take; cbn; rewrite firstn_length; lia).
  rewrite L. cbn [Z.of_nat Pos.of_succ_nat Pos.succ Z.eqb Pos.eqb ret]. unfold ret at 1.
  destruct (IH (drop 8 s)) as (l & s' & E).
  { unfold drop; cbn. rewrite skipn_length. lia. }
  unfold rbind. rewrite E. eexists _, _. reflexivity.
Qed.
Lemma rex_parse_doubles : forall L, rex L parse_doubles.
Proof.
  intros L s x s' E. unfold parse_doubles, rrange in E.
  destruct (rex_doubles_fit (Z.to_nat (Z.of_nat (length s) / 8)) s) as (l & s1 & E1); [|congruence].
  pose proof (Z.mul_div_le (Z.of_nat (length s)) 8 eq_refl). lia.
Qed.
Lemma rex_pairs_fit : forall n s, (16 * n <= length s)%nat ->
  exists l s', rrepeat n read_double_pair s = ROk l s'.
Proof.
  induction n as [|n IH]; intros s H; cbn [rrepeat]; [exists [], s; reflexivity|].
  unfold rbind at 1. unfold read_double_pair at 1.
  assert (D : forall t, (8 <= length t)%nat -> read_double t = ROk (le_dec (firstn 8 t)) (skipn 8 t)).
  { intros t Ht. unfold read_double, rbind, read_bytes.
    assert (L : (length (take 8 t) = 8)%nat) by (unfold take; cbn; rewrite firstn_length; lia).
    rewrite L. reflexivity. }
  unfold rbind at 1. rewrite D by lia. unfold rbind at 1. rewrite D by (rewrite skipn_length; lia).
  unfold ret at 1. destruct (IH (skipn 8 (skipn 8 s))) as (l & s' & E).
  { rewrite !skipn_length. lia. }
  unfold rbind. rewrite E. eexists _, _. reflexivity.
Qed.
Lemma rex_axis_mappings : forall L, rex L parse_axis_mappings.
Proof.
  intros L s x s' E. unfold parse_axis_mappings, rrange in E.
  destruct (rex_pairs_fit (Z.to_nat (Z.of_nat (length s) / 16)) s) as (l & s1 & E1); [|congruence].
  pose proof (Z.mul_div_le (Z.of_nat (length s)) 16 eq_refl). lia.
Qed.
Lemma rex_int_list : forall L, rex L parse_int_list.
Proof. intros L s. apply (rex_range _ L _ read_uint32). rex_auto. Qed.
Lemma rex_unicodes : forall L, rex L parse_unicodes.
Proof. intros L s. apply (rex_range _ L _ read_uint16). rex_auto. Qed.
Lemma rex_unicodes_supp : forall L, rex L parse_unicodes_supp.
Proof. intros L s. apply (rex_range _ L _ read_uint32). rex_auto. Qed.
Lemma rex_panose : forall L, In StructError L -> rex L parse_panose.
Proof. intros L H. unfold parse_panose. rex_auto. Qed.
Lemma rex_gasp : forall L, In StructError L -> rex L parse_gasp.
Proof.
  intros L H. unfold parse_gasp. rex_auto. apply rex_lift. intros e.
  assert (G : forall n b, (length b <= n)%nat -> unpack_H b = Err e -> e = StructError).
  { induction n as [|n IH]; intros [|x [|y b]] Hn E; cbn [unpack_H length] in *; try congruence; try lia.
    destruct (unpack_H b) eqn:E1; cbn [rmap] in E; [discriminate|]. inversion E; subst.
    apply (IH b); [lia|exact E1]. }
  intros E. left. rewrite (G (length a) a); auto.
Qed.
Lemma rex_split : forall L n d, In ValueError L -> rex L (rlift (split_rows n d)).
Proof.
  intros L n d H. apply rex_lift. intros e E. unfold split_rows in E.
  destruct (n =? 0); [inversion E; left; exact H|]. destruct (n <? 0); discriminate.
Qed.
Lemma rex_bitmap_from : forall L f n, rex L (read_bitmap_from f n).
Proof.
  induction f as [|f IH]; intros n; cbn [read_bitmap_from].
  - apply rex_if; [apply rex_raise; right; reflexivity|apply rex_ret].
  - rex_auto; apply IH.
Qed.
Lemma rex_bitmap_data : forall L win w n, In ValueError L -> rex L (parse_bitmap_data win w n).
Proof.
  intros L win w n H. unfold parse_bitmap_data, read_bitmap. rex_auto; [apply rex_bitmap_from|].
  apply rex_split, H.
Qed.
Lemma rex_path : forall L n, In ValueError L -> rex L (rlift (path_command n)).
Proof.
  intros L n H. apply rex_lift. intros e E. unfold path_command in E.
  repeat match type of E with (if ?b then _ else _) = _ => destruct b; [discriminate|] end.
  inversion E. left. exact H.
Qed.
Lemma rex_outlines : forall L, In EOFError L -> In ValueError L -> rex L parse_outlines.
Proof.
  intros L H1 H2. unfold parse_outlines, outlines_turn, read_row, M_Glyph.read_pair.
  rex_auto; apply rex_path; exact H2.
Qed.
Lemma rex_names : forall L, In EOFError L -> In ValueError L -> In OverflowError L -> rex L parse_name_records.
Proof.
  intros L H1 H2 H3. unfold parse_name_records, parse_name_record. rex_auto. apply rex_lift. intros e.
  match goal with |- res_map (name_char ?p ?k) ?l = _ -> _ => generalize p k l end. clear - H3. intros p k l. revert e. induction l as [|x l IH]; intros e E; cbn [res_map] in E; [discriminate|].
  unfold name_char in E at 1.
  repeat match type of E with
  | rthen (if ?b then _ else _) _ = _ => destruct b
  | rthen (match ?b with _ => _ end) _ = _ => destruct b
  end; cbn [rthen] in E;
  try (inversion E; subst; left; exact H3);
  (destruct (res_map (name_char p k) l) as [r|e'] eqn:E1; cbn [rmap] in E; [discriminate|]; inversion E; subst; auto).
Qed.
Lemma rex_index : forall A L (l : list A) i, In IndexError L -> rex L (rlift (py_index l i)).
Proof.
  intros A L l i H. apply rex_lift. intros e E. unfold py_index in E.
  repeat match type of E with
  | (if ?b then _ else _) = _ => destruct b
  | (match ?b with _ => _ end) = _ => destruct b
  end; try discriminate; inversion E; left; exact H.
Qed.
Lemma rex_opentype : forall L, In UnicodeDecodeError L -> In IndexError L -> rex L parse_opentype_string.
Proof.
  intros L H H1. unfold parse_opentype_string. rex_auto. apply rex_lift. intros e E. unfold normalize_lines in E.
  destruct (1 <? _); [|discriminate]. left.
  destruct (pop_empty (rev (filter_blank 0 (splitlines a)))) as [l|e'] eqn:P; cbn [rmap] in E; [discriminate|].
  inversion E; subst. revert P. generalize (rev (filter_blank 0 (splitlines a))). clear - H1.
  induction l as [|[|c l'] l IH]; cbn [pop_empty]; intros P; [inversion P; exact H1|auto|discriminate].
Qed.
Lemma rex_flags_options : forall L v, rex L (rlift (convert_int_to_flags_options v)).
Proof.
  intros L v. apply rex_lift. intros e E. unfold convert_int_to_flags_options in E.
  pose proof (rex_bits L (Z.land v 0xFFFF) 0 []) as B1. pose proof (rex_bits L (Z.shiftr v 16) 0 []) as B2.
  destruct (binaryToIntList (Z.land v 0xFFFF) 0) as [l|e1]; cbn [rthen] in E.
  - destruct (binaryToIntList (Z.shiftr v 16) 0) as [l2|e2]; cbn [rthen] in E; [discriminate|].
    inversion E; subst. exact (B2 e [] eq_refl).
  - inversion E; subst. exact (B1 e [] eq_refl).
Qed.
Lemma rex_tt_info : forall L, In EOFError L -> In ValueError L -> In KeyError L -> rex L parse_tt_info.
Proof.
  intros L H1 H2 H3. unfold parse_tt_info, tt_info_turn, assert_unique.
  rex_auto; apply rex_flags_options.
Qed.
Lemma rex_guides : forall L o n, In EOFError L -> In ValueError L -> rex L (parse_guides o n).
Proof. intros. unfold parse_guides, read_guide_master. rex_auto. Qed.

(** ** Whole entries *)
Definition raises_only (L : list exn) (p : parser) : Prop :=
  forall c data x, run_parser (p c) data = Err x -> In x L \/ x = Diverge.
Definition reads_all {A} (r : rd A) : Prop := forall s a s', r s = ROk a s' -> s' = [].
Lemma only_rest : forall A (inj : A -> value) L (r : ctx -> rd A), In AssertionError L -> (forall c, rex L (r c)) ->
  raises_only L (fun c => plain inj (r c)).
Proof.
  intros A inj L r H Hr c data x E. unfold run_parser in E.
  destruct (plain inj (r c) data) as [a [|y s]|e s] eqn:E1; inversion E; subst; [left; exact H|].
  refine (rex_bind _ _ L (r c) _ (Hr c) _ data x s E1). intros a. apply rex_ret.
Qed.
Lemma only_all : forall A (inj : A -> value) L (r : ctx -> rd A), (forall c, reads_all (r c)) -> (forall c, rex L (r c)) ->
  raises_only L (fun c => plain inj (r c)).
Proof.
  intros A inj L r F Hr c data x E. unfold run_parser in E.
  destruct (plain inj (r c) data) as [a s|e s] eqn:E1.
  - unfold plain, rbind in E1. destruct (r c data) as [a1 s1|e1 s1] eqn:E2; [|discriminate].
    apply F in E2. inversion E1; subst. discriminate.
  - inversion E; subst. refine (rex_bind _ _ L (r c) _ (Hr c) _ data x s E1). intros a. apply rex_ret.
Qed.
Lemma all_ret : forall A B (r : rd A) (k : A -> rd B), reads_all r ->
  (forall a s b s', k a s = ROk b s' -> s' = s) -> reads_all (rbind r k).
Proof.
  intros A B r k Hr Hk s b s' E. unfold rbind in E. destruct (r s) as [a s1|e s1] eqn:E1; [|discriminate].
  rewrite (Hk _ _ _ _ E). eapply Hr; eauto.
Qed.
Lemma all_last : forall A B (r : rd A) (k : A -> rd B), (forall a, reads_all (k a)) -> reads_all (rbind r k).
Proof.
  intros A B r k Hk s b s' E. unfold rbind in E. destruct (r s) as [a s1|e s1] eqn:E1; [|discriminate].
  eapply Hk; eauto.
Qed.
Lemma all_read_all : reads_all read_all.
Proof. intros s a s' E. inversion E. reflexivity. Qed.
Lemma keep_ret : forall A (a : A) s b s', ret a s = ROk b s' -> s' = s.
Proof. intros A a s b s' E. inversion E. reflexivity. Qed.
Lemma keep_lift : forall A (a : res A) s b s', rlift a s = ROk b s' -> s' = s.
Proof. intros A [a|e] s b s' E; inversion E. reflexivity. Qed.
Lemma all_str : reads_all read_str_all.
Proof. apply all_ret; [exact all_read_all|]. intros. eapply keep_lift; eauto. Qed.
Ltac all_auto :=
  first [apply all_ret; [first [exact all_read_all|exact all_str]|
           intros ? ? ? ? E; first [exact (keep_ret _ _ _ _ _ E)|exact (keep_lift _ _ _ _ _ E)|
             unfold rbind, rlift, ret, rraise in E;
             cbv beta in E;
             repeat match type of E with
             | (match ?x with _ => _ end) = _ => destruct x
             | (match ?x with _ => _ end) _ = _ => destruct x
             end; try discriminate; congruence]]
        |apply all_last; intros; all_auto].

Lemma all_panose : reads_all parse_panose.
Proof.
  intros s a s' E. unfold parse_panose, rbind, read_all in E.
  destruct (Nat.eqb (length s) 10); [|discriminate]. inversion E. reflexivity.
Qed.
Lemma all_gasp : reads_all parse_gasp.
Proof.
  intros s a s' E. unfold parse_gasp, rbind, read_all, rlift in E.
  destruct (unpack_H s); [|discriminate]. inversion E. reflexivity.
Qed.
Ltac row_raises i :=
  let L := eval vm_compute in (raises i) in change (raises i) with L.
Lemma rows_raise : forall o, Forall (fun r => fst r <> 2001 -> raises_only (raises (fst r)) (snd (fst (snd r))))
  (parser_classes o).
Proof.
  intros o. unfold parser_classes.
  repeat (apply Forall_cons; [intros N; cbn [fst snd] in N |- *;
    match goal with |- raises_only (raises ?i) _ => row_raises i end|]); [..|apply Forall_nil].
  all: try (exfalso; apply N; reflexivity). all: clear N.
  all: try (apply only_rest; [in_auto|intros c]).
  all: try (apply only_all; intros c;
    [first [exact all_panose|exact all_gasp|
       unfold parse_hex, parse_string, parse_encoding, parse_opentype_string, parse_binary_table; all_auto]|]).
  all: first [apply rex_parse_doubles|apply rex_axis_mappings|apply rex_int_list|apply rex_unicodes|apply rex_unicodes_supp
    |apply rex_panose; in_auto|apply rex_gasp; in_auto|apply rex_outlines; in_auto|apply rex_names; in_auto
    |apply rex_opentype; in_auto|apply rex_tt_info; in_auto|idtac].
  all: first [apply rex_guides; in_auto|idtac].
  all: unfold parse_hex, parse_string, parse_fl_version, parse_encoding, parse_int16, parse_sint16, parse_sint32, parse_double,
    parse_ps_global, parse_ps_glyph, parse_ps_options, parse_counted, parse_ps_info, parse_values, parse_anisotropic,
    parse_axis_counts, parse_master_location, parse_instances, parse_instance, parse_key_values, parse_font_options,
    parse_export_options, parse_mapping_mode, parse_kern_pair, parse_class_flags, parse_binary_table, parse_custom_cmaps,
    parse_custom_cmap, parse_pclt, parse_unicode_ranges, parse_anchors, parse_anchor_props, parse_gdef, parse_gdef_anchor,
    parse_int16_pair, parse_sketch, parse_links, parse_mask_metrics_mm, parse_global_guides, parse_guide_props,
    guide_props_turn, parse_global_mask, parse_mask, parse_background, parse_glyph_bitmaps, parse_glyph_bitmap,
    parse_tt_stems, parse_tt_stem, parse_stem_ppems, parse_stem_ppems23, parse_stem_ppems1, parse_ppems, parse_ppems_dir,
    ppems_turn, parse_tt_zones, parse_tt_zone, parse_zone_deltas, deltas_turn, parse_vdmx, read_triple,
    M_Glyph.read_pair, M_Simple.read_pair.
  all: rex_auto.
  all: first [apply rex_outlines; in_auto|apply rex_bitmap_data; in_auto|apply rex_guides; in_auto|apply rex_index; in_auto|unfold parse_key_values; rex_auto].
Qed.

Ltac in_glyph := apply in_or_app; left; vm_compute; tauto.
Lemma glyph_raises : forall o F, (forall b e, o_asm o b = Err e -> In e F) ->
  raises_only (raises 2001 ++ F) (GlyphParser o).
Proof.
  intros o F HF. apply only_rest; [in_glyph|]. intros c.
  assert (A : forall e, In e (raises 2001) -> In e (raises 2001 ++ F)) by (intros; apply in_or_app; auto).
  assert (E1 : In EOFError (raises 2001 ++ F)) by in_glyph.
  assert (E2 : In ValueError (raises 2001 ++ F)) by in_glyph.
  assert (E3 : In KeyError (raises 2001 ++ F)) by in_glyph.
  assert (E4 : In AttributeError (raises 2001 ++ F)) by in_glyph.
  assert (E5 : In StructError (raises 2001 ++ F)) by in_glyph.
  assert (E6 : In UnicodeDecodeError (raises 2001 ++ F)) by in_glyph.
  assert (E7 : forall b, rex (raises 2001 ++ F) (rlift (o_asm o b))).
  { intros b. apply rex_lift. intros e E. left. apply in_or_app. right. eapply HF; eauto. }
  revert A E1 E2 E3 E4 E5 E6 E7. generalize (raises 2001 ++ F). intros L _ E1 E2 E3 E4 E5 E6 E7.
  unfold parse_glyph, glyph_turn, parse_hints, read_hintmask, parse_components, parse_component, read_offset_scale,
    parse_kerning, kerning_turn, parse_binary, binary_turn, binary_nodes_turn, parse_instructions, parse_instruction, per_master,
    M_Glyph.read_pair.
  repeat (rex_step || apply E7 || (apply rex_guides; assumption) || (apply rex_outlines; assumption)).
Qed.
