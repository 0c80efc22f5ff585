(** Program logics, continued: termination ([tot]), loops, fixed layouts, doubles. *)
From Coq Require Import ZifyBool ZifyNat.
From Verif Require Import Base M_Stream M_Helpers M_Text M_Py S_Stream S_Bits S_Text
  Lib P_Stream P_Helpers P_Text P_Text2.
Open Scope rd_scope.
Ltac Zify.zify_post_hook ::= Z.div_mod_to_equations.

(** ** [tot r]: on every stream of bytes, [r] returns or raises; what it leaves is a suffix *)
Definition rest_of {A} (o : out A) : bytes := match o with ROk _ s => s | RErr _ s => s end.
Definition no_div {A} (o : out A) : Prop := match o with RErr Diverge _ => False | _ => True end.
Definition tot {A} (r : rd A) : Prop :=
  forall s, bytes_ok s -> (exists p, s = p ++ rest_of (r s)) /\ no_div (r s).

Lemma suffix_ok : forall (p s : bytes), bytes_ok (p ++ s) -> bytes_ok s.
Proof. intros p s H. apply bytes_ok_app in H. tauto. Qed.

Lemma tot_ret : forall A (a : A), tot (ret a).
Proof. intros A a s _. split; [exists []; reflexivity|exact I]. Qed.
Lemma tot_raise : forall A e, e <> Diverge -> tot (rraise (A:=A) e).
Proof. intros A e H s _. split; [exists []; reflexivity|]. destruct e; cbn; auto. Qed.
Lemma tot_bind : forall A B (r : rd A) (k : A -> rd B),
  tot r -> (forall a, tot (k a)) -> tot (rbind r k).
Proof.
  intros A B r k Hr Hk s Hs. unfold rbind. destruct (Hr s Hs) as [[p Hp] Hd].
  destruct (r s) as [a s1|e s1]; cbn in *.
  - rewrite Hp in Hs. apply suffix_ok in Hs. destruct (Hk a s1 Hs) as [[q Hq] Hd2].
    split; [|exact Hd2].
    exists (p ++ q). rewrite <- app_assoc, <- Hq. exact Hp.
  - split; [exists p; exact Hp|exact Hd].
Qed.
(** the same with what is known about the value read *)
Lemma tot_bind_post : forall A B (r : rd A) (k : A -> rd B) P,
  tot r -> rpost r P -> (forall a, P a -> tot (k a)) -> tot (rbind r k).
Proof.
  intros A B r k P Hr HP Hk s Hs. unfold rbind. destruct (Hr s Hs) as [[p Hp] Hd].
  specialize (HP s). destruct (r s) as [a s1|e s1]; cbn in *.
  - destruct (HP a s1 Hs eq_refl) as [Ha Hs1]. destruct (Hk a Ha s1 Hs1) as [[q Hq] Hd2].
    split; [|exact Hd2]. exists (p ++ q). rewrite <- app_assoc, <- Hq. exact Hp.
  - split; [exists p; exact Hp|exact Hd].
Qed.
Lemma tot_read_bytes : forall n, tot (read_bytes n).
Proof. intros n s _. split; [exists (take n s); cbn; symmetry; apply take_drop|exact I]. Qed.
Lemma tot_read_all : tot read_all.
Proof. intros s _. split; [exists s; cbn; symmetry; apply app_nil_r|exact I]. Qed.
Lemma tot_lift : forall A (x : res A), x <> Err Diverge -> tot (rlift x).
Proof.
  intros A [a|e] H s _; cbn; split; try (exists []; reflexivity); try exact I.
  destruct e; cbn; auto.
Qed.
Lemma tot_repeat : forall A n (r : rd A), tot r -> tot (rrepeat n r).
Proof.
  induction n as [|n IH]; intros r H; cbn [rrepeat]; [apply tot_ret|].
  apply tot_bind; [exact H|]. intros a. apply tot_bind; [apply IH; exact H|].
  intros l. apply tot_ret.
Qed.
Lemma tot_range : forall A n (r : rd A), tot r -> tot (rrange n r).
Proof. intros. apply tot_repeat. auto. Qed.
Lemma tot_try : forall A (r : rd A) h, tot r -> (forall e, e <> Diverge -> tot (h e)) -> tot (rtry r h).
Proof.
  intros A r h Hr Hh s Hs. unfold rtry. destruct (Hr s Hs) as [[p Hp] Hd].
  destruct (r s) as [a s1|e s1]; cbn in *; [split; [exists p; exact Hp|exact I]|].
  assert (He : e <> Diverge) by (intros ->; exact Hd).
  rewrite Hp in Hs. apply suffix_ok in Hs.
  destruct (Hh e He s1 Hs) as [[q Hq] Hd2]. split; [|exact Hd2].
  exists (p ++ q). rewrite <- app_assoc, <- Hq. exact Hp.
Qed.
Lemma tot_on_eof : forall A (h : rd A) e, e <> Diverge -> tot h -> tot (on_eof h e).
Proof. intros A h e He Hh. destruct e; cbn; auto; apply tot_raise; congruence. Qed.
Lemma tot_times : forall St n (f : St -> rd St) st, (forall st, tot (f st)) -> tot (rtimes n f st).
Proof.
  induction n as [|n IH]; intros f st H; cbn [rtimes]; [apply tot_ret|].
  apply tot_bind; auto.
Qed.
Lemma tot_mapM : forall A B (f : A -> rd B) l, (forall x, tot (f x)) -> tot (rmapM f l).
Proof.
  induction l as [|x l IH]; intros H; cbn [rmapM]; [apply tot_ret|].
  apply tot_bind; auto. intros. apply tot_bind; auto. intros. apply tot_ret.
Qed.
Lemma tot_foldM : forall A St (f : St -> A -> rd St) l st,
  (forall st x, tot (f st x)) -> tot (rfoldM f st l).
Proof.
  induction l as [|x l IH]; intros st H; cbn [rfoldM]; [apply tot_ret|].
  apply tot_bind; auto.
Qed.
Lemma tot_if : forall A (b : bool) (r1 r2 : rd A), tot r1 -> tot r2 -> tot (if b then r1 else r2).
Proof. intros. destruct b; auto. Qed.
Lemma tot_assert : forall b, tot (rassert b).
Proof. intros []; cbn; [apply tot_ret|apply tot_raise; discriminate]. Qed.
Lemma tot_ext : forall A (r r' : rd A), (forall s, r s = r' s) -> tot r -> tot r'.
Proof. intros A r r' E H s Hs. rewrite <- E. apply H, Hs. Qed.

Lemma tot_length : forall A (r : rd A) s, tot r -> bytes_ok s -> (length (rest_of (r s)) <= length s)%nat.
Proof. intros A r s H Hs. destruct (H s Hs) as [[p Hp] _]. rewrite Hp at 2. rewrite app_length. lia. Qed.
Lemma tot_rest_ok : forall A (r : rd A) s, tot r -> bytes_ok s -> bytes_ok (rest_of (r s)).
Proof.
  intros A r s H Hs. destruct (H s Hs) as [[p Hp] _]. rewrite Hp in Hs.
  apply bytes_ok_app in Hs. tauto.
Qed.

(** reading makes progress *)
Definition prog {A} (r : rd A) : Prop :=
  forall s a s', bytes_ok s -> r s = ROk a s' -> (length s' < length s)%nat.
(** a loop body that goes on has read something *)
Definition progl {St A} (r : rd (St + A)) : Prop :=
  forall s st s', bytes_ok s -> r s = ROk (inl st) s' -> (length s' < length s)%nat.

Lemma progl_inr : forall St A (a : A), progl (ret (inr (A:=St) a)).
Proof. intros St A a s st s' _ E. discriminate. Qed.
Lemma progl_raise : forall St A e, progl (rraise (A:=St+A) e).
Proof. intros St A e s st s' _ E. discriminate. Qed.
Lemma progl_if : forall St A (b : bool) (r1 r2 : rd (St + A)),
  progl r1 -> progl r2 -> progl (if b then r1 else r2).
Proof. intros. destruct b; auto. Qed.
Lemma progl_bind_l : forall B St A (r : rd B) (k : B -> rd (St + A)),
  prog r -> tot r -> (forall b, tot (k b)) -> progl (rbind r k).
Proof.
  intros B St A r k Hr Ht Hk s st s' Hs E. unfold rbind in E.
  pose proof (tot_rest_ok _ _ s Ht Hs) as Hs1.
  destruct (r s) as [b s1|e s1] eqn:E1; [|discriminate]. apply Hr in E1; [|exact Hs].
  pose proof (tot_length _ _ s1 (Hk b) Hs1) as L. rewrite E in L. cbn in L. lia.
Qed.
Lemma progl_bind_r : forall B St A (r : rd B) (k : B -> rd (St + A)),
  tot r -> (forall b, progl (k b)) -> progl (rbind r k).
Proof.
  intros B St A r k Hr Hk s st s' Hs E. unfold rbind in E.
  pose proof (tot_length _ _ s Hr Hs) as L. pose proof (tot_rest_ok _ _ s Hr Hs) as Hs1.
  destruct (r s) as [b s1|e s1] eqn:E1; [|discriminate].
  apply Hk in E; [|exact Hs1]. cbn in L. lia.
Qed.
Lemma progl_try : forall St A (r : rd (St + A)) h,
  tot r -> progl r -> (forall e, progl (h e)) -> progl (rtry r h).
Proof.
  intros St A r h Ht Hr Hh s st s' Hs E. unfold rtry in E.
  pose proof (tot_length _ _ s Ht Hs) as L. pose proof (tot_rest_ok _ _ s Ht Hs) as Hs1.
  destruct (r s) as [x s1|e s1] eqn:E1.
  - inversion E; subst. eapply Hr; eauto.
  - apply Hh in E; [|exact Hs1]. cbn in L. lia.
Qed.
Lemma progl_on_eof : forall St A (h : rd (St + A)) e, progl h -> progl (on_eof h e).
Proof. intros St A h e H. destruct e; cbn; auto; apply progl_raise. Qed.
Lemma prog_bind_l : forall A B (r : rd A) (k : A -> rd B),
  prog r -> tot r -> (forall a, tot (k a)) -> prog (rbind r k).
Proof.
  intros A B r k Hr Ht Hk s b s' Hs E. unfold rbind in E.
  pose proof (tot_rest_ok _ _ s Ht Hs) as Hs1.
  destruct (r s) as [a s1|e s1] eqn:E1; [|discriminate]. apply Hr in E1; [|exact Hs].
  pose proof (tot_length _ _ s1 (Hk a) Hs1) as L. rewrite E in L. cbn in L. lia.
Qed.

Lemma tot_while : forall St A (body : St -> rd (St + A)),
  (forall st, tot (body st)) -> (forall st, progl (body st)) ->
  forall fuel st s, bytes_ok s -> (length s < fuel)%nat ->
    (exists p, s = p ++ rest_of (rwhile fuel body st s)) /\ no_div (rwhile fuel body st s).
Proof.
  intros St A body Ht Hp. induction fuel as [|f IH]; intros st s Hs Hl; [lia|].
  cbn [rwhile]. unfold rbind. destruct (Ht st s Hs) as [[p E] D].
  pose proof (tot_rest_ok _ _ s (Ht st) Hs) as Hs1.
  destruct (body st s) as [[st'|a] s1|e s1] eqn:Eb; cbn [rest_of] in E.
  - apply Hp in Eb; [|exact Hs]. destruct (IH st' s1 Hs1 ltac:(lia)) as [[q E2] D2].
    split; [|exact D2].
    exists (p ++ q). rewrite <- app_assoc, <- E2. exact E.
  - split; [exists p; exact E|exact I].
  - split; [exists p; exact E|exact D].
Qed.
Lemma tot_loop : forall St A (body : St -> rd (St + A)) st,
  (forall st, tot (body st)) -> (forall st, progl (body st)) -> tot (rloop body st).
Proof. intros St A body st Ht Hp s Hs. apply tot_while; auto. Qed.

(** once a loop has been left, more turns change nothing *)
Lemma rwhile_mono : forall St A (body : St -> rd (St + A)) f st s,
  (forall st s s', body st s <> RErr Diverge s') ->
  no_div (rwhile f body st s) -> forall g, (f <= g)%nat ->
  rwhile g body st s = rwhile f body st s.
Proof.
  intros St A body. induction f as [|f IH]; intros st s Hb Hn g Hg; [destruct Hn|].
  destruct g as [|g]; [lia|]. cbn [rwhile] in *. unfold rbind in *.
  destruct (body st s) as [[st'|a] s1|e s1]; auto. apply IH; auto; lia.
Qed.

(** the stream primitives *)
Lemma tot_int8 : tot read_int8. Proof. apply tot_bind; [apply tot_read_bytes|intros; apply tot_ret]. Qed.
Lemma tot_int16 : tot read_int16. Proof. apply tot_bind; [apply tot_read_bytes|intros; apply tot_ret]. Qed.
Lemma tot_int32 : tot read_int32. Proof. apply tot_bind; [apply tot_read_bytes|intros; apply tot_ret]. Qed.
Lemma tot_uint8 : tot read_uint8. Proof. apply tot_bind; [apply tot_read_bytes|intros; apply tot_ret]. Qed.
Lemma tot_uint16 : tot read_uint16. Proof. apply tot_bind; [apply tot_read_bytes|intros; apply tot_ret]. Qed.
Lemma tot_uint32 : tot read_uint32. Proof. apply tot_bind; [apply tot_read_bytes|intros; apply tot_ret]. Qed.
Lemma tot_value_gen : forall sg, tot (read_value_gen sg).
Proof.
  intros sg. unfold read_value_gen. apply tot_bind; [apply tot_read_bytes|]. intros b. cbv zeta.
  repeat (apply tot_if || apply tot_ret || (apply tot_raise; discriminate) ||
          (apply tot_bind; [apply tot_read_bytes|intros])).
Qed.
Lemma tot_value : tot read_value. Proof. apply tot_value_gen. Qed.
Lemma tot_uvalue : tot read_uvalue. Proof. apply tot_value_gen. Qed.
Lemma prog_value_gen : forall sg, prog (read_value_gen sg).
Proof.
  intros sg s a s' Hs E. destruct s as [|x t].
  - rewrite read_value_nil in E. discriminate.
  - rewrite read_value_cons in E.
    assert (H : (length (rest_of (value_body sg x t)) <= length t)%nat).
    { apply tot_length; [|inversion Hs; assumption]. unfold value_body.
      repeat (apply tot_if || apply tot_ret || (apply tot_raise; discriminate) ||
              (apply tot_bind; [apply tot_read_bytes|intros])). }
    rewrite E in H. cbn in *. lia.
Qed.
Lemma prog_value : prog read_value. Proof. apply prog_value_gen. Qed.
Lemma prog_uvalue : prog read_uvalue. Proof. apply prog_value_gen. Qed.
Lemma tot_str : forall n, tot (read_str n).
Proof.
  intros n. unfold read_str. apply tot_if; [apply tot_ret|].
  apply tot_bind; [apply tot_read_bytes|]. intros b. apply tot_lift.
  intros E. apply map_codec_err in E. discriminate.
Qed.
Lemma tot_str_with_len : tot read_str_with_len.
Proof. apply tot_bind; [apply tot_uvalue|apply tot_str]. Qed.
Lemma tot_str_all : tot read_str_all.
Proof.
  apply tot_bind; [apply tot_read_all|]. intros b. apply tot_lift.
  intros E. apply map_codec_err in E. discriminate.
Qed.
Lemma tot_double : tot read_double.
Proof.
  apply tot_bind; [apply tot_read_bytes|]. intros b.
  apply tot_if; [apply tot_ret|apply tot_raise; discriminate].
Qed.
Lemma tot_doubles : forall n, tot (read_doubles n).
Proof.
  intros n. apply tot_bind; [apply tot_read_bytes|]. intros b.
  apply tot_if; [apply tot_ret|apply tot_raise; discriminate].
Qed.

Ltac tot_step :=
  match goal with
  | |- tot (rloop _ _) => apply tot_loop; intros
  | |- tot (rbind _ _) => apply tot_bind; [|intros]
  | |- tot (ret _) => apply tot_ret
  | |- tot (rraise _) => apply tot_raise; congruence
  | |- tot read_value => apply tot_value
  | |- tot read_uvalue => apply tot_uvalue
  | |- tot read_int8 => apply tot_int8
  | |- tot read_int16 => apply tot_int16
  | |- tot read_int32 => apply tot_int32
  | |- tot read_uint8 => apply tot_uint8
  | |- tot read_uint16 => apply tot_uint16
  | |- tot read_uint32 => apply tot_uint32
  | |- tot read_double => apply tot_double
  | |- tot (read_doubles _) => apply tot_doubles
  | |- tot (read_str _) => apply tot_str
  | |- tot read_str_with_len => apply tot_str_with_len
  | |- tot read_str_all => apply tot_str_all
  | |- tot (read_bytes _) => apply tot_read_bytes
  | |- tot read_all => apply tot_read_all
  | |- tot (rrepeat _ _) => apply tot_repeat
  | |- tot (rrange _ _) => apply tot_range
  | |- tot (rtimes _ _ _) => apply tot_times; intros
  | |- tot (rmapM _ _) => apply tot_mapM; intros
  | |- tot (rfoldM _ _ _) => apply tot_foldM; intros
  | |- tot (rassert _) => apply tot_assert
  | |- tot (rtry _ _) => apply tot_try; [|intros]
  | |- tot (on_eof _ _) => apply tot_on_eof; [assumption|]
  | |- tot (if _ then _ else _) => apply tot_if
  | |- tot (let (_, _) := ?p in _) => destruct p
  | |- tot (match ?x with _ => _ end) => destruct x
  | |- progl (rbind read_value _) => apply progl_bind_l; [apply prog_value|apply tot_value|intros]
  | |- progl (rbind read_uvalue _) => apply progl_bind_l; [apply prog_uvalue|apply tot_uvalue|intros]
  | |- progl (rbind _ _) => apply progl_bind_r; [|intros]
  | |- progl (ret (inr _)) => apply progl_inr
  | |- progl (rraise _) => apply progl_raise
  | |- progl (rtry _ _) => apply progl_try; [| |intros]
  | |- progl (on_eof _ _) => apply progl_on_eof
  | |- progl (if _ then _ else _) => apply progl_if
  | |- progl (match ?x with _ => _ end) => destruct x
  end.
Ltac tot_auto := repeat tot_step.

(** ** [wrun w r a]: the writer succeeds and parsing the written entry gives [a] *)
Definition wrun {A} (w : wr) (r : rd A) (a : A) : Prop :=
  exists bs, w = Ok bs /\ bytes_ok bs /\ run_parser r bs = Ok a.

Definition wne (w : wr) : Prop := forall bs, w = Ok bs -> bs <> [].
Lemma wne_l : forall a b, wne a -> wne (a +++ b).
Proof.
  intros a b H bs E. apply wseq_ok in E. destruct E as (x & y & Ea & _ & ->).
  specialize (H x Ea). destruct x; [tauto|discriminate].
Qed.
Lemma wne_value_gen : forall sg v, wne (write_value_gen sg v).
Proof.
  intros sg v bs E ->. revert E.
  unfold write_value_gen, write_value_long, pack_be_u, pack_be_s.
  repeat match goal with
  | |- context [if ?b then _ else _] => destruct b
  end; cbn; intros E; inversion E as [E1];
  match goal with H : _ = [] |- _ => apply (f_equal (@length Z)) in H; rewrite ?app_length, be_enc_length in H; discriminate
  | _ => idtac end.
Qed.
Lemma wne_uint8 : forall v, wne (write_uint8 v).
Proof.
  intros v bs E ->. unfold write_uint8, to_bytes_u in E. destruct (urange 1 v); discriminate.
Qed.

Section Loop.
  Context {St A X : Type} (body : St -> rd (St + A)) (w : X -> wr) (f : St -> X -> St).

  Lemma while_items : forall l st bs,
    (forall l1 x l2, l = l1 ++ x :: l2 ->
       wne (w x) /\ wrt (w x) (body (fold_left f l1 st)) (inl (fold_left f (l1 ++ [x]) st))) ->
    wlist w l = Ok bs ->
    forall fuel rest, (length bs <= fuel)%nat ->
      rwhile fuel body st (bs ++ rest) =
      rwhile (fuel - length l) body (fold_left f l st) rest
      /\ (length l <= length bs)%nat.
  Proof.
    induction l as [|x l IH]; intros st bs H E fuel rest Hf.
    - cbn in E. inversion E; subst. cbn. rewrite Nat.sub_0_r. split; [reflexivity|lia].
    - cbn [wlist] in E. apply wseq_ok in E. destruct E as (b1 & b2 & E1 & E2 & ->).
      destruct (H [] x l eq_refl) as [Hne (b1' & E1' & _ & R)].
      rewrite E1 in E1'. inversion E1'; subst b1'.
      assert (Hb1 : (0 < length b1)%nat).
      { specialize (Hne b1 E1). destruct b1; [tauto|cbn; lia]. }
      rewrite app_length in Hf. destruct fuel as [|fuel]; [lia|].
      cbn [rwhile]. unfold rbind. rewrite <- app_assoc. cbn [fold_left app] in R. rewrite R.
      destruct (IH (f st x) b2) with (fuel := fuel) (rest := rest) as [IH1 IH2];
        [|exact E2|lia|].
      { intros l1 y l2 ->. apply (H (x :: l1) y l2). reflexivity. }
      rewrite IH1. split; [reflexivity|]. cbn [length]. rewrite app_length. lia.
  Qed.

  Lemma wrt_loop : forall l st wend a,
    (forall l1 x l2, l = l1 ++ x :: l2 ->
       wne (w x) /\ wrt (w x) (body (fold_left f l1 st)) (inl (fold_left f (l1 ++ [x]) st))) ->
    wrt wend (body (fold_left f l st)) (inr a) ->
    (exists bs, wlist w l = Ok bs /\ bytes_ok bs) ->
    wrt (wlist w l +++ wend) (rloop body st) a.
  Proof.
    intros l st wend a H (be & Ee & Oe & Re) (bs & Eb & Ob).
    exists (bs ++ be). rewrite Eb, Ee. split; [reflexivity|].
    split; [apply bytes_ok_app; auto|]. intros rest. unfold rloop. rewrite <- app_assoc.
    destruct (while_items l st bs H Eb (S (length (bs ++ be ++ rest))) (be ++ rest)) as [Hw Hl].
    { rewrite app_length. lia. }
    rewrite Hw. rewrite app_length.
    replace (S (length bs + length (be ++ rest)) - length l)%nat
      with (S (length bs - length l + length (be ++ rest))) by lia.
    cbn [rwhile]. unfold rbind. rewrite Re. reflexivity.
  Qed.

  (** a loop that ends with the data *)
  Lemma wrun_loop : forall l st a,
    (forall l1 x l2, l = l1 ++ x :: l2 ->
       wne (w x) /\ wrt (w x) (body (fold_left f l1 st)) (inl (fold_left f (l1 ++ [x]) st))) ->
    body (fold_left f l st) [] = ROk (inr a) [] ->
    (exists bs, wlist w l = Ok bs /\ bytes_ok bs) ->
    wrun (wlist w l) (rloop body st) a.
  Proof.
    intros l st a H Hend (bs & Eb & Ob). exists bs. split; [exact Eb|]. split; [exact Ob|].
    unfold run_parser, rloop.
    destruct (while_items l st bs H Eb (S (length bs)) []) as [Hw Hl]; [lia|].
    rewrite app_nil_r in Hw. rewrite Hw.
    replace (S (length bs) - length l)%nat with (S (length bs - length l)) by lia.
    cbn [rwhile]. unfold rbind. rewrite Hend. reflexivity.
  Qed.
End Loop.

Lemma wlist_ok : forall X (w : X -> wr) l,
  (forall x, In x l -> exists b, w x = Ok b /\ bytes_ok b) ->
  exists bs, wlist w l = Ok bs /\ bytes_ok bs.
Proof.
  induction l as [|x l IH]; intros H.
  - exists []. split; [reflexivity|constructor].
  - destruct (H x) as (b & Eb & Ob); [left; reflexivity|].
    destruct IH as (bs & Es & Os); [intros; apply H; right; auto|].
    exists (b ++ bs). cbn [wlist]. rewrite Eb, Es. split; [reflexivity|apply bytes_ok_app; auto].
Qed.
Lemma wrt_ok : forall A w (r : rd A) a, wrt w r a -> exists b, w = Ok b /\ bytes_ok b.
Proof. intros A w r a (b & E & O & _). eauto. Qed.

(** loops that append one item per turn *)
Lemma fold_snoc : forall A (l acc : list A), fold_left (fun a x => a ++ [x]) l acc = acc ++ l.
Proof.
  induction l as [|x l IH]; intros acc; cbn; [symmetry; apply app_nil_r|].
  rewrite IH, <- app_assoc. reflexivity.
Qed.

Lemma rpost_if : forall A (b : bool) (r1 r2 : rd A) P,
  (b = true -> rpost r1 P) -> (b = false -> rpost r2 P) -> rpost (if b then r1 else r2) P.
Proof. intros. destruct b; auto. Qed.
Lemma rpost_true : forall A (r : rd A), tot r -> rpost r (fun _ => True).
Proof.
  intros A r H s a s' Hs E. split; [exact I|].
  pose proof (tot_rest_ok _ r s H Hs) as Hok. rewrite E in Hok. exact Hok.
Qed.

(** ** [rps r P]: as [rpost], for entries of less than 2^31 bytes *)
Definition small (s : bytes) : Prop := bytes_ok s /\ Z.of_nat (length s) < 2 ^ 31.
Definition rps {A} (r : rd A) (P : A -> Prop) : Prop :=
  forall s a s', small s -> r s = ROk a s' -> P a /\ small s'.

Lemma tot_rest_small : forall A (r : rd A) s, tot r -> small s -> small (rest_of (r s)).
Proof.
  intros A r s H [Hs Hl]. split; [apply tot_rest_ok; auto|].
  pose proof (tot_length _ r s H Hs). lia.
Qed.
Lemma rps_of : forall A (r : rd A) P, tot r -> rpost r P -> rps r P.
Proof.
  intros A r P Ht Hr s a s' Hs E. pose proof (tot_rest_small _ r s Ht Hs) as Hok.
  rewrite E in Hok. split; [|exact Hok]. destruct Hs as [Hb _]. eapply Hr; eauto.
Qed.
Lemma rps_true : forall A (r : rd A), tot r -> rps r (fun _ => True).
Proof. intros. apply rps_of; auto. apply rpost_true. auto. Qed.
Lemma rps_ret : forall A (a : A) (P : A -> Prop), P a -> rps (ret a) P.
Proof. intros A a P H s a' s' Hs E. inversion E; subst; auto. Qed.
Lemma rps_raise : forall A e (P : A -> Prop), rps (rraise e) P.
Proof. intros A e P s a' s' Hs E. discriminate. Qed.
Lemma rps_lift : forall A (x : res A) (P : A -> Prop), (forall a, x = Ok a -> P a) -> rps (rlift x) P.
Proof.
  intros A x P H s a s' Hs E. unfold rlift in E. destruct x as [y|]; [|discriminate].
  inversion E; subst. auto.
Qed.
Lemma rps_bind : forall A B (r : rd A) (k : A -> rd B) P Q,
  rps r P -> (forall a, P a -> rps (k a) Q) -> rps (rbind r k) Q.
Proof.
  intros A B r k P Q Hr Hk s b s' Hs E. unfold rbind in E.
  destruct (r s) as [a s1|e s1] eqn:E1; [|discriminate].
  destruct (Hr s a s1 Hs E1) as [Pa Hs1]. eapply Hk; eauto.
Qed.
Lemma rps_weaken : forall A (r : rd A) (P Q : A -> Prop),
  rps r P -> (forall a, P a -> Q a) -> rps r Q.
Proof. intros A r P Q H HPQ s a s' Hs E. destruct (H s a s' Hs E). auto. Qed.
Lemma rps_and : forall A (r : rd A) (P Q : A -> Prop),
  rps r P -> rps r Q -> rps r (fun a => P a /\ Q a).
Proof.
  intros A r P Q H1 H2 s a s' Hs E. destruct (H1 s a s' Hs E), (H2 s a s' Hs E). auto.
Qed.
Lemma rps_repeat : forall A (r : rd A) P n,
  rps r P -> rps (rrepeat n r) (fun l => length l = n /\ Forall P l).
Proof.
  intros A r P n H. induction n as [|n IH]; cbn [rrepeat].
  - apply rps_ret. auto.
  - eapply rps_bind; [exact H|]. intros a Pa.
    eapply rps_bind; [exact IH|]. intros l [Hl Hf].
    apply rps_ret. cbn. split; [lia|constructor; auto].
Qed.
Lemma rps_range : forall A (r : rd A) P n,
  rps r P -> rps (rrange n r) (fun l => length l = Z.to_nat n /\ Forall P l).
Proof. intros. unfold rrange. apply rps_repeat. auto. Qed.
Lemma rps_while : forall St A (body : St -> rd (St + A)) (I : St -> Prop) (P : A -> Prop),
  (forall st, I st -> rps (body st) (fun x => match x with inl st' => I st' | inr a => P a end)) ->
  forall fuel st, I st -> rps (rwhile fuel body st) P.
Proof.
  intros St A body I P H. induction fuel as [|f IH]; intros st Hst; cbn [rwhile].
  - apply rps_raise.
  - eapply rps_bind; [apply H; exact Hst|]. intros [st'|a] Hx; [apply IH; exact Hx|].
    apply rps_ret. exact Hx.
Qed.
Lemma rps_loop : forall St A (body : St -> rd (St + A)) (I : St -> Prop) (P : A -> Prop) st,
  I st ->
  (forall st, I st -> rps (body st) (fun x => match x with inl st' => I st' | inr a => P a end)) ->
  rps (rloop body st) P.
Proof.
  intros St A body I P st Hst H s a s' Hs E. unfold rloop in E. eapply rps_while; eauto.
Qed.
Lemma rps_times : forall St (I : St -> Prop) (f : St -> rd St) n st,
  I st -> (forall st, I st -> rps (f st) I) -> rps (rtimes n f st) I.
Proof.
  induction n as [|n IH]; intros st Hst H; cbn [rtimes]; [apply rps_ret; auto|].
  eapply rps_bind; [apply H; auto|]. intros. apply IH; auto.
Qed.
(** with the number of turns so far *)
Lemma rps_times_n : forall St (I : nat -> St -> Prop) (f : St -> rd St) n k st,
  I k st -> (forall k st, I k st -> rps (f st) (I (S k))) -> rps (rtimes n f st) (I (n + k)%nat).
Proof.
  induction n as [|n IH]; intros k st Hst H; cbn [rtimes]; [apply rps_ret; auto|].
  eapply rps_bind; [apply H; eauto|]. intros st' Hst'.
  replace (S n + k)%nat with (n + S k)%nat by lia. apply IH; auto.
Qed.
Lemma rps_try_eof : forall A (r : rd A) (h : rd A) P,
  tot r -> rps r P -> rps h P -> rps (rtry r (on_eof h)) P.
Proof.
  intros A r h P Ht Hr Hh s a s' Hs E. unfold rtry in E.
  pose proof (tot_rest_small _ r s Ht Hs) as Hok.
  destruct (r s) as [x s1|e s1] eqn:E1; cbn [rest_of] in Hok.
  - inversion E; subst. exact (Hr s _ _ Hs E1).
  - destruct e; cbn in E; try discriminate. eapply Hh; eauto.
Qed.
Lemma rps_if : forall A (b : bool) (r1 r2 : rd A) P,
  (b = true -> rps r1 P) -> (b = false -> rps r2 P) -> rps (if b then r1 else r2) P.
Proof. intros. destruct b; auto. Qed.
Lemma rps_mapM : forall A B (f : A -> rd B) (P : B -> Prop) l,
  (forall x, In x l -> rps (f x) P) ->
  rps (rmapM f l) (fun r => length r = length l /\ Forall P r).
Proof.
  induction l as [|x l IH]; intros H; cbn [rmapM].
  - apply rps_ret. auto.
  - eapply rps_bind; [apply H; left; auto|]. intros y Hy.
    eapply rps_bind; [apply IH; intros; apply H; right; auto|]. intros ys [Hl Hf].
    apply rps_ret. cbn. split; [lia|constructor; auto].
Qed.
Lemma rps_run : forall A (r : rd A) P data a,
  rps r P -> small data -> run_parser r data = Ok a -> P a.
Proof.
  intros A r P data a H Hd E. unfold run_parser in E.
  destruct (r data) as [x [|]|] eqn:E1; inversion E; subst. eapply H; eauto.
Qed.

Lemma rps_value : rps read_value i32. Proof. apply rps_of; [apply tot_value|apply rpost_value]. Qed.
Lemma rps_uvalue : rps read_uvalue u32. Proof. apply rps_of; [apply tot_uvalue|apply rpost_uvalue]. Qed.
Lemma rps_int8 : rps read_int8 i8. Proof. apply rps_of; [apply tot_int8|apply rpost_int8]. Qed.
Lemma rps_int16 : rps read_int16 i16. Proof. apply rps_of; [apply tot_int16|apply rpost_int16]. Qed.
Lemma rps_int32 : rps read_int32 i32. Proof. apply rps_of; [apply tot_int32|apply rpost_int32]. Qed.
Lemma rps_uint8 : rps read_uint8 byteZ. Proof. apply rps_of; [apply tot_uint8|apply rpost_uint8]. Qed.
Lemma rps_uint16 : rps read_uint16 u16. Proof. apply rps_of; [apply tot_uint16|apply rpost_uint16]. Qed.
Lemma rps_uint32 : rps read_uint32 w32. Proof. apply rps_of; [apply tot_uint32|apply rpost_uint32]. Qed.
Lemma rps_read_bytes : forall n, rps (read_bytes n) bytes_ok.
Proof. intros. apply rps_of; [apply tot_read_bytes|apply rpost_read_bytes]. Qed.
Lemma rps_read_all : rps read_all bytes_ok.
Proof. apply rps_of; [apply tot_read_all|apply rpost_read_all]. Qed.

(** a string that was read can be written *)
Definition text_ok (s : pystr) : Prop := encodable s /\ short_text s.
Lemma rps_str : forall n, rps (read_str n) text_ok.
Proof.
  intros n. unfold read_str. apply rps_if; intros E0.
  - apply rps_ret. split; [constructor|]. unfold short_text. cbn. lia.
  - intros s a s' Hs E. pose proof (tot_rest_small _ _ s (tot_read_bytes n) Hs) as Hr.
    cbn [rest_of read_bytes] in Hr. unfold rbind, read_bytes, rlift in E.
    destruct (cp1252_decode (take n s)) as [t|] eqn:D; [|discriminate].
    inv_rok E. split; [|exact Hr]. split; [eapply decode_encodable; eauto|].
    apply encode_decode in D. apply encode_length in D. unfold short_text. rewrite <- D.
    destruct Hs as [_ Hl]. rewrite <- (take_drop n s), app_length in Hl. lia.
Qed.
Lemma rps_str_with_len : rps read_str_with_len text_ok.
Proof. unfold read_str_with_len. eapply rps_bind; [apply rps_uvalue|]. intros. apply rps_str. Qed.
Lemma rps_str_all : rps read_str_all text_ok.
Proof.
  intros s a s' Hs E. unfold read_str_all, rbind, read_all, rlift in E.
  destruct (cp1252_decode s) as [t|] eqn:D; [|discriminate]. inv_rok E.
  split; [|split; [constructor|cbn; lia]]. split; [eapply decode_encodable; eauto|].
  apply encode_decode in D. apply encode_length in D. unfold short_text. rewrite <- D.
  destruct Hs as [_ Hl]. lia.
Qed.

(** [rtimes] against a list of items *)
Lemma wrt_times : forall St X (w : X -> wr) (body : St -> rd St) (f : St -> X -> St) l st,
  (forall l1 x l2, l = l1 ++ x :: l2 ->
     wrt (w x) (body (fold_left f l1 st)) (fold_left f (l1 ++ [x]) st)) ->
  wrt (wlist w l) (rtimes (length l) body st) (fold_left f l st).
Proof.
  induction l as [|x l IH]; intros st H.
  - apply wrt_ret.
  - cbn [wlist length rtimes fold_left]. eapply wrt_bind.
    + apply (H [] x l eq_refl).
    + cbn [fold_left app]. apply IH. intros l1 y l2 ->. apply (H (x :: l1) y l2). reflexivity.
Qed.
Lemma wrt_mapM : forall X Y B (w : X -> wr) (f : Y -> rd B) lx ly lb,
  Forall2 (fun p b => wrt (w (fst p)) (f (snd p)) b) (combine lx ly) lb ->
  length lx = length ly ->
  wrt (wlist w lx) (rmapM f ly) lb.
Proof.
  induction lx as [|x lx IH]; intros [|y ly] lb H L; try discriminate.
  - cbn in H. inversion H; subst. apply wrt_ret.
  - cbn in H. inversion H; subst. cbn [wlist rmapM]. eapply wrt_bind; [exact H2|].
    eapply wrt_bind_ret; [apply IH; eauto|]. reflexivity.
Qed.

Lemma wrt_wassert : forall A b w (r : rd A) a, b = true -> wrt w r a -> wrt (wassert b +++ w) r a.
Proof. intros A b w r a -> H. cbn [wassert]. rewrite wseq_nil_l. exact H. Qed.
Lemma wrt_rassert : forall A b w (k : unit -> rd A) a,
  b = true -> wrt w (k tt) a -> wrt w (rbind (rassert b) k) a.
Proof. intros A b w k a -> H. eapply wrt_pre; [reflexivity|exact H]. Qed.

(** ** doubles *)
Definition is_double (v : Z) : Prop := 0 <= v < 2 ^ 64.
Lemma wrt_double : forall v, is_double v -> wrt (write_double v) read_double v.
Proof.
  intros v H. unfold is_double in H. exists (le_enc 8 v). unfold write_double, pack_le_u, urange, in_range.
  change (2 ^ (8 * Z.of_nat 8)) with (2 ^ 64).
  destruct ((0 <=? v) && (v <? 2 ^ 64)) eqn:E; [|lia].
  split; [reflexivity|]. split; [apply le_enc_ok|]. intros rest.
  unfold read_double, rbind, read_bytes.
  rewrite take_app_exact, drop_app_exact by (rewrite le_enc_length; reflexivity).
  rewrite le_enc_length. cbn [Z.of_nat]. change (Z.pos (Pos.of_succ_nat 7) =? 8) with true.
  cbv iota. unfold ret. rewrite le_dec_enc_u; [reflexivity|]. exact H.
Qed.
Lemma rpost_double : rpost read_double is_double.
Proof.
  unfold read_double. eapply rpost_bind; [apply rpost_read_bytes|]. intros b Hb.
  apply rpost_if; intros E; [|apply rpost_raise]. apply rpost_ret.
  unfold is_double. pose proof (le_dec_range b Hb) as H.
  replace (8 * Z.of_nat (length b)) with 64 in H by lia. exact H.
Qed.
Lemma wrt_doubles : forall l n, Forall is_double l -> n = Z.of_nat (length l) ->
  wrt (write_doubles l) (read_doubles n) l.
Proof.
  intros l n H ->. unfold write_doubles.
  assert (Hw : forall l, Forall is_double l ->
     exists bs, wlist write_double l = Ok bs /\ bytes_ok bs /\ length bs = (8 * length l)%nat /\
       map le_dec (chunks (length l) 8 bs) = l).
  { clear. induction l as [|x l IH]; intros H.
    - exists []. repeat split. constructor.
    - apply Forall_cons_iff in H. destruct H as [Hx Hl].
      destruct (IH Hl) as (bs & E & O & L & M). cbn [wlist].
      assert (Ex : write_double x = Ok (le_enc 8 x)).
      { unfold write_double, pack_le_u, urange, in_range. unfold is_double in Hx.
        change (2 ^ (8 * Z.of_nat 8)) with (2 ^ 64).
        destruct ((0 <=? x) && (x <? 2 ^ 64)) eqn:E1; [reflexivity|lia]. }
      exists (le_enc 8 x ++ bs). rewrite Ex, E. split; [reflexivity|].
      split; [apply bytes_ok_app; split; [apply le_enc_ok|exact O]|].
      split; [rewrite app_length, le_enc_length, L; cbn [length]; lia|].
      cbn [length chunks map].
      rewrite firstn_app, skipn_app, le_enc_length, Nat.sub_diag.
      rewrite (firstn_all2 (le_enc 8 x)) by (rewrite le_enc_length; lia).
      rewrite (skipn_all2 (le_enc 8 x)) by (rewrite le_enc_length; lia).
      cbn [firstn skipn app]. rewrite app_nil_r, M. f_equal. apply le_dec_enc_u. exact Hx. }
  destruct (Hw l H) as (bs & E & O & L & M). exists bs. split; [exact E|]. split; [exact O|].
  intros rest. unfold read_doubles, rbind, read_bytes.
  rewrite take_app_exact, drop_app_exact by lia.
  replace (Z.of_nat (length bs) =? Z.of_nat (length l) * 8) with true by lia.
  rewrite Nat2Z.id, M. reflexivity.
Qed.
Lemma chunks_ok : forall n size (b : bytes), bytes_ok b -> Forall bytes_ok (chunks n size b).
Proof.
  induction n as [|n IH]; intros size b H; cbn [chunks]; constructor.
  - rewrite <- (firstn_skipn size b) in H. apply bytes_ok_app in H. tauto.
  - apply IH. rewrite <- (firstn_skipn size b) in H. apply bytes_ok_app in H. tauto.
Qed.
Lemma chunks_length : forall A n size (b : list A), (length b = n * size)%nat ->
  Forall (fun c => length c = size) (chunks n size b).
Proof.
  induction n as [|n IH]; intros size b H; cbn [chunks]; constructor.
  - rewrite firstn_length. lia.
  - apply IH. rewrite skipn_length. lia.
Qed.
Lemma chunks_count : forall A n size (b : list A), length (chunks n size b) = n.
Proof. induction n; intros; cbn [chunks length]; auto. Qed.
Lemma rpost_doubles : forall n, 0 <= n ->
  rpost (read_doubles n) (fun l => Z.of_nat (length l) = n /\ Forall is_double l).
Proof.
  intros n Hn. unfold read_doubles. eapply rpost_bind; [apply rpost_read_bytes|]. intros b Hb.
  apply rpost_if; intros E; [|apply rpost_raise]. apply rpost_ret.
  rewrite map_length, chunks_count. split; [lia|].
  apply Forall_forall. intros v Hv. apply in_map_iff in Hv. destruct Hv as (c & <- & Hc).
  pose proof (chunks_ok (Z.to_nat n) 8 b Hb) as H1. rewrite Forall_forall in H1.
  pose proof (chunks_length Z (Z.to_nat n) 8 b ltac:(lia)) as H2. rewrite Forall_forall in H2.
  specialize (H1 c Hc). specialize (H2 c Hc).
  pose proof (le_dec_range c H1) as H. rewrite H2 in H. exact H.
Qed.

Lemma rps_double : rps read_double is_double.
Proof. apply rps_of; [apply tot_double|apply rpost_double]. Qed.
Lemma rps_doubles : forall n, 0 <= n ->
  rps (read_doubles n) (fun l => Z.of_nat (length l) = n /\ Forall is_double l).
Proof. intros. apply rps_of; [apply tot_doubles|apply rpost_doubles; auto]. Qed.

Create HintDb rps discriminated.
#[export] Hint Resolve rps_value rps_uvalue rps_int8 rps_int16 rps_int32 rps_uint8 rps_uint16
  rps_uint32 rps_str rps_str_with_len rps_str_all rps_double rps_read_bytes rps_read_all
  rps_repeat rps_range : rps.
Create HintDb wrt discriminated.
#[export] Hint Resolve wrt_value wrt_uvalue wrt_int8 wrt_int16 wrt_int32 wrt_uint8 wrt_uint16
  wrt_uint32 wrt_str_with_len wrt_double : wrt.

(** ** Fixed layouts: on exactly [n] bytes the reader succeeds and returns a value related to them *)
Definition rfix {A} (n : nat) (r : rd A) (Q : A -> bytes -> Prop) : Prop :=
  forall b rest, length b = n -> bytes_ok b -> exists a, r (b ++ rest) = ROk a rest /\ Q a b.

Lemma rfix_ret : forall A (a : A) (Q : A -> bytes -> Prop), Q a [] -> rfix 0 (ret a) Q.
Proof.
  intros A a Q H b rest L _. destruct b; [|discriminate]. exists a. split; [reflexivity|exact H].
Qed.
Lemma rfix_bind : forall A B n m (r : rd A) (k : A -> rd B) P Q,
  rfix n r P -> (forall a b1, P a b1 -> rfix m (k a) (fun c b2 => Q c (b1 ++ b2))) ->
  rfix (n + m) (rbind r k) Q.
Proof.
  intros A B n m r k P Q Hr Hk b rest L O.
  rewrite <- (firstn_skipn n b) in O |- *. apply bytes_ok_app in O. destruct O as [O1 O2].
  destruct (Hr (firstn n b) (skipn n b ++ rest)) as (a & E & Pa); auto.
  { rewrite firstn_length. lia. }
  destruct (Hk a _ Pa (skipn n b) rest) as (c & E2 & Q2); auto.
  { rewrite skipn_length. lia. }
  exists c. rewrite <- app_assoc. unfold rbind. rewrite E. split; auto.
Qed.
Lemma rfix_weaken : forall A n (r : rd A) (P Q : A -> bytes -> Prop),
  rfix n r P -> (forall a b, P a b -> Q a b) -> rfix n r Q.
Proof. intros A n r P Q H HPQ b rest L O. destruct (H b rest L O) as (a & E & Pa). eauto. Qed.
Lemma rfix_repeat : forall A n k (r : rd A) (w : A -> wr),
  rfix k r (fun a b => w a = Ok b) ->
  rfix (n * k) (rrepeat n r) (fun l b => length l = n /\ wlist w l = Ok b).
Proof.
  induction n as [|n IH]; intros k r w H.
  - apply rfix_ret. split; reflexivity.
  - cbn [rrepeat]. change (S n * k)%nat with (k + n * k)%nat.
    eapply rfix_bind; [exact H|]. intros a b1 E1.
    replace (n * k)%nat with (n * k + 0)%nat by lia.
    eapply rfix_bind; [apply IH; exact H|]. intros l b2 [L2 E2].
    apply rfix_ret. cbn [length wlist]. rewrite E1, E2, app_nil_r. split; [lia|reflexivity].
Qed.
Lemma rfix_run : forall A n (r : rd A) Q data, rfix n r Q -> length data = n -> bytes_ok data ->
  exists a, run_parser r data = Ok a /\ Q a data.
Proof.
  intros A n r Q data H L O. destruct (H data [] L O) as (a & E & Qa). exists a.
  rewrite app_nil_r in E. unfold run_parser. rewrite E. auto.
Qed.

Lemma rfix_bytes : forall A n (f : bytes -> A) (Q : A -> bytes -> Prop),
  (forall b, length b = n -> bytes_ok b -> Q (f b) b) ->
  rfix n (b <- read_bytes (Z.of_nat n) ;; ret (f b)) Q.
Proof.
  intros A n f Q H b rest L O. exists (f b). unfold rbind, read_bytes.
  rewrite take_app_exact, drop_app_exact by lia. split; [reflexivity|auto].
Qed.
Lemma to_bytes_u_dec : forall n b, length b = n -> bytes_ok b -> to_bytes_u n (le_dec b) = Ok b.
Proof.
  intros n b <- O. unfold to_bytes_u, urange, in_range. pose proof (le_dec_range b O) as H.
  destruct ((0 <=? _) && _) eqn:E; [|lia]. rewrite le_enc_dec; auto.
Qed.
Lemma to_bytes_s_dec : forall n b, (0 < n)%nat -> length b = n -> bytes_ok b ->
  to_bytes_s n (le_dec_s b) = Ok b.
Proof.
  intros n b Hn <- O. unfold to_bytes_s, srange, in_range. pose proof (le_dec_s_range b O Hn) as H.
  destruct ((_ <=? _) && _) eqn:E; [|lia]. rewrite le_enc_dec_s; auto.
Qed.
Lemma rfix_uint8 : rfix 1 read_uint8 (fun v b => write_uint8 v = Ok b).
Proof. apply (rfix_bytes _ 1). intros. apply to_bytes_u_dec; auto. Qed.
Lemma rfix_uint16 : rfix 2 read_uint16 (fun v b => write_uint16 v = Ok b).
Proof. apply (rfix_bytes _ 2). intros. apply to_bytes_u_dec; auto. Qed.
Lemma rfix_uint32 : rfix 4 read_uint32 (fun v b => write_uint32 v = Ok b).
Proof. apply (rfix_bytes _ 4). intros. apply to_bytes_u_dec; auto. Qed.
Lemma rfix_int8 : rfix 1 read_int8 (fun v b => write_int8 v = Ok b).
Proof. apply (rfix_bytes _ 1). intros. apply to_bytes_s_dec; auto. Qed.
Lemma rfix_int16 : rfix 2 read_int16 (fun v b => write_int16 v = Ok b).
Proof. apply (rfix_bytes _ 2). intros. apply to_bytes_s_dec; auto; lia. Qed.
Lemma rfix_int32 : rfix 4 read_int32 (fun v b => write_int32 v = Ok b).
Proof. apply (rfix_bytes _ 4). intros. apply to_bytes_s_dec; auto; lia. Qed.
Lemma write_double_dec : forall b, length b = 8%nat -> bytes_ok b -> write_double (le_dec b) = Ok b.
Proof.
  intros b L O. unfold write_double, pack_le_u, urange, in_range.
  pose proof (le_dec_range b O) as H. rewrite L in H.
  destruct ((0 <=? _) && _) eqn:E; [|lia]. rewrite <- L, le_enc_dec; auto.
Qed.
Lemma rfix_double : rfix 8 read_double (fun v b => write_double v = Ok b).
Proof.
  intros b rest L O. exists (le_dec b). unfold read_double, rbind, read_bytes.
  rewrite take_app_exact, drop_app_exact by lia. rewrite L.
  change (Z.of_nat 8 =? 8) with true. split; [reflexivity|]. apply write_double_dec; auto.
Qed.
Lemma rfix_doubles : forall n, rfix (n * 8) (read_doubles (Z.of_nat n))
  (fun l b => length l = n /\ wlist write_double l = Ok b).
Proof.
  intros n b rest L O. exists (map le_dec (chunks n 8 b)). unfold read_doubles, rbind, read_bytes.
  rewrite take_app_exact, drop_app_exact by lia.
  replace (Z.of_nat (length b) =? Z.of_nat n * 8) with true by lia. rewrite Nat2Z.id.
  split; [reflexivity|]. split; [rewrite map_length; apply chunks_count|].
  revert b L O. induction n as [|n IH]; intros b L O.
  - destruct b; [reflexivity|discriminate].
  - cbn [chunks map wlist]. rewrite <- (firstn_skipn 8 b) in O. apply bytes_ok_app in O.
    destruct O as [O1 O2].
    rewrite write_double_dec; [|rewrite firstn_length; lia|exact O1].
    rewrite IH; [|rewrite skipn_length; lia|exact O2].
    cbn [wseq]. rewrite firstn_skipn. reflexivity.
Qed.
