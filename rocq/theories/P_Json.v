(** Reading back what [dump] writes. *)
From Coq Require Import String ZifyBool ZifyNat.
From Verif Require Import Base M_Py M_Json S_Encoding S_Json S_Dump Lib P_Dec.
Local Open Scope list_scope.

Section ind.
  Variable P : pyval -> Prop.
  Hypothesis HN : P PNone.
  Hypothesis HB : forall b, P (PBool b).
  Hypothesis HI : forall n, P (PInt n).
  Hypothesis HF : forall x, P (PFloat x).
  Hypothesis HS : forall s, P (PStr s).
  Hypothesis HL : forall l, Forall P l -> P (PList l).
  Hypothesis HD : forall d, Forall (fun p => P (snd p)) d -> P (PDict d).
  Fixpoint pyval_ind2 (v : pyval) : P v :=
    match v with
    | PNone => HN
    | PBool b => HB b
    | PInt n => HI n
    | PFloat x => HF x
    | PStr s => HS s
    | PList l => HL l ((fix go l : Forall P l := match l with [] => Forall_nil P | x :: l => Forall_cons x (pyval_ind2 x) (go l) end) l)
    | PDict d => HD d ((fix go d : Forall (fun p => P (snd p)) d :=
        match d with [] => Forall_nil _ | p :: d => Forall_cons p (pyval_ind2 (snd p)) (go d) end) d)
    end.
End ind.

(** ** Numbers *)
Definition stops (s : pystr) : Prop := match s with [] => True | c :: _ => number_char c = false end.
Lemma span_all : forall p a r, Forall (fun c => p c = true) a -> match r with [] => True | c :: _ => p c = false end ->
  span p (a ++ r) = (a, r).
Proof.
  intros p a r H Hr. induction H as [|c a Hc _ IH].
  - destruct r as [|c r]; [reflexivity|]. cbn [app span]. now rewrite Hr.
  - cbn [app span]. now rewrite Hc, IH.
Qed.
Lemma span_split : forall p s, exists a, s = a ++ snd (span p s) /\ Forall (fun c => p c = true) a.
Proof.
  intros p s. induction s as [|c s (a & E & H)]; [exists []; auto|]. cbn [span]. destruct (p c) eqn:Hc.
  - destruct (span p s) as [x y]. cbn [snd] in *. exists (c :: a). split; [cbn [app]; now f_equal|now constructor].
  - exists []. auto.
Qed.
Lemma digit_number : forall c, digit c = true -> number_char c = true.
Proof. intros c H. unfold number_char. now rewrite H. Qed.
Lemma digits_number : forall a, Forall (fun c => digit c = true) a -> Forall (fun c => number_char c = true) a.
Proof. intros a H. eapply Forall_impl; [|exact H]. apply digit_number. Qed.
Notation nums a := (Forall (fun c => number_char c = true) a).
Lemma digits_part : forall s r, digits s = Some r -> exists a, s = a ++ r /\ nums a.
Proof.
  intros [|c s] r H; [discriminate|]. cbn [digits] in H. destruct (digit c) eqn:D; [|discriminate]. injection H as <-.
  destruct (span_split digit s) as (a & E & F). exists (c :: a). split; [cbn [app]; now f_equal|].
  constructor; [now apply digit_number|now apply digits_number].
Qed.
Lemma int_part_part : forall s r, int_part s = Some r -> exists a, s = a ++ r /\ nums a.
Proof.
  assert (G : forall s r, match s with c :: r => if c =? 48 then Some r else digits s | [] => None end = Some r -> exists a, s = a ++ r /\ nums a).
  { intros [|c s] r H; [discriminate|]. destruct (c =? 48) eqn:E; [|now apply digits_part]. injection H as <-.
    exists [c]. split; [reflexivity|]. constructor; [|constructor]. apply Z.eqb_eq in E. subst. reflexivity. }
  intros [|c s] r H; [discriminate|]. cbn [int_part] in H. destruct (c =? 45) eqn:E; [|now apply G].
  apply G in H. destruct H as (a & -> & F). exists (c :: a). split; [reflexivity|]. constructor; [|assumption].
  apply Z.eqb_eq in E. subst. reflexivity.
Qed.
Lemma frac_part_part : forall s r, frac_part s = Some r -> exists a, s = a ++ r /\ nums a.
Proof.
  intros [|c s] r H; [injection H as <-; exists []; auto|]. cbn [frac_part] in H. destruct (c =? 46) eqn:E.
  - apply digits_part in H. destruct H as (a & -> & F). exists (c :: a). split; [reflexivity|]. constructor; [|assumption].
    apply Z.eqb_eq in E. subst. reflexivity.
  - injection H as <-. exists []. auto.
Qed.
Lemma exp_part_part : forall s r, exp_part s = Some r -> exists a, s = a ++ r /\ nums a.
Proof.
  intros [|c s] r H; [injection H as <-; exists []; auto|]. cbn [exp_part] in H. destruct ((c =? 69) || (c =? 101)) eqn:E.
  - assert (Hc : number_char c = true) by (unfold number_char; cbn [existsb]; lia). destruct s as [|d s]; [discriminate|].
    destruct ((d =? 43) || (d =? 45)) eqn:E2.
    + apply digits_part in H. destruct H as (a & -> & F). exists (c :: d :: a). split; [reflexivity|].
      constructor; [assumption|]. constructor; [|assumption]. unfold number_char; cbn [existsb]; lia.
    + apply digits_part in H. destruct H as (a & H & F). exists (c :: a). split; [cbn [app]; now f_equal|now constructor].
  - injection H as <-. exists []. auto.
Qed.
Lemma is_number_nums : forall t, is_number t = true -> nums t.
Proof.
  intros t H. unfold is_number in H. destruct (int_part t) as [r|] eqn:E1; [|discriminate].
  destruct (frac_part r) as [r2|] eqn:E2; [|discriminate]. destruct (exp_part r2) as [[|]|] eqn:E3; try discriminate.
  apply int_part_part in E1. apply frac_part_part in E2. apply exp_part_part in E3.
  destruct E1 as (a & -> & A), E2 as (b & -> & B), E3 as (c & -> & C). rewrite app_nil_r. rewrite !Forall_app. auto.
Qed.
Lemma is_number_head : forall t, is_number t = true -> exists c s, t = c :: s /\ (c = 45 \/ 48 <= c <= 57).
Proof.
  intros [|c s] H; [discriminate|]. exists c, s. split; [reflexivity|]. unfold is_number in H. cbn [int_part] in H.
  destruct (c =? 45) eqn:E; [lia|]. destruct (c =? 48) eqn:E2; [lia|]. cbn [digits] in H. destruct (digit c) eqn:D; [|discriminate].
  unfold digit in D. lia.
Qed.
Lemma is_int_number : forall t, is_int t = true -> is_number t = true.
Proof. intros t H. unfold is_int, is_number in *. destruct (int_part t) as [[|]|]; [reflexivity|discriminate|discriminate]. Qed.
Lemma literal_number : forall t j rest, is_number t = true -> number_of t = Some j -> stops rest -> literal (t ++ rest) = Some (j, rest).
Proof.
  intros t j rest H Hj Hr. pose proof (is_number_nums t H) as F. destruct (is_number_head t H) as (c & s & -> & Hc). unfold literal.
  assert (A : forall x w, x <> 45 -> ~ 48 <= x <= 57 -> after (x :: w) ((c :: s) ++ rest) = None).
  { intros x w H1 H2. cbn [app after]. destruct (x =? c) eqn:E; [lia|reflexivity]. }
  change (py "null") with (110 :: py "ull"). change (py "true") with (116 :: py "rue"). change (py "false") with (102 :: py "alse").
  rewrite !A by lia. rewrite span_all; [now rewrite Hj|assumption|]. destruct rest as [|d r]; [exact Logic.I|exact Hr].
Qed.
Lemma digits_value_val : forall s n, digits_value n s = fold_left (fun acc c => acc * 10 + (c - 48)) s n.
Proof. induction s as [|c s IH]; intros n; [reflexivity|]. cbn [digits_value fold_left]. apply IH. Qed.
Lemma dec_digits_head : forall f n, 0 < n < 2 ^ Z.of_nat f -> exists c s, dec_digits f n = c :: s /\ c <> 48.
Proof.
  induction f as [|f IH]; intros n H; [cbn in H; lia|]. cbn [dec_digits]. destruct (n <? 10) eqn:E.
  - exists (48 + n), []. split; [reflexivity|lia].
  - destruct (IH (n / 10)) as (c & s & -> & Hc); [|exists c, (s ++ [48 + n mod 10]); auto].
    rewrite Nat2Z.inj_succ, Z.pow_succ_r in H by lia. split; [|apply Z.div_lt_upper_bound; lia]. apply Z.div_str_pos. lia.
Qed.
Lemma dec_nat_head : forall n, 0 < n -> exists c s, dec_nat n = c :: s /\ c <> 48.
Proof.
  intros n H. apply dec_digits_head. split; [assumption|]. pose proof (Z.log2_spec n H) as [_ L]. pose proof (Z.log2_nonneg n).
  replace (Z.of_nat (Datatypes.S (Z.to_nat (Z.log2 n)))) with (Z.succ (Z.log2 n)) by lia. exact L.
Qed.
Lemma digits_all : forall s, s <> [] -> Forall (fun c => 48 <= c <= 57) s -> digits s = Some [].
Proof.
  intros [|c s] N H; [congruence|]. apply Forall_cons_iff in H. destruct H as (Hc & H). cbn [digits].
  replace (digit c) with true by (unfold digit; lia). rewrite <- (app_nil_r s), span_all; [reflexivity| |exact Logic.I].
  eapply Forall_impl; [|exact H]. cbv beta. intros a Ha. unfold digit. lia.
Qed.
Lemma dec_str_number : forall n, is_int (dec_str n) = true /\ int_value (dec_str n) = n.
Proof.
  intros n.
  assert (G : forall n, 0 <= n -> exists c s, dec_nat n = c :: s /\ c <> 45 /\ (if c =? 48 then Some s else digits (c :: s)) = Some []).
  { intros m Hm. pose proof (dec_nat_digits m Hm) as D. pose proof (dec_nat_nonempty m) as N. destruct (Z.eq_dec m 0) as [->|Nz].
    - exists 48, []. split; [reflexivity|split; [lia|reflexivity]].
    - destruct (dec_nat_head m ltac:(lia)) as (c & s & E & Hc). exists c, s. split; [assumption|]. rewrite E in *.
      replace (c =? 48) with false by lia. split; [|now apply digits_all]. apply Forall_inv in D. lia. }
  unfold dec_str. destruct (n <? 0) eqn:E.
  - destruct (G (- n) ltac:(lia)) as (c & s & Es & Hc & D). pose proof (dec_nat_val (- n) ltac:(lia)) as V. rewrite Es in *.
    split; [unfold is_int; cbn [int_part]; rewrite Z.eqb_refl; now rewrite D|]. cbn [int_value]. rewrite Z.eqb_refl, digits_value_val.
    unfold dec_val in V. rewrite V. lia.
  - destruct (G n ltac:(lia)) as (c & s & Es & Hc & D). pose proof (dec_nat_val n ltac:(lia)) as V. rewrite Es in *.
    split.
    + unfold is_int. cbn [int_part]. replace (c =? 45) with false by lia. now rewrite D.
    + cbn [int_value]. replace (c =? 45) with false by lia. rewrite digits_value_val. exact V.
Qed.

(** ** Strings *)
Lemma hex_value_char : forall n, 0 <= n < 16 -> hex_value (hex_char n) = Some n.
Proof.
  intros n H. unfold hex_value, hex_char, digit. destruct (n <? 10) eqn:E.
  - replace ((48 <=? 48 + n) && (48 + n <=? 57)) with true by lia. f_equal. lia.
  - replace ((48 <=? 87 + n) && (87 + n <=? 57)) with false by lia. replace ((97 <=? 87 + n) && (87 + n <=? 102)) with true by lia. f_equal. lia.
Qed.
Lemma chars_escape : forall c r, 0 <= c -> chars (escape c ++ r) = match chars r with Some (t, r) => Some (c :: t, r) | None => None end.
Proof.
  intros c r H. unfold escape.
  destruct (c =? 34) eqn:E1; [apply Z.eqb_eq in E1; subst; reflexivity|].
  destruct (c =? 92) eqn:E2; [apply Z.eqb_eq in E2; subst; reflexivity|].
  destruct (c =? 8) eqn:E3; [apply Z.eqb_eq in E3; subst; reflexivity|].
  destruct (c =? 9) eqn:E4; [apply Z.eqb_eq in E4; subst; reflexivity|].
  destruct (c =? 10) eqn:E5; [apply Z.eqb_eq in E5; subst; reflexivity|].
  destruct (c =? 12) eqn:E6; [apply Z.eqb_eq in E6; subst; reflexivity|].
  destruct (c =? 13) eqn:E7; [apply Z.eqb_eq in E7; subst; reflexivity|].
  destruct (c <? 32) eqn:E8.
  - pose proof (Z.mod_pos_bound c 16 ltac:(lia)). pose proof (Z.div_mod c 16 ltac:(lia)).
    pose proof (hex_value_char (c / 16) ltac:(split; [apply Z.div_pos; lia|apply Z.div_lt_upper_bound; lia])) as A.
    pose proof (hex_value_char (c mod 16) ltac:(lia)) as B. cbn [app chars]. change (92 =? 34) with false. change (92 =? 92) with true.
    change (117 =? 117) with true. cbv iota. change (hex_value 48) with (Some 0). rewrite A, B. cbv iota.
    replace (((0 * 16 + 0) * 16 + c / 16) * 16 + c mod 16) with c by lia. reflexivity.
  - cbn [app chars]. rewrite E1, E2, E8. reflexivity.
Qed.
Lemma chars_quoted : forall s r, text_ok s = true -> chars (concat (map escape s) ++ 34 :: r) = Some (s, r).
Proof.
  induction s as [|c s IH]; intros r H; [reflexivity|]. cbn [text_ok forallb] in H. apply andb_prop in H. destruct H as (Hc & H).
  cbn [map concat]. rewrite <- app_assoc, chars_escape, IH; [reflexivity|exact H|]. unfold char_text_ok, in_range in Hc. lia.
Qed.

(** ** Values *)
Lemma skip_newline : forall n s, skip (newline n ++ s) = skip s.
Proof. intros n s. unfold newline. cbn [app skip]. change (blank 10) with true. cbv iota. generalize (2 * n)%nat. induction n0 as [|k IH]; [reflexivity|]. cbn [repeat app skip]. exact IH. Qed.
Lemma rd_value_newline : forall f n s, rd_value f (newline n ++ s) = rd_value f s.
Proof. intros [|f] n s; [reflexivity|]. cbn [rd_value]. now rewrite skip_newline. Qed.
Lemma stops_newline : forall n s, stops (newline n ++ s).
Proof. intros n s. reflexivity. Qed.

Section dump.
  Variable number : fval -> option pystr.
  Hypothesis Hnum : forall x t, number x = Some t -> is_number t = true /\ is_int t = false.
  Notation dump := (dump number). Notation shown := (shown number).

  Lemma dump_head : forall n v, exists c s, dump n v = c :: s /\ blank c = false /\ c <> 93 /\ c <> 125.
  Proof.
    assert (L : forall t, match t with c :: _ => blank c = false /\ c <> 93 /\ c <> 125 | [] => False end ->
      exists c s, t = c :: s /\ blank c = false /\ c <> 93 /\ c <> 125) by (intros [|c s] H; [destruct H|exists c, s; auto]).
    assert (N : forall c, c = 45 \/ 48 <= c <= 57 -> blank c = false /\ c <> 93 /\ c <> 125) by (intros; unfold blank; lia).
    intros n [|bo|z|x|s|[|x l]|[|x d]]; cbn [M_Json.dump]; apply L; try (split; [reflexivity|split; discriminate]).
    - destruct bo; (split; [reflexivity|split; discriminate]).
    - destruct (dec_str_head z) as (c & s & -> & Hc). now apply N.
    - destruct (number x) as [t|] eqn:E; [|split; [reflexivity|split; discriminate]]. destruct (Hnum x t E) as (H & _).
      destruct (is_number_head t H) as (c & s & -> & Hc). now apply N.
  Qed.

  Definition reads (v : pyval) : Prop := dumpable v = true -> forall n f rest, stops rest -> (length (dump n v) <= f)%nat ->
    rd_value f (dump n v ++ rest) = Some (shown v, rest).

  Lemma reads_number : forall t j f rest, is_number t = true -> number_of t = Some j -> stops rest -> (length t <= f)%nat ->
    rd_value f (t ++ rest) = Some (j, rest).
  Proof.
    intros t j f rest H Hj Hr Hf. destruct (is_number_head t H) as (c & s & Et & Hc). destruct f as [|f]; [subst t; cbn in Hf; lia|].
    pose proof (literal_number t j rest H Hj Hr) as L. subst t. cbn [rd_value app skip]. replace (blank c) with false by (unfold blank; lia).
    replace (c =? 34) with false by lia. replace (c =? 91) with false by lia. replace (c =? 123) with false by lia. exact L.
  Qed.
  Lemma reads_null : forall f rest, (4 <= f)%nat -> rd_value f (py "null" ++ rest) = Some (JsNull, rest).
  Proof. intros [|f] rest H; [lia|]. reflexivity. Qed.

  Lemma after_app : forall w s, after w (w ++ s) = Some s.
  Proof. induction w as [|c w IH]; intros s; [reflexivity|]. cbn [app after]. now rewrite Z.eqb_refl. Qed.
  Lemma commas_cons : forall x y l, commas (x :: y :: l) = x ++ 44 :: commas (y :: l).
  Proof. reflexivity. Qed.

  Lemma read_items : forall n l f rest, l <> [] -> Forall reads l -> forallb dumpable l = true ->
    (length (commas (map (fun x => newline (S n) ++ dump (S n) x) l)) < f)%nat ->
    rd_items f (commas (map (fun x => newline (S n) ++ dump (S n) x) l) ++ newline n ++ py "]" ++ rest) = Some (map shown l, rest).
  Proof.
    intros n l. induction l as [|x l IH]; intros f rest N F D Hf; [congruence|]. apply Forall_cons_iff in F. destruct F as (Fx & F).
    cbn [forallb] in D. apply andb_prop in D. destruct D as (Dx & D). destruct f as [|f]; [lia|].
    destruct l as [|y l].
    - cbn [map commas] in *. rewrite app_length in Hf. cbn [rd_items]. rewrite <- app_assoc, rd_value_newline, Fx; [|assumption|apply stops_newline|lia].
      rewrite skip_newline. reflexivity.
    - cbn [map] in *. rewrite commas_cons in *. rewrite !app_length in Hf. cbn [length] in Hf.
      cbn [rd_items]. rewrite <- app_assoc, <- app_assoc, rd_value_newline. rewrite <- app_comm_cons.
      rewrite Fx; [|assumption|reflexivity|lia].
      match goal with |- context[after (py ",") (skip (44 :: ?s))] => change (after (py ",") (skip (44 :: s))) with (Some s) end. cbv iota.
      rewrite IH; [reflexivity|discriminate|assumption|assumption|]. lia.
  Qed.

  Lemma read_members : forall n d f rest, d <> [] -> Forall (fun p => reads (snd p)) d ->
    forallb (fun p => text_ok (fst p) && dumpable (snd p)) d = true ->
    (length (commas (map (fun p => newline (S n) ++ quoted (fst p) ++ py ": " ++ dump (S n) (snd p)) d)) < f)%nat ->
    rd_members f (commas (map (fun p => newline (S n) ++ quoted (fst p) ++ py ": " ++ dump (S n) (snd p)) d) ++ newline n ++ py "}" ++ rest) =
    Some (map (fun p => (fst p, shown (snd p))) d, rest).
  Proof.
    intros n d. induction d as [|[k x] d IH]; intros f rest N F D Hf; [congruence|]. apply Forall_cons_iff in F. destruct F as (Fx & F).
    cbn [forallb fst snd] in D, Fx. apply andb_prop in D. destruct D as (Dx & D). apply andb_prop in Dx. destruct Dx as (Dk & Dx).
    destruct f as [|f]; [lia|].
    assert (Q : forall r, rd_members (S f) (newline (S n) ++ quoted k ++ py ": " ++ dump (S n) x ++ r) =
      match rd_value f (dump (S n) x ++ r) with
      | Some (x, r) =>
          match after (py ",") (skip r) with
          | Some r => match rd_members f r with Some (d, r) => Some ((k, x) :: d, r) | None => None end
          | None => match after (py "}") (skip r) with Some r => Some ([(k, x)], r) | None => None end
          end
      | None => None
      end).
    { intros r. cbn [rd_members]. rewrite skip_newline. unfold quoted. cbn [app skip]. change (blank 34) with false. change (34 =? 34) with true. cbv iota.
      rewrite <- app_assoc. cbn [app]. rewrite chars_quoted by assumption.
      assert (R : rd_value f (32 :: dump (S n) x ++ r) = rd_value f (dump (S n) x ++ r)) by (destruct f; reflexivity).
      rewrite <- R. reflexivity. }
    destruct d as [|y d].
    - cbn [map commas fst snd] in *. rewrite !app_length in Hf. rewrite <- !app_assoc, Q, Fx; [|assumption|apply stops_newline|lia].
      rewrite skip_newline. reflexivity.
    - cbn [map] in *. rewrite commas_cons in *. cbn [fst snd] in *. rewrite !app_length in Hf. cbn [length] in Hf.
      rewrite <- !app_assoc. rewrite <- app_comm_cons. rewrite Q.
      rewrite Fx; [|assumption|reflexivity|lia].
      match goal with |- context[after (py ",") (skip (44 :: ?s))] => change (after (py ",") (skip (44 :: s))) with (Some s) end. cbv iota.
      rewrite IH; [reflexivity|discriminate|assumption|assumption|]. lia.
  Qed.

  Lemma read_dump : forall v, reads v.
  Proof.
    induction v as [|bo|z|x|s|l IH|d IH] using pyval_ind2; intros D n f rest Hr Hf.
    - now apply reads_null.
    - cbn [M_Json.dump S_Dump.shown] in *. destruct bo; (destruct f as [|f]; [cbn in Hf; lia|reflexivity]).
    - cbn [M_Json.dump S_Dump.shown] in *. destruct (dec_str_number z) as (A & B).
      apply reads_number; [now apply is_int_number| |assumption|assumption]. unfold number_of. now rewrite A, B.
    - cbn [M_Json.dump S_Dump.shown] in *. destruct (number x) as [t|] eqn:E; [|now apply reads_null].
      destruct (Hnum x t E) as (A & B). apply reads_number; try assumption. unfold number_of. now rewrite A, B.
    - cbn [M_Json.dump S_Dump.shown dumpable] in *. destruct f as [|f]; [cbn in Hf; lia|]. unfold quoted. cbn [app rd_value skip].
      change (blank 34) with false. change (34 =? 34) with true. cbv iota. rewrite <- app_assoc. cbn [app]. now rewrite chars_quoted.
    - destruct f as [|f]; [destruct (dump_head n (PList l)) as (c & s & E & _); rewrite E in Hf; cbn in Hf; lia|].
      destruct l as [|x l]; [reflexivity|]. set (L := x :: l) in *.
      assert (E : dump n (PList L) = py "[" ++ commas (map (fun x => newline (S n) ++ dump (S n) x) L) ++ newline n ++ py "]") by reflexivity.
      rewrite E in *. rewrite !app_length in Hf. cbn [length py] in Hf. change (length (py "[")) with 1%nat in Hf. change (length (py "]")) with 1%nat in Hf.
      pose proof (read_items n L f rest ltac:(discriminate) IH D ltac:(lia)) as R.
      rewrite <- !app_assoc. assert (B : after (py "]") (skip (commas (map (fun x => newline (S n) ++ dump (S n) x) L) ++ newline n ++ py "]" ++ rest)) = None).
      { assert (C : exists r, commas (map (fun x => newline (S n) ++ dump (S n) x) L) = newline (S n) ++ dump (S n) x ++ r).
        { subst L. destruct l as [|y l]; [exists []; now rewrite app_nil_r|]. cbn [map]. rewrite commas_cons, <- app_assoc. eexists. reflexivity. }
        destruct C as (r & C). rewrite C, <- !app_assoc, skip_newline. destruct (dump_head (S n) x) as (c & s & Ec & Bc & N1 & N2). rewrite Ec.
        cbn [app skip]. rewrite Bc. change (py "]") with [93]. cbn [after]. now replace (93 =? c) with false by lia. }
      cbn [rd_value].
      match goal with |- context[skip (py "[" ++ ?s)] => change (skip (py "[" ++ s)) with (91 :: s) end. cbv iota.
      change (91 =? 34) with false. change (91 =? 91) with true. cbv iota. rewrite B, R. reflexivity.
    - destruct f as [|f]; [destruct (dump_head n (PDict d)) as (c & s & E & _); rewrite E in Hf; cbn in Hf; lia|].
      destruct d as [|[k x] d]; [reflexivity|]. set (L := (k, x) :: d) in *.
      assert (E : dump n (PDict L) = py "{" ++ commas (map (fun p => newline (S n) ++ quoted (fst p) ++ py ": " ++ dump (S n) (snd p)) L) ++ newline n ++ py "}") by reflexivity.
      rewrite E in *. rewrite !app_length in Hf. cbn [length py] in Hf. change (length (py "{")) with 1%nat in Hf. change (length (py "}")) with 1%nat in Hf.
      pose proof (read_members n L f rest ltac:(discriminate) IH D ltac:(lia)) as R.
      rewrite <- !app_assoc. assert (B : after (py "}") (skip (commas (map (fun p => newline (S n) ++ quoted (fst p) ++ py ": " ++ dump (S n) (snd p)) L) ++ newline n ++ py "}" ++ rest)) = None).
      { assert (C : exists r, commas (map (fun p => newline (S n) ++ quoted (fst p) ++ py ": " ++ dump (S n) (snd p)) L) = newline (S n) ++ 34 :: r).
        { subst L. destruct d as [|y d]; [eexists; reflexivity|]. cbn [map]. rewrite commas_cons, <- app_assoc. eexists. reflexivity. }
        destruct C as (r & C). rewrite C, <- !app_assoc, skip_newline. reflexivity. }
      cbn [rd_value].
      match goal with |- context[skip (py "{" ++ ?s)] => change (skip (py "{" ++ s)) with (123 :: s) end. cbv iota.
      change (123 =? 34) with false. change (123 =? 91) with false. change (123 =? 123) with true. cbv iota. rewrite B, R. reflexivity.
  Qed.

  Theorem loads_dump : forall v, dumpable v = true -> loads (dump 0 v) = Some (shown v).
  Proof.
    intros v D. unfold loads. pose proof (read_dump v D 0%nat (length (dump 0 v)) [] Logic.I (le_n _)) as R. rewrite app_nil_r in R. now rewrite R.
  Qed.
End dump.

(** ** UTF-8 *)
Lemma cons_eq : forall (a b : Z) x y, a :: x = b :: y -> a = b /\ x = y.
Proof. intros a b x y H. injection H as -> ->. auto. Qed.
Lemma utf8_char_inj : forall c d x y, char_ok c -> char_ok d -> utf8_char c ++ x = utf8_char d ++ y -> c = d /\ x = y.
Proof.
  unfold char_ok, utf8_char. intros c d x y Hc Hd E.
  destruct (c <? 0x80) eqn:C1; [|destruct (c <? 0x800) eqn:C2; [|destruct (c <? 0x10000) eqn:C3]];
    (destruct (d <? 0x80) eqn:D1; [|destruct (d <? 0x800) eqn:D2; [|destruct (d <? 0x10000) eqn:D3]]);
    cbn [app] in E; repeat match goal with H : _ :: _ = _ :: _ |- _ => apply cons_eq in H; destruct H as (? & H) end;
    try (exfalso; Z.to_euclidean_division_equations; lia); (split; [Z.to_euclidean_division_equations; lia|assumption]).
Qed.
Lemma utf8_char_nonempty : forall c, utf8_char c <> [].
Proof. intros c. unfold utf8_char. destruct (c <? 0x80), (c <? 0x800), (c <? 0x10000); discriminate. Qed.
Lemma utf8_inj : forall a b, Forall char_ok a -> Forall char_ok b -> utf8 a = utf8 b -> a = b.
Proof.
  unfold utf8. induction a as [|c a IH]; intros [|d b] Ha Hb E; [reflexivity| | |]; cbn [map concat] in E.
  - symmetry in E. apply app_eq_nil in E. destruct E as (E & _). now apply utf8_char_nonempty in E.
  - apply app_eq_nil in E. destruct E as (E & _). now apply utf8_char_nonempty in E.
  - apply Forall_cons_iff in Ha. apply Forall_cons_iff in Hb. destruct Ha as (Hc & Ha), Hb as (Hd & Hb).
    apply utf8_char_inj in E; [|assumption|assumption]. destruct E as (-> & E). f_equal. now apply IH.
Qed.
Lemma quoted_chars : forall s, text_ok s = true -> Forall char_ok (quoted s).
Proof.
  intros s H. unfold quoted. constructor; [unfold char_ok; lia|]. apply Forall_app. split; [|constructor; [unfold char_ok; lia|constructor]].
  apply Forall_concat, Forall_map. rewrite Forall_forall. intros c Hc. unfold text_ok in H. rewrite forallb_forall in H. specialize (H c Hc).
  unfold char_text_ok, in_range in H. unfold escape.
  destruct (c =? 34); [repeat constructor; unfold char_ok; lia|].
  destruct (c =? 92); [repeat constructor; unfold char_ok; lia|].
  destruct (c =? 8); [repeat constructor; unfold char_ok; lia|].
  destruct (c =? 9); [repeat constructor; unfold char_ok; lia|].
  destruct (c =? 10); [repeat constructor; unfold char_ok; lia|].
  destruct (c =? 12); [repeat constructor; unfold char_ok; lia|].
  destruct (c =? 13); [repeat constructor; unfold char_ok; lia|].
  destruct (c <? 32) eqn:E; [|constructor; [unfold char_ok; lia|constructor]].
  assert (G : forall n, 0 <= n < 16 -> char_ok (hex_char n)) by (intros n Hn; unfold char_ok, hex_char; destruct (n <? 10); lia).
  repeat apply Forall_cons; try apply Forall_nil; try (unfold char_ok; lia); apply G; Z.to_euclidean_division_equations; lia.
Qed.
Lemma nums_chars : forall t, nums t -> Forall char_ok t.
Proof. intros t H. eapply Forall_impl; [|exact H]. cbv beta. intros c Hc. unfold char_ok. unfold number_char, digit in Hc. cbn [existsb] in Hc. lia. Qed.
Lemma newline_chars : forall n, Forall char_ok (newline n).
Proof. intros n. unfold newline. constructor; [unfold char_ok; lia|]. apply Forall_forall. intros c H. apply repeat_spec in H. subst. unfold char_ok. lia. Qed.
Lemma commas_chars : forall l, Forall (Forall char_ok) l -> Forall char_ok (commas l).
Proof.
  induction l as [|x l IH]; intros H; [constructor|]. apply Forall_cons_iff in H. destruct H as (Hx & H). destruct l as [|y l]; [exact Hx|].
  rewrite commas_cons. apply Forall_app. split; [assumption|]. constructor; [unfold char_ok; lia|now apply IH].
Qed.
Lemma dump_chars : forall number, (forall x t, number x = Some t -> is_number t = true /\ is_int t = false) ->
  forall v, dumpable v = true -> forall n, Forall char_ok (dump number n v).
Proof.
  assert (P : forall s, forallb (fun c => (0 <=? c) && (c <? 128)) s = true -> Forall char_ok s).
  { intros s H. rewrite forallb_forall in H. apply Forall_forall. intros c Hc. specialize (H c Hc). unfold char_ok. lia. }
  intros number Hnum. induction v as [|bo|z|x|s|l IH|d IH] using pyval_ind2; intros D n.
  - now apply P.
  - destruct bo; now apply P.
  - cbn [dump]. destruct (dec_str_number z) as (A & _). now apply nums_chars, is_number_nums, is_int_number.
  - cbn [dump]. destruct (number x) as [t|] eqn:E; [|now apply P]. destruct (Hnum x t E) as (A & _). now apply nums_chars, is_number_nums.
  - cbn [dump]. now apply quoted_chars.
  - destruct l as [|x l]; [now apply P|]. set (L := x :: l) in *. change (dump number n (PList L)) with (py "[" ++ commas (map (fun x => newline (S n) ++ dump number (S n) x) L) ++ newline n ++ py "]").
    rewrite !Forall_app. split; [now apply P|]. split; [|split; [apply newline_chars|now apply P]]. apply commas_chars, Forall_map.
    cbn [dumpable] in D. rewrite Forall_forall in *. rewrite forallb_forall in D. intros y Hy. apply Forall_app. split; [apply newline_chars|auto].
  - destruct d as [|x l]; [now apply P|]. set (L := x :: l) in *.
    change (dump number n (PDict L)) with (py "{" ++ commas (map (fun p => newline (S n) ++ quoted (fst p) ++ py ": " ++ dump number (S n) (snd p)) L) ++ newline n ++ py "}").
    rewrite !Forall_app. split; [now apply P|]. split; [|split; [apply newline_chars|now apply P]]. apply commas_chars, Forall_map.
    cbn [dumpable] in D. rewrite Forall_forall in *. rewrite forallb_forall in D. intros y Hy. specialize (D y Hy). apply andb_prop in D. destruct D as (D1 & D2).
    rewrite !Forall_app. split; [apply newline_chars|]. split; [now apply quoted_chars|]. split; [now apply P|]. now apply IH.
Qed.
