(** C104: which exceptions decompiling an entry can raise, by entry type. *)
From Coq Require Import ZifyBool ZifyNat String.
From Verif Require Import Base M_Stream M_Text M_Py M_Simple M_Glyph M_Container M_Table S_Entry S_Raises
  Lib P_Table P_Raises Prop_Table.
Local Open Scope list_scope.

(** ** Nothing but the exceptions of [raises] *)
(** The exceptions of fontTools' disassembler ([o_asm]) are those of [F]; it is assumed to come to an
    end. Only glyphs call it. TrueType info, 1264, may be read for ever (C32). *)
Theorem C104_raises : forall o F i c data x,
  (forall b e, o_asm o b = Err e -> In e F) -> ~ In Diverge F -> bytes_ok data ->
  cd_parse (table o) i c data = Err x ->
  In x (raises i) \/ (i = 2001 /\ In x F) \/ (i = 1264 /\ x = Diverge).
Proof.
  intros o F i c data x HF ND Hd E.
  assert (T : i <> 1264 -> x <> Diverge).
  { intros N ->. revert E. apply C32_entries_terminate; auto.
    intros b Eb. apply ND. eapply HF; eauto. }
  unfold table, parser_of in E. cbn [cd_parse] in E.
  destruct (row o i) as [[[n p] k]|] eqn:R.
  - destruct (Z.eq_dec i 2001) as [->|N2].
    + assert (R' : row o 2001 = Some (py "Glyph", GlyphParser o, GlyphCompiler o)) by reflexivity.
      rewrite R' in R. inversion R; subst n p k. clear R R'.
      destruct (glyph_raises o F HF c data x E) as [H| ->]; [|destruct T; [discriminate|reflexivity]].
      apply in_app_iff in H. tauto.
    + destruct (P_Simple.Forall_In _ _ _ _ (rows_raise o) (row_of_in _ _ _ _ _ R) N2 c data x E) as [H| ->]; [left; exact H|].
      destruct (Z.eq_dec i 1264) as [->|N1]; [auto|]. destruct (T N1 eq_refl).
  - unfold run_parser, BaseParser, plain, rbind in E. discriminate.
Qed.
Print Assumptions C104_raises.

(** ... for the method of the entry: without an id or without data it is [ValueError] *)
Theorem C104_decompile : forall o F c e x,
  (forall b e, o_asm o b = Err e -> In e F) -> ~ In Diverge F ->
  snd (entry_decompile (table o) c e) = Err x ->
  (x = ValueError /\ (e_id e = None \/ e_data e = NoData)) \/
  exists i b, e_id e = Some i /\ e_data e = Raw b /\
    (bytes_ok b -> In x (raises i) \/ (i = 2001 /\ In x F) \/ (i = 1264 /\ x = Diverge)).
Proof.
  intros o F c e x HF ND E. unfold entry_decompile in E.
  destruct (e_id e) as [i|]; [|inversion E; auto]. destruct (e_data e) as [b|d|]; [|discriminate|inversion E; auto].
  destruct (cd_parse (table o) i c b) as [d|y] eqn:P; inversion E; subst.
  right. exists i, b. split; [reflexivity|]. split; [reflexivity|]. intros Hb. eapply C104_raises; eauto.
Qed.
Print Assumptions C104_decompile.

(** ** Each of them is raised by some data *)
(** 139 is the value 0, 140 the value 1; 0 and the end of the data are [EOFError], 1 is [ValueError];
    129 is no character *)
Definition zeros (n : nat) : bytes := repeat 139 n.
Definition glyph_start : bytes := [1; 9; 7; 1].
Definition bad_data (i : Z) (x : exn) : bytes :=
  match x with
  | EOFError => if i =? 10 then [1] else if i =? 1742 then [1] else if i =? 1264 then [0x33]
                else if i =? 2001 then glyph_start ++ [1] else []
  | ValueError => if i =? 1743 then [5; 1] else if i =? 10 then [1; 1] else if i =? 1742 then [1; 1]
                  else if i =? 1264 then [0x33; 1] else if i =? 2001 then glyph_start ++ [0x10] else [1]
  | KeyError => if i =? 10 then [1; 200] else if i =? 1742 then [5; 139] else if i =? 1264 then [0x33; 139; 0x33]
                else glyph_start ++ [10; 139; 140; 99]
  | IndexError => if i =? 1276 then [10; 10] else [150]
  | OverflowError => [140; 139; 140; 139; 139; 140; 0xF7; 0x94]
  | AttributeError => glyph_start ++ [4]
  | UnboundLocalError => []
  | StructError => if among unpacked i then [0] else []
  | UnicodeDecodeError =>
      if among texts i || (i =? 1276) then [0; 0; 129]
      else if i =? 1269 then [140; 139; 1; 129] else if i =? 1255 then [140; 139; 139; 140; 129]
      else if i =? 1141 then 140 :: zeros 5 ++ [140; 129] else if i =? 1136 then zeros 7 ++ [129]
      else if among [1296; 2031] i then [140; 139; 140; 129] else if i =? 2018 then [139; 140; 140; 129]
      else if i =? 2001 then glyph_start ++ [1; 140; 129] else [140; 140; 129]
  | AssertionError =>
      if among numbers i || among doubles i then repeat 0 501
      else if i =? 2007 then zeros 4 ++ [140; 140] ++ zeros 2 else if i =? 1743 then [100; 0]
      else if among open_values i then [0; 139] else if i =? 10 then [0; 0] else if i =? 1264 then [0x32; 0]
      else if i =? 1742 then [1; 139; 2; 139; 3; 139; 4; 139; 0; 0]
      else if i =? 2001 then glyph_start ++ [15; 0] else zeros 50
  | _ => []
  end.
Definition two_masters : ctx := mkCtx 2 1 1 Windows.
Definition all_ids : list Z :=
  numbers ++ doubles ++ unpacked ++ texts ++ values ++ open_values ++ named_values ++
  [1276; 10; 1742; 1264; 1138; 2018; 2001].

Definition exn_code (x : exn) : Z :=
  match x with
  | EOFError => 0 | ValueError => 1 | KeyError => 2 | IndexError => 3 | OverflowError => 4 | StructError => 5
  | AssertionError => 6 | AttributeError => 7 | TypeError => 8 | RuntimeError => 9 | UnicodeDecodeError => 10
  | UnicodeEncodeError => 11 | UnboundLocalError => 12 | NotImplementedError => 13 | ZeroDivisionError => 14
  | Diverge => 15
  end.
Definition same_exn (x y : exn) : bool := exn_code x =? exn_code y.
Lemma same_exn_ok : forall x y, same_exn x y = true -> x = y.
Proof. intros x y. destruct x, y; cbn; intros H; congruence. Qed.

Lemma among_app : forall l m i, among (l ++ m) i = among l i || among m i.
Proof. intros. unfold among. apply existsb_app. Qed.
Lemma raises_known : forall i x, In x (raises i) -> In i all_ids.
Proof.
  intros i x H. assert (A : among all_ids i = true).
  { destruct (among all_ids i) eqn:N; [reflexivity|]. unfold all_ids in N. rewrite !among_app in N.
    repeat (apply Bool.orb_false_iff in N; destruct N as [? N]).
    cbn [among existsb] in N. repeat (apply Bool.orb_false_iff in N; destruct N as [? N]).
    unfold raises in H.
    repeat match goal with K : _ = false |- _ => rewrite K in H; clear K end. destruct H. }
  unfold among in A. apply existsb_exists in A. destruct A as (j & Hj & E). apply Z.eqb_eq in E. congruence.
Qed.
Theorem C104_all_raised : forall i x, In x (raises i) ->
  exists c data, entry_data data /\ forall o, cd_parse (table o) i c data = Err x.
Proof.
  intros i x H. exists two_masters, (bad_data i x). pose proof (raises_known _ _ H) as Hi.
  assert (A : forallb (fun i => forallb (fun x =>
    forallb (fun b => (0 <=? b) && (b <? 256)) (bad_data i x) && (Z.of_nat (length (bad_data i x)) <? 2 ^ 31))
      (raises i)) all_ids = true) by (vm_compute; reflexivity).
  rewrite forallb_forall in A. specialize (A i Hi). rewrite forallb_forall in A. specialize (A x H).
  split.
  - apply andb_prop in A. destruct A as [A1 A2]. split; [|lia].
    rewrite forallb_forall in A1. apply Forall_forall. intros b Hb. specialize (A1 b Hb). unfold is_byte. lia.
  - clear A. intros o.
    assert (G : forallb (fun i => forallb (fun x =>
      match cd_parse (table o) i two_masters (bad_data i x) with Ok _ => false | Err y => same_exn x y end)
        (raises i)) all_ids = true) by (vm_compute; reflexivity).
    rewrite forallb_forall in G. specialize (G i Hi). rewrite forallb_forall in G. specialize (G x H).
    destruct (cd_parse (table o) i two_masters (bad_data i x)) as [d|y]; [discriminate|].
    f_equal. symmetry. apply same_exn_ok. exact G.
Qed.
Print Assumptions C104_all_raised.

(** Entries of unknown types and those of [never_raises] are always decompiled. *)
Theorem C104_never : forall o i c data, In i never_raises \/ row o i = None -> bytes_ok data ->
  exists x, cd_parse (table o) i c data = Ok x.
Proof.
  intros o i c data H Hd. exists (DStr (M_Helpers.hexStr data)).
  assert (P : parser_of o i = BaseParser).
  { unfold parser_of. destruct H as [H|H]; [|rewrite H; reflexivity].
    cbn [never_raises In] in H. repeat (destruct H as [<-|H]; [reflexivity|]). destruct H. }
  unfold table. cbn [cd_parse]. rewrite P. reflexivity.
Qed.
Print Assumptions C104_never.

(** Mapping mode entries: an unknown key, a missing one, the end of the data and a bad value *)
Example C104_mapping_mode : forall o c,
  cd_parse (table o) 1742 c [5; 139] = Err KeyError /\
  cd_parse (table o) 1742 c [1; 139; 0] = Err UnboundLocalError /\
  cd_parse (table o) 1742 c [1] = Err EOFError /\
  cd_parse (table o) 1742 c [1; 2] = Err ValueError.
Proof. intros. repeat split; reflexivity. Qed.
(** the hypothesis on [o_asm] is met, e.g. by a disassembler that fails with [IndexError] *)
Example C104_disassembler :
  let o := Oracles (fun v => v) (fun a => Ok a) (fun b => match b with [] => Ok [] | _ => Err IndexError end) (fun _ => Ok []) in
  (forall b e, o_asm o b = Err e -> In e [IndexError]) /\ ~ In Diverge [IndexError] /\
  cd_parse (table o) 2001 two_masters (glyph_start ++ [9; 0x2B; 140; 7]) = Err IndexError.
Proof.
  cbn zeta. split; [|split; [intros [H|[]]; discriminate|vm_compute; reflexivity]].
  intros [|x b] e H; inversion H. left. reflexivity.
Qed.
