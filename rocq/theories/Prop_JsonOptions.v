(** C115: the options of vfb2json. *)
From Coq Require Import ZifyBool ZifyNat String.
From Verif Require Import Base M_Stream M_Py M_Text M_Simple M_Glyph M_Options M_Container M_Table M_Tools M_Json M_Vfb2ufo S_Entry S_File S_Table Lib
  Prop_Container P_Table P_File P_Resave Prop_File Prop_Edit Prop_Twice Prop_History.
Local Open Scope list_scope.
Local Open Scope Z_scope.

Lemma append_header : forall i e (v : vfb value), v_header (append_entry i e v) = v_header v.
Proof. intros i e v. unfold append_entry. destruct (M_Container.zmem i (v_drop v)); reflexivity. Qed.
Lemma remember_header : forall o i d (v : vfb value), v_header (remember (table o) i d v) = v_header v.
Proof. intros o i d v. unfold remember. destruct (i =? F_FLVersion); [reflexivity|]. destruct (i =? F_MasterCount); reflexivity. Qed.
Lemma read_loop_header : forall o fuel (v : vfb value) s v' r, read_loop (table o) fuel v s = (v', r) -> v_header v' = v_header v.
Proof.
  intros o fuel. induction fuel as [|fuel IH]; intros v s v' r H; cbn [read_loop] in H; [injection H as <- <-; reflexivity|].
  destruct (read_entry (v_ctx v) s) as [e rest|x rest]; [|destruct x; injection H as <- <-; reflexivity].
  destruct (e_id e) as [i|]; [|injection H as <- <-; reflexivity]. destruct (is_eager i).
  - destruct (entry_decompile (table o) (v_ctx v) e) as [[e' err] od]. destruct od as [u|x]; [|injection H as <- <-; reflexivity].
    destruct (e_data e') as [b|d|]; rewrite (IH _ _ _ _ H), append_header; [reflexivity|apply remember_header|reflexivity].
  - destruct (i =? F_BlockFileDataEnd); [injection H as <- <-; apply append_header|]. rewrite (IH _ _ _ _ H). apply append_header.
Qed.

(** ** --header *)
(** The JSON has the header of the file and no entries. It can be made of every file with a header, whatever comes
    after it. The header is the one that is shown without the option. *)
Theorem C115_header : forall o fuel minimal uni no_decompile file, bytes_ok file ->
  if list_eq_dec Z.eq_dec (firstn 7 file) [0x1A; 0x57; 0x4C; 0x46; 0x31; 0x30; 3]
  then exists v minor, save_vfb o fuel true minimal uni no_decompile false file = (v, Ok tt) /\
         0 <= minor < 256 /\ v_header v = HDec (fl_header minor) /\ v_entries v = [] /\
         (forall fuel' minimal' uni' no_decompile' w,
            save_vfb o fuel' false minimal' uni' no_decompile' false file = (w, Ok tt) -> v_header w = v_header v)
  else exists v, save_vfb o fuel true minimal uni no_decompile false file = (v, Err AssertionError).
Proof.
  intros o fuel minimal uni nd file B. pose proof (C13_accepts file B) as H.
  destruct (list_eq_dec _ _ _).
  - destruct H as (minor & r & Hm & P).
    assert (S0 : exists v, save_vfb o fuel true minimal uni nd false file = (v, Ok tt) /\ v_header v = HDec (fl_header minor) /\ v_entries v = []).
    { unfold save_vfb, vfb_read_bytes, read_stream. rewrite P. cbn [v_only_header with_header vfb_clear with_entries new_vfb].
      destruct nd; [eexists; split; [reflexivity|split; reflexivity]|].
      unfold vfb_decompile. cbn [v_header with_errors with_header header_decompile v_entries v_drop v_ctx with_entries decompile_entries].
      eexists. split; [reflexivity|]. split; reflexivity. }
    destruct S0 as (v & S0 & S1 & S2). exists v, minor. repeat (split; [assumption|]). rewrite S1. clear v S0 S1 S2.
    intros fuel' minimal' uni' nd' w S. unfold save_vfb in S.
    destruct (vfb_read_bytes (table o) fuel' (new_vfb [] false uni') file) as [v [u r'|x r']] eqn:R; [|discriminate].
    assert (Hh : v_header v = HDec (fl_header minor)).
    { unfold vfb_read_bytes, read_stream in R. rewrite P in R. cbn [v_only_header with_header vfb_clear with_entries new_vfb] in R.
      rewrite (read_loop_header _ _ _ _ _ _ R). reflexivity. }
    destruct nd'; [injection S as <-; exact Hh|]. unfold vfb_decompile in S. cbn [v_header with_errors] in S. rewrite Hh in S. cbn [header_decompile] in S.
    destruct (decompile_entries _ _ _ _) as [[es err] q]. injection S as <- _. reflexivity.
  - destruct H as (r & P). unfold save_vfb, vfb_read_bytes, read_stream. rewrite P. eauto.
Qed.

(** ** --no-decompile *)
Lemma decompile_two : forall o c es es' err, decompile_entries (table o) c [] es = (es', err, Ok tt) ->
  Forall2 (fun e e' => e_id e' = e_id e /\ e_cache e' = e_cache e /\ exists x, e_data e' = Dec x /\ value_of o c e x) es es'.
Proof.
  intros o c es. induction es as [|e es IH]; intros es' err H; cbn [decompile_entries] in H; [injection H as <- <-; constructor|].
  replace (match e_id e with Some i => M_Container.zmem i [] | None => false end) with false in H by (destruct (e_id e); reflexivity).
  destruct (entry_decompile (table o) c e) as [[e' b] r] eqn:E. destruct r as [u|x]; [|discriminate].
  destruct (decompile_entries (table o) c [] es) as [[es1 err1] r1] eqn:D. injection H as <- _ ->. constructor; [|eapply IH; reflexivity].
  unfold entry_decompile in E. destruct e as [ei ed ec]. cbn [e_id e_data] in *. destruct ei as [i|]; [|discriminate].
  destruct ed as [bs|x|]; [|injection E as <- <-; cbn|discriminate].
  - destruct (cd_parse (table o) i c bs) as [x|] eqn:P; [|discriminate]. injection E as <- <-. cbn. split; [reflexivity|]. split; [reflexivity|].
    exists x. split; [reflexivity|]. exists i. cbn. auto.
  - split; [reflexivity|]. split; [reflexivity|]. exists x. split; [reflexivity|]. exists i. cbn. auto.
Qed.

(** If JSON can be made of a file, it can be made with --no-decompile as well. It has the same header and the same entries
    in the same order. Three types are decompiled all the same (10, 1503 and 1269), all others have bytes,
    and the bytes decompile to the data that is shown without the option. *)
Theorem C115_no_decompile : forall o fuel minimal minimal' uni file w, bytes_ok file -> Z.of_nat (List.length file) < 2 ^ 31 ->
  save_vfb o fuel false minimal uni false false file = (w, Ok tt) ->
  exists v, save_vfb o fuel false minimal' uni true false file = (v, Ok tt) /\ v_header v = v_header w /\
    Forall2 (fun e e' => exists i x, e_id e = Some i /\ e_id e' = Some i /\ e_data e' = Dec x /\
      if existsb (Z.eqb i) [10; 1503; 1269] then e_data e = Dec x
      else exists b, e_data e = Raw b /\ cd_parse (table o) i (v_ctx v) b = Ok x) (v_entries v) (v_entries w).
Proof.
  intros o fuel minimal minimal' uni file w B L S. unfold save_vfb in *.
  destruct (vfb_read_bytes (table o) fuel (new_vfb [] false uni) file) as [v [[] r|x r]] eqn:R; [|discriminate].
  exists v. split; [reflexivity|]. destruct (file_lazy o file fuel uni v r B L R) as (minor & Hm & Hh & Hd & Hw & RL).
  pose proof (lazy_was_read o (v_ctx v) _ _ _ RL) as W.
  unfold vfb_decompile in S. cbn [v_header with_errors v_drop v_ctx v_entries with_header] in S. rewrite Hh in S. cbn [header_decompile] in S.
  cbn [v_header with_errors v_drop v_ctx v_entries with_header] in S. rewrite Hd in S.
  destruct (decompile_entries (table o) (v_ctx v) [] (v_entries v)) as [[es err] q] eqn:D. injection S as <- ->.
  split; [exact Hh|]. cbn [v_entries with_errors with_entries]. pose proof (decompile_two _ _ _ _ _ D) as F.
  revert W. clear - F. generalize (v_ctx v) at 1 as cc. intros cc W. revert W. induction F as [|e e' es es' (F1 & F2 & x & F3 & i & F4 & F5) F IH]; intros W; constructor.
  - apply Forall_inv in W. destruct W as (j & W1 & _ & W2). assert (j = i) as -> by congruence. exists i, x.
    split; [exact F4|]. split; [congruence|]. split; [exact F3|].
    assert (E : existsb (Z.eqb i) [10; 1503; 1269] = is_eager i) by (unfold is_eager, F_FLVersion, F_MasterCount, T_TrueTypeStems; cbn; lia).
    rewrite E. destruct (e_data e) as [b|y|].
    + destruct W2 as [_ ->]. eauto.
    + destruct W2 as [-> _]. congruence.
    + destruct F5.
  - apply IH. exact (Forall_inv_tail W).
Qed.

(** ** --roundtrip *)
(** [e'] is the entry [e] after it was compiled, and [e''] after it was decompiled again *)
Definition compiled_to (o : oracles) (c : ctx) (e e' : entry value) : Prop :=
  exists i x, e_id e = Some i /\ e_id e' = Some i /\ e_data e = Dec x /\
    ((unknown o i /\ e_data e' = Dec x) \/
     exists comp bs, cd_compile (table o) i = Some comp /\ comp c x = Ok bs /\ e_data e' = Raw bs).
Definition same_data (e e'' : entry value) : Prop :=
  exists i x x', e_id e = Some i /\ e_id e'' = Some i /\ e_data e = Dec x /\ e_data e'' = Dec x' /\ (x' = x \/ same_value x x').

(** an entry that survives: its data, and the data after compiling and decompiling it *)
Definition survives (o : oracles) (c : ctx) (e : entry value) : Prop :=
  exists i x, e_id e = Some i /\ e_data e = Dec x /\
    (unknown o i \/ exists comp bs x', cd_compile (table o) i = Some comp /\ comp c x = Ok bs /\ cd_parse (table o) i c bs = Ok x' /\ same_value x x').
Lemma compile_two : forall o c es, Forall (survives o c) es ->
  exists es', compile_entries (table o) c es = (es', Ok tt) /\ Forall2 (compiled_to o c) es es' /\
    Forall2 (fun e e' => exists x', value_of o c e' x' /\ forall x, e_data e = Dec x -> x' = x \/ same_value x x') es es'.
Proof.
  intros o c es F. induction F as [|e es (i & x & E1 & E2 & H) F (es' & IH & IH2 & IH3)]; [exists []; repeat split; constructor|].
  cbn [compile_entries]. unfold entry_compile. rewrite E2, E1. destruct H as [U|(comp & bs & x' & H1 & H2 & H3 & H4)].
  - destruct (C17_unknown o i c [] U (Forall_nil _)) as [_ ->]. rewrite IH. exists (e :: es'). split; [reflexivity|]. split; constructor; auto.
    + exists i, x. auto 10.
    + exists x. split; [exists i; rewrite E2; auto|]. intros y Y. left. congruence.
  - rewrite H1, H2, IH. exists (set_data (Raw bs) e :: es'). split; [reflexivity|]. split; constructor; auto.
    + exists i, x. repeat (split; [assumption|]). right. exists comp, bs. auto.
    + exists x'. split; [exists i; cbn; auto|]. intros y Y. right. congruence.
Qed.
Lemma decompile_all : forall o c es, Forall (fun e => exists x, value_of o c e x) es ->
  exists es' err, decompile_entries (table o) c [] es = (es', err, Ok tt).
Proof.
  intros o c es F. induction F as [|e es (x & i & E1 & E2) F (es' & err & IH)]; [do 2 eexists; reflexivity|].
  cbn [decompile_entries]. rewrite E1. change (M_Container.zmem i []) with false. cbv iota. unfold entry_decompile. rewrite E1.
  destruct (e_data e) as [b|y|]; [| |destruct E2].
  - rewrite E2, IH. do 2 eexists. reflexivity.
  - rewrite IH. do 2 eexists. reflexivity.
Qed.

(** Let the data of all entries of known types be data that can be written (C16). Then the file is compiled and decompiled
    once more, and the JSON shows the same header and the same entries with the same data. With --no-decompile, it shows
    the header and the entries as bytes: those that the data is compiled to. *)
Theorem C115_roundtrip : forall o fuel minimal uni file w, bytes_ok file -> Z.of_nat (List.length file) < 2 ^ 31 ->
  save_vfb o fuel false minimal uni false false file = (w, Ok tt) ->
  (forall e i x, In e (v_entries w) -> e_id e = Some i -> e_data e = Dec x -> unknown o i \/ can_be_written o (v_ctx w) i x) ->
  exists w' b, save_vfb o fuel false minimal uni false true file = (w', Ok tt) /\ v_header w' = v_header w /\
    save_vfb o fuel false minimal uni true true file = (b, Ok tt) /\
    (exists h, v_header w = HDec h /\ exists bs, compile_header h = Ok bs /\ v_header b = HRaw bs) /\
    Forall2 same_data (v_entries w) (v_entries w') /\ Forall2 (compiled_to o (v_ctx w)) (v_entries w) (v_entries b).
Proof.
  intros o fuel minimal uni file w B L S HW. unfold save_vfb in *.
  destruct (vfb_read_bytes (table o) fuel (new_vfb [] false uni) file) as [v [[] r|x r]] eqn:R; [|discriminate].
  destruct (file_lazy o file fuel uni v r B L R) as (minor & Hm & Hh & Hd & Hw & RL).
  pose proof (lazy_was_read o (v_ctx v) _ _ _ RL) as W. rewrite S.
  unfold vfb_decompile in S. cbn [v_header with_errors v_drop v_ctx v_entries with_header] in S. rewrite Hh in S. cbn [header_decompile] in S.
  cbn [v_header with_errors v_drop v_ctx v_entries with_header] in S. rewrite Hd in S.
  destruct (decompile_entries (table o) (v_ctx v) [] (v_entries v)) as [[es err] q] eqn:D. injection S as <- ->.
  cbn [v_ctx v_entries v_header with_errors with_entries with_header] in HW |- *.
  set (c := v_ctx v) in *. pose proof (decompile_two _ _ _ _ _ D) as F.
  assert (WR : Forall (survives o c) es).
  { clear D R. revert W HW. clear - F Hw. induction F as [|e e' es0 es (F1 & F2 & x & F3 & i & F4 & F5) F IH]; intros W HW; constructor.
    - apply Forall_inv in W. destruct W as (j & W1 & _ & W2). assert (j = i) as -> by congruence.
      assert (Ei : e_id e' = Some i) by congruence. exists i, x. split; [exact Ei|]. split; [exact F3|].
      destruct (HW e' i x (or_introl eq_refl) Ei F3) as [U|CW]; [left; exact U|]. right.
      assert (Wr : writable o c i x).
      { split; [|exact CW]. destruct (e_data e) as [b|y|]; [exists b; tauto|subst y; apply W2|destruct F5]. }
      destruct (writable_cycle o c i x Hw Wr) as (comp & bs & x' & C1 & C2 & C3 & C4 & _). exists comp, bs, x'. auto 10.
    - apply IH; [exact (Forall_inv_tail W)|]. intros a j y I. apply HW. right. exact I. }
  destruct (compile_two o c es WR) as (es2 & C & F2 & F3).
  unfold vfb_compile. cbn [v_ctx v_entries v_header with_errors with_entries with_header header_compile].
  rewrite (compile_header_fl minor Hm). cbn [rmap]. cbn [v_ctx v_entries v_header with_errors with_entries with_header header_compile]. fold c. rewrite C.
  assert (F3' : Forall (fun e => exists x, value_of o c e x) es2).
  { clear - F3. induction F3 as [|e e' es es' (x' & G & _) F3 IH]; constructor; eauto. }
  destruct (decompile_all o c es2 F3') as (es3 & err3 & D3). pose proof (decompile_two _ _ _ _ _ D3) as F4.
  eexists _, _. split.
  { unfold vfb_decompile. cbn [v_ctx v_entries v_header v_drop with_errors with_entries with_header header_decompile].
    rewrite <- (app_nil_r (header44 minor)), parse_header44 by exact Hm. cbn [rmap v_ctx v_entries v_header v_drop with_errors with_entries with_header].
    fold c. rewrite Hd, D3. reflexivity. }
  cbn [v_ctx v_entries v_header v_drop with_errors with_entries with_header]. split; [reflexivity|]. split; [reflexivity|].
  cbn [v_ctx v_entries v_header v_drop with_errors with_entries with_header].
  split; [exists (fl_header minor); split; [reflexivity|]; exists (header44 minor); split; [apply compile_header_fl; exact Hm|reflexivity]|].
  split; [|exact F2]. clear - F2 F3 F4. revert F2 es3 F4. induction F3 as [|e e' es es' (x' & (i & G1 & G2) & G3) F3 IH]; intros F2 es3 F4;
    inversion F4 as [|a a' l l' (K1 & K2 & y & K3 & k & K4 & K5) F5]; inversion F2 as [|? ? ? ? (j & z & J1 & J2 & J3 & _) F6]; subst; constructor.
  - exists i, z, y. assert (j = i) as -> by congruence. assert (k = i) as -> by congruence.
    split; [exact J1|]. split; [congruence|]. split; [exact J3|]. split; [exact K3|].
    assert (y = x') as ->; [|auto]. destruct (e_data e'); [congruence|congruence|destruct G2].
  - apply IH; assumption.
Qed.

(** Refuted: with --roundtrip, JSON can be made of every file that it can be made of without. There is an entry type
    that cannot be compiled. *)
Definition pair_file : bytes := file_of 7 [(1410, [1; 0; 0; 0; 2; 0; 0; 0]); (2, [])].
Theorem C115_roundtrip_refuted : forall o, exists v w x,
  save_vfb o 20 false false false false false pair_file = (v, Ok tt) /\
  save_vfb o 20 false false false false true pair_file = (w, Err x).
Proof. intros o. eexists _, _, _. split; vm_compute; reflexivity. Qed.

(** ** --unicode-strings *)
(** "everything but what was asked about strings" *)
Definition plain (v : vfb value) : vfb value :=
  mkVfb (v_header v) (v_entries v) (v_ctx v) Utf8 (v_any_errors v) (v_drop v) (v_only_header v) false.
Section Plain.
  Variable o : oracles.
  Notation T := (table o).
  Lemma plain_append : forall i e v, plain (append_entry i e v) = append_entry i e (plain v).
  Proof. intros i e v. unfold append_entry. cbn [v_drop plain]. destruct (M_Container.zmem i (v_drop v)); reflexivity. Qed.
  Lemma plain_remember : forall i d v v', plain v = plain v' -> plain (remember T i d v) = plain (remember T i d v').
  Proof.
    intros i d [h es c en er dr on fo] [h' es' c' en' er' dr' on' fo'] E. injection E as -> -> -> -> -> ->.
    unfold remember. destruct (i =? F_FLVersion); [reflexivity|]. destruct (i =? F_MasterCount); reflexivity.
  Qed.
  Lemma plain_loop : forall fuel v v' s, plain v = plain v' ->
    plain (fst (read_loop T fuel v s)) = plain (fst (read_loop T fuel v' s)) /\ snd (read_loop T fuel v s) = snd (read_loop T fuel v' s).
  Proof.
    intros fuel. induction fuel as [|fuel IH]; intros v v' s E; cbn [read_loop]; [auto|].
    assert (A : forall i e u u', plain u = plain u' -> plain (append_entry i e u) = plain (append_entry i e u'))
      by (intros; rewrite !plain_append; congruence).
    assert (Ec : v_ctx v' = v_ctx v) by (change (v_ctx (plain v') = v_ctx (plain v)); congruence). rewrite Ec.
    destruct (read_entry (v_ctx v) s) as [e r|x r]; [|destruct x; cbn [fst snd]; auto].
    destruct (e_id e) as [i|]; [|auto]. destruct (is_eager i).
    - destruct (entry_decompile T (v_ctx v) e) as [[e' err] od]. destruct od as [u|x].
      + destruct (e_data e') as [b|d|]; apply IH; auto. apply A. apply plain_remember. exact E.
      + cbn [fst snd]. split; [|reflexivity]. revert E. clear. destruct v, v'. cbn. intros E. injection E as -> -> -> -> -> ->. reflexivity.
    - destruct (i =? F_BlockFileDataEnd); [cbn [fst snd]; auto|]. apply IH; auto.
  Qed.
  Lemma plain_read : forall fuel dropk only uni uni' file,
    plain (fst (vfb_read_bytes T fuel (new_vfb dropk only uni) file)) = plain (fst (vfb_read_bytes T fuel (new_vfb dropk only uni') file)) /\
    snd (vfb_read_bytes T fuel (new_vfb dropk only uni) file) = snd (vfb_read_bytes T fuel (new_vfb dropk only uni') file).
  Proof.
    intros fuel dropk only uni uni' file. unfold vfb_read_bytes, read_stream. destruct (parse_header file) as [h r|x r]; [|split; reflexivity].
    cbn [v_only_header with_header vfb_clear with_entries new_vfb]. destruct only; [split; reflexivity|]. apply plain_loop. reflexivity.
  Qed.
  Lemma plain_decompile : forall v v', plain v = plain v' ->
    plain (fst (vfb_decompile T v)) = plain (fst (vfb_decompile T v')) /\ snd (vfb_decompile T v) = snd (vfb_decompile T v').
  Proof.
    intros [h es c en er dr on fo] [h' es' c' en' er' dr' on' fo'] E. injection E as -> -> -> -> -> ->. unfold vfb_decompile.
    cbn [v_header with_errors]. destruct (header_decompile h'); [|split; reflexivity]. cbn [v_ctx v_drop v_entries with_header with_errors].
    destruct (decompile_entries _ _ _ _) as [[l1 b1] q]. split; reflexivity.
  Qed.
  Lemma plain_compile : forall v v', plain v = plain v' ->
    plain (fst (vfb_compile T v)) = plain (fst (vfb_compile T v')) /\ snd (vfb_compile T v) = snd (vfb_compile T v').
  Proof.
    intros [h es c en er dr on fo] [h' es' c' en' er' dr' on' fo'] E. injection E as -> -> -> -> -> ->. unfold vfb_compile.
    cbn [v_header]. destruct (header_compile h'); [|split; reflexivity]. cbn [v_ctx v_entries with_header].
    destruct (compile_entries _ _ _) as [l1 q]. split; reflexivity.
  Qed.
End Plain.

(** Refuted: --unicode-strings makes strings be read as Unicode. Whatever the file is, the JSON is the same as without
    the option (C36: the parsers do not look at what the Vfb asks for). *)
Theorem C115_unicode_refuted : forall o fuel only minimal no_decompile roundtrip file,
  let r := save_vfb o fuel only minimal false no_decompile roundtrip file in
  let r' := save_vfb o fuel only minimal true no_decompile roundtrip file in
  snd r' = snd r /\ forall t, vfb_py o (fst r') t <-> vfb_py o (fst r) t.
Proof.
  intros o fuel only minimal nd rt file r r'.
  assert (P : plain (fst r') = plain (fst r) /\ snd r' = snd r).
  { subst r r'. unfold save_vfb. destruct (plain_read o fuel [] only true false file) as [P1 P2].
    destruct (vfb_read_bytes (table o) fuel (new_vfb [] only true) file) as [v q], (vfb_read_bytes (table o) fuel (new_vfb [] only false) file) as [v' q'].
    cbn [fst snd] in P1, P2. subst q'. destruct q as [u rest|x rest]; [|auto].
    assert (Q : forall v v' (s s' : res unit), plain v = plain v' -> s = s' ->
      plain (fst (match s with Err x => (v, Err x) | Ok _ => if nd then (v, Ok tt) else vfb_decompile (table o) v end)) =
      plain (fst (match s' with Err x => (v', Err x) | Ok _ => if nd then (v', Ok tt) else vfb_decompile (table o) v' end)) /\
      snd (match s with Err x => (v, Err x) | Ok _ => if nd then (v, Ok tt) else vfb_decompile (table o) v end) =
      snd (match s' with Err x => (v', Err x) | Ok _ => if nd then (v', Ok tt) else vfb_decompile (table o) v' end)).
    { intros a a' s s' Ea <-. destruct s; [|auto]. destruct nd; [auto|]. apply plain_decompile. exact Ea. }
    destruct rt; [|apply (Q v v' (Ok tt) (Ok tt)); auto].
    destruct (plain_decompile o v v' P1) as [D1 D2].
    destruct (vfb_decompile (table o) v) as [w s], (vfb_decompile (table o) v') as [w' s']. cbn [fst snd] in D1, D2. subst s'.
    destruct s as [u1|x]; [|apply (Q w w' (Err x) (Err x)); auto].
    destruct (plain_compile o w w' D1) as [C1 C2].
    destruct (vfb_compile (table o) w) as [z s], (vfb_compile (table o) w') as [z' s']. cbn [fst snd] in C1, C2. apply Q; assumption. }
  destruct P as [P1 P2]. split; [exact P2|]. intros t.
  assert (E : forall v, vfb_py o v t <-> vfb_py o (plain v) t) by (intros v; reflexivity).
  rewrite (E (fst r')), (E (fst r)), P1. reflexivity.
Qed.
(** The same for vfb2ufo: the UFOs are the same with and without --unicode-strings. *)
Definition set_unicode (b : bool) (a : args) : args :=
  Args (a_input a) (a_output a) (a_folder a) (a_json a) (a_zip a) (a_force a) (a_minimal a) b
       (a_base64 a) (a_no_hints a) (a_kerning_groups a) (a_keep_groups a).
Theorem C115_ufo_unicode_refuted : forall L fuel a fs, vfb2ufo L fuel (set_unicode true a) fs = vfb2ufo L fuel (set_unicode false a) fs.
Proof.
  intros L fuel a fs. unfold vfb2ufo. change (a_input (set_unicode true a)) with (a_input (set_unicode false a)).
  destruct (aget str_eqb _ fs) as [[file| |]|]; try reflexivity.
  assert (E : exported L fuel (set_unicode true a) file = exported L fuel (set_unicode false a) file); [|rewrite E; reflexivity].
  unfold exported. cbn [a_unicode set_unicode]. destruct (plain_read (l_oracles L) fuel dropped_keys false true false file) as [P1 P2].
  destruct (vfb_read_bytes _ fuel (new_vfb _ _ true) file) as [v q], (vfb_read_bytes _ fuel (new_vfb _ _ false) file) as [v' q'].
  cbn [fst snd] in P1, P2. subst q'. destruct q as [u rest|x rest]; [|reflexivity].
  destruct (plain_decompile (l_oracles L) v v' P1) as [D1 D2].
  destruct (vfb_decompile _ v) as [w s], (vfb_decompile _ v') as [w' s']. cbn [fst snd] in D1, D2. subst s'. destruct s; [|reflexivity].
  assert (E : v_entries w = v_entries w') by (change (v_entries (plain w) = v_entries (plain w')); congruence). rewrite E. reflexivity.
Qed.

(** ** The hypotheses are met *)
(** a file with one master, a string, an anchor, an entry of an unknown type and the end *)
Example C115_meets : forall o, exists w,
  bytes_ok plain_file /\ Z.of_nat (List.length plain_file) < 2 ^ 31 /\
  save_vfb o 20 false false false false false plain_file = (w, Ok tt) /\
  map e_data (v_entries w) = [Dec (DInt 1); Dec (DStr [65; 66]); Dec (DAnchors [MMAnchor [100] [200]]); Dec (DStr (py "010203")); Dec (DStr [])] /\
  (forall e i x, In e (v_entries w) -> e_id e = Some i -> e_data e = Dec x -> unknown o i \/ can_be_written o (v_ctx w) i x) /\
  map e_data (v_entries (fst (save_vfb o 20 false false false true true plain_file))) =
    [Raw [1; 0]; Raw [65; 66]; Raw [140; 140; 239; 247; 92]; Dec (DStr (py "010203")); Raw []] /\
  map e_data (v_entries (fst (save_vfb o 20 false false false true false plain_file))) =
    [Dec (DInt 1); Raw [65; 66]; Raw [140; 140; 239; 247; 92]; Raw [1; 2; 3]; Raw []] /\
  v_entries (fst (save_vfb o 20 true false false false false plain_file)) = [].
Proof.
  intros o. destruct (C112_meets o) as (v0 & A & B & _). eexists. split; [exact A|]. split; [exact B|]. clear.
  split; [vm_compute; reflexivity|]. split; [vm_compute; reflexivity|]. split; [|repeat split; vm_compute; reflexivity].
  intros e i x I Ei Ex. cbn [v_entries v_ctx In] in *.
  destruct I as [<-|[<-|[<-|[<-|[<-|[]]]]]]; cbn [e_id e_data] in *; injection Ei as <-; injection Ex as <-.
  - right. left. apply zmem_in. reflexivity.
  - right. left. apply zmem_in. reflexivity.
  - right. right. split; [apply zmem_in; reflexivity|repeat constructor; cbn; lia].
  - left. unfold unknown. intros I. apply zmem_in in I. vm_compute in I. discriminate.
  - right. left. apply zmem_in. reflexivity.
Qed.
Print Assumptions C115_header.
Print Assumptions C115_no_decompile.
Print Assumptions C115_roundtrip.
Print Assumptions C115_roundtrip_refuted.
Print Assumptions C115_unicode_refuted.
Print Assumptions C115_ufo_unicode_refuted.
