(** C97: which files JSON is written of. *)
From Coq Require Import ZifyBool ZifyNat String Permutation.
From Verif Require Import Base M_Stream M_Py M_Helpers M_Text M_Simple M_Bitmap M_TrueType M_Glyph M_Float M_Options
  M_Container M_Table M_Tools S_Encoding M_Json S_Json S_Dump S_File Lib P_Simple P_Loop P_Json P_JsonData P_JsonFile P_Dumpable Prop_Glyph Prop_Json.
Local Open Scope list_scope.

(** a code point that no UTF-8 text has *)
Definition surrogate (c : Z) : Prop := 0xD800 <= c <= 0xDFFF.
(** a name record of the Vfb has a surrogate in its text *)
Definition names_surrogate (v : vfb value) : Prop :=
  exists e l n c, In e (v_entries v) /\ e_data e = Dec (DNames l) /\ In n l /\ In c (nr_text n) /\ surrogate c.
(** the mnemonics of TrueType instructions are Unicode text *)
Definition mnemonics (o : oracles) : Prop :=
  forall b l s c, o_asm o b = Ok l -> In s l -> In c s -> 0 <= c < 0x110000 /\ ~ surrogate c.

Lemma tok_chars : forall s, tok s <-> forall c, In c s -> 0 <= c < 0x110000 /\ ~ surrogate c.
Proof. intros s. rewrite tok_iff, Forall_forall. reflexivity. Qed.
Lemma data_names : forall o e l n c, small_data o e -> e_data e = Dec (DNames l) -> In n l -> In c (nr_text n) -> 0 <= c < 0x110000.
Proof.
  intros o e l n c (i & Ei & D) E In1 In2. rewrite E in D. destruct D as (x & b & Hb & P). apply table_names in P; [|exact Hb]. cbn [names_range] in P.
  rewrite Forall_forall in P. specialize (P n In1). rewrite Forall_forall in P. exact (P c In2).
Qed.
Lemma vfb_dok : forall o v t, mnemonics o -> Forall (small_data o) (v_entries v) -> (exists h, v_header v = HDec h /\ dok (header_py h)) -> vfb_py o v t ->
  (dok t <-> ~ names_surrogate v).
Proof.
  intros o v t T M (h & H & Hh) V. unfold vfb_py, as_dict in V. rewrite H in V. cbn [header_as_dict] in V. destruct V as (x & l & X & F & ->).
  cbn [json_py] in X. subst x.
  assert (A : asm_texts o).
  { intros b s E. apply Forall_forall. intros y Y. apply tok_chars. intros c C. eapply T; eassumption. }
  split.
  - intros D (e & ns & n & c & E & Ed & In1 & In2 & Sc). unfold dok, pd in D. cbn [dumpable map forallb fst snd] in D. rewrite !andb_true_iff in D. destruct D as (_ & (_ & D) & _).
    clear H Hh M. revert l F D. induction (v_entries v) as [|e' es IH]; intros l F D; [destruct E|]. cbn [map] in F. inversion F as [|? t0 ? l0 P Q]; subst. cbn [forallb] in D.
    apply andb_true_iff in D. destruct D as (D1 & D2). destruct E as [->|E]; [|eapply IH; eassumption].
    unfold entry_py, entry_as_dict in P. rewrite Ed in P. destruct P as (y & Y & ->). cbn [json_py value_py plain_py] in Y. subst y.
    cbn [opt app dumpable forallb fst snd] in D1. rewrite !andb_true_iff in D1. destruct D1 as (_ & (_ & D1) & _). unfold plist in D1. cbn [dumpable] in D1. rewrite forallb_forall in D1.
    specialize (D1 _ (in_map name_record_py _ _ In1)). unfold name_record_py in D1. cbn [dumpable forallb] in D1. rewrite !andb_true_iff in D1. destruct D1 as (_ & _ & _ & _ & D1 & _).
    change (tok (nr_text n)) in D1. rewrite tok_chars in D1. destruct (D1 c) as (_ & K); [exact In2|]. now apply K.
  - intros N. assert (L : Forall dok l).
    { assert (N' : forall e ns, In e (v_entries v) -> e_data e = Dec (DNames ns) -> Forall (fun n => tok (nr_text n)) ns).
      { intros e ns E Ed. apply Forall_forall. intros n In1. apply tok_chars. intros c In2. split.
        - rewrite Forall_forall in M. eapply data_names; [apply M; exact E|exact Ed|exact In1|exact In2].
        - intros Sc. apply N. exists e, ns, n, c. auto. }
      clear N H. revert l F N'. induction M as [|e es E M IH]; intros l F N; cbn [map] in F; inversion F as [|? t0 ? l0 P Q]; subst; [constructor|].
      constructor; [|apply IH; [exact Q|]; intros e' ns E'; apply N; now right]. clear IH Q F M. specialize (N e). destruct E as (i & Ei & D).
      unfold entry_py, entry_as_dict in P. rewrite Ei in P. destruct (e_data e) as [b|d|] eqn:Ed; [| |destruct D]; destruct P as (y & Y & ->).
      + cbn [json_py] in Y. subst y. apply dok_dict. mem; [apply dok_str, tok_key|apply dok_int; destruct D as (_ & D); unfold iok; lia|].
        apply dok_str, tok_hex. destruct D as (D & _). now apply hex_text_of.
      + destruct D as (c & b & Hb & D). cbn [json_py] in Y. apply dok_dict. mem; [apply dok_str, tok_key|].
        eapply table_dok; [exact A|exact Hb|exact D| |exact Y]. destruct d; try exact Logic.I. cbn [names_text]. apply N; [now left|reflexivity]. }
    unfold pd. apply dok_dict. mem; [|now apply dok_list]. apply dok_dict. mem. exact Hh.
Qed.

(** JSON is written of a file of less than 2 GB that could be read and decompiled, unless the text of a name record in
    it has a surrogate. Then there is an exception, and the file is left empty. *)
Theorem C97_written : forall o number fuel only minimal uni no_decompile file v t old, mnemonics o ->
  bytes_ok file -> Z.of_nat (List.length file) < 2 ^ 31 ->
  save_vfb o fuel only minimal uni no_decompile false file = (v, Ok tt) -> vfb_py o v t ->
  (~ names_surrogate v -> exists b, write_vfb_json (dumps number) t old = (b, Ok tt)) /\
  (names_surrogate v -> write_vfb_json (dumps number) t old = ([], Err TypeError)).
Proof.
  intros o number fuel only minimal uni nd file v t old T B L E V. assert (Hf : small file) by (split; assumption).
  pose proof (vfb_dok o v t T (save_small _ _ _ _ _ _ _ _ Hf E) (save_header _ _ _ _ _ _ _ _ Hf E) V) as D.
  unfold write_vfb_json, dumps. unfold dok in D. destruct (dumpable t).
  - split; [intros _; eexists; reflexivity|]. intros N. exfalso. now apply D.
  - split; [|reflexivity]. intros N. apply D in N. discriminate.
Qed.
Print Assumptions C97_written.

(** The file of [C97_ex] and that of [C97_surrogates_refuted] meet the hypotheses, one for each case. *)
Definition asm_oracles : oracles := Oracles (fun v => v) (fun a => Ok a) (fun _ => Ok [py "SVTCA[0]"]) (fun _ => Ok []).
Example mnemonics_ex : mnemonics sample_oracles /\ mnemonics asm_oracles.
Proof.
  split; intros b l s c E I J; cbn [sample_oracles asm_oracles o_asm] in E; injection E as <-; [destruct I|].
  destruct I as [<-|[]]. revert c J. apply tok_chars. reflexivity.
Qed.
Example C97_written_ex : exists v t, mnemonics sample_oracles /\ bytes_ok c97_file /\ Z.of_nat (List.length c97_file) < 2 ^ 31 /\
  save_vfb sample_oracles 20 false false false false false c97_file = (v, Ok tt) /\ vfb_py sample_oracles v t /\ ~ names_surrogate v.
Proof.
  destruct C97_ex as (v & t & b & B & S & _ & V & _ & W). exists v, t. split; [apply mnemonics_ex|]. split; [exact B|]. split; [vm_compute; reflexivity|]. split; [exact S|]. split; [exact V|].
  intros N. assert (L : Z.of_nat (List.length c97_file) < 2 ^ 31) by (vm_compute; reflexivity).
  destruct (C97_written sample_oracles sample_number 20 false false false false c97_file v t [] (proj1 mnemonics_ex) B L S V) as (_ & K).
  apply K in N. rewrite W in N. discriminate.
Qed.
Example C97_not_written_ex : exists v t, bytes_ok surrogate_file /\ Z.of_nat (List.length surrogate_file) < 2 ^ 31 /\
  save_vfb sample_oracles 20 false false false false false surrogate_file = (v, Ok tt) /\ vfb_py sample_oracles v t /\ names_surrogate v.
Proof.
  eexists _, _. split; [apply bytes_okb_ok; vm_compute; reflexivity|]. split; [vm_compute; reflexivity|]. split; [vm_compute; reflexivity|]. split.
  - eexists _, _. split; [reflexivity|]. split; [|reflexivity]. repeat (apply Forall2_cons; [eexists; split; reflexivity|]). apply Forall2_nil.
  - eexists _, _, _, _. split; [left; reflexivity|]. split; [reflexivity|]. split; [left; reflexivity|]. split; [left; reflexivity|]. unfold surrogate. lia.
Qed.
