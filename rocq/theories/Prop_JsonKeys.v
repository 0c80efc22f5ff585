(** C97: the keys of the objects in the JSON of a VFB file. *)
From Coq Require Import ZifyBool ZifyNat String Permutation.
From Verif Require Import Base M_Stream M_Py M_Helpers M_Text M_Simple M_Bitmap M_TrueType M_Glyph M_Float M_Options
  M_Container M_Table M_Tools S_Encoding M_Json S_Json S_Dump S_Keys S_File Lib P_Json P_JsonData P_JsonFile P_JsonKeys Prop_Glyph Prop_Json.
Local Open Scope list_scope.

Lemma vfb_keyed : forall o v t, Forall (has_data o) (v_entries v) -> (exists h, v_header v = HDec h) -> vfb_py o v t -> keyed t.
Proof.
  intros o v t M (h & H) V. unfold vfb_py, as_dict in V. rewrite H in V. cbn [header_as_dict] in V. destruct V as (x & l & X & F & ->).
  cbn [json_py] in X. subst x. assert (L : Forall keyed l).
  { clear H. revert l F. induction M as [|e es E M IH]; intros l F; cbn [map] in F; inversion F as [|? t0 ? l0 A B]; subst; [constructor|].
    constructor; [|now apply IH]. clear IH B F M. destruct E as (i & Ei & D). unfold entry_py, entry_as_dict in A.
    assert (J : forall j y, json_py j y -> match j with JData d => value_ok d | _ => True end -> keyed y).
    { intros [|s|g|d] y Y W; cbn [json_py] in Y; try (subst y); [exact Logic.I|exact Logic.I|apply keyed_header|]. eapply keyed_value; eassumption. }
    destruct (e_data e) as [b|d|]; [| |destruct D]; destruct A as (y & Y & ->).
    - assert (Ky : keyed y) by (eapply J; [exact Y|exact Logic.I]). cbn [opt app]. apply keyed_dict; [nodup|].
      repeat (apply Forall_cons; [cbn [snd]; first [exact Ky|exact Logic.I]|]); apply Forall_nil.
    - destruct D as (c & b & D). assert (Ky : keyed y) by (eapply J; [exact Y|]; eapply table_ok; exact D). cbn [opt app]. apply keyed_dict; [nodup|].
      repeat (apply Forall_cons; [cbn [snd]; first [exact Ky|exact Logic.I]|]); apply Forall_nil. }
  apply keyed_dict; [nodup|]. cbn [map fst snd]. repeat apply Forall_cons; try apply Forall_nil; cbn [snd].
  - apply keyed_dict; [nodup|]. apply Forall_cons; [apply keyed_header|apply Forall_nil].
  - apply keyed_list. exact L.
Qed.

(** Reading the JSON of a file gives objects in which no two members have the same key, at any depth. *)
Theorem C97_keys : forall o number fuel only minimal uni no_decompile roundtrip file v t old b,
  numbers_ok number -> bytes_ok file -> no_decompile && roundtrip = false ->
  save_vfb o fuel only minimal uni no_decompile roundtrip file = (v, Ok tt) -> vfb_py o v t ->
  write_vfb_json (dumps number) t old = (b, Ok tt) ->
  exists text j, b = utf8 text /\ loads text = Some j /\ distinct j.
Proof.
  intros o number fuel only minimal uni nd rt file v t old b N B O S V W. destruct (save_made _ _ _ _ _ _ _ _ _ B O S) as (M & H).
  destruct (C97_reads _ _ _ _ N W) as (text & _ & E & L). exists text, (shown number t). split; [exact E|]. split; [exact L|].
  apply keyed_distinct. eapply vfb_keyed; eassumption.
Qed.
Print Assumptions C97_keys.

(** [C97_ex] of Prop_Json.v meets the hypotheses; and [distinct] does not hold of all JSON. *)
Example C97_keys_ex : exists v t b, numbers_ok sample_number /\
  bytes_ok c97_file /\ save_vfb sample_oracles 20 false false false false false c97_file = (v, Ok tt) /\
  vfb_py sample_oracles v t /\ forall old, write_vfb_json (dumps sample_number) t old = (b, Ok tt).
Proof.
  destruct C97_ex as (v & t & b & B & S & _ & V & _ & W). exists v, t, b. split; [exact sample_number_ok|]. auto.
Qed.
Example C97_keys_not : exists j, loads (py "[{""h"": 1, ""h"": 2}]") = Some j /\ ~ distinct j.
Proof.
  eexists. split; [vm_compute; reflexivity|]. cbn. intros ((N & _) & _). apply NoDup_cons_iff in N. destruct N as (N & _). apply N. left. reflexivity.
Qed.
