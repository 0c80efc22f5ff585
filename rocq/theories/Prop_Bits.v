(** C07, C08: bit lists. *)
From Coq Require Import ZifyBool ZifyNat.
From Verif Require Import Base M_Helpers S_Bits Lib P_Helpers.

(** *** C07 *)
(** What [binaryToIntList] returns for a non-negative number: the increasing list of the positions
    of its set bits, counted from [start]. *)
Theorem C07_bits_of_number : forall v start, 0 <= v ->
  exists l, binaryToIntList v start = Ok l /\ is_bit_list v start l.
Proof. exact binaryToIntList_spec. Qed.
Print Assumptions C07_bits_of_number.

Theorem C07_number_bits_number : forall v, 0 <= v ->
  exists l, binaryToIntList v 0 = Ok l /\ intListToBinary l = Ok v.
Proof.
  intros v Hv. destruct (binaryToIntList_spec v 0 Hv) as (l & E & H).
  exists l. split; [exact E|].
  rewrite intListToBinary_ok by (eapply is_bit_list_nonneg; [|exact H]; lia).
  f_equal. apply sum_of_bits; auto.
Qed.
Print Assumptions C07_number_bits_number.

Theorem C07_bits_number_bits : forall l, NoDup l -> Forall (fun b => 0 <= b) l ->
  exists v sorted, intListToBinary l = Ok v /\ binaryToIntList v 0 = Ok sorted
    /\ Permutation sorted l /\ StronglySorted Z.lt sorted.
Proof.
  intros l N F. exists (sum_pow2 l).
  destruct (binaryToIntList_spec (sum_pow2 l) 0 (sum_pow2_nonneg l F)) as (s & E & S & B).
  exists s. split; [apply intListToBinary_ok; auto|]. split; [exact E|]. split; [|exact S].
  apply NoDup_Permutation; [apply sorted_nodup; auto|auto|].
  intros x. rewrite B, Z.sub_0_r, sum_pow2_testbit by auto.
  rewrite Forall_forall in F. split; [tauto|auto].
Qed.
Print Assumptions C07_bits_number_bits.

Theorem C07_start_offset : forall v start l, 0 <= v ->
  binaryToIntList v 0 = Ok l -> binaryToIntList v start = Ok (map (fun b => start + b) l).
Proof.
  intros v c l Hv E. apply binaryToIntList_is; [auto|].
  destruct (binaryToIntList_spec v 0 Hv) as (l' & E' & H). rewrite E in E'. inversion E'; subst.
  apply is_bit_list_shift. auto.
Qed.
Print Assumptions C07_start_offset.

Example C07_example : binaryToIntList 37 0 = Ok [0; 2; 5] /\ intListToBinary [5; 0; 2] = Ok 37
  /\ binaryToIntList 37 16 = Ok [16; 18; 21].
Proof. repeat split. Qed.

(** Repeated bits carry, so the round trip needs the absence of duplicates. *)
Theorem C07_duplicates_refuted : exists l v, Forall (fun b => 0 <= b) l /\
  intListToBinary l = Ok v /\ exists l', binaryToIntList v 0 = Ok l' /\ forall b, In b l -> ~ In b l'.
Proof.
  exists [3; 3], 16. split; [repeat constructor; lia|]. split; [reflexivity|].
  exists [4]. split; [reflexivity|]. cbn. lia.
Qed.
Print Assumptions C07_duplicates_refuted.

(** *** C08 *)
(** For non-negative numbers the loop stops: any fuel above the bit length gives the result. *)
Theorem C08_terminates_nonneg : forall v start, 0 <= v ->
  exists n l, forall fuel, (n <= fuel)%nat -> binaryToIntList_loop fuel v start = Ok l.
Proof.
  intros v c Hv. destruct (binaryToIntList_spec v c Hv) as (l & E & _).
  eexists; exists l. intros fuel Hf. eapply bitl_loop_fuel; [exact Hf|exact E].
Qed.
Print Assumptions C08_terminates_nonneg.

(** For every negative number it never stops: no number of iterations is enough. *)
Theorem C08_terminates_refuted : forall v start, v < 0 ->
  forall fuel, binaryToIntList_loop fuel v start = Err Diverge.
Proof. intros. apply bitl_loop_negative. auto. Qed.
Print Assumptions C08_terminates_refuted.
