(** Proofs about M_Tools. *)
From Coq Require Import String ZifyBool ZifyNat.
From Verif Require Import Base Lib M_Stream M_Py M_Helpers M_Text M_Container M_Tth M_Designspace M_Tools S_Stream S_Tools
  P_Stream P_Helpers P_Dec Prop_Stream.
Local Open Scope list_scope.

(** ** Values *)
Lemma hex_value_range : forall c h, hex_value c = Some h -> 0 <= h < 16.
Proof.
  intros c h. unfold hex_value, in_range. 
  destruct ((48 <=? c) && (c <? 58)) eqn:A; [intros H; injection H as <-; lia|].
  destruct ((97 <=? c) && (c <? 103)) eqn:B; [intros H; injection H as <-; lia|].
  destruct ((65 <=? c) && (c <? 71)) eqn:C; [intros H; injection H as <-; lia|]. discriminate.
Qed.
Lemma deHexStr_bytes_n : forall n s b, (List.length s <= n)%nat -> deHexStr s = Ok b -> bytes_ok b.
Proof.
  induction n as [|n IH]; intros s b L H.
  - destruct s; [|cbn in L; lia]. cbn in H. injection H as <-. constructor.
  - destruct s as [|c s]; [cbn in H; injection H as <-; constructor|]. cbn [deHexStr] in H. cbn [List.length] in L.
    destruct (ascii_space c); [apply (IH s); [lia|exact H]|].
    destruct s as [|d s]; [discriminate|]. cbn [List.length] in L.
    destruct (hex_value c) as [h|] eqn:Hc; [|discriminate]. destruct (hex_value d) as [l|] eqn:Hd; [|discriminate].
    destruct (deHexStr s) as [t|] eqn:E; cbn [rmap] in H; [|discriminate]. apply Ok_inj in H. subst b.
    apply hex_value_range in Hc. apply hex_value_range in Hd.
    constructor; [unfold is_byte; lia|]. apply (IH s); [lia|exact E].
Qed.
Lemma deHexStr_bytes : forall s b, deHexStr s = Ok b -> bytes_ok b.
Proof. intros s b. apply (deHexStr_bytes_n (List.length s)). lia. Qed.

Lemma yuri_loop_ends : forall fuel sg s, bytes_ok s -> (List.length s < fuel)%nat -> snd (yuri_loop fuel sg s) <> Err Diverge.
Proof.
  induction fuel as [|f IH]; intros sg s B L; [lia|]. cbn [yuri_loop].
  pose proof (C03_value_total sg s B) as H. destruct s as [|b t].
  - rewrite H. discriminate.
  - destruct (b =? 0); [rewrite H; discriminate|]. destruct (b <? 32); [rewrite H; discriminate|].
    destruct H as (v & used & rest & E & A & _ & N). rewrite E.
    assert (Lr : (List.length rest < List.length (b :: t))%nat).
    { rewrite A, app_length. cbv zeta in N. destruct (b <? 247), (b <? 255); lia. }
    assert (Br : bytes_ok rest). { rewrite A in B. apply bytes_ok_app in B. apply B. }
    specialize (IH sg rest Br ltac:(lia)). destruct (yuri_loop f sg rest) as [l o]. exact IH.
Qed.
Lemma yuri_roundtrip : forall sg vs, Forall (fits_value sg) vs ->
  exists b, wlist (write_value_gen sg) vs = Ok b /\ bytes_ok b /\ (List.length vs <= List.length b)%nat /\
  forall fuel, (List.length vs < fuel)%nat -> yuri_loop fuel sg b = (vs, Ok tt).
Proof.
  intros sg vs. induction vs as [|v vs IH]; intros H.
  - exists []. split; [reflexivity|]. split; [constructor|]. split; [cbn; lia|]. intros [|f] F; [lia|].
    cbn [yuri_loop]. rewrite read_value_nil. reflexivity.
  - destruct (IH (Forall_inv_tail H)) as (b & E & B & L & R).
    destruct (C01_value_roundtrip sg v b (Forall_inv H)) as (a & Ea & Ba & Ra).
    exists (a ++ b). cbn [wlist]. rewrite Ea, E. split; [reflexivity|]. split; [apply bytes_ok_app; auto|]. split.
    + rewrite app_length. cbn [List.length]. destruct a as [|x a]; [|cbn [List.length]; lia].
      exfalso. destruct (C01_value_roundtrip sg v [] (Forall_inv H)) as (a' & Ea' & _ & Ra'). rewrite Ea in Ea'.
      apply Ok_inj in Ea'. subst a'. cbn [app] in Ra'. rewrite read_value_nil in Ra'. discriminate.
    + intros [|f] F; [cbn in F; lia|]. cbn [yuri_loop List.length] in *. rewrite Ra, R by lia. reflexivity.
Qed.

Lemma yuri_prefix : forall sg vs, Forall (fits_value sg) vs ->
  exists b, wlist (write_value_gen sg) vs = Ok b /\ bytes_ok b /\ (List.length vs <= List.length b)%nat /\
  forall fuel tail, yuri_loop (List.length vs + fuel) sg (b ++ tail) =
    let '(l, o) := yuri_loop fuel sg tail in (vs ++ l, o).
Proof.
  intros sg vs. induction vs as [|v vs IH]; intros H.
  - exists []. split; [reflexivity|]. split; [constructor|]. split; [cbn; lia|]. intros fuel tail.
    cbn [List.length Nat.add app]. destruct (yuri_loop fuel sg tail); reflexivity.
  - destruct (IH (Forall_inv_tail H)) as (b & E & B & L & R).
    destruct (C01_value_roundtrip sg v [] (Forall_inv H)) as (a & Ea & Ba & Ra0).
    exists (a ++ b). cbn [wlist]. rewrite Ea, E. split; [reflexivity|]. split; [apply bytes_ok_app; auto|]. split.
    + rewrite app_length. cbn [List.length]. destruct a as [|x a]; [|cbn [List.length]; lia].
      cbn [app] in Ra0. rewrite read_value_nil in Ra0. discriminate.
    + intros fuel tail. destruct (C01_value_roundtrip sg v (b ++ tail) (Forall_inv H)) as (a' & Ea' & _ & Ra').
      rewrite Ea in Ea'. apply Ok_inj in Ea'. subst a'. cbn [List.length Nat.add yuri_loop]. rewrite <- app_assoc, Ra', R.
      destruct (yuri_loop fuel sg tail). reflexivity.
Qed.

(** ** The dict *)
Lemma hexStr_inj : forall a b, bytes_ok a -> bytes_ok b -> hexStr a = hexStr b -> a = b.
Proof. intros a b A B H. apply deHexStr_hexStr in A. apply deHexStr_hexStr in B. rewrite H in A. congruence. Qed.

(** ** Files *)
Lemma out_text : forall json out i, path_text (get_master_path (out_path_of json out) (Z.of_nat i)) = ufo_file out (ufo_suffix json out) i.
Proof.
  intros json [r d s x] i. unfold ufo_file, ufo_suffix, get_master_path, path_text, out_path_of, with_suffix.
  destruct i as [|i].
  - change (0 <? Z.of_nat 0) with false. destruct json; reflexivity.
  - replace (0 <? Z.of_nat (S i)) with true by lia. destruct json; cbn [p_root p_dir p_stem p_suffix]; rewrite <- !app_assoc; reflexivity.
Qed.
Lemma ds_text : forall json out, path_text (with_suffix (out_path_of json out) (py ".designspace")) = ds_file out.
Proof. intros [] [r d s x]; reflexivity. Qed.
Lemma ufo_file_inj : forall out x i j, ufo_file out x i = ufo_file out x j -> i = j.
Proof.
  intros out x i j H. unfold ufo_file in H. do 3 apply app_inv_head in H. apply app_inv_tail in H.
  destruct i, j; try reflexivity; try discriminate. apply app_inv_head in H. apply dec_str_inj in H. lia.
Qed.
Lemma ufo_not_ds : forall out x i, x <> py ".designspace" -> ufo_file out x i <> ds_file out.
Proof.
  intros out x i N H. unfold ufo_file, ds_file in H. do 3 apply app_inv_head in H.
  destruct i; [apply N; exact H|]. discriminate.
Qed.
Lemma get_set_same : forall C k (v : C) d, content (aset str_eqb k v d) k = Some v.
Proof. intros. unfold content. rewrite (aget_aset str_eqb str_eqb_eq). rewrite str_eqb_refl. reflexivity. Qed.
Lemma get_set_other : forall C k k' (v : C) d, k' <> k -> content (aset str_eqb k v d) k' = content d k'.
Proof.
  intros. unfold content. rewrite (aget_aset str_eqb str_eqb_eq). destruct (str_eqb k' k) eqn:E; [|reflexivity].
  apply str_eqb_eq in E. contradiction.
Qed.

Lemma write_ufos_done : forall C json ov out (ufos : list C) i fs fs',
  write_ufos json ov (out_path_of json out) (Z.of_nat i) ufos fs = (fs', Done) ->
  (forall j u, nth_error ufos j = Some u -> content fs' (ufo_file out (ufo_suffix json out) (i + j)) = Some u) /\
  (forall p, (forall j, (j < List.length ufos)%nat -> p <> ufo_file out (ufo_suffix json out) (i + j)) -> content fs' p = content fs p) /\
  (json = false -> ov = false -> forall j, (j < List.length ufos)%nat -> content fs (ufo_file out (ufo_suffix json out) (i + j)) = None).
Proof.
  intros C json ov out ufos. induction ufos as [|u ufos IH]; intros i fs fs' H; cbn [write_ufos] in H.
  - injection H as <-. split; [intros [|j]; discriminate|]. split; [reflexivity|]. cbn [List.length]. intros; lia.
  - rewrite out_text in H. unfold save_ufo in H. rewrite out_text in H. replace (Z.of_nat i + 1) with (Z.of_nat (S i)) in H by lia.
    set (x := ufo_suffix json out) in *. set (p0 := ufo_file out x i) in *.
    assert (H' : write_ufos json ov (out_path_of json out) (Z.of_nat (S i)) ufos (aset str_eqb p0 u fs) = (fs', Done) /\
                 (json = false -> ov = false -> content fs p0 = None)).
    { destruct json; [split; [exact H|discriminate]|]. unfold content.
      destruct (aget str_eqb p0 fs); [destruct ov; [split; [exact H|discriminate]|discriminate]|]. split; [exact H|reflexivity]. }
    clear H. destruct H' as [H N0]. apply IH in H. destruct H as (H1 & H2 & H3).
    assert (D : forall j, p0 <> ufo_file out x (S i + j)) by (intros j E; apply ufo_file_inj in E; lia).
    split; [|split].
    + intros [|j] v V; cbn [nth_error] in V.
      * injection V as <-. rewrite Nat.add_0_r. fold p0. rewrite H2 by (intros j _; apply D). apply get_set_same.
      * rewrite <- Nat.add_succ_comm. apply H1. exact V.
    + intros p P. rewrite H2.
      * apply get_set_other. specialize (P O). cbn [List.length] in P. rewrite Nat.add_0_r in P. apply P. lia.
      * intros j J. rewrite Nat.add_succ_comm. apply P. cbn [List.length]. lia.
    + intros Ej Eo [|j] J; cbn [List.length] in J.
      * rewrite Nat.add_0_r. apply N0; assumption.
      * rewrite <- Nat.add_succ_comm. rewrite <- (get_set_other _ p0 _ u); [|intros E; apply (D j); symmetry; exact E].
        apply H3; auto; lia.
Qed.
Lemma write_ufos_kept : forall C out (ufos : list C) i fs p c, content fs p = Some c ->
  content (fst (write_ufos false false out i ufos fs)) p = Some c.
Proof.
  intros C out ufos. induction ufos as [|u ufos IH]; intros i fs p c H; cbn [write_ufos]; [exact H|].
  unfold save_ufo. destruct (aget str_eqb (path_text (get_master_path out i)) fs) eqn:E; [exact H|].
  apply IH. rewrite get_set_other; [exact H|]. intros ->. unfold content in H. congruence.
Qed.
Lemma write_ufos_outcome : forall C json ov out (ufos : list C) i fs,
  snd (write_ufos json ov out i ufos fs) = Done \/ snd (write_ufos json ov out i ufos fs) = FileExists.
Proof.
  intros C json ov out ufos. induction ufos as [|u ufos IH]; intros i fs; cbn [write_ufos]; [left; reflexivity|].
  destruct json; [apply IH|]. unfold save_ufo. destruct (aget _ _ fs); [|apply IH].
  destruct ov; [apply IH|]. right. reflexivity.
Qed.
Lemma write_ufos_overwrite : forall C json ov out (ufos : list C) i fs, (json = true \/ ov = true) ->
  snd (write_ufos json ov out i ufos fs) = Done.
Proof.
  intros C json ov out ufos. induction ufos as [|u ufos IH]; intros i fs O; cbn [write_ufos]; [reflexivity|].
  destruct json; [apply IH; auto|]. destruct O as [O|O]; [discriminate|subst ov].
  unfold save_ufo. destruct (aget _ _ fs); apply IH; auto.
Qed.
