(** Proofs about M_Glyph.v: outlines and TrueType hinting commands. *)
From Coq Require Import String Permutation ZifyBool ZifyNat.
From Verif Require Import Base M_Stream M_Helpers M_Text M_Py M_Simple M_Glyph S_Stream S_Bits S_Text S_Entry S_Glyph
  Lib P_Stream P_Helpers P_Text P_Text2 P_Loop P_Simple P_Simple2 P_Simple3 P_TrueType P_TrueType2 P_Glyph P_Glyph2 Prop_TrueType.
Local Open Scope list_scope.
Open Scope rd_scope.
Ltac Zify.zify_post_hook ::= Z.div_mod_to_equations.

(** ** Rows and columns *)
Lemma map2_map : forall A B C D (f : B -> C -> D) (g : A -> B) (h : A -> C) l,
  map2 f (map g l) (map h l) = map (fun x => f (g x) (h x)) l.
Proof. induction l as [|x l IH]; cbn; [reflexivity|]. rewrite IH. reflexivity. Qed.
Lemma map2_length : forall A B C (f : A -> B -> C) l m, length l = length m -> length (map2 f l m) = length l.
Proof. induction l as [|x l IH]; intros [|y m] H; cbn in *; try discriminate; auto. Qed.
Lemma padd_psub : forall row ref, length row = length ref -> map2 padd ref (map2 psub row ref) = row.
Proof.
  induction row as [|p row IH]; intros [|q ref] H; cbn in *; try discriminate; [reflexivity|].
  rewrite IH by lia. f_equal. destruct p, q. unfold padd, psub. cbn. f_equal; lia.
Qed.
Lemma Forall_map2 : forall A B C (f : A -> B -> C) (P : C -> Prop) l m d e, length l = length m ->
  (forall i, (i < length l)%nat -> P (f (nth i l d) (nth i m e))) -> Forall P (map2 f l m).
Proof.
  induction l as [|x l IH]; intros [|y m] d e L H; cbn in *; try discriminate; [constructor|].
  constructor; [apply (H 0%nat); lia|]. apply (IH m d e); [lia|]. intros i Hi. apply (H (S i)). lia.
Qed.
Lemma wrt_row : forall n ref row, Z.of_nat (length row) = n -> length row = length ref ->
  Forall int32_pair (map2 psub row ref) -> wrt (write_row ref row) (read_row n ref) row.
Proof.
  intros n ref row Hn L H. unfold write_row, read_row.
  eapply wrt_bind_ret; [apply wrt_pairs; [|exact H]|].
  - rewrite map2_length by exact L. lia.
  - rewrite padd_psub by exact L. reflexivity.
Qed.
(** the points number [j] of all masters *)
Definition col (j : nat) (pts : list (list (Z * Z))) : list (Z * Z) := map (fun ps => nth j ps (0, 0)) pts.
Lemma res_map_ok_all : forall A B (f : A -> res B) (g : A -> B) l,
  (forall x, In x l -> f x = Ok (g x)) -> res_map f l = Ok (map g l).
Proof.
  induction l as [|x l IH]; intros H; cbn [res_map map]; [reflexivity|].
  rewrite (H x) by (left; reflexivity). rewrite IH by (intros; apply H; right; assumption). reflexivity.
Qed.
Lemma node_row_col : forall n pts j k, Z.of_nat (length pts) = n -> Forall (fun ps => length ps = k) pts -> (j < k)%nat ->
  node_row n pts (Z.of_nat j) = Ok (col j pts).
Proof.
  intros n pts j k Hn Hk Hj. unfold node_row, zseq. rewrite res_map_map, <- Hn, Nat2Z.id.
  rewrite (res_map_ok_all _ _ _ (fun i => nth j (nth i pts []) (0, 0))).
  - unfold col. rewrite <- (seq_map_nth _ pts []) at 2. rewrite map_map. reflexivity.
  - intros i Hi. apply in_seq in Hi. rewrite (py_index_nth _ pts i []) by lia. cbn [rthen].
    apply py_index_nth. rewrite (Forall_In _ _ _ (nth i pts []) Hk); [exact Hj|]. apply nth_In. lia.
Qed.
Lemma node_rows_cols : forall n nd k, 1 <= n -> masters n (fun ps => length ps = k) (nd_points nd) ->
  node_rows n nd = Ok (map (fun j => col j (nd_points nd)) (seq 0 k)).
Proof.
  intros n nd k Hn [Hl Hk]. unfold node_rows. change 0 with (Z.of_nat 0).
  rewrite (py_index_nth _ (nd_points nd) 0 []) by lia. cbn [rthen].
  assert (L0 : length (nth 0 (nd_points nd) []) = k) by (apply (Forall_In _ _ _ _ Hk), nth_In; lia).
  rewrite L0. unfold zseq. rewrite res_map_map, Nat2Z.id. apply res_map_ok_all.
  intros j Hj. apply in_seq in Hj. apply (node_row_col n _ j k); auto; lia.
Qed.
Lemma col_length : forall j pts, length (col j pts) = length pts. Proof. intros. apply map_length. Qed.
Lemma col_nth : forall j pts m, (m < length pts)%nat -> nth m (col j pts) (0, 0) = nth j (nth m pts []) (0, 0).
Proof.
  intros j pts m H. unfold col. rewrite (nth_indep _ (0, 0) (nth j [] (0, 0))) by (rewrite map_length; exact H).
  exact (map_nth (fun ps => nth j ps (0, 0)) pts [] m).
Qed.

(** ** Nodes *)
Lemma path_command_value : forall c, path_command (path_value c) = Ok c. Proof. destruct c; reflexivity. Qed.
Lemma node_byte : forall f v, 0 <= f <= 15 -> 0 <= v < 16 ->
  0 <= f * 16 + v < 256 /\ Z.land (f * 16 + v) 0x0F = v /\ Z.shiftr (f * 16 + v) 4 = f.
Proof.
  intros f v Hf Hv. split; [lia|]. split.
  - change 15 with (Z.ones 4). rewrite Z.land_ones by lia. change (2 ^ 4) with 16. lia.
  - rewrite Z.shiftr_div_pow2 by lia. change (2 ^ 4) with 16. lia.
Qed.
Lemma path_value_range : forall c, 0 <= path_value c < 16. Proof. destruct c; cbn; lia. Qed.

Lemma masters_nth : forall n (P : list (Z * Z) -> Prop) l m, masters n P l -> (m < length l)%nat -> P (nth m l []).
Proof. intros n P l m [_ H] Hm. apply (Forall_In _ _ _ _ H), nth_In. exact Hm. Qed.
Lemma repeat_points0 : forall n (pts : list (list (Z * Z))), Z.of_nat (length pts) = n ->
  repeat ([] : list (Z * Z)) (Z.to_nat n) = map (fun _ => []) pts.
Proof.
  intros n pts <-. rewrite Nat2Z.id. induction pts as [|p pts IH]; cbn; [reflexivity|]. rewrite IH. reflexivity.
Qed.
Lemma points_1 : forall pts, Forall (fun ps => length ps = 1%nat) pts ->
  add_row (map (fun _ => []) pts) (col 0 pts) = pts.
Proof.
  intros pts H. unfold add_row, col. rewrite map2_map. rewrite <- (map_id pts) at 2. apply map_ext_in.
  intros ps Hps. pose proof (Forall_In _ _ _ _ H Hps) as L. cbn beta in L.
  destruct ps as [|p [|]]; try discriminate. reflexivity.
Qed.
Lemma points_3 : forall pts, Forall (fun ps => length ps = 3%nat) pts ->
  add_row (add_row (add_row (map (fun _ => []) pts) (col 0 pts)) (col 1 pts)) (col 2 pts) = pts.
Proof.
  intros pts H. unfold add_row, col. rewrite !map2_map. rewrite <- (map_id pts) at 2. apply map_ext_in.
  intros ps Hps. pose proof (Forall_In _ _ _ _ H Hps) as L. cbn beta in L.
  destruct ps as [|p [|q [|r [|]]]]; try discriminate. reflexivity.
Qed.

Definition steps_from (n : Z) (ref : list (Z * Z)) (nodes : list mm_node) : Prop :=
  Z.of_nat (length ref) = n /\
  forall m, Z.of_nat m < n -> small_steps (nth m ref (0, 0)) (master_path nodes m).

Lemma step_row : forall n ref pts j,
  Z.of_nat (length ref) = n -> Z.of_nat (length pts) = n ->
  (forall m, Z.of_nat m < n -> int32_pair (psub (nth j (nth m pts []) (0, 0)) (nth m ref (0, 0)))) ->
  wrt (write_row ref (col j pts)) (read_row n ref) (col j pts).
Proof.
  intros n ref pts j Hr Hp H. apply wrt_row; rewrite ?col_length; try lia.
  apply Forall_map2 with (d := (0, 0)) (e := (0, 0)); rewrite ?col_length; [lia|].
  intros m Hm. rewrite col_nth by exact Hm. apply H. lia.
Qed.

Lemma nd_eta : forall nd, nd = MMNode (nd_type nd) (nd_flags nd) (nd_points nd).
Proof. destruct nd; reflexivity. Qed.
Lemma wrt_node : forall n ref nd nodes acc, 1 <= n < 2 ^ 31 -> wf_node n nd -> steps_from n ref (nd :: nodes) ->
  exists rows, node_rows n nd = Ok rows /\ steps_from n (last rows ref) nodes /\
    wrt (write_uint8 (nd_flags nd * 16 + path_value (nd_type nd)) +++ write_rows ref rows)
        (outlines_turn n (acc, ref)) (acc ++ [nd], last rows ref).
Proof.
  intros n ref nd nodes acc Hn [Hf HP] [Lr HS].
  exists (map (fun j => col j (nd_points nd)) (seq 0 (node_points (nd_type nd)))).
  split; [apply node_rows_cols; [lia|exact HP]|].
  pose proof (node_byte _ _ Hf (path_value_range (nd_type nd))) as (B1 & B2 & B3).
  pose proof HP as [Lp Fp].
  set (byte := nd_flags nd * 16 + path_value (nd_type nd)) in *.
  assert (SM : forall m, Z.of_nat m < n ->
    length (nth m (nd_points nd) []) = node_points (nd_type nd) /\
    small_steps (nth m ref (0, 0)) (nth m (nd_points nd) [] ++ master_path nodes m)).
  { intros m Hm. split; [apply (masters_nth n _ _ _ HP); lia|]. apply (HS m Hm). }
  assert (START : forall w r x, wrt w r x -> (forall s, r s =
      (let points0 := repeat [] (Z.to_nat n) in
       row1 <- read_row n ref ;;
       match nd_type nd with
       | Curve =>
           row2 <- read_row n row1 ;; row3 <- read_row n row2 ;;
           ret (acc ++ [MMNode (nd_type nd) (nd_flags nd) (add_row (add_row (add_row points0 row1) row2) row3)], row3)
       | _ => ret (acc ++ [MMNode (nd_type nd) (nd_flags nd) (add_row points0 row1)], row1)
       end) s) -> wrt (write_uint8 byte +++ w) (outlines_turn n (acc, ref)) x).
  { intros w r x Hw E. unfold outlines_turn.
    eapply wrt_bind; [apply wrt_uint8; exact B1|].
    eapply wrt_ext; [|exact Hw]. intros s. rewrite E. unfold rlift, rbind at 1.
    rewrite B2, path_command_value, B3. reflexivity. }
  destruct (nd_type nd) eqn:T; cbn [node_points seq map last].
  (* one point *)
  1,2,4: split; [split; [rewrite col_length; exact Lp|]; intros m Hm; rewrite col_nth by lia;
      destruct (SM m Hm) as [L1 S1]; destruct (nth m (nd_points nd) []) as [|p [|]]; try discriminate L1;
      cbn [app small_steps nth] in *; tauto|].
  1,2,3: eapply START; [|intros s; reflexivity].
  1,2,3: cbn [write_rows]; rewrite wseq_nil_r.
  1,2,3: eapply wrt_bind_ret; [apply step_row; [exact Lr|exact Lp|]|].
  1,3,5: intros m Hm; destruct (SM m Hm) as [L1 S1]; destruct (nth m (nd_points nd) []) as [|p [|]]; try discriminate L1;
      cbn [app small_steps nth] in *; split; cbn [psub fst snd]; tauto.
  1,2,3: rewrite (repeat_points0 n _ Lp), points_1 by exact Fp; rewrite <- T, <- nd_eta; reflexivity.
  (* three points *)
  split.
  { split; [rewrite col_length; exact Lp|]. intros m Hm. rewrite col_nth by lia.
    destruct (SM m Hm) as [L1 S1]. destruct (nth m (nd_points nd) []) as [|p [|q [|r [|]]]]; try discriminate L1.
    cbn [app small_steps nth] in *. tauto. }
  eapply START; [|intros s; reflexivity].
  cbn [write_rows]. rewrite wseq_nil_r.
  assert (SR : forall j ref', length ref' = length ref ->
     (forall m, Z.of_nat m < n -> int32_pair (psub (nth j (nth m (nd_points nd) []) (0, 0)) (nth m ref' (0, 0)))) ->
     wrt (write_row ref' (col j (nd_points nd))) (read_row n ref') (col j (nd_points nd))).
  { intros j ref' E H. apply step_row; auto. lia. }
  eapply wrt_bind; [apply SR; [reflexivity|]|].
  { intros m Hm. destruct (SM m Hm) as [L1 S1]. destruct (nth m (nd_points nd) []) as [|p [|q [|r [|]]]]; try discriminate L1.
    cbn [app small_steps nth] in *. split; cbn [psub fst snd]; tauto. }
  eapply wrt_bind; [apply SR; [rewrite col_length; lia|]|].
  { intros m Hm. rewrite col_nth by lia. destruct (SM m Hm) as [L1 S1].
    destruct (nth m (nd_points nd) []) as [|p [|q [|r [|]]]]; try discriminate L1.
    cbn [app small_steps nth] in *. split; cbn [psub fst snd]; tauto. }
  eapply wrt_bind_ret; [apply SR; [rewrite col_length; lia|]|].
  { intros m Hm. rewrite col_nth by lia. destruct (SM m Hm) as [L1 S1].
    destruct (nth m (nd_points nd) []) as [|p [|q [|r [|]]]]; try discriminate L1.
    cbn [app small_steps nth] in *. split; cbn [psub fst snd]; tauto. }
  rewrite (repeat_points0 n _ Lp), points_3 by exact Fp. rewrite <- T, <- nd_eta. reflexivity.
Qed.

Lemma wrt_nodes : forall nodes n ref acc, 1 <= n < 2 ^ 31 -> Forall (wf_node n) nodes -> steps_from n ref nodes ->
  exists ref', wrt (write_nodes n ref nodes) (rtimes (length nodes) (outlines_turn n) (acc, ref)) (acc ++ nodes, ref').
Proof.
  induction nodes as [|nd nodes IH]; intros n ref acc Hn Hw HS.
  - exists ref. cbn [write_nodes length rtimes]. rewrite app_nil_r. apply wrt_ret.
  - inversion Hw as [|? ? Hnd Hns]; subst.
    destruct (wrt_node n ref nd nodes acc Hn Hnd HS) as (rows & Er & HS' & W).
    destruct (IH n (last rows ref) (acc ++ [nd]) Hn Hns HS') as (ref' & W').
    exists ref'. cbn [write_nodes length rtimes]. rewrite Er. cbn [wlet].
    rewrite <- wseq_assoc. eapply wrt_bind; [exact W|]. rewrite <- app_assoc in W'. exact W'.
Qed.
Lemma outlines_values_stored : forall n nodes, 1 <= n -> Forall (wf_node n) nodes ->
  outlines_values n nodes = stored_values n nodes.
Proof.
  intros n nodes Hn H. unfold outlines_values, stored_values. induction H as [|nd nodes [_ HP] _ IH]; [reflexivity|].
  cbn [fold_right map]. rewrite IH. unfold node_values.
  rewrite (masters_nth n _ _ 0%nat HP) by (destruct HP; lia). lia.
Qed.
Lemma stored_values_pos : forall n nodes, 0 <= n -> Z.of_nat (length nodes) <= stored_values n nodes.
Proof.
  intros n nodes Hn. unfold stored_values. induction nodes as [|nd nodes IH]; cbn [length map fold_right]; [lia|].
  assert (0 <= n * (2 * Z.of_nat (node_points (nd_type nd)))) by nia. lia.
Qed.
Lemma wrt_outlines : forall n nodes, master_count n -> wf_nodes n (or_nil nodes) ->
  wrt (compile_outlines n nodes) parse_outlines (n, or_nil nodes).
Proof.
  intros n nodes Hn (Hw & HS & HV). unfold master_count in Hn. unfold compile_outlines, parse_outlines.
  eapply wrt_bind; [apply wrt_value_uvalue; lia|].
  destruct nodes as [[|nd nodes]|]; cbn [or_nil] in *.
  1,3: eapply wrt_bind; [apply wrt_value; unfold i32; lia|];
       eapply wrt_bind_ret; [apply wrt_value; unfold i32; lia|]; reflexivity.
  set (l := nd :: nodes) in *. rewrite outlines_values_stored by (auto; lia).
  pose proof (stored_values_pos n l ltac:(lia)).
  eapply wrt_bind; [apply wrt_value; unfold i32; lia|].
  eapply wrt_bind; [apply wrt_value; unfold i32; lia|]. rewrite Nat2Z.id.
  destruct (wrt_nodes l n (repeat (0, 0) (Z.to_nat n)) [] Hn Hw) as (ref' & W).
  { split; [rewrite repeat_length; lia|]. intros m Hm. rewrite nth_repeat. apply HS, Hm. }
  eapply wrt_bind_ret; [exact W|]. reflexivity.
Qed.
Lemma tot_row : forall n ref, tot (read_row n ref).
Proof. intros. unfold read_row. apply tot_bind; [apply tot_range, tot_pair|intros; apply tot_ret]. Qed.
Lemma tot_path_command : forall v, tot (rlift (path_command v)).
Proof. intros. apply tot_lift. unfold path_command. repeat destruct (_ =? _); discriminate. Qed.
Lemma tot_outlines : tot parse_outlines.
Proof.
  unfold parse_outlines. tot_auto. destruct st as [segments ref]. unfold outlines_turn. tot_auto;
  first [apply tot_path_command|apply tot_row].
Qed.

(** ** Hinting commands *)
Lemma tt_ids_nodup : NoDup (map fst tt_commands).
Proof. cbn. repeat constructor; cbn; intuition discriminate. Qed.
Lemma tt_commands_known : forall id name params, In (id, (name, params)) tt_commands -> In (name, params) hinting_commands.
Proof.
  intros id name params H. cbn [tt_commands In] in H.
  repeat (destruct H as [H|H]; [inversion H; subst; cbn [hinting_commands In]; tauto|]). destruct H.
Qed.
Lemma hinting_known : forall name params, In (name, params) hinting_commands -> exists id, In (id, (name, params)) tt_commands.
Proof.
  intros name params H. cbn [hinting_commands In] in H.
  repeat (destruct H as [H|H]; [inversion H; subst; eexists; cbn [tt_commands In];
    repeat (first [left; reflexivity|right])|]). destruct H.
Qed.
Lemma tt_names_nodup : NoDup (map fst tt_command_constants).
Proof. apply nodupb_ok. vm_compute. reflexivity. Qed.
Lemma tt_params_nodup : forall id c, In (id, c) tt_commands -> NoDup (snd c).
Proof.
  intros id c H. cbn [tt_commands In] in H.
  repeat (destruct H as [H|H]; [inversion H; subst; apply nodupb_ok; vm_compute; reflexivity|]). destruct H.
Qed.
Lemma tt_params_length : forall id c, In (id, c) tt_commands -> (length (snd c) <= 4)%nat /\ 0 <= id < 256.
Proof.
  intros id c H. cbn [tt_commands In] in H.
  repeat (destruct H as [H|H]; [inversion H; subst; cbn; lia|]). destruct H.
Qed.
Definition param (i : instruction) (name : pystr) : Z :=
  match aget str_eqb name (in_params i) with Some v => v | None => 0 end.
(** the parameters in the order of the table *)
Definition ordered (params : list pystr) (i : instruction) : instruction :=
  Instruction (in_cmd i) (map (fun name => (name, param i name)) params).
Lemma param_get : forall i params name, Permutation (map fst (in_params i)) params -> NoDup params -> In name params ->
  aget str_eqb name (in_params i) = Some (param i name) /\ In (name, param i name) (in_params i).
Proof.
  intros i params name P N H.
  destruct (aget_key _ name (in_params i)) as (v & E).
  { eapply Permutation_in; [apply Permutation_sym; exact P|exact H]. }
  unfold param. rewrite E. split; [reflexivity|]. apply aget_in in E. exact E.
Qed.
Lemma ordered_same : forall i params, Permutation (map fst (in_params i)) params -> NoDup params ->
  same_instruction i (ordered params i).
Proof.
  intros i params P N. split; [reflexivity|]. cbn [ordered in_params].
  assert (N' : NoDup (map fst (in_params i))) by (eapply Permutation_NoDup; [apply Permutation_sym; exact P|exact N]).
  apply NoDup_Permutation.
  - eapply NoDup_map_inv. exact N'.
  - apply (NoDup_map_inv fst). rewrite map_map. cbn [fst]. rewrite map_id. exact N.
  - intros [k v]. split; intros H.
    + apply in_map_iff. exists k. split.
      * unfold param. rewrite (in_aget _ k v _ N' H). reflexivity.
      * eapply Permutation_in; [exact P|]. apply (in_map fst _ _ H).
    + apply in_map_iff in H. destruct H as (name & E & Hn). inversion E; subst.
      apply (param_get i params k P N Hn).
Qed.
Lemma wrt_instruction : forall i, wf_instruction i -> exists j, same_instruction i j /\
  wrt (compile_instruction i) parse_instruction j.
Proof.
  intros i (params & Hin' & HP & Hv). destruct (hinting_known _ _ Hin') as (id & Hin). set (name := in_cmd i) in *. assert (Hc : in_cmd i = name) by reflexivity. pose proof (tt_params_nodup _ _ Hin) as N. cbn [snd] in N.
  exists (ordered params i). split; [apply ordered_same; auto|].
  unfold compile_instruction, parse_instruction.
  assert (E1 : aget_res str_eqb (in_cmd i) tt_command_constants = Ok id).
  { unfold aget_res. rewrite (in_aget _ _ id); [reflexivity|apply tt_names_nodup|].
    rewrite Hc. unfold tt_command_constants. apply in_map_iff. exists (id, (name, params)). auto. }
  assert (E2 : aget_res Z.eqb id tt_commands = Ok (name, params)).
  { unfold aget_res. rewrite (in_zget _ _ (name, params)); [reflexivity|apply tt_ids_nodup|exact Hin]. }
  rewrite E1. cbn [wlet]. rewrite E2. cbn [wlet snd].
  pose proof (tt_params_length _ _ Hin) as [_ Hid].
  eapply wrt_bind; [apply wrt_uint8; exact Hid|].
  eapply wrt_pre; [intros s; unfold rlift; rewrite E2; reflexivity|]. cbn [fst snd].
  eapply wrt_bind_ret.
  - apply wrt_range with (f := param i); [reflexivity|]. intros k Hk.
    destruct (param_get i params k HP N Hk) as [G I]. unfold aget_res. rewrite G. cbn [wlet].
    apply wrt_value. exact (Forall_In _ _ _ _ Hv I).
  - intros s. unfold ordered, ret. rewrite Hc. do 3 f_equal. clear.
    induction params as [|k l IH]; [reflexivity|]. cbn [map combine]. rewrite IH. reflexivity.
Qed.
(** the order of the parameters does not matter *)
Lemma instruction_order : forall cmd p q, NoDup (map fst p) -> Permutation p q ->
  compile_instruction (Instruction cmd p) = compile_instruction (Instruction cmd q).
Proof.
  intros cmd p q N P. unfold compile_instruction. cbn [in_cmd in_params].
  destruct (aget_res str_eqb cmd tt_command_constants) as [id|]; [|reflexivity]. cbn [wlet].
  destruct (aget_res Z.eqb id tt_commands) as [c|]; [|reflexivity]. cbn [wlet]. f_equal.
  apply wlist_ext. intros k _. unfold aget_res.
  assert (Nq : NoDup (map fst q)) by (eapply Permutation_NoDup; [apply Permutation_map; exact P|exact N]).
  destruct (aget str_eqb k p) as [v|] eqn:E.
  - apply aget_in in E. rewrite (in_aget _ k v q Nq); [reflexivity|]. eapply Permutation_in; eauto.
  - destruct (aget str_eqb k q) as [v|] eqn:E'; [|reflexivity]. apply aget_in in E'.
    rewrite (in_aget _ k v p N) in E; [discriminate|]. eapply Permutation_in; [apply Permutation_sym; exact P|exact E'].
Qed.
Lemma value_size : forall v b, write_value v = Ok b -> (length b <= 5)%nat.
Proof.
  intros v b. unfold write_value, write_value_gen, write_value_long, pack_be_u, pack_be_s.
  repeat match goal with |- context [if ?b then _ else _] => destruct b end; cbn [wseq]; intros E; inversion E;
    cbn [length]; rewrite ?app_length, ?be_enc_length; lia.
Qed.
Lemma uint8_size : forall v b, write_uint8 v = Ok b -> length b = 1%nat.
Proof. intros v b. apply to_bytes_u_length. Qed.
Lemma wlist_size : forall A (w : A -> wr) k l b, (forall x c, In x l -> w x = Ok c -> (length c <= k)%nat) ->
  wlist w l = Ok b -> (length b <= length l * k)%nat.
Proof.
  induction l as [|x l IH]; intros b H E; cbn [wlist] in E.
  - inversion E; subst. cbn. lia.
  - apply wseq_ok in E. destruct E as (b1 & b2 & E1 & E2 & ->). rewrite app_length.
    apply H in E1; [|left; reflexivity]. apply IH in E2; [|intros; eapply H; eauto; right; auto]. cbn [length]. lia.
Qed.
Lemma instruction_size : forall i b, compile_instruction i = Ok b -> (length b <= 21)%nat.
Proof.
  intros i b E. unfold compile_instruction in E.
  destruct (aget_res str_eqb (in_cmd i) tt_command_constants) as [id|]; [|discriminate]. cbn [wlet] in E.
  apply wseq_ok in E. destruct E as (b1 & b2 & E1 & E2 & ->).
  destruct (aget_res Z.eqb id tt_commands) as [c|] eqn:Ec; [|discriminate]. cbn [wlet] in E2.
  apply wlist_size with (k := 5%nat) in E2.
  2:{ intros x d _ Ed. destruct (aget_res str_eqb x (in_params i)); [|discriminate]. eapply value_size; eauto. }
  unfold aget_res in Ec. destruct (aget Z.eqb id tt_commands) eqn:G; [|discriminate]. inversion Ec; subst.
  apply zget_in in G. destruct (tt_params_length _ _ G) as [L _]. apply uint8_size in E1.
  rewrite app_length. lia.
Qed.
Lemma wrt_list_ex : forall A B (w : A -> wr) (r : rd B) (R : A -> B -> Prop) l,
  (forall x, In x l -> exists y, R x y /\ wrt (w x) r y) ->
  exists l', Forall2 R l l' /\ wrt (wlist w l) (rrange (Z.of_nat (length l)) r) l'.
Proof.
  intros A B w r R l. unfold rrange. rewrite Nat2Z.id. induction l as [|x l IH]; intros H.
  - exists []. split; [constructor|]. apply wrt_ret.
  - destruct (H x) as (y & Ry & W); [left; reflexivity|].
    destruct IH as (l' & Rl & W'); [intros; apply H; right; assumption|].
    exists (y :: l'). split; [constructor; assumption|]. cbn [wlist length rrepeat].
    eapply wrt_bind; [exact W|]. eapply wrt_bind_ret; [exact W'|]. reflexivity.
Qed.
Lemma wrt_instructions : forall l, Forall wf_instruction l -> Z.of_nat (length l) < 2 ^ 26 ->
  exists l', Forall2 same_instruction l l' /\
  wrt (wlet (compile_instructions l) (fun b => write_value (Z.of_nat (length b)) +++ write_bytes b)) parse_instructions l'.
Proof.
  intros l H HL.
  destruct (wrt_list_ex _ _ compile_instruction parse_instruction same_instruction l) as (l' & HR & HW).
  { intros i Hi. apply wrt_instruction, (Forall_In _ _ _ _ H Hi). }
  exists l'. split; [exact HR|].
  assert (W : wrt (compile_instructions l) (num <- read_value ;; c <- rrange num parse_instruction ;;
      _ <- rrepeat 3 read_value ;; ret c) l').
  { unfold compile_instructions.
    eapply wrt_bind; [apply wrt_value; unfold i32; lia|]. eapply wrt_bind; [exact HW|].
    eapply wrt_bind_ret; [apply (wrt_values [0; 0; 0] 3 eq_refl)|reflexivity].
    repeat constructor; unfold int32; lia. }
  destruct W as (bs & E & O & R). rewrite E. cbn [wlet].
  assert (LB : Z.of_nat (length bs) < 2 ^ 31).
  { unfold compile_instructions in E.
    apply wseq_ok in E. destruct E as (b1 & b2 & E1 & E2 & ->).
    apply wseq_ok in E2. destruct E2 as (b3 & b4 & E3 & E4 & ->).
    apply value_size in E1. apply wlist_size with (k := 21%nat) in E3; [|intros; eapply instruction_size; eauto].
    apply wlist_size with (k := 5%nat) in E4; [|intros; eapply value_size; eauto].
    rewrite !app_length. cbn [length] in E4. lia. }
  unfold parse_instructions.
  eapply wrt_bind; [apply wrt_value; unfold i32; lia|].
  exists bs. split; [reflexivity|]. split; [exact O|]. exact R.
Qed.
Lemma tot_instruction : tot parse_instruction.
Proof. unfold parse_instruction. tot_auto. apply tot_lift. unfold aget_res. destruct (aget _ _ _); discriminate. Qed.
Lemma tot_instructions : tot parse_instructions.
Proof. unfold parse_instructions. tot_auto. apply tot_instruction. Qed.
