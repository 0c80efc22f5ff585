(** Proofs about the integrated build: the font info and the TrueType programs *)
From Coq Require Import String.
From Verif Require Import Base Lib M_Py M_Helpers M_Simple M_Text M_TrueType M_Bitmap M_Glyph M_Options M_Table M_Groups.
From Verif Require Import M_Info M_FontInfo M_Tth M_Programs M_Builder M_Master M_Features M_Designspace M_Classes M_Build.
From Verif Require Import P_Helpers S_Info S_Build.
From Verif Require Import P_Build.
Local Open Scope list_scope.


(** ** Font info and TrueType programs *)
Section Acts.
  Variable o : asm_oracle.
  (** [f] always fails, or it changes the attributes by a function of the attributes alone and the lib as the
      entries [p] do *)
  Definition acts (f : info -> res info) (p : list M_Programs.tt_entry) : Prop :=
    (exists x, forall i, f i = Err x) \/
    exists ga, forall i j, if_lib j = if_lib i ->
      exists j', res_fold (tt_step o) j p = Ok j' /\ f i = Ok (mkInfo (ga (if_attrs i)) (if_lib j')).
  Lemma acts_attr : forall f ga, (forall i, f i = Ok (mkInfo (ga (if_attrs i)) (if_lib i))) -> acts f [].
  Proof. intros f ga H. right. exists ga. intros i j E. exists j. split; [reflexivity|]. rewrite E. apply H. Qed.
  Lemma acts_same : acts (fun i => Ok i) [].
  Proof. apply acts_attr with (ga := fun a => a). intros []. reflexivity. Qed.
  Lemma acts_set : forall a v, acts (fun i => Ok (setattr a v i)) [].
  Proof. intros a v. apply acts_attr with (ga := aset str_eqb a v). reflexivity. Qed.
  Lemma acts_err : forall x p, acts (fun _ => Err x) p.
  Proof. intros x p. left. exists x. reflexivity. Qed.
  Lemma acts_seq : forall f g p q, acts f p -> acts g q -> acts (fun i => rthen (f i) g) (p ++ q).
  Proof.
    intros f g p q [(x & F)|(ga & F)] [(y & G)|(gb & G)].
    - left. exists x. intros i. rewrite F. reflexivity.
    - left. exists x. intros i. rewrite F. reflexivity.
    - left. exists y. intros i. destruct (F i i eq_refl) as (j & _ & ->). cbn [rthen]. apply G.
    - right. exists (fun a => gb (ga a)). intros i j E. destruct (F i j E) as (j1 & P & Fi).
      destruct (G (mkInfo (ga (if_attrs i)) (if_lib j1)) j1 eq_refl) as (j2 & Q & Gi).
      exists j2. rewrite res_fold_app, P. split; [exact Q|]. rewrite Fi. exact Gi.
  Qed.
  Lemma acts_ext : forall f g p, (forall i, f i = g i) -> acts f p -> acts g p.
  Proof.
    intros f g p H [(x & F)|(ga & F)].
    - left. exists x. intros i. rewrite <- H. apply F.
    - right. exists ga. intros i j E. destruct (F i j E) as (j' & P & Q). exists j'. rewrite <- H. auto.
  Qed.
  Lemma acts_res : forall A (r : res A) f p, (forall x, acts (fun i => Ok (f x i)) p) -> acts (fun i => rmap (fun x => f x i) r) p.
  Proof. intros A [x|e] f p H; [apply H|apply acts_err]. Qed.
  Lemma max_keys_eq : maxp_keys = tt_lib_keys.
  Proof. reflexivity. Qed.
  (** keys of other items are not keys of the lib *)
  Lemma not_max : forall k, aget str_eqb k mapping_int <> None \/
    In k [py "head_creation"; py "head_font_direction_hint"; py "os2_fs_type"; py "os2_s_family_class"; py "os2_us_weight_class"; py "os2_fs_selection"] ->
    aget str_eqb k tt_lib_keys = None.
  Proof.
    intros k H.
    assert (X : forallb (fun k => match aget str_eqb k tt_lib_keys with None => true | Some _ => false end)
                  (map fst mapping_int ++ [py "head_creation"; py "head_font_direction_hint"; py "os2_fs_type"; py "os2_s_family_class"; py "os2_us_weight_class"; py "os2_fs_selection"]) = true)
      by (vm_compute; reflexivity).
    rewrite forallb_forall in X. specialize (X k). destruct (aget str_eqb k tt_lib_keys); [|reflexivity].
    assert (false = true); [|discriminate]. apply X. apply in_or_app. destruct H as [H|H]; [left|right; exact H].
    destruct (aget str_eqb k mapping_int) as [a|] eqn:E; [|congruence]. apply (aget_In str_eqb str_eqb_eq) in E.
    apply in_map_iff. exists (k, a). auto.
  Qed.
  Lemma acts_item : forall kv, acts (fun i => set_tt_item i kv) (max_part kv).
  Proof.
    intros [k v]. unfold set_tt_item, max_part. cbn [fst snd]. destruct v as [v|fl ?|l|r1 r2].
    - destruct (aget str_eqb k mapping_int) as [a|] eqn:M.
      { rewrite not_max by (left; congruence). apply acts_set. }
      destruct (str_eqb k (py "head_creation")) eqn:E1.
      { apply str_eqb_eq in E1. rewrite not_max by (right; subst k; cbn [In]; tauto). unfold set_created_timestamp. apply acts_res. intros x. apply acts_set. }
      destruct (str_eqb k (py "head_font_direction_hint")) eqn:E2.
      { apply str_eqb_eq in E2. rewrite not_max by (right; subst k; cbn [In]; tauto). apply acts_same. }
      destruct (str_eqb k (py "os2_fs_type")) eqn:E3.
      { apply str_eqb_eq in E3. rewrite not_max by (right; subst k; cbn [In]; tauto). apply acts_res. intros x. apply acts_set. }
      destruct (str_eqb k (py "os2_s_family_class")) eqn:E4.
      { apply str_eqb_eq in E4. rewrite not_max by (right; subst k; cbn [In]; tauto). apply acts_set. }
      destruct (str_eqb k (py "os2_us_weight_class")) eqn:E5.
      { apply str_eqb_eq in E5. rewrite not_max by (right; subst k; cbn [In]; tauto). apply acts_same. }
      destruct (str_eqb k (py "os2_fs_selection")) eqn:E6.
      { apply str_eqb_eq in E6. rewrite not_max by (right; subst k; cbn [In]; tauto). apply acts_same. }
      rewrite max_keys_eq. destruct (aget str_eqb k tt_lib_keys) as [key|].
      + right. exists (fun a => a). intros i j E. eexists. split; [reflexivity|]. unfold set_tt_instructions. rewrite E. reflexivity.
      + destruct (str_eqb k (py "Average Width")); [|apply acts_same]. destruct (v =? 0); [apply acts_same|apply acts_set].
    - replace (match aget str_eqb k tt_lib_keys with Some _ => [] | None => [] end) with (@nil M_Programs.tt_entry) by (destruct (aget _ _ _); reflexivity).
      destruct (str_eqb k (py "head_flags")); [apply acts_set|apply acts_same].
    - destruct (aget str_eqb k tt_lib_keys); apply acts_same.
    - replace (match aget str_eqb k tt_lib_keys with Some _ => [] | None => [] end) with (@nil M_Programs.tt_entry) by (destruct (aget _ _ _); reflexivity).
      destruct (str_eqb k (py "head_flags")); [apply acts_set|]. destruct (str_eqb k (py "Codepages")); [|apply acts_same].
      apply acts_res. intros x. destruct x; [apply acts_same|apply acts_set].
  Qed.
  Lemma acts_tt_info : forall l, acts (fun i => set_tt_info i l) (flat_map max_part l).
  Proof.
    induction l as [|kv l IH]; [apply acts_same|]. cbn [set_tt_info flat_map].
    apply (acts_seq (fun i => set_tt_item i kv) (fun i => set_tt_info i l)); [apply acts_item|exact IH].
  Qed.
End Acts.

Section InfoTurn.
  Variable o : asm_oracle.
  Lemma acts_attr2 : forall a b v, acts o (fun i => Ok (setattr a v (setattr b v i))) [].
  Proof. intros a b v. apply acts_attr with (ga := fun l => aset str_eqb a v (aset str_eqb b v l)). reflexivity. Qed.
  Lemma acts_step : forall k d,
    acts o (fun i => info_step false i (k, Some d)) (if k =? 1264 then match d with DTT t => flat_map max_part t | _ => [] end else []).
  Proof.
    intros k d. unfold info_step. cbn [andb].
    destruct (aget Z.eqb k info_mapping) as [a|] eqn:M.
    { assert (N : (k =? 1264) = false) by (destruct (Z.eqb_spec k 1264); [subst k; discriminate M|reflexivity]).
      rewrite N. destruct (as_val d); [apply acts_set|apply acts_err]. }
    unfold info_case.
    destruct (k =? 1024) eqn:E1; [rewrite (proj1 (Z.eqb_eq _ _) E1); destruct (as_val d); [apply acts_attr2|apply acts_err]|].
    destruct (k =? 1034) eqn:E2; [rewrite (proj1 (Z.eqb_eq _ _) E2); destruct d as [[]| | |]; try apply acts_err; apply acts_set|].
    destruct (k =? 1048) eqn:E3; [rewrite (proj1 (Z.eqb_eq _ _) E3); destruct d as [[]| | |]; try apply acts_err; apply acts_set|].
    destruct (k =? 1127) eqn:E4; [rewrite (proj1 (Z.eqb_eq _ _) E4); destruct (as_val d); [apply acts_set|apply acts_err]|].
    destruct (k =? 1137) eqn:E5; [rewrite (proj1 (Z.eqb_eq _ _) E5); destruct (as_val d); [apply acts_attr2|apply acts_err]|].
    destruct (k =? 1138) eqn:E6; [rewrite (proj1 (Z.eqb_eq _ _) E6); destruct d; try apply acts_err; apply acts_set|].
    destruct (k =? 1264) eqn:E7; [destruct d; try apply acts_err; apply acts_tt_info|].
    destruct (k =? 1265); [destruct d as [| |g|]; try apply acts_err; unfold set_tt_gasp; apply acts_res; intros x; apply acts_set|].
    destruct (k =? 1267).
    { destruct d as [[z| | | | | | |]| | |]; try apply acts_err. unfold set_selection. apply acts_res. intros x. cbv zeta.
      destruct (style_parts x) as [|p0 ps]; [apply acts_set|].
      apply acts_attr with (ga := fun l => aset str_eqb (py "styleMapStyleName") (IStr (join_space (p0 :: ps)))
        (aset str_eqb (py "openTypeOS2Selection") (IList (filter (fun b => negb (has b [0; 5; 6])) x)) l)). reflexivity. }
    destruct (k =? 2021); [destruct (as_val d); [apply acts_set|apply acts_err]|]. apply acts_same.
  Qed.
  Lemma keep_attrs : forall i e i', M_Programs.tt_step o i e = Ok i' -> if_attrs i' = if_attrs i.
  Proof.
    intros i e i' H. unfold tt_step, set_tt_cvt, set_tt_program in H. destruct e as [k v|b|b|b].
    - apply Ok_inj in H. subst i'. reflexivity.
    - destruct (deHexStr (hexStr b)); cbn [rthen] in H; [|discriminate]. destruct (unpack_h _); cbn [rmap] in H; [|discriminate].
      apply Ok_inj in H. subst i'. reflexivity.
    - destruct (deHexStr (hexStr b)); cbn [rthen] in H; [|discriminate]. destruct (format_bytes _ _); cbn [rmap] in H; [|discriminate].
      apply Ok_inj in H. subst i'. reflexivity.
    - destruct (deHexStr (hexStr b)); cbn [rthen] in H; [|discriminate]. destruct (format_bytes _ _); cbn [rmap] in H; [|discriminate].
      apply Ok_inj in H. subst i'. reflexivity.
  Qed.
  (** the lib alone decides *)
  Lemma step_lib : forall i j e, if_lib i = if_lib j ->
    match tt_step o i e, tt_step o j e with
    | Ok i', Ok j' => if_lib i' = if_lib j'
    | Err x, Err y => x = y
    | _, _ => False
    end.
  Proof.
    intros i j e H. unfold tt_step, set_tt_cvt, set_tt_program. destruct e as [k v|b|b|b].
    - unfold set_tt_instructions. cbn [if_lib]. rewrite H. reflexivity.
    - destruct (deHexStr (hexStr b)); cbn [rthen]; [|reflexivity]. destruct (unpack_h _); cbn [rmap]; [|reflexivity].
      unfold set_tt_instructions. cbn [if_lib]. rewrite H. reflexivity.
    - destruct (deHexStr (hexStr b)); cbn [rthen]; [|reflexivity]. destruct (format_bytes _ _); cbn [rmap]; [|reflexivity].
      unfold set_tt_instructions. cbn [if_lib]. rewrite H. reflexivity.
    - destruct (deHexStr (hexStr b)); cbn [rthen]; [|reflexivity]. destruct (format_bytes _ _); cbn [rmap]; [|reflexivity].
      unfold set_tt_instructions. cbn [if_lib]. rewrite H. reflexivity.
  Qed.
End InfoTurn.

(** one entry, seen by the attributes and by the lib *)
Lemma turn_split : forall c k d i a j, typed (k, Some d) -> if_attrs a = if_attrs i -> if_lib j = if_lib i ->
  match info_turn c i (k, d) with
  | Ok i' => (exists a', res_fold (info_step false) a (info_part (k, d)) = Ok a' /\ if_attrs a' = if_attrs i') /\
             (exists j', res_fold (tt_step (st_asm c)) j (program_part (k, d)) = Ok j' /\ if_lib j' = if_lib i')
  | Err x => res_fold (info_step false) a (info_part (k, d)) = Err x \/
             res_fold (tt_step (st_asm c)) j (program_part (k, d)) = Err x
  end.
Proof.
  intros c k d i a j [T X] A J. cbn [fst snd] in T, X.
  destruct (in_dec Z.eq_dec k [1261; 1262; 1263]) as [K|K].
  - destruct (X K) as (b & Hb & ->). clear X T.
    assert (G : exists e, info_turn c i (k, DStr (hexStr b)) = tt_step (st_asm c) i e /\
                          program_part (k, DStr (hexStr b)) = [e] /\ info_part (k, DStr (hexStr b)) = []).
    { unfold program_part. rewrite deHexStr_hexStr by exact Hb.
      destruct K as [<-|[<-|[<-|[]]]]; eexists; repeat split; reflexivity. }
    destruct G as (e & -> & -> & ->). pose proof (step_lib (st_asm c) i j e (eq_sym J)) as S. cbn [res_fold].
    destruct (tt_step (st_asm c) i e) as [i'|x] eqn:E, (tt_step (st_asm c) j e) as [j'|y]; try contradiction.
    + split; [exists a; split; [reflexivity|]; rewrite (keep_attrs _ _ _ _ E); exact A|].
      exists j'. split; [reflexivity|]. symmetry. exact S.
    + right. subst y. reflexivity.
  - clear X. assert (N : (k =? 1261) = false /\ (k =? 1262) = false /\ (k =? 1263) = false).
    { cbn [In] in K. repeat split; apply Z.eqb_neq; intros ->; tauto. }
    destruct N as (N1 & N2 & N3). unfold info_turn. rewrite N1, N2, N3. unfold info_part. cbn [fst snd].
    destruct (existsb (Z.eqb k) info_keys) eqn:I.
    + assert (P : program_part (k, d) = if k =? 1264 then match info_data d with DTT t => flat_map max_part t | _ => [] end else []).
      { destruct (Z.eqb_spec k 1264) as [->|N].
        - destruct d; reflexivity.
        - unfold program_part. destruct k as [|p|p]; try reflexivity.
          repeat (match goal with |- context [match ?p with xH => _ | xO _ => _ | xI _ => _ end] => destruct p end; try reflexivity; try congruence; try (exfalso; vm_compute in N1; discriminate N1); try (exfalso; vm_compute in N2; discriminate N2); try (exfalso; vm_compute in N3; discriminate N3)). }
      rewrite P. cbn [res_fold].
      destruct (acts_step (st_asm c) k (info_data d)) as [(x & F)|(ga & F)].
      * rewrite !F. left. reflexivity.
      * destruct (F i j J) as (j' & Q & ->). destruct (F a a eq_refl) as (j2 & _ & ->). cbn [rthen].
        split; [eexists; split; [reflexivity|]; cbn [if_attrs]; rewrite A; reflexivity|].
        exists j'. split; [exact Q|reflexivity].
    + assert (P : program_part (k, d) = []).
      { unfold program_part. destruct k as [|p|p]; try reflexivity.
        repeat (match goal with |- context [match ?p with xH => _ | xO _ => _ | xI _ => _ end] => destruct p end; try reflexivity; try (exfalso; vm_compute in I; discriminate I); try (exfalso; vm_compute in N1; discriminate N1); try (exfalso; vm_compute in N2; discriminate N2); try (exfalso; vm_compute in N3; discriminate N3)). }
      rewrite P. cbn [res_fold]. split; [exists a|exists j]; auto.
Qed.

Lemma turns_split : forall c l i a j, Forall (fun e => typed (fst e, Some (snd e))) l ->
  if_attrs a = if_attrs i -> if_lib j = if_lib i ->
  match res_fold (info_turn c) i l with
  | Ok i' => (exists a', res_fold (info_step false) a (flat_map info_part l) = Ok a' /\ if_attrs a' = if_attrs i') /\
             (exists j', res_fold (tt_step (st_asm c)) j (flat_map program_part l) = Ok j' /\ if_lib j' = if_lib i')
  | Err x => res_fold (info_step false) a (flat_map info_part l) = Err x \/
             res_fold (tt_step (st_asm c)) j (flat_map program_part l) = Err x
  end.
Proof.
  intros c. induction l as [|[k d] l IH]; intros i a j T A J; cbn [res_fold flat_map].
  - split; [exists a|exists j]; auto.
  - inversion T as [|? ? Td Tl]; subst. rewrite !res_fold_app. pose proof (turn_split c k d i a j Td A J) as S.
    destruct (info_turn c i (k, d)) as [i1|x]; cbn [rthen].
    + destruct S as ((a1 & -> & A1) & (j1 & -> & J1)). cbn [rthen]. apply IH; assumption.
    + destruct S as [->| ->]; [left|right]; reflexivity.
Qed.
Lemma underline_attrs : forall i a, if_attrs a = if_attrs i ->
  match fix_underline_position i, fix_underline_position a with
  | Ok i', Ok a' => if_attrs a' = if_attrs i' /\ if_lib i' = if_lib i
  | Err x, Err y => x = y
  | _, _ => False
  end.
Proof.
  intros i a A. unfold fix_underline_position. rewrite A.
  destruct (aget str_eqb (py "postscriptUnderlinePosition") (if_attrs i)) as [[]|]; try (split; congruence);
    destruct (aget str_eqb (py "postscriptUnderlineThickness") (if_attrs i)) as [[]|]; try reflexivity; try (split; congruence).
  split; [cbn [setattr if_attrs]; rewrite A; reflexivity|reflexivity].
Qed.
Lemma drop_attrs : forall i, if_attrs (drop_default i) = if_attrs i.
Proof. intros i. unfold drop_default. destruct (if_lib i) as [d|]; [|reflexivity]. destruct (dict_eqb d _); reflexivity. Qed.
Lemma drop_lib : forall i j, if_lib j = if_lib i -> if_lib (drop_default j) = if_lib (drop_default i).
Proof. intros i j E. unfold drop_default. rewrite E. destruct (if_lib i) as [d|] eqn:D; [|congruence]. destruct (dict_eqb d _); [reflexivity|congruence]. Qed.
(** font info and programs of a built font *)
Lemma info_parts : forall c l, Forall (fun e => typed (fst e, Some (snd e))) l ->
  match rthen (res_fold (info_turn c) new_info l) (fun i => fix_underline_position (drop_default i)) with
  | Ok i' => (exists a, build_info false (flat_map info_part l) = Ok a /\ if_attrs a = if_attrs i') /\
             (exists p, M_Programs.tt_build (st_asm c) (flat_map program_part l) = Ok p /\ if_lib p = if_lib i')
  | Err x => build_info false (flat_map info_part l) = Err x \/ M_Programs.tt_build (st_asm c) (flat_map program_part l) = Err x
  end.
Proof.
  intros c l T. unfold build_info, M_Programs.tt_build.
  pose proof (turns_split c l new_info new_info (mkInfo [] None) T eq_refl eq_refl) as S.
  destruct (res_fold (info_turn c) new_info l) as [i|x]; cbn [rthen].
  - destruct S as ((a & -> & A) & (j & -> & J)). cbn [rthen rmap].
    pose proof (underline_attrs (drop_default i) a) as U. rewrite drop_attrs in U. specialize (U A).
    destruct (fix_underline_position (drop_default i)) as [i'|x], (fix_underline_position a) as [a'|y]; try contradiction.
    + destruct U as (U & V). split; [exists a'; auto|]. exists (drop_default j). split; [reflexivity|].
      rewrite V. apply drop_lib. exact J.
    + subst y. left. reflexivity.
  - destruct S as [->| ->]; [left|right]; reflexivity.
Qed.
