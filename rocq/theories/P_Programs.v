(** Proofs about M_Programs. *)
From Coq Require Import String.
From Verif Require Import Base Lib M_Py M_Helpers M_Text M_Tth M_Bitmap M_Info M_Programs S_Programs P_Helpers P_Dec P_Guides.
Local Open Scope list_scope.

(** ** Program texts *)
Lemma lines_of_line : forall l cur s, ~ In 10 l -> lines_of cur (l ++ 10 :: s) = (cur ++ l) :: lines_of [] s.
Proof.
  induction l as [|c l IH]; intros cur s H; cbn [app lines_of].
  - rewrite Z.eqb_refl, app_nil_r. reflexivity.
  - destruct (c =? 10) eqn:E; [exfalso; apply H; left; lia|].
    rewrite IH by (intros X; apply H; right; exact X). rewrite <- app_assoc. reflexivity.
Qed.
Lemma without_indent_repeat : forall n l, (forall s, l <> 32 :: s) -> without_indent (repeat 32 n ++ l) = l.
Proof.
  induction n as [|n IH]; intros l H; cbn [repeat app].
  - destruct l as [|c l]; [reflexivity|]. cbn [without_indent]. destruct (c =? 32) eqn:E; [|reflexivity].
    exfalso. apply (H l). f_equal. lia.
  - cbn [without_indent]. rewrite Z.eqb_refl. apply IH; exact H.
Qed.
Lemma format_read : forall o lines k, Forall program_line lines ->
  map without_indent (lines_of [] (format_lines o lines k)) = lines.
Proof.
  intros o lines. induction lines as [|l ls IH]; intros k H; [reflexivity|]. cbn [format_lines]. cbv zeta.
  pose proof (Forall_inv H) as [N B]. pose proof (Forall_inv_tail H) as T.
  rewrite app_assoc. change (([10] ++ ?x)) with (10 :: x).
  match goal with |- context [(?a ++ l) ++ ?b] => change b with (10 :: (fun z => z) (tl b)) end.
  cbv beta. cbn [tl app]. rewrite lines_of_line.
  - cbn [map app]. rewrite without_indent_repeat by exact B. f_equal. apply IH; exact T.
  - intros X. apply in_app_or in X. destruct X as [X|X]; [|apply N; exact X].
    apply repeat_spec in X. discriminate.
Qed.
Lemma instructions_of_format : forall o lines, Forall program_line lines ->
  instructions_of (format_list o lines) = Some lines.
Proof.
  intros o lines H. unfold instructions_of, format_list. cbn [lines_of]. rewrite Z.eqb_refl.
  rewrite format_read by exact H. reflexivity.
Qed.

(** ** Control values *)
Lemma pair_ind : forall (P : bytes -> Prop), P [] -> (forall x, P [x]) -> (forall x y b, P b -> P (x :: y :: b)) ->
  forall b, P b.
Proof.
  intros P H0 H1 H2 b. assert (A : P b /\ forall x, P (x :: b)); [|apply A].
  induction b as [|y b [I1 I2]]; split; auto.
Qed.
Lemma unpack_h_spec : forall b vs, bytes_ok b -> unpack_h b = Ok vs ->
  List.length b = (2 * List.length vs)%nat /\ forall i x, nth_error vs i = Some x <-> int16_at b i x.
Proof.
  intros b. induction b as [|z|lo hi b IH] using pair_ind; intros vs OK H; cbn [unpack_h] in H; [| discriminate |].
  - injection H as <-. split; [reflexivity|]. intros i x. split.
    + destruct i; discriminate.
    + intros (a & c & A & _). rewrite Nat.mul_comm in A. destruct i; discriminate.
  - destruct (unpack_h b) as [ws|] eqn:E; cbn [rmap] in H; [|discriminate]. injection H as <-.
    pose proof (Forall_inv OK) as Lo. pose proof (Forall_inv (Forall_inv_tail OK)) as Hi.
    pose proof (Forall_inv_tail (Forall_inv_tail OK)) as T. unfold is_byte in Lo, Hi.
    destruct (IH ws T eq_refl) as [L Sp]. split; [cbn [List.length] in *; lia|].
    intros i x. destruct i as [|i].
    + cbn [nth_error].
      assert (D : le_dec_s [lo; hi] = (if hi <? 128 then lo + 256 * hi else lo + 256 * hi - 65536)).
      { unfold le_dec_s, to_signed. cbn [List.length le_dec]. change (2 ^ (8 * Z.of_nat 2 - 1)) with 32768.
        change (2 ^ (8 * Z.of_nat 2)) with 65536. destruct (hi <? 128) eqn:E1, (32768 <=? lo + 256 * (hi + 256 * 0)) eqn:E2; lia. }
      split.
      * intros X. injection X as <-. exists lo, hi. repeat split; auto.
      * intros (a & c & A & C & V). cbn in A, C. injection A as <-. injection C as <-. rewrite V, D. reflexivity.
    + cbn [nth_error]. rewrite Sp. unfold int16_at.
      replace (2 * S i)%nat with (S (S (2 * i))) by lia. replace (S (S (2 * i)) + 1)%nat with (S (S (2 * i + 1))) by lia.
      cbn [nth_error]. reflexivity.
Qed.
Lemma unpack_h_even : forall b, Nat.Even (List.length b) -> exists vs, unpack_h b = Ok vs.
Proof.
  intros b. induction b as [|z|lo hi b IH] using pair_ind; intros [n N]; cbn [List.length] in N.
  - exists []. reflexivity.
  - lia.
  - destruct IH as [vs E]; [exists (n - 1)%nat; lia|]. exists (le_dec_s [lo; hi] :: vs). cbn [unpack_h]. rewrite E. reflexivity.
Qed.
Lemma number_values_get : forall l i k, aget str_eqb (dec_str (k + Z.of_nat i)) (number_values k l) = nth_error l i.
Proof.
  induction l as [|v l IH]; intros i k; cbn [number_values aget]; [destruct i; reflexivity|].
  destruct i as [|i].
  - rewrite Z.add_0_r, str_eqb_refl. reflexivity.
  - destruct (str_eqb (dec_str (k + Z.of_nat (S i))) (dec_str k)) eqn:E.
    + apply str_eqb_eq, dec_str_inj in E. lia.
    + cbn [nth_error]. rewrite <- (IH i (k + 1)). do 2 f_equal. lia.
Qed.
Lemma number_values_keys : forall l k s, aget str_eqb s (number_values k l) <> None ->
  exists i, s = dec_str (k + Z.of_nat i) /\ (i < List.length l)%nat.
Proof.
  induction l as [|v l IH]; intros k s H; cbn [number_values aget] in H; [congruence|].
  destruct (str_eqb s (dec_str k)) eqn:E.
  - apply str_eqb_eq in E. exists O. rewrite Z.add_0_r. cbn [List.length]. split; [exact E|lia].
  - destruct (IH _ _ H) as (i & A & B). exists (S i). split; [rewrite A; f_equal; lia|cbn [List.length]; lia].
Qed.
Lemma cvt_ok : forall b vs, bytes_ok b -> unpack_h b = Ok vs -> cvt_in (Some b) (Some (IDict (number_values 0 vs))).
Proof.
  intros b vs OK H. destruct (unpack_h_spec b vs OK H) as [L Sp].
  exists (number_values 0 vs). split; [reflexivity|]. split.
  - intros i x. change (Z.of_nat i) with (0 + Z.of_nat i). rewrite number_values_get. apply Sp.
  - intros k K. destruct (number_values_keys _ _ _ K) as (i & A & B). exists i. split; [exact A|lia].
Qed.

(** ** The lib *)
Lemma last_of_snoc : forall A (l : list A) x, last_of (l ++ [x]) = Some x.
Proof. intros. unfold last_of. rewrite map_app. apply last_last. Qed.
Lemma last_of_nil : forall A, last_of (@nil A) = None. Proof. reflexivity. Qed.

Definition lib_inv (o : asm_oracle) (es : list tt_entry) (d : list (pystr * info_val)) : Prop :=
  cvt_in (last_cvt es) (aget str_eqb (py "controlValue") d) /\
  program_in o (last_prep es) (aget str_eqb (py "controlValueProgram") d) /\
  program_in o (last_fpgm es) (aget str_eqb (py "fontProgram") d) /\
  forall k, In k max_names -> aget str_eqb k d = option_map IInt (last_max k es).
Definition tt_inv (o : asm_oracle) (es : list tt_entry) (i : info) : Prop :=
  match if_lib i with
  | None => es = []
  | Some d => lib_inv o es d
  end.
Definition start_lib (i : info) : list (pystr * info_val) :=
  match if_lib i with Some d => d | None => [(py "formatVersion", IStr (py "1"))] end.
Lemma start_inv : forall o es i, tt_inv o es i -> lib_inv o es (start_lib i).
Proof.
  intros o es i H. unfold tt_inv, start_lib in *. destruct (if_lib i) as [d|]; [exact H|]. subst es.
  split; [reflexivity|]. split; [reflexivity|]. split; [reflexivity|].
  intros k K. unfold max_names in K. cbn [In] in K. 
  repeat (destruct K as [<-|K]; [reflexivity|]). contradiction.
Qed.
Lemma aset_other : forall V k k' (v : V) d, str_eqb k' k = false -> aget str_eqb k' (aset str_eqb k v d) = aget str_eqb k' d.
Proof. intros. rewrite (aget_aset str_eqb str_eqb_eq). rewrite H. reflexivity. Qed.
Lemma aset_same : forall V k (v : V) d, aget str_eqb k (aset str_eqb k v d) = Some v.
Proof. intros. rewrite (aget_aset str_eqb str_eqb_eq). rewrite str_eqb_refl. reflexivity. Qed.

Lemma step_inv : forall o es i e i', names_ok [e] -> tt_inv o es i -> tt_step o i e = Ok i' -> tt_inv o (es ++ [e]) i'.
Proof.
  intros o es i e i' N H E. apply start_inv in H. destruct H as (H1 & H2 & H3 & H4).
  assert (B := Forall_inv N). 
  unfold tt_inv, lib_inv, last_cvt, last_prep, last_fpgm, last_max. 
  destruct e as [k v|b|b|b]; cbn [tt_step] in E.
  - apply Ok_inj in E. subst i'. cbn [if_lib set_tt_instructions]. fold (start_lib i).
    rewrite !flat_map_app. cbn [flat_map]. rewrite !app_nil_r.
    assert (K1 : str_eqb (py "controlValue") k = false /\ str_eqb (py "controlValueProgram") k = false /\ str_eqb (py "fontProgram") k = false).
    { unfold max_names in B. cbn [In] in B. repeat (destruct B as [<-|B]; [repeat split; reflexivity|]). contradiction. }
    destruct K1 as (K1 & K2 & K3). rewrite !aset_other by assumption.
    split; [exact H1|]. split; [exact H2|]. split; [exact H3|]. intros k' K'.
    rewrite flat_map_app. cbn [flat_map]. destruct (str_eqb k k') eqn:Ek.
    + apply str_eqb_eq in Ek. subst k'. rewrite aset_same. cbn [app]. rewrite last_of_snoc. reflexivity.
    + rewrite aset_other; [rewrite app_nil_r; apply H4; exact K'|].
      destruct (str_eqb k' k) eqn:E'; [|reflexivity]. apply str_eqb_eq in E'. subst. rewrite str_eqb_refl in Ek. discriminate.
  - unfold set_tt_cvt in E. rewrite deHexStr_hexStr in E by exact B. cbn [rthen] in E.
    destruct (unpack_h b) as [vs|] eqn:U; cbn [rmap] in E; [|discriminate]. apply Ok_inj in E. subst i'.
    cbn [if_lib set_tt_instructions]. fold (start_lib i).
    rewrite !flat_map_app. cbn [flat_map]. rewrite !app_nil_r. cbn [app].
    rewrite last_of_snoc, aset_same, !aset_other by reflexivity.
    split; [apply cvt_ok; [exact B|exact U]|]. split; [exact H2|]. split; [exact H3|]. intros k' K'.
    rewrite flat_map_app. cbn [flat_map]. rewrite !app_nil_r.
    rewrite aset_other; [apply H4; exact K'|].
    unfold max_names in K'. cbn [In] in K'. repeat (destruct K' as [<-|K']; [reflexivity|]). contradiction.
  - unfold set_tt_program in E. rewrite deHexStr_hexStr in E by exact B. cbn [rthen] in E. unfold format_bytes in E.
    destruct (asm_lines o b) as [ls|] eqn:U; cbn [rmap] in E; [|discriminate]. apply Ok_inj in E. subst i'.
    cbn [if_lib set_tt_instructions]. fold (start_lib i).
    rewrite !flat_map_app. cbn [flat_map]. rewrite !app_nil_r. cbn [app].
    rewrite last_of_snoc, aset_same, !aset_other by reflexivity.
    split; [exact H1|]. split.
    { exists (format_list o ls), ls. split; [reflexivity|]. split; [exact U|]. apply instructions_of_format. }
    split; [exact H3|]. intros k' K'.
    rewrite flat_map_app. cbn [flat_map]. rewrite !app_nil_r.
    rewrite aset_other; [apply H4; exact K'|].
    unfold max_names in K'. cbn [In] in K'. repeat (destruct K' as [<-|K']; [reflexivity|]). contradiction.
  - unfold set_tt_program in E. rewrite deHexStr_hexStr in E by exact B. cbn [rthen] in E. unfold format_bytes in E.
    destruct (asm_lines o b) as [ls|] eqn:U; cbn [rmap] in E; [|discriminate]. apply Ok_inj in E. subst i'.
    cbn [if_lib set_tt_instructions]. fold (start_lib i).
    rewrite !flat_map_app. cbn [flat_map]. rewrite !app_nil_r. cbn [app].
    rewrite last_of_snoc, aset_same, !aset_other by reflexivity.
    split; [exact H1|]. split; [exact H2|]. split.
    { exists (format_list o ls), ls. split; [reflexivity|]. split; [exact U|]. apply instructions_of_format. }
    intros k' K'.
    rewrite flat_map_app. cbn [flat_map]. rewrite !app_nil_r.
    rewrite aset_other; [apply H4; exact K'|].
    unfold max_names in K'. cbn [In] in K'. repeat (destruct K' as [<-|K']; [reflexivity|]). contradiction.
Qed.
Lemma fold_inv : forall o es i, names_ok es -> res_fold (tt_step o) (mkInfo [] None) es = Ok i -> tt_inv o es i.
Proof.
  intros o es. induction es as [|e es IH] using rev_ind; intros i N H.
  - cbn in H. apply Ok_inj in H. subst i. reflexivity.
  - rewrite res_fold_snoc in H. unfold names_ok in N. apply Forall_app in N. destruct N as [N1 N2].
    destruct (res_fold (tt_step o) (mkInfo [] None) es) as [j|] eqn:E; cbn [rthen] in H; [|discriminate].
    apply (step_inv o es j); [exact N2|apply IH; auto|exact H].
Qed.

Lemma eqb_default : forall d, dict_eqb d default_tt_lib = true ->
  (forall k, In k [py "controlValue"; py "controlValueProgram"; py "fontProgram"] -> aget str_eqb k d = None) /\
  (forall k, In k max_names -> aget str_eqb k d = Some (IInt 0)).
Proof.
  intros d H. unfold dict_eqb in H. apply andb_prop in H. destruct H as [L F]. apply Nat.eqb_eq in L.
  rewrite forallb_forall in F. split.
  - intros k K. destruct (aget str_eqb k d) eqn:G; [exfalso|reflexivity].
    assert (I : incl (k :: map fst default_tt_lib) (map fst d)).
    { intros x [<-|X].
      - apply (aget_In str_eqb str_eqb_eq) in G. apply in_map_iff. exists (k, i). auto.
      - apply in_map_iff in X. destruct X as ((y, w) & <- & X). apply F in X. cbn [fst] in *.
        destruct (aget str_eqb y d) eqn:G'; [|discriminate]. apply (aget_In str_eqb str_eqb_eq) in G'.
        apply in_map_iff. eexists; split; [|exact G']. reflexivity. }
    assert (ND : NoDup (k :: map fst default_tt_lib)).
    { cbn [In] in K. destruct K as [<-|[<-|[<-|[]]]]; 
      (repeat (apply NoDup_cons; [cbn; intros X; repeat (destruct X as [X|X]; [discriminate X|]); exact X|]); apply NoDup_nil). }
    pose proof (NoDup_incl_length ND I) as LL. rewrite map_length, L in LL. cbn in LL. lia.
  - intros k K. assert (X : In (k, IInt 0) default_tt_lib).
    { unfold max_names in K. cbn [In] in K. unfold default_tt_lib. cbn [In]. 
      repeat (destruct K as [<-|K]; [tauto|]). contradiction. }
    apply F in X. cbn [fst snd] in X. destruct (aget str_eqb k d) as [v|]; [|discriminate].
    destruct v; cbn [val_eqb] in X; try discriminate. do 2 f_equal. lia.
Qed.

(** ** Options *)
Definition opt_inv (es : list opt_entry) (lib : option (list (pystr * Z))) : Prop :=
  let d := match lib with Some d => d | None => [] end in
  let v k def := match aget str_eqb k d with Some x => x | None => def end in
  (forall l x, snaps es = l -> only_value l 68 x -> v (py "stemsnaplimit") 68 = x) /\
  (forall l x, zone_stops es = l -> only_value l 48 x -> v (py "zoneppm") 48 = x) /\
  (forall l x, dropouts es = l -> only_value l 255 x -> v (py "dropoutppm") 255 = x) /\
  aget str_eqb (py "codeppm") d = last_of (code_stops es) /\
  (snaps es = [] -> aget str_eqb (py "stemsnaplimit") d = None) /\
  (zone_stops es = [] -> aget str_eqb (py "zoneppm") d = None) /\
  (dropouts es = [] -> aget str_eqb (py "dropoutppm") d = None).
Lemma snoc_only : forall (l : list Z) y def x, only_value (l ++ [y]) def x -> l = [] /\ x = y.
Proof.
  intros l y def x [[H _]|H].
  - destruct l; discriminate.
  - destruct l as [|a l]; [injection H as ->; auto|]. destruct l; discriminate.
Qed.
Lemma opt_step_inv : forall es lib e, opt_inv es lib -> opt_inv (es ++ [e]) (opt_step lib e).
Proof.
  intros es lib e H. unfold opt_inv in *. cbv zeta in *. unfold opt_step.
  set (d := match lib with Some d => d | None => [] end) in *.
  destruct H as (H1 & H2 & H3 & H4 & H5 & H6 & H7).
  unfold snaps, zone_stops, dropouts, code_stops in *.
  destruct e as [v|v|v|v]; rewrite !flat_map_app; cbn [flat_map]; rewrite ?app_nil_r; cbn [app].
  - destruct (v =? 68) eqn:E;
      rewrite ?(aset_other _ (py "stemsnaplimit") (py "zoneppm")), ?(aset_other _ (py "stemsnaplimit") (py "dropoutppm")), ?(aset_other _ (py "stemsnaplimit") (py "codeppm")) by reflexivity;
      (split; [|split; [exact H2|split; [exact H3|split; [exact H4|split; [|split; assumption]]]]]).
    + intros l x <- O. apply snoc_only in O. destruct O as [O ->]. rewrite (H5 O). lia.
    + intros X. apply app_eq_nil in X. destruct X as [_ X]. discriminate X.
    + intros l x <- O. apply snoc_only in O. destruct O as [O ->]. rewrite aset_same. reflexivity.
    + intros X. apply app_eq_nil in X. destruct X as [_ X]. discriminate X.
  - destruct (v =? 48) eqn:E;
      rewrite ?(aset_other _ (py "zoneppm") (py "stemsnaplimit")), ?(aset_other _ (py "zoneppm") (py "dropoutppm")), ?(aset_other _ (py "zoneppm") (py "codeppm")) by reflexivity;
      (split; [exact H1|split; [|split; [exact H3|split; [exact H4|split; [exact H5|split; [|assumption]]]]]]).
    + intros l x <- O. apply snoc_only in O. destruct O as [O ->]. rewrite (H6 O). lia.
    + intros X. apply app_eq_nil in X. destruct X as [_ X]. discriminate X.
    + intros l x <- O. apply snoc_only in O. destruct O as [O ->]. rewrite aset_same. reflexivity.
    + intros X. apply app_eq_nil in X. destruct X as [_ X]. discriminate X.
  - rewrite (aset_other _ (py "codeppm") (py "stemsnaplimit")), (aset_other _ (py "codeppm") (py "zoneppm")),
      (aset_other _ (py "codeppm") (py "dropoutppm")) by reflexivity. rewrite aset_same, last_of_snoc. repeat split; assumption.
  - destruct (v =? 255) eqn:E;
      rewrite ?(aset_other _ (py "dropoutppm") (py "stemsnaplimit")), ?(aset_other _ (py "dropoutppm") (py "zoneppm")), ?(aset_other _ (py "dropoutppm") (py "codeppm")) by reflexivity;
      (split; [exact H1|split; [exact H2|split; [|split; [exact H4|split; [exact H5|split; [exact H6|]]]]]]).
    + intros l x <- O. apply snoc_only in O. destruct O as [O ->]. rewrite (H7 O). lia.
    + intros X. apply app_eq_nil in X. destruct X as [_ X]. discriminate X.
    + intros l x <- O. apply snoc_only in O. destruct O as [O ->]. rewrite aset_same. reflexivity.
    + intros X. apply app_eq_nil in X. destruct X as [_ X]. discriminate X.
Qed.
Lemma opt_fold_inv : forall es, opt_inv es (fold_left opt_step es None).
Proof.
  induction es as [|e es IH] using rev_ind.
  - unfold opt_inv. cbv zeta. repeat split; try (intros l x <- [[_ ->]|O]; [reflexivity|discriminate]).
  - rewrite fold_left_app. cbn [fold_left]. apply opt_step_inv; exact IH.
Qed.

(** ** Indentation *)
Lemma format_lines_indent : forall o lines n, exists texts,
  format_lines o lines n = concat (map (fun t => t ++ [10]) texts) /\ List.length texts = List.length lines /\
  forall k line, nth_error lines k = Some line ->
    nth_error texts k = Some (repeat 32 (2 * Z.to_nat (n + open_blocks o lines k)) ++ line).
Proof.
  intros o. induction lines as [|x lines IH]; intros n.
  - exists []. split; [reflexivity|]. split; [reflexivity|]. intros [|k] line H; discriminate H.
  - cbn [format_lines]. cbv zeta. set (n1 := if asm_unindent o x then n - 1 else n). set (n2 := if asm_indent o x then n1 + 1 else n1).
    destruct (IH n2) as (texts & E & L & H). exists ((repeat 32 (2 * Z.to_nat n1) ++ x) :: texts).
    cbn [map concat]. rewrite E, <- !app_assoc. split; [reflexivity|]. split; [cbn [List.length]; rewrite L; reflexivity|].
    intros [|k] line G; cbn [nth_error] in *.
    + injection G as <-. do 5 f_equal. unfold open_blocks. cbn [firstn filter List.length].
      subst n1. destruct (asm_unindent o x); cbn [List.length]; lia.
    + rewrite (H k line G). do 5 f_equal. unfold open_blocks. rewrite !firstn_cons. cbn [filter].
      subst n2 n1. destruct (asm_indent o x), (asm_unindent o x); cbn [List.length]; lia.
Qed.
Lemma format_indent : forall o lines, exists texts,
  format_list o lines = 10 :: concat (map (fun t => t ++ [10]) texts) /\ List.length texts = List.length lines /\
  forall k line, nth_error lines k = Some line ->
    nth_error texts k = Some (repeat 32 (2 * Z.to_nat (open_blocks o lines k)) ++ line).
Proof.
  intros o lines. destruct (format_lines_indent o lines 0) as (texts & E & L & H). exists texts. unfold format_list.
  rewrite E. split; [reflexivity|]. split; [exact L|]. intros k line G. rewrite (H k line G). reflexivity.
Qed.
