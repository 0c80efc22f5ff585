(** Proofs about vfb2tth (C99). *)
From Coq Require Import ZifyBool ZifyNat String Permutation.
From Verif Require Import Base M_Stream M_Py M_Text M_Glyph M_Labels M_TrueType M_Tth S_Tth M_TthExtract S_TthExtract M_Container M_Table M_Json M_Diff
  M_TthFile S_Json S_Dump S_TthFile Lib P_Helpers P_Dec P_Json P_Diff P_TthExtract S_Build P_Build3 P_TrueType P_Labels Prop_Tth Prop_TthExtract.
Local Open Scope list_scope.

(** ** JSON objects *)
Ltac distinct := cbn [map fst app]; repeat apply NoDup_cons; try apply NoDup_nil; vm_compute; intuition discriminate.
Ltac members := repeat (apply Forall2_cons; [split; [reflexivity|cbn [fst snd]; try (cbn; unfold int_json, bool_json; congruence)]|]); try apply Forall2_nil.
Section objects.
  Variable number : fval -> option pystr.
  Definition js_of (t : pyval) : js := shown number (sort_keys t).
  Lemma object_of : forall d l, NoDup (map fst d) -> Forall2 (fun p q => fst q = fst p /\ snd p (js_of (snd q))) l d -> object l (js_of (PDict d)).
  Proof.
    intros d l N F. unfold js_of. rewrite sort_dict. cbn [shown]. rewrite map_map. cbn [fst snd].
    exists (map (fun p => (fst p, js_of (snd p))) (sort_members d)), (map (fun p => (fst p, js_of (snd p))) d).
    split; [reflexivity|]. split; [apply Permutation_map, Permutation_sym, sort_perm|]. split.
    - rewrite map_map. cbn [fst]. eapply Permutation_NoDup; [apply Permutation_map, sort_perm|]. exact N.
    - clear N. induction F as [|p q l d (E & H) F IH]; cbn [map]; constructor; [split; assumption|exact IH].
  Qed.
  Lemma object_perm : forall l l' j, Permutation l l' -> object l j -> object l' j.
  Proof.
    intros l l' j P (d & m & E & Pd & N & F). destruct (Permutation_Forall2 P F) as (m' & P' & F').
    exists d, m'. split; [exact E|]. split; [eapply perm_trans; eassumption|]. split; assumption.
  Qed.
  Lemma ints_of : forall r, NoDup (map fst r) -> ints_json r (js_of (pstr_dict PInt r)).
  Proof.
    intros r N. apply object_of; [rewrite map_map; exact N|]. clear N.
    induction r as [|x r IH]; cbn [map]; constructor; [split; reflexivity|exact IH].
  Qed.
  Lemma dumpable_fits : forall t, dumpable t = fits (shown number t).
  Proof.
    induction t as [|bo|z|x|s|l IH|d IH] using pyval_ind2; try reflexivity.
    - cbn [dumpable shown fits]. now destruct (number x).
    - cbn [dumpable shown fits]. rewrite forallb_map. apply forallb_ext_in. exact IH.
    - cbn [dumpable shown fits]. rewrite forallb_map. apply forallb_ext_in. cbn [fst snd]. eapply Forall_impl; [|exact IH].
      cbv beta. intros p E. now rewrite E.
  Qed.

  (** stems, zones, commands *)
  Lemma stem_of_json : forall src f, extracted_stem src f -> stem_json src (js_of (fstem_py f)).
  Proof.
    intros src f (Eh & Ew & N & _ & R). unfold stem_json.
    apply (object_perm [(py "round", rounding_json (snd src)); (py "width", int_json (sm_width (snd src))); (py "horizontal", bool_json (fst src))]).
    { eapply perm_trans; [apply perm_swap|]. constructor. apply perm_swap. }
    unfold fstem_py, pd. cbn [map fst snd]. apply object_of; [distinct|]. members.
    exists (fs_round f). split; [apply ints_of; exact N|exact R].
  Qed.
  Lemma dec_keys : forall A (l : list (Z * A)), NoDup (map fst l) -> NoDup (map (fun x => dec_str (fst x)) l).
  Proof.
    intros A l N. induction l as [|x l IH]; cbn [map] in *; [constructor|]. inversion N as [|? ? I N']; subst. constructor; [|apply IH; exact N'].
    intros H. apply I. apply in_map_iff in H. destruct H as (y & E & H). apply dec_str_inj in E. rewrite <- E. apply in_map. exact H.
  Qed.
  Lemma zone_of_json : forall top bottom d k z f, deltas_ok top bottom d -> extracted_zone bottom d k z f ->
    zone_json bottom d (Z.of_nat k, z) (js_of (fzone_py f)).
  Proof.
    intros top bottom d k z f (_ & Fd) (Ep & Ew & Et & Ed). unfold zone_json, fzone_py. 
    destruct (aget Z.eqb (Z.of_nat k) d) as [l|] eqn:A; cbn [option_map some].
    - destruct Ed as (l' & P & _ & Ed). rewrite Ed. cbn [opt app]. apply object_of; [distinct|]. members.
      { rewrite Et. unfold bool_json. f_equal. cbn. f_equal. destruct (Nat.leb_spec (Datatypes.length bottom) k); lia. }
      unfold ints_json. apply (object_perm (map (fun x => (fst x, int_json (snd x))) (map (fun x : Z * Z => (dec_str (fst x), snd x)) l'))).
      { apply Permutation_map, Permutation_map. exact P. }
      apply ints_of. rewrite map_map. cbn [fst]. apply dec_keys.
      apply (Permutation_NoDup (l := map fst l)); [apply Permutation_map, Permutation_sym, P|].
      apply aget_In in A; [|exact Z.eqb_eq]. rewrite Forall_forall in Fd. apply Fd in A. apply A.
    - rewrite Ed. cbn [opt]. apply object_of; [distinct|]. members.
      rewrite Et. unfold bool_json. f_equal. cbn. f_equal. destruct (Nat.leb_spec (Datatypes.length bottom) k); lia.
  Qed.
  Lemma command_of_json : forall tn bn vn hn i c,
    exported_command (fun n l => l = TInt n) (fun t n name => 0 <= n /\ nth_error (if t then tn else bn) (Z.to_nat n) = Some name)
      (fun hor => if hor then hn else vn) i c ->
    command_json tn bn vn hn i (js_of (command_py c)).
  Proof.
    intros tn bn vn hn i c H. exists c. split; [exact H|]. destruct H as (code & attrs & _ & N & _).
    apply object_of; [rewrite map_map; exact N|]. clear N. induction c as [|x c IH]; cbn [map]; constructor; [|exact IH].
    split; [reflexivity|]. cbn [fst snd]. destruct (snd x); reflexivity.
  Qed.
  Lemma commands_of_json : forall tn bn vn hn g x, extracted_glyph tn bn vn hn g x ->
    commands_json tn bn vn hn (snd g) (js_of (plist command_py (snd x))).
  Proof.
    intros tn bn vn hn g x (_ & F). exists (map js_of (map command_py (snd x))). split; [unfold js_of, plist; cbn [sort_keys shown]; now rewrite !map_map|].
    induction F as [|i c l m H F IH]; cbn [map]; constructor; [apply command_of_json; exact H|exact IH].
  Qed.
End objects.

(** ** gasp *)
Definition gasp_ints (g : list gasp_rec) : list (Z * Z) := fold_left (fun d x => aset Z.eqb (gr_ppem x) (gr_flags x) d) g [].
Lemma gasp_dict_ints : forall g, gasp_dict g = pstr_dict PInt (map (fun x => (dec_str (fst x), snd x)) (gasp_ints g)).
Proof.
  intros g. unfold gasp_dict, gasp_ints, pstr_dict. rewrite map_map. cbn [fst snd]. f_equal.
  change (@nil (pystr * pyval)) with (map (fun x : Z * Z => (dec_str (fst x), PInt (snd x))) []). generalize (@nil (Z * Z)) as d.
  induction g as [|x g IH]; intros d; [reflexivity|]. cbn [fold_left]. rewrite <- IH. f_equal. clear IH g.
  induction d as [|[k v] d IH]; [reflexivity|]. cbn [map aset fst snd]. rewrite IH.
  destruct (Z.eqb_spec (gr_ppem x) k) as [->|N]; [rewrite str_eqb_refl; reflexivity|].
  replace (str_eqb (dec_str (gr_ppem x)) (dec_str k)) with false; [reflexivity|]. symmetry. apply str_eqb_neq. intros E. apply N. now apply dec_str_inj.
Qed.
Lemma gasp_of_json : forall number g, gasp_json g (js_of number (gasp_dict g)).
Proof.
  intros number g. exists (gasp_ints g). rewrite gasp_dict_ints.
  assert (N : NoDup (map fst (gasp_ints g))).
  { unfold gasp_ints. rewrite <- fold_left_rev_right. induction (rev g) as [|x l IH]; cbn [fold_right]; [constructor|]. apply aset_nodup; [exact Z.eqb_eq|exact IH]. }
  split; [apply ints_of; rewrite map_map; cbn [fst]; apply dec_keys; exact N|]. clear number N.
  intros p f. induction g as [|x g IH] using rev_ind; [split; [intros []|intros (a & b & E & _); destruct a; discriminate]|].
  assert (N : NoDup (map fst (gasp_ints g))).
  { unfold gasp_ints. rewrite <- fold_left_rev_right. induction (rev g) as [|y l IHl]; cbn [fold_right]; [constructor|]. apply aset_nodup; [exact Z.eqb_eq|exact IHl]. }
  unfold gasp_ints. rewrite fold_left_app. cbn [fold_left]. fold (gasp_ints g). rewrite zIn_aset by exact N. rewrite IH. split.
  - intros [(-> & ->)|(Ne & a & b & -> & I)].
    + exists g, []. split; [destruct x; reflexivity|intros []].
    + exists a, (b ++ [x]). split; [rewrite <- app_assoc; reflexivity|]. rewrite map_app. intros H. apply in_app_or in H. destruct H as [H|[H|[]]]; [exact (I H)|congruence].
  - intros (a & b & E & I). destruct b as [|y b] using rev_ind.
    + apply app_inj_tail in E. destruct E as (-> & ->). left. split; reflexivity.
    + rewrite app_comm_cons, app_assoc in E. apply app_inj_tail in E. destruct E as (-> & ->). rewrite map_app in I. right.
      split; [intros ->; apply I, in_or_app; right; left; reflexivity|]. exists a, b. split; [reflexivity|]. intros H. apply I, in_or_app. left. exact H.
Qed.

(** ** ttinfo: the two numbers are integers *)
Definition int_at (k : pystr) (t : tt_info) : Prop := forall v, aget str_eqb k t = Some v -> exists n, v = VInt n.
Lemma int_aset : forall k t k' v, int_at k t -> (k = k' -> exists n, v = VInt n) -> int_at k (aset str_eqb k' v t).
Proof.
  intros k t k' v I H w E. rewrite (aget_aset str_eqb str_eqb_eq) in E. destruct (str_eqb k k') eqn:K; [|apply I; exact E].
  apply str_eqb_eq in K. injection E as <-. apply H. exact K.
Qed.
Definition two_keys : list pystr := [py "head_lowest_rec_ppem"; py "head_units_per_em"].
Lemma info_turn_ints : forall k t s x r, In k two_keys -> int_at k t ->
  tt_info_turn t s = ROk x r -> int_at k (match x with inl t' => t' | inr t' => t' end).
Proof.
  intros k t s x r K I H. unfold tt_info_turn in H. unfold rbind at 1 in H. cbv beta in H. destruct (read_uint8 s) as [c s1|e s1]; [|discriminate].
  Local Ltac run H := unfold rbind, ret in H;
    repeat match type of H with
           | context [match ?m with ROk _ _ => _ | RErr _ _ => _ end] =>
               lazymatch m with context [match _ with ROk _ _ => _ | RErr _ _ => _ end] => fail | _ => destruct m end
           end; try discriminate; injection H as <- <-.
  assert (D : forall n, c = n -> existsb (str_eqb (tt_key n)) two_keys = false -> k <> tt_key c).
  { intros n -> E F. subst k. assert (T : existsb (str_eqb (tt_key n)) two_keys = true) by (apply existsb_exists; exists (tt_key n); split; [exact K|apply str_eqb_refl]). congruence. }
  destruct (c =? 0x32); [run H; exact I|].
  destruct (tt_plain c); [run H; apply int_aset; [exact I|]; intros _; eauto|].
  destruct (Z.eqb_spec c 0x39) as [Ec|_]; [run H; apply int_aset; [exact I|]; intros F; destruct (D _ Ec eq_refl F)|].
  destruct (Z.eqb_spec c 0x4C) as [Ec|_]; [run H; apply int_aset; [exact I|]; intros F; destruct (D _ Ec eq_refl F)|].
  destruct (tt_hdmx c) eqn:Hc.
  { unfold tt_hdmx in Hc. assert (Ec : c = 0x53 \/ c = 0x58) by lia. run H; (apply int_aset; [exact I|]; intros F; destruct Ec as [Ec|Ec]; destruct (D _ Ec eq_refl F)). }
  destruct (Z.eqb_spec c 0x54) as [Ec|_]; [run H; apply int_aset; [exact I|]; intros F; destruct (D _ Ec eq_refl F)|].
  run H. exact I.
Qed.
Lemma info_ints : forall k s t r, In k two_keys -> parse_tt_info s = ROk t r -> int_at k t.
Proof.
  intros k s t r K H. unfold parse_tt_info, rloop in H. assert (I : int_at k []) by (intros v E; discriminate). revert H I.
  generalize (Datatypes.S (Datatypes.length s)) as n, (@nil (pystr * tt_value)) as u. intros n. revert s. induction n as [|n IH]; intros s u H I; cbn [rwhile] in H; [discriminate|].
  unfold rbind in H. destruct (tt_info_turn u s) as [[u'|u'] s'|e s'] eqn:E; [|unfold ret in H; injection H as <- <-|discriminate].
  - apply (IH s' u'); [exact H|]. exact (info_turn_ints _ _ _ _ _ K I E).
  - exact (info_turn_ints _ _ _ _ _ K I E).
Qed.

(** ** The loop *)
Definition six_keys : list pystr :=
  [py "gasp"; py "head_lowest_rec_ppem"; py "head_units_per_em"; py "stemsnaplimit"; py "zoneppm"; py "codeppm"].
(** what [font] has after the entries [l] *)
Record font_inv (font : fnumbers) (l : list (Z * value)) : Prop := FontInv {
  fi_nodup : NoDup (map fst font);
  fi_keys : forall k, In k (map fst font) -> In k six_keys;
  fi_gasp : aget str_eqb (py "gasp") font = option_map gasp_dict (last_of gasp_of l);
  fi_lowest : aget str_eqb (py "head_lowest_rec_ppem") font = option_map PInt (last_of (info_of "head_lowest_rec_ppem") l);
  fi_upm : aget str_eqb (py "head_units_per_em") font = option_map PInt (last_of (info_of "head_units_per_em") l);
  fi_snap : aget str_eqb (py "stemsnaplimit") font = option_map PInt (last_of (int_of 1272) l);
  fi_zone : aget str_eqb (py "zoneppm") font = option_map PInt (last_of (int_of 1274) l);
  fi_code : aget str_eqb (py "codeppm") font = option_map PInt (last_of (int_of 1275) l) }.
Lemma last_snoc : forall A (f : Z * value -> option A) l e, last_of f (l ++ [e]) = match f e with Some x => Some x | None => last_of f l end.
Proof. intros. unfold last_of. rewrite fold_left_app. reflexivity. Qed.
Lemma inv_other : forall font l e, font_inv font l -> gasp_of e = None -> info_of "head_lowest_rec_ppem" e = None -> info_of "head_units_per_em" e = None ->
  int_of 1272 e = None -> int_of 1274 e = None -> int_of 1275 e = None -> font_inv font (l ++ [e]).
Proof.
  intros font l e [N K G L U S Zn C] E1 E2 E3 E4 E5 E6. constructor; try assumption; rewrite last_snoc; [rewrite E1|rewrite E2|rewrite E3|rewrite E4|rewrite E5|rewrite E6]; assumption.
Qed.
Lemma agets : forall k k' (v : pyval) d b, str_eqb k k' = b -> aget str_eqb k (aset str_eqb k' v d) = if b then Some v else aget str_eqb k d.
Proof. intros k k' v d b <-. apply (aget_aset str_eqb str_eqb_eq). Qed.
Lemma keys_aset : forall k v (d : fnumbers), In k six_keys -> (forall x, In x (map fst d) -> In x six_keys) -> forall x, In x (map fst (aset str_eqb k v d)) -> In x six_keys.
Proof. intros k v d K H x I. apply (aset_keys str_eqb str_eqb_eq) in I. destruct I as [->|I]; [exact K|apply H; exact I]. Qed.
Definition parsed (p : Z * value) : Prop := exists o c b, bytes_ok b /\ cd_parse (table o) (fst p) c b = Ok (snd p).
Lemma parsed_info : forall t k, parsed (1264, DTTInfo t) -> In k two_keys -> int_at k t.
Proof.
  intros t k (o & c & b & _ & H) K. cbn [fst snd] in H. unfold table in H. cbn [cd_parse] in H.
  let q := eval cbv beta iota zeta delta [parser_of row aget parser_classes Z.eqb Pos.eqb] in (parser_of o 1264) in change (run_parser (q c) b = Ok (DTTInfo t)) in H.
  unfold TrueTypeInfoParser, run_parser, M_Table.plain, rbind, ret in H. cbv beta in H. destruct (parse_tt_info b) as [x r|e r] eqn:E; [|discriminate]. destruct r; [|discriminate].
  apply Ok_inj in H. injection H as ->. eapply info_ints; eassumption.
Qed.
Lemma info_step : forall k t (font : fnumbers), int_at (py k) t ->
  copy_info t font (py k) = match info_of k (1264, DTTInfo t) with Some n => aset str_eqb (py k) (PInt n) font | None => font end.
Proof.
  intros k t font I. unfold copy_info. cbn [info_of]. destruct (aget str_eqb (py k) t) as [v|] eqn:E; [|reflexivity].
  destruct (I v E) as (n & ->). reflexivity.
Qed.
Lemma case_ok : forall font l x p x', font_inv font l -> existsb (Z.eqb (fst p)) tth_ids = true -> parsed p -> S_TthFile.named p ->
  res_fold x_add x (hint_part p) = Ok x' -> exists font', tth_case (font, x) (fst p) (snd p) = Ok (font', x') /\ font_inv font' (l ++ [p]).
Proof.
  intros font l x [i d] x' V I P M H. cbn [fst snd] in *.
  assert (Ty : type_of_key i d = true). { destruct P as (o & c & b & B & P). exact (proj1 (parsed_typed o i c b d B P)). }
  apply existsb_exists in I. destruct I as (j & I & J). apply Z.eqb_eq in J. subst j.
  unfold tth_ids in I. cbn [In] in I.
  assert (X : forall e, res_fold x_add x [e] = Ok x' -> x_add x e = Ok x').
  { intros e. cbn [res_fold]. destruct (x_add x e); [|discriminate]. cbn [rthen res_fold]. congruence. }
  Local Ltac other V := apply inv_other; [exact V|reflexivity..].
  Local Ltac number V := destruct V as [N K G L U S Zn C]; constructor;
    [apply aset_nodup; [exact str_eqb_eq|exact N]|apply keys_aset; [vm_compute; auto 10|exact K]|..];
    rewrite (agets _ _ _ _ _ eq_refl), last_snoc; cbn [gasp_of info_of int_of]; lazy beta iota delta [str_eqb Z.eqb Pos.eqb]; first [reflexivity|assumption].
  destruct I as [<-|[<-|[<-|[<-|[<-|[<-|[<-|[<-|[<-|[<-|[<-|[]]]]]]]]]]]]; destruct d; try discriminate Ty; cbn [hint_part] in H;
    try (apply X in H; eexists; split; [cbn -[x_add]; rewrite H; reflexivity|other V]); try (cbn [res_fold] in H; apply Ok_inj in H; subst x').
  - eexists. split; [reflexivity|]. number V.
  - destruct V as [N K G L U S Zn C].
    pose proof (parsed_info _ (py "head_lowest_rec_ppem") P ltac:(left; reflexivity)) as I1. pose proof (parsed_info _ (py "head_units_per_em") P ltac:(right; left; reflexivity)) as I2.
    eexists. split; [cbn -[copy_info]; reflexivity|]. rewrite (info_step _ _ _ I2), (info_step _ _ _ I1).
    destruct (info_of "head_lowest_rec_ppem" (1264, DTTInfo x0)) as [n1|] eqn:E1, (info_of "head_units_per_em" (1264, DTTInfo x0)) as [n2|] eqn:E2.
    all: constructor; try (repeat (apply aset_nodup; [exact str_eqb_eq|]); exact N); try (repeat (apply keys_aset; [vm_compute; auto 10|]); exact K);
      rewrite ?(agets _ _ _ _ _ eq_refl), last_snoc, ?E1, ?E2; cbn [gasp_of int_of]; lazy beta iota delta [str_eqb Z.eqb Pos.eqb]; first [reflexivity|assumption].
  - eexists. split; [reflexivity|]. number V.
  - eexists. split; [reflexivity|]. number V.
  - eexists. split; [reflexivity|]. number V.
  - exists font. split; [|other V]. cbn -[glyph_hints]. assert (E : glyph_hints x x0 = Ok x'); [|rewrite E; reflexivity].
    unfold S_TthFile.named in M. cbn [snd] in M. unfold glyph_hints. destruct (g_name x0) as [n|].
    + destruct (g_tth x0) as [[|c t]|]; [| |]; cbn [extract_glyph]; [cbn in H; congruence| |cbn in H; congruence]. apply X in H. exact H.
    + destruct (M eq_refl) as [E|E]; rewrite E; cbn in H |- *; congruence.
Qed.
Lemma fold_ok : forall l pre font x x', font_inv font pre -> Forall (fun p => existsb (Z.eqb (fst p)) tth_ids = true) l -> Forall parsed l -> Forall S_TthFile.named l ->
  res_fold x_add x (flat_map hint_part l) = Ok x' ->
  exists font', res_fold (fun s p => tth_case s (fst p) (snd p)) (font, x) l = Ok (font', x') /\ font_inv font' (pre ++ l).
Proof.
  induction l as [|p l IH]; intros pre font x x' V I P M H; cbn [flat_map res_fold] in *.
  - apply Ok_inj in H. subst x'. exists font. rewrite app_nil_r. split; [reflexivity|exact V].
  - inversion I; subst. inversion P; subst. inversion M; subst.
    assert (Sp : exists x1, res_fold x_add x (hint_part p) = Ok x1 /\ res_fold x_add x1 (flat_map hint_part l) = Ok x').
    { revert H. clear. generalize (hint_part p) as a. intros a. revert x. induction a as [|e a IHa]; intros x H; cbn [app res_fold] in *; [eauto|].
      destruct (x_add x e); [|discriminate]. cbn [rthen] in *. apply IHa. exact H. }
    destruct Sp as (x1 & E1 & E2). destruct (case_ok font pre x p x1) as (f1 & C1 & V1); try assumption.
    rewrite C1. cbn [rthen]. destruct (IH (pre ++ [p]) f1 x1 x') as (f2 & C2 & V2); try assumption.
    exists f2. split; [exact C2|]. rewrite <- app_assoc in V2. exact V2.
Qed.
(** the loop over the entries *)
Lemma turns_ok : forall o c l es s, Forall2 (entry_says o c) (filter looked_at es) l ->
  res_fold (tth_turn o c) s es = res_fold (fun s p => tth_case s (fst p) (snd p)) s l.
Proof.
  intros o c l es. revert l. induction es as [|e es IH]; intros l s F; cbn [filter res_fold] in *.
  - inversion F; subst. reflexivity.
  - assert (Q : looked_at e = match e_id e with Some i => existsb (Z.eqb i) tth_ids | None => false end) by (destruct e as [[i|] d m]; reflexivity).
    unfold tth_turn at 1. destruct (looked_at e) eqn:L.
    + inversion F as [|? [i d] ? ? (E & c' & b & B & P & D) F']; subst. cbn [fst snd] in *. rewrite E in Q |- *. rewrite <- Q. cbn [res_fold fst snd].
      assert (R : entry_decompile (table o) c e = (set_data (Dec d) e, false, Ok tt)).
      { unfold entry_decompile. rewrite E. destruct D as [D|(D & ->)]; rewrite D; [destruct e; cbn in *; subst; reflexivity|]. rewrite P. reflexivity. }
      rewrite R. cbn [rthen]. replace (e_data (set_data (Dec d) e)) with (Dec d) by (destruct e; reflexivity).
      destruct (tth_case s i d) as [s'|x]; cbn [rthen]; [|reflexivity]. apply IH. exact F'.
    + destruct (e_id e) as [i|]; [rewrite <- Q|]; cbn [rthen]; apply IH; exact F.
Qed.
Lemma turns_inv : forall o c es s s', res_fold (tth_turn o c) s es = Ok s' ->
  exists l, Forall2 (fun e p => e_id e = Some (fst p) /\ exists e', entry_decompile (table o) c e = (e', false, Ok tt) /\ e_data e' = Dec (snd p)) (filter looked_at es) l /\
    res_fold (fun s p => tth_case s (fst p) (snd p)) s l = Ok s'.
Proof.
  intros o c. induction es as [|e es IH]; intros s s' H; cbn [filter res_fold] in *; [exists []; split; [constructor|exact H]|].
  assert (Q : looked_at e = match e_id e with Some i => existsb (Z.eqb i) tth_ids | None => false end) by (destruct e as [[i|] d m]; reflexivity).
  unfold tth_turn at 1 in H. destruct (e_id e) as [i|] eqn:E.
  - rewrite Q. destruct (existsb (Z.eqb i) tth_ids).
    + destruct (entry_decompile (table o) c e) as [[e' err] r] eqn:D. destruct r as [u|x]; cbn [rthen] in H; [|discriminate].
      destruct (e_data e') as [b|d|] eqn:Ed; cbn [rthen] in H; try discriminate. destruct (tth_case s i d) as [s1|x] eqn:Cs; cbn [rthen] in H; [|discriminate].
      destruct (IH _ _ H) as (l & F & R). exists ((i, d) :: l). cbn [res_fold fst snd]. rewrite Cs. cbn [rthen]. split; [|exact R].
      constructor; [|exact F]. cbn [fst snd]. split; [exact E|]. exists e'. split; [|exact Ed]. destruct u. rewrite D. f_equal. f_equal.
      unfold entry_decompile in D. rewrite E in D. destruct (e_data e); [destruct (cd_parse _ _ _ _)|..]; congruence.
    + cbn [rthen] in H. apply IH. exact H.
  - rewrite Q. cbn [rthen] in H. apply IH. exact H.
Qed.
Lemma case_inv : forall font x p font' x', existsb (Z.eqb (fst p)) tth_ids = true -> tth_case (font, x) (fst p) (snd p) = Ok (font', x') ->
  res_fold x_add x (hint_part p) = Ok x'.
Proof.
  intros font x [i d] font' x' I H. cbn [fst snd] in *.
  apply existsb_exists in I. destruct I as (j & I & J). apply Z.eqb_eq in J. subst j. unfold tth_ids in I. cbn [In] in I.
  assert (X : forall e, rmap (pair font) (x_add x e) = Ok (font', x') -> res_fold x_add x [e] = Ok x').
  { intros e. cbn [res_fold]. destruct (x_add x e); [|discriminate]. cbn [rthen rmap res_fold]. congruence. }
  destruct I as [<-|[<-|[<-|[<-|[<-|[<-|[<-|[<-|[<-|[<-|[<-|[]]]]]]]]]]]]; destruct d; try discriminate H; cbn [hint_part];
    try (apply X; exact H); try (cbn in H |- *; congruence).
  cbn -[glyph_hints] in H. unfold glyph_hints in H. destruct (g_name x0) as [n|]; destruct (g_tth x0) as [[|c t]|]; try (cbn in H |- *; congruence).
  - apply X. exact H.
  - destruct (extract_glyph x [] (Some (c :: t))); discriminate H.
Qed.
Lemma fold_inv : forall l font x font' x', Forall (fun p => existsb (Z.eqb (fst p)) tth_ids = true) l ->
  res_fold (fun s p => tth_case s (fst p) (snd p)) (font, x) l = Ok (font', x') -> res_fold x_add x (flat_map hint_part l) = Ok x'.
Proof.
  induction l as [|p l IH]; intros font x font' x' I H; cbn [flat_map res_fold] in *; [congruence|].
  inversion I; subst. destruct (tth_case (font, x) (fst p) (snd p)) as [[f1 x1]|e] eqn:C; cbn [rthen] in H; [|discriminate].
  pose proof (case_inv _ _ _ _ _ H2 C) as E1. specialize (IH _ _ _ _ H3 H). revert E1 IH. clear.
  generalize (hint_part p) as a. intros a. revert x. induction a as [|e a IHa]; intros x E1 E2; cbn [app res_fold] in *; [congruence|].
  destruct (x_add x e); [|discriminate]. cbn [rthen] in *. apply IHa; assumption.
Qed.
Lemma says_ids : forall (es : list (entry value)) l (R : entry value -> Z * value -> Prop), (forall e p, R e p -> e_id e = Some (fst p)) -> Forall2 R (filter looked_at es) l ->
  Forall (fun p => existsb (Z.eqb (fst p)) tth_ids = true) l.
Proof.
  intros es l R E F. assert (L : Forall (fun e => looked_at e = true) (filter looked_at es)).
  { apply Forall_forall. intros e I. apply filter_In in I. apply I. }
  revert L. induction F as [|e p m l H F IH]; intros L; constructor; inversion L; subst; [|apply IH; assumption].
  unfold looked_at in H2. rewrite (E _ _ H) in H2. exact H2.
Qed.
(** when the dict is made, the model of the stems, zones and glyphs of M_TthExtract succeeds *)
Lemma tth_extract : forall o v t, vfb_tth o v = Ok t ->
  exists l, Forall2 (fun e p => e_id e = Some (fst p) /\ exists e', entry_decompile (table o) (v_ctx v) e = (e', false, Ok tt) /\ e_data e' = Dec (snd p)) (filter looked_at (v_entries v)) l /\
    exists r, extract_truetype_hinting (flat_map hint_part l) = Ok r.
Proof.
  intros o v t H. unfold vfb_tth in H. destruct (res_fold (tth_turn o (v_ctx v)) ([], x_start) (v_entries v)) as [[font x]|e] eqn:E; cbn [rthen] in H; [|discriminate].
  destruct (turns_inv _ _ _ _ _ E) as (l & F & R). exists l. split; [exact F|]. cbn [fst snd] in H.
  apply fold_inv in R; [|eapply says_ids; [|exact F]; cbv beta; tauto]. unfold extract_truetype_hinting. rewrite R. cbn [rthen].
  destruct (merge_stems x); cbn [rthen rmap] in *; [|discriminate]. destruct (merge_zones x); cbn [rmap] in *; [|discriminate]. eauto.
Qed.

(** ** The dict *)
Lemma keys_perm : forall (font : fnumbers) ks, NoDup (map fst font) -> NoDup ks -> (forall k, In k (map fst font) -> In k ks) ->
  Permutation font (flat_map (fun k => match aget str_eqb k font with Some v => [(k, v)] | None => [] end) ks).
Proof.
  intros font ks N Nk I. apply NoDup_Permutation.
  - eapply NoDup_map_inv. exact N.
  - clear I. induction Nk as [|k ks H Nk IH]; cbn [flat_map]; [constructor|]. destruct (aget str_eqb k font) as [v|]; [|exact IH]. constructor; [|exact IH].
    intros X. apply in_flat_map in X. destruct X as (k' & Ik & X). destruct (aget str_eqb k' font) as [v'|]; [|destruct X]. destruct X as [X|[]]. apply H. congruence.
  - intros [k v]. rewrite in_flat_map. split.
    + intros H. exists k. split; [apply I; apply (in_map fst) in H; exact H|]. rewrite (In_aget str_eqb str_eqb_eq _ _ _ N H). left. reflexivity.
    + intros (k' & _ & X). destruct (aget str_eqb k' font) as [v'|] eqn:E; [|destruct X]. destruct X as [X|[]]. injection X as <- <-. eapply aget_In; [exact str_eqb_eq|exact E].
Qed.
Lemma part_filled : forall num A k (f : A -> pyval) ks preds (d : list (pystr * A)), map fst d = ks -> NoDup ks ->
  Forall2 (fun (P : js -> Prop) x => P (js_of num (f x))) preds (map snd d) ->
  Forall2 (fun p q => fst q = fst p /\ snd p (js_of num (snd q))) (filled k (combine ks preds)) (part k f d).
Proof.
  intros num A k f ks preds d <- N F. destruct d as [|x d].
  - constructor.
  - cbn [map] in F |- *. inversion F as [|P ? Ps ? HP F']; subst. unfold filled, part. cbn [combine]. constructor; [|constructor]. cbn [fst snd]. split; [reflexivity|].
    unfold pstr_dict. apply object_of; [rewrite map_map; exact N|]. constructor; [split; [reflexivity|exact HP]|]. clear - F'. revert Ps F'.
    induction d as [|y d IH]; intros [|P Ps] F; inversion F; subst; cbn [map combine]; constructor; [split; [reflexivity|assumption]|]. apply IH. assumption.
Qed.
Lemma enum_Forall2 : forall A B (Q : Z -> A -> B -> Prop) l m k0, List.length l = List.length m ->
  (forall k z, nth_error l k = Some z -> exists f, nth_error m k = Some f /\ Q (k0 + Z.of_nat k) z f) ->
  Forall2 (fun p f => Q (fst p) (snd p) f) (enum k0 l) m.
Proof.
  intros A B Q. induction l as [|z l IH]; intros [|f m] k0 L H; try discriminate; cbn [enum]; constructor.
  - destruct (H 0%nat z eq_refl) as (f' & E & R). injection E as ->. cbn [fst snd]. rewrite Z.add_0_r in R. exact R.
  - apply IH; [cbn in L; lia|]. intros k w E. destruct (H (Datatypes.S k) w E) as (f' & E' & R). exists f'. split; [exact E'|].
    replace (k0 + 1 + Z.of_nat k) with (k0 + Z.of_nat (Datatypes.S k)) by lia. exact R.
Qed.
Lemma js_perm : forall num d d', Permutation d d' -> NoDup (map fst d) -> js_of num (PDict d) = js_of num (PDict d').
Proof. intros num d d' P N. unfold js_of. rewrite !sort_dict, (sort_unique _ _ _ P N). reflexivity. Qed.
Lemma some_of : forall num A k (f : A -> js -> Prop) (g : A -> pyval) x, (forall a, f a (js_of num (g a))) ->
  Forall2 (fun p q => fst q = fst p /\ snd p (js_of num (snd q))) (some k f x) (match option_map g x with Some v => [(py k, v)] | None => [] end).
Proof. intros num A k f g [a|] H; cbn [some option_map]; constructor; [split; [reflexivity|apply H]|constructor]. Qed.
Lemma numbers_members : forall num font l, font_inv font l ->
  Forall2 (fun p q => fst q = fst p /\ snd p (js_of num (snd q))) (font_numbers l)
    (flat_map (fun k => match aget str_eqb k font with Some v => [(k, v)] | None => [] end) six_keys).
Proof.
  intros num font l [N K G L U S Zn C]. unfold six_keys, font_numbers. cbn [flat_map]. rewrite G, L, U, S, Zn, C, app_nil_r.
  repeat apply Forall2_app; apply some_of; first [apply gasp_of_json|intros a; reflexivity].
Qed.
