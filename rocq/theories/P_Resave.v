(** Proofs for C95: the export of a file that was saved by the library. *)
From Coq Require Import String Permutation.
From Verif Require Import S_Tth Base Lib M_Stream M_Py M_Helpers M_Simple M_Text M_TrueType M_Bitmap M_Glyph M_Options M_Container M_Table M_Groups M_Features.
From Verif Require Import M_Info M_FontInfo M_Tth M_Designspace M_Paths M_Guides M_Programs M_Builder M_Master M_Classes M_Build M_Ufo.
From Verif Require Import S_Glyph S_TrueType S_Table S_Build S_Resave P_Dec P_Loop P_Text P_Tth P_Build P_TrueType2 P_Glyph P_Glyph3 P_Glyph5 P_Build3 Prop_Build.
Local Open Scope list_scope.

(** ** Dicts *)
Section Dict.
  Context {K V : Type} (eqb : K -> K -> bool) (eqb_eq : forall a b, eqb a b = true <-> a = b).
  Lemma perm_get : forall d e : list (K * V), NoDup (map fst d) -> Permutation d e -> forall k, aget eqb k d = aget eqb k e.
  Proof.
    intros d e N P k. destruct (aget eqb k d) as [v|] eqn:E.
    - apply (aget_In eqb eqb_eq) in E. symmetry. apply (In_aget eqb eqb_eq).
      + eapply Permutation_NoDup; [apply Permutation_map; exact P|exact N].
      + eapply Permutation_in; eassumption.
    - symmetry. apply (aget_None eqb eqb_eq). apply (aget_None eqb eqb_eq) in E. intros I. apply E.
      eapply Permutation_in; [apply Permutation_sym, Permutation_map; exact P|exact I].
  Qed.
  Lemma get_perm : forall d e : list (K * V), NoDup (map fst d) -> NoDup (map fst e) -> (forall k, aget eqb k d = aget eqb k e) -> Permutation d e.
  Proof.
    intros d e N M H. apply NoDup_Permutation; [eapply NoDup_map_inv; exact N|eapply NoDup_map_inv; exact M|].
    intros [k v]. split; intros I; apply (In_aget eqb eqb_eq) in I; try assumption; apply (aget_In eqb eqb_eq); congruence.
  Qed.
End Dict.
Lemma dict_get : forall V (d e : list (pystr * V)), same_dict d e -> forall k, aget str_eqb k d = aget str_eqb k e.
Proof. intros V d e [N P]. apply (perm_get str_eqb str_eqb_eq); assumption. Qed.
Lemma dict_right : forall V (d e : list (pystr * V)), same_dict d e -> NoDup (map fst e).
Proof. intros V d e [N P]. eapply Permutation_NoDup; [apply Permutation_map; exact P|exact N]. Qed.
Lemma dict_of : forall V (d e : list (pystr * V)), NoDup (map fst d) -> NoDup (map fst e) -> (forall k, aget str_eqb k d = aget str_eqb k e) -> same_dict d e.
Proof. intros V d e N M H. split; [exact N|]. apply (get_perm str_eqb str_eqb_eq); assumption. Qed.
Lemma dict_set : forall V k (v : V) d e, same_dict d e -> same_dict (aset str_eqb k v d) (aset str_eqb k v e).
Proof.
  intros V k v d e S. apply dict_of.
  - apply (aset_nodup str_eqb str_eqb_eq). apply S.
  - apply (aset_nodup str_eqb str_eqb_eq). eapply dict_right. exact S.
  - intros a. rewrite !(aget_aset str_eqb str_eqb_eq). destruct (str_eqb a k); [reflexivity|]. apply dict_get. exact S.
Qed.
Lemma dict_swap : forall V k (v : V) l w d e, k <> l -> same_dict d e -> same_dict (aset str_eqb k v (aset str_eqb l w d)) (aset str_eqb l w (aset str_eqb k v e)).
Proof.
  intros V k v l w d e N S. apply dict_of.
  - apply (aset_nodup str_eqb str_eqb_eq), (aset_nodup str_eqb str_eqb_eq). apply S.
  - apply (aset_nodup str_eqb str_eqb_eq), (aset_nodup str_eqb str_eqb_eq). eapply dict_right. exact S.
  - intros a. rewrite !(aget_aset str_eqb str_eqb_eq). destruct (str_eqb a k) eqn:A, (str_eqb a l) eqn:B; try reflexivity.
    + apply str_eqb_eq in A, B. congruence.
    + apply dict_get. exact S.
Qed.
Lemma dict_trans : forall V (a b c : list (pystr * V)), same_dict a b -> same_dict b c -> same_dict a c.
Proof. intros V a b c [N P] [_ Q]. split; [exact N|]. eapply perm_trans; eassumption. Qed.
Lemma dict_refl : forall V (a : list (pystr * V)), NoDup (map fst a) -> same_dict a a.
Proof. intros V a N. split; [exact N|apply Permutation_refl]. Qed.
Lemma option_refl : forall A (R : A -> A -> Prop) x y, same_option R x y -> (forall a b, R a b -> R a a) -> same_option R x x.
Proof. intros A R [x|] [y|] S H; cbn in *; try tauto. eapply H. exact S. Qed.

(** ** Font info *)
Lemma info_refl : forall i j, same_info i j -> same_info i i.
Proof.
  intros i j [A L]. split; [apply dict_refl, A|]. eapply option_refl; [exact L|]. intros a b S. apply dict_refl, S.
Qed.
Lemma info_trans : forall i j k, same_info i j -> same_info j k -> same_info i k.
Proof.
  intros i j k [A L] [B M]. split; [eapply dict_trans; eassumption|].
  destruct (if_lib i), (if_lib j), (if_lib k); cbn in *; try tauto. eapply dict_trans; eassumption.
Qed.
Lemma info_set : forall k v i j, same_info i j -> same_info (setattr k v i) (setattr k v j).
Proof. intros k v i j [A L]. split; [apply dict_set; exact A|exact L]. Qed.
Lemma format_nodup : NoDup (map fst [(py "formatVersion", IStr (py "1"))]).
Proof. repeat constructor. intros []. Qed.
Lemma info_set_lib : forall k v i j, same_info i j -> same_info (set_tt_instructions k v i) (set_tt_instructions k v j).
Proof.
  intros k v i j [A L]. unfold set_tt_instructions. split; [exact A|]. cbn [if_lib same_option].
  destruct (if_lib i), (if_lib j); cbn in L; try tauto; apply dict_set; [exact L|]. apply dict_refl, format_nodup.
Qed.

(** what an item of the TrueType info changes *)
Inductive write := WNone | WAttr (k : pystr) (v : info_val) | WLib (k : pystr) (v : info_val).
Definition apply_write (w : write) (i : info) : info :=
  match w with WNone => i | WAttr k v => setattr k v i | WLib k v => set_tt_instructions k v i end.
Definition item_write (kv : pystr * tt_value) : res write :=
  let '(k, v) := kv in
  match v with
  | VInt v =>
      match aget str_eqb k mapping_int with
      | Some attr => Ok (WAttr attr (IInt v))
      | None =>
          if str_eqb k (py "head_creation") then rmap (fun d => WAttr (py "openTypeHeadCreated") (IStr (date_text d))) (convert_timestamp v)
          else if str_eqb k (py "head_font_direction_hint") then Ok WNone
          else if str_eqb k (py "os2_fs_type") then rmap (fun l => WAttr (py "openTypeOS2Type") (IList l)) (binaryToIntList v 0)
          else if str_eqb k (py "os2_s_family_class") then Ok (WAttr (py "openTypeOS2FamilyClass") (IList (family_class v)))
          else if str_eqb k (py "os2_us_weight_class") then Ok WNone
          else if str_eqb k (py "os2_fs_selection") then Ok WNone
          else match aget str_eqb k maxp_keys with
          | Some key => Ok (WLib key (IInt v))
          | None =>
              if str_eqb k (py "Average Width") then
                Ok (if v =? 0 then WNone else WAttr (py "postscriptNominalWidthX") (IInt (Z.abs v)))
              else Ok WNone
          end
      end
  | VList _ => Ok WNone
  | VFlags flags _ =>
      if str_eqb k (py "head_flags") then Ok (WAttr (py "openTypeHeadFlags") (IList flags)) else Ok WNone
  | VPages r1 r2 =>
      if str_eqb k (py "head_flags") then Ok (WAttr (py "openTypeHeadFlags") (IList []))
      else if str_eqb k (py "Codepages") then
        rmap (fun ranges => match ranges with [] => WNone | _ => WAttr (py "openTypeOS2CodePageRanges") (IList ranges) end) (code_pages r1 r2)
      else Ok WNone
  end.
Lemma item_is_write : forall i kv, set_tt_item i kv = rmap (fun w => apply_write w i) (item_write kv).
Proof.
  intros i [k v]. unfold set_tt_item, item_write. destruct v as [z|flags options|l|range1 range2]; try reflexivity.
  - destruct (aget str_eqb k mapping_int); [reflexivity|]. 
    destruct (str_eqb k (py "head_creation")); [unfold set_created_timestamp; destruct (convert_timestamp z); reflexivity|].
    destruct (str_eqb k (py "head_font_direction_hint")); [reflexivity|].
    destruct (str_eqb k (py "os2_fs_type")); [destruct (binaryToIntList z 0); reflexivity|].
    destruct (str_eqb k (py "os2_s_family_class")); [reflexivity|]. destruct (str_eqb k (py "os2_us_weight_class")); [reflexivity|].
    destruct (str_eqb k (py "os2_fs_selection")); [reflexivity|]. destruct (aget str_eqb k maxp_keys); [reflexivity|].
    destruct (str_eqb k (py "Average Width")); [destruct (z =? 0)|]; reflexivity.
  - destruct (str_eqb k (py "head_flags")); reflexivity.
  - destruct (str_eqb k (py "head_flags")); [reflexivity|]. destruct (str_eqb k (py "Codepages")); [|reflexivity].
    destruct (code_pages range1 range2) as [[]|]; reflexivity.
Qed.
Definition targets : list (pystr * (bool * pystr)) :=
  map (fun p => (fst p, (true, snd p))) mapping_int ++ map (fun p => (fst p, (false, snd p))) maxp_keys ++
  [(py "head_creation", (true, py "openTypeHeadCreated")); (py "os2_fs_type", (true, py "openTypeOS2Type"));
   (py "os2_s_family_class", (true, py "openTypeOS2FamilyClass")); (py "Average Width", (true, py "postscriptNominalWidthX"));
   (py "head_flags", (true, py "openTypeHeadFlags")); (py "Codepages", (true, py "openTypeOS2CodePageRanges"))].
Definition write_target (w : write) (t : bool * pystr) : Prop :=
  match w with WNone => False | WAttr k _ => t = (true, k) | WLib k _ => t = (false, k) end.
Lemma write_targets : forall kv w t, item_write kv = Ok w -> write_target w t -> In (fst kv, t) targets.
Proof.
  assert (L : forall (l : list (pystr * pystr)) k a, aget str_eqb k l = Some a -> forall b : bool, In (k, (b, a)) (map (fun p : pystr * pystr => (fst p, (b, snd p))) l)).
  { intros l k a H b. apply (aget_In str_eqb str_eqb_eq) in H. apply in_map_iff. exists (k, a). split; [reflexivity|exact H]. }
  assert (P : forall x k t, In (x, t) [(py "head_creation", (true, py "openTypeHeadCreated")); (py "os2_fs_type", (true, py "openTypeOS2Type"));
   (py "os2_s_family_class", (true, py "openTypeOS2FamilyClass")); (py "Average Width", (true, py "postscriptNominalWidthX"));
   (py "head_flags", (true, py "openTypeHeadFlags")); (py "Codepages", (true, py "openTypeOS2CodePageRanges"))] -> str_eqb k x = true -> In (k, t) targets).
  { intros x k t H E. apply str_eqb_eq in E. subst x. unfold targets. apply in_or_app. right. apply in_or_app. right. exact H. }
  intros [k v] w t H T. cbn [fst]. unfold item_write in H. destruct v as [z|flags options|l|range1 range2].
  - destruct (aget str_eqb k mapping_int) as [a|] eqn:M.
    { apply Ok_inj in H. subst w. cbn in T. subst t. unfold targets. apply in_or_app. left. apply (L _ _ _ M). }
    destruct (str_eqb k (py "head_creation")) eqn:E1.
    { destruct (convert_timestamp z); [|discriminate]. apply Ok_inj in H. subst w. cbn [write_target] in T. subst t. eapply P; [|exact E1]. vm_compute. tauto. }
    destruct (str_eqb k (py "head_font_direction_hint")); [apply Ok_inj in H; subst w; destruct T|].
    destruct (str_eqb k (py "os2_fs_type")) eqn:E2.
    { destruct (binaryToIntList z 0); [|discriminate]. apply Ok_inj in H. subst w. cbn [write_target] in T. subst t. eapply P; [|exact E2]. vm_compute. tauto. }
    destruct (str_eqb k (py "os2_s_family_class")) eqn:E3.
    { apply Ok_inj in H. subst w. cbn [write_target] in T. subst t. eapply P; [|exact E3]. vm_compute. tauto. }
    destruct (str_eqb k (py "os2_us_weight_class")); [apply Ok_inj in H; subst w; destruct T|].
    destruct (str_eqb k (py "os2_fs_selection")); [apply Ok_inj in H; subst w; destruct T|].
    destruct (aget str_eqb k maxp_keys) as [a|] eqn:X.
    { apply Ok_inj in H. subst w. cbn [write_target] in T. subst t. unfold targets. apply in_or_app. right. apply in_or_app. left. apply (L _ _ _ X). }
    destruct (str_eqb k (py "Average Width")) eqn:E4; [|apply Ok_inj in H; subst w; destruct T].
    apply Ok_inj in H. subst w. destruct (z =? 0); [destruct T|]. cbn [write_target] in T. subst t. eapply P; [|exact E4]. vm_compute. tauto.
  - destruct (str_eqb k (py "head_flags")) eqn:E; apply Ok_inj in H; subst w; [|destruct T]. cbn [write_target] in T. subst t. eapply P; [|exact E]. vm_compute. tauto.
  - apply Ok_inj in H. subst w. destruct T.
  - destruct (str_eqb k (py "head_flags")) eqn:E; [apply Ok_inj in H; subst w; cbn [write_target] in T; subst t; eapply P; [|exact E]; vm_compute; tauto|].
    destruct (str_eqb k (py "Codepages")) eqn:E'; [|apply Ok_inj in H; subst w; destruct T].
    destruct (code_pages range1 range2) as [r|]; [|discriminate]. apply Ok_inj in H. subst w. destruct r; [destruct T|].
    cbn [write_target] in T. subst t. eapply P; [|exact E']. vm_compute. tauto.
Qed.
Lemma targets_nodup : NoDup (map snd targets).
Proof.
  apply (NoDup_count_occ' (fun a b : bool * pystr => ltac:(decide equality; [apply (list_eq_dec Z.eq_dec)|apply Bool.bool_dec]))).
  intros x I. vm_compute in I. repeat (destruct I as [<-|I]; [vm_compute; reflexivity|]). destruct I.
Qed.
Lemma nodup_snd : forall A B (l : list (A * B)) a a' b, NoDup (map snd l) -> In (a, b) l -> In (a', b) l -> a = a'.
Proof.
  induction l as [|[x y] l IH]; intros a a' b N I J; [destruct I|]. cbn [map snd] in N. inversion N as [|? ? M N']; subst.
  destruct I as [I|I], J as [J|J].
  - congruence.
  - injection I as -> ->. exfalso. apply M. apply in_map_iff. exists (a', b). auto.
  - injection J as -> ->. exfalso. apply M. apply in_map_iff. exists (a, b). auto.
  - eapply IH; eassumption.
Qed.
Lemma write_same : forall w i j, same_info i j -> same_info (apply_write w i) (apply_write w j).
Proof. intros [|k v|k v] i j S; [exact S|apply info_set; exact S|apply info_set_lib; exact S]. Qed.
Lemma write_swap : forall w w' i j, (forall t, write_target w t -> write_target w' t -> False) -> same_info i j ->
  same_info (apply_write w (apply_write w' i)) (apply_write w' (apply_write w j)).
Proof.
  intros w w' i j D S. destruct w as [|k v|k v]; [cbn [apply_write]; apply write_same; exact S| |]; destruct w' as [|l u|l u]; cbn [apply_write].
  - apply info_set, S.
  - destruct S as [A L]. split; [|exact L]. cbn [if_attrs setattr]. apply dict_swap; [|exact A].
    intros ->. eapply D; cbn; reflexivity.
  - destruct S as [A L]. split; [apply dict_set; exact A|]. cbn [if_lib setattr set_tt_instructions same_option].
    destruct (if_lib i), (if_lib j); cbn in L; try tauto; apply dict_set; [exact L|apply dict_refl, format_nodup].
  - apply info_set_lib, S.
  - destruct S as [A L]. split; [apply dict_set; exact A|]. cbn [if_lib setattr set_tt_instructions same_option].
    destruct (if_lib i), (if_lib j); cbn in L; try tauto; apply dict_set; [exact L|apply dict_refl, format_nodup].
  - destruct S as [A L]. split; [exact A|]. cbn [if_lib set_tt_instructions same_option].
    assert (N : k <> l) by (intros ->; eapply D; cbn; reflexivity).
    destruct (if_lib i), (if_lib j); cbn in L; try tauto; apply dict_swap; try exact N; [exact L|apply dict_refl, format_nodup].
Qed.
Lemma tt_info_perm : forall d e, Permutation d e -> NoDup (map fst d) -> forall i j r, same_info i j -> set_tt_info i d = Ok r ->
  exists r', set_tt_info j e = Ok r' /\ same_info r r'.
Proof.
  induction 1 as [|kv d e P IH|a b d|d e f P1 IH1 P2 IH2]; intros N i j r S H.
  - apply Ok_inj in H. subst r. exists j. split; [reflexivity|exact S].
  - cbn [map] in N. inversion N as [|? ? _ N']; subst. cbn [set_tt_info] in *. rewrite item_is_write in *.
    destruct (item_write kv) as [w|x]; [|discriminate]. cbn [rmap rthen] in *.
    eapply IH; [exact N'|apply write_same; exact S|exact H].
  - cbn [map] in N. inversion N as [|? ? Na N']; subst. cbn [set_tt_info] in *. rewrite item_is_write in *.
    destruct (item_write b) as [w|x] eqn:Wb; [|discriminate]. cbn [rmap rthen] in *. rewrite item_is_write in *.
    destruct (item_write a) as [w'|x] eqn:Wa; [|discriminate]. cbn [rmap rthen] in *. rewrite item_is_write, Wb. cbn [rmap rthen].
    assert (Sw : same_info (apply_write w' (apply_write w i)) (apply_write w (apply_write w' j))).
    { apply write_swap; [|exact S]. intros t T T'. apply Na. left.
      rewrite (nodup_snd _ _ targets (fst a) (fst b) t targets_nodup); [reflexivity| |].
      - eapply write_targets; eassumption.
      - eapply write_targets; eassumption. }
    revert H Sw. generalize (apply_write w' (apply_write w i)) (apply_write w (apply_write w' j)). clear. revert r.
    induction d as [|kv d IH]; intros r i j H S; cbn [set_tt_info] in *.
    + apply Ok_inj in H. subst r. exists j. split; [reflexivity|exact S].
    + rewrite item_is_write in *. destruct (item_write kv) as [v|x]; [|discriminate]. cbn [rmap rthen] in *.
      eapply IH; [exact H|apply write_same; exact S].
  - destruct (IH1 N i i r (info_refl _ _ S) H) as (r1 & E1 & S1).
    assert (N2 : NoDup (map fst e)) by (eapply Permutation_NoDup; [apply Permutation_map; exact P1|exact N]).
    destruct (IH2 N2 i j r1 S E1) as (r2 & E2 & S2). exists r2. split; [exact E2|]. eapply info_trans; eassumption.
Qed.

(** the other changes of the font info *)
Lemma dict_eqb_same : forall d e f, same_dict d e -> dict_eqb d f = dict_eqb e f.
Proof.
  intros d e f S. unfold dict_eqb. rewrite (Permutation_length (proj2 S)). f_equal.
  induction f as [|kv f IH]; [reflexivity|]. cbn [forallb]. rewrite (dict_get _ _ _ S), IH. reflexivity.
Qed.
Lemma drop_same : forall i j, same_info i j -> same_info (drop_default i) (drop_default j).
Proof.
  intros i j [A L]. unfold drop_default. destruct (if_lib i) as [d|] eqn:D, (if_lib j) as [e|] eqn:E; cbn in L; try tauto.
  - rewrite (dict_eqb_same _ _ _ L). destruct (dict_eqb e default_tt_lib); (split; [exact A|]); cbn [if_lib same_option]; [exact I|].
    rewrite D, E. exact L.
  - split; [exact A|]. rewrite D, E. exact I.
Qed.
Lemma underline_same : forall i j r, same_info i j -> fix_underline_position i = Ok r ->
  exists r', fix_underline_position j = Ok r' /\ same_info r r'.
Proof.
  intros i j r S H. unfold fix_underline_position in *. rewrite <- !(dict_get _ _ _ (proj1 S)).
  destruct (aget str_eqb (py "postscriptUnderlinePosition") (if_attrs i)) as [[]|];
    destruct (aget str_eqb (py "postscriptUnderlineThickness") (if_attrs i)) as [[]|]; try discriminate;
    apply Ok_inj in H; subst r; eexists; (split; [reflexivity|]); try exact S; apply info_set; exact S.
Qed.
Lemma master_same : forall ps n infos m i j r, same_info i j -> get_master_info ps n infos m i = Ok r ->
  exists r', get_master_info ps n infos m j = Ok r' /\ same_info r r'.
Proof.
  intros ps n infos m i j r S H. unfold get_master_info in *. destruct (py_index infos m) as [p|]; [|discriminate]. cbn [rmap] in *.
  apply Ok_inj in H. subst r. eexists. split; [reflexivity|]. 
  assert (C : forall a k l x y, same_info x y -> same_info (set_clipped a k l x) (set_clipped a k l y)).
  { intros a k l x y Sx. unfold set_clipped. destruct (k =? 0); [exact Sx|apply info_set; exact Sx]. }
  destruct ps; repeat (first [apply C|apply info_set]); exact S.
Qed.
Lemma tt_info_same : forall d i j r, same_info i j -> set_tt_info i d = Ok r -> exists r', set_tt_info j d = Ok r' /\ same_info r r'.
Proof.
  induction d as [|kv d IH]; intros i j r S H; cbn [set_tt_info] in *.
  - apply Ok_inj in H. subst r. exists j. split; [reflexivity|exact S].
  - rewrite item_is_write in *. destruct (item_write kv) as [v|x]; [|discriminate]. cbn [rmap rthen] in *.
    eapply IH; [apply write_same; exact S|exact H].
Qed.
Lemma fixed_pitch_same : forall z i j, same_info i j -> same_info (set_fixed_pitch z i) (set_fixed_pitch z j).
Proof. intros z i j S. unfold set_fixed_pitch. repeat first [exact S|apply info_set|match goal with |- context [if ?b then _ else _] => destruct b end]. Qed.
Lemma weight_same : forall z i j, same_info i j -> same_info (set_weight_class z i) (set_weight_class z j).
Proof. intros z i j S. unfold set_weight_class. repeat first [exact S|apply info_set|match goal with |- context [if ?b then _ else _] => destruct b end]. Qed.
Lemma selection_same : forall z i j r, same_info i j -> set_selection z i = Ok r -> exists r', set_selection z j = Ok r' /\ same_info r r'.
Proof.
  intros z i j r S H. unfold set_selection in *. destruct (binaryToIntList z 0) as [l|]; [|discriminate]. cbn [rmap] in *.
  apply Ok_inj in H. subst r. eexists. split; [reflexivity|]. destruct (style_parts l); repeat apply info_set; exact S.
Qed.
Lemma info_case_same : forall k d i j r, same_info i j -> info_case k d i = Ok r -> exists r', info_case k d j = Ok r' /\ same_info r r'.
Proof.
  intros k d i j r S H. unfold info_case in *.
  repeat match type of H with
         | (if ?b then _ else _) = _ => destruct b
         end.
  - destruct (as_val d); [|discriminate]. apply Ok_inj in H. subst r. eexists. split; [reflexivity|]. repeat apply info_set; exact S.
  - destruct d as [[]| | |]; try discriminate. apply Ok_inj in H. subst r. eexists. split; [reflexivity|]. apply fixed_pitch_same, S.
  - destruct d as [[]| | |]; try discriminate. apply Ok_inj in H. subst r. eexists. split; [reflexivity|]. apply weight_same, S.
  - destruct (as_val d); [|discriminate]. apply Ok_inj in H. subst r. eexists. split; [reflexivity|]. repeat apply info_set; exact S.
  - destruct (as_val d); [|discriminate]. apply Ok_inj in H. subst r. eexists. split; [reflexivity|]. repeat apply info_set; exact S.
  - destruct d as [[]| | |]; try discriminate. apply Ok_inj in H. subst r. eexists. split; [reflexivity|]. apply info_set, S.
  - destruct d as [[]| | |]; try discriminate. eapply tt_info_same; eassumption.
  - destruct d as [[]| | |]; try discriminate. unfold set_tt_gasp in *. destruct (gasp_records l); [|discriminate]. cbn [rmap] in *.
    apply Ok_inj in H. subst r. eexists. split; [reflexivity|]. apply info_set, S.
  - destruct d as [[]| | |]; try discriminate. eapply selection_same; eassumption.
  - destruct (as_val d); [|discriminate]. apply Ok_inj in H. subst r. eexists. split; [reflexivity|]. repeat apply info_set; exact S.
  - apply Ok_inj in H. subst r. exists j. split; [reflexivity|exact S].
Qed.
Lemma info_turn_same : forall c e i j r, same_info i j -> info_turn c i e = Ok r -> exists r', info_turn c j e = Ok r' /\ same_info r r'.
Proof.
  intros c [k d] i j r S H. unfold info_turn in *.
  destruct (k =? 1261); [|destruct (k =? 1262); [|destruct (k =? 1263)]].
  - destruct d; try discriminate. unfold set_tt_cvt in *. destruct (deHexStr x); [|discriminate]. cbn [rthen] in *.
    destruct (unpack_h _); [|discriminate]. apply Ok_inj in H. subst r. eexists. split; [reflexivity|]. apply info_set_lib, S.
  - destruct d; try discriminate. unfold set_tt_program in *. destruct (deHexStr x); [|discriminate]. cbn [rthen] in *.
    destruct (format_bytes _ _); [|discriminate]. apply Ok_inj in H. subst r. eexists. split; [reflexivity|]. apply info_set_lib, S.
  - destruct d; try discriminate. unfold set_tt_program in *. destruct (deHexStr x); [|discriminate]. cbn [rthen] in *.
    destruct (format_bytes _ _); [|discriminate]. apply Ok_inj in H. subst r. eexists. split; [reflexivity|]. apply info_set_lib, S.
  - destruct (existsb (Z.eqb k) info_keys); [|apply Ok_inj in H; subst r; exists j; split; [reflexivity|exact S]].
    unfold info_step in *. cbn [andb] in *. destruct (aget Z.eqb k info_mapping).
    { destruct (as_val (info_data d)); [|discriminate]. apply Ok_inj in H. subst r. eexists. split; [reflexivity|]. apply info_set, S. }
    eapply info_case_same; eassumption.
Qed.

(** ** TrueType zones *)
Definition same_tt (t u : tt_state) : Prop :=
  ex_ppms_h t = ex_ppms_h u /\ ex_ppms_v t = ex_ppms_v u /\ ex_stems_h t = ex_stems_h u /\ ex_stems_v t = ex_stems_v u /\
  Forall2 same_zone (ex_zones t) (ex_zones u) /\ ex_zone_names t = ex_zone_names u /\ ex_side_names t = ex_side_names u.
Lemma zone_keys : forall z z', Forall2 same_zone z z' -> map fst z = map fst z'.
Proof. induction 1 as [|p q z z' S F IH]; [reflexivity|]. cbn [map]. rewrite IH. f_equal. apply S. Qed.
Lemma zone_refl : forall p q, same_zone p q -> same_zone p p.
Proof.
  intros p q (A & B & C & D & E). do 4 (split; [reflexivity|]). eapply option_refl; [exact E|]. intros a b H. apply dict_refl, H.
Qed.
Lemma turns_in_range : forall names d z r, res_fold (delta_turn names) z d = Ok r ->
  Forall (fun x => 0 <= fst x -> fst x < Z.of_nat (List.length names)) d.
Proof.
  intros names. induction d as [|x d IH]; intros z r H; constructor.
  - cbn [res_fold] in H. unfold delta_turn in H at 1. destruct (py_index names (fst x)) as [n|] eqn:E; [|discriminate].
    intros P. unfold py_index in E. cbv zeta in E. destruct (fst x <? 0) eqn:N; [lia|].
    destruct (_ <=? fst x) eqn:G; [rewrite orb_true_r in E; discriminate|]. lia.
  - cbn [res_fold] in H. destruct (delta_turn names z x); [|discriminate]. eapply IH. exact H.
Qed.
Lemma texts_same : forall m m' : list (Z * Z), NoDup (map fst m) -> NoDup (map fst m') -> (forall k, aget Z.eqb k m = aget Z.eqb k m') ->
  same_dict (delta_texts m) (delta_texts m').
Proof.
  intros m m' N N' H. rewrite !delta_texts_ok by assumption. split.
  - rewrite map_map. cbn [fst]. rewrite <- (map_map fst dec_str). apply FinFun.Injective_map_NoDup; [|exact N]. intros a b. apply dec_str_inj.
  - apply Permutation_map. apply (get_perm Z.eqb Z.eqb_eq); assumption.
Qed.
Definition deltas_nodup (d : zone_deltas) : Prop := NoDup (map fst d) /\ Forall (fun zs => NoDup (map fst (snd zs))) d.
Lemma deltas_same : forall d d' z z' r, deltas_nodup d -> deltas_nodup d' -> same_deltas d d' -> Forall (fun x => 0 <= fst x) d ->
  Forall2 same_zone z z' -> NoDup (map fst z) -> res_fold (delta_turn (map fst z)) z d = Ok r ->
  exists r', res_fold (delta_turn (map fst z')) z' d' = Ok r' /\ Forall2 same_zone r r' /\ map fst r = map fst z.
Proof.
  intros d d' z z' r W W' S P F N H.
  assert (R : Forall (fun x : Z * list (Z * Z) => 0 <= fst x < Z.of_nat (List.length z)) d).
  { pose proof (turns_in_range _ _ _ _ H) as T. rewrite map_length in T. rewrite Forall_forall in *.
    intros x I. specialize (T x I). specialize (P x I). split; [exact P|]. apply T, P. }
  assert (R' : Forall (fun x : Z * list (Z * Z) => 0 <= fst x < Z.of_nat (List.length z')) d').
  { rewrite <- (Forall2_length _ _ _ _ _ F). rewrite Forall_forall in *. intros [i m] I. cbn [fst].
    specialize (S i). rewrite (In_aget Z.eqb Z.eqb_eq _ _ _ (proj1 W') I) in S.
    destruct (aget Z.eqb i d) as [m'|] eqn:G; [|contradiction]. apply (aget_In Z.eqb Z.eqb_eq) in G. apply (R (i, m')). exact G. }
  rewrite (deltas_ok_fold d z N (proj1 W) R) in H. apply Ok_inj in H. subst r.
  rewrite deltas_ok_fold; [|rewrite <- (zone_keys _ _ F); exact N|apply W'|exact R']. eexists. split; [reflexivity|].
  split; [|apply mapi_fst; reflexivity]. clear R R' N P. generalize O as k. induction F as [|p q z z' Sz F IH]; intros k; [constructor|].
  cbn [mapi]. constructor; [|apply IH]. destruct Sz as (A & B & C & D & E). unfold same_zone. cbn [fst snd]. split; [exact A|].
  unfold delta_at. specialize (S (Z.of_nat k)). 
  destruct (aget Z.eqb (Z.of_nat k) d) as [m|] eqn:G, (aget Z.eqb (Z.of_nat k) d') as [m'|] eqn:G'; try contradiction; [|auto].
  unfold put_delta. cbn [uz_position uz_top uz_width uz_delta same_option]. do 3 (split; [assumption|]).
  apply texts_same; [| |exact S].
  - apply (aget_In Z.eqb Z.eqb_eq) in G. destruct W as [_ W]. rewrite Forall_forall in W. apply (W _ G).
  - apply (aget_In Z.eqb Z.eqb_eq) in G'. destruct W' as [_ W']. rewrite Forall_forall in W'. apply (W' _ G').
Qed.

(** ** Entries *)
Definition near_glyphs (x y : glyph) : Prop :=
  (forall minimal ps, rmap fst (build_mm_glyph minimal ps x) = rmap fst (build_mm_glyph minimal ps y)) /\
  or_nil (g_kerning x) = or_nil (g_kerning y).
Inductive near : Z * value -> Z * value -> Prop :=
| near_eq : forall e, fst e <> 1273 -> near e e
| near_glyph : forall x y, near_glyphs x y -> near (2001, DGlyph x) (2001, DGlyph y)
| near_info : forall x y, NoDup (map fst x) -> Permutation x y -> near (1264, DTTInfo x) (1264, DTTInfo y)
| near_deltas : forall x y, deltas_nodup x -> deltas_nodup y -> same_deltas x y -> Forall (fun zs => 0 <= fst zs) x ->
    near (1273, DDeltas x) (1273, DDeltas y).
Lemma near_info_fold : forall c l l', Forall2 near l l' -> forall i j r, same_info i j -> res_fold (info_turn c) i l = Ok r ->
  exists r', res_fold (info_turn c) j l' = Ok r' /\ same_info r r'.
Proof.
  intros c l l' F. induction F as [|e e' l l' N F IH]; intros i j r S H; cbn [res_fold] in *.
  - apply Ok_inj in H. subst r. exists j. split; [reflexivity|exact S].
  - destruct (info_turn c i e) as [i1|] eqn:E; [|discriminate]. cbn [rthen] in H.
    assert (X : exists j1, info_turn c j e' = Ok j1 /\ same_info i1 j1).
    { destruct N as [e _|x y _|x y Nx P|x y _ _ _ _].
      - eapply info_turn_same; eassumption.
      - apply Ok_inj in E. subst i1. exists j. split; [reflexivity|exact S].
      - eapply tt_info_perm; [exact P|exact Nx|exact S|exact E].
      - apply Ok_inj in E. subst i1. exists j. split; [reflexivity|exact S]. }
    destruct X as (j1 & -> & S1). cbn [rthen]. eapply IH; eassumption.
Qed.
Lemma near_glyph_parts : forall c l l', Forall2 near l l' -> forall z, glyph_parts c z l = glyph_parts c z l'.
Proof.
  intros c l l' F. induction F as [|e e' l l' N F IH]; intros z; [reflexivity|]. cbn [glyph_parts].
  destruct N as [e _|x y [G K]|x y _ _|x y _ _ _ _]; rewrite IH; try reflexivity.
  change (zones_of (2001, DGlyph x) z) with (zones_of (2001, DGlyph y) z). f_equal. cbn [glyph_part].
  specialize (G (st_minimal c) (st_ps_hints c)). unfold or_nil in K. rewrite K.
  destruct (build_mm_glyph (st_minimal c) (st_ps_hints c) x) as [[g d]|], (build_mm_glyph (st_minimal c) (st_ps_hints c) y) as [[g' d']|];
    cbn [rmap fst] in G; try discriminate G; [|reflexivity].
  apply Ok_inj in G. subst g'. reflexivity.
Qed.
Lemma near_flat : forall A (f : Z * value -> list A), (forall e e', near e e' -> f e = f e') ->
  forall l l', Forall2 near l l' -> flat_map f l = flat_map f l'.
Proof. intros A f H l l' F. induction F as [|e e' l l' N F IH]; [reflexivity|]. cbn [flat_map]. rewrite (H _ _ N), IH. reflexivity. Qed.
Lemma near_fold : forall A (f : A -> Z * value -> A), (forall a e e', near e e' -> f a e = f a e') ->
  forall l l', Forall2 near l l' -> forall a, fold_left f l a = fold_left f l' a.
Proof. intros A f H l l' F. induction F as [|e e' l l' N F IH]; intros a; [reflexivity|]. cbn [fold_left]. rewrite (H _ _ _ N). apply IH. Qed.
Ltac nears := let N := fresh in intros ? ? N; destruct N; reflexivity.
Definition names_of (e : Z * value) : list pystr := zone_names (fst e, Some (snd e)).
Lemma stem_same : forall x t u r, stem_part x = true -> same_tt t u -> tt_add t x = Ok r -> 
  exists r', tt_add u x = Ok r' /\ same_tt r r' /\ ex_zones r = ex_zones t /\ ex_zone_names r = ex_zone_names t.
Proof.
  intros x t u r P (A & B & C & D & E & F & G) H.
  assert (U : u = put_zones u t). { destruct t, u. cbn in *. subst. reflexivity. }
  rewrite U, stem_add by exact P. rewrite H. eexists. split; [reflexivity|].
  rewrite <- (put_self t), stem_add in H by exact P. destruct (tt_add t x) as [r0|]; [|discriminate]. apply Ok_inj in H. subst r.
  unfold put_zones. cbn [ex_zones ex_zone_names]. split; [|auto]. unfold same_tt. cbn. auto 10.
Qed.
Lemma new_zones_same : forall l top, Forall2 same_zone (map (fun z => (tz_name z, UZone (tz_position z) top (tz_value z) None)) l)
  (map (fun z => (tz_name z, UZone (tz_position z) top (tz_value z) None)) l).
Proof. induction l as [|z l IH]; intros top; cbn [map]; constructor; [|apply IH]. unfold same_zone. cbn. auto. Qed.
Lemma tt_part_cases : forall e, fst e <> 1273 ->
  (tt_part e = [] /\ names_of e = []) \/ (exists x, tt_part e = [x] /\ stem_part x = true /\ names_of e = []) \/ exists d, e = (1255, DZones d).
Proof.
  intros [k d] Ne. cbn [fst] in Ne. unfold names_of. cbn [fst snd].
  destruct (Z.eq_dec k 1268) as [->|]; [destruct d; first [left; split; reflexivity|right; left; eexists; split; [reflexivity|split; reflexivity]]|].
  destruct (Z.eq_dec k 1524) as [->|]; [destruct d; first [left; split; reflexivity|right; left; eexists; split; [reflexivity|split; reflexivity]]|].
  destruct (Z.eq_dec k 1269) as [->|]; [destruct d; first [left; split; reflexivity|right; left; eexists; split; [reflexivity|split; reflexivity]]|].
  destruct (Z.eq_dec k 1255) as [->|]; [destruct d; first [left; split; reflexivity|right; right; eexists; reflexivity]|].
  left. destruct k as [|k|k]; [split; reflexivity| |split; reflexivity].
  split; repeat (match goal with p : positive |- _ => destruct p end; try reflexivity; try congruence).
Qed.
Lemma near_tt : forall l l', Forall2 near l l' -> forall t u r, same_tt t u -> map fst (ex_zones t) = ex_zone_names t ->
  NoDup (ex_zone_names t ++ flat_map names_of l) -> res_fold tt_add t (flat_map tt_part l) = Ok r ->
  exists r', res_fold tt_add u (flat_map tt_part l') = Ok r' /\ same_tt r r'.
Proof.
  intros l l' F. induction F as [|e e' l l' N F IH]; intros t u r S M D H; cbn [flat_map] in *.
  - apply Ok_inj in H. subst r. exists u. split; [reflexivity|exact S].
  - rewrite res_fold_app in *.
    assert (K : forall t1 u1, res_fold tt_add t (tt_part e) = Ok t1 -> res_fold tt_add u (tt_part e') = Ok u1 -> same_tt t1 u1 ->
      map fst (ex_zones t1) = ex_zone_names t1 -> ex_zone_names t1 = ex_zone_names t ++ names_of e ->
      exists r', rthen (res_fold tt_add u (tt_part e')) (fun b => res_fold tt_add b (flat_map tt_part l')) = Ok r' /\ same_tt r r').
    { intros t1 u1 E1 E2 S1 M1 N1. rewrite E1 in H. rewrite E2. cbn [rthen] in *. eapply IH; [exact S1|exact M1| |exact H].
      rewrite N1, <- app_assoc. exact D. }
    destruct N as [e Ne|x y _|x y _ _|x y W W' Sd P].
    + destruct (tt_part_cases e Ne) as [[Te Z]|[(x & Te & Px & Z)|(d & ->)]].
      * apply (K t u); rewrite ?Te; try reflexivity; [exact S|exact M|]. rewrite Z, app_nil_r. reflexivity.
      * rewrite Te in *. cbn [res_fold] in *. destruct (tt_add t x) as [t1|] eqn:E; [|discriminate]. 
        destruct (stem_same x t u t1 Px S E) as (u1 & Eu & S1 & Z1 & N1). rewrite Eu in *.
        apply (K t1 u1); try reflexivity; [exact S1|congruence|]. rewrite Z, app_nil_r. exact N1.
      * cbn [tt_part res_fold tt_add] in *. destruct (set_tt_zones d t) as [t1|] eqn:E; [|discriminate]. cbn [rthen] in H.
        unfold names_of in K, D. cbn [fst snd zone_names] in K, D. unfold set_tt_zones in E.
        destruct (tz_bottom d) as [b|] eqn:Eb; [|discriminate]. cbn [opt_res rthen] in *.
        destruct (tz_top d) as [v|] eqn:Et; [|discriminate]. cbn [opt_res rmap or_nil] in *. apply Ok_inj in E.
        destruct S as (S1 & S2 & S3 & S4 & S5 & S6 & S7).
        assert (X : forall t, map fst (ex_zones t) = ex_zone_names t -> NoDup (ex_zone_names t ++ (map tz_name b ++ map tz_name v) ++ flat_map names_of l) ->
          fold_left (zone_turn true) v (fold_left (zone_turn false) b (ex_zones t, ex_zone_names t)) =
          (ex_zones t ++ map (fun z => (tz_name z, UZone (tz_position z) false (tz_value z) None)) b
             ++ map (fun z => (tz_name z, UZone (tz_position z) true (tz_value z) None)) v,
           ex_zone_names t ++ map tz_name b ++ map tz_name v)).
        { clear. intros t M D. rewrite app_assoc in D. apply NoDup_left in D. rewrite zone_fold.
          - rewrite zone_fold; [rewrite <- !app_assoc; reflexivity|]. rewrite map_app, map_map. cbn [fst]. rewrite M, <- app_assoc. exact D.
          - rewrite M. rewrite app_assoc in D. eapply NoDup_left. exact D. }
        rewrite (X t M D) in E. cbn [fst snd] in E.
        pose proof (X u) as Xu. rewrite <- S6, <- (zone_keys _ _ S5) in Xu. specialize (Xu M D). subst t1.
        assert (Eu : set_tt_zones d u = Ok (TtState (ex_ppms_h u) (ex_ppms_v u) (ex_stems_h u) (ex_stems_v u)
            (ex_zones u ++ map (fun z => (tz_name z, UZone (tz_position z) false (tz_value z) None)) b
               ++ map (fun z => (tz_name z, UZone (tz_position z) true (tz_value z) None)) v)
            (ex_zone_names t ++ map tz_name b ++ map tz_name v) (Some (map tz_name v, map tz_name b)))).
        { unfold set_tt_zones. rewrite Eb, Et. cbn [opt_res rthen rmap]. rewrite <- S6, Xu. reflexivity. }
        eapply K; [reflexivity|rewrite Eu; reflexivity| | |].
        -- unfold same_tt. cbn [ex_ppms_h ex_ppms_v ex_stems_h ex_stems_v ex_zones ex_zone_names ex_side_names fst snd].
           do 4 (split; [assumption|]). split; [|auto]. apply Forall2_app; [exact S5|]. apply Forall2_app; apply new_zones_same.
        -- cbn [ex_zones ex_zone_names]. rewrite !map_app, !map_map. cbn [fst]. rewrite M. reflexivity.
        -- reflexivity.
    + apply (K t u); try reflexivity; [exact S|exact M|]. cbn. rewrite app_nil_r. reflexivity.
    + apply (K t u); try reflexivity; [exact S|exact M|]. cbn. rewrite app_nil_r. reflexivity.
    + cbn [tt_part res_fold tt_add] in *. destruct (set_tt_zone_deltas x t) as [t1|] eqn:E; [|discriminate]. cbn [rthen] in H.
      unfold set_tt_zone_deltas in E. destruct (res_fold (delta_turn (ex_zone_names t)) (ex_zones t) x) as [z|] eqn:Ez; [|discriminate].
      cbn [rmap] in E. apply Ok_inj in E. destruct S as (S1 & S2 & S3 & S4 & S5 & S6 & S7).
      rewrite <- M in Ez.
      destruct (deltas_same x y (ex_zones t) (ex_zones u) z W W' Sd P S5) as (z' & Ez' & Sz & Kz); [rewrite M; eapply NoDup_left; exact D|exact Ez|].
      assert (Eu : set_tt_zone_deltas y u = Ok (TtState (ex_ppms_h u) (ex_ppms_v u) (ex_stems_h u) (ex_stems_v u) z' (ex_zone_names u) (ex_side_names u))).
      { unfold set_tt_zone_deltas. rewrite <- S6, <- M, (zone_keys _ _ S5), Ez'. reflexivity. }
      subst t1. eapply K.
      * reflexivity.
      * rewrite Eu. reflexivity.
      * unfold same_tt. cbn. auto 10.
      * cbn [ex_zones ex_zone_names]. congruence.
      * cbn. rewrite app_nil_r. reflexivity.
Qed.

(** ** The font *)
Record same_font (s t : font) : Prop := SameFont {
  sf_info : same_info (fo_info s) (fo_info t);
  sf_glyphs : fo_glyphs s = fo_glyphs t;
  sf_tt : same_tt (fo_tt s) (fo_tt t);
  sf_options : fo_options s = fo_options t;
  sf_features : fo_features s = fo_features t;
  sf_groups : fo_groups s = fo_groups t;
  sf_flags : fo_flags s = fo_flags t;
  sf_guides : fo_guides s = fo_guides t;
  sf_props : fo_props s = fo_props t;
  sf_counts : fo_counts s = fo_counts t;
  sf_design : fo_design s = fo_design t;
  sf_lib : fo_lib s = fo_lib t }.
Lemma new_info_same : same_info new_info new_info.
Proof.
  split; [|exact Coq.Init.Logic.I]. apply dict_refl.
  apply (NoDup_count_occ' (list_eq_dec Z.eq_dec)).
  intros x H. vm_compute in H. repeat (destruct H as [<-|H]; [vm_compute; reflexivity|]). destruct H.
Qed.
Lemma complete_near : forall l l', Forall2 near l l' -> glyphs_complete l -> glyphs_complete l'.
Proof.
  intros l l' F G y H. induction F as [|e e' l l' N F IH]; [destruct H|].
  destruct H as [->|H]; [|apply IH; [intros x I; apply G; right; exact I|exact H]].
  inversion N as [e0 Ne|x y0 [X _] E1 E2|x y0 A1 A2 E1 E2|x y0 A1 A2 A3 A4 E1 E2]; subst.
  - apply G. left. reflexivity.
  - assert (C : complete x) by (apply G; left; reflexivity). destruct C as (C1 & C2 & C3). specialize (X false false).
    unfold build_mm_glyph in X. unfold complete. 
    destruct (g_name x), (g_metrics x), (g_nodes x); try congruence. cbn [get_key rthen rmap] in X.
    destruct (g_name y), (g_metrics y), (g_nodes y); cbn [get_key rthen rmap] in X; try discriminate X.
    repeat split; discriminate.
Qed.
Lemma near_build : forall c es es' s, Forall typed es -> Forall typed es' ->
  let l := used (st_vfb_minimal c) es in let l' := used (st_vfb_minimal c) es' in
  Forall2 near l l' -> NoDup (flat_map names_of l) -> build_font c es = Ok s ->
  exists s', build_font c es' = Ok s' /\ same_font s s'.
Proof.
  intros c es es' s T T' l l' F D B. unfold build_font in B.
  destruct (res_fold (build_step c) new_font es) as [f|] eqn:Ef; [|discriminate]. cbn [rthen] in B.
  pose proof (built_complete _ _ _ _ Ef) as G. pose proof (complete_near _ _ F G) as G'.
  pose proof (loop_parts c es new_font T (complete_glyphs_ok c _ G)) as P. rewrite Ef in P.
  pose proof (loop_parts c es' new_font T' (complete_glyphs_ok c _ G')) as P'. fold l in P. fold l' in P'. destruct P.
  destruct (near_info_fold c l l' F _ _ _ new_info_same l_info) as (i & Ei & Si). change new_info with (fo_info new_font) in Ei.
  assert (Et : exists t, res_fold tt_add (fo_tt new_font) (flat_map tt_part l') = Ok t /\ same_tt (fo_tt f) t).
  { eapply near_tt; [exact F| | | |exact l_tt].
    - unfold same_tt. cbn. auto 10.
    - reflexivity.
    - exact D. }
  destruct Et as (t & Et & St).
  pose proof (near_glyph_parts c l l' F) as Eg.
  assert (Ec : flat_map class_part l = flat_map class_part l') by (apply near_flat; [nears|exact F]).
  assert (Ed : flat_map design_part l = flat_map design_part l') by (apply near_flat; [nears|exact F]).
  rewrite Eg in l_glyphs. rewrite Ec in l_groups. rewrite Ed in l_design.
  unfold build_font. destruct (res_fold (build_step c) new_font es') as [f'|x].
  2:{ exfalso. destruct P'; congruence. }
  cbn [rthen]. destruct P'. 
  assert (Sf : same_font f f').
  { constructor; try congruence.
    - rewrite l_options, l_options0. f_equal. apply near_flat; [nears|exact F].
    - rewrite l_features, l_features0. do 2 f_equal. apply near_flat; [nears|exact F].
    - rewrite l_flags, l_flags0. f_equal. apply near_flat; [nears|exact F].
    - rewrite l_guides, l_guides0. do 2 f_equal. apply near_flat; [nears|exact F].
    - rewrite l_props, l_props0. f_equal. apply near_flat; [nears|exact F].
    - rewrite l_counts, l_counts0. apply near_fold; [|exact F]. intros ? ? ? N. destruct N; reflexivity.
    - rewrite l_lib, l_lib0. apply near_fold; [|exact F]. intros ? ? ? N. destruct N; reflexivity. }
  unfold finish, on_info in *. cbn [fo_info] in *.
  destruct (fix_underline_position (drop_default (fo_info f))) as [i1|] eqn:E1; [|discriminate]. cbn [rmap] in B. apply Ok_inj in B. subst s.
  destruct (underline_same _ _ _ (drop_same _ _ (sf_info _ _ Sf)) E1) as (i2 & E2 & S2). rewrite E2. cbn [rmap]. eexists. split; [reflexivity|].
  destruct Sf. constructor; cbn; try assumption. rewrite sf_glyphs0. reflexivity.
Qed.

(** ** The export *)
Lemma commands_same : forall o order t u l st, ex_stems_h t = ex_stems_h u -> ex_stems_v t = ex_stems_v u ->
  tt_glyph_lib o order t l st = tt_glyph_lib o order u l st.
Proof.
  intros o order t u l st H V. revert st. induction l as [|[name g] l IH]; intros st; [reflexivity|]. cbn [tt_glyph_lib].
  destruct (bg_data g) as [x z|]; [|apply IH]. destruct (mg_tth x); [|apply IH].
  unfold builder_stems. rewrite H, V.
  match goal with |- rthen ?e _ = _ => destruct e end; [|reflexivity]. cbn [rthen]. rewrite IH. reflexivity.
Qed.
Lemma hinting_same : forall s t, same_font s t -> same_option same_hinting (hinting_lib s) (hinting_lib t).
Proof.
  intros s t S. destruct S. destruct sf_tt0 as (_ & _ & H & V & Z & _ & _). unfold hinting_lib, build_tt_stems_lib. rewrite sf_options0, H, V.
  destruct Z as [|z z' l l' Sz F].
  - destruct (match fo_options t with Some l => l | None => [] end), (stems_lib true 0 (stems_lib false 0 [] (ex_stems_h (fo_tt t))) (ex_stems_v (fo_tt t)));
      cbn [same_option]; try exact Coq.Init.Logic.I; (split; [reflexivity|constructor]).
  - destruct (match fo_options t with Some l => l | None => [] end), (stems_lib true 0 (stems_lib false 0 [] (ex_stems_h (fo_tt t))) (ex_stems_v (fo_tt t)));
      cbn [same_option]; (split; [reflexivity|constructor; assumption]).
Qed.
Lemma masters_same : forall c o s t sh lib lib' commands, same_font s t -> same_lib lib lib' -> forall n m st us,
  ufo_masters c o s sh lib commands m n st = Ok us ->
  exists us', ufo_masters c o t sh lib' commands m n st = Ok us' /\ Forall2 same_ufo us us'.
Proof.
  intros c o s t sh lib lib' commands S L. induction n as [|n IH]; intros m st us H; cbn [ufo_masters] in *.
  - apply Ok_inj in H. subst us. exists []. split; [reflexivity|constructor].
  - destruct (get_ufo_master c o s sh lib commands m st) as [[u st1]|] eqn:E; [|discriminate]. cbn [rthen fst snd] in H.
    destruct (ufo_masters c o s sh lib commands (m + 1) n st1) as [us1|] eqn:E1; [|discriminate]. cbn [rmap] in H. apply Ok_inj in H. subst us.
    destruct (IH _ _ _ E1) as (us2 & E2 & F2).
    assert (X : exists v, get_ufo_master c o t sh lib' commands m st = Ok (v, st1) /\ same_ufo u v).
    { unfold get_ufo_master, ps_infos, font_guides in *. pose proof (sf_glyphs _ _ S) as Sg. rewrite <- Sg.
      rewrite <- (sf_guides _ _ S), <- (sf_props _ _ S), <- (sf_counts _ _ S).
      destruct (get_master_kerning (us_kerning sh) m) as [kerning|]; [|discriminate]. cbn [rthen] in *.
      destruct (get_master_info (st_ps_hints c) (fo_counts s) (flat_map (fun v => match v with VData (DPSInfo p) => [p] | _ => [] end) (bs_infos (fo_glyphs s))) m (fo_info s)) as [i|] eqn:Ei; [|discriminate].
      destruct (master_same _ _ _ _ _ _ _ (sf_info _ _ S) Ei) as (j & Ej & Sj). rewrite Ej. cbn [rthen] in *.
      destruct (if st_minimal c then Ok [] else match fo_guides s with Some g => extract_guides (op_number o) g (fo_props s) m | None => Ok [] end) as [guides|]; [|discriminate].
      cbn [rthen] in *. destruct (export_all c o (bs_order (fo_glyphs s)) m (bs_glyphs (fo_glyphs s)) commands st) as [[[gs ms] st2]|]; [|discriminate].
      cbn [rmap fst snd] in *. apply Ok_inj in E. injection E as <- <-. eexists. split; [reflexivity|].
      unfold same_ufo. cbn. auto 10. }
    destruct X as (v & Ev & Sv). rewrite Ev. cbn [rthen fst snd]. rewrite E2. cbn [rmap]. eexists. split; [reflexivity|]. constructor; assumption.
Qed.
Lemma export_same : forall c o s t us, same_font s t -> get_ufo_masters c o s = Ok us ->
  exists us', get_ufo_masters c o t = Ok us' /\ Forall2 same_ufo us us'.
Proof.
  intros c o s t us S H. unfold get_ufo_masters in *. pose proof S as S0. destruct S0.
  pose proof sf_tt0 as (_ & _ & Sh & Sv & _). rewrite <- sf_glyphs0, <- sf_features0, <- sf_groups0, <- sf_flags0, <- sf_lib0.
  rewrite (commands_same o (bs_order (fo_glyphs s)) (fo_tt s) (fo_tt t) _ _ Sh Sv) in H.
  destruct (tt_glyph_lib o (bs_order (fo_glyphs s)) (fo_tt t) (sorted_glyphs (bs_glyphs (fo_glyphs s))) (first_store (bs_glyphs (fo_glyphs s)))) as [[cmds st]|]; [|discriminate].
  cbn [rthen] in *. destruct (transform_groups (fo_groups s) (fo_flags s) (bs_order (fo_glyphs s)) (st_minimal c)) as [tg|]; [|discriminate].
  cbn [rthen] in *. destruct (export_shared (fo_groups s) (fo_flags s) (bs_order (fo_glyphs s)) (st_minimal c) (op_kerning_fea o) (op_move_fea o) (bs_kerning (fo_glyphs s)) (fo_features s)) as [sh|]; [|discriminate].
  cbn [rthen fst snd] in *. eapply masters_same; [exact S| |exact H].
  unfold same_lib. cbn. do 3 (split; [reflexivity|]). split; [apply hinting_same; exact S|]. split; [apply sf_info0|reflexivity].
Qed.

(** ** What is read *)
Definition ends {A} (r : rd A) (P : A -> Prop) : Prop := forall s a s', r s = ROk a s' -> P a.
Lemma ends_any : forall A (r : rd A), ends r (fun _ => True). Proof. intros A r s a s' _. exact Coq.Init.Logic.I. Qed.
Lemma ends_ret : forall A (a : A) (P : A -> Prop), P a -> ends (ret a) P. Proof. intros A a P H s b s' E. unfold ret in E. congruence. Qed.
Lemma ends_raise : forall A e (P : A -> Prop), ends (rraise e) P. Proof. intros A e P s b s' E. discriminate. Qed.
Lemma ends_lift : forall A (x : res A) (P : A -> Prop), (forall a, x = Ok a -> P a) -> ends (rlift x) P.
Proof. intros A x P H s a s' E. unfold rlift in E. destruct x as [y|]; [|discriminate]. injection E as <- _. apply H. reflexivity. Qed.
Lemma ends_bind : forall A B (r : rd A) (k : A -> rd B) P Q, ends r P -> (forall a, P a -> ends (k a) Q) -> ends (rbind r k) Q.
Proof. intros A B r k P Q Hr Hk s b s' E. unfold rbind in E. destruct (r s) as [a s1|] eqn:E1; [|discriminate]. eapply Hk; [eapply Hr; exact E1|exact E]. Qed.
Lemma ends_then : forall A B (r : rd A) (k : A -> rd B) Q, (forall a, ends (k a) Q) -> ends (rbind r k) Q.
Proof. intros A B r k Q H. eapply ends_bind; [apply ends_any|]. intros a _. apply H. Qed.
Lemma ends_if : forall A (b : bool) (r1 r2 : rd A) P, ends r1 P -> ends r2 P -> ends (if b then r1 else r2) P.
Proof. intros A [] r1 r2 P H1 H2; assumption. Qed.
Lemma ends_repeat : forall A (r : rd A) P n, ends r P -> ends (rrepeat n r) (fun l => List.length l = n /\ Forall P l).
Proof.
  intros A r P n H. induction n as [|n IH]; cbn [rrepeat]; [apply ends_ret; auto|].
  eapply ends_bind; [exact H|]. intros a Pa. eapply ends_bind; [exact IH|]. intros l [L F]. apply ends_ret. cbn. auto.
Qed.
Lemma ends_while : forall St A (body : St -> rd (St + A)) (I : St -> Prop) (P : A -> Prop),
  (forall st, I st -> ends (body st) (fun x => match x with inl st' => I st' | inr a => P a end)) ->
  forall fuel st, I st -> ends (rwhile fuel body st) P.
Proof.
  intros St A body I P H. induction fuel as [|f IH]; intros st Hst; cbn [rwhile]; [apply ends_raise|].
  eapply ends_bind; [apply H; exact Hst|]. intros [st'|a] Hx; [apply IH; exact Hx|apply ends_ret; exact Hx].
Qed.
Lemma ends_loop : forall St A (body : St -> rd (St + A)) (I : St -> Prop) (P : A -> Prop) st, I st ->
  (forall st, I st -> ends (body st) (fun x => match x with inl st' => I st' | inr a => P a end)) -> ends (rloop body st) P.
Proof. intros St A body I P st Hst H s a s' E. unfold rloop in E. eapply ends_while; eauto. Qed.
Lemma ends_times : forall St (I : St -> Prop) (f : St -> rd St) n st, I st -> (forall st, I st -> ends (f st) I) -> ends (rtimes n f st) I.
Proof. intros St I f. induction n as [|n IH]; intros st Hst H; cbn [rtimes]; [apply ends_ret; exact Hst|]. eapply ends_bind; [apply H; exact Hst|]. intros st' H'. apply IH; assumption. Qed.
Lemma ends_run : forall A (r : rd A) P data a, ends r P -> run_parser r data = Ok a -> P a.
Proof. intros A r P data a H E. unfold run_parser in E. destruct (r data) as [x [|]|] eqn:E1; [|discriminate|discriminate]. apply Ok_inj in E. subst x. eapply H. exact E1. Qed.

Lemma deltas_parsed : ends parse_zone_deltas deltas_nodup.
Proof.
  unfold parse_zone_deltas. apply ends_then. intros n. apply ends_times; [split; constructor|].
  intros d [N F]. unfold deltas_turn. apply ends_then. intros z. apply ends_then. intros p. apply ends_then. intros s. apply ends_ret.
  destruct (aget Z.eqb z d) as [m|] eqn:E.
  - split; [apply (aset_nodup Z.eqb Z.eqb_eq); exact N|]. apply zset_Forall; [exact F|]. cbn [snd]. apply (aset_nodup Z.eqb Z.eqb_eq).
    apply zget_in in E. rewrite Forall_forall in F. apply (F _ E).
  - split; [apply (aset_nodup Z.eqb Z.eqb_eq); exact N|]. apply zset_Forall; [exact F|]. cbn. repeat constructor. intros [].
Qed.

(** the commands of a glyph that was read have their parameters in the order of the table; the glyph has nodes if it has
    a number of masters *)
Definition ordered (i : instruction) : Prop := exists params, In (in_cmd i, params) hinting_commands /\ map fst (in_params i) = params.
Definition tidy (g : glyph) : Prop :=
  (g_num_masters g <> None -> g_nodes g <> None) /\ g_tth g <> Some [] /\ Forall ordered (or_nil (g_tth g)).
Lemma instruction_parsed : ends parse_instruction ordered.
Proof.
  unfold parse_instruction. apply ends_then. intros k. eapply ends_bind; [apply ends_lift; intros c Ec; exact Ec|]. cbv beta. intros [name params] Ec.
  eapply ends_bind; [apply (ends_repeat _ _ (fun _ => True)), ends_any|]. intros l [L _]. apply ends_ret. cbn [fst snd] in *. rewrite Nat2Z.id in L.
  unfold aget_res in Ec. destruct (aget Z.eqb k tt_commands) as [c|] eqn:G; [|discriminate]. apply Ok_inj in Ec. subst c.
  apply zget_in in G. exists params. split; [exact (tt_commands_known _ _ _ G)|]. cbn [in_params].
  apply (combine_split_id _ _ params l (eq_sym L)).
Qed.
Lemma glyph_parsed : forall o, ends (parse_glyph o) tidy.
Proof.
  intros o. unfold parse_glyph. apply ends_then. intros b. apply ends_then. intros _. apply (ends_loop _ _ _ tidy).
  - unfold tidy. cbn. repeat split; try congruence. constructor.
  - intros g HG. unfold glyph_turn. cbv zeta. apply ends_then. intros v.
    apply ends_if. { apply ends_then. intros s. apply ends_ret. exact HG. }
    apply ends_if. { apply ends_then. intros s. apply ends_ret. exact HG. }
    apply ends_if. { apply ends_then. intros h. apply ends_ret. unfold store_hints. destruct (mh_v h), (mh_h h), (mh_masks h); exact HG. }
    apply ends_if. { destruct (g_num_masters g) as [n|] eqn:En; [|apply ends_raise]. destruct (g_name g) eqn:Enm; [|apply ends_raise]. apply ends_then. intros s. apply ends_ret. exact HG. }
    apply ends_if. { apply ends_then. intros s. apply ends_ret. exact HG. }
    apply ends_if. { apply ends_then. intros s. apply ends_ret. exact HG. }
    apply ends_if. { apply ends_ret. exact HG. }
    apply ends_if. { apply ends_then. intros s. apply ends_ret. destruct HG as (_ & G2 & G3). split; [|split; assumption]. cbn. discriminate. }
    apply ends_if. { apply ends_then. intros s. apply ends_ret. exact HG. }
    apply ends_if.
    { eapply ends_bind.
      - unfold parse_instructions. apply ends_then. intros _. apply ends_then. intros n. eapply ends_bind; [apply ends_repeat, instruction_parsed|].
        intros l [_ F]. apply ends_then. intros _. apply ends_ret. exact F.
      - intros l F. apply ends_ret. destruct l; [exact HG|]. destruct HG as (G1 & _). split; [exact G1|]. cbn. split; [discriminate|exact F]. }
    apply ends_if. { apply ends_ret. exact HG. }
    apply ends_then. intros _. apply ends_raise.
Qed.
Lemma perm_ordered : forall (l m : list (pystr * Z)), NoDup (map fst l) -> map fst l = map fst m -> Permutation l m -> l = m.
Proof.
  induction l as [|[a b] l IH]; intros [|[a' b'] m] N E P; try discriminate; [reflexivity|].
  cbn [map fst] in *. injection E as <- E. inversion N as [|? ? Na N']; subst.
  assert (b = b').
  { assert (I : In (a, b) ((a, b') :: m)) by (eapply Permutation_in; [exact P|left; reflexivity]).
    destruct I as [I|I]; [congruence|]. exfalso. apply Na. rewrite E. apply in_map_iff. exists (a, b). auto. }
  subst b'. f_equal. apply IH; [exact N'|exact E|]. eapply Permutation_cons_inv. exact P.
Qed.
Lemma hinting_nodup : NoDup (map fst hinting_commands).
Proof.
  unfold hinting_commands. cbn [map fst].
  repeat (apply NoDup_cons; [cbn [In]; intros H; repeat (destruct H as [H|H]; [discriminate H|]); destruct H|]). apply NoDup_nil.
Qed.
Lemma instruction_eq : forall i j, ordered i -> ordered j -> same_instruction i j -> i = j.
Proof.
  intros [c p] [c' p'] (ps & I & E) (qs & J & E') [C P]. cbn [in_cmd in_params] in *. subst c'. f_equal.
  assert (D : forall n ps qs, In (n, ps) hinting_commands -> In (n, qs) hinting_commands -> ps = qs).
  { intros n x y A B. apply (In_aget str_eqb str_eqb_eq) in A; [|apply hinting_nodup]. apply (In_aget str_eqb str_eqb_eq) in B; [|apply hinting_nodup]. congruence. }
  assert (N : NoDup ps).
  { clear - I. unfold hinting_commands in I. cbn [In] in I.
    repeat (destruct I as [I|I]; [injection I as _ <-; repeat constructor; cbn; intuition discriminate|]). destruct I. }
  apply perm_ordered; [congruence| |exact P]. rewrite E, E'. eapply D; eassumption.
Qed.
Lemma instructions_eq : forall l m, Forall ordered l -> Forall ordered m -> Forall2 same_instruction l m -> l = m.
Proof.
  intros l m A B F. induction F as [|i j l m S F IH]; [reflexivity|]. inversion_clear A. inversion_clear B. f_equal; [apply instruction_eq; assumption|apply IH; assumption].
Qed.
Lemma glyph_near : forall o v n x y, tidy x -> tidy y -> regular o v n x -> complete x -> g_name x <> Some [] -> same_glyph x y -> near_glyphs x y.
Proof.
  intros o v n x y Tx Ty R (C1 & C2 & C3) Nx (S1 & S2 & S3 & S4 & S5 & S6 & S7 & S8 & S9 & S10).
  destruct R as (R1 & R2 & _ & R4 & _). split; [|exact S8].
  assert (N : g_name y = g_name x).
  { destruct (g_name x) as [[|a b]|]; try congruence. destruct (g_name y) as [c|]; cbn in S1; [|discriminate]. congruence. }
  assert (M : g_metrics y = g_metrics x).
  { destruct (g_metrics x) as [m|]; [|congruence]. cbn in R4. unfold has_masters in R4. destruct R2 as [R2 _].
    destruct m as [|a m]; [cbn in R4; lia|]. destruct (g_metrics y) as [c|]; cbn in S4; [|discriminate]. congruence. }
  assert (D : g_nodes y = g_nodes x).
  { destruct (g_nodes x) as [d|]; [|congruence]. destruct Ty as [Ty _]. destruct (g_nodes y) as [c|]; cbn in S3; [congruence|].
    exfalso. apply Ty; [|reflexivity]. rewrite <- S2, R1. discriminate. }
  assert (T : g_tth y = g_tth x).
  { destruct Tx as (_ & X1 & X2), Ty as (_ & Y1 & Y2). pose proof (instructions_eq _ _ X2 Y2 S10) as E.
    destruct (g_tth x) as [[|i l]|], (g_tth y) as [[|j m]|]; cbn in E; congruence. }
  assert (H : hints_of x = hints_of y -> True) by auto.
  intros minimal ps. unfold build_mm_glyph. rewrite N, M, D, T. destruct (g_name x); [|congruence]. destruct (g_metrics x); [|congruence]. destruct (g_nodes x); [|congruence].
  cbn [get_key rthen rmap fst]. do 2 f_equal.
  - destruct minimal; [reflexivity|exact S6].
  - destruct ps; [|reflexivity]. destruct S5 as (S5 & _). unfold hints_of in S5. destruct (g_hints x), (g_hints y); exact S5.
  - destruct ps; [|reflexivity]. destruct S5 as (_ & S5 & _). unfold hints_of in S5. destruct (g_hints x), (g_hints y); exact S5.
  - destruct ps; [|reflexivity]. destruct S5 as (_ & _ & S5). unfold hints_of in S5. destruct (g_hints x), (g_hints y); exact S5.
  - exact S7.
  - unfold set_instructions. destruct (g_imported x), (g_imported y); cbn in S9; try tauto.
    destruct S9 as (_ & _ & _ & E & _). destruct (im_instructions i) as [[|]|], (im_instructions i0) as [[|]|]; cbn in E; congruence.
Qed.

(** ** The entries that are read *)
Definition special (k : Z) (v : value) : Prop :=
  match v with DGlyph _ => k = 2001 | DTTInfo _ => k = 1264 | DDeltas _ => k = 1273 | _ => True end.
Lemma rows_special : forall o, Forall (fun r => forall c b v, run_parser (snd (fst (snd r)) c) b = Ok v -> special (fst r) v) (parser_classes o).
Proof.
  intros o. unfold parser_classes.
  repeat (apply Forall_cons;
    [cbn [fst snd]; intros c b v H;
     match type of H with run_parser (?p c) b = _ => let q := eval hnf in p in change (run_parser (q c) b = Ok v) in H; cbv beta in H end;
     apply plain_inv in H; destruct H as (x & ->); first [exact Coq.Init.Logic.I|reflexivity|destruct x; exact Coq.Init.Logic.I]|]).
  apply Forall_nil.
Qed.
Lemma parsed_special : forall o k c b v, cd_parse (table o) k c b = Ok v -> special k v.
Proof.
  intros o k c b v H. unfold table in H. cbn [cd_parse] in H. unfold parser_of, row in H.
  destruct (aget Z.eqb k (parser_classes o)) as [[[n p] co]|] eqn:E.
  - apply zget_in in E. pose proof (rows_special o) as R. rewrite Forall_forall in R. exact (R _ E c b v H).
  - apply plain_inv in H. destruct H as (x & ->). exact Coq.Init.Logic.I.
Qed.
Lemma parsed_at : forall o k c b v  A (i : A -> value) (r : rd A) P,
  cd_parse (table o) k c b = Ok v -> parser_of o k c = plain i r -> ends r P -> exists x, v = i x /\ P x.
Proof.
  intros o k c b v A i r P H E R. unfold table in H. cbn [cd_parse] in H. rewrite E in H.
  unfold run_parser, plain, rbind, ret in H. destruct (r b) as [x [|]|] eqn:D; try discriminate. apply Ok_inj in H.
  exists x. split; [congruence|eapply R; exact D].
Qed.
Lemma parsed_glyph : forall o c b g, cd_parse (table o) 2001 c b = Ok (DGlyph g) -> tidy g.
Proof.
  intros o c b g H. destruct (parsed_at o 2001 c b _ _ DGlyph (parse_glyph o) tidy H eq_refl (glyph_parsed o)) as (x & E & T).
  congruence.
Qed.
Lemma parsed_deltas : forall o c b d, cd_parse (table o) 1273 c b = Ok (DDeltas d) -> deltas_nodup d.
Proof.
  intros o c b g H. destruct (parsed_at o 1273 c b _ _ DDeltas _ deltas_nodup H eq_refl deltas_parsed) as (x & E & T).
  congruence.
Qed.
Lemma not_in_ids : forall k l, existsb (Z.eqb k) l = false -> ~ In k l.
Proof.
  intros k l H I. assert (existsb (Z.eqb k) l = true); [|congruence]. apply existsb_exists. exists k. split; [exact I|apply Z.eqb_refl].
Qed.
Lemma near_parsed : forall o k c b b' x y, cd_parse (table o) k c b = Ok x -> cd_parse (table o) k c b' = Ok y ->
  can_be_written o c k x -> same_value x y ->
  (forall g, k = 2001 -> x = DGlyph g -> complete g /\ g_name g <> Some []) ->
  (forall d, k = 1273 -> x = DDeltas d -> Forall (fun zs => 0 <= fst zs) d) ->
  near (k, x) (k, y).
Proof.
  intros o k c b b' x y Px Py W S G D. pose proof (parsed_special _ _ _ _ _ Px) as Sx.
  destruct (Z.eq_dec k 1273) as [->|Nk].
  - pose proof Px as Px'. destruct (parsed_at o 1273 c b _ _ DDeltas _ deltas_nodup Px eq_refl deltas_parsed) as (d & -> & Nd).
    destruct (parsed_at o 1273 c b' _ _ DDeltas _ deltas_nodup Py eq_refl deltas_parsed) as (d' & -> & Nd').
    apply near_deltas; [assumption|assumption|exact S|]. apply D; reflexivity.
  - destruct x; try (cbn in S; destruct y; try discriminate S; rewrite S; apply near_eq; exact Nk).
    all: cbn [special] in Sx; subst k.
    all: destruct y; try discriminate S; try congruence.
    + destruct W as [W|[_ W]]; [exfalso; revert W; apply not_in_ids; reflexivity|]. apply near_info; [apply W|exact S].
    + destruct W as [W|[_ W]]; [exfalso; revert W; apply not_in_ids; reflexivity|]. destruct W as [[n R] _].
      destruct (G _ eq_refl eq_refl) as [C N]. apply near_glyph. eapply glyph_near; [eapply parsed_glyph; exact Px|eapply parsed_glyph; exact Py|exact R|exact C|exact N|exact S].
Qed.

Lemma entries_decompiled : forall l, entries_of (decompiled l) = map (fun p => (fst p, Some (snd p))) l.
Proof. induction l as [|p l IH]; [reflexivity|]. cbn. f_equal. exact IH. Qed.
Lemma used_cons : forall m p l, used m ((fst p, Some (snd p)) :: l) = (if counts m (fst p) then [p] else []) ++ used m l.
Proof. intros m [k v] l. unfold used. cbn. destruct (counts m k); reflexivity. Qed.
Lemma resaved : forall o c st op l l' us,
  Forall (fun q => exists b, bytes_ok b /\ cd_parse (table o) (fst q) c b = Ok (snd q)) l ->
  Forall (fun q => exists b, bytes_ok b /\ cd_parse (table o) (fst q) c b = Ok (snd q)) l' ->
  Forall (fun p => can_be_written o c (fst p) (snd p)) l -> Forall2 same_entry l l' ->
  glyphs_named (entries_of (decompiled l)) -> zones_distinct (entries_of (decompiled l)) ->
  vfb_to_ufos st op (entries_of (decompiled l)) = Ok us ->
  exists us', vfb_to_ufos st op (entries_of (decompiled l')) = Ok us' /\ Forall2 same_ufo us us'.
Proof.
  intros o c st op l l' us P P' W S GN [ZD ZP] E. unfold vfb_to_ufos in E. rewrite !entries_decompiled in *.
  set (es := map _ l) in *. unfold vfb_to_ufos. set (es' := map _ l').
  assert (T : forall x, Forall (fun q => exists b, bytes_ok b /\ cd_parse (table o) (fst q) c b = Ok (snd q)) x ->
             Forall typed (map (fun p => (fst p, Some (snd p))) x)).
  { intros x F. rewrite Forall_map. eapply Forall_impl; [|exact F]. intros q (b & Hb & H). eapply parsed_typed; eassumption. }
  destruct (build_font st es) as [f|] eqn:B; [|discriminate]. cbn [rthen] in E.
  assert (G : glyphs_complete (used (st_vfb_minimal st) es)).
  { unfold build_font in B. destruct (res_fold (build_step st) new_font es) as [f0|] eqn:Ef; [|discriminate]. exact (built_complete _ _ _ _ Ef). }
  assert (F : Forall2 near (used (st_vfb_minimal st) es) (used (st_vfb_minimal st) es')).
  { unfold es, es' in *. clear E B ZD T. revert P' W GN ZP G P. induction S as [|p q l l' [E S] F IH]; intros P' W GN ZP G P; [constructor|].
    cbn [map] in *. rewrite (used_cons _ p), (used_cons _ q). rewrite used_cons in G. apply Forall_cons_iff in P, P', W. destruct P as [(b & _ & Pb) P], P' as [(b' & _ & Pb') P'], W as [Wp W].
    apply Forall2_app.
    - rewrite <- E. destruct (counts (st_vfb_minimal st) (fst p)) eqn:C; [|constructor]. constructor; [|constructor].
      destruct p as [k x], q as [k' y]. cbn [fst snd] in *. subst k'. eapply near_parsed; [exact Pb|exact Pb'|exact Wp|exact S| |].
      + intros g -> ->. split; [apply G; apply in_or_app; left; left; reflexivity|apply GN; left; reflexivity].
      + intros d -> ->. apply ZP. left. reflexivity.
    - apply IH; try assumption.
      + intros x H. apply GN. right. exact H.
      + intros d H. apply ZP. right. exact H.
      + intros x H. apply G. apply in_or_app. right. exact H. }
  assert (D : NoDup (flat_map names_of (used (st_vfb_minimal st) es))).
  { assert (Z : flat_map names_of (used (st_vfb_minimal st) es) = flat_map zone_names es); [|rewrite Z; exact ZD].
    unfold es. clear. induction l as [|p l IH]; [reflexivity|]. cbn [map]. rewrite used_cons, flat_map_app, IH. cbn [flat_map]. f_equal.
    destruct (counts (st_vfb_minimal st) (fst p)) eqn:C; [cbn [flat_map]; rewrite app_nil_r; destruct p; reflexivity|].
    destruct p as [k x]. cbn [fst snd] in *. unfold zone_names.
    destruct (Z.eq_dec k 1255) as [->|N]; [exfalso; revert C; unfold counts; destruct (st_vfb_minimal st); vm_compute; discriminate|].
    destruct k as [|k|k]; try reflexivity. cbn.
    repeat (match goal with |- context [match ?p with xI _ => _ | xO _ => _ | xH => _ end] => is_var p; destruct p; try reflexivity end). congruence. }
  destruct (near_build st es es' f (T l P) (T l' P') F D B) as (f' & B' & Sf). rewrite B'. cbn [rthen]. eapply export_same; eassumption.
Qed.
