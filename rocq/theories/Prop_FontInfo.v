(** C82 and C83: the font info of the UFO and the names of the font. *)
From Coq Require Import String Permutation.
From Verif Require Import Base Lib M_Py M_Text M_TrueType M_Info M_Tth M_FontInfo S_Bits S_Info S_FontInfo
  P_Info Prop_Info P_FontInfo.
Local Open Scope list_scope.

Lemma known : forall k l, existsb (str_eqb k) l = true -> In k l.
Proof. intros k l E. apply existsb_exists in E. destruct E as (x & I & E). apply str_eqb_eq in E. now subst x. Qed.
Lemma default_is : forall a, default_of a = aget str_eqb a (if_attrs new_info).
Proof.
  intros a. destruct (in_dec (list_eq_dec Z.eq_dec) a (map fst info_defaults)) as [I|N].
  - unfold info_defaults in I. cbn [map fst In] in I. repeat (destruct I as [I|I]; [subst a; vm_compute; reflexivity|]). destruct I.
  - assert (X : aget str_eqb a (if_attrs new_info) = None).
    { destruct (aget str_eqb a (if_attrs new_info)) as [v|] eqn:E; [|reflexivity]. exfalso. apply N. apply (aget_In str_eqb str_eqb_eq) in E. apply (in_map fst) in E. exact E. }
    rewrite X. clear X. assert (F : forall l, (forall k, In k l -> In k (map fst info_defaults)) -> existsb (str_eqb a) l = false).
    { intros l H. destruct (existsb (str_eqb a) l) eqn:E; [|reflexivity]. exfalso. apply existsb_exists in E. destruct E as (k & I & E). apply str_eqb_eq in E. subst k. apply N, H, I. }
    unfold default_of. cbv zeta. repeat (rewrite F; [|intros k I; cbn [In] in I; repeat (destruct I as [I|I]; [subst k; apply known; vm_compute; reflexivity|]); destruct I]). reflexivity.
Qed.
Lemma says_loop : forall minimal es a v, says minimal es a v -> loop_says minimal new_info es a v.
Proof. intros minimal es a v [H|[H E]]; [now left|right]. split; [exact H|]. rewrite E. apply default_is. Qed.

(** Every attribute has the value that the last entry about it says, or its default; the underline position
    alone is moved, from the middle of the line to its top, by half of the thickness. *)
Theorem C82_attributes : forall minimal es, Forall entry_data_ok es ->
  exists i, build_info minimal es = Ok i /\
    (forall a v, a <> py "postscriptUnderlinePosition" -> says minimal es a v ->
       aget str_eqb a (if_attrs i) = v) /\
    (forall p t, says minimal es (py "postscriptUnderlinePosition") (Some (IInt p)) ->
       says minimal es (py "postscriptUnderlineThickness") (Some (IInt t)) ->
       exists h, aget str_eqb (py "postscriptUnderlinePosition") (if_attrs i) = Some (IInt (p + h)) /\
         Z.abs (2 * h - t) <= 1 /\ (Z.abs (2 * h - t) = 1 -> Z.even h = true)).
Proof.
  intros minimal es F. destruct (loop_ok minimal es new_info F) as (i0 & E & S).
  destruct (underline_int minimal (py "postscriptUnderlinePosition") (or_introl eq_refl) es new_info i0 F) as (p0 & P0);
    [eexists; vm_compute; reflexivity|exact E|].
  destruct (underline_int minimal (py "postscriptUnderlineThickness") (or_intror eq_refl) es new_info i0 F) as (t0 & T0);
    [eexists; vm_compute; reflexivity|exact E|].
  eexists. split; [unfold build_info; rewrite E; cbn [rthen]; unfold fix_underline_position; rewrite P0, T0; reflexivity|].
  split.
  - intros a v N H. rewrite set_get_other by exact N. apply S, says_loop. exact H.
  - intros p t HP HT. apply says_loop in HP, HT. pose proof (S _ _ HP) as EP. pose proof (S _ _ HT) as ET.
    rewrite P0 in EP. rewrite T0 in ET. injection EP as <-. injection ET as <-.
    exists (fix_underline p0 t0 - p0). split; [|apply C55_underline].
    rewrite set_get_same. do 2 f_equal. lia.
Qed.
(** No two kinds of entries say something about the same attribute. *)
Theorem C82_own : forall k d k' d' a x x', writes k d a x -> writes k' d' a x' -> k = k'.
Proof. exact own_key. Qed.

(** The order of the entries does not matter. *)
Theorem C82_order : forall minimal es es', Permutation es es' -> NoDup (map fst es) -> Forall entry_data_ok es ->
  exists i i', build_info minimal es = Ok i /\ build_info minimal es' = Ok i' /\
    forall a, aget str_eqb a (if_attrs i) = aget str_eqb a (if_attrs i').
Proof.
  intros minimal es es' P N F.
  assert (F' : Forall entry_data_ok es') by (eapply Permutation_Forall; eassumption).
  assert (N' : NoDup (map fst es')) by (eapply Permutation_NoDup; [apply Permutation_map, P|exact N]).
  destruct (loop_ok minimal es new_info F) as (i & E & S). destruct (loop_ok minimal es' new_info F') as (i' & E' & S').
  assert (Q : forall a, aget str_eqb a (if_attrs i) = aget str_eqb a (if_attrs i')).
  { intros a. destruct (aget str_eqb a (if_attrs i)) as [x|] eqn:A, (aget str_eqb a (if_attrs i')) as [x'|] eqn:A'; try reflexivity;
    [destruct (info_val_dec x x') as [->|NE]; [reflexivity|exfalso]|exfalso|exfalso].
    all: apply (fun H : ~ ~ ((exists e x, In e es /\ entry_writes minimal e a x) \/
                      ~ (exists e x, In e es /\ entry_writes minimal e a x)) => H); [tauto|].
    all: assert (SP : forall l, NoDup (map fst l) -> forall e y, In e l -> entry_writes minimal e a y ->
            exists pre post, l = pre ++ e :: post /\ forall e' x', In e' post -> ~ entry_writes minimal e' a x').
    1,3,5: intros l NL e y I W; apply in_split in I; destruct I as (pre & post & ->); exists pre, post; split; [reflexivity|];
           intros e' y' I' W'; destruct W as (k & d & [-> _] & W), W' as (k' & d' & [-> _] & W');
           pose proof (own_key _ _ _ _ _ _ _ W W'); subst k'; rewrite map_app in NL; apply NoDup_remove_2 in NL;
           apply NL; cbn [map fst]; apply in_or_app; right; exact (in_map fst post _ I').
    all: intros [(e & y & I & W)|NW].
    1,3,5: destruct (SP es N e y I W) as (pre & post & -> & L); destruct (SP es' N' e y (Permutation_in _ P I) W) as (pre' & post' & -> & L');
      pose proof (S a (Some y) (or_introl (ex_intro _ pre (ex_intro _ e (ex_intro _ post (ex_intro _ y (conj eq_refl (conj W (conj eq_refl L))))))))) as G;
      pose proof (S' a (Some y) (or_introl (ex_intro _ pre' (ex_intro _ e (ex_intro _ post' (ex_intro _ y (conj eq_refl (conj W (conj eq_refl L'))))))))) as G';
      congruence.
    all: assert (L : forall e x, In e es -> ~ entry_writes minimal e a x) by (intros e y I W; apply NW; exists e, y; auto);
      assert (L' : forall e x, In e es' -> ~ entry_writes minimal e a x)
        by (intros e y I; apply L; exact (Permutation_in _ (Permutation_sym P) I));
      pose proof (S a _ (or_intror (conj L eq_refl))) as G; pose proof (S' a _ (or_intror (conj L' eq_refl))) as G'; congruence. }
  destruct (underline_int minimal (py "postscriptUnderlinePosition") (or_introl eq_refl) es new_info i F) as (p0 & P0);
    [eexists; vm_compute; reflexivity|exact E|].
  destruct (underline_int minimal (py "postscriptUnderlineThickness") (or_intror eq_refl) es new_info i F) as (t0 & T0);
    [eexists; vm_compute; reflexivity|exact E|].
  assert (P1 := P0). assert (T1 := T0). rewrite Q in P1, T1.
  eexists. eexists. unfold build_info. rewrite E, E'. cbn [rthen]. unfold fix_underline_position.
  rewrite P0, T0, P1, T1. split; [reflexivity|]. split; [reflexivity|]. intros a. rewrite !set_get, Q. reflexivity.
Qed.

(** All attributes but three are attributes of UFO 3. *)
Theorem C82_ufo3 : forall k d a x, writes k d a x ->
  In a ufo3_attributes \/ In (k, a) [(1028, py "weightName"); (1065, py "widthName"); (1132, py "year")].
Proof.
  intros k d a x W. apply writes_owned in W.
  assert (F : forallb (fun p => existsb (str_eqb (fst p)) ufo3_attributes ||
    existsb (fun q => (fst q =? snd p) && str_eqb (snd q) (fst p)) [(1028, py "weightName"); (1065, py "widthName"); (1132, py "year")]) owned = true)
    by (vm_compute; reflexivity).
  rewrite forallb_forall in F. specialize (F _ W). apply orb_true_iff in F. destruct F as [F|F]; [left|right];
    apply existsb_exists in F; destruct F as (q & I & Q).
  - apply str_eqb_eq in Q. cbn [fst] in Q. subst q. exact I.
  - apply andb_true_iff in Q. destruct Q as [Q1 Q2]. apply Z.eqb_eq in Q1. apply str_eqb_eq in Q2.
    destruct q as [k' a']. cbn [fst snd] in *. subst. exact I.
Qed.
(** Refuted: that what the VFB says arrives in the UFO. Weight, width and year go to attributes that UFO 3 does
    not have, so that [fontinfo.plist] is the one of a font without these entries. *)
Theorem C82_refuted : forall minimal k v, In k [1028; 1065; 1132] ->
  (exists a, writes k (DVal v) a v /\ ~ In a ufo3_attributes) /\
  exists i i0, build_info minimal [(k, Some (DVal v))] = Ok i /\ build_info minimal [] = Ok i0 /\
    forall a, In a ufo3_attributes -> aget str_eqb a (if_attrs i) = aget str_eqb a (if_attrs i0).
Proof.
  intros minimal k v K.
  assert (H : exists a n, In (k, n, a) plain_attrs /\ existsb (str_eqb a) ufo3_attributes = false /\
    info_step minimal new_info (k, Some (DVal v)) = Ok (setattr a v new_info) /\
    str_eqb (py "postscriptUnderlinePosition") a = false /\ str_eqb (py "postscriptUnderlineThickness") a = false).
  { destruct K as [<-|[<-|[<-|[]]]].
    - exists (py "weightName"), "weight"%string. split; [apply (nth_error_In plain_attrs 3); vm_compute; reflexivity|].
      destruct minimal; repeat split; reflexivity.
    - exists (py "widthName"), "width"%string. split; [apply (nth_error_In plain_attrs 15); vm_compute; reflexivity|].
      destruct minimal; repeat split; reflexivity.
    - exists (py "year"), "year"%string. split; [apply (nth_error_In plain_attrs 28); vm_compute; reflexivity|].
      destruct minimal; repeat split; reflexivity. }
  destruct H as (a & n & I & X & E & U1 & U2).
  assert (NI : ~ In a ufo3_attributes).
  { intros Y. assert (existsb (str_eqb a) ufo3_attributes = true); [|congruence]. apply existsb_exists. exists a.
    split; [exact Y|apply str_eqb_refl]. }
  split; [exists a; split; [econstructor; exact I|exact NI]|].
  eexists. eexists. unfold build_info. cbn [res_fold]. rewrite E. cbn [rthen]. unfold fix_underline_position.
  rewrite !set_get, U1, U2.
  replace (aget str_eqb (py "postscriptUnderlinePosition") (if_attrs new_info)) with (Some (IInt 0)) by reflexivity.
  replace (aget str_eqb (py "postscriptUnderlineThickness") (if_attrs new_info)) with (Some (IInt 0)) by reflexivity.
  split; [reflexivity|]. split; [reflexivity|]. intros b B. rewrite !set_get.
  destruct (str_eqb b (py "postscriptUnderlinePosition")); [reflexivity|].
  destruct (str_eqb b a) eqn:Q; [|reflexivity]. apply str_eqb_eq in Q. subst b. contradiction.
Qed.

(** the entries of a small font *)
Definition ex_entries : list fi_entry :=
  [(1046, None); (1024, Some (DVal (IStr (py "Plex")))); (1025, Some (DVal (IStr (py "Plex Bold"))));
   (1030, Some (DVal (IInt (-120)))); (1031, Some (DVal (IInt 50))); (1048, Some (DVal (IInt 1200)));
   (1267, Some (DVal (IInt 33))); (1264, Some (DTT [(py "os2_us_width_class", VInt 3)]));
   (1265, Some (DGasp [])); (2025, Some (DVal (IStr (py "to do"))))].
Lemma ex_entries_ok : Forall entry_data_ok ex_entries.
Proof.
  assert (G : forall e : fi_entry, (forall d, snd e = Some d ->
    (existsb (fun p => fst (fst p) =? fst e) plain_attrs = true -> exists x, d = DVal x) /\
    (fst e = 1034 -> exists z, d = DVal (IInt z)) /\ (fst e = 1048 -> exists z, d = DVal (IInt z)) /\
    (fst e = 1267 -> exists z, d = DVal (IInt z) /\ 0 <= z) /\
    (fst e = 1138 -> exists l, d = DNames l) /\
    (fst e = 1264 -> exists l, d = DTT l /\ NoDup (map fst l) /\ Forall tt_item_ok l) /\
    (fst e = 1265 -> exists l, d = DGasp l /\ Forall (fun r => 0 <= gr_flags r) l) /\
    (fst e = 1030 \/ fst e = 1031 -> exists z, d = DVal (IInt z))) -> entry_data_ok e).
  { intros e H d E. destruct (H d E) as (H1 & H2). split; [|exact H2]. intros n a I. apply H1.
    apply existsb_exists. exists (fst e, n, a). split; [exact I|apply Z.eqb_refl]. }
  unfold ex_entries. repeat (apply Forall_cons; [apply G; cbn [fst snd]; intros d E; try discriminate E; injection E as <-|]); [..|apply Forall_nil].
  all: split; [intros X; try discriminate X; try (eexists; reflexivity)|].
  all: repeat split; intros X; try (exfalso; lia); try discriminate X; try (eexists; reflexivity); try (eexists; split; [reflexivity|]).
  all: try lia. all: try (repeat constructor; cbn [In]; tauto).
  all: try (split; [repeat constructor; cbn [In]; tauto|]). all: try (repeat constructor; discriminate).
Qed.
Example C82_example : exists i, build_info false ex_entries = Ok i /\
  aget str_eqb (py "postscriptUnderlinePosition") (if_attrs i) = Some (IInt (-95)) /\
  aget str_eqb (py "openTypeOS2WeightClass") (if_attrs i) = Some (IInt 1000) /\
  aget str_eqb (py "styleMapStyleName") (if_attrs i) = Some (IStr (py "bold italic")) /\
  aget str_eqb (py "openTypeOS2WidthClass") (if_attrs i) = Some (IInt 3) /\
  aget str_eqb (py "note") (if_attrs i) = Some (IStr (py "to do")) /\
  ds_family_name i = py "Plex" /\ NoDup (map fst ex_entries).
Proof.
  eexists. split; [vm_compute; reflexivity|]. repeat (split; [vm_compute; reflexivity|]).
  unfold ex_entries. cbn [map fst]. repeat (apply NoDup_cons; [cbn [In]; lia|]). apply NoDup_nil.
Qed.

(** ** C83: the names *)
(** the text that the entries [es] say for attribute [a] *)
Definition text_said (es : list fi_entry) (k : Z) (s : pystr) : Prop :=
  exists pre post, es = pre ++ (k, Some (DVal (IStr s))) :: post /\ forall d, ~ In (k, Some d) post.
Definition not_said (es : list fi_entry) (k : Z) : Prop := forall d, ~ In (k, Some d) es.
Lemma said_value : forall minimal es k n a s, In (k, n, a) plain_attrs -> k <> 2025 -> text_said es k s ->
  says minimal es a (Some (IStr s)).
Proof.
  intros minimal es k n a s I K (pre & post & -> & N). left.
  exists pre, (k, Some (DVal (IStr s))), post, (IStr s). split; [reflexivity|]. split; [|split; [reflexivity|]].
  - exists k, (DVal (IStr s)). split; [split; [reflexivity|tauto]|econstructor; exact I].
  - intros e' x' I' (k' & d' & [-> _] & W). pose proof (own_key _ _ _ _ _ _ _ W (writes_plain _ _ _ (IStr s) I)). subst k'.
    exact (N _ I').
Qed.
Lemma unsaid_value : forall minimal es k n a v, In (k, n, a) plain_attrs -> not_said es k ->
  aget str_eqb a (if_attrs new_info) = v -> says minimal es a v.
Proof.
  intros minimal es k n a v I N <-. right. split; [|symmetry; apply default_is].
  intros e x Ie (k' & d' & [-> _] & W). pose proof (own_key _ _ _ _ _ _ _ W (writes_plain _ _ _ x I)). subst k'.
  exact (N _ Ie).
Qed.
Lemma text_of : forall i a s, aget str_eqb a (if_attrs i) = Some (IStr s) -> info_text a i = s.
Proof. intros i a s E. unfold info_text. now rewrite E. Qed.
Lemma in_nth : forall n p, nth_error plain_attrs n = Some p -> In p plain_attrs.
Proof. intros n p. apply nth_error_In. Qed.

(** The family name of the designspace is the preferred family name of the VFB, if that is not empty, ... *)
Theorem C83_family : forall minimal es s, Forall entry_data_ok es -> s <> [] -> text_said es 1024 s ->
  exists i, build_info minimal es = Ok i /\ ds_family_name i = s /\ ui_name i = s.
Proof.
  intros minimal es s F N T. destruct (C82_attributes minimal es F) as (i & E & S & _). exists i. split; [exact E|].
  assert (A1 := S (py "familyName") _ ltac:(discriminate) (said_value minimal es _ _ _ s (in_nth 36 _ eq_refl) ltac:(lia) T)).
  assert (A2 := S (py "openTypeNamePreferredFamilyName") _ ltac:(discriminate) (said_value minimal es _ _ _ s (in_nth 37 _ eq_refl) ltac:(lia) T)).
  unfold ds_family_name, ui_name, first_text. cbn [map]. rewrite (text_of _ _ _ A1), (text_of _ _ _ A2).
  destruct s as [|c s]; [contradiction|]. split; reflexivity.
Qed.
(** ... and the style name the preferred style name. *)
Theorem C83_style : forall minimal es s, Forall entry_data_ok es -> s <> [] -> text_said es 1137 s ->
  exists i, build_info minimal es = Ok i /\ ds_style_name i = s.
Proof.
  intros minimal es s F N T. destruct (C82_attributes minimal es F) as (i & E & S & _). exists i. split; [exact E|].
  assert (A2 := S (py "openTypeNamePreferredSubfamilyName") _ ltac:(discriminate) (said_value minimal es _ _ _ s (in_nth 39 _ eq_refl) ltac:(lia) T)).
  unfold ds_style_name, first_text. cbn [map]. rewrite (text_of _ _ _ A2).
  destruct s as [|c s]; [contradiction|]. reflexivity.
Qed.
(** With an empty one, the family name is the one of the style map. *)
Theorem C83_empty : forall minimal es s, Forall entry_data_ok es ->
  text_said es 1024 [] -> text_said es 1027 s ->
  exists i, build_info minimal es = Ok i /\ ds_family_name i = s /\ ui_name i = py "Untitled Regular".
Proof.
  intros minimal es s F T T'. destruct (C82_attributes minimal es F) as (i & E & S & _). exists i. split; [exact E|].
  assert (A1 := S (py "familyName") _ ltac:(discriminate) (said_value minimal es _ _ _ [] (in_nth 36 _ eq_refl) ltac:(lia) T)).
  assert (A2 := S (py "openTypeNamePreferredFamilyName") _ ltac:(discriminate) (said_value minimal es _ _ _ [] (in_nth 37 _ eq_refl) ltac:(lia) T)).
  assert (A3 := S (py "styleMapFamilyName") _ ltac:(discriminate) (said_value minimal es _ _ _ s (in_nth 2 _ eq_refl) ltac:(lia) T')).
  unfold ds_family_name, ui_name, first_text. cbn [map]. rewrite (text_of _ _ _ A1), (text_of _ _ _ A2), (text_of _ _ _ A3).
  split; reflexivity.
Qed.
(** Refuted: that a font with a family name keeps it. Without a preferred family name, the designspace, the UFO and
    the messages call the font "Untitled", whatever its family name, full name and font name. *)
Theorem C83_refuted : forall minimal es, Forall entry_data_ok es -> not_said es 1024 ->
  exists i, build_info minimal es = Ok i /\ ds_family_name i = py "Untitled" /\ ui_name i = py "Untitled" /\
    aget str_eqb (py "familyName") (if_attrs i) = Some (IStr (py "Untitled")) /\
    forall s, text_said es 1027 s -> aget str_eqb (py "styleMapFamilyName") (if_attrs i) = Some (IStr s).
Proof.
  intros minimal es F T. destruct (C82_attributes minimal es F) as (i & E & S & _). exists i. split; [exact E|].
  assert (A1 := S (py "familyName") _ ltac:(discriminate) (unsaid_value minimal es _ _ _ _ (in_nth 36 _ eq_refl) T eq_refl)).
  assert (A2 := S (py "openTypeNamePreferredFamilyName") _ ltac:(discriminate) (unsaid_value minimal es _ _ _ _ (in_nth 37 _ eq_refl) T eq_refl)).
  change (aget str_eqb (py "familyName") (if_attrs i) = Some (IStr (py "Untitled"))) in A1.
  change (aget str_eqb (py "openTypeNamePreferredFamilyName") (if_attrs i) = Some (IStr [])) in A2.
  unfold ds_family_name, ui_name, first_text. cbn [map]. rewrite (text_of _ _ _ A1), (text_of _ _ _ A2).
  split; [reflexivity|]. split; [reflexivity|]. split; [exact A1|]. intros s Ts.
  exact (S (py "styleMapFamilyName") _ ltac:(discriminate) (said_value minimal es _ _ _ s (in_nth 2 _ eq_refl) ltac:(lia) Ts)).
Qed.
Example C83_example : text_said ex_entries 1024 (py "Plex") /\ not_said (tl (tl ex_entries)) 1024.
Proof.
  split.
  - exists [(1046, None)], (tl (tl ex_entries)). split; [reflexivity|]. intros d. cbn. intuition discriminate.
  - intros d. cbn. intuition discriminate.
Qed.
Print Assumptions C83_family.
Print Assumptions C83_style.
Print Assumptions C83_empty.
Print Assumptions C83_refuted.
Print Assumptions C82_attributes.
Print Assumptions C82_order.
Print Assumptions C82_refuted.
