(** Lemmas on the collection of glyphs and masters. *)
From Coq Require Import String.
From Verif Require Import Base M_Py M_Builder S_Builder Lib P_Dec P_TthXml.
Local Open Scope list_scope.

Lemma field_eqb_eq : forall a b, field_eqb a b = true <-> a = b.
Proof. intros [] []; cbn; split; congruence. Qed.
Lemma dec_no_hash : forall i, ~ In 35 (dec_str i).
Proof.
  intros i H. unfold dec_str in H. destruct (i <? 0) eqn:E; [destruct H as [H|H]; [discriminate|]|];
    (assert (D := dec_nat_digits (if i <? 0 then - i else i)); rewrite E in D; rewrite Forall_forall in D; specialize (D ltac:(lia) _ H); cbn in D; lia).
Qed.
Lemma cut_last : forall (c : Z) a b x y, ~ In c x -> ~ In c y -> a ++ c :: x = b ++ c :: y -> a = b /\ x = y.
Proof.
  intros c a b x y Nx Ny E. apply (f_equal (@rev Z)) in E. rewrite !rev_app_distr in E. cbn [rev] in E. rewrite <- !app_assoc in E. cbn [app] in E.
  apply cut_at in E; [|intros H; now apply in_rev in H|intros H; now apply in_rev in H]. destruct E as (A & B).
  apply (f_equal (@rev Z)) in A, B. rewrite !rev_involutive in A, B. auto.
Qed.
Lemma with_number_inj : forall n m i j, with_number n i = with_number m j -> n = m /\ i = j.
Proof.
  intros n m i j E. unfold with_number in E. change (py "#" ++ ?x) with (35 :: x) in E. apply cut_last in E; try apply dec_no_hash.
  destruct E as (-> & E). split; [reflexivity|]. now apply dec_str_inj.
Qed.
Lemma starts_app : forall p s, starts_with p (p ++ s) = true.
Proof. induction p as [|c p IH]; intros s; [reflexivity|]. cbn. now rewrite Z.eqb_refl, IH. Qed.

(** ** Masters *)
Section Any.
  Variable V : Type.
  Lemma store_masters : forall s : bstate V, bs_masters (store_glyph s) = bs_masters s /\ bs_axes (store_glyph s) = bs_axes s /\ bs_infos (store_glyph s) = bs_infos s.
  Proof.
    intros s. unfold store_glyph. destruct (bs_current s); [|auto]. cbv zeta. destruct (aget _ _ _); [destruct (free_name _ _ _ _)|]; auto.
  Qed.
  Lemma loop_masters : forall es (s s' : bstate V), b_loop s es = Ok s' ->
    bs_masters s' = bs_masters s ++ entry_names es /\ bs_infos s' = bs_infos s ++ entry_infos es /\
    bs_axes s' = fold_left (fun a e => match e with BAxisCount n => n | _ => a end) es (bs_axes s).
  Proof.
    induction es as [|e es IH]; intros s s' H; cbn [b_loop] in H.
    - apply Ok_inj in H. subst. unfold entry_names, entry_infos. cbn. now rewrite !app_nil_r.
    - destruct (b_add s e) as [s1|] eqn:E; [|discriminate]. cbn [rthen] in H. destruct (IH _ _ H) as (A & B & C). rewrite A, B, C.
      unfold entry_names, entry_infos. cbn [map concat fold_left].
      destruct e; cbn [b_add] in E; unfold with_glyph in E; try (destruct (bs_current s); [|discriminate]);
        apply Ok_inj in E; subst s1; cbn [bs_masters bs_infos bs_axes new_glyph app]; rewrite <- ?app_assoc; auto.
      destruct (store_masters s) as (-> & -> & ->). auto.
  Qed.
  Lemma synthetic_length : forall n i, List.length (synthetic n i) = n.
  Proof. induction n as [|n IH]; intros i; cbn; [reflexivity|]. now rewrite IH. Qed.
  Lemma synthetic_nth : forall n i k, (k < n)%nat -> nth_error (synthetic n i) k = Some (py "m" ++ dec_str (i + Z.of_nat k)).
  Proof.
    induction n as [|n IH]; intros i k H; [lia|]. destruct k as [|k]; cbn [synthetic nth_error]; [now rewrite Z.add_0_r|].
    rewrite IH by lia. do 3 f_equal. lia.
  Qed.
  Lemma build_masters : forall es (s : bstate V), build es = Ok s ->
    let count := if axes_of es =? 0 then 1 else axes_of es ^ 2 in
    let have := Z.of_nat (List.length (entry_names es)) in
    bs_masters s = entry_names es ++ synthetic (Z.to_nat (count - have)) have /\ bs_infos s = entry_infos es.
  Proof.
    intros es s H. unfold build in H. destruct (b_loop b_start es) as [s1|] eqn:E; [|discriminate]. cbn [rmap] in H. apply Ok_inj in H.
    destruct (loop_masters _ _ _ E) as (A & B & C). cbn [bs_masters bs_infos bs_axes b_start app] in A, B, C.
    assert (L : bs_masters (store_last s1) = bs_masters s1 /\ bs_axes (store_last s1) = bs_axes s1 /\ bs_infos (store_last s1) = bs_infos s1)
      by (unfold store_last; destruct (bs_current s1); auto).
    destruct L as (L1 & L2 & L3). cbv zeta. unfold fix_masters_count in H. cbv zeta in H. rewrite L1, L2, A, C in H. fold (axes_of es) in H.
    destruct (_ <? _) eqn:Lt; subst s; cbn [bs_masters bs_infos]; rewrite ?L1, ?L3, ?A, ?B; split; auto.
    replace (Z.to_nat _) with 0%nat by lia. cbn. now rewrite app_nil_r.
  Qed.
  Lemma infos_ok : forall (s : bstate V), (List.length (bs_masters s) <= List.length (bs_infos s))%nat ->
    master_infos s = Ok (firstn (List.length (bs_masters s)) (bs_infos s)).
  Proof.
    intros s H. unfold master_infos. set (l := bs_infos s) in *.
    match goal with |- ?f _ _ = _ => set (go := f) end.
    assert (X : forall n a b, l = a ++ b -> (n <= List.length b)%nat -> go n (Z.of_nat (List.length a)) = Ok (firstn n b)).
    { induction n as [|n IH]; intros a b E Hn; [reflexivity|]. destruct b as [|x b]; [cbn in Hn; lia|].
      change (go (S n) (Z.of_nat (List.length a))) with (rthen (py_index l (Z.of_nat (List.length a))) (fun v => rmap (cons v) (go n (Z.of_nat (List.length a) + 1)))).
      rewrite E at 1. rewrite P_Tth.py_index_mid. cbn [rthen].
      replace (Z.of_nat (List.length a) + 1) with (Z.of_nat (List.length (a ++ [x]))) by (rewrite app_length; cbn; lia).
      rewrite (IH (a ++ [x]) b); [reflexivity|now rewrite <- app_assoc|cbn in Hn; lia]. }
    exact (X _ [] l eq_refl H).
  Qed.
  Lemma infos_err : forall (s : bstate V), (List.length (bs_infos s) < List.length (bs_masters s))%nat -> master_infos s = Err IndexError.
  Proof.
    intros s H. unfold master_infos. set (l := bs_infos s) in *.
    match goal with |- ?f _ _ = _ => set (go := f) end.
    assert (X : forall n a b, l = a ++ b -> (List.length b < n)%nat -> go n (Z.of_nat (List.length a)) = Err IndexError).
    { induction n as [|n IH]; intros a b E Hn; [lia|].
      change (go (S n) (Z.of_nat (List.length a))) with (rthen (py_index l (Z.of_nat (List.length a))) (fun v => rmap (cons v) (go n (Z.of_nat (List.length a) + 1)))).
      destruct b as [|x b].
      - rewrite app_nil_r in E. rewrite E. unfold py_index. cbv zeta. destruct (Z.of_nat (List.length a) <? 0) eqn:C; [lia|]. rewrite C. destruct (_ <=? _) eqn:D; [reflexivity|lia].
      - rewrite E at 1. rewrite P_Tth.py_index_mid. cbn [rthen].
        replace (Z.of_nat (List.length a) + 1) with (Z.of_nat (List.length (a ++ [x]))) by (rewrite app_length; cbn; lia).
        rewrite (IH (a ++ [x]) b); [reflexivity|now rewrite <- app_assoc|cbn in Hn; lia]. }
    exact (X _ [] l eq_refl H).
  Qed.

  (** ** Glyphs *)
  Definition part_turn (g : bglyph V) (e : b_entry V) : bglyph V :=
    match e with
    | BUnicodes l => BGlyph (bg_name g) (bg_data g) (bg_unicodes g ++ l) (bg_mask g) (bg_fields g)
    | BMask l => BGlyph (bg_name g) (bg_data g) (bg_unicodes g) (bg_mask g ++ l) (bg_fields g)
    | BField f v => BGlyph (bg_name g) (bg_data g) (bg_unicodes g) (bg_mask g) (aset field_eqb f v (bg_fields g))
    | _ => g
    end.
  Definition same (s s' : bstate V) : Prop := bs_glyphs s' = bs_glyphs s /\ bs_order s' = bs_order s /\ bs_kerning s' = bs_kerning s.
  Lemma rest_ok : forall es (s : bstate V) g, Forall no_glyph es -> bs_current s = Some g ->
    exists s', b_loop s es = Ok s' /\ bs_current s' = Some (fold_left part_turn es g) /\ same s s'.
  Proof.
    induction es as [|e es IH]; intros s g F C; cbn [b_loop fold_left].
    - exists s. unfold same. auto.
    - inversion F as [|? ? N F']; subst.
      assert (X : exists s1, b_add s e = Ok s1 /\ bs_current s1 = Some (part_turn g e) /\ same s s1).
      { destruct e; cbn [b_add part_turn]; try contradiction; unfold with_glyph; rewrite ?C; eexists; (split; [reflexivity|]); cbn; unfold same; cbn; auto. }
      destruct X as (s1 & -> & C1 & S1). cbn [rthen]. destruct (IH s1 _ F' C1) as (s2 & -> & C2 & S2). exists s2. split; [reflexivity|]. split; [assumption|].
      unfold same in *. intuition congruence.
  Qed.
  Lemma front_ok : forall es (s : bstate V), Forall no_part es -> bs_current s = None -> exists s', b_loop s es = Ok s' /\ bs_current s' = None /\ same s s'.
  Proof.
    induction es as [|e es IH]; intros s F C; cbn [b_loop].
    - exists s. unfold same. auto.
    - inversion F as [|? ? N F']; subst.
      assert (X : exists s1, b_add s e = Ok s1 /\ bs_current s1 = None /\ same s s1).
      { destruct e; cbn [b_add]; try contradiction; eexists; (split; [reflexivity|]); cbn; unfold same; cbn; auto. }
      destruct X as (s1 & -> & C1 & S1). cbn [rthen]. destruct (IH s1 F' C1) as (s2 & -> & C2 & S2). exists s2. split; [reflexivity|]. split; [assumption|].
      unfold same in *. intuition congruence.
  Qed.
  Lemma In_fset : forall (d : list (field * V)) f v f' w, NoDup (map fst d) ->
    (In (f', w) (aset field_eqb f v d) <-> (f' = f /\ w = v) \/ (f' <> f /\ In (f', w) d)).
  Proof.
    intros d f v f' w N. pose proof (aset_nodup field_eqb field_eqb_eq f v d N) as N'. split.
    - intros H. apply (In_aget field_eqb field_eqb_eq _ _ _ N') in H. rewrite (aget_aset field_eqb field_eqb_eq) in H.
      destruct (field_eqb f' f) eqn:E; [apply field_eqb_eq in E; left; split; congruence|]. right. split; [intros ->; assert (field_eqb f f = true) by (now apply field_eqb_eq); congruence|].
      now apply (aget_In field_eqb field_eqb_eq).
    - intros H. apply (aget_In field_eqb field_eqb_eq). rewrite (aget_aset field_eqb field_eqb_eq). destruct H as [(-> & ->)|(H & I)].
      + assert (E : field_eqb f f = true) by (now apply field_eqb_eq). now rewrite E.
      + destruct (field_eqb f' f) eqn:E; [apply field_eqb_eq in E; contradiction|]. now apply (In_aget field_eqb field_eqb_eq).
  Qed.
  Lemma last_snoc : forall f es e v, last_value f (es ++ [e]) v <-> (e = BField f v) \/ ((forall w, e <> BField f w) /\ @last_value V f es v).
  Proof.
    intros f es e v. split.
    - intros (a & c & E & N). destruct c as [|x c] using rev_ind.
      + apply app_inj_tail in E. left. now destruct E.
      + clear IHc. change (a ++ BField f v :: c ++ [x]) with (a ++ (BField f v :: c) ++ [x]) in E. rewrite app_assoc in E. apply app_inj_tail in E. destruct E as (-> & ->).
        right. split; [intros w ->; apply (N w), in_or_app; right; now left|]. exists a, c. split; [reflexivity|]. intros w H. apply (N w), in_or_app. now left.
    - intros [->|(N & a & c & -> & M)].
      + exists es, []. split; [reflexivity|]. intros w [].
      + exists a, (c ++ [e]). split; [now rewrite <- app_assoc|]. intros w H. apply in_app_or in H. destruct H as [H|[H|[]]]; [now apply (M w)|now apply (N w)].
  Qed.
  Lemma fold_glyph : forall name kerning data es, let g := fold_left part_turn es (BGlyph name data [] [] []) in
    glyph_of (Block name kerning data es) g /\ NoDup (map fst (bg_fields g)).
  Proof.
    intros name kerning data es. induction es as [|e es IH] using rev_ind; cbv zeta in *.
    - split; [|constructor]. split; [reflexivity|]. split; [reflexivity|]. split; [reflexivity|]. split; [reflexivity|]. cbn. intros f v. split; [intros []|].
      intros (a & c & E & _). destruct a; discriminate.
    - rewrite fold_left_app. cbn [fold_left]. destruct IH as ((A & B & C & D & F) & N). set (g := fold_left part_turn es _) in *. cbn [bl_name bl_data bl_rest] in *.
      unfold glyph_of. cbn [bl_name bl_data bl_rest]. rewrite !map_app, !concat_app. cbn [map concat].
      destruct e; cbn [part_turn bg_name bg_data bg_unicodes bg_mask bg_fields app]; rewrite ?app_nil_r;
        (split; [split; [assumption|]; split; [assumption|]; split; [congruence|]; split; [congruence|]|]); try assumption;
        try (intros f0 v0; rewrite last_snoc, F; split; [right; split; [discriminate|assumption]|intros [H|H]; [discriminate|tauto]]).
      + intros f0 v0. rewrite In_fset by assumption. rewrite last_snoc, F. split.
        * intros [(-> & ->)|(H & I)]; [now left|right]. split; [|assumption]. intros w E. injection E as E _. congruence.
        * intros [E|(H & I)]; [left; split; congruence|right]. split; [|assumption]. intros ->. now apply (H v).
      + now apply (aset_nodup field_eqb field_eqb_eq).
  Qed.

  Lemma free_ok : forall (glyphs : list (pystr * bglyph V)) name n i,
    match free_name glyphs name n i with
    | Some k => exists j, i <= j < i + Z.of_nat n /\ k = with_number name j /\ ~ In k (map fst glyphs) /\
                  forall l, i <= l < j -> In (with_number name l) (map fst glyphs)
    | None => forall l, i <= l < i + Z.of_nat n -> In (with_number name l) (map fst glyphs)
    end.
  Proof.
    intros glyphs name. induction n as [|n IH]; intros i; cbn [free_name]; [lia|]. fold (with_number name i).
    destruct (aget str_eqb (with_number name i) glyphs) eqn:E.
    - assert (I : In (with_number name i) (map fst glyphs)) by (apply (aget_In str_eqb str_eqb_eq) in E; apply in_map_iff; eexists; split; [|exact E]; reflexivity).
      specialize (IH (i + 1)). destruct (free_name glyphs name n (i + 1)) as [k|].
      + destruct IH as (j & R & -> & N & B). exists j. split; [lia|]. split; [reflexivity|]. split; [assumption|]. intros l Hl.
        destruct (Z.eq_dec l i) as [->|]; [assumption|]. apply B. lia.
      + intros l Hl. destruct (Z.eq_dec l i) as [->|]; [assumption|]. apply IH. lia.
    - exists i. split; [lia|]. split; [reflexivity|]. split; [|lia]. intros H. apply in_map_iff in H. destruct H as ([k g] & Ek & H). cbn in Ek. subst k.
      eapply (aget_None str_eqb str_eqb_eq) in E. apply E. apply in_map_iff. exists (with_number name i, g). auto.
  Qed.

  Definition kern (d : list ((pystr * Z) * list Z)) (b : block V) : list ((pystr * Z) * list Z) :=
    fold_left (fun d x => aset pair_eqb (bl_name b, fst x) (snd x) d) (bl_kerning b) d.
  Definition stored_ok (done : list (block V)) (keys : list pystr) (glyphs : list (pystr * bglyph V)) (order : list pystr) : Prop :=
    map fst glyphs = keys /\ order = keys /\ Forall2 glyph_of done (map snd glyphs) /\ NoDup keys /\ keys_of (map bl_name done) keys.
  Definition inv (done : list (block V)) (cur : block V) (keys : list pystr) (s : bstate V) : Prop :=
    exists g, bs_current s = Some g /\ glyph_of cur g /\ stored_ok done keys (bs_glyphs s) (bs_order s) /\ bs_kerning s = fold_left kern (done ++ [cur]) [].

  Lemma in_nth : forall A (l : list A) x, In x l -> exists k, nth_error l k = Some x. Proof. intros A l x H. now apply In_nth_error. Qed.
  Lemma NoDup_snoc : forall A (l : list A) x, NoDup l -> ~ In x l -> NoDup (l ++ [x]).
  Proof.
    intros A l x N H. apply NoDup_rev in N. rewrite <- (rev_involutive (l ++ [x])). apply NoDup_rev. rewrite rev_app_distr. cbn. constructor; [|assumption].
    intros K. apply in_rev in K. contradiction.
  Qed.
  Lemma crowd : forall name names keys, keys_of names keys -> (forall i, 0 <= i < 255 -> In (with_number name i) keys) ->
    (255 <= List.length (filter (similar name) names))%nat.
  Proof.
    intros name names keys (L & K) A.
    set (cands := map (fun k => with_number name (Z.of_nat k)) (seq 0 255)).
    assert (Lc : List.length cands = 255%nat) by (unfold cands; rewrite map_length, seq_length; reflexivity).
    set (pairs := filter (fun p => similar name (fst p)) (combine names keys)).
    assert (Lp : List.length pairs = List.length (filter (similar name) names)).
    { unfold pairs. clear - L. revert keys L. induction names as [|n names IH]; intros [|k keys] L; try discriminate; [reflexivity|]. cbn [combine filter fst].
      destruct (similar name n); cbn [List.length]; rewrite IH; auto. }
    rewrite <- Lp, <- Lc, <- (map_length snd pairs). apply NoDup_incl_length.
    - unfold cands. apply FinFun.Injective_map_NoDup; [|apply seq_NoDup]. intros a b E. apply with_number_inj in E. lia.
    - intros c Hc. unfold cands in Hc. apply in_map_iff in Hc. destruct Hc as (i & <- & Hi). apply in_seq in Hi.
      destruct (in_nth _ _ _ (A (Z.of_nat i) ltac:(lia))) as (k & Hk).
      destruct (nth_error names k) as [n|] eqn:Hn; [|apply nth_error_None in Hn; assert (nth_error keys k <> None) by congruence; apply nth_error_Some in H; lia].
      apply in_map_iff. exists (n, with_number name (Z.of_nat i)). split; [reflexivity|]. apply filter_In. cbn [fst]. split.
      + clear - Hk Hn. revert names keys Hk Hn. induction k as [|k IH]; intros [|a names] [|b keys] Hk Hn; try discriminate; cbn in *; [left; congruence|right; eauto].
      + specialize (K k n _ Hn Hk). unfold similar. destruct K as [(_ & <-)|(_ & j & _ & E & _)].
        * unfold with_number. rewrite app_assoc, starts_app. now rewrite Bool.orb_true_r.
        * apply with_number_inj in E. destruct E as (<- & _). now rewrite str_eqb_refl.
  Qed.
  Lemma keys_snoc : forall names keys n k, keys_of names keys -> chosen keys n k -> keys_of (names ++ [n]) (keys ++ [k]).
  Proof.
    intros names keys n k (L & K) C. split; [rewrite !app_length; cbn; lia|]. intros i name key Hn Hk.
    destruct (Nat.lt_trichotomy i (List.length keys)) as [H|[H|H]].
    - rewrite nth_error_app1 in Hn, Hk by lia. rewrite firstn_app. replace (i - _)%nat with 0%nat by lia. cbn [firstn]. rewrite app_nil_r. eauto.
    - subst i. rewrite nth_error_app2 in Hk by lia. rewrite nth_error_app2 in Hn by lia. rewrite Nat.sub_diag in Hk. replace (_ - _)%nat with 0%nat in Hn by lia.
      cbn in Hn, Hk. injection Hn as <-. injection Hk as <-. rewrite firstn_app, Nat.sub_diag, firstn_all. cbn [firstn]. now rewrite app_nil_r.
    - rewrite nth_error_app2 in Hk by lia. destruct (i - List.length keys)%nat as [|m] eqn:E; [lia|]. destruct m; discriminate.
  Qed.
  Lemma put_ok : forall done keys glyphs order b g k, stored_ok done keys glyphs order -> glyph_of b g -> ~ In k keys -> chosen keys (bl_name b) k ->
    stored_ok (done ++ [b]) (keys ++ [k]) (aset str_eqb k g glyphs) (order ++ [k]).
  Proof.
    intros done keys glyphs order b g k (A & -> & F & N & K) G Hk C. subst keys. rewrite (aset_notin str_eqb str_eqb_eq) by assumption.
    unfold stored_ok. rewrite !map_app. cbn [map fst snd]. split; [reflexivity|]. split; [reflexivity|]. split; [|split].
    - apply Forall2_app; [assumption|]. constructor; [assumption|constructor].
    - now apply NoDup_snoc.
    - now apply keys_snoc.
  Qed.
  Lemma store_ok : forall done cur keys s, inv done cur keys s ->
    (List.length (filter (similar (bl_name cur)) (map bl_name done)) < 255)%nat ->
    exists k, stored_ok (done ++ [cur]) (keys ++ [k]) (bs_glyphs (store_glyph s)) (bs_order (store_glyph s)) /\
      bs_kerning (store_glyph s) = bs_kerning s.
  Proof.
    intros done cur keys s (g & C & G & S & Kn) Cr. unfold store_glyph. rewrite C. cbv zeta.
    destruct S as (A & B). assert (En : bg_name g = bl_name cur) by apply G. rewrite En.
    destruct (aget str_eqb (bl_name cur) (bs_glyphs s)) eqn:E.
    - assert (I : In (bl_name cur) keys) by (rewrite <- A; apply (aget_In str_eqb str_eqb_eq) in E; apply in_map_iff; eexists; split; [|exact E]; reflexivity).
      pose proof (free_ok (bs_glyphs s) (bl_name cur) 255 0) as Fr. destruct (free_name (bs_glyphs s) (bl_name cur) 255 0) as [k|].
      + destruct Fr as (j & R & -> & N & Bl). rewrite A in *. exists (with_number (bl_name cur) j). split; [|reflexivity]. cbn [bs_glyphs bs_order].
        apply put_ok; [split; assumption|assumption|assumption|]. right. split; [assumption|]. exists j. split; [lia|]. auto.
      + exfalso. rewrite A in Fr. destruct B as (_ & _ & _ & K). pose proof (crowd (bl_name cur) _ _ K Fr). lia.
    - apply (aget_None str_eqb str_eqb_eq) in E. rewrite A in E. exists (bl_name cur). split; [|reflexivity]. cbn [bs_glyphs bs_order].
      apply put_ok; [split; assumption|assumption|assumption|]. left. auto.
  Qed.
  Lemma enter : forall b (s : bstate V) done keys es, Forall no_glyph (bl_rest b) ->
    stored_ok done keys (bs_glyphs s) (bs_order s) -> bs_kerning s = fold_left kern done [] ->
    exists s', b_loop (new_glyph (bl_name b) (bl_kerning b) (bl_data b) s) (bl_rest b ++ es) = b_loop s' es /\ inv done b keys s'.
  Proof.
    intros b s done keys es F S K.
    destruct (rest_ok (bl_rest b) (new_glyph (bl_name b) (bl_kerning b) (bl_data b) s) (BGlyph (bl_name b) (bl_data b) [] [] []) F eq_refl) as (s' & E & C & (S1 & S2 & S3)).
    exists s'. split.
    - clear - E. revert E. generalize (new_glyph (bl_name b) (bl_kerning b) (bl_data b) s). induction (bl_rest b) as [|e l IH]; intros t E; cbn [b_loop app] in *.
      + apply Ok_inj in E. now subst.
      + destruct (b_add t e); [|discriminate]. cbn [rthen] in *. now apply IH.
    - eexists. split; [exact C|]. split; [|split].
      + destruct (fold_glyph (bl_name b) (bl_kerning b) (bl_data b) (bl_rest b)) as (G & _). destruct b; exact G.
      + rewrite S1, S2. exact S.
      + rewrite S3, fold_left_app. cbn [fold_left new_glyph bs_kerning]. rewrite K. reflexivity.
  Qed.
  Lemma blocks_ok : forall blocks done cur keys s, inv done cur keys s -> Forall (fun b => Forall no_glyph (bl_rest b)) blocks ->
    not_crowded (map bl_name (removelast (done ++ cur :: blocks))) ->
    exists s' done' cur' keys', b_loop s (concat (map (fun b => BGlyphE (bl_name b) (bl_kerning b) (bl_data b) :: bl_rest b) blocks)) = Ok s' /\
      inv done' cur' keys' s' /\ done ++ cur :: blocks = done' ++ [cur'].
  Proof.
    induction blocks as [|b blocks IH]; intros done cur keys s I F N; cbn [map concat].
    - exists s, done, cur, keys. auto.
    - inversion F as [|? ? Fb F']; subst. cbn [app b_loop b_add rthen].
      destruct (store_ok done cur keys s I) as (k & S & Kn).
      { unfold not_crowded in N. rewrite Forall_forall in N. specialize (N (bl_name cur)).
        assert (Er : removelast (done ++ cur :: b :: blocks) = done ++ [cur] ++ removelast (b :: blocks)).
        { rewrite removelast_app by discriminate. reflexivity. }
        rewrite Er in N. rewrite map_app in N. cbn [map app] in N. specialize (N ltac:(apply in_or_app; right; now left)).
        rewrite filter_app, app_length in N. cbn [filter] in N. unfold similar at 2 in N. rewrite str_eqb_refl in N. cbn [orb List.length] in N. lia. }
      assert (Kn2 : bs_kerning (store_glyph s) = fold_left kern (done ++ [cur]) []) by (rewrite Kn; now destruct I as (g & _ & _ & _ & ->)).
      destruct (enter b (store_glyph s) (done ++ [cur]) (keys ++ [k]) (concat (map (fun b => BGlyphE (bl_name b) (bl_kerning b) (bl_data b) :: bl_rest b) blocks)) Fb S Kn2) as (s1 & E & I1).
      cbn [app] in E. rewrite E. 
      destruct (IH (done ++ [cur]) b (keys ++ [k]) s1 I1 F') as (s2 & done' & cur' & keys' & E2 & I2 & D).
      { now rewrite <- app_assoc. }
      exists s2, done', cur', keys'. split; [assumption|]. split; [assumption|]. now rewrite <- D, <- app_assoc.
  Qed.
  Lemma build_ok : forall front blocks, file_ok front blocks -> blocks <> [] -> not_crowded (map bl_name (removelast blocks)) ->
    exists s done cur keys, build (file front blocks) = Ok (fix_masters_count (store_last s)) /\ inv done cur keys s /\ blocks = done ++ [cur].
  Proof.
    intros front [|b blocks] (Ff & Fb) Ne N; [contradiction|].
    destruct (front_ok front b_start Ff eq_refl) as (s0 & E0 & C0 & (S1 & S2 & S3)).
    inversion Fb as [|? ? Fb1 Fb2]; subst. unfold build, file. cbn [map concat].
    assert (Sp : forall es s s' fs, b_loop s es = Ok s' -> b_loop s (es ++ fs) = @b_loop V s' fs).
    { clear. induction es as [|e es IH]; intros s s' fs E; cbn [b_loop app] in *; [apply Ok_inj in E; now subst|].
      destruct (b_add s e); [|discriminate]. cbn [rthen] in *. now apply IH. }
    rewrite (Sp _ _ _ _ E0). cbn [app b_loop b_add rthen]. unfold store_glyph. rewrite C0.
    destruct (enter b s0 [] [] (concat (map (fun b => BGlyphE (bl_name b) (bl_kerning b) (bl_data b) :: bl_rest b) blocks)) Fb1) as (s1 & E1 & I1).
    { rewrite S1, S2. split; [reflexivity|]. split; [reflexivity|]. split; [constructor|]. split; [constructor|]. split; [reflexivity|]. intros [|i] n k H; discriminate H. }
    { rewrite S3. reflexivity. }
    rewrite E1. destruct (blocks_ok blocks [] b [] s1 I1 Fb2) as (s2 & done & cur & keys & E2 & I2 & D); [exact N|].
    rewrite E2. cbn [rmap]. exists s2, done, cur, keys. auto.
  Qed.
End Any.
