(** C53 and C54: glyphs and masters of the export. *)
From Coq Require Import String.
From Verif Require Import Base M_Py M_Builder S_Builder Lib P_Builder.
Local Open Scope list_scope.

Lemma aset_same : forall A k (v : A) d, In k (map fst d) -> map fst (aset str_eqb k v d) = map fst d.
Proof.
  induction d as [|[n w] d IH]; intros H; [destruct H|]. cbn. destruct (str_eqb k n) eqn:E; [apply str_eqb_eq in E; subst; reflexivity|].
  cbn. f_equal. apply IH. destruct H as [H|H]; [|assumption]. cbn in H. subst. now rewrite str_eqb_refl in E.
Qed.
Lemma keys_same : forall names keys, keys_of names keys -> NoDup names -> keys = names.
Proof.
  intros names keys (L & K) N.
  assert (X : forall n, (n <= List.length names)%nat -> firstn n keys = firstn n names).
  { induction n as [|n IH]; intros H; [reflexivity|].
    destruct (nth_error names n) as [a|] eqn:Ea; [|apply nth_error_None in Ea; lia]. destruct (nth_error keys n) as [b|] eqn:Eb; [|apply nth_error_None in Eb; lia].
    assert (S : forall (l : list pystr) m x, nth_error l m = Some x -> firstn (S m) l = firstn m l ++ [x]).
    { induction l as [|y l IHl]; intros [|m] x E; try discriminate; [cbn in *; congruence|]. cbn in E. change (firstn (S (S m)) (y :: l)) with (y :: firstn (S m) l). rewrite (IHl m x E). reflexivity. }
    rewrite (S _ _ _ Ea), (S _ _ _ Eb), IH by lia. f_equal. f_equal. specialize (K n a b Ea Eb). rewrite IH in K by lia. destruct K as [(_ & ->)|(I & _)]; [reflexivity|].
    exfalso. destruct (nth_error_split _ _ Ea) as (p & q & -> & Lp). rewrite <- Lp, firstn_app, Nat.sub_diag, firstn_all in I. cbn in I. rewrite app_nil_r in I.
    apply NoDup_remove_2 in N. apply N, in_or_app. now left. }
  specialize (X (List.length names) (Nat.le_refl _)). rewrite firstn_all in X. rewrite <- L, firstn_all in X. assumption.
Qed.
Lemma pair_eqb_eq : forall a b, pair_eqb a b = true <-> a = b.
Proof.
  intros [a i] [b j]. unfold pair_eqb. cbn [fst snd]. rewrite Bool.andb_true_iff, str_eqb_eq, Z.eqb_eq. split; [intros (-> & ->); reflexivity|]. intros E. injection E as -> ->. auto.
Qed.
Lemma kern_ok : forall V (blocks : list (block V)), NoDup (map bl_name blocks) -> Forall (fun b => NoDup (map fst (bl_kerning b))) blocks ->
  fold_left (kern V) blocks [] = concat (map (fun b => map (fun x => ((bl_name b, fst x), snd x)) (bl_kerning b)) blocks).
Proof.
  intros V blocks N F.
  assert (X : forall blocks d, NoDup (map bl_name blocks) -> Forall (fun b : block V => NoDup (map fst (bl_kerning b))) blocks ->
    (forall b, In b blocks -> ~ In (bl_name b) (map (fun x => fst (fst x)) d)) ->
    fold_left (kern V) blocks d = d ++ concat (map (fun b => map (fun x => ((bl_name b, fst x), snd x)) (bl_kerning b)) blocks)).
  { clear. induction blocks as [|b blocks IH]; intros d N F H; cbn [fold_left map concat]; [now rewrite app_nil_r|].
    inversion N as [|? ? Nb N']; subst. inversion F as [|? ? Fb F']; subst.
    assert (Y : kern V d b = d ++ map (fun x => ((bl_name b, fst x), snd x)) (bl_kerning b)).
    { unfold kern. assert (Hd : forall x, In x (bl_kerning b) -> ~ In (bl_name b, fst x) (map fst d)).
      { intros x _ I. apply (H b (or_introl eq_refl)). apply in_map_iff in I. destruct I as (y & E & I). apply in_map_iff. exists y. rewrite E. auto. }
      clear - Fb Hd. revert d Hd. induction (bl_kerning b) as [|x l IH]; intros d Hd; cbn [fold_left map]; [now rewrite app_nil_r|].
      inversion Fb as [|? ? Nx Nl]; subst. rewrite (aset_notin pair_eqb pair_eqb_eq) by (apply Hd; now left). rewrite IH; [now rewrite <- app_assoc|assumption|].
      intros y Iy K. rewrite map_app in K. apply in_app_or in K. destruct K as [K|[K|[]]]; [apply (Hd y); [now right|assumption]|].
      cbn in K. injection K as K. apply Nx. rewrite K. now apply in_map. }
    rewrite Y, IH; auto; [now rewrite <- app_assoc|]. intros c Ic K. rewrite map_app in K. apply in_app_or in K. destruct K as [K|K]; [apply (H c); [now right|assumption]|].
    rewrite map_map in K. apply in_map_iff in K. destruct K as (y & E & _). cbn in E. apply Nb. rewrite E. now apply in_map. }
  now rewrite X.
Qed.

(** ** C54 *)
(** All glyphs but the last get distinct names. If the last glyph has a name that is not taken, there is one
    glyph per glyph entry, in the order of the file, with the data of its entries; else there is one glyph
    fewer. *)
Theorem C54_glyphs : forall V front before (last : block V),
  file_ok front (before ++ [last]) -> not_crowded (map bl_name before) ->
  exists s keys, build (file front (before ++ [last])) = Ok s /\
    keys_of (map bl_name before) keys /\ NoDup keys /\
    (~ In (bl_name last) keys ->
       map fst (bs_glyphs s) = keys ++ [bl_name last] /\ bs_order s = keys ++ [bl_name last] /\
       Forall2 glyph_of (before ++ [last]) (map snd (bs_glyphs s))) /\
    (In (bl_name last) keys -> List.length (bs_glyphs s) = List.length before).
Proof.
  intros V front before lst F N.
  destruct (build_ok V front (before ++ [lst]) F) as (s & done & cur & keys & E & (g & C & G & S & K) & D).
  { destruct before; discriminate. }
  { now rewrite removelast_last. }
  apply app_inj_tail in D. destruct D as (<- & <-). eexists. exists keys. split; [exact E|].
  pose proof S as (A & B & F2 & Nk & Ko). split; [assumption|]. split; [assumption|].
  assert (Fx : forall t : bstate V, bs_glyphs (fix_masters_count t) = bs_glyphs t /\ bs_order (fix_masters_count t) = bs_order t).
  { intros t. unfold fix_masters_count. cbv zeta. destruct (_ <? _); auto. }
  destruct (Fx (store_last s)) as (-> & ->). unfold store_last. rewrite C. cbn [bs_glyphs bs_order].
  assert (En : bg_name g = bl_name lst) by apply G. rewrite En. split.
  - intros H. rewrite (aset_notin str_eqb str_eqb_eq) by now rewrite A. rewrite !map_app, A, B. cbn [map fst snd].
    split; [reflexivity|]. split; [reflexivity|]. apply Forall2_app; [assumption|]. constructor; [assumption|constructor].
  - intros H. rewrite <- (map_length fst), aset_same by (rewrite A; exact H). rewrite A. destruct Ko as (L & _). now rewrite L, map_length.
Qed.

(** With distinct names the names are kept, and kerning is kept for the glyphs it is given for. *)
Theorem C54_distinct : forall V front (blocks : list (block V)),
  file_ok front blocks -> blocks <> [] -> not_crowded (map bl_name (removelast blocks)) ->
  NoDup (map bl_name blocks) -> Forall (fun b => NoDup (map fst (bl_kerning b))) blocks ->
  exists s, build (file front blocks) = Ok s /\
    map fst (bs_glyphs s) = map bl_name blocks /\ bs_order s = map bl_name blocks /\
    Forall2 glyph_of blocks (map snd (bs_glyphs s)) /\
    forall name right values, In ((name, right), values) (bs_kerning s) <->
      exists b, In b blocks /\ bl_name b = name /\ In (right, values) (bl_kerning b).
Proof.
  intros V front blocks F Ne Nc N Fk.
  destruct (build_ok V front blocks F Ne Nc) as (s & done & cur & keys & E & (g & C & G & S & K) & D).
  eexists. split; [exact E|]. pose proof S as (A & B & F2 & Nk & Ko).
  assert (Fx : forall t : bstate V, bs_glyphs (fix_masters_count t) = bs_glyphs t /\ bs_order (fix_masters_count t) = bs_order t /\ bs_kerning (fix_masters_count t) = bs_kerning t).
  { intros t. unfold fix_masters_count. cbv zeta. destruct (_ <? _); auto. }
  destruct (Fx (store_last s)) as (-> & -> & ->). unfold store_last. rewrite C. cbn [bs_glyphs bs_order bs_kerning].
  assert (En : bg_name g = bl_name cur) by apply G. rewrite En. subst blocks. rewrite map_app in N. cbn [map] in N.
  apply keys_same in Ko; [|apply NoDup_remove_1 in N; now rewrite app_nil_r in N]. subst keys.
  assert (Nn : ~ In (bl_name cur) (map fst (bs_glyphs s))) by (rewrite Ko; apply NoDup_remove_2 in N; now rewrite app_nil_r in N).
  rewrite (aset_notin str_eqb str_eqb_eq) by assumption. rewrite !map_app. cbn [map fst snd]. rewrite B, Ko. split; [reflexivity|]. split; [reflexivity|]. split.
  { apply Forall2_app; [assumption|]. constructor; [assumption|constructor]. }
  intros name right values. rewrite K, kern_ok; [|now rewrite map_app|assumption]. rewrite in_concat. split.
  - intros (l & I & H). apply in_map_iff in I. destruct I as (b & <- & I). apply in_map_iff in H. destruct H as ([r v] & H & I2). cbn [fst snd] in H.
    injection H as <- <- <-. exists b. auto.
  - intros (b & I & <- & H). eexists. split; [apply in_map_iff; exists b; split; [reflexivity|assumption]|]. apply in_map_iff. exists (right, values). auto.
Qed.

(** The last glyph replaces a glyph of the same name; the order lists the name twice. *)
Theorem C54_last_refuted : exists (blocks : list (block Z)) s g, List.length blocks = 3%nat /\ file_ok [] blocks /\
  build (file [] blocks) = Ok s /\ bs_glyphs s = [(py "a", g); (py "b", BGlyph (py "b") 2 [] [] [])] /\
  bg_data g = 3 /\ bs_order s = [py "a"; py "b"; py "a"].
Proof.
  exists [Block (py "a") [] 1 []; Block (py "b") [] 2 []; Block (py "a") [] 3 []]. do 2 eexists. split; [reflexivity|].
  split; [split; repeat constructor|]. split; [vm_compute; reflexivity|]. split; [reflexivity|]. split; reflexivity.
Qed.
(** A glyph that is renamed loses its kerning to the glyph that has the name. *)
Theorem C54_kerning_refuted : exists (blocks : list (block Z)) s, file_ok [] blocks /\ build (file [] blocks) = Ok s /\
  bs_order s = [py "a"; py "a#0"; py "b"] /\ map bl_kerning blocks = [[(2, [10])]; [(2, [20])]; []] /\
  bs_kerning s = [((py "a", 2), [20])].
Proof.
  exists [Block (py "a") [(2, [10])] 1 []; Block (py "a") [(2, [20])] 2 []; Block (py "b") [] 3 []]. eexists.
  split; [split; repeat constructor|]. split; [vm_compute; reflexivity|]. split; [reflexivity|]. split; reflexivity.
Qed.
(** 257 glyphs of the same name and another one: one glyph is lost, as only 255 numbers are tried. *)
Definition crowd_blocks : list (block Z) := map (fun i => Block (py "a") [] (Z.of_nat i) []) (seq 0 257) ++ [Block (py "b") [] 0 []].
Theorem C54_crowded_refuted : exists s, build (file [] crowd_blocks) = Ok s /\ List.length crowd_blocks = 258%nat /\ List.length (bs_glyphs s) = 257%nat.
Proof. eexists. split; [vm_compute; reflexivity|]. split; vm_compute; reflexivity. Qed.

(** ** C53 *)
(** The names of masters are those of the file, completed by numbered names. *)
Theorem C53_completed : forall V (es : list (b_entry V)) s, build es = Ok s ->
  let count := if axes_of es =? 0 then 1 else axes_of es ^ 2 in
  let have := List.length (entry_names es) in
  firstn have (bs_masters s) = entry_names es /\
  Z.of_nat (List.length (bs_masters s)) = Z.max (Z.of_nat have) count /\
  forall k, (have <= k < List.length (bs_masters s))%nat -> nth_error (bs_masters s) k = Some (py "m" ++ dec_str (Z.of_nat k)).
Proof.
  intros V es s H. destruct (build_masters V es s H) as (M & _). cbv zeta in *. rewrite M.
  assert (P : 0 <= (if axes_of es =? 0 then 1 else axes_of es ^ 2)) by (destruct (_ =? _); [lia|]; rewrite Z.pow_2_r; nia).
  set (count := if axes_of es =? 0 then 1 else axes_of es ^ 2) in *.
  split; [rewrite firstn_app, Nat.sub_diag, firstn_all; cbn; apply app_nil_r|]. split.
  - rewrite app_length, synthetic_length. lia.
  - intros k Hk. rewrite app_length, synthetic_length in Hk. rewrite nth_error_app2 by lia. rewrite synthetic_nth by lia. do 3 f_equal. lia.
Qed.
(** Two to the number of axes for none, two or four axes. *)
Theorem C53_count : forall V (es : list (b_entry V)) s, build es = Ok s -> In (axes_of es) [0; 2; 4] ->
  Z.of_nat (List.length (bs_masters s)) = Z.max (Z.of_nat (List.length (entry_names es))) (2 ^ axes_of es).
Proof.
  intros V es s H I. destruct (C53_completed V es s H) as (_ & E & _). cbv zeta in E. rewrite E.
  cbn [In] in I. destruct I as [<-|[<-|[<-|[]]]]; reflexivity.
Qed.
(** One axis, names of the masters missing: one master instead of two. *)
Theorem C53_one_axis_refuted : exists (es : list (b_entry Z)) s, build es = Ok s /\ axes_of es = 1 /\ List.length (bs_masters s) = 1%nat.
Proof. exists [BAxisCount 1; BPsInfo 1; BPsInfo 2]. eexists. split; [vm_compute; reflexivity|]. split; reflexivity. Qed.
(** Three axes and all eight masters in the file: there are nine, and the export fails, as there are eight
    PostScript infos. *)
Theorem C53_three_axes_refuted : forall V (es : list (b_entry V)) s, build es = Ok s -> axes_of es = 3 ->
  List.length (entry_names es) = 8%nat -> List.length (entry_infos es) = 8%nat ->
  List.length (bs_masters s) = 9%nat /\ master_infos s = Err IndexError.
Proof.
  intros V es s H A B C. destruct (C53_completed V es s H) as (_ & E & _). cbv zeta in E. rewrite A, B in E. cbn in E.
  assert (L : List.length (bs_masters s) = 9%nat) by lia. split; [assumption|]. apply infos_err. destruct (build_masters V es s H) as (_ & ->). lia.
Qed.
(** If there are as many infos as masters, each master gets its info. *)
Theorem C53_infos : forall V (es : list (b_entry V)) s, build es = Ok s ->
  List.length (entry_infos es) = List.length (bs_masters s) -> master_infos s = Ok (entry_infos es).
Proof.
  intros V es s H E. destruct (build_masters V es s H) as (_ & I). rewrite infos_ok by (rewrite I; lia). rewrite I, <- E. now rewrite firstn_all.
Qed.

Print Assumptions C54_glyphs. Print Assumptions C54_distinct. Print Assumptions C54_last_refuted. Print Assumptions C54_kerning_refuted.
Print Assumptions C54_crowded_refuted. Print Assumptions C53_completed. Print Assumptions C53_count. Print Assumptions C53_one_axis_refuted.
Print Assumptions C53_three_axes_refuted. Print Assumptions C53_infos.

(** ** Examples *)
Definition ex_blocks : list (block Z) :=
  [Block (py "a") [(1, [-10; -20])] 1 [BUnicodes [97]; BField FNote 5; BOther; BUnicodes [98; 99]; BField FNote 6];
   Block (py "a#0") [] 2 [BMask [(1, 2)]]; Block (py "a") [] 3 []; Block (py "b") [] 4 [BField FMark 7]].
Example ex_file_ok : file_ok [BAxisCount 1; BMasterName (py "L"); BMasterName (py "B")] ex_blocks /\ not_crowded (map bl_name (removelast ex_blocks)).
Proof. split; [split; repeat constructor|]. cbn. repeat apply Forall_cons; try apply Forall_nil; vm_compute; lia. Qed.
Example ex_build : exists s, build (file [BAxisCount 1; BMasterName (py "L"); BMasterName (py "B")] ex_blocks) = Ok s /\
  bs_glyphs s = [(py "a", BGlyph (py "a") 1 [97; 98; 99] [] [(FNote, 6)]); (py "a#0", BGlyph (py "a#0") 2 [] [(1, 2)] []);
                 (py "a#1", BGlyph (py "a") 3 [] [] []); (py "b", BGlyph (py "b") 4 [] [] [(FMark, 7)])] /\
  bs_masters s = [py "L"; py "B"].
Proof. eexists. split; [vm_compute; reflexivity|]. split; reflexivity. Qed.
Example ex_three : exists (es : list (b_entry Z)) s, build es = Ok s /\ axes_of es = 3 /\ List.length (entry_names es) = 8%nat /\ List.length (entry_infos es) = 8%nat.
Proof.
  exists (BAxisCount 3 :: map (fun i => BMasterName [65 + Z.of_nat i]) (seq 0 8) ++ map (fun i => BPsInfo (Z.of_nat i)) (seq 0 8)).
  eexists. split; [vm_compute; reflexivity|]. split; [reflexivity|]. split; reflexivity.
Qed.
