(** C09, C15: entries without data, and what reading, decompiling and compiling
    leave alone. *)
From Coq Require Import ZifyBool ZifyNat.
From Verif Require Import Base Lib M_Stream P_Stream M_Container S_File P_Container Prop_Container.
Open Scope rd_scope.
Ltac Zify.zify_post_hook ::= Z.div_mod_to_equations.

(** * C09: an entry whose data is None is written like an entry of no bytes, and
    the entries after it are still found when the file is read *)
Theorem C09_no_data : forall D (e : entry D) i es,
  e_id e = Some i -> e_data e = NoData -> e_cache e = None -> 0 <= i < 32768 ->
  snd (entry_header e) = Ok (frame i []) /\
  (let '(_, b, o) := write_entries (e :: es) in
   let '(_, b', o') := write_entries es in b = frame i [] ++ b' /\ o = o') /\
  (forall c rest, i <> 1410 ->
     @read_entry D c (frame i [] ++ rest) = ROk (mkEntry (Some i) (Raw []) None) rest).
Proof.
  intros D e i es Hi Hd Hc H.
  assert (E : entry_header e = (mkEntry (Some i) NoData (Some (frame i [])), Ok (frame i []))).
  { destruct (compute_header_frame (mkEntry (Some i) (@Raw D []) None) i []) as (h & Eh & Hh);
      try reflexivity; [split; [exact H|cbn; lia]|].
    unfold entry_header. rewrite Hc.
    assert (compute_header e = Ok (frame i [])) as ->.
    { rewrite <- Hh, app_nil_r, <- Eh. unfold compute_header, entry_size.
      rewrite Hi, Hd. reflexivity. }
    rewrite Hi, Hd. reflexivity. }
  split; [rewrite E; reflexivity|]. split.
  - cbn [write_entries]. rewrite E. cbn [e_data].
    destruct (write_entries es) as [[es' b'] o']. auto.
  - intros c rest N. apply C09_frame_read; [exact H|cbn; lia|intros X; congruence].
Qed.

(** * C15: the options of a Vfb, what is known of the font and the number and the
    ids of the entries stay what they are, whether an exception is raised or not *)
Definition same_options {D} (v v' : vfb D) : Prop :=
  v_drop v' = v_drop v /\ v_only_header v' = v_only_header v /\
  v_force_unicode v' = v_force_unicode v.
Definition same_font {D} (v v' : vfb D) : Prop :=
  v_ctx v' = v_ctx v /\ v_encoding v' = v_encoding v /\
  map e_id (v_entries v') = map e_id (v_entries v).

Lemma decompile_entries_ids : forall D (T : codecs D) c dk es es' b o,
  decompile_entries T c dk es = (es', b, o) -> map e_id es' = map e_id es.
Proof.
  induction es as [|e es IH]; intros es' b o H; cbn [decompile_entries] in H.
  - inversion H. reflexivity.
  - destruct (match e_id e with Some i => M_Container.zmem i dk | None => false end).
    + destruct (decompile_entries T c dk es) as [[es1 b1] o1]. inversion H; subst.
      cbn [map]. f_equal. eapply IH. reflexivity.
    + assert (K : e_id (fst (fst (entry_decompile T c e))) = e_id e).
      { unfold entry_decompile. destruct (e_id e) as [i|] eqn:Ei; [|exact Ei].
        destruct (e_data e); cbn; auto. destruct (cd_parse T i c b0); cbn; auto. }
      destruct (entry_decompile T c e) as [[e' b1] o1]. cbn [fst] in K.
      destruct o1 as [u|x].
      * destruct (decompile_entries T c dk es) as [[es1 b2] o2]. inversion H; subst.
        cbn [map]. rewrite K. f_equal. eapply IH. reflexivity.
      * inversion H; subst. cbn [map]. rewrite K. reflexivity.
Qed.

Lemma compile_entries_ids : forall D (T : codecs D) c es es' o,
  compile_entries T c es = (es', o) -> map e_id es' = map e_id es.
Proof.
  induction es as [|e es IH]; intros es' o H; cbn [compile_entries] in H.
  - inversion H. reflexivity.
  - assert (K : e_id (fst (entry_compile T c e)) = e_id e).
    { unfold entry_compile. destruct (e_data e); [reflexivity| |];
        destruct (e_id e) as [i|] eqn:Ei; cbn; auto; destruct (cd_compile T i); cbn; auto.
      - destruct (w c d); cbn; auto.
      - destruct (cd_compile_none T i); cbn; auto. }
    destruct (entry_compile T c e) as [e' o1]. cbn [fst] in K.
    destruct o1 as [u|x].
    * destruct (compile_entries T c es) as [es1 o2]. inversion H; subst.
      cbn [map]. rewrite K. f_equal. eapply IH. reflexivity.
    * inversion H; subst. cbn [map]. rewrite K. reflexivity.
Qed.

Theorem C15_decompile_keeps : forall D (T : codecs D) (v v' : vfb D) o,
  vfb_decompile T v = (v', o) -> same_options v v' /\ same_font v v'.
Proof.
  intros D T v v' o H. unfold vfb_decompile in H.
  destruct (header_decompile (v_header (with_errors false v))) as [h|x].
  - destruct (decompile_entries T _ _ _) as [[es err] o'] eqn:E. inversion H; subst.
    apply decompile_entries_ids in E. unfold same_options, same_font. cbn. cbn in E. auto 10.
  - inversion H; subst. unfold same_options, same_font. cbn. auto 10.
Qed.

Theorem C15_compile_keeps : forall D (T : codecs D) (v v' : vfb D) o,
  vfb_compile T v = (v', o) ->
  same_options v v' /\ same_font v v' /\ v_any_errors v' = v_any_errors v.
Proof.
  intros D T v v' o H. unfold vfb_compile in H.
  destruct (header_compile (v_header v)) as [h|x].
  - destruct (compile_entries T _ _) as [es o'] eqn:E. inversion H; subst.
    apply compile_entries_ids in E. unfold same_options, same_font. cbn. cbn in E. auto 10.
  - inversion H; subst. unfold same_options, same_font. auto 10.
Qed.

Lemma write_entries_ids : forall D (es es' : list (entry D)) b o,
  write_entries es = (es', b, o) ->
  map e_id es' = map e_id es /\ map e_data es' = map e_data es.
Proof.
  induction es as [|e es IH]; intros es' b o H; cbn [write_entries] in H.
  - inversion H. auto.
  - assert (K : e_id (fst (entry_header e)) = e_id e /\
                e_data (fst (entry_header e)) = e_data e).
    { unfold entry_header. destruct (e_cache e); [auto|].
      destruct (compute_header e); cbn; auto. }
    destruct (entry_header e) as [e' oh]. cbn [fst] in K. destruct K as [K1 K2].
    destruct oh as [h|x]; [|inversion H; subst; cbn [map]; rewrite K1, K2; auto].
    destruct (e_data e') eqn:Ed.
    + destruct (write_entries es) as [[es1 b1] o1]. inversion H; subst.
      destruct (IH _ _ _ eq_refl) as [J1 J2]. cbn [map]. rewrite K1, J1, Ed, K2, J2. auto.
    + inversion H; subst. cbn [map]. rewrite K1, Ed, K2. auto.
    + destruct (write_entries es) as [[es1 b1] o1]. inversion H; subst.
      destruct (IH _ _ _ eq_refl) as [J1 J2]. cbn [map]. rewrite K1, J1, Ed, K2, J2. auto.
Qed.

Theorem C15_write_keeps : forall D (T : codecs D) (v v' : vfb D) b o,
  vfb_write_bytes T v = (v', b, o) ->
  same_options v v' /\ same_font v v' /\ v_any_errors v' = v_any_errors v /\
  map e_data (v_entries v') = map e_data (v_entries (fst (vfb_compile T v))).
Proof.
  intros D T v v' b o H. unfold vfb_write_bytes in H.
  destruct (vfb_compile T v) as [v1 o1] eqn:E.
  destruct (C15_compile_keeps _ _ _ _ _ E) as (A & B & C). cbn [fst].
  destruct o1 as [u|x]; [|inversion H; subst; auto].
  destruct (v_header v1) as [h| |]; try (inversion H; subst; auto; fail).
  destruct (write_entries (v_entries v1)) as [[es b1] o2] eqn:E2. inversion H; subst.
  destruct (write_entries_ids _ _ _ _ _ E2) as [W1 W2].
  unfold same_options, same_font in *. cbn. rewrite W1, W2. intuition.
Qed.

Lemma read_loop_keeps : forall D (T : codecs D) fuel (v v' : vfb D) s o,
  read_loop T fuel v s = (v', o) -> same_options v v' /\ v_header v' = v_header v.
Proof.
  induction fuel as [|fuel IH]; intros v v' s o H; cbn [read_loop] in H.
  - inversion H; subst. unfold same_options. auto.
  - assert (App : forall i e (w : vfb D), same_options w (append_entry i e w) /\
                    v_header (append_entry i e w) = v_header w).
    { intros i e w. unfold append_entry. destruct (M_Container.zmem i (v_drop w));
        unfold same_options; cbn; auto. }
    assert (Rem : forall i d (w : vfb D), same_options w (remember T i d w) /\
                    v_header (remember T i d w) = v_header w).
    { intros i d w. unfold remember. destruct (i =? F_FLVersion); [|destruct (i =? F_MasterCount)];
        unfold same_options; cbn; auto. }
    assert (Tr : forall a b c : vfb D,
              same_options a b /\ v_header b = v_header a ->
              same_options b c /\ v_header c = v_header b ->
              same_options a c /\ v_header c = v_header a).
    { unfold same_options. intuition congruence. }
    destruct (read_entry (v_ctx v) s) as [e r|x r].
    + destruct (e_id e) as [i|]; [|inversion H; subst; unfold same_options; auto].
      destruct (is_eager i).
      * destruct (entry_decompile T (v_ctx v) e) as [[e' err] o1].
        destruct o1 as [u|x]; [|inversion H; subst; unfold same_options; cbn; auto].
        destruct (e_data e') as [b|d|].
        -- apply IH in H. eapply Tr; [apply App|exact H].
        -- apply IH in H. eapply Tr; [apply Rem|]. eapply Tr; [apply App|exact H].
        -- apply IH in H. eapply Tr; [apply App|exact H].
      * destruct (i =? F_BlockFileDataEnd).
        -- inversion H; subst. apply App.
        -- apply IH in H. eapply Tr; [apply App|exact H].
    + destruct x; inversion H; subst; unfold same_options; auto.
Qed.

Theorem C15_read_keeps : forall D (T : codecs D) fuel (v v' : vfb D) file o,
  vfb_read_bytes T fuel v file = (v', o) -> same_options v v'.
Proof.
  intros D T fuel v v' file o H. unfold vfb_read_bytes, read_stream in H.
  destruct (parse_header file) as [h r|x r].
  - destruct (v_only_header _).
    + inversion H; subst. unfold same_options. cbn. auto.
    + apply read_loop_keeps in H. destruct H as [H _]. exact H.
  - inversion H; subst. unfold same_options. cbn. auto.
Qed.

(** * C15: an entry that is decompiled while reading and cannot be: the exception is
    that of the parser, [any_errors] is set and the entries before it are there *)
Theorem C15_read_records : forall D (T : codecs D) minor l c' ds i d x rest fuel (v : vfb D),
  0 <= minor < 256 -> v_drop v = [] -> v_only_header v = false ->
  reads_as T (v_ctx v) l c' ds -> Forall framable l -> ~ In 2 (map fst l) ->
  In i [10; 1503; 1269] -> Z.of_nat (length d) < 2 ^ 32 -> cd_parse T i c' d = Err x ->
  exists w,
    vfb_read_bytes T (length l + S fuel) v (file_of minor l ++ frame i d ++ rest) =
      (w, RErr x rest) /\
    v_any_errors w = true /\ v_entries w = fresh_entries l ds.
Proof.
  intros D T minor l c' ds i d x rest fuel v Hm Hd Ho R F N Hi Hl P.
  unfold vfb_read_bytes, read_stream, file_of. rewrite <- app_assoc, parse_header44 by exact Hm.
  unfold vfb_clear. cbn [v_only_header with_header with_entries]. rewrite Ho.
  set (v0 := with_header (HDec (fl_header minor)) (with_entries [] (with_header HNone v))).
  change (mkVfb (HDec (fl_header minor)) [] (v_ctx v) (v_encoding v) (v_any_errors v)
            (v_drop v) false (v_force_unicode v)) with v0.
  destruct (read_loop_frames T _ _ _ _ R v0) as (w & W1 & W2 & W3 & W4); auto.
  rewrite W4. cbn [read_loop].
  assert (Hi' : i = 10 \/ i = 1503 \/ i = 1269) by (cbn in Hi; intuition).
  rewrite read_entry_frame; [|split; [cbn; lia|exact Hl]|intros ->; lia].
  cbn [e_id]. assert (is_eager i = true) as ->.
  { unfold is_eager. destruct Hi' as [->|[->| ->]]; reflexivity. }
  unfold entry_decompile. cbn [e_id e_data]. rewrite W1, P.
  eexists. split; [reflexivity|]. cbn. split; [apply Bool.orb_true_r|exact W2].
Qed.

(** a Vfb with an entry that has no compiler, an entry without data, an entry that
    cannot be decompiled, and uneven options *)
Definition keeps_vfb : vfb bytes :=
  mkVfb (HDec (fl_header 3))
    [mkEntry (Some 7) (Raw [1]) None; mkEntry (Some 8) NoData None;
     mkEntry (Some 99) (Raw [2]) None]
    (mkCtx 2 3 4 Windows) Cp1252 true [8; 5] true false.

Example C15_keeps_ex :
  (let '(v, o) := vfb_decompile toy keeps_vfb in
   (map e_data (v_entries v), o, v_drop v, v_only_header v, v_force_unicode v)) =
  ([Dec [1]; NoData; Raw [2]], Err ValueError, [8; 5], true, false).
Proof. vm_compute. reflexivity. Qed.

Example C15_write_keeps_ex :
  (let '(v, b, o) := vfb_write_bytes toy keeps_vfb in
   (drop 44 b, o, map e_id (v_entries v), v_only_header v, v_force_unicode v)) =
  ([7; 0; 1; 0; 1; 8; 0; 0; 0; 99; 0; 1; 0; 2], Ok tt, [Some 7; Some 8; Some 99], true, false).
Proof. vm_compute. reflexivity. Qed.

Example C09_no_data_ex :
  snd (fst (write_entries [mkEntry (Some 8) (@NoData bytes) None; mkEntry (Some 9) (Raw [5]) None]))
  = [8; 0; 0; 0; 9; 0; 1; 0; 5].
Proof. vm_compute. reflexivity. Qed.

(** a table whose master count has to have four bytes *)
Definition strict : codecs bytes :=
  mkCodecs bytes
    (fun i c b => if (i =? 1503) && negb (Z.of_nat (length b) =? 4) then Err StructError else Ok b)
    (fun i => None) (fun _ => Err TypeError) (fun _ => MacOS) (fun d => le_dec d) (fun _ => (0, 0)).
Example C15_read_records_ex :
  (let '(v, o) := vfb_read_bytes strict 9 (new_vfb [] false false)
     (file_of 0 [(7, [1]); (1503, [2; 0; 0; 0])] ++ frame 1503 [9] ++ [2; 0; 0; 0]) in
   (map e_data (v_entries v), v_any_errors v, o)) =
  ([Raw [1]; Dec [2; 0; 0; 0]], true, RErr StructError [2; 0; 0; 0]).
Proof. vm_compute. reflexivity. Qed.

Print Assumptions C09_no_data.
Print Assumptions C15_read_records.
Print Assumptions C15_decompile_keeps.
Print Assumptions C15_compile_keeps.
Print Assumptions C15_write_keeps.
Print Assumptions C15_read_keeps.
