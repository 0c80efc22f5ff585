(** C114: the options of vfb2ufo. *)
From Coq Require Import String ZifyBool QArith.
From Verif Require Import Base M_Py M_Simple M_Text M_Glyph M_Options M_Container M_Table M_Groups M_Info M_FontInfo M_Tth M_Programs.
From Verif Require Import M_Builder M_Master M_Features M_Designspace M_Build M_Labels M_PsHints M_Paths M_Guides M_Export M_Ufo.
From Verif Require Import M_Document M_Tools M_Vfb2ufo S_Build S_Groups S_Features Lib P_Groups P_Features Prop_Groups Prop_Features Prop_Glyph Prop_Resave Prop_Vfb2ufo Prop_NoHints.
Local Open Scope list_scope.
Local Open Scope Z_scope.

(** the same arguments with --base64, and with other options for classes *)
Definition add_base64 (a : args) : args :=
  Args (a_input a) (a_output a) (a_folder a) (a_json a) (a_zip a) (a_force a) (a_minimal a) (a_unicode a)
       true (a_no_hints a) (a_kerning_groups a) (a_keep_groups a).
Definition set_groups (kerning keep : bool) (a : args) : args :=
  Args (a_input a) (a_output a) (a_folder a) (a_json a) (a_zip a) (a_force a) (a_minimal a) (a_unicode a)
       (a_base64 a) (a_no_hints a) kerning keep.

(** ** --base64 *)
(** the commands of TrueType hinting as bytes; everything else as it is *)
Definition encode_lib (l : glyph_lib) : glyph_lib :=
  GlyphLib (gl_program l) (gl_hints l)
    (match gl_tth l with Some (TtText s) => Some (TtBytes (b64encode s)) | t => t end)
    (gl_user_data l) (gl_mark l) (gl_background l) (gl_bitmaps l).
Definition encode_glyph (g : ufo_glyph) : ufo_glyph :=
  UfoGlyph (og_width g) (og_height g) (og_unicodes g) (og_contours g) (og_components g) (og_anchors g)
           (og_guidelines g) (og_note g) (encode_lib (og_lib g)).
Definition encode_ufo (u : ufo) : ufo :=
  Ufo (uf_features u) (uf_groups u) (uf_info u) (uf_guidelines u) (uf_kerning u) (uf_lib u)
      (map (fun p => (fst p, encode_glyph (snd p))) (uf_glyphs u)) (uf_background u).
Definition encode_file (f : file_content) : file_content :=
  match f with FUfo k u => FUfo k (encode_ufo u) | _ => f end.
(** "the commands are ASCII text" *)
Definition ascii_glyph (g : ufo_glyph) : bool :=
  match gl_tth (og_lib g) with Some (TtText s) => forallb (fun c => c <? 128) s | _ => true end.
Definition ascii_ufo (u : ufo) : bool := forallb (fun p => ascii_glyph (snd p)) (uf_glyphs u).
Definition ascii_file (f : file_content) : bool := match f with FUfo _ u => ascii_ufo u | _ => true end.

(** [r'] is [r] with every result encoded, an error if it cannot be, and an error if [r] is one *)
Definition encodes {A} (ascii : A -> bool) (enc : A -> A) (r r' : res A) : Prop :=
  match r with
  | Ok x => r' = if ascii x then Ok (enc x) else Err UnicodeEncodeError
  | Err _ => exists e, r' = Err e
  end.
Lemma encodes_refl : forall A (r : res A), encodes (fun _ => true) (fun x => x) r r.
Proof. intros A [x|e]; cbn; eauto. Qed.
Lemma encodes_then : forall A B (asc : B -> bool) enc (x : res A) (f f' : A -> res B),
  (forall a, encodes asc enc (f a) (f' a)) -> encodes asc enc (rthen x f) (rthen x f').
Proof. intros A B asc enc [x|e] f f' H; cbn [rthen]; [apply H|]. cbn. eauto. Qed.

Definition same_but_base64 (o o' : options) : Prop :=
  op_base64 o = false /\ op_base64 o' = true /\ op_kerning_fea o' = op_kerning_fea o /\ op_move_fea o' = op_move_fea o /\
  op_number o' = op_number o /\ op_round15 o' = op_round15 o /\ op_fuel o' = op_fuel o.

Section Base64.
  Variable c : settings.
  Variables o o' : options.
  Hypothesis S : same_but_base64 o o'.

  Lemma export_one_base64 : forall order m name g cmds st,
    encodes (fun r => ascii_glyph (fst (fst r))) (fun r => (encode_glyph (fst (fst r)), snd (fst r), snd r))
      (export_one c o order m name g cmds st) (export_one c o' order m name g cmds st).
  Proof.
    destruct S as (B & B' & _ & _ & N & R & F). intros order m name g cmds st. unfold export_one.
    rewrite B, B', N, R, F. destruct (bg_data g) as [x z|d]; [|cbn; eauto].
    repeat (apply encodes_then; intros ?). destruct a0 as [s|]; cbn [finalize_tth rmap].
    - unfold encodes. cbn [ascii_glyph og_lib gl_tth fst snd]. destruct (forallb (fun c => c <? 128) s); reflexivity.
    - unfold encodes, ascii_glyph. cbn [og_lib gl_tth fst snd]. reflexivity.
  Qed.

  Lemma export_all_base64 : forall order m glyphs cmds st,
    encodes (fun r => forallb (fun p => ascii_glyph (snd p)) (fst (fst r)))
            (fun r => (map (fun p => (fst p, encode_glyph (snd p))) (fst (fst r)), snd (fst r), snd r))
      (export_all c o order m glyphs cmds st) (export_all c o' order m glyphs cmds st).
  Proof.
    intros order m glyphs cmds. induction glyphs as [|[name g] glyphs IH]; intros st; cbn [export_all]; [reflexivity|].
    pose proof (export_one_base64 order m name g (match aget str_eqb name cmds with Some l => l | None => [] end) st) as E.
    destruct (export_one c o order m name g _ st) as [[[u k] st1]|e]; cbn [encodes rthen] in *.
    - cbn [fst snd] in *. rewrite E. clear E. specialize (IH st1).
      destruct (export_all c o order m glyphs cmds st1) as [[[us ks] st2]|e]; cbn [encodes rmap fst snd forallb map] in *.
      + destruct (ascii_glyph u); [|reflexivity]. cbn [rthen snd fst andb]. rewrite IH. destruct (forallb _ us); reflexivity.
      + destruct (ascii_glyph u); cbn [rthen]; [|eauto]. destruct IH as (e' & IH). cbn [snd fst]. rewrite IH. cbn. eauto.
    - destruct E as (e' & E). rewrite E. cbn. eauto.
  Qed.

  Lemma get_ufo_master_base64 : forall s sh lib cmds m st,
    encodes (fun r => ascii_ufo (fst r)) (fun r => (encode_ufo (fst r), snd r))
      (get_ufo_master c o s sh lib cmds m st) (get_ufo_master c o' s sh lib cmds m st).
  Proof.
    intros s sh lib cmds m st. unfold get_ufo_master. apply encodes_then; intros kern. apply encodes_then; intros i.
    assert (G : font_guides c o' s m = font_guides c o s m).
    { destruct S as (_ & _ & _ & _ & N & _). unfold font_guides. now rewrite N. }
    rewrite G. apply encodes_then; intros guides.
    pose proof (export_all_base64 (bs_order (fo_glyphs s)) m (bs_glyphs (fo_glyphs s)) cmds st) as E.
    destruct (export_all c o _ m _ cmds st) as [[[us ks] st2]|e]; cbn [encodes rmap fst snd] in *.
    - rewrite E. unfold ascii_ufo. cbn [uf_glyphs]. destruct (forallb _ us); reflexivity.
    - destruct E as (e' & ->). cbn. eauto.
  Qed.

  Lemma ufo_masters_base64 : forall s sh lib cmds n m st,
    encodes (forallb ascii_ufo) (map encode_ufo)
      (ufo_masters c o s sh lib cmds m n st) (ufo_masters c o' s sh lib cmds m n st).
  Proof.
    intros s sh lib cmds n. induction n as [|n IH]; intros m st; cbn [ufo_masters]; [reflexivity|].
    pose proof (get_ufo_master_base64 s sh lib cmds m st) as E.
    destruct (get_ufo_master c o s sh lib cmds m st) as [[u st1]|e]; cbn [encodes rthen fst snd] in *.
    - rewrite E. specialize (IH (m + 1) st1).
      destruct (ufo_masters c o s sh lib cmds (m + 1) n st1) as [us|e]; cbn [encodes rmap forallb map] in *.
      + destruct (ascii_ufo u); [|reflexivity]. cbn [rthen fst snd andb]. rewrite IH. destruct (forallb _ us); reflexivity.
      + destruct (ascii_ufo u); cbn [rthen fst snd]; [|eauto]. destruct IH as (e' & ->). cbn. eauto.
    - destruct E as (e' & ->). cbn. eauto.
  Qed.

  Lemma tt_glyph_lib_fuel : forall order t l st, tt_glyph_lib o' order t l st = tt_glyph_lib o order t l st.
  Proof.
    destruct S as (_ & _ & _ & _ & _ & _ & F).
    intros order t l. induction l as [|[name g] l IH]; intros st; cbn [tt_glyph_lib]; [reflexivity|]. rewrite F.
    destruct (bg_data g) as [x z|d]; [|apply IH]. destruct (mg_tth x); [|apply IH].
    destruct (export_commands _ _ _ _ _ _) as [a|]; cbn [rthen]; [|reflexivity]. now rewrite IH.
  Qed.

  Lemma get_ufo_masters_base64 : forall s,
    encodes (forallb ascii_ufo) (map encode_ufo) (get_ufo_masters c o s) (get_ufo_masters c o' s).
  Proof.
    intros s. unfold get_ufo_masters. rewrite tt_glyph_lib_fuel. apply encodes_then; intros t. apply encodes_then; intros tg.
    destruct S as (_ & _ & K & M & _). rewrite K, M. apply encodes_then; intros sh. apply ufo_masters_base64.
  Qed.

  Lemma document_base64 : forall json out es,
    encodes (fun r => forallb ascii_ufo (fst r)) (fun r => (map encode_ufo (fst r), snd r))
      (vfb_to_document c o json out es) (vfb_to_document c o' json out es).
  Proof.
    intros json out es. unfold vfb_to_document. apply encodes_then; intros s. unfold get_ufos_designspace.
    pose proof (get_ufo_masters_base64 s) as E.
    destruct (get_ufo_masters c o s) as [us|e]; cbn [encodes rthen] in *.
    - rewrite E. clear E. destruct us as [|u us]; [cbn; eauto|].
      destruct (written_designspace _ _ _ _) as [d|e]; cbn [encodes rmap fst snd].
      + destruct (forallb ascii_ufo (u :: us)); [|reflexivity]. reflexivity.
      + destruct (forallb ascii_ufo (u :: us)); cbn; eauto.
    - destruct E as (e' & ->). cbn. eauto.
  Qed.
End Base64.

(** For all files, libraries and arguments without --base64: with it, the tool writes the same with the commands of
    TrueType hinting encoded, or fails if one has other characters than ASCII; and it fails if it failed without. *)
Theorem C114_base64 : forall L fuel a file, a_base64 a = false ->
  encodes (fun r => forallb ascii_file (fst r)) (fun r => (map encode_file (fst r), snd r))
    (exported L fuel a file) (exported L fuel (add_base64 a) file).
Proof.
  intros L fuel a file B. unfold exported.
  change (a_unicode (add_base64 a)) with (a_unicode a). change (a_json (add_base64 a)) with (a_json a).
  change (settings_of L (add_base64 a)) with (settings_of L a). change (out_of (add_base64 a)) with (out_of a).
  change (form_of (add_base64 a)) with (form_of a).
  destruct (vfb_read_bytes _ _ _ file) as [v [n b|e b]]; [|cbn; eauto].
  destruct (vfb_decompile _ v) as [v1 [u|e]]; [|cbn; eauto].
  pose proof (document_base64 (settings_of L a) (options_of L a) (options_of L (add_base64 a))
                (conj B (conj eq_refl (conj eq_refl (conj eq_refl (conj eq_refl (conj eq_refl eq_refl))))))
                (a_json a) (out_of a) (entries_of (v_entries v1))) as E.
  destruct (vfb_to_document _ (options_of L a) _ _ _) as [[us d]|e]; cbn [encodes rmap fst snd] in *.
  - rewrite E. assert (F : forall l, forallb ascii_file (map (FUfo (form_of a)) l) = forallb ascii_ufo l).
    { intros l. induction l as [|x l IH]; [reflexivity|]. cbn [map forallb ascii_file]. now rewrite IH. }
    rewrite F. destruct (forallb ascii_ufo us); [|reflexivity]. cbn [rmap fst snd]. rewrite !map_map. reflexivity.
  - destruct E as (e' & ->). cbn. eauto.
Qed.

(** ** --keep-groups and --add-kerning-groups *)
Definition with_classes (features : pystr) (gs : groups) (u : ufo) : ufo :=
  Ufo features gs (uf_info u) (uf_guidelines u) (uf_kerning u) (uf_lib u) (uf_glyphs u) (uf_background u).
Definition file_with_classes (features : pystr) (gs : groups) (f : file_content) : file_content :=
  match f with FUfo k u => FUfo k (with_classes features gs u) | _ => f end.

Section Classes.
  Variable c : settings.
  Variables (b64 k k' m m' : bool) (number : Z -> Q) (round15 : Z -> Z) (fuel : nat).
  Let o := Options b64 k m number round15 fuel.
  Let o' := Options b64 k' m' number round15 fuel.

  Lemma export_all_classes : forall order i glyphs cmds st,
    export_all c o' order i glyphs cmds st = export_all c o order i glyphs cmds st.
  Proof.
    intros order i glyphs cmds. induction glyphs as [|[name g] glyphs IH]; intros st; cbn [export_all]; [reflexivity|].
    change (export_one c o' order i name g) with (export_one c o order i name g).
    destruct (export_one c o order i name g _ st) as [a|]; cbn [rthen]; [|reflexivity]. now rewrite IH.
  Qed.
  Lemma tt_glyph_lib_classes : forall order t l st, tt_glyph_lib o' order t l st = tt_glyph_lib o order t l st.
  Proof.
    intros order t l. induction l as [|[name g] l IH]; intros st; cbn [tt_glyph_lib]; [reflexivity|].
    change (op_fuel o') with (op_fuel o).
    destruct (bg_data g) as [x z|d]; [|apply IH]. destruct (mg_tth x); [|apply IH].
    destruct (export_commands _ _ _ _ _ _) as [a|]; cbn [rthen]; [|reflexivity]. now rewrite IH.
  Qed.
  Lemma ufo_masters_classes : forall s sh sh' lib cmds n i st, us_kerning sh' = us_kerning sh ->
    ufo_masters c o' s sh' lib cmds i n st =
    rmap (map (with_classes (us_features sh') (us_groups sh'))) (ufo_masters c o s sh lib cmds i n st).
  Proof.
    intros s sh sh' lib cmds n. induction n as [|n IH]; intros i st K; cbn [ufo_masters]; [reflexivity|].
    unfold get_ufo_master. rewrite K. destruct (get_master_kerning _ _) as [kern|]; cbn [rthen]; [|reflexivity].
    destruct (get_master_info _ _ _ _ _) as [inf|]; cbn [rthen]; [|reflexivity].
    change (font_guides c o' s i) with (font_guides c o s i). destruct (font_guides c o s i) as [gd|]; cbn [rthen]; [|reflexivity].
    rewrite export_all_classes. destruct (export_all c o _ _ _ _ _) as [[[us ks] st1]|]; cbn [rmap rthen fst snd]; [|reflexivity].
    rewrite (IH (i + 1) st1 K). destruct (ufo_masters c o s sh lib cmds (i + 1) n st1); reflexivity.
  Qed.
  Lemma export_shared_classes : forall gs flags order min kern code,
    match export_shared gs flags order min k m kern code with
    | Ok sh => exists sh', export_shared gs flags order min k' m' kern code = Ok sh' /\ us_kerning sh' = us_kerning sh
    | Err e => export_shared gs flags order min k' m' kern code = Err e
    end.
  Proof.
    intros. unfold export_shared. destruct (transform_groups gs flags order min) as [st|]; cbn [rthen]; [|reflexivity].
    destruct (new_ufo_kerning _ _ _ _) as [uk|]; cbn [rmap]; [|reflexivity].
    destruct (classes_to_features k m _ _ _), (classes_to_features k' m' _ _ _). eexists. split; reflexivity.
  Qed.
End Classes.

Lemma exported_classes : forall L fuel a file,
  match exported L fuel a file with
  | Ok (ufos, d) => Forall (fun f => exists k u, f = FUfo k u) ufos /\
      exists gs flags order min kern code, forall kerning keep, exists sh,
        export_shared gs flags order min kerning (negb keep) kern code = Ok sh /\
        exported L fuel (set_groups kerning keep a) file = Ok (map (file_with_classes (us_features sh) (us_groups sh)) ufos, d)
  | Err e => forall kerning keep, exported L fuel (set_groups kerning keep a) file = Err e
  end.
Proof.
  intros L fuel a file.
  assert (X : forall kerning keep, exported L fuel (set_groups kerning keep a) file =
    match vfb_read_bytes (table (l_oracles L)) fuel (new_vfb dropped_keys false (a_unicode a)) file with
    | (_, RErr e _) => Err e
    | (v, ROk _ _) =>
        match vfb_decompile (table (l_oracles L)) v with
        | (_, Err e) => Err e
        | (v, Ok _) =>
            rmap (fun p => (map (FUfo (form_of a)) (fst p), option_map FDesign (snd p)))
              (vfb_to_document (settings_of L a) (Options (a_base64 a) kerning (negb keep) (l_number L) (l_round15 L) (l_fuel L))
                 (a_json a) (out_of a) (entries_of (v_entries v)))
        end
    end) by reflexivity.
  assert (Y : exported L fuel a file = exported L fuel (set_groups (a_kerning_groups a) (a_keep_groups a) a) file)
    by (destruct a; reflexivity).
  rewrite Y, X. clear Y.
  destruct (vfb_read_bytes _ _ _ file) as [v [n b|e b]] eqn:RD; [|intros; apply X].
  destruct (vfb_decompile _ v) as [v1 [u|e]] eqn:DC; [|intros; apply X].
  unfold vfb_to_document in *.
  destruct (build_font _ _) as [s|e]; cbn [rthen rmap] in *; [|exact X].
  unfold get_ufos_designspace, get_ufo_masters in *.
  assert (TT : forall kerning keep order t l st,
    tt_glyph_lib (Options (a_base64 a) kerning (negb keep) (l_number L) (l_round15 L) (l_fuel L)) order t l st =
    tt_glyph_lib (options_of L a) order t l st) by (intros; apply tt_glyph_lib_classes).
  rewrite TT.
  destruct (tt_glyph_lib _ _ _ _ _) as [t|e] eqn:T; cbn [rthen rmap] in *;
    [|intros kerning keep; now rewrite X, TT, T].
  destruct (transform_groups _ _ _ _) as [tg|e] eqn:G; cbn [rthen rmap] in *;
    [|intros kerning keep; now rewrite X, TT, T].
  pose proof (fun kerning keep => export_shared_classes (a_kerning_groups a) kerning (negb (a_keep_groups a)) (negb keep)
    (fo_groups s) (fo_flags s) (bs_order (fo_glyphs s)) (st_minimal (settings_of L a)) (bs_kerning (fo_glyphs s)) (fo_features s)) as E.
  cbn [op_kerning_fea op_move_fea] in *.
  destruct (export_shared _ _ _ _ (a_kerning_groups a) _ _ _) as [sh|e]; cbn [rthen rmap] in *;
    [|intros kerning keep; rewrite X, TT, T; cbn [rthen]; now rewrite (E kerning keep)].
  pose proof (fun kerning keep sh' K lib cmds k i st =>
     ufo_masters_classes (settings_of L a) (a_base64 a) (a_kerning_groups a) kerning (negb (a_keep_groups a)) (negb keep)
             (l_number L) (l_round15 L) (l_fuel L) s sh sh' lib cmds k i st K) as M.
  destruct (ufo_masters _ _ s sh _ _ _ _ _) as [us|e] eqn:U; cbn [rthen rmap] in *.
  2:{ intros kerning keep. rewrite X, TT, T. cbn [rthen]. destruct (E kerning keep) as (sh' & -> & K). cbn [rthen].
      rewrite (M kerning keep sh' K), U. reflexivity. }
  destruct us as [|u0 us].
  { cbn. intros kerning keep. rewrite X, TT, T. cbn [rthen]. destruct (E kerning keep) as (sh' & -> & K). cbn [rthen].
    rewrite (M kerning keep sh' K), U. reflexivity. }
  destruct (written_designspace _ _ _ _) as [d|e]; cbn [rmap fst snd].
  2:{ intros kerning keep. rewrite X, TT, T. cbn [rthen]. destruct (E kerning keep) as (sh' & -> & K). cbn [rthen].
      rewrite (M kerning keep sh' K), U. reflexivity. }
  split; [rewrite Forall_map; apply Forall_forall; intros; eauto|].
  exists (fo_groups s), (fo_flags s), (bs_order (fo_glyphs s)), (st_minimal (settings_of L a)), (bs_kerning (fo_glyphs s)), (fo_features s).
  intros kerning keep. rewrite X, TT, T. cbn [rthen]. destruct (E kerning keep) as (sh' & E' & K).
  exists sh'. split; [exact E'|]. rewrite E'. cbn [rthen].
  rewrite (M kerning keep sh' K), U. cbn [rthen rmap map]. cbn [rmap fst snd map]. rewrite !map_map. reflexivity.
Qed.

(** For all files and arguments: whatever these two options are, the tool writes the same but for the features and
    the groups of the UFOs; and if it fails, it fails with the same exception. *)
Theorem C114_classes : forall L fuel a kerning keep file,
  match exported L fuel a file with
  | Ok (ufos, d) => exists features gs,
      exported L fuel (set_groups kerning keep a) file = Ok (map (file_with_classes features gs) ufos, d)
  | Err e => exported L fuel (set_groups kerning keep a) file = Err e
  end.
Proof.
  intros L fuel a kerning keep file. pose proof (exported_classes L fuel a file) as H.
  destruct (exported L fuel a file) as [[ufos d]|e]; [|apply H].
  destruct H as (_ & gs & flags & order & min & kern & code & H). destruct (H kerning keep) as (sh & _ & E). eauto.
Qed.

(** "the UFO [f] is the UFO [f'] with these classes in the feature code as well, and other groups" *)
Definition classes_added (P : ufo -> ufo -> groups -> Prop) (f f' : file_content) : Prop :=
  exists k u u' classes, f = FUfo k u /\ f' = FUfo k u' /\
    u = with_classes (flat_map class_definition classes ++ uf_features u') (uf_groups u) u' /\ P u u' classes.

(** With --keep-groups, the classes that are not for kerning and not for metrics stay in the groups; without, they
    are in the feature code, with the same glyphs, and not in the groups. All other groups are the same. *)
Theorem C114_keep_groups : forall L fuel a file ufos d ufos' d',
  exported L fuel (set_groups false false a) file = Ok (ufos, d) ->
  exported L fuel (set_groups false true a) file = Ok (ufos', d') ->
  d = d' /\ Forall2 (classes_added (fun u u' classes =>
    (forall n gl, In (n, gl) classes <-> In (n, gl) (uf_groups u') /\ ~ kerning_name n /\ (forall s, n <> py "." ++ s)) /\
    (forall n gl, In (n, gl) (uf_groups u) <-> In (n, gl) (uf_groups u') /\ ~ In (n, gl) classes))) ufos ufos'.
Proof.
  intros L fuel a file ufos d ufos' d' E E'. pose proof (exported_classes L fuel (set_groups false false a) file) as H.
  rewrite E in H. destruct H as (FF & gs & flags & order & min & kern & code & H).
  destruct (H false false) as (sh & S & E1). destruct (H false true) as (sh' & S' & E2).
  change (set_groups false false (set_groups false false a)) with (set_groups false false a) in E1.
  change (set_groups false true (set_groups false false a)) with (set_groups false true a) in E2.
  rewrite E in E1. rewrite E' in E2. apply Ok_inj in E1. apply Ok_inj in E2.
  injection E1 as U. injection E2 as U' ->. split; [reflexivity|]. subst ufos'. rewrite U at 1. clear U E E' H.
  destruct (export_shared_inv _ _ _ _ _ _ _ _ _ S) as (st & T & ND & K & UK & G & F).
  destruct (export_shared_inv _ _ _ _ _ _ _ _ _ S') as (st' & T' & _ & K' & UK' & G' & F').
  rewrite T in T'. apply Ok_inj in T'. subst st'. cbn [negb] in *.
  assert (N0 : chosen false false (tg_groups st) = []).
  { destruct (chosen false false (tg_groups st)) as [|[n gl] l] eqn:C; [reflexivity|].
    assert (I : In (n, gl) (chosen false false (tg_groups st))) by (rewrite C; now left).
    apply chosen_In in I. destruct I as (_ & [[_ I]|(_ & _ & I)]); discriminate. }
  destruct (C65_export _ _ _ _ _ _ _ _ _ S) as (_ & _ & _ & _ & _ & _ & _ & _ & GG).
  destruct (C45_groups _ ND) as (NDo & _ & OO & _).
  assert (KE : uk_groups (us_kerning sh) = uk_groups (us_kerning sh')) by congruence.
  induction FF as [|f ufos (k & u & ->) FF IH]; cbn [map]; constructor; [|exact IH].
  exists k, (with_classes (us_features sh) (us_groups sh) u), (with_classes (us_features sh') (us_groups sh') u), (chosen false true (tg_groups st)).
  split; [reflexivity|]. split; [reflexivity|]. unfold with_classes. cbn [uf_features uf_groups uf_info uf_guidelines uf_kerning uf_lib uf_glyphs uf_background].
  split.
  { f_equal. rewrite F, F', N0. unfold feature_file. reflexivity. }
  assert (A : forall n gl, In (n, gl) (chosen false true (tg_groups st)) <->
                In (n, gl) (us_groups sh') /\ ~ kerning_name n /\ (forall s, n <> py "." ++ s)).
  { intros n gl. rewrite chosen_In, G', UK'. unfold to_features. split.
    - intros (I & [(_ & D)|(NK & ND' & _)]); [discriminate|]. split; [now apply OO|]. split; assumption.
    - intros (I & NK & ND'). split; [now apply OO|]. right. repeat split; assumption. }
  split; [exact A|]. intros n gl. rewrite (GG n gl), A, KE, <- G'. unfold to_features. split.
  - intros (I & [D|N]); [discriminate|]. split; [exact I|]. intros (_ & NK & ND'). apply N. right. auto.
  - intros (I & N). split; [exact I|]. right. intros [(_ & D)|(NK & ND' & _)]; [discriminate|]. apply N. auto.
Qed.

(** With --add-kerning-groups as well, the feature code has a definition for each kerning group, and the groups are
    the same. *)
Theorem C114_kerning_groups : forall L fuel a file ufos d ufos' d',
  exported L fuel (set_groups true true a) file = Ok (ufos, d) ->
  exported L fuel (set_groups false true a) file = Ok (ufos', d') ->
  d = d' /\ Forall2 (classes_added (fun u u' classes => uf_groups u = uf_groups u' /\
    (forall n, In n (map fst classes) -> kerning_name n) /\
    (forall n, In n (map fst (uf_groups u')) -> kerning_name n -> In n (map fst classes)))) ufos ufos'.
Proof.
  intros L fuel a file ufos d ufos' d' E E'. pose proof (exported_classes L fuel (set_groups true true a) file) as H.
  rewrite E in H. destruct H as (FF & gs & flags & order & min & kern & code & H).
  destruct (H true true) as (sh & S & E1). destruct (H false true) as (sh' & S' & E2).
  change (set_groups true true (set_groups true true a)) with (set_groups true true a) in E1.
  change (set_groups false true (set_groups true true a)) with (set_groups false true a) in E2.
  rewrite E in E1. rewrite E' in E2. apply Ok_inj in E1. apply Ok_inj in E2.
  injection E1 as U. injection E2 as U' ->. split; [reflexivity|]. subst ufos'. rewrite U at 1. clear U E E' H.
  destruct (export_shared_inv _ _ _ _ _ _ _ _ _ S) as (st & T & ND & K & UK & G & F).
  destruct (export_shared_inv _ _ _ _ _ _ _ _ _ S') as (st' & T' & _ & K' & UK' & G' & F').
  rewrite T in T'. apply Ok_inj in T'. subst st'. cbn [negb] in *.
  assert (N0 : chosen false false (tg_groups st) = []).
  { destruct (chosen false false (tg_groups st)) as [|[n gl] l] eqn:C; [reflexivity|].
    assert (I : In (n, gl) (chosen false false (tg_groups st))) by (rewrite C; now left).
    apply chosen_In in I. destruct I as (_ & [[_ I]|(_ & _ & I)]); discriminate. }
  assert (KE : uk_groups (us_kerning sh) = uk_groups (us_kerning sh')) by congruence.
  induction FF as [|f ufos (k & u & ->) FF IH]; cbn [map]; constructor; [|exact IH].
  exists k, (with_classes (us_features sh) (us_groups sh) u), (with_classes (us_features sh') (us_groups sh') u), (chosen true false (tg_groups st)).
  split; [reflexivity|]. split; [reflexivity|]. unfold with_classes. cbn [uf_features uf_groups uf_info uf_guidelines uf_kerning uf_lib uf_glyphs uf_background].
  split; [f_equal; rewrite F, F', N0; reflexivity|].
  split; [rewrite G, G'; exact KE|]. split.
  - intros n I. apply in_map_iff in I. destruct I as ([n' gl] & <- & I). apply chosen_In in I.
    destruct I as (_ & [[NK _]|(_ & _ & I)]); [exact NK|discriminate].
  - intros n I NK. rewrite G', UK' in I. apply ufo_groups_names in I; [|exact ND].
    apply in_map_iff in I. destruct I as ([n' gl] & <- & I). apply in_map_iff. exists (n', gl). split; [reflexivity|].
    apply chosen_In. split; [exact I|]. left. split; [exact NK|reflexivity].
Qed.

(** ** --json, --zip and where the files go *)
Definition set_place (json zip force : bool) (output : option path) (folder : option (bool * list pystr)) (a : args) : args :=
  Args (a_input a) output folder json zip force (a_minimal a) (a_unicode a) (a_base64 a) (a_no_hints a)
       (a_kerning_groups a) (a_keep_groups a).
(** the designspace is the same but for the names of the files of the masters *)
Definition same_source (x y : source num) : Prop :=
  so_family x = so_family y /\ so_location x = so_location y /\ so_name x = so_name y /\ so_style x = so_style y.
Definition same_design (f f' : option file_content) : Prop :=
  match f, f' with
  | None, None => True
  | Some (FDesign d), Some (FDesign d') =>
      ds_axes d = ds_axes d' /\ ds_instances d = ds_instances d' /\ Forall2 same_source (ds_sources d) (ds_sources d')
  | _, _ => False
  end.

Lemma designspace_place : forall o (b : ds_data num) json json' out out',
  match written_designspace o b json out with
  | Ok d => exists d', written_designspace o b json' out' = Ok d' /\ same_design (option_map FDesign d) (option_map FDesign d')
  | Err e => written_designspace o b json' out' = Err e
  end.
Proof.
  intros o b json json' out out'. unfold written_designspace. destruct (b_axes b) as [|x axes0] eqn:A; [exists None; split; [reflexivity|exact I]|].
  unfold get_designspace. rewrite A.
  match goal with |- context [rthen ?y _] => destruct y as [axes|e] end; cbn [rthen rmap]; [|reflexivity].
  destruct (b_num_masters b) as [n|]; cbn [rthen rmap]; [|reflexivity].
  assert (S : forall i, match get_source o b axes (out_path_of json out) i with
                        | Ok x => exists y, get_source o b axes (out_path_of json' out') i = Ok y /\ same_source x y
                        | Err e => get_source o b axes (out_path_of json' out') i = Err e
                        end).
  { intros i. unfold get_source. destruct (aget_res Z.eqb (i + 1) (b_locations b)); cbn [rthen]; [|reflexivity].
    destruct (get_ds_location _ _ _); cbn [rthen]; [|reflexivity]. destruct (py_index (b_masters b) i); cbn [rmap]; [|reflexivity].
    eexists. split; [reflexivity|]. repeat split. }
  assert (M : forall l, match res_map (get_source o b axes (out_path_of json out)) l with
                        | Ok x => exists y, res_map (get_source o b axes (out_path_of json' out')) l = Ok y /\ Forall2 same_source x y
                        | Err e => res_map (get_source o b axes (out_path_of json' out')) l = Err e
                        end).
  { intros l. induction l as [|i l IH]; cbn [res_map]; [exists []; split; [reflexivity|constructor]|]. specialize (S i).
    destruct (get_source o b axes (out_path_of json out) i) as [x0|]; cbn [rthen]; [|now rewrite S].
    destruct S as (y & -> & S). cbn [rthen].
    destruct (res_map (get_source o b axes (out_path_of json out)) l) as [xs|]; cbn [rmap]; [|now rewrite IH].
    destruct IH as (ys & -> & IH). cbn [rmap]. eexists. split; [reflexivity|]. now constructor. }
  specialize (M (zrange n)). destruct (res_map (get_source o b axes (out_path_of json out)) (zrange n)) as [xs|]; cbn [rthen rmap]; [|now rewrite M].
  destruct M as (ys & -> & M). cbn [rthen]. destruct (res_map (get_instance b axes) _); cbn [rmap]; [|reflexivity].
  eexists. split; [reflexivity|]. cbn. repeat split; assumption.
Qed.

(** For all files and arguments: whatever the form and the place of the output, its content is the same; and if the
    export fails, it fails with the same exception. *)
Theorem C114_form : forall L fuel a json zip force output folder file,
  let a' := set_place json zip force output folder a in
  match exported L fuel a file with
  | Ok (ufos, d) => exists us d', ufos = map (FUfo (form_of a)) us /\
      exported L fuel a' file = Ok (map (FUfo (form_of a')) us, d') /\ same_design d d'
  | Err e => exported L fuel a' file = Err e
  end.
Proof.
  intros L fuel a json zip force output folder file a'. unfold exported.
  change (a_unicode a') with (a_unicode a). change (settings_of L a') with (settings_of L a). change (options_of L a') with (options_of L a).
  destruct (vfb_read_bytes _ _ _ file) as [v [n b|e b]]; [|reflexivity].
  destruct (vfb_decompile _ v) as [v1 [u|e]]; [|reflexivity].
  unfold vfb_to_document. destruct (build_font _ _) as [s|e]; cbn [rthen rmap]; [|reflexivity].
  unfold get_ufos_designspace. destruct (get_ufo_masters _ _ s) as [us|e]; cbn [rthen rmap]; [|reflexivity].
  destruct us as [|u0 us]; [reflexivity|].
  pose proof (designspace_place (st_ops (settings_of L a)) (ds_data_of s) (a_json a) (a_json a') (out_of a) (out_of a')) as D.
  destruct (written_designspace _ _ (a_json a) (out_of a)) as [d|e]; cbn [rmap]; [|now rewrite D].
  destruct D as (d' & -> & D). cbn [rmap fst snd]. exists (u0 :: us), (option_map FDesign d'). split; [reflexivity|]. split; [reflexivity|exact D].
Qed.

(** ** A file: two masters, hints of both kinds, a class for kerning and another one, features *)
Definition c114_file : bytes := Eval vm_compute in
  written sample_oracles ((1277, DStr (py "caps: A Aacute")) :: (1277, DStr (py "_A: A' Aacute")) :: (2026, DFlags [(py "_A", [1024; 0])])
                          :: (1276, DLines [py "feature liga {"; py "} liga;"]) :: c95_values).
Definition c114_args : args :=
  Args (Path true [py "fonts"] (py "Test") (py ".vfb")) None None false false false false false false false false false.
(** what the options are about, in a UFO *)
Definition shown (f : file_content) : option (pystr * groups * list (pystr * bool * option bool) * option info_val) :=
  match f with
  | FUfo _ u => Some (uf_features u, uf_groups u,
      map (fun p => (fst p, match gl_hints (og_lib (snd p)) with Some _ => true | None => false end,
                     match gl_tth (og_lib (snd p)) with Some (TtText _) => Some false | Some (TtBytes _) => Some true | None => None end)) (uf_glyphs u),
      aget str_eqb (py "postscriptBlueShift") (if_attrs (uf_info u)))
  | _ => None
  end.
Definition c114_shown ops up asm (a : args) := rmap (fun r => map shown (fst r)) (exported (c100_libs ops up asm) 60 a c114_file).
Definition liga : pystr := [10; 10] ++ py "feature liga {" ++ [10] ++ py "} liga;" ++ [10].
Definition caps : pystr := py "@caps = [A Aacute];" ++ [10].
Definition kern_A : pystr := py "@public.kern1._A = [A Aacute];" ++ [10].
Definition kern_group : groups := [(py "public.kern1._A", [py "A"; py "Aacute"])].
Definition caps_group : groups := [(py "caps", [py "A"; py "Aacute"])].
Definition both (f : pystr) (g : groups) (hints coded : bool) :=
  let u := Some (f, g, [(py "A", hints, Some coded); (py "Aacute", false, Some coded)], if hints then Some (IInt 7) else None) in Ok [u; u].
Example C114_meets : forall ops up asm, let show := c114_shown ops up asm in
  show c114_args = both (caps ++ liga) kern_group true false /\
  show (add_base64 c114_args) = both (caps ++ liga) kern_group true true /\
  show (set_groups false true c114_args) = both liga (caps_group ++ kern_group) true false /\
  show (set_groups true true c114_args) = both (kern_A ++ liga) (caps_group ++ kern_group) true false /\
  show (set_hints_off true c114_args) = both (caps ++ liga) kern_group false false /\
  show (set_place true false true None None c114_args) = both (caps ++ liga) kern_group true false.
Proof. intros ops up asm show. repeat split; vm_compute; reflexivity. Qed.
Print Assumptions C114_base64.
Print Assumptions C114_classes.
Print Assumptions C114_keep_groups.
Print Assumptions C114_kerning_groups.
Print Assumptions C114_form.
