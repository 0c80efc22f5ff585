(** C99: what vfb2tth writes. *)
From Coq Require Import ZifyBool ZifyNat String Permutation.
From Verif Require Import Base M_Stream M_Py M_Text M_Glyph M_Labels M_TrueType M_Tth S_Tth M_TthExtract S_TthExtract M_Container M_Table M_Designspace M_Tools S_Encoding
  M_Json M_Diff M_TthFile S_Json S_Dump S_TthFile Lib P_Helpers P_Dec P_Json P_Diff P_TthExtract Prop_Tth Prop_TthExtract Prop_Container S_File Prop_File P_Container P_File Prop_Json P_TthFile.
From Verif Require P_Groups.
Local Open Scope list_scope.

(** The file that is written is UTF-8 of a JSON text, and the text says what the entries of the VFB file say. The
    output file is empty, and there is an exception, if the JSON would have a string with a surrogate or an integer
    of more than 64 bits. The order of the font's entries does not matter, nor do all other entries, which may even be
    damaged. *)
Theorem C99_json : forall o num fuel file old vfb rest l v h top bottom d entries glyphs, numbers_ok num ->
  vfb_read_bytes (table o) fuel (new_vfb [] false true) file = (vfb, ROk tt rest) ->
  hint_data o vfb l -> Forall S_TthFile.named l ->
  flat_map hint_part l = entries ++ map glyph_entry glyphs ->
  font_entries v h top bottom d entries -> deltas_ok top bottom d ->
  Forall (x_glyph_ok top bottom v h) glyphs -> NoDup (map fst glyphs) ->
  exists j, tth_json l v h top bottom d glyphs j /\
    (fits j = true -> exists text, Forall char_ok text /\ loads text = Some j /\
       vfb2tth o num fuel file old = (Some (utf8 text), Ok tt)) /\
    (fits j = false -> vfb2tth o num fuel file old = (Some [], Err TypeError)).
Proof.
  intros o num fuel file old vfb rest l v h top bottom d entries glyphs Nu Rd Hd Nm Ep Hf Dk Hg Ng.
  destruct (C62_extract v h top bottom d entries glyphs Hf Dk Hg Ng)
    as (vn & hn & tn & bn & stems & zones & commands & Ex & Lv & Lh & Us & Ns & Ks & Fs & Lt & Lb & Uz & Nz & Kz & Fz & Fg).
  rewrite <- Ep in Ex. unfold extract_truetype_hinting in Ex.
  destruct (res_fold x_add x_start (flat_map hint_part l)) as [x|e] eqn:Ef; cbn [rthen] in Ex; [|discriminate].
  destruct (merge_stems x) as [st|e] eqn:Es; cbn [rthen] in Ex; [|discriminate].
  destruct (merge_zones x) as [zo|e] eqn:Ez; cbn [rmap] in Ex; [|discriminate].
  apply Ok_inj in Ex. assert (E1 : st = stems) by congruence. assert (E2 : zo = zones) by congruence. assert (E3 : x_glyphs x = commands) by congruence. subst st zo. clear Ex.
  destruct (fold_ok l [] [] x_start x) as (font & Ff & V); [| | |exact Nm|exact Ef|].
  { constructor; try reflexivity; [constructor|intros k []]. }
  { eapply says_ids; [|exact Hd]. intros e p (E & _). exact E. }
  { unfold hint_data in Hd. clear - Hd. induction Hd as [|e p m l (E & c & b & B & P & _) F IH]; constructor; [|exact IH]. exists o, c, b. split; assumption. }
  cbn [app] in V. rewrite <- (turns_ok o (v_ctx vfb) l (v_entries vfb) _ Hd) in Ff.
  set (t := tth_py font stems zones commands).
  assert (T : vfb_tth o vfb = Ok t).
  { unfold vfb_tth. rewrite Ff. cbn [rthen fst snd]. rewrite Es. cbn [rthen]. rewrite Ez. cbn [rmap]. rewrite E3. reflexivity. }
  exists (js_of num t). split; [|split].
  - exists vn, hn, tn, bn. repeat (split; [assumption|]). unfold t, tth_py, pd. cbn [map fst snd].
    apply object_of; [distinct|]. apply Forall2_cons; [|apply Forall2_cons; [|apply Forall2_nil]]; cbn [fst snd]; (split; [reflexivity|]).
    + set (parts := part "stems" fstem_py stems ++ part "zones" fzone_py zones).
      assert (Np : NoDup (map fst parts) /\ (forall k, In k (map fst parts) -> In k [py "stems"; py "zones"])).
      { unfold parts, part. destruct stems, zones; cbn [app map fst]; (split; [distinct|cbn; tauto]). }
      assert (Nf : NoDup (map fst (font ++ parts))).
      { rewrite map_app. destruct V as [N K _ _ _ _ _ _]. apply P_Groups.NoDup_app_intro; [exact N|apply Np|].
        intros k I1 I2. apply K in I1. apply Np in I2. unfold six_keys in I1. cbn [In] in I1, I2. destruct I2 as [<-|[<-|[]]]; revert I1; vm_compute; intuition discriminate. }
      assert (Pf : Permutation (font ++ parts) (flat_map (fun k => match aget str_eqb k font with Some v => [(k, v)] | None => [] end) six_keys ++ parts)).
      { apply Permutation_app_tail. apply keys_perm; [apply V|unfold six_keys; distinct|apply V]. }
      rewrite (js_perm num _ _ Pf Nf). apply object_of; [eapply Permutation_NoDup; [apply Permutation_map; exact Pf|exact Nf]|].
      apply Forall2_app; [apply numbers_members; exact V|]. unfold parts. apply Forall2_app.
      * apply part_filled; [exact Ks|exact Ns|]. clear - Fs. induction Fs as [|a b m n H F IH]; cbn [map]; constructor; [apply stem_of_json; exact H|exact IH].
      * apply part_filled; [exact Kz|eapply Permutation_NoDup; [apply Permutation_app_comm|exact Nz]|].
        assert (X : Forall2 (fun p f => zone_json bottom d p (js_of num (fzone_py f))) (enum 0 (bottom ++ top)) (map snd zones)).
        { assert (X : Forall2 (fun p f => (fun k z f => zone_json bottom d (k, z) (js_of num (fzone_py f))) (fst p) (snd p) f) (enum 0 (bottom ++ top)) (map snd zones));
            [apply (enum_Forall2 _ _ (fun k z f => zone_json bottom d (k, z) (js_of num (fzone_py f))))|clear - X; induction X as [|[k z] f m n H X IH]; constructor; assumption].
          - rewrite map_length. apply (f_equal (@List.length pystr)) in Kz. rewrite map_length in Kz. rewrite Kz, !app_length. lia.
          - intros k z E. destruct (Fz k z E) as (f & Ef' & H). exists f. split; [exact Ef'|]. cbn beta. apply zone_of_json with (top := top); assumption. }
        clear - X. induction X; cbn [map]; constructor; assumption.
    + unfold pstr_dict. apply object_of.
      * rewrite map_map. cbn [fst]. replace (map (fun x0 => fst x0) commands) with (map fst glyphs); [exact Ng|]. clear - Fg. induction Fg as [|a b m n (E & _) F IH]; cbn [map]; congruence.
      * clear - Fg. induction Fg as [|a b m n H F IH]; cbn [map]; constructor; [|exact IH]. cbn [fst snd]. split; [apply H|]. apply commands_of_json. exact H.
  - intros F. exists (dump num 0 (sort_keys t)). unfold js_of in F. rewrite <- (dumpable_fits num) in F. split; [apply dump_chars; [apply Nu|exact F]|].
    split; [apply loads_dump; [apply Nu|exact F]|]. unfold vfb2tth. rewrite Rd, T. unfold write_tth, dumps. rewrite F. reflexivity.
  - intros F. unfold js_of in F. rewrite <- (dumpable_fits num) in F. unfold vfb2tth. rewrite Rd, T. unfold write_tth, dumps. rewrite F. reflexivity.
Qed.
Print Assumptions C99_json.
Lemma no_ok : forall A (x : res A), (exists e, x = Err e) -> forall r, x = Ok r -> False.
Proof. intros A x (e & ->) r H. discriminate. Qed.
(** the id of the entry of an item *)
Definition item_id (e : x_entry) : Z :=
  match e with XPpms _ => 1268 | XStems _ => 1269 | XPpms1 _ => 1524 | XZones _ => 1255 | XDeltas _ => 1273 | XGlyph _ _ => 2001 end.
Lemma part_id : forall e k x, In e (hint_part (k, x)) -> k = item_id e.
Proof.
  intros e k x H. assert (K : existsb (Z.eqb k) [1268; 1269; 1524; 1255; 1273; 2001] = true).
  { destruct (existsb _ _) eqn:N; [reflexivity|]. cbn [existsb] in N. exfalso. revert H. unfold hint_part.
    repeat match goal with |- In _ (match ?p with _ => _ end) -> _ => is_var p; destruct p; try (intros []) ; try discriminate N end. }
  apply existsb_exists in K. destruct K as (j & I & J). apply Z.eqb_eq in J. subst j.
  destruct I as [<-|[<-|[<-|[<-|[<-|[<-|[]]]]]]]; destruct x; cbn [hint_part In] in H; try destruct H as [<-|[]]; try destruct H; try reflexivity.
  destruct (g_name x), (g_tth x) as [[|]|]; cbn [In] in H; try destruct H as [<-|[]]; try destruct H; reflexivity.
Qed.

(** ** Refuted: hints are exported of every file *)
(** The file has the name of the VFB file, with .tth and the format in place of its last suffix, and is next to the
    VFB file or in the given folder. So it is never the VFB file. *)
Theorem C99_output : forall format folder root dir stem suffix,
  path_text (vfb2tth_out format folder (Path root dir stem suffix)) =
    (let '(root, dir) := match folder with Some f => f | None => (root, dir) end in
     (if root : bool then py "/" else []) ++ List.concat (map (fun d => d ++ py "/") dir)) ++ stem ++ py ".tth." ++ format /\
  (~ In 46 (tl suffix) -> path_text (vfb2tth_out format None (Path root dir stem suffix)) <> path_text (Path root dir stem suffix)).
Proof.
  intros format folder root dir stem suffix. split.
  - destruct folder as [[r d]|]; unfold vfb2tth_out, path_text, in_folder, with_suffix; cbn [p_root p_dir p_stem p_suffix fst snd];
      rewrite flat_map_concat_map, !app_assoc; reflexivity.
  - intros N E. unfold vfb2tth_out, path_text, with_suffix in E. cbn [p_root p_dir p_stem p_suffix] in E. do 3 apply app_inv_head in E. subst suffix.
    apply N. cbn. tauto.
Qed.
Print Assumptions C99_output.
Example C99_output_meets :
  path_text (vfb2tth_out (py "json") (Some (true, [py "out"])) (Path false [py "in"] (py "a") (py ".vfb"))) = py "/out/a.tth.json" /\ ~ In 46 (tl (py ".vfb")).
Proof. split; [reflexivity|cbn; intuition discriminate]. Qed.
(** Nothing is written, and there is an exception, when one of the entries for stems, zones and zone deltas is not in
    the file, so for all files without TrueType hints; *)
Theorem C99_missing_refuted : forall o num fuel file old vfb rest i, In i [1269; 1255; 1273] ->
  vfb_read_bytes (table o) fuel (new_vfb [] false true) file = (vfb, ROk tt rest) ->
  (forall e, In e (v_entries vfb) -> e_id e <> Some i) ->
  exists e, vfb2tth o num fuel file old = (old, Err e).
Proof.
  intros o num fuel file old vfb rest i I Rd N. unfold vfb2tth. rewrite Rd. destruct (vfb_tth o vfb) as [t|e] eqn:T; [exfalso|eauto].
  destruct (tth_extract o vfb t T) as (l & F & r & E). revert E. apply no_ok.
  apply C62_missing_refuted. assert (Nl : forall p, In p l -> fst p <> i).
  { intros p Ip. apply Forall2_flip in F. revert Ip. assert (Nf : forall e, In e (filter looked_at (v_entries vfb)) -> e_id e <> Some i) by (intros e H; apply N; apply filter_In in H; apply H).
    clear - F Nf. induction F as [|q e m n (E & _) F IH]; intros Ip; [destruct Ip|]. destruct Ip as [->|Ip].
    - intros Q. apply (Nf e (or_introl eq_refl)). congruence.
    - apply IH; [|exact Ip]. intros e' H. apply Nf. right. exact H. }
  destruct I as [<-|[<-|[<-|[]]]]; [left|right; left|right; right];
    (intros d H; apply in_flat_map in H; destruct H as ((k & x) & Ip & H); apply (Nl _ Ip); cbn [fst]; revert H; apply part_id).
Qed.
(** when there is rounding to one pixel; *)
Theorem C99_one_refuted : forall o num fuel file old vfb rest e d t, 
  vfb_read_bytes (table o) fuel (new_vfb [] false true) file = (vfb, ROk tt rest) ->
  In e (v_entries vfb) -> entry_says o (v_ctx vfb) e (1524, d) -> d = DStems t -> tts_v t ++ tts_h t <> [] ->
  exists x, vfb2tth o num fuel file old = (old, Err x).
Proof.
  intros o num fuel file old vfb rest e d t Rd Ie (Ei & c & b & _ & P & D) -> Nt. unfold vfb2tth. rewrite Rd. destruct (vfb_tth o vfb) as [u|x] eqn:T; [exfalso|eauto].
  destruct (tth_extract o vfb u T) as (l & F & r & E). cbn [fst snd] in *.
  assert (Il : In (1524, DStems t) l).
  { assert (If : In e (filter looked_at (v_entries vfb))) by (apply filter_In; split; [exact Ie|unfold looked_at; rewrite Ei; reflexivity]).
    clear - F If Ei P D. induction F as [|e' p m n (E & e2 & Ed & Ed2) F IH]; [destruct If|]. destruct If as [->|If]; [|right; apply IH; exact If].
    left. rewrite Ei in E. destruct p as [k v]. cbn [fst snd] in *. injection E as <-. f_equal.
    unfold entry_decompile in Ed. rewrite Ei in Ed. destruct D as [D|(D & ->)]; rewrite D in Ed.
    - assert (e2 = e) by congruence. subst e2. congruence.
    - rewrite P in Ed. assert (e2 = set_data (Dec (DStems t)) e) by congruence. subst e2. destruct e. cbn in Ed2. congruence. }
  unfold extract_truetype_hinting in E. destruct (res_fold x_add x_start (flat_map hint_part l)) as [s|x] eqn:Ef; [|discriminate].
  assert (J : In (XPpms1 t) (flat_map hint_part l)) by (apply in_flat_map; exists (1524, DStems t); split; [exact Il|left; reflexivity]).
  clear - Ef J Nt. revert Ef J. generalize (flat_map hint_part l) as m, x_start as s0. induction m as [|a m IH]; intros s0 Ef J; [destruct J|].
  cbn [res_fold] in Ef. destruct (x_add s0 a) as [s1|x] eqn:Ea; [|discriminate]. cbn [rthen] in Ef. destruct J as [->|J]; [|exact (IH _ Ef J)].
  cbn [x_add] in Ea. unfold extract_ppem_1 in Ea. destruct (tts_v t); [|discriminate]. cbn [rthen] in Ea. destruct (tts_h t); [apply Nt; reflexivity|discriminate].
Qed.
(** or when a glyph with commands comes before the entry for stems. *)
Theorem C99_early_refuted : forall o num fuel file old vfb rest before e after g n i is, 
  vfb_read_bytes (table o) fuel (new_vfb [] false true) file = (vfb, ROk tt rest) ->
  v_entries vfb = before ++ e :: after -> entry_says o (v_ctx vfb) e (2001, DGlyph g) -> g_name g = Some n -> g_tth g = Some (i :: is) ->
  (forall e', In e' before -> e_id e' <> Some 1269) ->
  exists x, vfb2tth o num fuel file old = (old, Err x).
Proof.
  intros o num fuel file old vfb rest before e after g n i is Rd Ev (Ei & c & b & _ & P & D) Gn Gt Nb. unfold vfb2tth. rewrite Rd. destruct (vfb_tth o vfb) as [u|x] eqn:T; [exfalso|eauto].
  destruct (tth_extract o vfb u T) as (l & F & r & E). cbn [fst snd] in *. rewrite Ev, filter_app in F.
  apply Forall2_app_inv_l in F. destruct F as (l1 & l2 & F1 & F2 & ->). cbn [filter] in F2.
  replace (looked_at e) with true in F2 by (unfold looked_at; rewrite Ei; reflexivity). inversion F2 as [|? p ? l3 (E1 & e2 & Ed & Ed2) F3]; subst.
  assert (p = (2001, DGlyph g)).
  { rewrite Ei in E1. destruct p as [k v]. cbn [fst snd] in *. injection E1 as <-. f_equal.
    unfold entry_decompile in Ed. rewrite Ei in Ed. destruct D as [D|(D & ->)]; rewrite D in Ed.
    - assert (e2 = e) by congruence. subst e2. congruence.
    - rewrite P in Ed. assert (e2 = set_data (Dec (DGlyph g)) e) by congruence. subst e2. destruct e. cbn in Ed2. congruence. }
  subst p. rewrite flat_map_app in E. cbn [flat_map] in E. replace (hint_part (2001, DGlyph g)) with [XGlyph n (Some (i :: is))] in E by (cbn [hint_part]; rewrite Gn, Gt; reflexivity).
  revert E. apply no_ok. cbn [app]. apply C62_early_refuted.
  intros d H. apply in_flat_map in H. destruct H as ((k & x) & Ip & H).
  assert (k = 1269) by (revert H; apply (part_id (XStems d) k x)). subst k. apply Forall2_flip in F1.
  assert (Nf : forall e', In e' (filter looked_at before) -> e_id e' <> Some 1269) by (intros e' X; apply Nb; apply filter_In in X; apply X).
  clear - F1 Nf Ip. induction F1 as [|q e' m m' (E & _) F IH]; [destruct Ip|]. destruct Ip as [->|Ip].
  - apply (Nf e' (or_introl eq_refl)). exact E.
  - apply IH; [exact Ip|]. intros e'' H. apply Nf. right. exact H.
Qed.
(** For all files: a file that cannot be read leaves the output file as it was, with the exception of reading; after any
    exception the output file is as it was or empty; and without one there is an output file. *)
Theorem C99_kept : forall o num fuel file old,
  (forall vfb x rest, vfb_read_bytes (table o) fuel (new_vfb [] false true) file = (vfb, RErr x rest) ->
     vfb2tth o num fuel file old = (old, Err x)) /\
  (forall out x, vfb2tth o num fuel file old = (out, Err x) -> out = old \/ out = Some []) /\
  (forall out, vfb2tth o num fuel file old = (out, Ok tt) -> exists b, out = Some b).
Proof.
  intros o num fuel file old. unfold vfb2tth. destruct (vfb_read_bytes _ _ _ file) as [v [u r|y r]].
  - split; [discriminate|]. destruct (vfb_tth o v) as [d|y]; [|split; [intros out x E; injection E as <- <-; now left|discriminate]].
    unfold write_tth. destruct (dumps num (sort_keys d)) as [b|y]; split; try discriminate.
    + intros out E. injection E as <-. now exists b.
    + intros out x E. injection E as <- <-. now right.
  - split; [intros vfb x rest E; injection E as _ -> _; reflexivity|]. split; [intros out x E; injection E as <- <-; now left|discriminate].
Qed.
Print Assumptions C99_kept.
Print Assumptions C99_missing_refuted.
Print Assumptions C99_one_refuted.
Print Assumptions C99_early_refuted.

(** ** An example *)
Definition no_oracles : oracles := Oracles (fun _ => 0) (fun _ => Ok 0) (fun _ => Ok []) (fun _ => Ok []).
Definition ex_glyph : glyph := Glyph (Some (py "n")) (Some 1) (Some []) (Some [(500, 0)]) None None None None None (Some (snd (nth 0 x_glyphs_ex ([], [])))).
Definition ex_entries : list (Z * value) :=
  [(1265, DGasp [Gasp 8 2; Gasp 65535 3; Gasp 8 1]); (1264, DTTInfo [(py "head_units_per_em", VInt 1000)]); (1272, DInt 68); (1272, DInt 70); (1275, DInt 0);
   (1273, DDeltas [(0, [(9, -2); (12, 1)])]); (1255, DZones (TTZones (Some x_top) (Some x_bottom)));
   (1268, DStems (TTStems (numbered [2; 3; 4; 5] x_v) (numbered [2; 3; 4; 5] x_h))); (1269, DStems (TTStems (stem_texts x_v) (stem_texts x_h)));
   (2001, DGlyph ex_glyph)].
Definition ex_c := mkCtx 1 2 1 MacOS.
Definition ex_bytes : list (Z * bytes) :=
  [(1265, [8; 0; 2; 0; 255; 255; 3; 0; 8; 0; 1; 0]); (1264, [0x3A; 250; 124; 0x32]); (1272, [68; 0]); (1272, [70; 0]); (1275, [0; 0]);
   (1273, [141; 139; 148; 137; 139; 151; 140]); (1255, [141; 248; 136; 149; 140; 120; 249; 80; 151; 140; 72; 140; 129; 149; 140; 120]);
   (1268, [141; 159; 169; 179; 189; 159; 169; 179; 189; 140; 163; 175; 187; 199]); (1269, [141; 219; 1; 97; 199; 221; 1; 97; 189; 140; 209; 1; 97; 211]);
   (2001, [1; 9; 7; 1; 1; 140; 110; 8; 140; 139; 139; 2; 248; 136; 139; 10; 156; 142; 1; 141; 140; 3; 139; 140; 139; 138; 3; 141; 143; 137; 138; 139; 139; 139; 15])].
(** the entry 1138, for name records, is damaged *)
Definition ex_file : bytes := file_of 7 ((1503, [1]) :: (1138, [255]) :: ex_bytes ++ [(2, [])]).
Definition ex_deltas : zone_deltas := [(0, [(9, -2); (12, 1)])].
Definition ex_font : list x_entry := [XDeltas ex_deltas; x_zones_of x_top x_bottom; x_ppms x_v x_h; x_stems_of x_v x_h].
Example ex_conditions : exists vfb,
  vfb_read_bytes (table no_oracles) 20 (new_vfb [] false true) ex_file = (vfb, ROk tt []) /\
  hint_data no_oracles vfb ex_entries /\ Forall S_TthFile.named ex_entries /\
  flat_map hint_part ex_entries = ex_font ++ map glyph_entry x_glyphs_ex /\
  font_entries x_v x_h x_top x_bottom ex_deltas ex_font /\ deltas_ok x_top x_bottom ex_deltas /\
  Forall (x_glyph_ok x_top x_bottom x_v x_h) x_glyphs_ex /\ NoDup (map fst x_glyphs_ex).
Proof.
  eexists. split; [vm_compute; reflexivity|]. split; [|split; [|split; [|split; [|split; [|split]]]]].
  - unfold hint_data, ex_entries. cbn [v_entries v_ctx]. match goal with |- Forall2 _ (filter ?f ?l) _ => let x := eval vm_compute in (filter f l) in change (filter f l) with x end.
    do 10 (apply Forall2_cons;
      [match goal with
       | |- entry_says _ _ (mkEntry _ (Raw ?b) _) _ => split; [reflexivity|]; exists ex_c, b; split; [apply bytes_okb_ok; reflexivity|]; split; [vm_compute; reflexivity|right; split; reflexivity]
       | |- entry_says _ _ (mkEntry _ (Dec _) _) _ => split; [reflexivity|]; exists ex_c, [141; 219; 1; 97; 199; 221; 1; 97; 189; 140; 209; 1; 97; 211];
           split; [apply bytes_okb_ok; reflexivity|]; split; [vm_compute; reflexivity|left; vm_compute; reflexivity]
       end|]). apply Forall2_nil.
  - unfold ex_entries. repeat apply Forall_cons; try apply Forall_nil; unfold S_TthFile.named; cbn [snd]; try exact Logic.I. intros E. discriminate E.
  - reflexivity.
  - unfold font_entries, ex_font.
    change [x_ppms x_v x_h; x_stems_of x_v x_h; x_zones_of x_top x_bottom; XDeltas ex_deltas] with
      ([x_ppms x_v x_h; x_stems_of x_v x_h] ++ [x_zones_of x_top x_bottom] ++ [XDeltas ex_deltas]).
    change [XDeltas ex_deltas; x_zones_of x_top x_bottom; x_ppms x_v x_h; x_stems_of x_v x_h] with
      (([XDeltas ex_deltas] ++ [x_zones_of x_top x_bottom]) ++ [x_ppms x_v x_h; x_stems_of x_v x_h]).
    etransitivity; [apply Permutation_app_comm|]. apply Permutation_app_head, Permutation_app_comm.
  - split; [repeat constructor; intros []|]. repeat constructor; cbn; try lia; intros [H|[]]; discriminate.
  - exact x_glyphs_fine.
  - repeat constructor. intros [].
Qed.
(** its JSON; a number with a fraction is not in it, so that [num] does not matter *)
Definition ex_written : option js :=
  match vfb2tth no_oracles (fun _ => None) 20 ex_file (Some [1]) with
  | (Some text, Ok tt) => loads text
  | _ => None
  end.
Definition ex_rounds (l : list (string * Z)) : js := JsDict (map (fun p => (py (fst p), JsInt (snd p))) l).
Definition ex_stem (horizontal : bool) (round : list (string * Z)) (width : Z) : js :=
  JsDict [(py "horizontal", JsBool horizontal); (py "round", ex_rounds round); (py "width", JsInt width)].
Example ex_output : ex_written = Some (JsDict
  [(py "font", JsDict
     [(py "codeppm", JsInt 0);
      (py "gasp", JsDict [(py "65535", JsInt 3); (py "8", JsInt 1)]);
      (py "head_units_per_em", JsInt 1000);
      (py "stems", JsDict
        [(py "a", ex_stem true [("20", 2); ("30", 3); ("40", 4); ("50", 5); ("60", 6)]%string 80);
         (py "a#1", ex_stem true [("20", 2); ("30", 3); ("40", 4); ("50", 5)]%string 82);
         (py "a#2", ex_stem false [("24", 2); ("36", 3); ("48", 4); ("60", 5); ("72", 6)]%string 70)]);
      (py "stemsnaplimit", JsInt 70);
      (py "zones", JsDict
        [(py "H", JsDict [(py "position", JsInt 700); (py "top", JsBool true); (py "width", JsInt 12)]);
         (py "x", JsDict [(py "position", JsInt 500); (py "top", JsBool true); (py "width", JsInt 10)]);
         (py "x#1", JsDict [(py "deltas", ex_rounds [("12", 1); ("9", -2)]%string); (py "position", JsInt (-10)); (py "top", JsBool false); (py "width", JsInt 10)])])]);
   (py "glyphs", JsDict
     [(py "n", JsList
        [JsDict [(py "code", JsStr (py "alignt")); (py "point", JsInt 2); (py "zone", JsStr (py "H"))];
         JsDict [(py "code", JsStr (py "singleh")); (py "point1", JsInt 0); (py "point2", JsInt 1); (py "stem", JsStr (py "a#2"))];
         JsDict [(py "code", JsStr (py "singleh")); (py "point1", JsInt 2); (py "point2", JsInt 4); (py "round", JsBool true)]])])]).
Proof. vm_compute. reflexivity. Qed.
(** a file without hints *)
Example ex_none : vfb2tth no_oracles (fun _ => None) 20 (file_of 7 [(1503, [1]); (2, [])]) (Some [1]) = (Some [1], Err KeyError).
Proof. vm_compute. reflexivity. Qed.
