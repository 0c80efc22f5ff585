(** C100: the tool vfb2ufo, from the bytes of a VFB file to the files that are written. *)
From Coq Require Import String QArith ZifyBool ZifyNat.
From Verif Require Import Base Lib M_Py M_Text M_Tth M_Simple M_Glyph M_Options M_Container M_Table M_Groups M_Info M_FontInfo M_Designspace M_Builder M_Build M_Ufo M_Document M_Tools M_Vfb2ufo.
From Verif Require Import S_File S_Build S_Ufo S_Hinting S_Document S_Fine S_Tools S_Vfb2ufo P_Tools P_JsonFile P_Vfb2ufo Prop_Container Prop_Tools Prop_Build Prop_Ufo Prop_Fine Prop_Document Prop_Glyph Prop_Resave.
Local Open Scope list_scope.
Local Open Scope Z_scope.

Lemma written_files : forall L fuel a fs fs' file us ds,
  content fs (path_text (a_input a)) = Some (FBytes file) ->
  exported L fuel a file = Ok (map (FUfo (form_of a)) us, option_map FDesign ds) ->
  vfb2ufo L fuel a fs = (fs', Ended Done) -> files_written a us ds fs fs'.
Proof.
  intros L fuel a fs fs' file us ds I X H. unfold vfb2ufo in H. unfold content in I. rewrite I, X in H.
  destruct (builder_write _ _ _ _ fs) as [fs1 o] eqn:W. injection H as -> ->.
  destruct (C77_written _ _ _ _ _ _ _ _ (suffix_not a) W) as (W1 & W2 & W3). rewrite design_named in W2. split; [|split].
  - intros i u N. rewrite <- ufo_named. apply W1. rewrite nth_error_map, N. reflexivity.
  - intros d ->. apply W2. reflexivity.
  - intros p N. apply W3. intros T. apply N. apply target_among in T. rewrite map_length in T. destruct ds; exact T.
Qed.
Lemma exported_forms : forall L fuel a file us ds, exported L fuel a file = Ok (us, ds) ->
  exists us0 ds0, us = map (FUfo (form_of a)) us0 /\ ds = option_map FDesign ds0 /\ exists v,
    vfb_to_document (settings_of L a) (options_of L a) (a_json a) (out_of a) (entries_of (v_entries v)) = Ok (us0, ds0).
Proof.
  intros L fuel a file us ds H. unfold exported in H. destruct (vfb_read_bytes _ _ _ _) as [v0 [u r|e r]]; [|discriminate].
  destruct (vfb_decompile _ v0) as [v [[]|e]]; [|discriminate].
  destruct (vfb_to_document _ _ _ _ _) as [[us0 ds0]|e] eqn:E; [|discriminate]. cbn [rmap fst snd] in H. apply Ok_inj in H. injection H as <- <-.
  exists us0, ds0. split; [reflexivity|]. split; [reflexivity|]. exists v. exact E.
Qed.

(** When the tool comes to its end, each UFO is in its file and so is the document, if there is one; no other file has
    changed. The UFOs and the document are those of the entries of the VFB file. Each source of the document names the file
    of a UFO. *)
Theorem C100_written : forall L fuel a fs fs', vfb2ufo L fuel a fs = (fs', Ended Done) ->
  exists file us ds, content fs (path_text (a_input a)) = Some (FBytes file) /\ us <> [] /\ files_written a us ds fs fs' /\
    (forall v0 rest v, vfb_read_bytes (table (l_oracles L)) fuel (new_vfb [] false (a_unicode a)) file = (v0, ROk tt rest) ->
       vfb_decompile (table (l_oracles L)) v0 = (v, Ok tt) ->
       vfb_to_ufos (settings_of L a) (options_of L a) (entries_of (v_entries v)) = Ok us /\
       vfb_to_document (settings_of L a) (options_of L a) (a_json a) (out_of a) (entries_of (v_entries v)) = Ok (us, ds)) /\
    (forall d i s, ds = Some d -> nth_error (ds_sources d) i = Some s ->
       exists u, nth_error us i = Some u /\ content fs' (so_filename s) = Some (FUfo (ufo_form a) u)).
Proof.
  intros L fuel a fs fs' H. pose proof H as H0. unfold vfb2ufo in H.
  destruct (aget str_eqb (path_text (a_input a)) fs) as [[file|f u|d]|] eqn:I; try discriminate.
  destruct (exported L fuel a file) as [[us1 ds1]|e] eqn:X; [|discriminate].
  destruct (exported_forms _ _ _ _ _ _ X) as (us & ds & -> & -> & v & V). pose proof (written_files L fuel a fs fs' file us ds I X H0) as W.
  exists file, us, ds. split; [exact I|]. split; [|split; [exact W|split]].
  - unfold vfb_to_document in V. destruct (build_font _ _); [|discriminate]. cbn [rthen] in V. unfold get_ufos_designspace in V.
    destruct (get_ufo_masters _ _ _) as [[|u us']|]; try discriminate. cbn [rthen] in V. destruct (written_designspace _ _ _ _); [|discriminate].
    cbn [rmap] in V. apply Ok_inj in V. injection V as <- _. discriminate.
  - intros v0 rest v' R D. rewrite (exported_plain L fuel a file v0 rest v' R D) in X.
    destruct (vfb_to_document _ _ _ _ _) as [[us' ds']|] eqn:E in X; [|discriminate]. cbn [rmap fst snd] in X. apply Ok_inj in X. injection X as X1 X2.
    assert (us' = us).
    { clear - X1. revert us X1. induction us' as [|u us' IH]; intros [|x us] E; try discriminate; [reflexivity|]. cbn [map] in E. injection E as -> E. f_equal. now apply IH. }
    assert (ds' = ds) by (destruct ds', ds; cbn in X2; congruence). subst us' ds'. split; [|exact E].
    unfold vfb_to_document in E. unfold vfb_to_ufos. destruct (build_font _ _); [|discriminate]. cbn [rthen] in *. unfold get_ufos_designspace in E.
    destruct (get_ufo_masters _ _ _) as [[|u us']|]; try discriminate. cbn [rthen] in E. destruct (written_designspace _ _ _ _); [|discriminate].
    cbn [rmap] in E. apply Ok_inj in E. injection E as -> _. reflexivity.
  - intros d i s -> N. destruct (sources_numbered _ _ _ _ _ _ _ _ _ V N) as [Li ->]. rewrite ufo_named.
    destruct (nth_error us i) as [u|] eqn:U; [|apply nth_error_None in U; lia]. exists u. split; [reflexivity|]. apply W. exact U.
Qed.
(** When it ends otherwise, no file has changed, except that a file which it may not overwrite can have been found after
    some UFOs were written to new files. *)
Theorem C100_stopped : forall L fuel a fs fs' e, vfb2ufo L fuel a fs = (fs', e) -> e <> Ended Done ->
  fs' = fs \/ e = Ended FileExists /\ a_force a = false /\
    (a_json a = false -> forall p, content fs p <> None -> content fs' p = content fs p).
Proof.
  intros L fuel a fs fs' e H N. unfold vfb2ufo in H. destruct (aget str_eqb (path_text (a_input a)) fs) as [[file|f u|d]|] eqn:I.
  2-4: injection H as <- _; left; reflexivity.
  destruct (builder_write _ _ _ _ fs) as [fs1 o] eqn:W. injection H as <- <-. destruct (exported L fuel a file) as [[us ds]|x].
  2:{ rewrite C77_failed in W. injection W as <- _. left. reflexivity. }
  right. pose proof (C77_overwrites _ (a_json a) us ds (out_of a) fs) as Ov.
  assert (O : o = Done \/ o = FileExists).
  { unfold builder_write in W. pose proof (write_ufos_outcome _ (a_json a) (a_force a) (out_path_of (a_json a) (out_of a)) us 0 fs) as O.
    destruct (write_ufos _ _ _ _ _ _) as [fs2 o2]. cbn [snd] in O. destruct O as [-> | ->]; [|injection W as _ <-; auto].
    unfold write_designspace in W. destruct ds; [|injection W as _ <-; auto]. destruct (aget str_eqb (path_text _) fs2) in W; [destruct (a_force a)|]; injection W as _ <-; auto. }
  destruct O as [-> | ->]; [congruence|]. split; [reflexivity|].
  assert (F : a_force a = false). { destruct (a_force a); [|reflexivity]. rewrite W in Ov. discriminate. } split; [exact F|].
  intros J p P. destruct (content fs p) as [c|] eqn:C; [|congruence]. rewrite F, J in W.
  pose proof (C77_kept _ (Ok (us, ds)) (out_of a) fs p c C) as K. rewrite W in K. exact K.
Qed.
(** Whatever happens, the VFB file is as it was, unless its name is that of a UFO, a JSON file or a designspace. *)
Theorem C100_input : forall L fuel a fs,
  (forall x, In x [py ".ufo"; py ".ufoz"; py ".json"; py ".designspace"] -> forall q, path_text (a_input a) <> q ++ x) ->
  content (fst (vfb2ufo L fuel a fs)) (path_text (a_input a)) = content fs (path_text (a_input a)).
Proof.
  intros L fuel a fs N. unfold vfb2ufo. destruct (aget str_eqb (path_text (a_input a)) fs) as [[file|f u|d]|]; try reflexivity.
  destruct (exported L fuel a file) as [[us ds]|x]; [|reflexivity].
  pose proof (write_other _ (a_json a) (a_force a) us ds (out_of a) fs (path_text (a_input a))) as W.
  destruct (builder_write _ _ _ _ fs) as [fs1 o]. cbn [fst] in *. apply W. intros T. apply target_among in T.
  destruct T as [(i & _ & E)|(_ & E)].
  - unfold ufo_name, out_name in E. rewrite !app_assoc in E. revert E. apply N. destruct (a_json a), (a_zip a); cbn [In]; auto.
  - unfold design_name, out_name in E. rewrite !app_assoc in E. revert E. apply N. cbn [In]. auto.
Qed.
(** A file whose entries fit together is exported: one UFO for each master and, if it has axes, the document. *)
Theorem C100_exported : forall L fuel a fs file v0 rest v,
  content fs (path_text (a_input a)) = Some (FBytes file) -> bytes_ok file -> Z.of_nat (List.length file) < 2 ^ 31 ->
  vfb_read_bytes (table (l_oracles L)) fuel (new_vfb [] false (a_unicode a)) file = (v0, ROk tt rest) ->
  vfb_decompile (table (l_oracles L)) v0 = (v, Ok tt) -> (2 <= l_fuel L)%nat ->
  let c := settings_of L a in let l := used (a_minimal a) (entries_of (v_entries v)) in let n := Z.to_nat (count_of_masters l) in
  exportable c (options_of L a) l -> (axis_names l = [] \/ design_complete l n) ->
  (a_force a = true \/ forall p, among a n (match axis_names l with [] => false | _ => true end) p -> content fs p = None) ->
  exists fs' us ds, vfb2ufo L fuel a fs = (fs', Ended Done) /\ files_written a us ds fs fs' /\ List.length us = n /\
    vfb_to_ufos c (options_of L a) (entries_of (v_entries v)) = Ok us /\
    (axis_names l = [] -> ds = None) /\
    (axis_names l <> [] -> exists d family, ds = Some d /\ document_shown c l n family (a_json a) (out_of a) d /\
       map so_filename (ds_sources d) = map (ufo_name a) (seq 0 n)).
Proof.
  intros L fuel a fs file v0 rest v I Hb Hl R D Hf c l n Ex Ds Fr. destruct (C85_file _ _ _ _ _ _ _ c Hb Hl R D) as (T & _ & _).
  destruct (C91_succeeds c (options_of L a) _ T Hf Ex) as (us & U & Lu). change (used (st_vfb_minimal c) (entries_of (v_entries v))) with l in Lu.
  assert (Pos : 1 <= count_of_masters l).
  { unfold count_of_masters. cbv zeta. destruct (_ =? 0) eqn:E; [lia|]. assert (1 <= last_or 0 (flat_map (int_part 1513) l) ^ 2) by nia. lia. }
  assert (Ln : List.length us = n) by (unfold n; lia). assert (NE : us <> []) by (intros ->; cbn in Ln; lia).
  assert (Doc : exists ds, vfb_to_document c (options_of L a) (a_json a) (out_of a) (entries_of (v_entries v)) = Ok (us, ds) /\
     (axis_names l = [] -> ds = None) /\ (axis_names l <> [] -> exists d family, ds = Some d /\ document_shown c l n family (a_json a) (out_of a) d)).
  { destruct Ds as [A|Dc].
    - exists None. split; [|split; [reflexivity|congruence]]. apply C96_no_axes; assumption.
    - rewrite <- Ln in Dc. destruct (C96_document c (options_of L a) (a_json a) (out_of a) _ us T U NE Dc) as (d & family & E & S & _).
      exists (Some d). split; [exact E|]. rewrite <- Ln. split; [intros A; exfalso; destruct Dc as [Dc _]; apply Dc; exact A|]. intros _. exists d, family. auto. }
  destruct Doc as (ds & E & A0 & A1).
  pose proof (exported_plain L fuel a file v0 rest v R D) as X. fold c in X. rewrite E in X. cbn [rmap fst snd] in X.
  assert (Dn : exists fs', vfb2ufo L fuel a fs = (fs', Ended Done)).
  { unfold vfb2ufo. unfold content in I. rewrite I, X.
    assert (S : snd (builder_write (a_json a) (a_force a) (Ok (map (FUfo (form_of a)) us, option_map FDesign ds)) (out_of a) fs) = Done).
    { destruct (a_force a); [apply C77_overwrites|]. apply write_free; [apply suffix_not|]. intros p P. apply target_among in P. rewrite map_length, Ln in P.
      destruct Fr as [Fr|Fr]; [discriminate|]. apply Fr. destruct (axis_names l) as [|x r] eqn:Ax.
      - rewrite (A0 eq_refl) in P. exact P.
      - destruct A1 as (d & family & -> & _); [discriminate|]. exact P. }
    destruct (builder_write _ _ _ _ fs) as [fs' o]. cbn [snd] in S. subst o. exists fs'. reflexivity. }
  destruct Dn as (fs' & Dn). exists fs', us, ds. split; [exact Dn|]. split; [exact (written_files L fuel a fs fs' file us ds I X Dn)|].
  split; [exact Ln|]. split; [exact U|]. split; [exact A0|]. intros A. destruct (A1 A) as (d & family & -> & S). exists d, family. split; [reflexivity|]. split; [exact S|].
  assert (K : forall m (l0 : list (source num)) i, List.length l0 = m -> (forall j s, nth_error l0 j = Some s -> so_filename s = ufo_name a (i + j)) ->
    map so_filename l0 = map (ufo_name a) (seq i m)).
  { clear. induction m as [|m IH]; intros [|s l0] i Hl H; try discriminate; [reflexivity|]. cbn [map seq]. f_equal.
    - specialize (H O s eq_refl). rewrite Nat.add_0_r in H. exact H.
    - apply IH; [cbn in Hl; lia|]. intros j s' J. specialize (H (Datatypes.S j) s' J). rewrite Nat.add_succ_r in H. exact H. }
  apply K; [exact (dc_count _ _ _ _ _ _ _ S)|]. intros j s J. cbn [Nat.add]. rewrite <- ufo_named. eapply sources_numbered; eassumption.
Qed.
(** Without permission to overwrite, and unless UFOs are written as JSON, no file that exists is changed. *)
Theorem C100_kept : forall L fuel a fs p c, a_force a = false -> a_json a = false -> content fs p = Some c ->
  content (fst (vfb2ufo L fuel a fs)) p = Some c.
Proof.
  intros L fuel a fs p c F J H. unfold vfb2ufo. destruct (aget str_eqb (path_text (a_input a)) fs) as [[file|f u|d]|]; try exact H.
  rewrite F, J. pose proof (C77_kept _ (exported L fuel a file) (out_of a) fs p c H) as K.
  destruct (builder_write _ _ _ _ fs). exact K.
Qed.
(** The entries with the encoding of the font play no part, and may even be unreadable: the same files are written of two
    VFB files that have the same entries else. *)
Theorem C100_encoding : forall L fuel a fs file file' v0 v0' rest rest',
  (forall x, In x [py ".ufo"; py ".ufoz"; py ".json"; py ".designspace"] -> forall q, path_text (a_input a) <> q ++ x) ->
  vfb_read_bytes (table (l_oracles L)) fuel (new_vfb [] false (a_unicode a)) file = (v0, ROk tt rest) ->
  vfb_read_bytes (table (l_oracles L)) fuel (new_vfb [] false (a_unicode a)) file' = (v0', ROk tt rest') -> v_ctx v0 = v_ctx v0' ->
  let others := filter (fun e => match e_id e with Some i => negb ((i =? 1500) || (i =? 1501)) | None => true end) in
  others (v_entries v0) = others (v_entries v0') ->
  let run f := vfb2ufo L fuel a (aset str_eqb (path_text (a_input a)) (FBytes f) fs) in
  snd (run file) = snd (run file') /\
  forall p, p <> path_text (a_input a) -> content (fst (run file)) p = content (fst (run file')) p.
Proof.
  intros L fuel a fs file file' v0 v0' rest rest' N R R' Ec others Ee run.
  assert (X : exported L fuel a file = exported L fuel a file').
  { eapply exported_others; try eassumption.
    assert (F : forall e : entry value, not_dropped dropped_keys e = match e_id e with Some i => negb ((i =? 1500) || (i =? 1501)) | None => true end).
    { intros e. unfold not_dropped, dropped_keys. cbn [existsb]. destruct (e_id e); [|reflexivity]. now rewrite Bool.orb_false_r. }
    rewrite !(filter_ext _ _ F). exact Ee. }
  set (q := path_text (a_input a)) in *.
  assert (Q : forall f, aget str_eqb q (aset str_eqb q (FBytes f) fs) = Some (FBytes f)) by (intros f; apply get_set_same).
  assert (A : agree q (aset str_eqb q (FBytes file) fs) (aset str_eqb q (FBytes file') fs)).
  { intros p P. now rewrite !get_set_other. }
  destruct (write_agree _ (a_json a) (a_force a) (exported L fuel a file') (out_of a) q _ _ A) as [W1 W2].
  - intros j E. rewrite ufo_named in E. unfold ufo_name, out_name in E. rewrite !app_assoc in E. revert E. apply N. destruct (a_json a), (a_zip a); cbn [In]; auto.
  - intros E. rewrite design_named in E. unfold design_name, out_name in E. rewrite !app_assoc in E. revert E. apply N. cbn [In]. auto.
  - unfold run, vfb2ufo. fold q. rewrite !Q, X. destruct (builder_write _ _ _ _ (aset str_eqb q (FBytes file) fs)) as [g o], (builder_write _ _ _ _ (aset str_eqb q (FBytes file') fs)) as [g' o'].
    cbn [fst snd] in *. split; [congruence|exact W2].
Qed.
Print Assumptions C100_written.
Print Assumptions C100_stopped.
Print Assumptions C100_input.
Print Assumptions C100_exported.
Print Assumptions C100_kept.
Print Assumptions C100_encoding.

(** ** A file: two masters on one axis, an encoding, a glyph *)
Definition c100_values : list (Z * value) :=
  [(1500, DEncoding (65, py "A")); (1024, DStr (py "Test")); (1503, DInt 2); (1504, DStr (py "Light ")); (1504, DStr (py "Bold"));
   (1513, DInt 1); (1514, DStr (py "Weight")); (1505, DMasterLocation (1, [0; 0; 0; 0]));
   (1505, DMasterLocation (2, [0x3FF0000000000000; 0; 0; 0])); (1536, DPSInfo (c95_psinfo 750)); (1536, DPSInfo (c95_psinfo 760));
   (2001, DGlyph (Glyph (Some (py "A")) (Some 2) (Some []) (Some [(600, 0); (640, 0)]) None None None None None None)); (2, DStr [])].
Definition c100_file : bytes := Eval vm_compute in written sample_oracles c100_values.
Definition c100_libs ops up asm : libs := Libs sample_oracles ops up asm (fun _ => Qmake 0 1) (fun x => x) 2.
Definition c100_args : args :=
  Args (Path true [py "fonts"] (py "Test") (py ".vfb")) None (Some (true, [py "out"])) false true false false false false false false false.
Definition c100_files : files file_content := [(py "/fonts/Test.vfb", FBytes c100_file); (py "/out/Test.ufo", FBytes [])].
Definition c100_entries : list (Z * option value) := map (fun p => (fst p, Some (snd p))) c100_values.
Example c100_fine : forall ops up asm,
  exportable (settings_of (c100_libs ops up asm) c100_args) (options_of (c100_libs ops up asm) c100_args) (used false c100_entries).
Proof.
  intros ops up asm. split; [|split; [|split; [|split]]].
  - split; [|split; [|split; [|split; [|split]]]].
    + intros x I. cbn [used c100_entries c100_values map fst snd In] in I. repeat (destruct I as [I|I]; [first [discriminate I | injection I as <-; repeat split; discriminate]|]). destruct I.
    + change (flat_map info_part (used false c100_entries)) with [(1024, Some (DVal (IStr (py "Test"))))]. constructor; [|constructor]. intros d E. cbn [fst snd] in *. injection E as <-.
      split; [intros; eexists; reflexivity|]. repeat split; intros E; try discriminate E. destruct E; discriminate.
    + split; [intros b _ I|intros k b _ [-> | ->] I]; exfalso; cbn [used c100_entries c100_values map fst snd In] in I; repeat (destruct I as [I|I]; [first [discriminate I | injection I as I; discriminate I]|]); exact I.
    + intros text x y z I E. exfalso. cbn [used c100_entries c100_values map fst snd In] in I. repeat (destruct I as [I|I]; [first [discriminate I | injection I as I; discriminate I]|]); exact I.
    + apply each_list. exact Coq.Init.Logic.I.
    + apply each_list. vm_compute. auto 20.
  - unfold good_glyphs. split; [|split; [vm_compute; discriminate|split; [|split]]].
    + vm_compute. repeat first [left; reflexivity | right; split; [intros I; repeat (destruct I as [I|I]; [discriminate I|]); exact I|]].
    + vm_compute. repeat constructor; cbn [In]; intuition discriminate.
    + vm_compute. repeat constructor.
    + vm_compute. repeat constructor; cbn [In]; tauto.
  - unfold masters_fine. cbv zeta. change (count_of_masters (used false c100_entries)) with 2. split; [vm_compute; discriminate|split; [|split; [|split]]].
    + change (glyph_blocks (used false c100_entries)) with [(Glyph (Some (py "A")) (Some 2) (Some []) (Some [(600, 0); (640, 0)]) None None None None None None, [(2, DStr [])])].
      constructor; [|constructor]. unfold block_fine. split; [eexists; split; [reflexivity|unfold covers; cbn; lia]|]. split; [constructor|]. split; [unfold covers; cbn; lia|].
      split; [constructor|]. split; [constructor|]. intros _. split; [exists []; split; [reflexivity|constructor]|]. split; [intros m _; constructor|]. split; [left; reflexivity|]. intros d E. discriminate E.
    + constructor.
    + intros _ d E. discriminate E.
    + intros E. discriminate E.
  - unfold hints_fine. change (glyph_blocks (used false c100_entries)) with [(Glyph (Some (py "A")) (Some 2) (Some []) (Some [(600, 0); (640, 0)]) None None None None None None, [(2, DStr [])])].
    constructor; [|constructor]. cbv zeta. split; [exists []; split; [reflexivity|constructor]|]. split; [left; repeat split|]. intros m _. repeat split; constructor.
  - unfold commands_fine. change (glyph_entries (used false c100_entries)) with [Glyph (Some (py "A")) (Some 2) (Some []) (Some [(600, 0); (640, 0)]) None None None None None None].
    change (glyph_zones None (used false c100_entries)) with [@None (list pystr * list pystr)]. constructor; [|constructor]. intros is E. discriminate E.
Qed.
(** it meets the conditions, and is exported as zip files to another folder *)
Example c100_conditions : forall ops up asm, let L := c100_libs ops up asm in let a := c100_args in let fs := c100_files in exists v0 v,
  content fs (path_text (a_input a)) = Some (FBytes c100_file) /\ bytes_ok c100_file /\ Z.of_nat (List.length c100_file) < 2 ^ 31 /\
  vfb_read_bytes (table (l_oracles L)) 20 (new_vfb [] false (a_unicode a)) c100_file = (v0, ROk tt []) /\
  vfb_decompile (table (l_oracles L)) v0 = (v, Ok tt) /\ entries_of (v_entries v) = c100_entries /\ (2 <= l_fuel L)%nat /\
  (let l := used (a_minimal a) (entries_of (v_entries v)) in let n := Z.to_nat (count_of_masters l) in
   exportable (settings_of L a) (options_of L a) l /\ design_complete l n /\ n = 2%nat /\
   forall p, among a n (match axis_names l with [] => false | _ => true end) p -> content fs p = None) /\
  (forall x, In x [py ".ufo"; py ".ufoz"; py ".json"; py ".designspace"] -> forall q, path_text (a_input a) <> q ++ x).
Proof.
  intros ops up asm L a fs. do 2 eexists. split; [reflexivity|]. split; [unfold c100_file; repeat constructor; lia|]. split; [vm_compute; reflexivity|].
  split; [vm_compute; reflexivity|]. split; [vm_compute; reflexivity|]. split; [vm_compute; reflexivity|]. split; [cbn; lia|]. split.
  - cbv zeta. match goal with |- context [entries_of ?e] => replace (entries_of e) with c100_entries by (vm_compute; reflexivity) end.
    split; [exact (c100_fine ops up asm)|]. split; [|split; [reflexivity|]].
    + change (Z.to_nat _) with 2%nat. split; [vm_compute; discriminate|]. split; [vm_compute; repeat constructor; cbn [In]; tauto|].
      split; [vm_compute; intuition discriminate|]. split; [reflexivity|]. split; [|vm_compute; constructor].
      intros i R. assert (i = 1 \/ i = 2) as [-> | ->] by lia; eexists; (split; [vm_compute; reflexivity|cbn; lia]).
    + change (Z.to_nat _) with 2%nat. intros p [(i & Hi & ->)|(_ & ->)]; [|reflexivity]. assert (i = 0%nat \/ i = 1%nat) as [-> | ->] by lia; reflexivity.
  - intros x I q E. apply (f_equal (@rev Z)) in E. rewrite rev_app_distr in E.
    cbn [In] in I. destruct I as [<-|[<-|[<-|[<-|[]]]]]; vm_compute in E; discriminate E.
Qed.
Example c100_run : forall ops up asm, exists u u' d,
  vfb2ufo (c100_libs ops up asm) 20 c100_args c100_files =
  (c100_files ++ [(py "/out/Test.ufoz", FUfo AsZip u); (py "/out/Test-1.ufoz", FUfo AsZip u'); (py "/out/Test.designspace", FDesign d)], Ended Done).
Proof. intros. do 3 eexists. vm_compute. reflexivity. Qed.
