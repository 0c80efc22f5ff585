(** C75 to C79: the command line tools and the files they write. *)
From Coq Require Import String ZifyBool ZifyNat.
From Verif Require Import Base Lib M_Stream M_Py M_Helpers M_Text M_Container M_Tth M_Designspace M_Table M_Tools
  S_Stream S_Tools P_Stream P_Helpers P_Dec Prop_Stream Prop_File P_Simple P_Tools.
Local Open Scope list_scope.

(** ** C75: the value tool *)
(** Decoding what was encoded prints the values, however the hex string is cut into arguments. *)
Theorem C75_roundtrip : forall signed values, Forall (fits_value signed) values ->
  exists s, yuri_encode signed values = Ok s /\
  forall args, concat args = s -> yuri_decode signed args = (values, Ok tt).
Proof.
  intros sg vs H. destruct (yuri_roundtrip sg vs H) as (b & E & B & L & R).
  exists (hexStr b). unfold yuri_encode. rewrite E. split; [reflexivity|].
  intros args A. unfold yuri_decode. rewrite A, deHexStr_hexStr by exact B. apply R. lia.
Qed.
Print Assumptions C75_roundtrip.
(** Values that do not fit are not encoded. *)
Theorem C75_rejects : forall signed values, ~ Forall (fits_value signed) values ->
  yuri_encode signed values = Err StructError.
Proof.
  intros sg vs H. unfold yuri_encode. replace (wlist (write_value_gen sg) vs) with (@Err bytes StructError); [reflexivity|].
  symmetry. induction vs as [|v vs IH]; [exfalso; apply H; constructor|]. cbn [wlist].
  destruct (C02_value_rejects sg v) as [C1 C2].
  assert (X : fits_value sg v \/ ~ fits_value sg v).
  { destruct sg; unfold fits_value; lia. }
  destruct X as [X|X].
  - destruct (C1 X) as [a ->]. rewrite IH; [reflexivity|]. intros F. apply H. constructor; assumption.
  - rewrite C2 by exact X. reflexivity.
Qed.
Print Assumptions C75_rejects.
(** Decoding always ends. *)
Theorem C75_terminates : forall signed args, snd (yuri_decode signed args) <> Err Diverge.
Proof.
  intros sg args. unfold yuri_decode. destruct (deHexStr (concat args)) as [b|e] eqn:E.
  - apply yuri_loop_ends; [apply (deHexStr_bytes _ _ E)|lia].
  - cbn [snd]. intros X. injection X as ->. revert E. generalize (concat args). intros s.
    assert (K : forall n s, (List.length s <= n)%nat -> deHexStr s <> Err Diverge).
    { clear. induction n as [|n IH]; intros s L.
      - destruct s; [discriminate|cbn in L; lia].
      - destruct s as [|c s]; [discriminate|]. cbn [deHexStr]. cbn [List.length] in L.
        destruct (ascii_space c); [apply IH; lia|]. destruct s as [|d s]; [discriminate|].
        destruct (hex_value c), (hex_value d); try discriminate. cbn [List.length] in L.
        specialize (IH s ltac:(lia)). destruct (deHexStr s); cbn [rmap]; [discriminate|congruence]. }
    intros E. exact (K _ _ (le_n _) E).
Qed.
Print Assumptions C75_terminates.
(** What comes after a zero byte is ignored without a word. *)
Theorem C75_refuted : forall signed b, bytes_ok b -> yuri_decode signed [hexStr (0 :: b)] = ([], Ok tt).
Proof.
  intros sg b B. unfold yuri_decode. cbn [concat]. rewrite app_nil_r, deHexStr_hexStr.
  - cbn [yuri_loop]. assert (B0 : bytes_ok (0 :: b)) by (constructor; [unfold is_byte; lia|exact B]).
    pose proof (C03_value_total sg (0 :: b) B0) as T. cbv iota in T. rewrite Z.eqb_refl in T. rewrite T. reflexivity.
  - constructor; [unfold is_byte; lia|exact B].
Qed.
Print Assumptions C75_refuted.
(** Bytes that begin no value are reported, after the values before them. *)
Theorem C75_reports : forall signed values c rest, Forall (fits_value signed) values -> 1 <= c < 32 -> bytes_ok rest ->
  exists s, yuri_encode signed values = Ok s /\
  yuri_decode signed [s; hexStr (c :: rest)] = (values, Err ValueError).
Proof.
  intros sg vs c rest H C B. destruct (yuri_prefix sg vs H) as (b & E & Bb & L & R).
  exists (hexStr b). unfold yuri_encode. rewrite E. split; [reflexivity|].
  assert (Bc : bytes_ok (c :: rest)) by (constructor; [unfold is_byte; lia|exact B]).
  unfold yuri_decode. cbn [concat]. rewrite app_nil_r, <- hexStr_app, deHexStr_hexStr by (apply bytes_ok_app; auto).
  replace (S (List.length (b ++ c :: rest))) with (List.length vs + S (List.length (b ++ c :: rest) - List.length vs))%nat
    by (rewrite app_length; lia).
  rewrite R. cbn [yuri_loop]. pose proof (C03_value_total sg (c :: rest) Bc) as T. cbv iota in T.
  replace (c =? 0) with false in T by lia. replace (c <? 32) with true in T by lia. rewrite T. rewrite app_nil_r. reflexivity.
Qed.
Print Assumptions C75_reports.
Example sample_values : Forall (fits_value true) [-5; 108; 100000] /\
  yuri_encode true [-5; 108; 100000] = Ok (py "86f700ff000186a0") /\
  yuri_decode true [py "86f7"; py "00ff0001"; py "86a0"] = ([-5; 108; 100000], Ok tt).
Proof.
  split; [|split; reflexivity]. repeat apply Forall_cons; try apply Forall_nil; unfold fits_value; lia.
Qed.

(** ** C76: the JSON of a Vfb *)
(** Two Vfbs with the same dict have the same header and the same entries, in the same order, with the same
    data. *)
Theorem C76_dict : forall D J o (tojson : D -> json J) (v v' : vfb D),
  raw_bytes_ok v -> raw_bytes_ok v' ->
  as_dict (key_of o) tojson v = as_dict (key_of o) tojson v' ->
  v_header v = v_header v' /\ Forall2 (same_entry tojson) (v_entries v) (v_entries v').
Proof.
  intros D J o tojson v v' [F Hv] [F' Hv'] E. unfold as_dict in E.
  pose proof (f_equal fst E) as E1. pose proof (f_equal snd E) as E2. cbn [fst snd] in E1, E2. clear E. split.
  - destruct (v_header v), (v_header v'); cbn [header_as_dict] in E1; try discriminate; try reflexivity.
    + injection E1 as E1. f_equal. apply hexStr_inj; auto.
    + injection E1 as ->. reflexivity.
  - clear Hv Hv' E1. revert E2 F F'. generalize (v_entries v) (v_entries v').
    induction l as [|e l IH]; intros [|e' l'] E F F'; try discriminate; [constructor|].
    cbn [map] in E. assert (Ee : entry_as_dict (key_of o) tojson e = entry_as_dict (key_of o) tojson e') by congruence.
    constructor; [|apply IH; [congruence|exact (Forall_inv_tail F)|exact (Forall_inv_tail F')]].
    pose proof (Forall_inv F) as [I B]. pose proof (Forall_inv F') as [I' B'].
    unfold entry_as_dict in Ee. unfold same_entry.
    destruct (e_id e) as [i|]; [|congruence]. destruct (e_id e') as [i'|]; [|congruence].
    assert (Ki : key_of o i = key_of o i').
    { destruct (e_data e), (e_data e'); injection Ee; auto. }
    apply C60_names in Ki. subst i'. split; [reflexivity|].
    destruct (e_data e), (e_data e'); try discriminate; auto.
    + injection Ee as _ Ee. apply hexStr_inj; auto.
    + injection Ee as Ee. exact Ee.
    + injection Ee as Ee. exact Ee.
    + injection Ee as Ee. symmetry. exact Ee.
Qed.
Print Assumptions C76_dict.
(** Files that are written from two Vfbs with binary entries and the same dict are the same. *)
Theorem C76_files : forall D J o (T : codecs D) (tojson : D -> json J) (v v' : vfb D),
  raw_bytes_ok v -> raw_bytes_ok v' ->
  Forall (fun e => (exists b, e_data e = Raw b) /\ e_cache e = None) (v_entries v ++ v_entries v') ->
  as_dict (key_of o) tojson v = as_dict (key_of o) tojson v' ->
  snd (fst (vfb_write_bytes T v)) = snd (fst (vfb_write_bytes T v')) /\
  snd (vfb_write_bytes T v) = snd (vfb_write_bytes T v').
Proof.
  intros D J o T tojson v v' A A' R E. apply C76_dict in E; [|exact A|exact A']. destruct E as [Eh E2].
  assert (Ee : v_entries v = v_entries v').
  { clear A A' Eh. apply Forall_app in R. destruct R as [R R']. induction E2 as [|e e' l l' S _ IH]; [reflexivity|].
    f_equal; [|apply IH; [exact (Forall_inv_tail R)|exact (Forall_inv_tail R')]].
    pose proof (Forall_inv R) as [[b B] C]. pose proof (Forall_inv R') as [[b' B'] C'].
    destruct S as [Si Sd]. rewrite B, B' in Sd. destruct e as [i d c], e' as [i' d' c'].
    cbn [e_id e_data e_cache] in *. subst. reflexivity. }
  assert (RR : forall c es, Forall (fun e : entry D => exists b, e_data e = Raw b) es -> compile_entries T c es = (es, Ok tt)).
  { clear. induction es as [|e es IH]; intros F; [reflexivity|]. cbn [compile_entries]. unfold entry_compile.
    destruct (Forall_inv F) as [b ->]. rewrite IH by exact (Forall_inv_tail F). reflexivity. }
  assert (R1 : Forall (fun e : entry D => exists b, e_data e = Raw b) (v_entries v')).
  { apply Forall_app in R. destruct R as [_ R']. eapply Forall_impl; [|exact R']. cbn. tauto. }
  unfold vfb_write_bytes, vfb_compile. rewrite Eh. destruct (header_compile (v_header v')) as [h|e]; [|split; reflexivity].
  cbn [v_ctx v_entries with_header]. rewrite Ee, !RR by exact R1. cbn [v_header with_entries with_header v_entries].
  destruct h; [|split; reflexivity|split; reflexivity].
  destruct (write_entries (v_entries v')) as [[es b0] o']. split; reflexivity.
Qed.
Print Assumptions C76_files.
(** The old JSON file is lost when the data cannot be written as JSON. *)
Theorem C76_failure_refuted : forall A (dumps : A -> res bytes) d old e, dumps d = Err e ->
  write_vfb_json dumps d old = ([], Err e).
Proof. intros A dumps d old e H. unfold write_vfb_json. rewrite H. reflexivity. Qed.
Print Assumptions C76_failure_refuted.
Definition sample_vfb : vfb Z :=
  mkVfb (HDec (mkHdr 0x464C571A 0x31 0x30 3 52)) [mkEntry (Some 1135) (Raw [232; 3]) None; mkEntry (Some 2) (Raw []) None]
        (mkCtx 1 0 0 MacOS) Utf8 false [] false false.
Example sample_vfb_ok : raw_bytes_ok sample_vfb /\
  Forall (fun e => (exists b, e_data e = Raw b) /\ e_cache e = None) (v_entries sample_vfb ++ v_entries sample_vfb).
Proof.
  split.
  - split; [|exact I]. repeat apply Forall_cons; try apply Forall_nil; (split; [discriminate|]); cbn;
      repeat apply Forall_cons; try apply Forall_nil; unfold is_byte; lia.
  - repeat apply Forall_cons; try apply Forall_nil; (split; [eexists; reflexivity|reflexivity]).
Qed.

(** ** C77: existing files *)
(** Without permission to overwrite, exporting UFOs leaves every existing file as it is. *)
Theorem C77_kept : forall C (built : res (list C * option C)) out fs p c, content fs p = Some c ->
  content (fst (builder_write false false built out fs)) p = Some c.
Proof.
  intros C built out fs p c H. unfold builder_write. destruct built as [[ufos ds]|e]; [|exact H].
  pose proof (write_ufos_kept C (out_path_of false out) ufos 0 fs p c H) as K.
  destruct (write_ufos false false (out_path_of false out) 0 ufos fs) as [fs1 o]. cbn [fst] in K.
  destruct o; try exact K. unfold write_designspace. destruct ds as [d|]; [|exact K].
  destruct (aget str_eqb _ fs1) eqn:E; [exact K|]. cbn [fst]. rewrite get_set_other; [exact K|].
  intros ->. unfold content in K. congruence.
Qed.
Print Assumptions C77_kept.
(** It refuses whenever one of the files is there already. *)
Theorem C77_refuses : forall C (ufos : list C) ds out fs p, p_suffix out <> py ".designspace" ->
  target false out ufos ds p -> content fs p <> None ->
  snd (builder_write false false (Ok (ufos, ds)) out fs) = FileExists.
Proof.
  intros C ufos ds out fs p NS Tg N. unfold builder_write.
  pose proof (write_ufos_outcome C false false (out_path_of false out) ufos 0 fs) as O.
  destruct (write_ufos false false (out_path_of false out) 0 ufos fs) as [fs1 o] eqn:E. cbn [snd] in O.
  destruct O as [->| ->]; [|reflexivity].
  change 0 with (Z.of_nat 0) in E. apply write_ufos_done in E. destruct E as (_ & E2 & E3).
  destruct Tg as [(i & I & ->)|(D & ->)].
  - exfalso. apply N. apply (E3 eq_refl eq_refl i I).
  - destruct ds as [d|]; [|congruence]. unfold write_designspace. rewrite ds_text.
    assert (X : content fs1 (ds_file out) = content fs (ds_file out)).
    { apply E2. intros j _ X. symmetry in X. revert X. apply ufo_not_ds. exact NS. }
    unfold content in *. rewrite X. destruct (aget str_eqb (ds_file out) fs); [reflexivity|congruence].
Qed.
Print Assumptions C77_refuses.
(** When it is done, each UFO and the designspace are in their files, and no other file has changed. *)
Theorem C77_written : forall C json overwrite (ufos : list C) ds out fs fs',
  ufo_suffix json out <> py ".designspace" ->
  builder_write json overwrite (Ok (ufos, ds)) out fs = (fs', Done) ->
  (forall i u, nth_error ufos i = Some u -> content fs' (ufo_file out (ufo_suffix json out) i) = Some u) /\
  (forall d, ds = Some d -> content fs' (ds_file out) = Some d) /\
  (forall p, ~ target json out ufos ds p -> content fs' p = content fs p).
Proof.
  intros C json ov ufos ds out fs fs' NS H. unfold builder_write in H.
  destruct (write_ufos json ov (out_path_of json out) 0 ufos fs) as [fs1 o] eqn:E.
  destruct o; try discriminate. change 0 with (Z.of_nat 0) in E. apply write_ufos_done in E. destruct E as (E1 & E2 & _).
  cbn [Nat.add] in E1, E2.
  unfold write_designspace in H. destruct ds as [d|].
  - rewrite ds_text in H.
    assert (H' : fs' = aset str_eqb (ds_file out) d fs1).
    { destruct (aget str_eqb (ds_file out) fs1); [destruct ov|]; injection H as <-; try reflexivity. discriminate. }
    subst fs'. clear H. split; [|split].
    + intros i u U. rewrite get_set_other by (apply ufo_not_ds; exact NS). apply E1. exact U.
    + intros d' X. injection X as <-. apply get_set_same.
    + intros p P. rewrite get_set_other.
      * apply E2. intros j J X. apply P. left. exists j. auto.
      * intros ->. apply P. right. split; [discriminate|reflexivity].
  - injection H as <-. split; [exact E1|]. split; [discriminate|]. intros p P. apply E2.
    intros j J X. apply P. left. exists j. auto.
Qed.
Print Assumptions C77_written.
(** With permission nothing stops it. *)
Theorem C77_overwrites : forall C json (ufos : list C) ds out fs,
  snd (builder_write json true (Ok (ufos, ds)) out fs) = Done.
Proof.
  intros C json ufos ds out fs. unfold builder_write.
  pose proof (write_ufos_overwrite C json true (out_path_of json out) ufos 0 fs (or_intror eq_refl)) as O.
  destruct (write_ufos json true (out_path_of json out) 0 ufos fs) as [fs1 o]. cbn [snd] in O. subst o.
  unfold write_designspace. destruct ds; [|reflexivity]. destruct (aget _ _ fs1); reflexivity.
Qed.
Print Assumptions C77_overwrites.
(** When the export fails before writing, no file is touched. *)
Theorem C77_failed : forall C json overwrite e out (fs : files C),
  builder_write json overwrite (Err e) out fs = (fs, Raised e).
Proof. reflexivity. Qed.
Print Assumptions C77_failed.
(** As JSON, existing files are overwritten without permission. *)
Theorem C77_json_refuted : forall C (old new : C) out, old <> new ->
  let p := ufo_file out (py ".json") 0 in
  let '(fs', o) := builder_write true false (Ok ([new], None)) out [(p, old)] in
  o = Done /\ content fs' p = Some new.
Proof.
  intros C old new out _ p. unfold builder_write. cbn [write_ufos write_designspace].
  change 0 with (Z.of_nat 0). rewrite out_text. split; [reflexivity|]. unfold p, ufo_suffix. apply get_set_same.
Qed.
Print Assumptions C77_json_refuted.
(** A refusal comes too late when only the designspace is there: the UFOs have been written. *)
Theorem C77_atomic_refuted : forall C (old u d : C) out, p_suffix out <> py ".designspace" ->
  let '(fs', o) := builder_write false false (Ok ([u], Some d)) out [(ds_file out, old)] in
  o = FileExists /\ content fs' (ufo_file out (p_suffix out) 0) = Some u.
Proof.
  intros C old u d out NS. unfold builder_write. cbn [write_ufos]. unfold save_ufo.
  change 0 with (Z.of_nat 0). rewrite out_text. cbn [aget ufo_suffix].
  destruct (str_eqb (ufo_file out (p_suffix out) 0) (ds_file out)) eqn:E.
  { exfalso. apply str_eqb_eq in E. revert E. apply ufo_not_ds. exact NS. }
  unfold write_designspace. rewrite ds_text.
  assert (X : aget str_eqb (ds_file out) (aset str_eqb (ufo_file out (p_suffix out) 0) u [(ds_file out, old)]) = Some old).
  { rewrite (aget_aset str_eqb str_eqb_eq). destruct (str_eqb (ds_file out) (ufo_file out (p_suffix out) 0)) eqn:E'.
    - apply str_eqb_eq in E'. rewrite E' in E. rewrite str_eqb_refl in E. discriminate.
    - cbn [aget]. rewrite str_eqb_refl. reflexivity. }
  rewrite X. split; [reflexivity|]. apply get_set_same.
Qed.
Print Assumptions C77_atomic_refuted.
(** The converter to quadratic curves leaves existing files as they are, too; without a folder, it never
    writes over its input. *)
Theorem C77_cu2qu : forall C out (w : C) fs p c, content fs p = Some c ->
  content (fst (vfbcu2qu_save false out w fs)) p = Some c.
Proof.
  intros C out w fs p c H. unfold vfbcu2qu_save. destruct (aget str_eqb (path_text out) fs) eqn:E; [exact H|].
  cbn [fst]. rewrite get_set_other; [exact H|]. intros ->. unfold content in H. congruence.
Qed.
Print Assumptions C77_cu2qu.
Theorem C77_cu2qu_input : forall input o, ~ In 46 (tl (p_suffix input)) ->
  path_text (vfbcu2qu_out None input o) <> path_text input.
Proof.
  intros [r d s x] o H E. unfold vfbcu2qu_out, with_suffix, path_text in E. cbn [p_root p_dir p_stem p_suffix] in *.
  do 3 apply app_inv_head in E. subst x. apply H. cbn. tauto.
Qed.
Print Assumptions C77_cu2qu_input.
Definition sample_out : path := Path true [py "fonts"] (py "MyFont") (py ".ufo").
Example sample_out_ok : p_suffix sample_out <> py ".designspace" /\ ufo_suffix true sample_out <> py ".designspace" /\
  ~ In 46 (tl (p_suffix sample_out)) /\
  target false sample_out [1; 2] (Some 3) (py "/fonts/MyFont-1.ufo") /\
  builder_write false false (Ok ([1; 2], Some 3)) sample_out [] =
  ([(py "/fonts/MyFont.ufo", 1); (py "/fonts/MyFont-1.ufo", 2); (py "/fonts/MyFont.designspace", 3)], Done).
Proof.
  split; [discriminate|]. split; [discriminate|]. split; [cbn; intuition discriminate|]. split; [|reflexivity].
  left. exists 1%nat. split; [cbn; lia|reflexivity].
Qed.

(** ** C78: the output path *)
(** The UFO is written next to the VFB or to the given folder, under the name of the VFB. *)
Theorem C78_output : forall zip json folder input o,
  let out := vfb2ufo_out zip json folder input o in
  p_stem out = p_stem input /\ p_suffix out = (if zip && negb json then py ".ufoz" else py ".ufo") /\
  (p_root out, p_dir out) = match folder with Some f => f | None => (p_root input, p_dir input) end.
Proof. intros zip json [[r d]|] input o; repeat split. Qed.
Print Assumptions C78_output.
(** The output path that the user has given plays no part. *)
Theorem C78_refuted : forall zip json folder input requested,
  p_stem requested <> p_stem input -> vfb2ufo_out zip json folder input (Some requested) <> requested.
Proof. intros zip json [[r d]|] input [r' d' s' x'] H E; apply H; rewrite <- E; reflexivity. Qed.
Print Assumptions C78_refuted.
Theorem C78_cu2qu_refuted : forall folder input requested,
  p_stem requested <> p_stem input -> vfbcu2qu_out folder input (Some requested) <> requested.
Proof. intros [[r d]|] input [r' d' s' x'] H E; apply H; rewrite <- E; reflexivity. Qed.
Print Assumptions C78_cu2qu_refuted.
Example sample_out_path :
  path_text (vfb2ufo_out true false (Some (true, [py "out"])) (Path false [py "in"] (py "a") (py ".vfb"))
              (Some (Path false [] (py "b") (py ".ufo")))) = py "/out/a.ufoz".
Proof. reflexivity. Qed.

(** ** C79: units per em *)
(** The first access gives the value of the entry, or 0 without one. *)
Theorem C79_upm : forall D (T : codecs D) v,
  snd (unitsPerEm T None v) =
  match upm_entry v with
  | None => Ok 0
  | Some e => match e_data e with
              | Dec d => Ok (cd_int T d)
              | Raw b => rmap (cd_int T) (cd_parse T 1135 (v_ctx v) b)
              | NoData => Err ValueError
              end
  end.
Proof.
  intros D T v. unfold unitsPerEm, upm_entry.
  assert (K : snd (find_upm T (v_ctx v) (v_entries v)) =
    match find (fun e => match e_id e with Some i => i =? 1135 | None => false end) (v_entries v) with
    | None => Ok 0
    | Some e => match e_data e with
                | Dec d => Ok (cd_int T d)
                | Raw b => rmap (cd_int T) (cd_parse T 1135 (v_ctx v) b)
                | NoData => Err ValueError
                end
    end).
  { generalize (v_entries v). induction l as [|e l IH]; [reflexivity|]. cbn [find_upm find].
    destruct (e_id e) as [i|] eqn:Ei.
    - unfold F_upm. destruct (i =? 1135) eqn:E.
      + apply Z.eqb_eq in E. subst i. unfold entry_decompile. rewrite Ei.
        destruct (e_data e) as [b|d|] eqn:Ed.
        * destruct (cd_parse T 1135 (v_ctx v) b) as [d|x]; reflexivity.
        * rewrite Ed. reflexivity.
        * reflexivity.
      + destruct (find_upm T (v_ctx v) l) as [es r]. exact IH.
    - destruct (find_upm T (v_ctx v) l) as [es r]. exact IH. }
  rewrite <- K. destruct (find_upm T (v_ctx v) (v_entries v)) as [es r]. reflexivity.
Qed.
Print Assumptions C79_upm.
(** Later accesses give the same value, whatever has become of the Vfb. *)
Theorem C79_refuted : forall D (T : codecs D) v cache v1 u, unitsPerEm T None v = (cache, v1, Ok u) ->
  forall v2, snd (unitsPerEm T cache v2) = Ok u.
Proof.
  intros D T v cache v1 u H v2. unfold unitsPerEm in H.
  destruct (find_upm T (v_ctx v) (v_entries v)) as [es r]. 
  assert (r = Ok u) by congruence. subst r. assert (cache = Some u) by congruence. subst cache. reflexivity.
Qed.
Print Assumptions C79_refuted.
Definition upm_codecs : codecs Z :=
  mkCodecs Z (fun _ _ b => Ok (le_dec b)) (fun _ => None) (fun _ => Err TypeError) (fun _ => MacOS) (fun z => z) (fun _ => (0, 0)).
Example sample_upm : snd (unitsPerEm upm_codecs None sample_vfb) = Ok 1000 /\
  let '(cache, _, _) := unitsPerEm upm_codecs None sample_vfb in
  let v2 := with_entries [mkEntry (Some 1135) (Dec 2048) None] sample_vfb in
  snd (unitsPerEm upm_codecs cache v2) = Ok 1000 /\ snd (unitsPerEm upm_codecs None v2) = Ok 2048.
Proof. repeat split. Qed.
