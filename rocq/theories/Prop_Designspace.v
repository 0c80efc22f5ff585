(** C68: what the designspace export writes. *)
From Coq Require Import String ZifyBool.
From Verif Require Import Base M_Py M_Text M_Groups M_Tth M_Designspace S_Designspace Lib P_Dec P_Glyph P_Tth P_Guides P_Designspace.
Local Open Scope list_scope.

(** With axes that have different names, as many master names as masters, a location with a
    coordinate per axis for each master and instance: there is a designspace; its sources are the
    UFOs that are written, in order, with the master's name and 1000 times its location; its
    instances are those of the font, in order, under different names, at their locations; its axes
    are those of the font, and the instances label the axis if there is one only. *)
Theorem C68_designspace : forall F (o : num_ops F) b json out,
  b_axes b <> [] -> names_ok (b_axes b) ->
  b_num_masters b = Some (Z.of_nat (List.length (b_masters b))) ->
  (forall i, 1 <= i <= Z.of_nat (List.length (b_masters b)) ->
     exists loc, aget Z.eqb i (b_locations b) = Some loc /\ (List.length (b_axes b) <= List.length loc)%nat) ->
  Forall (fun p => (List.length (b_axes b) <= List.length (snd p))%nat) (b_instances b) ->
  exists ds, written_designspace o b json out = Ok (Some ds) /\
    map so_filename (ds_sources ds) = map path_text (ufo_paths b json out) /\
    (forall i s, nth_error (ds_sources ds) i = Some s -> exists name loc,
       nth_error (b_masters b) i = Some name /\ aget Z.eqb (Z.of_nat i + 1) (b_locations b) = Some loc /\
       so_family s = b_family b /\ so_name s = strip is_space name /\
       so_location s = location (b_axes b) (map (n_scale o) loc)) /\
    NoDup (map so_style (ds_sources ds)) /\
    Forall2 (instance_of b) (b_instances b) (ds_instances ds) /\
    NoDup (map in_name (ds_instances ds)) /\
    Forall2 same_axis (b_axes b) (ds_axes ds) /\
    exists a a' rest labels, b_axes b = a :: rest /\ ds_axes ds = a' :: rest /\
      ax_labels a' = ax_labels a ++ labels /\
      (b_axis_count b = 1 ->
         Forall2 (fun p v => fst v = fst p /\ hd_error (snd p) = Some (snd v)) (b_instances b) labels) /\
      (b_axis_count b <> 1 -> labels = []).
Proof.
  intros F o b json out NE NO NM LOC INS.
  destruct (b_axes b) as [|a rest] eqn:EA; [congruence|]. clear NE.
  assert (AX : exists a' labels,
    (if b_axis_count b =? 1 then res_fold add_label (a :: rest) (b_instances b) else Ok (a :: rest)) = Ok (a' :: rest) /\
    same_axis a a' /\ ax_labels a' = ax_labels a ++ labels /\
    (b_axis_count b = 1 -> Forall2 (fun p v => fst v = fst p /\ hd_error (snd p) = Some (snd v)) (b_instances b) labels) /\
    (b_axis_count b <> 1 -> labels = [])).
  { destruct (b_axis_count b =? 1) eqn:E1.
    - destruct (add_labels_ok F (b_instances b) a rest) as (a' & E & Sa & labels & L & F2).
      + eapply Forall_impl; [|exact INS]. intros p H. cbn in H. destruct (snd p); [cbn in H; lia|discriminate].
      + exists a', labels. split; [exact E|]. split; [exact Sa|]. split; [exact L|]. split; [auto|lia].
    - exists a, []. rewrite app_nil_r. repeat split. lia. }
  destruct AX as (a' & labels & Eax & Sa & Lab & L1 & L2).
  assert (NMS : map ax_name (a' :: rest) = map ax_name (a :: rest)).
  { cbn. f_equal. apply Sa. }
  assert (NO' : names_ok (a' :: rest)) by (unfold names_ok; rewrite NMS; exact NO).
  assert (LL : List.length (a' :: rest) = List.length (a :: rest)) by reflexivity.
  assert (SRC : exists sources, res_map (get_source o b (a' :: rest) (out_path_of json out))
      (zrange (Z.of_nat (List.length (b_masters b)))) = Ok sources /\
    Forall2 (fun i s => so_filename s = path_text (get_master_path (out_path_of json out) i) /\
       so_style s = py "Master " ++ dec_str i /\
       exists name loc, nth_error (b_masters b) (Z.to_nat i) = Some name /\
       aget Z.eqb (i + 1) (b_locations b) = Some loc /\ so_family s = b_family b /\
       so_name s = strip is_space name /\ so_location s = location (a :: rest) (map (n_scale o) loc))
      (zrange (Z.of_nat (List.length (b_masters b)))) sources).
  { apply res_map_ok. intros i Hi. apply zrange_In in Hi. unfold get_source, aget_res.
    destruct (LOC (i + 1)) as (loc & El & Ll); [lia|]. rewrite El. cbn [rthen].
    rewrite (get_ds_location_ok (n_scale o) (a' :: rest) loc NO') by exact Ll. cbn [rthen].
    destruct (nth_error (b_masters b) (Z.to_nat i)) as [name|] eqn:En; [|apply nth_error_None in En; lia].
    assert (Ep : py_index (b_masters b) i = Ok name).
    { apply py_index_some; [lia|exact En]. }
    rewrite Ep. cbn [rmap].
    eexists. split; [reflexivity|]. cbn [so_filename so_style so_family so_name so_location].
    split; [reflexivity|]. split; [reflexivity|]. exists name, loc. repeat (split; [first [assumption|reflexivity]|]).
    unfold location. now rewrite NMS. }
  destruct SRC as (sources & Es & Fs).
  assert (INST : forall l k, 0 <= k -> Forall (fun p => (List.length (a :: rest) <= List.length (snd p))%nat) l ->
    exists instances, res_map (get_instance b (a' :: rest)) (numbered_from k l) = Ok instances /\
    Forall2 (instance_of b) l instances /\ NoDup (map in_name instances) /\
    Forall (fun i => exists n, k <= n /\ in_name i = py "instance_" ++ dec_str n) instances).
  { induction l as [|[n vs] l IH]; intros k Hk H.
    - exists []. cbn. repeat split; constructor.
    - inversion H as [|? ? Hn H']; subst. destruct (IH (k + 1)) as (is & E & F2 & ND & FN); [lia|assumption|].
      cbn [numbered_from res_map]. unfold get_instance at 1.
      rewrite (get_ds_location_ok (fun x => x) (a' :: rest) vs NO') by exact Hn. cbn [rmap rthen].
      rewrite E. cbn [rmap]. eexists. split; [reflexivity|]. split; [|split].
      + constructor; [|assumption]. unfold instance_of, location.
        cbn [in_family in_map_family in_style in_map_style in_filename in_location fst snd]. rewrite map_id, EA, NMS. repeat split.
      + cbn [map in_name]. constructor; [|assumption]. rewrite in_map_iff. intros (i & Ei & Hi).
        rewrite Forall_forall in FN. destruct (FN i Hi) as (m & Hm & Em). rewrite Em in Ei.
        apply app_inv_head in Ei. apply dec_str_inj in Ei; lia.
      + constructor; [exists k; split; [lia|reflexivity]|]. eapply Forall_impl; [|exact FN].
        intros i (m & Hm & Em). exists m. split; [lia|assumption]. }
  destruct (INST (b_instances b) 0) as (instances & Ei & Fi & Ni & _); [lia|assumption|].
  exists (Designspace (a' :: rest) sources instances).
  split. { unfold written_designspace, get_designspace. rewrite EA, Eax. cbn [rthen]. rewrite NM. cbn [rthen].
    rewrite Es. cbn [rthen]. rewrite Ei. reflexivity. }
  cbn [ds_sources ds_instances ds_axes]. split.
  { unfold ufo_paths. rewrite map_map. clear -Fs. induction Fs as [|i s l l' (H & _) Fs IH]; [reflexivity|].
    cbn [map]. rewrite H. f_equal. exact IH. }
  split.
  { intros i s E. destruct (Forall2_nth _ _ _ _ _ Fs i s E) as (k & Ek & _ & _ & name & loc & H).
    apply zrange_nth in Ek. subst k. rewrite Nat2Z.id in H. exists name, loc. exact H. }
  split.
  { assert (EM : map so_style sources = map (fun i => py "Master " ++ dec_str i) (zrange (Z.of_nat (List.length (b_masters b))))).
    { clear -Fs. induction Fs as [|i s l l' (_ & H & _) Fs IH]; [reflexivity|]. cbn [map]. rewrite H. f_equal. exact IH. }
    rewrite EM. assert (ND : forall m n, (forall i, In i (map Z.of_nat (seq m n)) -> 0 <= i) ->
      NoDup (map (fun i => py "Master " ++ dec_str i) (map Z.of_nat (seq m n)))).
    { clear. intros m n. revert m. induction n as [|n IH]; intros m P; cbn [seq map]; [constructor|].
      constructor; [|apply IH; intros i Hi; apply P; now right].
      rewrite in_map_iff. intros (i & Ei & Hi). apply app_inv_head in Ei. apply dec_str_inj in Ei.
      subst i. apply in_map_iff in Hi. destruct Hi as (j & Ej & Hj). apply in_seq in Hj. lia. }
    apply ND. intros i Hi. apply in_map_iff in Hi. destruct Hi as (j & <- & _). lia. }
  split; [exact Fi|]. split; [exact Ni|]. split.
  { constructor; [exact Sa|]. clear. induction rest as [|x rest IH]; constructor; [|exact IH]. repeat split. }
  exists a, a', rest, labels. auto.
Qed.

(** The masters are written to different files. *)
Theorem C68_paths_distinct : forall F (b : ds_data F) json out, NoDup (map file_of (ufo_paths b json out)).
Proof.
  intros F b json out. unfold ufo_paths. rewrite map_map.
  assert (K : forall out m n, NoDup (map (fun i => file_of (get_master_path out i)) (map Z.of_nat (seq m n)))).
  { clear. intros out m n. revert m. induction n as [|n IH]; intros m; cbn [seq map]; [constructor|].
    constructor; [|apply IH]. rewrite in_map_iff. intros (i & Ei & Hi).
    apply in_map_iff in Hi. destruct Hi as (j & <- & Hj). apply in_seq in Hj.
    assert (X : get_master_path out (Z.of_nat j) = get_master_path out (Z.of_nat m)).
    { unfold file_of, get_master_path in *. destruct (0 <? Z.of_nat j), (0 <? Z.of_nat m);
        cbn [p_root p_dir p_stem p_suffix] in *; apply (f_equal snd) in Ei; cbn [snd] in Ei; apply app_inj_tail in Ei; destruct Ei as [_ Ei];
        apply app_inv_tail in Ei; destruct out as [r d st x]; cbn [p_root p_dir p_stem p_suffix] in *; congruence. }
    apply master_path_inj in X; lia. }
  apply K.
Qed.

(** The document names the files that are written exactly if the output path begins at the root or
    has no directory. *)
Theorem C68_resolves : forall F (b : ds_data F) json out p, In p (ufo_paths b json out) ->
  (file_in_document (ds_path json out) p = file_of p <-> p_root out = true \/ p_dir out = []).
Proof.
  intros F b json out p H. unfold ufo_paths in H. apply in_map_iff in H. destruct H as (i & <- & _).
  assert (R : p_root (get_master_path (out_path_of json out) i) = p_root out /\
              p_dir (get_master_path (out_path_of json out) i) = p_dir out /\
              p_root (ds_path json out) = p_root out /\ p_dir (ds_path json out) = p_dir out).
  { unfold get_master_path, ds_path, out_path_of. destruct (0 <? i), json; repeat split. }
  destruct R as (R1 & R2 & R3 & R4). unfold file_in_document. rewrite R1, R3, R4. unfold file_of. rewrite R1, R2.
  destruct (p_root out); [split; auto|]. split.
  - intros E. injection E as E. right. apply (f_equal (@List.length _)) in E. rewrite !app_length in E.
    destruct (p_dir out); [reflexivity|]. cbn in E. lia.
  - intros [E|E]; [discriminate|]. rewrite E. reflexivity.
Qed.

(** With an output path in a directory, given from the working directory, the sources do not name
    the files that are written. *)
Theorem C68_resolves_refuted : exists (b : ds_data Z) out, p_root out = false /\
  exists p, In p (ufo_paths b false out) /\
    file_of p = (false, [py "build"; py "Font.ufo"]) /\
    file_in_document (ds_path false out) p = (false, [py "build"; py "build"; py "Font.ufo"]).
Proof.
  exists (DsData 0 [] None [py "Light"; py "Bold"] [] [] [] []), (Path false [py "build"] (py "Font") (py ".ufo")).
  split; [reflexivity|]. eexists. split; [now left|]. split; reflexivity.
Qed.

(** With the counts of the mappings and ten pairs per axis: each axis gets as many of its pairs as
    its count says, and an axis without any stays as it is. *)
Theorem C68_mappings : forall F (o : num_ops F) axes counts blocks rest,
  total_order (n_ltb o) -> axes <> [] ->
  List.length counts = List.length axes -> List.length blocks = List.length axes ->
  Forall (fun n => 0 <= n <= 10) counts ->
  Forall (fun b => List.length b = 10%nat /\ forall ud, In ud b -> exists k, n_design o (snd ud) = Ok k) blocks ->
  exists axes', add_axis_mappings o (Z.of_nat (List.length axes)) (Some counts) axes (concat blocks ++ rest) = Ok axes' /\
    List.length axes' = List.length axes /\
    forall i n b a a', nth_error counts i = Some n -> nth_error blocks i = Some b ->
      nth_error axes i = Some a -> nth_error axes' i = Some a' ->
      (n = 0 -> a' = a) /\ (n <> 0 -> mapped_axis o (firstn (Z.to_nat n) b) a a').
Proof.
  intros F o axes counts blocks rest TO NE LC LB FC FB.
  destruct (mappings_ok o TO blocks axes counts [] [] rest LB LC eq_refl FB FC) as (axes' & E & L & H).
  exists axes'. split; [|split; [assumption|]].
  - unfold add_axis_mappings. destruct counts as [|n counts]; [destruct axes; [congruence|discriminate]|].
    unfold zrange. rewrite Nat2Z.id. cbn [app List.length] in E. rewrite E. reflexivity.
  - intros i n b a a' E1 E2 E3 E4. specialize (H i n b a a' E1 E2 E3 E4). unfold mapping_result in H.
    destruct (n =? 0) eqn:En; split; intros; try lia; assumption.
Qed.

Definition Z_ops : num_ops Z := NumOps (fun x => 1000 * x) (fun d => Ok d) Z.ltb 0 1000.

(** A count above ten, which a VFB can hold, gives an axis pairs of the next one. *)
Theorem C68_mappings_refuted : exists axes',
  add_axis_mappings Z_ops 2 (Some [11; 1]) [new_axis (fun s => s) (py "Weight"); new_axis (fun s => s) (py "Width")]
    (repeat (1, 1) 10 ++ (77, 77) :: repeat (2, 2) 9) = Ok axes' /\
  exists w, nth_error axes' 0 = Some w /\ In (77, 77) (ax_map w) /\ ax_max w = Some 77.
Proof.
  eexists. split; [vm_compute; reflexivity|]. eexists. split; [reflexivity|]. split; [|reflexivity].
  vm_compute. do 10 right. left. reflexivity.
Qed.

(** Two axes with one name become one coordinate of each location, and two with a common beginning
    get one tag. *)
Theorem C68_axes_refuted :
  get_ds_location (n_scale Z_ops) [new_axis (fun s => s) (py "A"); new_axis (fun s => s) (py "A")] [0; 1] =
    Ok [(py "A", 1000)] /\
  (forall upper, upper (py "Contrast") = py "CONTRAST" -> upper (py "Contour") = py "CONTOUR" ->
     axis_tag upper (py "Contrast") = axis_tag upper (py "Contour")).
Proof.
  split; [reflexivity|]. intros upper E1 E2. unfold axis_tag. cbn [aget axis_tags].
  replace (aget str_eqb (py "Contrast") axis_tags) with (@None pystr) by reflexivity.
  replace (aget str_eqb (py "Contour") axis_tags) with (@None pystr) by reflexivity.
  rewrite E1, E2. reflexivity.
Qed.

(** Instances with one style name name one file. *)
Theorem C68_instances_refuted : exists (b : ds_data Z) out ds i j,
  written_designspace Z_ops b false out = Ok (Some ds) /\ ds_instances ds = [i; j] /\
  in_location i <> in_location j /\ in_filename i = in_filename j.
Proof.
  exists (DsData 1 [new_axis (fun s => s) (py "Weight")] (Some 1) [py "M"] [(1, [0])]
           [(py "Text", [400]); (py "Text", [500])] (py "Fam") (py "regular")),
         (Path false [] (py "F") (py ".ufo")).
  do 3 eexists. split; [vm_compute; reflexivity|]. split; [reflexivity|]. split; [discriminate|reflexivity].
Qed.

Definition ex_ds : ds_data Z :=
  DsData 1 [new_axis (fun s => s) (py "Weight")] (Some 2) [py " Light"; py "Bold "]
    [(1, [0]); (2, [1])] [(py "Regular", [400]); (py "Medium", [500])] (py "Fam") (py "regular").
Example C68_ex :
  b_axes ex_ds <> [] /\ names_ok (b_axes ex_ds) /\
  b_num_masters ex_ds = Some (Z.of_nat (List.length (b_masters ex_ds))) /\
  (forall i, 1 <= i <= Z.of_nat (List.length (b_masters ex_ds)) ->
     exists loc, aget Z.eqb i (b_locations ex_ds) = Some loc /\ (List.length (b_axes ex_ds) <= List.length loc)%nat) /\
  Forall (fun p => (List.length (b_axes ex_ds) <= List.length (snd p))%nat) (b_instances ex_ds) /\
  exists ds, written_designspace Z_ops ex_ds false (Path true [py "tmp"] (py "F") (py ".ufo")) = Ok (Some ds) /\
    map so_filename (ds_sources ds) = [py "/tmp/F.ufo"; py "/tmp/F-1.ufo"] /\
    map so_location (ds_sources ds) = [[(py "Weight", 0)]; [(py "Weight", 1000)]] /\
    map so_name (ds_sources ds) = [py "Light"; py "Bold"] /\
    map in_filename (ds_instances ds) = [py "instance_ufo/Fam-Regular.ufo"; py "instance_ufo/Fam-Medium.ufo"] /\
    map ax_labels (ds_axes ds) = [[(py "Regular", 400); (py "Medium", 500)]].
Proof.
  split; [discriminate|]. split.
  { split; [constructor; [intros []|constructor]|]. intros [H|[]]. discriminate. }
  split; [reflexivity|]. split.
  { cbn [b_masters ex_ds List.length]. intros i Hi. assert (X : i = 1 \/ i = 2) by lia.
    destruct X; subst i; eexists; (split; [reflexivity|cbn; lia]). }
  split; [repeat constructor|]. eexists. split; [vm_compute; reflexivity|]. repeat split.
Qed.
(** The labels are added to the axes of the exporter: exporting again gives each label twice. *)
Theorem C68_again_refuted : exists out ds ds',
  written_designspace Z_ops ex_ds false out = Ok (Some ds) /\
  written_designspace Z_ops (DsData (b_axis_count ex_ds) (ds_axes ds) (b_num_masters ex_ds) (b_masters ex_ds)
    (b_locations ex_ds) (b_instances ex_ds) (b_family ex_ds) (b_map_style ex_ds)) false out = Ok (Some ds') /\
  map ax_labels (ds_axes ds) = [[(py "Regular", 400); (py "Medium", 500)]] /\
  map ax_labels (ds_axes ds') = [[(py "Regular", 400); (py "Medium", 500); (py "Regular", 400); (py "Medium", 500)]].
Proof.
  exists (Path false [] (py "F") (py ".ufo")). do 2 eexists. split; [vm_compute; reflexivity|].
  split; [vm_compute; reflexivity|]. split; reflexivity.
Qed.
Example C68_mappings_ex :
  let block := [(200, 1); (900, 999); (400, 300)] ++ repeat (0, 0) 7 in
  total_order (n_ltb Z_ops) /\
  Forall (fun b => List.length b = 10%nat /\ forall ud, In ud b -> exists k, n_design Z_ops (snd ud) = Ok k) [block; block] /\
  exists a' b', add_axis_mappings Z_ops 2 (Some [0; 3]) [new_axis (fun s => s) (py "Width"); new_axis (fun s => s) (py "Weight")]
    (concat [block; block] ++ []) = Ok [a'; b'] /\
  ax_map b' = [(200, 1); (900, 999); (400, 300)] /\ ax_min b' = Some 200 /\ ax_max b' = Some 900 /\ ax_map a' = [].
Proof.
  cbv zeta. split.
  { unfold total_order. cbn. repeat split; intros; lia. }
  split.
  { repeat constructor; intros ud _; eexists; reflexivity. }
  do 2 eexists. split; [vm_compute; reflexivity|]. repeat split.
Qed.

Print Assumptions C68_designspace.
Print Assumptions C68_paths_distinct.
Print Assumptions C68_resolves.
Print Assumptions C68_resolves_refuted.
Print Assumptions C68_mappings.
Print Assumptions C68_mappings_refuted.
Print Assumptions C68_axes_refuted.
Print Assumptions C68_instances_refuted.
Print Assumptions C68_again_refuted.
