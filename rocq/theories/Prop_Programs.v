(** C72 to C74: TrueType programs and control values, bitmaps, and hinting options in the UFO. *)
From Coq Require Import String.
From Verif Require Import Base Lib M_Py M_Helpers M_Text M_Tth M_Bitmap M_Info M_Programs S_Programs P_Helpers P_Dec P_Programs.
Local Open Scope list_scope.

(** ** C72: programs and control values *)
(** Whatever entries there are, in whatever order, the UFO has the control values and the instructions of
    both programs, each of the last entry; a maximum that it does not have is 0. *)
Theorem C72_programs : forall o es i, names_ok es -> tt_build o es = Ok i ->
  cvt_in (last_cvt es) (in_lib i (py "controlValue")) /\
  program_in o (last_prep es) (in_lib i (py "controlValueProgram")) /\
  program_in o (last_fpgm es) (in_lib i (py "fontProgram")) /\
  forall k, In k max_names -> max_in (last_max k es) (in_lib i k).
Proof.
  intros o es i N H. unfold tt_build in H.
  destruct (res_fold (tt_step o) (mkInfo [] None) es) as [j|] eqn:E; cbn [rmap] in H; [|discriminate].
  apply Ok_inj in H. subst i. apply fold_inv in E; [|exact N]. unfold tt_inv in E. unfold in_lib, drop_default.
  destruct (if_lib j) as [d|] eqn:L.
  - destruct E as (E1 & E2 & E3 & E4). destruct (dict_eqb d default_tt_lib) eqn:D.
    + cbn [if_lib]. apply eqb_default in D. destruct D as [D1 D2].
      rewrite D1 in E1, E2, E3 by (cbn [In]; tauto). split; [exact E1|]. split; [exact E2|]. split; [exact E3|].
      intros k K. cbn [max_in]. specialize (E4 k K). rewrite D2 in E4 by exact K.
      destruct (last_max k es) as [z|]; [|left; reflexivity]. right. cbn in E4. injection E4 as <-. reflexivity.
    + rewrite L. split; [exact E1|]. split; [exact E2|]. split; [exact E3|]. intros k K. rewrite (E4 k K).
      destruct (last_max k es) as [z|]; cbn [option_map max_in]; [|left; reflexivity]. exists z. auto.
  - subst es. rewrite L. split; [reflexivity|]. split; [reflexivity|]. split; [reflexivity|]. intros k K.
    cbn. left. reflexivity.
Qed.
Print Assumptions C72_programs.
(** The export does not fail when the control values have an even number of bytes and fontTools can read
    the programs. *)
Theorem C72_succeeds : forall o es, names_ok es ->
  (forall b, In (TCvt b) es -> Nat.Even (List.length b)) ->
  (forall b, In (TPrep b) es \/ In (TFpgm b) es -> exists lines, asm_lines o b = Ok lines) ->
  exists i, tt_build o es = Ok i.
Proof.
  intros o es N C A. unfold tt_build.
  assert (X : forall i, exists j, res_fold (tt_step o) i es = Ok j).
  { revert N C A. induction es as [|e es IH]; intros N C A i; [exists i; reflexivity|].
    assert (S1 : exists j, tt_step o i e = Ok j).
    { pose proof (Forall_inv N) as B. destruct e as [k v|b|b|b]; cbn [tt_step].
      - eexists; reflexivity.
      - unfold set_tt_cvt. rewrite deHexStr_hexStr by exact B. cbn [rthen].
        destruct (unpack_h_even b) as [vs ->]; [apply C; left; reflexivity|]. eexists; reflexivity.
      - unfold set_tt_program. rewrite deHexStr_hexStr by exact B. cbn [rthen]. unfold format_bytes.
        destruct (A b) as [ls ->]; [left; left; reflexivity|]. eexists; reflexivity.
      - unfold set_tt_program. rewrite deHexStr_hexStr by exact B. cbn [rthen]. unfold format_bytes.
        destruct (A b) as [ls ->]; [right; left; reflexivity|]. eexists; reflexivity. }
    destruct S1 as [j Ej]. cbn [res_fold]. rewrite Ej. cbn [rthen]. apply IH.
    - exact (Forall_inv_tail N).
    - intros b B. apply C. right. exact B.
    - intros b [B|B]; apply A; [left|right]; right; exact B. }
  destruct (X (mkInfo [] None)) as [j ->]. eexists; reflexivity.
Qed.
Print Assumptions C72_succeeds.
(** The instructions of a glyph, too. *)
Theorem C72_glyph : forall o lines, Forall program_line lines -> instructions_of (format_list o lines) = Some lines.
Proof. exact instructions_of_format. Qed.
Print Assumptions C72_glyph.
(** Each line is indented by two spaces for every block that is open there. *)
Theorem C72_indent : forall o lines, exists texts,
  format_list o lines = 10 :: concat (map (fun t => t ++ [10]) texts) /\ List.length texts = List.length lines /\
  forall k line, nth_error lines k = Some line ->
    nth_error texts k = Some (repeat 32 (2 * Z.to_nat (open_blocks o lines k)) ++ line).
Proof. exact format_indent. Qed.
Print Assumptions C72_indent.
(** A font with an odd number of bytes in cvt cannot be exported. *)
Theorem C72_refuted : forall o b, bytes_ok b -> Nat.Odd (List.length b) -> tt_build o [TCvt b] = Err StructError.
Proof.
  intros o b OK O. unfold tt_build. cbn [res_fold tt_step]. unfold set_tt_cvt.
  rewrite deHexStr_hexStr by exact OK. cbn [rthen].
  replace (unpack_h b) with (@Err (list Z) StructError); [reflexivity|]. symmetry. revert O. clear OK.
  induction b as [|z|lo hi b IH] using pair_ind; intros [n Hn]; cbn [List.length] in Hn.
  - lia.
  - reflexivity.
  - cbn [unpack_h]. rewrite IH; [reflexivity|]. exists (n - 1)%nat. lia.
Qed.
Print Assumptions C72_refuted.

Definition sample_asm : asm_oracle := AsmOracle
  (fun b => if str_eqb b [88; 27; 89] then Ok [py "IF[ ]"; py "ELSE[ ]"; py "EIF[ ]"] else Ok [])
  (fun l => str_eqb l (py "ELSE[ ]") || str_eqb l (py "EIF[ ]"))
  (fun l => str_eqb l (py "IF[ ]") || str_eqb l (py "ELSE[ ]")).
Definition sample_tt : list tt_entry :=
  [TMax (py "maxZones") 0; TCvt [1; 2; 255; 255]; TPrep [88; 27; 89]].
Example sample_tt_ok : names_ok sample_tt.
Proof.
  unfold names_ok, sample_tt.
  apply Forall_cons; [left; reflexivity|]. apply Forall_cons; [|apply Forall_cons; [|apply Forall_nil]];
    (unfold bytes_ok; repeat apply Forall_cons; try apply Forall_nil; unfold is_byte; lia).
Qed.
Example sample_tt_result : tt_build sample_asm sample_tt = Ok (mkInfo [] (Some
  [(py "formatVersion", IStr (py "1")); (py "maxZones", IInt 0);
   (py "controlValue", IDict [(py "0", 513); (py "1", -1)]);
   (py "controlValueProgram", IStr ([10] ++ py "IF[ ]" ++ [10] ++ py "ELSE[ ]" ++ [10] ++ py "EIF[ ]" ++ [10]))])).
Proof. reflexivity. Qed.
Example sample_lines : Forall program_line [py "IF[ ]"; py "NPUSHB[ ]"; py "EIF[ ]"].
Proof.
  repeat apply Forall_cons; try apply Forall_nil;
    (split; [cbn; intros X; repeat (destruct X as [X|X]; [discriminate X|]); exact X|intros s; discriminate]).
Qed.
Example sample_default : tt_build sample_asm (map (fun k => TMax k 0) max_names) = Ok (mkInfo [] None).
Proof. reflexivity. Qed.

(** ** C73: bitmaps *)
(** The rows are in the other order, the advance, the size and the size of the em are the same, and the
    origin is given by the bearings. *)
Theorem C73_bitmaps : forall l n d, nth_error l n = Some d ->
  exists u, nth_error (set_glyph_bitmaps l) n = Some u /\
  List.length (ub_imageData u) = List.length (bm_data (gb_bitmap d)) /\
  (forall i row, nth_error (bm_data (gb_bitmap d)) i = Some row ->
     nth_error (ub_imageData u) (List.length (bm_data (gb_bitmap d)) - 1 - i) = Some row) /\
  ub_bitDepth u = 1 /\ gb_adv d = (ub_horiAdvance u, ub_vertAdvance u) /\
  gb_size_pixels d = (ub_width u, ub_height u) /\
  gb_origin d = (ub_horiBearingX u, ub_horiBearingY u - ub_height u) /\
  ub_ppemX u = gb_ppm d /\ ub_ppemY u = gb_ppm d.
Proof.
  intros l n d H. exists (ufo_bitmap_of d). split; [unfold set_glyph_bitmaps; apply map_nth_error; exact H|].
  destruct d as [ppm [ox oy] [ax ay] [w h] [rows pv]]. unfold ufo_bitmap_of.
  cbn [ub_imageData ub_bitDepth ub_horiAdvance ub_vertAdvance ub_width ub_height ub_horiBearingX ub_horiBearingY
       ub_ppemX ub_ppemY gb_ppm gb_origin gb_adv gb_size_pixels gb_bitmap bm_data fst snd].
  split; [apply rev_length|]. split.
  { intros i row R. clear H. assert (I : (i < List.length rows)%nat) by (apply nth_error_Some; congruence).
    apply nth_error_split in R. destruct R as (a & b & -> & <-). rewrite rev_app_distr. cbn [rev].
    rewrite <- app_assoc. rewrite nth_error_app2; rewrite rev_length; rewrite app_length; cbn [List.length];
      [|lia]. replace (List.length a + S (List.length b) - 1 - List.length a - List.length b)%nat with O by lia. reflexivity. }
  repeat split; try reflexivity. f_equal. lia.
Qed.
Print Assumptions C73_bitmaps.
(** Nothing but the preview is lost. *)
Theorem C73_lossless : forall l l', set_glyph_bitmaps l = set_glyph_bitmaps l' ->
  Forall2 (fun d d' => gb_ppm d = gb_ppm d' /\ gb_origin d = gb_origin d' /\ gb_adv d = gb_adv d' /\
                       gb_size_pixels d = gb_size_pixels d' /\ bm_data (gb_bitmap d) = bm_data (gb_bitmap d')) l l'.
Proof.
  induction l as [|d l IH]; intros [|d' l'] H; try discriminate; [constructor|].
  unfold set_glyph_bitmaps in H. cbn [map] in H. injection H as H1 H2 H3 H4 H5 H6 H7 H8 H9.
  constructor; [|apply IH; assumption].
  destruct d as [ppm [ox oy] [ax ay] [w h] [rows pv]], d' as [ppm' [ox' oy'] [ax' ay'] [w' h'] [rows' pv']].
  cbn [gb_ppm gb_origin gb_adv gb_size_pixels gb_bitmap bm_data fst snd] in *.
  subst. assert (R : rows = rows') by (rewrite <- (rev_involutive rows), H1; apply rev_involutive).
  repeat split; auto; f_equal; lia.
Qed.
Print Assumptions C73_lossless.
Example sample_bitmap : set_glyph_bitmaps
  [GlyphBitmap 12 (1, -2) (7, 12) (9, 3) (Bitmap [[1; 0]; [2; 0]; [3; 128]] None)] =
  [UfoBitmap [[3; 128]; [2; 0]; [1; 0]] 1 7 12 9 3 1 1 12 12].
Proof. reflexivity. Qed.

(** ** C74: options *)
(** A reader that knows the defaults finds the value of the VFB, when there is only one entry for it. *)
Theorem C74_options : forall es,
  (forall x, only_value (snaps es) 68 x -> opt_value (opt_build es) (py "stemsnaplimit") 68 = x) /\
  (forall x, only_value (zone_stops es) 48 x -> opt_value (opt_build es) (py "zoneppm") 48 = x) /\
  (forall x, only_value (dropouts es) 255 x -> opt_value (opt_build es) (py "dropoutppm") 255 = x) /\
  (forall x def, last_of (code_stops es) = Some x -> opt_value (opt_build es) (py "codeppm") def = x) /\
  (forall def, code_stops es = [] -> opt_value (opt_build es) (py "codeppm") def = def).
Proof.
  intros es. pose proof (opt_fold_inv es) as H. unfold opt_inv in H. cbv zeta in H.
  assert (V : forall k def, opt_value (opt_build es) k def =
    match aget str_eqb k (match fold_left opt_step es None with Some d => d | None => [] end) with Some x => x | None => def end).
  { intros k def. unfold opt_build, opt_value. destruct (fold_left opt_step es None) as [[|p d]|]; reflexivity. }
  destruct H as (H1 & H2 & H3 & H4 & _). split; [intros x X; rewrite V; apply (H1 _ x eq_refl X)|].
  split; [intros x X; rewrite V; apply (H2 _ x eq_refl X)|]. split; [intros x X; rewrite V; apply (H3 _ x eq_refl X)|].
  split; intros; rewrite V, H4.
  - rewrite H. reflexivity.
  - rewrite H. reflexivity.
Qed.
Print Assumptions C74_options.
(** With two entries, a second one with the default is lost. *)
Theorem C74_refuted : forall v, v <> 68 -> opt_value (opt_build [OPixelSnap v; OPixelSnap 68]) (py "stemsnaplimit") 68 = v.
Proof.
  intros v H. unfold opt_build. cbn [fold_left opt_step]. destruct (v =? 68) eqn:E; [lia|]. reflexivity.
Qed.
Print Assumptions C74_refuted.
Example sample_options : only_value (snaps [OPixelSnap 40; OZoneStop 48; OCodeStop 9]) 68 40 /\
  opt_build [OPixelSnap 40; OZoneStop 48; OCodeStop 9] = Some [(py "stemsnaplimit", 40); (py "codeppm", 9)].
Proof. split; [right; reflexivity|reflexivity]. Qed.
