(** C106: decompiled bitmaps show the stored pixels. *)
From Coq Require Import ZifyBool ZifyNat.
From Verif Require Import Base M_Stream M_Helpers M_Text M_Py M_Bitmap M_Container M_Table S_Stream S_Bits S_Entry
  S_Bitmap S_Preview Lib P_Stream P_Loop P_Bitmap Prop_Bitmap.
Open Scope rd_scope.
Ltac Zify.zify_post_hook ::= Z.div_mod_to_equations.

Fixpoint cells (row : bytes) : list pystr :=
  match row with [] => [] | r :: row' => map (fun i => shown (Z.testbit r i)) [7; 6; 5; 4; 3; 2; 1; 0] ++ cells row' end.
Lemma cells_preview : forall row, flat_map preview_byte row = concat (cells row).
Proof.
  induction row as [|r row IH]; [reflexivity|]. cbn [flat_map cells]. rewrite concat_app, <- IH. f_equal.
Qed.
Lemma cells_length : forall row, length (cells row) = (8 * length row)%nat.
Proof. induction row as [|r row IH]; [reflexivity|]. cbn [cells]. rewrite app_length, IH, map_length. cbn [length]. lia. Qed.
Lemma cells_pixel : forall row j, (j < 8 * length row)%nat -> nth j (cells row) [] = shown (pixel row j).
Proof.
  induction row as [|r row IH]; intros j Hj; cbn [length] in Hj; [lia|]. unfold pixel.
  destruct (Nat.lt_ge_cases j 8) as [L|L].
  - cbn [cells]. rewrite app_nth1 by (rewrite map_length; exact L).
    rewrite Nat.div_small, Nat.mod_small by exact L. cbn [nth].
    do 8 (destruct j as [|j]; [reflexivity|]). lia.
  - cbn [cells]. rewrite app_nth2 by (rewrite map_length; exact L). rewrite map_length.
    change (length [7; 6; 5; 4; 3; 2; 1; 0]) with 8%nat. rewrite IH by lia. unfold pixel.
    replace (j / 8)%nat with (S ((j - 8) / 8)) by lia. replace (j mod 8)%nat with ((j - 8) mod 8)%nat by lia. reflexivity.
Qed.
Lemma cells_two : forall row, Forall (fun c => length c = 2%nat) (cells row).
Proof.
  induction row as [|r row IH]; [constructor|]. cbn [cells]. apply Forall_app. split; [|exact IH].
  apply Forall_map, Forall_forall. intros i _. unfold shown. destruct (Z.testbit r i); reflexivity.
Qed.
Lemma first_cells : forall (l : list pystr) m, Forall (fun c => length c = 2%nat) l ->
  firstn (2 * m) (concat l) = concat (firstn m l) /\ skipn (2 * m) (concat l) = concat (skipn m l).
Proof.
  induction l as [|c l IH]; intros m F; [destruct m; cbn; rewrite ?firstn_nil; auto|].
  inversion F as [|x y Hc F']; subst. destruct m as [|m]; [split; reflexivity|].
  cbn [concat firstn skipn]. destruct c as [|c1 [|c2 [|]]]; try discriminate.
  replace (2 * S m)%nat with (S (S (2 * m))) by lia. cbn [app firstn skipn].
  destruct (IH m F') as (-> & ->). split; reflexivity.
Qed.
Lemma concat_two : forall (l : list pystr), Forall (fun c => length c = 2%nat) l -> length (concat l) = (2 * length l)%nat.
Proof.
  induction 1 as [|c l Hc F IH]; [reflexivity|]. cbn [concat length]. rewrite app_length, Hc, IH. lia.
Qed.
Lemma line_shows : forall w row, 0 <= w -> shows w row (py_prefix (w * 2) (flat_map preview_byte row)).
Proof.
  intros w row Hw. unfold shows. set (n := Nat.min (Z.to_nat w) (8 * length row)).
  assert (E : py_prefix (w * 2) (flat_map preview_byte row) = concat (firstn (Z.to_nat w) (cells row))).
  { rewrite cells_preview. unfold py_prefix. replace (w * 2 <? 0) with false by lia.
    replace (Z.to_nat (w * 2)) with (2 * Z.to_nat w)%nat by lia. apply first_cells, cells_two. }
  assert (T : Forall (fun c => length c = 2%nat) (firstn (Z.to_nat w) (cells row))).
  { pose proof (cells_two row) as T. rewrite <- (firstn_skipn (Z.to_nat w)) in T. apply Forall_app in T. apply T. }
  rewrite E. split.
  - rewrite concat_two by exact T. rewrite firstn_length, cells_length. reflexivity.
  - intros j Hj. destruct (first_cells _ j T) as (_ & ->).
    assert (L : (j < length (firstn (Z.to_nat w) (cells row)))%nat) by (rewrite firstn_length, cells_length; lia).
    rewrite <- cells_pixel by lia.
    rewrite <- (firstn_skipn (Z.to_nat w) (cells row)) at 2. rewrite app_nth1 by exact L.
    clear -L T. revert j L. generalize dependent (firstn (Z.to_nat w) (cells row)).
    induction l as [|c l IH]; intros T j L; cbn [length] in L; [lia|]. inversion T as [|x y Hc F]; subst.
    destruct j as [|j]; [|apply IH; [exact F|lia]].
    cbn [skipn concat nth]. destruct c as [|c1 [|c2 [|]]]; try discriminate. reflexivity.
Qed.

(** every bitmap that was read has a preview of all its rows *)
Definition previewed (w : Z) (b : bitmap_data) : Prop :=
  exists lines, bm_preview b = Some lines /\ Forall2 (shows w) (bm_data b) lines.
Lemma previewed_read : forall win w n s b s', parse_bitmap_data win w n s = ROk b s' -> previewed w b.
Proof.
  intros win w n s b s' E. unfold parse_bitmap_data, rbind in E. destruct (read_bitmap n s) as [cs s1|]; [|discriminate].
  unfold rlift in E. destruct (split_rows _ _) as [rows|] eqn:R; [|discriminate]. unfold ret in E. injection E as <- <-.
  exists (preview rows w). split; [reflexivity|]. cbn [bm_data]. unfold preview.
  unfold split_rows in R. destruct (Z.eqb_spec (bytes_per_row w) 0); [discriminate|].
  destruct (Z.ltb_spec (bytes_per_row w) 0); apply Ok_inj in R; [subst rows; constructor|].
  assert (0 <= w) by (unfold bytes_per_row in *; lia). clear -H0.
  induction rows as [|r rows IH]; constructor; [apply line_shows; exact H0|exact IH].
Qed.
Theorem C106_background_preview : forall o c data d, cd_parse (table o) 2007 c data = Ok (DBackground d) ->
  previewed (fst (bg_size_pixels d)) (bg_bitmap d).
Proof.
  intros o c data d. change (cd_parse (table o) 2007 c data) with
    (run_parser (plain DBackground (parse_background (on_windows c))) data).
  unfold run_parser, plain, rbind at 1. destruct (parse_background (on_windows c) data) as [b s'|] eqn:P; [|discriminate].
  unfold ret. intros E. assert (b = d) as -> by (destruct s'; [injection E; auto|discriminate]). clear E.
  unfold parse_background, rbind in P.
  destruct (read_value data) as [x s1|]; [|discriminate]. destruct (read_value s1) as [y s2|]; [|discriminate].
  destruct (read_uvalue s2) as [uw s3|]; [|discriminate]. destruct (read_uvalue s3) as [uh s4|]; [|discriminate].
  destruct (read_uvalue s4) as [w s5|]; [|discriminate]. destruct (read_uvalue s5) as [h s6|]; [|discriminate].
  destruct (read_uvalue s6) as [n s7|]; [|discriminate].
  destruct (parse_bitmap_data (on_windows c) w n s7) as [b s8|] eqn:B; [|discriminate].
  unfold ret in P. injection P as <- _. exact (previewed_read _ _ _ _ _ _ B).
Qed.
Lemma each_read : forall A (P : A -> Prop) (r : rd A), (forall s a s', r s = ROk a s' -> P a) ->
  forall n s l s', rrepeat n r s = ROk l s' -> Forall P l.
Proof.
  intros A P r H. induction n as [|n IH]; intros s l s' E; cbn [rrepeat] in E; [injection E as <- _; constructor|].
  unfold rbind in E. destruct (r s) as [a s1|] eqn:R; [|discriminate].
  destruct (rrepeat n r s1) as [l' s2|] eqn:R2; [|discriminate]. unfold ret in E. injection E as <- _.
  constructor; [exact (H _ _ _ R)|exact (IH _ _ _ R2)].
Qed.
Theorem C106_bitmaps_preview : forall o c data l, cd_parse (table o) 2013 c data = Ok (DBitmaps l) ->
  Forall (fun d => previewed (fst (gb_size_pixels d)) (gb_bitmap d)) l.
Proof.
  intros o c data l. change (cd_parse (table o) 2013 c data) with
    (run_parser (plain DBitmaps (parse_glyph_bitmaps (on_windows c))) data).
  unfold run_parser, plain, rbind at 1. destruct (parse_glyph_bitmaps (on_windows c) data) as [b s'|] eqn:P; [|discriminate].
  unfold ret. intros E. assert (b = l) as -> by (destruct s'; [injection E; auto|discriminate]). clear E.
  unfold parse_glyph_bitmaps, rbind at 1 in P. destruct (read_uvalue data) as [n s|]; [|discriminate].
  refine (each_read _ _ _ _ _ _ _ _ P). clear. intros data d s' P. unfold parse_glyph_bitmap, rbind in P.
  destruct (read_uvalue data) as [ppm s0|]; [|discriminate].
  destruct (read_value s0) as [x s1|]; [|discriminate]. destruct (read_value s1) as [y s2|]; [|discriminate].
  destruct (read_uvalue s2) as [uw s3|]; [|discriminate]. destruct (read_uvalue s3) as [uh s4|]; [|discriminate].
  destruct (read_uvalue s4) as [w s5|]; [|discriminate]. destruct (read_uvalue s5) as [h s6|]; [|discriminate].
  destruct (read_value s6) as [n s7|]; [|discriminate].
  destruct (parse_bitmap_data (on_windows c) w n s7) as [b s8|] eqn:B; [|discriminate].
  unfold ret in P. injection P as <- _. exact (previewed_read _ _ _ _ _ _ B).
Qed.
Print Assumptions C106_background_preview. Print Assumptions C106_bitmaps_preview.

(** run-length data gives the pixels it stands for, in rows of whole words, inverted on Windows *)
Lemma pixels_read : forall win w n data px rest, rle data px -> bytes_ok data -> row_bytes w n -> 0 < n ->
  exists b, parse_bitmap_data win w (Z.of_nat (length data)) (data ++ rest) = ROk b rest /\
    in_rows n (bm_data b) /\ concat (bm_data b) = stored_pixels win px.
Proof.
  intros win w n data px rest R B W N. destruct (C22_rle_read data px rest R B) as (cs & E & D).
  unfold parse_bitmap_data. eexists. split; [|split].
  - unfold rbind at 1. rewrite E, D. rewrite (row_bytes_per_row _ _ W). unfold split_rows.
    replace (n =? 0) with false by lia. replace (n <? 0) with false by lia. unfold rlift, rbind, ret. reflexivity.
  - cbn [bm_data]. match goal with |- in_rows _ (rows_from _ _ ?d) =>
      destruct (rows_shape (Z.to_nat n) d (length d)) as (_ & S); [lia|apply Nat.le_refl|] end.
    rewrite Z2Nat.id in S by lia. exact S.
  - cbn [bm_data]. rewrite rows_concat by lia. unfold stored_pixels. destruct win; [|reflexivity].
    apply map_ext. intros b. unfold Z.lnot. lia.
Qed.
Theorem C106_background_pixels : forall o c x y uw uh w h n data px ex ey euw euh ew eh en,
  rle data px -> bytes_ok data -> row_bytes w n -> 0 < n ->
  int32 x -> int32 y -> Forall (fun v => 0 <= v < 2 ^ 32) [uw; uh; w; h; Z.of_nat (length data)] ->
  write_value x = Ok ex -> write_value y = Ok ey -> write_uvalue uw = Ok euw -> write_uvalue uh = Ok euh ->
  write_uvalue w = Ok ew -> write_uvalue h = Ok eh -> write_uvalue (Z.of_nat (length data)) = Ok en ->
  exists b, cd_parse (table o) 2007 c (ex ++ ey ++ euw ++ euh ++ ew ++ eh ++ en ++ data) =
      Ok (DBackground (Background (x, y) (uw, uh) (w, h) b)) /\
    in_rows n (bm_data b) /\ concat (bm_data b) = stored_pixels (on_windows c) px /\ previewed w b.
Proof.
  intros o c x y uw uh w h n data px ex ey euw euh ew eh en R B W N Hx Hy U Ex Ey Euw Euh Ew Eh En.
  destruct (pixels_read (on_windows c) w n data px [] R B W N) as (b & P & I & C).
  assert (G : forall v e rest, write_value v = Ok e -> int32 v -> read_value (e ++ rest) = ROk v rest).
  { clear. intros v e rest E H. destruct (wrt_value v H) as (bs & E1 & _ & R). rewrite E in E1. apply Ok_inj in E1. subst. apply R. }
  assert (G' : forall v e rest, write_uvalue v = Ok e -> u32 v -> read_uvalue (e ++ rest) = ROk v rest).
  { clear. intros v e rest E H. destruct (wrt_uvalue v H) as (bs & E1 & _ & R). rewrite E in E1. apply Ok_inj in E1. subst. apply R. }
  assert (U' : Forall u32 [uw; uh; w; h; Z.of_nat (length data)]) by (eapply Forall_impl; [|exact U]; unfold u32; cbv beta; lia).
  inversion U' as [|? ? U1 V1]; subst. inversion V1 as [|? ? U2 V2]; subst. inversion V2 as [|? ? U3 V3]; subst.
  inversion V3 as [|? ? U4 V4]; subst. inversion V4 as [|? ? U5 V5]; subst.
  exists b. split; [|split; [exact I|split; [exact C|exact (previewed_read _ _ _ _ _ _ P)]]].
  change (cd_parse (table o) 2007 c) with (run_parser (plain DBackground (parse_background (on_windows c)))).
  unfold run_parser, plain, parse_background, rbind.
  rewrite (G _ _ _ Ex Hx), (G _ _ _ Ey Hy), (G' _ _ _ Euw U1), (G' _ _ _ Euh U2), (G' _ _ _ Ew U3), (G' _ _ _ Eh U4), (G' _ _ _ En U5).
  rewrite app_nil_r in P. rewrite P. reflexivity.
Qed.
Print Assumptions C106_background_pixels.
(** a bitmap of 9 columns and two rows of two bytes; it is inverted on Windows *)
Example C106_case : forall o nm sv sh,
  cd_parse (table o) 2007 (mkCtx nm sv sh MacOS) [139; 139; 143; 143; 148; 141; 144; 3; 129; 128; 0; 0] =
    Ok (DBackground (Background (0, 0) (4, 4) (9, 2) (Bitmap [[129; 128]; [0; 0]]
      (Some [shown true ++ concat (repeat (shown false) 6) ++ shown true ++ shown true; concat (repeat (shown false) 9)])))) /\
  cd_parse (table o) 2007 (mkCtx nm sv sh Windows) [139; 139; 143; 143; 148; 141; 144; 3; 129; 128; 0; 0] =
    Ok (DBackground (Background (0, 0) (4, 4) (9, 2) (Bitmap [[126; 127]; [255; 255]]
      (Some [shown false ++ concat (repeat (shown true) 6) ++ shown false ++ shown false; concat (repeat (shown true) 9)])))).
Proof. intros. split; vm_compute; reflexivity. Qed.
Example C106_meets : rle [3; 129; 128; 0; 0] [129; 128; 0; 0] /\ row_bytes 9 2 /\
  shows 9 [129; 128] (shown true ++ concat (repeat (shown false) 6) ++ shown true ++ shown true).
Proof.
  split; [exact (rle_literal 3 [129; 128; 0; 0] [] [] ltac:(lia) eq_refl rle_end)|]. split; [split; cbn; lia|].
  split; [reflexivity|]. intros j Hj. cbn in Hj. do 9 (destruct j as [|j]; [vm_compute; reflexivity|]). lia.
Qed.
