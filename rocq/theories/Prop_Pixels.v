(** C106: the pixels of the bitmaps of a glyph. *)
From Coq Require Import ZifyBool ZifyNat.
From Verif Require Import Base M_Stream M_Helpers M_Text M_Py M_Bitmap M_Container M_Table S_Stream S_Bits S_Entry
  S_Bitmap S_Preview Lib P_Stream P_Loop P_Bitmap Prop_Bitmap Prop_Preview.
Open Scope rd_scope.

(** one bitmap as it is stored: numbers, bytes per row, the run-length data and the pixels it stands for *)
Record stored := Stored {
  so_ppm : Z; so_origin : Z * Z; so_advance : Z * Z; so_size : Z * Z; so_row : Z; so_data : bytes; so_pixels : bytes }.
Definition stored_fine (s : stored) : Prop :=
  rle (so_data s) (so_pixels s) /\ bytes_ok (so_data s) /\ row_bytes (fst (so_size s)) (so_row s) /\ 0 < so_row s /\
  Forall int32 [fst (so_origin s); snd (so_origin s); Z.of_nat (length (so_data s))] /\
  Forall (fun v => 0 <= v < 2 ^ 32) [so_ppm s; fst (so_advance s); snd (so_advance s); fst (so_size s); snd (so_size s)].
(** its bytes *)
Definition stored_as (s : stored) (e : bytes) : Prop :=
  exists ep ex ey eaw eah ew eh en,
    write_uvalue (so_ppm s) = Ok ep /\ write_value (fst (so_origin s)) = Ok ex /\ write_value (snd (so_origin s)) = Ok ey /\
    write_uvalue (fst (so_advance s)) = Ok eaw /\ write_uvalue (snd (so_advance s)) = Ok eah /\
    write_uvalue (fst (so_size s)) = Ok ew /\ write_uvalue (snd (so_size s)) = Ok eh /\
    write_value (Z.of_nat (length (so_data s))) = Ok en /\
    e = ep ++ ex ++ ey ++ eaw ++ eah ++ ew ++ eh ++ en ++ so_data s.
(** what is decompiled shows it *)
Definition shows_stored (win : bool) (s : stored) (d : glyph_bitmap) : Prop :=
  exists b, d = GlyphBitmap (so_ppm s) (so_origin s) (so_advance s) (so_size s) b /\
    in_rows (so_row s) (bm_data b) /\ concat (bm_data b) = stored_pixels win (so_pixels s) /\ previewed (fst (so_size s)) b.

Lemma value_read : forall v e rest, write_value v = Ok e -> int32 v -> read_value (e ++ rest) = ROk v rest.
Proof. intros v e rest E H. destruct (wrt_value v H) as (bs & E1 & _ & R). rewrite E in E1. apply Ok_inj in E1. subst. apply R. Qed.
Lemma uvalue_read : forall v e rest, write_uvalue v = Ok e -> 0 <= v < 2 ^ 32 -> read_uvalue (e ++ rest) = ROk v rest.
Proof.
  intros v e rest E H. assert (U : u32 v) by (unfold u32; lia). destruct (wrt_uvalue v U) as (bs & E1 & _ & R).
  rewrite E in E1. apply Ok_inj in E1. subst. apply R.
Qed.
Lemma stored_read : forall win s e rest, stored_fine s -> stored_as s e ->
  exists d, parse_glyph_bitmap win (e ++ rest) = ROk d rest /\ shows_stored win s d.
Proof.
  intros win [ppm [x y] [aw ah] [w h] n data px] e rest (R & B & W & N & I & U) (ep & ex & ey & eaw & eah & ew & eh & en & Ep & Ex & Ey & Eaw & Eah & Ew & Eh & En & ->).
  cbn [so_ppm so_origin so_advance so_size so_row so_data so_pixels fst snd] in *.
  inversion I as [|? ? I1 J1]; subst. inversion J1 as [|? ? I2 J2]; subst. inversion J2 as [|? ? I3 J3]; subst.
  inversion U as [|? ? U1 V1]; subst. inversion V1 as [|? ? U2 V2]; subst. inversion V2 as [|? ? U3 V3]; subst.
  inversion V3 as [|? ? U4 V4]; subst. inversion V4 as [|? ? U5 V5]; subst.
  destruct (pixels_read win w n data px rest R B W N) as (b & P & Rw & C).
  exists (GlyphBitmap ppm (x, y) (aw, ah) (w, h) b). split.
  - unfold parse_glyph_bitmap, rbind. rewrite <- !app_assoc.
    rewrite (uvalue_read _ _ _ Ep U1), (value_read _ _ _ Ex I1), (value_read _ _ _ Ey I2), (uvalue_read _ _ _ Eaw U2), (uvalue_read _ _ _ Eah U3),
      (uvalue_read _ _ _ Ew U4), (uvalue_read _ _ _ Eh U5), (value_read _ _ _ En I3), P. reflexivity.
  - exists b. split; [reflexivity|]. split; [exact Rw|]. split; [exact C|]. exact (previewed_read _ _ _ _ _ _ P).
Qed.
(** For all lists of bitmaps: decompiling the entry with their bytes gives bitmaps with the stored numbers, whose rows
    and previews show the stored pixels. *)
Theorem C106_bitmaps_pixels : forall o c l es en,
  Forall stored_fine l -> Forall2 stored_as l es -> Z.of_nat (length l) < 2 ^ 32 -> write_uvalue (Z.of_nat (length l)) = Ok en ->
  exists ds, cd_parse (table o) 2013 c (en ++ concat es) = Ok (DBitmaps ds) /\ Forall2 (shows_stored (on_windows c)) l ds.
Proof.
  intros o c l es en F E L N.
  assert (H : exists ds, rrepeat (length l) (parse_glyph_bitmap (on_windows c)) (concat es) = ROk ds [] /\ Forall2 (shows_stored (on_windows c)) l ds).
  { clear L N. induction E as [|s e l es H E IH]; [exists []; split; [reflexivity|constructor]|]. inversion F as [|? ? Fs Fl]; subst.
    destruct (IH Fl) as (ds & R & G). destruct (stored_read (on_windows c) s e (concat es) Fs H) as (d & P & S).
    exists (d :: ds). split; [|constructor; assumption]. cbn [length rrepeat concat]. unfold rbind. rewrite P, R. reflexivity. }
  destruct H as (ds & R & G). exists ds. split; [|exact G].
  change (cd_parse (table o) 2013 c) with (run_parser (plain DBitmaps (parse_glyph_bitmaps (on_windows c)))).
  unfold run_parser, plain, parse_glyph_bitmaps, rbind. rewrite (uvalue_read _ _ _ N) by lia.
  unfold rrange. rewrite Nat2Z.id, R. reflexivity.
Qed.
Print Assumptions C106_bitmaps_pixels.
(** two bitmaps, one of 9 columns and two rows, one of 8 columns and one row *)
Definition c106_bitmaps : list stored :=
  [Stored 12 (0, -2) (10, 0) (9, 2) 2 [3; 129; 128; 0; 0] [129; 128; 0; 0]; Stored 20 (1, 0) (8, 0) (8, 1) 2 [1; 255; 0] [255; 0]].
Example C106_pixels_meets : exists es en, Forall stored_fine c106_bitmaps /\ Forall2 stored_as c106_bitmaps es /\
  write_uvalue (Z.of_nat (length c106_bitmaps)) = Ok en /\
  forall o nm sv sh, rmap (fun d => match d with DBitmaps l => map (fun d => bm_data (gb_bitmap d)) l | _ => [] end)
      (cd_parse (table o) 2013 (mkCtx nm sv sh Windows) (en ++ concat es)) = Ok [[[126; 127]; [255; 255]]; [[0; 255]]].
Proof.
  do 2 eexists. split; [|split; [|split; [vm_compute; reflexivity|]]].
  - repeat constructor; cbn; try lia;
      [exact (rle_literal 3 [129; 128; 0; 0] [] [] ltac:(lia) eq_refl rle_end)|exact (rle_literal 1 [255; 0] [] [] ltac:(lia) eq_refl rle_end)].
  - repeat apply Forall2_cons; [..|apply Forall2_nil]; do 8 eexists; repeat (split; [vm_compute; reflexivity|]); reflexivity.
  - intros. vm_compute. reflexivity.
Qed.
