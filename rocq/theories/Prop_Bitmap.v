(** Properties C22, C23, C24: bitmaps. *)
From Coq Require Import ZifyBool ZifyNat.
From Verif Require Import Base M_Stream M_Helpers M_Text M_Py M_Bitmap S_Stream S_Bits S_Text S_Entry
  S_Bitmap M_Simple Lib P_Stream P_Helpers P_Text P_Text2 P_Loop P_Simple P_Simple3 P_Bitmap.
Open Scope rd_scope.
Ltac Zify.zify_post_hook ::= Z.div_mod_to_equations.

Lemma rle_chunks_of : forall data px, rle data px -> bytes_ok data ->
  exists cs, Forall chunk_ok cs /\ wlist write_chunk cs = Ok data /\ decode_bitmap cs = px.
Proof.
  induction 1 as [|n lit data px Hn Hl R IH|v n b data px Ev Hn R IH]; intros Hb.
  - exists []. repeat split. constructor.
  - inversion Hb as [|? ? Hb1 Hb2]; subst. apply bytes_ok_app in Hb2. destruct Hb2 as [Hb2 Hb3].
    destruct (IH Hb3) as (cs & Hc & E & D). exists ((n, lit) :: cs). split; [|split].
    + constructor; [|exact Hc]. split; [exact Hb2|]. left. cbn. lia.
    + cbn [wlist]. change (write_chunk (n, lit)) with (write_int8 n +++ wlist write_uint8 lit).
      rewrite (wlist_uint8 lit Hb2), E. unfold write_int8, to_bytes_s.
      replace (srange 1 n) with true by (unfold srange, in_range; cbn; lia).
      cbn. rewrite Z.mod_small by lia. reflexivity.
    + unfold decode_bitmap in *. cbn [map concat]. rewrite D. unfold decode_chunk. cbn [fst snd].
      destruct (Z.leb_spec 0 n); [reflexivity|lia].
  - inversion Hb as [|? ? Hb1 Hb2]; subst. inversion Hb2 as [|? ? Hb3 Hb4]; subst.
    destruct (IH Hb4) as (cs & Hc & E & D). exists ((- n, [b]) :: cs). split; [|split].
    + constructor; [|exact Hc]. split; [repeat constructor; apply Hb3|]. right. cbn. lia.
    + cbn [wlist]. change (write_chunk (- n, [b])) with (write_int8 (- n) +++ wlist write_uint8 [b]).
      rewrite (wlist_uint8 [b]) by (repeat constructor; apply Hb3). rewrite E. unfold write_int8, to_bytes_s.
      replace (srange 1 (- n)) with true by (unfold srange, in_range; cbn; lia).
      cbn. replace (- n mod 256) with (256 - n) by lia. reflexivity.
    + unfold decode_bitmap in *. cbn [map concat]. rewrite D. unfold decode_chunk. cbn [fst snd].
      destruct (Z.leb_spec 0 (- n)); [lia|]. rewrite list_times_repeat. do 2 f_equal. lia.
Qed.

(** C22: what is written is the exact byte count and then run-length data for exactly the pixels,
    every specifier a signed byte. *)
Theorem C22_rle_written : forall rows p, pixels rows -> exists count data,
  compile_bitmap_data false (Bitmap rows p) = Ok (count ++ data) /\
  (forall rest, read_value (count ++ rest) = ROk (Z.of_nat (length data)) rest) /\
  rle data (concat rows).
Proof.
  intros rows p H. destruct (compile_bitmap_rle rows p H) as (count & data & E & W & R & Hi).
  exists count, data. split; [exact E|]. split; [|exact R].
  destruct (wrt_value _ Hi) as (b & Eb & _ & Rb). rewrite W in Eb. apply Ok_inj in Eb. subst b. exact Rb.
Qed.
Example C22_rle_written_meets : pixels [[1; 2; 2; 2]; [2; 2; 255; 0]].
Proof. split; [repeat constructor; unfold uint8; lia|cbn; lia]. Qed.

(** run-length data stands for one bitmap only *)
Theorem C22_rle_unique : forall data px px', rle data px -> rle data px' -> px = px'.
Proof.
  intros data px px' H. revert px'. induction H as [|n lit data px Hn Hl R IH|v n b data px Ev Hn R IH];
    intros px' H'; inversion H' as [|n' lit' data' px2 Hn' Hl' R' E1 E2|v' n' b' data' px2 Ev' Hn' R' E1 E2]; subst; try (exfalso; lia).
  - reflexivity.
  - assert (length lit' = length lit) as EL by lia.
    match goal with H : _ ++ _ = _ ++ _ |- _ => rename H into E end.
    assert (lit' = lit /\ data' = data) as [-> ->].
    { clear - EL E. revert lit' EL E. induction lit as [|a l IH]; intros [|a' l'] EL E; try discriminate EL; cbn in E.
      - auto.
      - inversion E; subst. destruct (IH l') as [-> ->]; auto. }
    f_equal. apply IH. exact R'.
  - assert (n' = n) as -> by lia. f_equal. apply IH. exact R'.
Qed.

(** The parser turns any run-length data into the pixels it stands for, and leaves what follows. *)
Theorem C22_rle_read : forall data px rest, rle data px -> bytes_ok data ->
  exists cs, read_bitmap (Z.of_nat (length data)) (data ++ rest) = ROk cs rest /\
             decode_bitmap cs = px.
Proof.
  intros data px rest R Hb. destruct (rle_chunks_of data px R Hb) as (cs & Hc & E & D).
  exists cs. split; [|exact D]. destruct (rle_chunks _ Hc) as (bs & E2 & L & _). rewrite E in E2.
  apply Ok_inj in E2. subst bs. destruct (wrt_chunks cs (length data) Hc) as (bs & E3 & _ & Rd); [lia|].
  rewrite E in E3. apply Ok_inj in E3. subst bs. unfold read_bitmap. rewrite Nat2Z.id, L in *. apply Rd.
Qed.
Example C22_rle_read_meets : rle [1; 5; 6; 254; 7; 128; 9] ([5; 6] ++ [7; 7; 7] ++ repeat 9 129).
Proof.
  change [1; 5; 6; 254; 7; 128; 9] with (1 :: [5; 6] ++ [256 - 2; 7; 256 - 128; 9]).
  apply rle_literal; [lia|reflexivity|].
  apply (rle_repeat _ 2 7 [256 - 128; 9] (repeat 9 129)); [reflexivity|lia|].
  change (repeat 9 129) with (repeat 9 (Z.to_nat (128 + 1)) ++ []).
  apply (rle_repeat _ 128 9 [] []); [reflexivity|lia|]. constructor.
Qed.

Lemma row_bytes_per_row : forall w n, row_bytes w n -> bytes_per_row w = n.
Proof. intros w n [H1 H2]. unfold bytes_per_row. lia. Qed.

(** The rows come back as they were: same pixels, same width, and following fields untouched. *)
Theorem C22_rows_roundtrip : forall rows p w n, pixels rows -> row_bytes w n -> 0 < n -> in_rows n rows ->
  exists bs pv, compile_bitmap_data false (Bitmap rows p) = Ok bs /\
  forall rest, (datalen <- read_value ;; parse_bitmap_data false w datalen) (bs ++ rest)
               = ROk (Bitmap rows pv) rest.
Proof.
  intros rows p w n Hp Hw Hn Hr. apply row_bytes_per_row in Hw. subst n.
  pose (d := Bitmap rows (Some (preview rows w))).
  assert (wf_bitmap w d) as Hd by (unfold wf_bitmap, d, rows_fit; cbn; auto).
  destruct (wrt_bitmap_data _ read_value w d ret d wnil
              (fun v Hv => wrt_value v ltac:(unfold i32; lia)) Hd (wrt_ret _ _)) as (bs & E & _ & R).
  rewrite wseq_nil_r in E. exists bs, (Some (preview rows w)). split; [exact E|].
  intros rest. specialize (R rest). unfold d in R. cbn beta in R. rewrite <- R. unfold rbind. destruct (read_value (bs ++ rest)); [|reflexivity].
  destruct (parse_bitmap_data _ _ _ _); reflexivity.
Qed.
Example C22_rows_roundtrip_meets : pixels [[1; 2; 2; 2]; [2; 2; 255; 0]; [7; 7]] /\ row_bytes 17 4 /\
  in_rows 4 [[1; 2; 2; 2]; [2; 2; 255; 0]; [7; 7]].
Proof.
  split; [split; [repeat constructor; unfold uint8; lia|cbn; lia]|]. split; [split; cbn; lia|].
  exists [[1; 2; 2; 2]; [2; 2; 255; 0]], [[7; 7]]. split; [reflexivity|].
  split; [repeat constructor|]. right. exists [7; 7]. split; [reflexivity|cbn; lia].
Qed.

(** C23, first half: on macOS, whatever bitmap entry was parsed can be compiled and parses to the
    same value (bitmaps of less than a gigabyte). *)
Definition below_1gb (d : bitmap_data) : Prop := Z.of_nat (length (concat (bm_data d))) < 2 ^ 30.
Theorem C23_background_macos : forall data d, entry_data data ->
  run_parser (parse_background false) data = Ok d -> below_1gb (bg_bitmap d) ->
  survives (compile_background false) (parse_background false) d.
Proof.
  intros data d Hd E Hs. destruct (rps_run _ _ _ _ _ (rps_background false) Hd E) as [Hf (H1 & H2 & H3)].
  apply wrt_survives, wrt_background; [exact Hf|]. unfold wf_bitmap, pixels. auto.
Qed.
Theorem C23_glyph_bitmaps_macos : forall data l, entry_data data ->
  run_parser (parse_glyph_bitmaps false) data = Ok l -> Forall (fun d => below_1gb (gb_bitmap d)) l ->
  survives (compile_glyph_bitmaps false) (parse_glyph_bitmaps false) l.
Proof.
  intros data l Hd E Hs. destruct (rps_run _ _ _ _ _ (rps_glyph_bitmaps false) Hd E) as [Hf Hn].
  apply wrt_survives, wrt_glyph_bitmaps; [exact Hn|]. rewrite Forall_forall in *. intros d Hin.
  destruct (Hf d Hin) as [H0 (H1 & H2 & H3)]. split; [exact H0|]. unfold wf_bitmap, pixels.
  specialize (Hs d Hin). auto.
Qed.
Example C23_meets :
  let data := [139; 139; 143; 143; 155; 140; 141; 255; 1] in
  exists d, run_parser (parse_background false) data = Ok d /\ bm_data (bg_bitmap d) = [[1; 1]].
Proof. eexists. split; vm_compute; reflexivity. Qed.

(** C23 is false for Windows files: no bitmap with a pixel that was read from one can be written. *)
Theorem C23_background_windows_refuted : forall data d, entry_data data ->
  run_parser (parse_background true) data = Ok d -> concat (bm_data (bg_bitmap d)) <> [] ->
  exists e, compile_background true d = Err e.
Proof.
  intros data d Hd E Hne. destruct (rps_run _ _ _ _ _ (rps_background true) Hd E) as [Hf (H1 & H2 & H3)].
  destruct (windows_fails _ H1 Hne) as [e He].
  destruct (compile_background true d) as [bs|e'] eqn:Ec; [|eauto]. exfalso.
  unfold compile_background in Ec. do 6 (apply wseq_ok in Ec; destruct Ec as (? & ? & _ & Ec & _)).
  rewrite He in Ec. discriminate.
Qed.
Theorem C23_glyph_bitmaps_windows_refuted : forall data l d, entry_data data ->
  run_parser (parse_glyph_bitmaps true) data = Ok l -> In d l -> concat (bm_data (gb_bitmap d)) <> [] ->
  exists e, compile_glyph_bitmaps true l = Err e.
Proof.
  intros data l d Hd E Hin Hne. destruct (rps_run _ _ _ _ _ (rps_glyph_bitmaps true) Hd E) as [Hf _].
  rewrite Forall_forall in Hf. destruct (Hf d Hin) as [_ (H1 & _)].
  destruct (windows_fails _ H1 Hne) as [e He].
  destruct (compile_glyph_bitmaps true l) as [bs|e'] eqn:Ec; [|eauto]. exfalso.
  unfold compile_glyph_bitmaps in Ec. apply wseq_ok in Ec. destruct Ec as (? & y & _ & Ec & _).
  clear -Ec Hin He. revert y Ec. induction l as [|d' l IH]; intros y Ec; [destruct Hin|].
  cbn [wlist] in Ec. apply wseq_ok in Ec. destruct Ec as (y1 & y2 & E1 & E2 & _).
  destruct Hin as [->|Hin]; [|eapply IH; eauto].
  unfold compile_glyph_bitmap in E1. do 7 (apply wseq_ok in E1; destruct E1 as (? & ? & _ & E1 & _)).
  rewrite He in E1. discriminate.
Qed.
(** and such entries exist *)
Example C23_windows_meets :
  let data := [139; 139; 143; 143; 155; 140; 141; 255; 1] in
  exists d, run_parser (parse_background true) data = Ok d /\ bm_data (bg_bitmap d) = [[254; 254]] /\
            compile_background true d = Err OverflowError.
Proof. eexists. split; [vm_compute; reflexivity|]. split; vm_compute; reflexivity. Qed.

(** C24: reading run-length data always returns, having consumed at most the declared length. *)
Theorem C24_reads_declared_length : forall datalen s, exists cs p s',
  read_bitmap datalen s = ROk cs s' /\ s = p ++ s' /\ Z.of_nat (length p) <= Z.max 0 datalen.
Proof. intros. unfold read_bitmap. apply read_bitmap_le. lia. Qed.
Theorem C24_terminates : forall win,
  terminates (parse_background win) /\ terminates (parse_glyph_bitmaps win).
Proof.
  intros win. split; apply tot_terminates; [apply tot_background|apply tot_glyph_bitmaps].
Qed.
Example C24_truncated : read_bitmap 10 [3; 1] = ROk [(3, [1; 0; 0; 0]); (0, [0]); (0, [0])] [].
Proof. reflexivity. Qed.

Print Assumptions C22_rle_written.
Print Assumptions C22_rle_unique.
Print Assumptions C22_rle_read.
Print Assumptions C22_rows_roundtrip.
Print Assumptions C23_background_macos.
Print Assumptions C23_glyph_bitmaps_macos.
Print Assumptions C23_background_windows_refuted.
Print Assumptions C23_glyph_bitmaps_windows_refuted.
Print Assumptions C24_reads_declared_length.
Print Assumptions C24_terminates.
