(** C107: the data of an entry, once decompiled, is in proportion to the entry. *)
From Coq Require Import ZifyBool ZifyNat String Permutation.
From Verif Require P_Glyph3.
From Verif Require Import Base M_Stream M_Py M_Text M_Simple M_Bitmap M_TrueType M_Glyph M_Options
  M_Container M_Table M_Json S_Stream S_Size Lib P_Stream P_Loop P_Table P_Size P_Size2.
Local Open Scope list_scope.
Open Scope rd_scope.
Local Notation len l := (Z.of_nat (length l)).

(** ** In proportion *)
Theorem C107_proportional : forall o i c b v t,
  asm_in_proportion o -> Forall (fun x => 0 <= x < 256) b -> Z.of_nat (length b) < 2 ^ 31 ->
  cd_parse (table o) i c b = Ok v -> stored c v -> value_py v t ->
  size t <= 300 * Z.of_nat (length b) + 2000.
Proof.
  intros o i c b v t O B L E S V. apply asm_proportion in O. eapply (table_in_proportion o i O c b v t); [split; [exact B|exact L]|exact E|exact S|exact V].
Qed.

(** ** Not in proportion *)
Lemma number : forall k, 0 <= k < 2 ^ 31 -> exists e, Forall (fun x => 0 <= x < 256) e /\ (length e <= 5)%nat /\
  (forall rest, read_value (e ++ rest) = ROk k rest) /\ (forall rest, read_uvalue (e ++ rest) = ROk k rest).
Proof.
  intros k K. destruct (wrt_value k) as (e & E & B & R); [unfold i32; lia|]. exists e. split; [exact B|]. split; [eapply P_Glyph3.value_size, E|]. split; [exact R|].
  destruct (wrt_value_uvalue k) as (e' & E' & _ & R'); [lia|]. rewrite E in E'. inversion E'; subst. exact R'.
Qed.
Lemma repeat_at_end : forall A (r : rd A) a n, r [] = ROk a [] -> rrepeat n r [] = ROk (repeat a n) [].
Proof. intros A r a n H. induction n as [|n IH]; [reflexivity|]. cbn [rrepeat repeat]. unfold rbind, ret. now rewrite H, IH. Qed.
Lemma sumz_repeat : forall A (m : A -> Z) a n, sumz m (repeat a n) = m a * Z.of_nat n.
Proof. intros A m a n. induction n as [|n IH]; cbn [repeat sumz]; [lia|]. rewrite IH. lia. Qed.
Lemma sum_at_least : forall A (m : A -> Z) l, (forall x, 1 <= m x) -> len l <= sumz m l.
Proof. intros A m l H. induction l as [|x l IH]; cbn [sumz length]; [lia|]. specialize (H x). lia. Qed.
Lemma size_one : forall v, 1 <= size v.
Proof.
  intros [ |b|n|x|s|l|d]; try (cbn [size]; lia).
  - rewrite size_list. pose proof (sumz_pos _ size l size_pos). lia.
  - rewrite size_dict. assert (0 <= sumz entry_size d) by (apply sumz_pos; intros [k w]; unfold entry_size; cbn [fst snd]; pose proof (size_pos w); lia). lia.
Qed.
Lemma plist_at_least : forall A (f : A -> pyval) l, len l <= size (plist f l).
Proof. intros A f l. rewrite size_plist. pose proof (sum_at_least _ (fun a => size (f a)) l (fun a => size_one (f a))). lia. Qed.
Lemma in_dict : forall k v d, In (k, v) d -> size v <= size (PDict d).
Proof.
  intros k v d I. rewrite size_dict. induction d as [|[k' v'] d IH]; [destruct I|]. cbn [sumz]. unfold entry_size at 1. cbn [fst snd].
  assert (0 <= sumz entry_size d) by (apply sumz_pos; intros [? w]; unfold entry_size; cbn [fst snd]; pose proof (size_pos w); lia).
  destruct I as [I|I]; [inversion I; subst; lia|]. specialize (IH I). pose proof (size_pos v'). lia.
Qed.
Ltac bytes_of e := first [apply Forall_app; split; [bytes_of e|bytes_of e] | assumption | repeat (constructor; [lia|]); apply Forall_nil].

Theorem C107_anchors_refuted : forall o c, amplifies o 2029 c.
Proof.
  intros o c k K. destruct (number k ltac:(lia)) as (e & B & L & R & _). exists (e ++ [0x8B]), (DAnchors (repeat (MMAnchor [] []) (Z.to_nat k))). eexists.
  split; [bytes_of e|]. split; [rewrite app_length; cbn [length]; lia|]. split; [|split; [reflexivity|]].
  - change (cd_parse (table o) 2029 c) with (run_parser (plain DAnchors parse_anchors)). unfold run_parser, plain, parse_anchors, rbind at 1 2 3.
    rewrite R. cbn [app]. change (read_value [139]) with (ROk 0 ([] : bytes)). cbv beta iota. unfold rrange. now rewrite (repeat_at_end _ _ (MMAnchor [] [])) by reflexivity.
  - cbn [plain_py]. pose proof (plist_at_least _ anchor_py (repeat (MMAnchor [] []) (Z.to_nat k))) as X. rewrite repeat_length in X. lia.
Qed.
Theorem C107_guides_refuted : forall o c, num_masters c <= 0 -> amplifies o 1294 c.
Proof.
  intros o c N k K. destruct (number k ltac:(lia)) as (e & B & L & R & _). exists (e ++ [0x8B]), (DGuides (Guides (repeat [] (Z.to_nat k)) [])). eexists.
  split; [bytes_of e|]. split; [rewrite app_length; cbn [length]; lia|]. split; [|split; [reflexivity|]].
  - change (cd_parse (table o) 1294 c) with (run_parser (plain DGuides (parse_global_guides o (Some (num_masters c))))). unfold run_parser, plain, parse_global_guides, parse_guides.
    assert (Z0 : Z.to_nat (num_masters c) = 0%nat) by lia. unfold rbind at 1 2 3 4. rewrite R. cbn [app].
    assert (X : forall n s, rrange n (rrange (num_masters c) (read_guide_master o)) s = ROk (repeat [] (Z.to_nat n)) s).
    { intros n s. unfold rrange. rewrite Z0. cbn [rrepeat]. induction (Z.to_nat n) as [|m IH]; [reflexivity|]. cbn [rrepeat repeat]. unfold rbind, ret in *. now rewrite IH. }
    rewrite X. unfold rbind at 1. change (read_value [139]) with (ROk 0 ([] : bytes)). cbv beta iota. unfold rbind at 1. rewrite X. reflexivity.
  - cbn [plain_py]. unfold guides_py, pd. cbn [map fst snd gs_h gs_v]. pose proof (plist_at_least _ (plist guide_py) (repeat [] (Z.to_nat k))) as X. rewrite repeat_length in X.
    match goal with |- _ <= size (PDict ((?a, ?v) :: ?d)) => pose proof (in_dict a v ((a, v) :: d) (or_introl eq_refl)) end. lia.
Qed.

(** outlines *)
Lemma no_outlines : forall n segs, rtimes n (outlines_turn 0) (segs, []) [] = ROk (segs ++ repeat (MMNode Move 0 []) n, []) [].
Proof.
  induction n as [|n IH]; intros segs; cbn [rtimes repeat]; [now rewrite app_nil_r|]. unfold rbind at 1.
  change (outlines_turn 0 (segs, []) []) with (ROk (segs ++ [MMNode Move 0 []], [] : list (Z * Z)) ([] : bytes)). cbv beta iota. rewrite IH, <- app_assoc. reflexivity.
Qed.
Lemma mask_outlines_made : forall k, 0 <= k < 2 ^ 30 -> exists e, Forall (fun x => 0 <= x < 256) e /\ (length e <= 7)%nat /\
  parse_outlines e = ROk (0, repeat (MMNode Move 0 []) (Z.to_nat k)) [].
Proof.
  intros k K. destruct (number k ltac:(lia)) as (e & B & L & R & _). exists ([0x8B; 0x8B] ++ e). split; [bytes_of e|]. split; [rewrite app_length; cbn [length]; lia|].
  unfold parse_outlines. unfold rbind at 1. change (read_uvalue ([139; 139] ++ e)) with (ROk 0 (139 :: e)). cbv beta iota. unfold rbind at 1.
  change (read_value (139 :: e)) with (ROk 0 e). cbv beta iota. unfold rbind at 1. specialize (R []). rewrite app_nil_r in R. rewrite R. cbv beta iota. unfold rbind at 1.
  change (repeat (0, 0) (Z.to_nat 0)) with (@nil (Z * Z)). now rewrite no_outlines.
Qed.
Theorem C107_global_mask_refuted : forall o c, amplifies o 1295 c.
Proof.
  intros o c k K. destruct (mask_outlines_made k K) as (e & B & L & R). exists e, (DGlobalMask (MaskOutlines 0 (Some (repeat (MMNode Move 0 []) (Z.to_nat k))))). eexists.
  split; [exact B|]. split; [lia|]. split; [|split; [reflexivity|]].
  - change (cd_parse (table o) 1295 c) with (run_parser (plain DGlobalMask parse_global_mask)). unfold run_parser, plain, parse_global_mask, rbind. rewrite R. reflexivity.
  - cbn [plain_py]. pose proof (plist_at_least _ node_py (repeat (MMNode Move 0 []) (Z.to_nat k))) as X. rewrite repeat_length in X. unfold outlines_py. cbn [mo_num_masters mo_nodes opt].
    match goal with |- _ <= size (PDict (?p :: (?a, ?v) :: ?d)) => pose proof (in_dict a v (p :: (a, v) :: d) (or_intror (or_introl eq_refl))) end. lia.
Qed.
Theorem C107_mask_refuted : forall o c, amplifies o 2009 c.
Proof.
  intros o c k K. destruct (mask_outlines_made k K) as (e & B & L & R). exists ([0x8B] ++ e), (DMask (Mask [] (MaskOutlines 0 (Some (repeat (MMNode Move 0 []) (Z.to_nat k)))))). eexists.
  split; [bytes_of e|]. split; [rewrite app_length; cbn [length]; lia|]. split; [|split; [reflexivity|]].
  - change (cd_parse (table o) 2009 c) with (run_parser (plain DMask parse_mask)). unfold run_parser, plain, parse_mask. unfold rbind at 1 2. change (read_value ([139] ++ e)) with (ROk 0 e).
    cbv beta iota. unfold rbind at 1. change (rrange 0 (v <- read_value ;; ret (M_Float.NFloat (M_Float.int_div v 100000000))) e) with (ROk (@nil M_Float.pynum) e). cbv beta iota. unfold rbind at 1. rewrite R. reflexivity.
  - cbn [plain_py]. pose proof (plist_at_least _ node_py (repeat (MMNode Move 0 []) (Z.to_nat k))) as X. rewrite repeat_length in X. unfold mask_py, outlines_py. cbn [mk_weight_vector mk_outlines mo_num_masters mo_nodes opt].
    match goal with |- _ <= size (PDict (?p :: ?q :: (?a, ?v) :: ?d)) => pose proof (in_dict a v (p :: q :: (a, v) :: d) (or_intror (or_intror (or_introl eq_refl)))) end. lia.
Qed.

(** bitmaps *)
Ltac one := match goal with
  | |- match read_uvalue (155 :: ?s) with _ => _ end = _ => change (read_uvalue (155 :: s)) with (ROk 16 s)
  | |- match read_uvalue (139 :: ?s) with _ => _ end = _ => change (read_uvalue (139 :: s)) with (ROk 0 s)
  | |- match read_value (139 :: ?s) with _ => _ end = _ => change (read_value (139 :: s)) with (ROk 0 s)
  end; cbv beta iota.
Lemma bitmap_at_end : forall n fuel, (n <= fuel)%nat -> read_bitmap_from fuel (2 * Z.of_nat n) [] = ROk (repeat (0, [0]) n) [].
Proof.
  induction n as [|n IH]; intros fuel F; [destruct fuel; reflexivity|]. destruct fuel as [|fuel]; [lia|]. cbn [read_bitmap_from repeat].
  replace (0 <? 2 * Z.of_nat (S n)) with true by lia. cbv zeta. unfold rbind at 1. change (read_int8 []) with (ROk 0 ([] : bytes)). cbv beta iota.
  change (0 <=? 0) with true. change (0 + 1) with 1. cbv iota. replace (2 * Z.of_nat (S n) - 1 <? 1) with false by lia. unfold rbind at 1. change (rrange 1 read_uint8 []) with (ROk [0] ([] : bytes)). cbv beta iota.
  unfold rbind. replace (2 * Z.of_nat (S n) - 1 - 1) with (2 * Z.of_nat n) by lia. rewrite IH by lia. reflexivity.
Qed.
Lemma decode_zeros : forall n, decode_bitmap (repeat (0, [0]) n) = repeat 0 n.
Proof. unfold decode_bitmap. induction n as [|n IH]; [reflexivity|]. cbn [repeat map concat]. rewrite IH. reflexivity. Qed.
Lemma rows_total : forall fuel n data, (1 <= n)%nat -> (length data <= fuel)%nat -> sumz (fun r : bytes => len r) (rows_from fuel n data) = len data.
Proof.
  induction fuel as [|f IH]; intros n data N F; cbn [rows_from]; [destruct data; [reflexivity|cbn [length] in F; lia]|]. destruct data as [|x data]; [reflexivity|].
  cbn [sumz]. rewrite IH; [|exact N|rewrite skipn_length; cbn [length] in *; lia]. rewrite firstn_length, skipn_length. lia.
Qed.
Lemma bitmap_made : forall win k, 0 <= k < 2 ^ 30 -> exists m, parse_bitmap_data win 16 (2 * k) [] = ROk m [] /\ k <= size (bitmap_py m).
Proof.
  intros win k K. unfold parse_bitmap_data. unfold rbind at 1. unfold read_bitmap.
  assert (E : read_bitmap_from (Z.to_nat (2 * k)) (2 * k) [] = ROk (repeat (0, [0]) (Z.to_nat k)) []).
  { pose proof (bitmap_at_end (Z.to_nat k) (Z.to_nat (2 * k)) ltac:(lia)) as X. now rewrite Z2Nat.id in X by lia. }
  rewrite E. cbv beta iota.
  rewrite decode_zeros. set (data := if win then map (fun b => Z.lnot b + 256) (repeat 0 (Z.to_nat k)) else repeat 0 (Z.to_nat k)).
  assert (D : length data = Z.to_nat k) by (unfold data; destruct win; [rewrite map_length|]; apply repeat_length). cbv zeta.
  change (bytes_per_row 16) with 2. unfold split_rows. change (2 =? 0) with false. change (2 <? 0) with false. cbv iota. eexists. split; [reflexivity|].
  unfold bitmap_py. cbn [bm_data bm_preview opt].
  match goal with |- _ <= size (PDict ((?a, ?v) :: ?d)) => pose proof (in_dict a v ((a, v) :: d) (or_introl eq_refl)) as X end.
  rewrite size_plist in X. pose proof (rows_total (length data) (Z.to_nat 2) data ltac:(lia) (Nat.le_refl _)) as T.
  assert (G : sumz (fun r : bytes => len r) (rows_from (length data) (Z.to_nat 2) data) <= sumz (fun a => size (pints a)) (rows_from (length data) (Z.to_nat 2) data)).
  { apply sumz_le, Forall_forall. intros r _. rewrite size_ints. lia. }
  lia.
Qed.
Theorem C107_image_refuted : forall o c, amplifies o 2007 c.
Proof.
  intros o c k K. destruct (number (2 * k) ltac:(lia)) as (e & B & L & _ & R). destruct (bitmap_made (on_windows c) k K) as (m & M & S).
  exists ([0x8B; 0x8B; 0x8B; 0x8B; 0x9B; 0x8B] ++ e), (DBackground (Background (0, 0) (0, 0) (16, 0) m)). eexists.
  split; [bytes_of e|]. split; [rewrite app_length; cbn [length]; lia|]. split; [|split; [reflexivity|]].
  - change (cd_parse (table o) 2007 c) with (run_parser (plain DBackground (parse_background (on_windows c)))).
    assert (E : parse_background (on_windows c) ([139; 139; 139; 139; 155; 139] ++ e) = ROk (Background (0, 0) (0, 0) (16, 0) m) []); [|unfold run_parser, plain, rbind; now rewrite E].
    unfold parse_background. specialize (R []). rewrite app_nil_r in R.
    cbn [app]. do 6 (unfold rbind at 1; one). unfold rbind at 1. rewrite R. cbv beta iota. unfold rbind at 1. rewrite M. reflexivity.
  - cbn [plain_py]. unfold background_py, pd. cbn [map fst snd bg_origin bg_size_units bg_size_pixels bg_bitmap].
    match goal with |- _ <= size (PDict (?p :: ?q :: ?r :: (?a, ?v) :: ?d)) => pose proof (in_dict a v (p :: q :: r :: (a, v) :: d) (or_intror (or_intror (or_intror (or_introl eq_refl))))) end. lia.
Qed.
Theorem C107_bitmaps_refuted : forall o c, amplifies o 2013 c.
Proof.
  intros o c k K. destruct (number (2 * k) ltac:(lia)) as (e & B & L & R & _). destruct (bitmap_made (on_windows c) k K) as (m & M & S).
  exists ([0x8C; 0x8B; 0x8B; 0x8B; 0x8B; 0x8B; 0x9B; 0x8B] ++ e), (DBitmaps [GlyphBitmap 0 (0, 0) (0, 0) (16, 0) m]). eexists.
  split; [bytes_of e|]. split; [rewrite app_length; cbn [length]; lia|]. split; [|split; [reflexivity|]].
  - change (cd_parse (table o) 2013 c) with (run_parser (plain DBitmaps (parse_glyph_bitmaps (on_windows c)))).
    assert (E : parse_glyph_bitmaps (on_windows c) ([140; 139; 139; 139; 139; 139; 155; 139] ++ e) = ROk [GlyphBitmap 0 (0, 0) (0, 0) (16, 0) m] []); [|unfold run_parser, plain, rbind; now rewrite E].
    assert (P : parse_glyph_bitmap (on_windows c) ([139; 139; 139; 139; 139; 155; 139] ++ e) = ROk (GlyphBitmap 0 (0, 0) (0, 0) (16, 0) m) []).
    { unfold parse_glyph_bitmap. specialize (R []). rewrite app_nil_r in R.
      cbn [app]. do 7 (unfold rbind at 1; one). unfold rbind at 1. rewrite R. cbv beta iota. unfold rbind at 1. rewrite M. reflexivity. }
    unfold parse_glyph_bitmaps, rbind. change (read_uvalue ([140; 139; 139; 139; 139; 139; 155; 139] ++ e)) with (ROk 1 ([139; 139; 139; 139; 139; 155; 139] ++ e)). cbv beta iota.
    unfold rrange. change (Z.to_nat 1) with 1%nat. cbn [rrepeat]. unfold rbind. rewrite P. reflexivity.
  - cbn [plain_py]. rewrite size_plist. cbn [sumz]. unfold glyph_bitmap_py, pd. cbn [map fst snd gb_ppm gb_origin gb_adv gb_size_pixels gb_bitmap].
    match goal with |- _ <= _ + (size (PDict (?p :: ?q :: ?r :: ?z :: (?a, ?v) :: ?d)) + _) => pose proof (in_dict a v (p :: q :: r :: z :: (a, v) :: d) (or_intror (or_intror (or_intror (or_intror (or_introl eq_refl)))))) end. lia.
Qed.

(** a glyph: hints in no master *)
Lemma no_rows : forall n s, rrange n (per_master (Some 0) read_pair) s = ROk (repeat [] (Z.to_nat n)) s.
Proof. intros n s. unfold rrange. induction (Z.to_nat n) as [|m IH]; [reflexivity|]. cbn [rrepeat repeat]. unfold rbind in *.
  change (per_master (Some 0) read_pair s) with (ROk (@nil (Z * Z)) s). cbv beta iota. now rewrite IH.
Qed.
Theorem C107_glyph_refuted : forall o c, amplifies o 2001 c.
Proof.
  intros o c k K. destruct (Z.eq_dec k 0) as [->|K0].
  { exists [1; 9; 7; 1; 15], (DGlyph empty_glyph_data), (PDict []). split; [bytes_of e|]. split; [cbn; lia|]. split; [reflexivity|]. split; [|cbn; lia].
    exists None, []. repeat split. apply Permutation_refl. }
  destruct (number k ltac:(lia)) as (e & B & L & R & _). set (h := MMHints (repeat [] (Z.to_nat k)) [] None).
  exists ([1; 9; 7; 1; 8; 139; 139; 139; 3] ++ e ++ [139; 139; 15]), (DGlyph (set_hints h (set_outlines 0 [] empty_glyph_data))), (PDict (glyph_items (set_hints h (set_outlines 0 [] empty_glyph_data)) None)).
  split; [bytes_of e|]. split; [rewrite !app_length; cbn [length]; lia|]. split; [|split].
  - change (cd_parse (table o) 2001 c) with (run_parser (plain DGlyph (parse_glyph o))).
    assert (E : parse_glyph o ([1; 9; 7; 1; 8; 139; 139; 139; 3] ++ e ++ [139; 139; 15]) = ROk (set_hints h (set_outlines 0 [] empty_glyph_data)) []); [|unfold run_parser, plain, rbind; now rewrite E].
    unfold parse_glyph. unfold rbind at 1. change (read_bytes 4 ([1; 9; 7; 1; 8; 139; 139; 139; 3] ++ e ++ [139; 139; 15])) with (ROk [1; 9; 7; 1] ([8; 139; 139; 139; 3] ++ e ++ [139; 139; 15])).
    cbv beta iota. unfold rbind at 1. change ((if Nat.eqb (length [1; 9; 7; 1]) 4 then ret tt else rraise StructError) ([8; 139; 139; 139; 3] ++ e ++ [139; 139; 15])) with (ROk tt ([8; 139; 139; 139; 3] ++ e ++ [139; 139; 15])).
    cbv beta iota. unfold rloop. set (s := e ++ [139; 139; 15]). match goal with |- rwhile ?f _ _ _ = _ => assert (F : exists m, f = S (S (S m))) end.
    { exists (length s + 3)%nat. rewrite app_length. cbn [length]. lia. }
    destruct F as (m & ->). cbn [rwhile]. unfold rbind at 1.
    change (glyph_turn o empty_glyph_data ([8; 139; 139; 139; 3] ++ s)) with (ROk (inl (set_outlines 0 [] empty_glyph_data) : glyph + glyph) ([3] ++ s)). cbv beta iota.
    unfold rbind at 1. assert (T : glyph_turn o (set_outlines 0 [] empty_glyph_data) ([3] ++ s) = ROk (inl (set_hints h (set_outlines 0 [] empty_glyph_data))) [15]).
    { change (glyph_turn o (set_outlines 0 [] empty_glyph_data) ([3] ++ s)) with ((h <- parse_hints (Some 0) ;; ret (inl (store_hints h (set_outlines 0 [] empty_glyph_data)) : glyph + glyph)) s).
      assert (P : parse_hints (Some 0) s = ROk h [15]).
      { unfold parse_hints, s. unfold rbind at 1. rewrite R. cbv beta iota. unfold rbind at 1. rewrite no_rows. cbv beta iota. unfold rbind at 1. change (read_value [139; 139; 15]) with (ROk 0 [139; 15]). cbv beta iota. reflexivity. }
      unfold rbind. rewrite P. cbv beta iota. unfold store_hints, h. cbn [mh_v mh_h mh_masks]. destruct (Z.to_nat k) eqn:N; [lia|]. reflexivity. }
    rewrite T. cbv beta iota. reflexivity.
  - exists None, (glyph_items (set_hints h (set_outlines 0 [] empty_glyph_data)) None). split; [reflexivity|]. split; [apply Permutation_refl|exact I].
  - unfold glyph_items, set_hints, set_outlines, empty_glyph_data. cbn [g_name g_num_masters g_nodes g_metrics g_hints g_guides g_components g_kerning g_imported g_tth opt app].
    match goal with |- _ <= size (PDict (?p :: ?q :: (?a, ?v) :: ?d)) => pose proof (in_dict a v (p :: q :: (a, v) :: d) (or_intror (or_intror (or_introl eq_refl)))) end.
    assert (X : k <= size (hints_py h)); [|lia]. unfold hints_py, h. cbn [mh_v mh_h mh_masks opt]. pose proof (plist_at_least _ (plist hint_py) (repeat [] (Z.to_nat k))) as X. rewrite repeat_length in X.
    match goal with |- _ <= size (PDict (?p :: (?a, ?v) :: ?d)) => pose proof (in_dict a v (p :: (a, v) :: d) (or_intror (or_introl eq_refl))) end. lia.
Qed.

(** ** Examples *)
Definition line_oracles : oracles := Oracles (fun v => v) (fun a => Ok a) (fun b => Ok (map (fun _ => py "SVTCA[0]") b)) (fun _ => Ok []).
Example line_oracles_in_proportion : asm_in_proportion line_oracles.
Proof.
  intros b l E. inversion E; subst. rewrite size_strs. clear. induction b as [|x b IH]; cbn [map sumz length]; [lia|].
  change (Z.of_nat (length (py "SVTCA[0]"))) with 8. lia.
Qed.
(** a glyph "A" of one master with a node, a hint and a guide *)
Definition stored_bytes : bytes :=
  [1; 9; 7; 1; 1; 140; 65; 8; 140; 139; 140; 0; 150; 160; 3; 140; 139; 149; 139; 139; 4; 139; 140; 139; 139; 15].
Example C107_proportional_meets : exists g t,
  cd_parse (table line_oracles) 2001 (mkCtx 1 0 0 Windows) stored_bytes = Ok (DGlyph g) /\ stored (mkCtx 1 0 0 Windows) (DGlyph g) /\
  value_py (DGlyph g) t /\ size t = 97 /\ g_nodes g <> None /\ g_hints g <> None /\ g_guides g <> None.
Proof.
  eexists. exists (PDict (glyph_items (match cd_parse (table line_oracles) 2001 (mkCtx 1 0 0 Windows) stored_bytes with Ok (DGlyph g) => g | _ => empty_glyph_data end) None)).
  split; [reflexivity|]. split; [split; [intros n E; inversion E; lia|]; split; intros h E; inversion E; subst; repeat constructor; discriminate|].
  split; [exists None; eexists; split; [reflexivity|]; split; [apply Permutation_refl|exact I]|]. split; [reflexivity|]. repeat split; discriminate.
Qed.
(** a mask of no master *)
Example C107_mask_amplified : exists b v t, (length b <= 40)%nat /\ cd_parse (table line_oracles) 2009 (mkCtx 1 0 0 Windows) b = Ok v /\
  value_py v t /\ 1000000000 <= size t.
Proof. destruct (C107_mask_refuted line_oracles (mkCtx 1 0 0 Windows) 1000000000 ltac:(lia)) as (b & v & t & _ & L & E & V & S). exists b, v, t. auto. Qed.

Print Assumptions C107_proportional.
Print Assumptions C107_anchors_refuted.
Print Assumptions C107_guides_refuted.
Print Assumptions C107_global_mask_refuted.
Print Assumptions C107_mask_refuted.
Print Assumptions C107_image_refuted.
Print Assumptions C107_bitmaps_refuted.
Print Assumptions C107_glyph_refuted.
