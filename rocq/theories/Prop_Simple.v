(** C19, C20, C21, C38 and the part of C40 for the small entry codecs.
    [survives c r x]: compiling [x] succeeds and parsing the bytes gives [x] with nothing left.
    [exact_at n c r]: every entry of [n] bytes parses, and compiling the result gives the same bytes.
    [reparses c r]: whatever the parser returns survives. All three are defined in S_Entry.v. *)
From Coq Require Import String Sorting.Sorted.
From Verif Require Import Base M_Stream M_Helpers M_Text M_Py M_Simple S_Bits S_Text S_Entry
  Lib P_Stream P_Helpers P_Text P_Text2 P_Loop P_Simple P_Simple2 P_Simple3.
Local Open Scope list_scope.
From Coq Require Import ZifyBool ZifyNat.
Ltac Zify.zify_post_hook ::= Z.div_mod_to_equations.

Lemma ascii_encodable : forall s, Forall (fun c => 0 <= c < 128) s -> encodable s.
Proof.
  intros s H. eapply Forall_impl; [|exact H]. intros c Hc. exists c. split; [cbn in Hc; lia|].
  replace ((0x80 <=? c) && (c <? 0xA0)) with false by (symmetry; cbn in Hc; lia). reflexivity.
Qed.

(** ** C19: value lists *)
Theorem C19_values : forall l, Forall int32 l -> survives compile_values parse_values l.
Proof. exact values_survives. Qed.
Theorem C19_counted : forall l, Forall int32 l -> countable l ->
  survives compile_counted parse_counted l.
Proof. intros. apply wrt_survives, wrt_counted; auto. Qed.
Theorem C19_anisotropic : forall l, Forall wf_axis l ->
  survives compile_anisotropic parse_anisotropic l.
Proof. exact anisotropic_survives. Qed.
Theorem C19_class_flags : forall n d, wf_class_flags n d ->
  survives (compile_class_flags n) (parse_class_flags n) d.
Proof. intros. apply wrt_survives, wrt_class_flags; auto. Qed.
(** Flags from [2^31] on are written without complaint, and come back negative. *)
Theorem C19_class_flags_refuted : exists d bs d', Forall (fun p => Forall uint32 (snd p)) d /\
  compile_class_flags 2 d = Ok bs /\ run_parser (parse_class_flags 2) bs = Ok d' /\ d' <> d.
Proof.
  exists [(py "A", [2 ^ 31; 0])], [140; 140; 65; 255; 128; 0; 0; 0; 139], [(py "A", [- 2 ^ 31; 0])].
  split; [repeat constructor; unfold uint32; lia|].
  split; [vm_compute; reflexivity|]. split; [vm_compute; reflexivity|]. intros E. inversion E.
Qed.

Example C19_values_ex : Forall int32 [0; -2 ^ 31; 2 ^ 31 - 1; 500; -500].
Proof. repeat constructor; unfold int32; lia. Qed.
Example C19_anisotropic_ex : Forall wf_axis [[(0, 0); (500, 300)]; []; [(-1, 2 ^ 31 - 1)]].
Proof. unfold wf_axis, countable, int32. repeat constructor; cbn; lia. Qed.
Example C19_class_flags_ex : wf_class_flags 3 [(py "_A", [0; 1; 2]); (py "B", [-1131; 5; 2 ^ 31 - 1])].
Proof.
  unfold wf_class_flags, countable, text, encodable, small_flag, countable.
  split; [cbn; lia|]. split.
  - repeat constructor; cbn; intuition discriminate.
  - apply Forall_cons; [|apply Forall_cons; [|apply Forall_nil]];
      (split; [split; [apply ascii_encodable; repeat constructor; cbn; lia|cbn; lia]|]);
      (split; [reflexivity|repeat constructor; cbn; lia]).
Qed.

(** ** C20: fixed layouts *)
Theorem C20_int16 : (forall v, uint16 v -> survives compile_int16 parse_int16 v) /\
  exact_at 2 compile_int16 parse_int16.
Proof.
  split; [intros; apply wrt_survives, wrt_uint16; auto|]. apply fix_exact, rfix_uint16.
Qed.
Theorem C20_sint16 : (forall v, int16 v -> survives compile_sint16 parse_sint16 v) /\
  exact_at 2 compile_sint16 parse_sint16.
Proof.
  split; [intros; apply wrt_survives, wrt_int16; auto|]. apply fix_exact, rfix_int16.
Qed.
Theorem C20_sint32 : (forall v, int32 v -> survives compile_sint32 parse_sint32 v) /\
  exact_at 4 compile_sint32 parse_sint32.
Proof.
  split; [intros; apply wrt_survives, wrt_int32; auto|]. apply fix_exact, rfix_int32.
Qed.
Theorem C20_double : (forall v, double v -> survives compile_double parse_double v) /\
  exact_at 8 compile_double parse_double.
Proof.
  split; [intros; apply wrt_survives, wrt_double; auto|]. apply fix_exact, rfix_double.
Qed.
Theorem C20_doubles : (forall l, Forall double l -> survives compile_doubles parse_doubles l) /\
  forall n, exact_at (n * 8) compile_doubles parse_doubles.
Proof. split; [exact doubles_survives|exact doubles_exact]. Qed.
Theorem C20_int_list : (forall l, Forall uint32 l -> survives compile_int_list parse_int_list l) /\
  forall n, exact_at (n * 4) compile_int_list parse_int_list.
Proof. split; [exact int_list_survives|exact int_list_exact]. Qed.
Theorem C20_panose : (forall l, array 10 int8 l -> survives compile_panose parse_panose l) /\
  exact_at 10 compile_panose parse_panose.
Proof. split; [exact panose_survives|exact panose_exact]. Qed.
Theorem C20_axis_counts :
  (forall l, array 4 uint32 l -> survives compile_axis_counts parse_axis_counts l) /\
  exact_at 16 compile_axis_counts parse_axis_counts.
Proof.
  split; [intros; apply wrt_survives, wrt_axis_counts; auto|apply fix_exact, fix_axis_counts].
Qed.
Theorem C20_axis_mappings :
  (forall l, Forall (fun p => double (fst p) /\ double (snd p)) l ->
     survives compile_axis_mappings parse_axis_mappings l) /\
  forall n, exact_at (n * 16) compile_axis_mappings parse_axis_mappings.
Proof. split; [exact axis_mappings_survives|exact axis_mappings_exact]. Qed.
Theorem C20_master_location :
  (forall i l, uint32 i -> array 4 double l ->
     survives compile_master_location parse_master_location (i, l)) /\
  exact_at 36 compile_master_location parse_master_location.
Proof.
  split; [|apply fix_exact, fix_master_location].
  intros i l Hi Hl. apply wrt_survives, wrt_master_location. split; auto.
Qed.
Theorem C20_ps_info : (forall d, wf_ps_info d -> survives compile_ps_info parse_ps_info d) /\
  exact_at 400 compile_ps_info parse_ps_info.
Proof.
  split; [intros; apply wrt_survives, wrt_ps_info; auto|].
  change 400%nat with ps_info_size. apply fix_exact, fix_ps_info.
Qed.
(** The fixed width readers accept entries that are too short (with 0 for what is missing), so
    "the same bytes" is false for them. *)
Theorem C20_short_entry_refuted : exists data x bs, bytes_ok data /\
  run_parser parse_int16 data = Ok x /\ compile_int16 x = Ok bs /\ bs <> data.
Proof.
  exists [7], 7, [7; 0]. split; [repeat constructor; lia|].
  split; [reflexivity|]. split; [reflexivity|discriminate].
Qed.
(** The master kern pair can be read, but its compiler fails on every value. *)
Theorem C20_kern_pair_refuted : forall d, compile_kern_pair d = Err AttributeError.
Proof. reflexivity. Qed.
Example C20_kern_pair_reads :
  run_parser (parse_kern_pair 2) [1; 0; 0; 0; 2; 0; 0; 0; 5; 0; 251; 255]
  = Ok (KernPair 1 2 [5; -5]).
Proof. vm_compute. reflexivity. Qed.
Example C20_ps_info_ex : exists d, wf_ps_info d /\ ps_blue_values d <> [].
Proof.
  exists (PSInfo (repeat (2 ^ 62) 6) 0 (repeat (-15) 14) (repeat 7 10) (repeat 1 14) (repeat 0 10)
            (2 ^ 62) 7 1 80 90 (repeat 80 12) (repeat 90 12) (-100) (-200) 1000 900 0 2000 500
            800 (-200) 500 700).
  split; [|discriminate]. unfold wf_ps_info, array, double, int32, int16, uint32. cbn.
  repeat split; repeat constructor; lia.
Qed.
Example C20_doubles_ex : survives compile_doubles parse_doubles [2 ^ 64 - 1; 0; 4607182418800017408].
Proof. apply C20_doubles. repeat constructor; unfold double; lia. Qed.

(** ** C21: bit fields *)
Theorem C21_unicode_ranges :
  (forall l, bit_set 128 l -> survives compile_unicode_ranges parse_unicode_ranges l) /\
  exact_at 16 compile_unicode_ranges parse_unicode_ranges.
Proof. split; [exact unicode_ranges_survives|exact unicode_ranges_exact]. Qed.
(** entries of more than 16 bytes are read (up to 64 bytes) but cannot be written *)
Theorem C21_unicode_ranges_refuted : exists data x, bytes_ok data /\ length data = 17%nat /\
  run_parser parse_unicode_ranges data = Ok x /\ compile_unicode_ranges x = Err OverflowError.
Proof.
  exists (repeat 0 16 ++ [1]), [128]. split; [|split; [reflexivity|split; vm_compute; reflexivity]].
  cbn. repeat constructor; lia.
Qed.
(** export options: exact for every combination of the three known bits ... *)
Theorem C21_export_options : forall v, 0 <= v < 8 ->
  exists x, run_parser parse_export_options [v; 0] = Ok x /\ compile_export_options x = Ok [v; 0].
Proof.
  intros v Hv. destruct (export_options_exact v Hv) as (x & E & C).
  assert (L : le_enc 2 v = [v; 0]).
  { cbn. rewrite Z.mod_small by lia. rewrite Z.div_small by lia. reflexivity. }
  rewrite L in *. eauto.
Qed.
Theorem C21_export_options_survive : forall chosen : pystr -> bool,
  survives compile_export_options parse_export_options
    (map SStr (filter chosen [py "use_custom_opentype_export_options";
                              py "use_default_opentype_export_options";
                              py "use_custom_cmap_encoding"])).
Proof.
  intros chosen. cbn [filter].
  repeat match goal with |- context [if chosen ?x then _ else _] => destruct (chosen x) end;
    cbn [map]; eexists; (split; [vm_compute; reflexivity|]);
    (split; [repeat constructor; lia|]); vm_compute; reflexivity.
Qed.
(** ... and every value with another bit is read but cannot be compiled *)
Theorem C21_export_options_refuted : forall v, 8 <= v < 65536 ->
  exists x, run_parser parse_export_options (le_enc 2 v) = Ok x /\
            compile_export_options x = Err KeyError.
Proof. exact export_options_unknown. Qed.

Theorem C21_ps_global :
  (forall d, wf_ps_options ps_global_options 16 d -> survives compile_ps_global parse_ps_global d) /\
  exact_at 2 compile_ps_global parse_ps_global.
Proof.
  destruct ps_tables_ok as [(A & B & C) _].
  assert (W : forall v, 0 <= v < 2 ^ 16 -> wrt (write_uint16 v) read_uint16 v)
    by (intros; apply wrt_uint16; assumption).
  split.
  - intros d Hd. apply wrt_survives. apply (wrt_ps_options _ 16); auto. lia.
  - apply fix_exact. apply (fix_ps_options _ 16); auto.
    apply rfix_bytes. intros b Hl Hb. split; [apply to_bytes_u_dec; auto|].
    pose proof (le_dec_range b Hb) as R. rewrite Hl in R. exact R.
Qed.
Theorem C21_ps_glyph :
  (forall d, wf_ps_options ps_glyph_options 32 d -> survives compile_ps_glyph parse_ps_glyph d) /\
  exact_at 4 compile_ps_glyph parse_ps_glyph.
Proof.
  destruct ps_tables_ok as [_ (A & B & C)].
  assert (W : forall v, 0 <= v < 2 ^ 32 -> wrt (write_uint32 v) read_uint32 v)
    by (intros; apply wrt_uint32; assumption).
  split.
  - intros d Hd. apply wrt_survives. apply (wrt_ps_options _ 32); auto. lia.
  - apply fix_exact. apply (fix_ps_options _ 32); auto.
    apply rfix_bytes. intros b Hl Hb. split; [apply to_bytes_u_dec; auto|].
    pose proof (le_dec_range b Hb) as R. rewrite Hl in R. exact R.
Qed.
Example C21_ps_glyph_ex : wf_ps_options ps_glyph_options 32
  (PSOptions [(py "hint_replacement", 1); (py "vertical_3_stem", 1)] [0; 5; 28]).
Proof.
  split; [|split].
  - exists (fun k => negb (str_eqb k (py "horizontal_3_stem"))). vm_compute. reflexivity.
  - split; [repeat constructor; lia|repeat constructor; lia].
  - cbn. intros b H. intuition lia.
Qed.
Example C21_unicode_ranges_ex : bit_set 128 [0; 1; 69; 127].
Proof. split; repeat constructor; lia. Qed.

(** ** C38: small structured entries *)
Theorem C38_fl_version : forall d, wf_fl_version d -> survives compile_fl_version parse_fl_version d.
Proof. intros. apply wrt_survives, wrt_fl_version; auto. Qed.
Theorem C38_mapping_mode : forall d, wf_mapping_mode d ->
  survives compile_mapping_mode parse_mapping_mode d.
Proof. intros. apply wrt_survives, wrt_mapping_mode; auto. Qed.
Theorem C38_custom_cmaps : forall l, Forall wf_cmap l -> countable l ->
  survives compile_custom_cmaps parse_custom_cmaps l.
Proof. intros. apply wrt_survives, wrt_cmaps; auto. Qed.
Theorem C38_binary_table : forall d, wf_binary_table d ->
  survives compile_binary_table parse_binary_table d.
Proof. exact binary_table_survives. Qed.
Theorem C38_pclt : forall p, wf_pclt p -> survives compile_pclt parse_pclt p.
Proof. exact pclt_survives. Qed.
(** Shorter names come back padded with NUL. *)
Theorem C38_pclt_short_names : forall p,
  wf_pclt (Pclt (pc_font_number p) (pc_pitch p) (pc_x_height p) (pc_style p) (pc_type_family p)
    (pc_cap_height p) (pc_symbol_set p) (repeat 65 16) (pc_complement p) (repeat 65 6)
    (pc_stroke_weight p) (pc_width_type p) (pc_serif_style p)) ->
  encodable (pc_typeface p) -> (length (pc_typeface p) <= 16)%nat ->
  encodable (pc_file_name p) -> (length (pc_file_name p) <= 6)%nat ->
  exists bs, compile_pclt p = Ok bs /\ bytes_ok bs /\
    run_parser parse_pclt bs =
      Ok (Pclt (pc_font_number p) (pc_pitch p) (pc_x_height p) (pc_style p) (pc_type_family p)
            (pc_cap_height p) (pc_symbol_set p)
            (pc_typeface p ++ repeat 0 (16 - length (pc_typeface p))) (pc_complement p)
            (pc_file_name p ++ repeat 0 (6 - length (pc_file_name p)))
            (pc_stroke_weight p) (pc_width_type p) (pc_serif_style p)).
Proof.
  intros p (H1 & H2 & H3 & H4 & H5 & H6 & H7 & _ & H9 & _ & H11 & H12 & H13) T1 T2 F1 F2.
  cbn [pc_font_number pc_pitch pc_x_height pc_style pc_type_family pc_cap_height pc_symbol_set
       pc_complement pc_stroke_weight pc_width_type pc_serif_style] in *.
  apply (wrt_run _ (compile_pclt p) parse_pclt (padded_pclt p)). apply wrt_pclt; assumption.
Qed.
(** Negative stroke weights and width types are read but cannot be written. *)
Theorem C38_pclt_refuted : exists data p, bytes_ok data /\
  run_parser parse_pclt data = Ok p /\ pc_stroke_weight p = -1 /\
  compile_pclt p = Err OverflowError.
Proof.
  exists (repeat 139 7 ++ repeat 65 16 ++ repeat 0 8 ++ repeat 66 6 ++ [255; 0; 0]).
  eexists. split; [cbn; repeat constructor; lia|].
  split; [vm_compute; reflexivity|]. split; vm_compute; reflexivity.
Qed.
(** An unknown mapping mode is read as its number, which the compiler does not know. *)
Theorem C38_mapping_mode_refuted : exists data d, bytes_ok data /\
  run_parser parse_mapping_mode data = Ok d /\ compile_mapping_mode d = Err KeyError.
Proof.
  exists [1; 141; 2; 139; 3; 139; 4; 139; 0]. eexists. split; [repeat constructor; lia|].
  split; [vm_compute; reflexivity|]. vm_compute. reflexivity.
Qed.
Example C38_fl_version_ex : wf_fl_version (FLVersion (py "windows") [255; 0; 2; 128] (-1)).
Proof.
  split; [right; reflexivity|]. split; [reflexivity|]. split; [repeat constructor; lia|].
  unfold int32. cbn. lia.
Qed.
Example C38_mapping_mode_ex : wf_mapping_mode (MappingMode (py "codepages") 1 (-2) 65001).
Proof. unfold wf_mapping_mode, int32. cbn [mm_mode mm_m2 mm_m3 mm_id]. split; [auto|lia]. Qed.
Example C38_binary_table_ex : wf_binary_table (BinaryTable (py "MATH") (py "00ff7a")).
Proof.
  split; [apply ascii_encodable; repeat constructor; lia|]. split; [|left; reflexivity].
  split; [exists 3%nat; reflexivity|]. repeat constructor; cbn; lia.
Qed.
Example C38_pclt_ex : wf_pclt (Pclt (2 ^ 32 - 1) 500 400 0 1 700 2 (py "Courier New     ")
  [255; 0; 1; 2; 3; 4; 5; 6] (py "COURIE") 127 0 64).
Proof.
  unfold wf_pclt, int32, uint8.
  cbn [pc_font_number pc_pitch pc_x_height pc_style pc_type_family pc_cap_height pc_symbol_set
       pc_typeface pc_complement pc_file_name pc_stroke_weight pc_width_type pc_serif_style].
  repeat (match goal with |- _ /\ _ => split end);
    try lia; try reflexivity; try (repeat constructor; lia);
    apply ascii_encodable; repeat constructor; lia.
Qed.

(** ** C40 for these codecs: whatever the parser returns can be compiled and reads back *)
Theorem C40_simple :
  reparses compile_hex parse_hex /\ reparses compile_values parse_values /\
  reparses compile_counted parse_counted /\ reparses compile_encoding parse_encoding /\
  reparses compile_int16 parse_int16 /\ reparses compile_sint16 parse_sint16 /\
  reparses compile_sint32 parse_sint32 /\ reparses compile_double parse_double /\
  reparses compile_doubles parse_doubles /\ reparses compile_int_list parse_int_list /\
  reparses compile_panose parse_panose /\ reparses compile_axis_counts parse_axis_counts /\
  reparses compile_axis_mappings parse_axis_mappings /\
  reparses compile_master_location parse_master_location /\
  reparses compile_ps_info parse_ps_info /\ reparses compile_ps_global parse_ps_global /\
  reparses compile_ps_glyph parse_ps_glyph /\ reparses compile_anisotropic parse_anisotropic /\
  reparses compile_custom_cmaps parse_custom_cmaps /\
  reparses compile_fl_version parse_fl_version /\
  reparses compile_binary_table parse_binary_table.
Proof.
  destruct ps_tables_ok as [(A1 & B1 & C1) (A2 & B2 & C2)].
  assert (W1 : forall v, 0 <= v < 2 ^ 16 -> wrt (write_uint16 v) read_uint16 v)
    by (intros; apply wrt_uint16; assumption).
  assert (W2 : forall v, 0 <= v < 2 ^ 32 -> wrt (write_uint32 v) read_uint32 v)
    by (intros; apply wrt_uint32; assumption).
  repeat match goal with |- _ /\ _ => split end.
  - apply reparses_intro with (P := hex_text); [|exact hex_survives].
    unfold parse_hex. eapply rps_bind; [apply rps_read_all|]. intros b Hb.
    apply rps_ret, hex_text_of, Hb.
  - exact (reparses_intro _ _ _ _ rps_values values_survives).
  - apply (reparses_intro _ _ _ _ rps_counted). intros l [H1 H2]. apply C19_counted; auto.
  - apply (reparses_intro _ _ _ _ rps_encoding). intros d [H1 H2]. apply encoding_survives; auto.
  - exact (reparses_intro _ _ _ _ rps_uint16 (proj1 C20_int16)).
  - exact (reparses_intro _ _ _ _ rps_int16 (proj1 C20_sint16)).
  - exact (reparses_intro _ _ _ _ rps_int32 (proj1 C20_sint32)).
  - exact (reparses_intro _ _ _ _ rps_double (proj1 C20_double)).
  - exact (reparses_intro _ _ _ _ rps_doubles_entry doubles_survives).
  - exact (reparses_intro _ _ _ _ rps_int_list int_list_survives).
  - exact (reparses_intro _ _ _ _ rps_panose panose_survives).
  - apply reparses_intro with (P := array 4 uint32); [|apply C20_axis_counts].
    eapply rps_weaken; [apply rps_repeat, rps_uint32|]. intros l H. exact H.
  - exact (reparses_intro _ _ _ _ rps_axis_mappings axis_mappings_survives).
  - apply (reparses_intro _ _ _ _ rps_master_location). intros d Hd.
    apply wrt_survives, wrt_master_location, Hd.
  - exact (reparses_intro _ _ _ _ rps_ps_info (proj1 C20_ps_info)).
  - apply (ps_options_reparses _ 16); auto. exact rps_uint16.
  - apply (ps_options_reparses _ 32); auto. exact rps_uint32.
  - exact (reparses_intro _ _ _ _ rps_anisotropic anisotropic_survives).
  - apply (reparses_intro _ _ _ _ rps_cmaps). intros l [H1 H2]. apply C38_custom_cmaps; auto.
  - exact (reparses_intro _ _ _ _ rps_fl_version C38_fl_version).
  - exact (reparses_intro _ _ _ _ rps_binary_table binary_table_survives).
Qed.
(** It fails for class flags (a flag below -1131), see also C20_kern_pair_refuted,
    C21_unicode_ranges_refuted, C21_export_options_refuted, C38_pclt_refuted and
    C38_mapping_mode_refuted. *)
Theorem C40_class_flags_refuted : exists data d, bytes_ok data /\
  run_parser (parse_class_flags 2) data = Ok d /\ compile_class_flags 2 d = Err StructError.
Proof.
  exists [140; 140; 65; 255; 128; 0; 0; 0; 139], [(py "A", [- 2 ^ 31; 0])].
  split; [repeat constructor; lia|]. split; vm_compute; reflexivity.
Qed.

Print Assumptions C19_values.
Print Assumptions C19_counted.
Print Assumptions C19_anisotropic.
Print Assumptions C19_class_flags.
Print Assumptions C20_doubles.
Print Assumptions C20_ps_info.
Print Assumptions C21_unicode_ranges.
Print Assumptions C21_export_options.
Print Assumptions C21_export_options_refuted.
Print Assumptions C21_ps_global.
Print Assumptions C21_ps_glyph.
Print Assumptions C38_fl_version.
Print Assumptions C38_mapping_mode.
Print Assumptions C38_custom_cmaps.
Print Assumptions C38_binary_table.
Print Assumptions C38_pclt.
Print Assumptions C38_pclt_short_names.
Print Assumptions C40_simple.
