(** Specification of the entries with scaled numbers (C39, C58, C59): which font options, primary
    instances and masks the formats can hold. *)
From Coq Require Import String.
From Verif Require Import Base M_Py M_Float M_Options S_Entry S_Glyph.
Local Open Scope list_scope.

(** the option names that the library knows *)
Definition option_names : list pystr :=
  [py "fit_ascender"; py "fit_descender"; py "auto_metrics_left"; py "auto_metrics_right";
   py "auto_metrics_close"; py "auto_hinting_min_h_len"; py "auto_hinting_min_v_len";
   py "auto_hinting_min_h_width"; py "auto_hinting_min_v_width"; py "auto_hinting_max_h_width";
   py "auto_hinting_max_v_width"; py "auto_hinting_h_ratio"; py "auto_hinting_v_ratio";
   py "duplicate_place_x"; py "paste_place_x"; py "duplicate_place_y"; py "paste_place_y";
   py "opentype_name_records"; py "codepage_for_cmap_1_0"; py "dont_ignore_unicode_indexes";
   py "head_bbox_savings"; py "autohinting_options"; py "export_hinted_truetype_font";
   py "autohint_unhinted_glyphs"; py "keep_existing_truetype_instructions";
   py "export_visual_truetype_hints"; py "apply_bbox_savings"; py "auto_win_asc_desc";
   py "add_characters"; py "export_embedded_bitmaps";
   py "copy_hdmx_data_from_base_to_composite_glyph"; py "dont_automatically_reorder_glyphs";
   py "export_ot"; py "export_volt"; py "write_kern_feature"; py "t1_terminal"; py "t1_pfm";
   py "t1_afm"; py "t1_autohint"; py "t1_unicode"; py "optimize_align"; py "optimize_reduce";
   py "t1_encoding"; py "ot_write_gdef"; py "t1_use_os2"; py "subrize"; py "t1_sort";
   py "export_kern_table"; py "t1_fs_type"; py "expand_kern_flags"; py "expand_kern_codepage";
   py "expand_kern_count"; py "decompose"].

Definition flag (v : Z) : Prop := v = 0 \/ v = 1.
Definition is_ratio_key (k : pystr) : Prop :=
  k = py "auto_hinting_h_ratio" \/ k = py "auto_hinting_v_ratio".

(** the dict of the TrueType auto-hinting options *)
Definition autohint_dict (precision triple delta center cusp double rsb : Z) : list (pystr * Z) :=
  [(py "single_link_attachment_precision", precision); (py "generate_triple_hints", triple);
   (py "generate_delta_instructions", delta);
   (py "direct_links_to_center_of_the_glyph_where_possible", center);
   (py "interpolate_positions_of_cusp_points", cusp);
   (py "interpolate_positions_of_double_links", double); (py "add_link_to_rsb", rsb)].
(** the dict of the kerning expansion flags *)
Definition expand_kern_dict (action codepage cmap window count keep assist : Z)
  : list (pystr * Z) :=
  [(py "limit_action", action); (py "limit_codepage", codepage); (py "limit_cmap_10", cmap);
   (py "limit_font_window", window); (py "limit_count", count); (py "limit_keep", keep);
   (py "apply_to_assistance", assist)].

(** the values an option can have *)
Inductive wf_option : pystr -> opt_val -> Prop :=
| wf_ratio : forall k n, is_ratio_key k -> int32 n -> wf_option k (OFloat (int_div n 10000))
| wf_autohint : forall p a b c d e f, 0 <= p <= 7 -> flag a -> flag b -> flag c -> flag d ->
    flag e -> flag f -> wf_option (py "autohinting_options") (ODict (autohint_dict p a b c d e f))
| wf_expand_kern : forall a b c d e f g, flag a -> flag b -> flag c -> flag d -> flag e -> flag f ->
    flag g -> wf_option (py "expand_kern_flags") (ODict (expand_kern_dict a b c d e f g))
| wf_plain : forall k v, In k option_names -> ~ is_ratio_key k ->
    k <> py "autohinting_options" -> k <> py "expand_kern_flags" -> int32 v ->
    wf_option k (OInt v).
Definition wf_font_options (d : font_options_dict) : Prop :=
  NoDup (map fst d) /\ Forall (fun p => wf_option (fst p) (snd p)) d.

(** a number of the file that was divided by a scale *)
Definition scaled_number (scale : Z) (v : pynum) : Prop :=
  exists n, int32 n /\ v = NFloat (int_div n scale).

Definition wf_mask (m : mask) : Prop :=
  countable (mk_weight_vector m) /\ Forall (scaled_number 100000000) (mk_weight_vector m) /\
  master_count (M_Glyph.mo_num_masters (mk_outlines m)) /\
  exists nodes, M_Glyph.mo_nodes (mk_outlines m) = Some nodes /\
                wf_nodes (M_Glyph.mo_num_masters (mk_outlines m)) nodes.

(** an instance whose values are given in units of 1/10000 *)
Definition instance_of (name : pystr) (vs : list Z) : instance :=
  Instance name (map (fun n => NFloat (int_div n 10000)) vs).
