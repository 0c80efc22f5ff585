(** Specification of the properties of the whole table of entry types and of whole files (C16, C17,
    C32, C40): when two decompiled values are the same, which entry types can be written back
    whatever they contain, and what the others must satisfy. *)
From Coq Require Import String Permutation.
From Verif Require Import Base M_Py M_Text M_Simple M_Bitmap M_TrueType M_Glyph M_Float M_Options
  M_Container M_Table S_Text S_Entry S_Bitmap S_TrueType S_Glyph S_Options S_File.
Local Open Scope list_scope.

(** Equal, with dicts in any order; for glyphs, empty optional parts may be missing. *)
Definition same_value (x y : value) : Prop :=
  match x, y with
  | DDeltas d, DDeltas e => same_deltas d e
  | DTTInfo d, DTTInfo e => Permutation d e
  | DGlyph g, DGlyph h => same_glyph g h
  | _, _ => x = y
  end.

(** "the data [x] of an entry of type [i] can be written, and reading what was written gives the
    same data" *)
Definition written_back (o : oracles) (c : ctx) (i : Z) (x : value) : Prop :=
  exists comp bs x', cd_compile (table o) i = Some comp /\ comp c x = Ok bs /\ bytes_ok bs /\
    cd_parse (table o) i c bs = Ok x' /\ same_value x x'.

(** The entry types that are always written back: whatever their parser accepts. *)
Definition faithful_ids : list Z :=
  [(* markers and data that is kept as hex *)
   1; 2; 4; 5; 262; 271; 272; 513; 527; 528; 1261; 1262; 1263; 2030;
   (* texts *)
   1024; 1025; 1026; 1027; 1028; 1037; 1038; 1039; 1046; 1056; 1059; 1061; 1062; 1063; 1064; 1065;
   1066; 1069; 1070; 1092; 1121; 1127; 1128; 1129; 1137; 1139; 1140; 1277; 1504; 1514; 2015; 2016;
   2017; 2025; 2034; 1276;
   (* numbers *)
   1030; 1031; 1034; 1044; 1048; 1054; 1057; 1058; 1060; 1090; 1130; 1131; 1132; 1134; 1135; 1267;
   1270; 1272; 1274; 1275; 1278; 1279; 1502; 1503; 1513; 1530; 1531; 1532; 1533; 1534; 1535; 1604;
   2012; 2022; 2032; 1029; 1047;
   (* lists of numbers *)
   1068; 1118; 1133; 1250; 1253; 1515; 2023; 1247; 1517; 1505; 1516; 1523;
   (* structures *)
   10; 1500; 1501; 1093; 2010; 1141; 2014; 1536; 1265; 1271; 1255; 1266; 1268; 1269; 1524; 1273;
   2008; 2011; 2018; 2019; 2027; 2028].

(** What the data of the other types must satisfy to be written back, beyond having been read. *)
Definition in_domain (o : oracles) (c : ctx) (i : Z) (x : value) : Prop :=
  match x with
  (* a marker that is read as text and written as hex *)
  | DStr s => s = []
  | DTTInfo d => wf_tt_info d
  (* the numbers of the Unicode ranges *)
  | DInts l => Forall (fun b => b < 128) l
  (* Macintosh names hold Mac Roman characters only *)
  | DNames l => Forall (fun r => nr_plat r = 1 -> nr_enc r = 0 ->
                          Forall (fun ch => 0 <= ch < 128 \/ In ch macroman_high) (nr_text r)) l
  | DPclt p => wf_pclt p
  | DFlags d => wf_class_flags (if i =? 2026 then 2 else 3) d
  (* the coordinates are not changed when they are truncated to multiples of 1/10000 *)
  | DInstances l => Forall (fun inst => Forall (fun v => exists n, int32 n /\
                      v = NFloat (int_div n 10000) /\ num_int_mul v 10000 = Ok n) (in_values inst)) l
  | DGuides d => Forall (Forall (fun g => exists s, o_slope o (gm_angle g) = Ok s /\ int32 s))
                   (gs_h d ++ gs_v d) /\ exact_guides o d
  | DGuideProps d => forall g color, In g (gps_h d ++ gps_v d) -> gp_color g = Some color ->
                       List.length color = 7%nat
  | DGlobalMask m => master_count (mo_num_masters m) /\
                     2 * stored_values (mo_num_masters m) (or_nil (mo_nodes m)) < 2 ^ 31
  | DGlyph g => (exists n, regular o (Some (num_masters c)) n g) /\ on_some (exact_guides o) (g_guides g)
  | DBackground d => writer_platform c = MacOS /\
                     Z.of_nat (List.length (concat (bm_data (bg_bitmap d)))) < 2 ^ 30
  | DBitmaps l => writer_platform c = MacOS /\
      Forall (fun d => Z.of_nat (List.length (concat (bm_data (gb_bitmap d)))) < 2 ^ 30) l
  | DMask m => master_count (mo_num_masters (mk_outlines m)) /\
      2 * stored_values (mo_num_masters (mk_outlines m)) (or_nil (mo_nodes (mk_outlines m))) < 2 ^ 31
  | DAnchorProps l => countable l /\ Forall wf_anchor_props l
  (* as many masters as the file *)
  | DAnchors l => Forall (wf_anchor (num_masters c)) l
  | DFontOptions d => Forall (fun p => In (fst p) option_names) d
  | DOptionList l => exists chosen : pystr -> bool,
      l = map SStr (filter chosen [py "use_custom_opentype_export_options";
                                   py "use_default_opentype_export_options";
                                   py "use_custom_cmap_encoding"])
  | DMappingMode d => wf_mapping_mode d
  | _ => False
  end.
Definition can_be_written (o : oracles) (c : ctx) (i : Z) (x : value) : Prop :=
  In i faithful_ids \/ (In i (map fst (parser_classes o)) /\ in_domain o c i x).
(** the numbers that are remembered while a file is read are in range *)
Definition wf_ctx (c : ctx) : Prop :=
  0 <= num_masters c < 2 ^ 31 /\ 0 <= ttStemsV_count c < 2 ^ 31 /\ 0 <= ttStemsH_count c < 2 ^ 31.

(** ** Whole files (C16) *)
(** what is remembered of the entries FL Version (10), Master Count (1503) and TrueType Stems (1269)
    while the entries with these ids and data are read *)
Definition remembered (c : ctx) (p : Z * value) : ctx :=
  match p with
  | (10, DFLVersion d) =>
      mkCtx (num_masters c) (ttStemsV_count c) (ttStemsH_count c)
            (if str_eqb (fv_platform d) (py "windows") then Windows else MacOS)
  | (1503, DInt n) => mkCtx n (ttStemsV_count c) (ttStemsH_count c) (writer_platform c)
  | (1269, DStems d) =>
      mkCtx (num_masters c) (Z.of_nat (List.length (tts_v d))) (Z.of_nat (List.length (tts_h d)))
            (writer_platform c)
  | _ => c
  end.
Definition context_of (l : list (Z * value)) : ctx := fold_left remembered l ctx0.

(** the entry objects with these ids and decompiled data *)
Definition decompiled (l : list (Z * value)) : list (entry value) :=
  map (fun p => mkEntry (Some (fst p)) (Dec (snd p)) None) l.
Definition same_entry (p q : Z * value) : Prop := fst p = fst q /\ same_value (snd p) (snd q).

(** the size of the data can be stored *)
Definition fits (o : oracles) (c : ctx) (i : Z) (x : value) : Prop :=
  forall comp bs, cd_compile (table o) i = Some comp -> comp c x = Ok bs ->
    Z.of_nat (List.length bs) < 2 ^ 32.

(** the ids of the entries of a file: the last one, and no other, is the end marker *)
Definition file_ids (l : list Z) : Prop :=
  Forall (fun i => 0 <= i < 32768) l /\ exists l0, l = l0 ++ [2] /\ ~ In 2 l0.
