(** C108: which exceptions compiling an entry can raise, by entry type. *)
From Coq Require Import ZifyBool ZifyNat String Floats.SpecFloat.
From Verif Require Import Base M_Stream M_Text M_Py M_Simple M_Bitmap M_TrueType M_Glyph M_Float M_Options M_Container M_Table
  S_Raises S_CompileRaises Lib P_Table P_CompileRaises P_CompileRaises2 Prop_Raises.
Local Open Scope list_scope.

(** ** Nothing but the exceptions of [compile_raises] *)
(** Data of the form that decompiling gives, whatever was put into it, also when the number of masters
    has changed since. [F] are the exceptions of fontTools' assembler ([o_bytecode]) and of the
    conversion of an angle ([o_slope]); only glyphs and guides call them. As [Diverge] is not among
    [compile_raises], compiling always comes to an end. *)
Theorem C108_raises : forall o F i c v comp x,
  (forall a e, o_slope o a = Err e -> In e F) -> (forall l e, o_bytecode o l = Err e -> In e F) ->
  has_form o i v -> sound i v -> cd_compile (table o) i = Some comp -> comp c v = Err x ->
  In x (compile_raises i) \/ (In i [1294; 2001] /\ In x F).
Proof.
  intros o F i c v comp x Hs Hb (c' & data & v0 & P & Ef) So C E.
  unfold table in P, C. cbn [cd_parse cd_compile] in P, C. unfold compiler_of in C. unfold parser_of in P.
  destruct (row o i) as [[[n p] k]|] eqn:R; [|discriminate]. injection C as <-.
  pose proof (rows_compile o F Hs Hb) as T. rewrite Forall_forall in T. specialize (T _ (row_of_in _ _ _ _ _ R)).
  exact (T c' data v0 c v P Ef So x E).
Qed.
Print Assumptions C108_raises.

(** ... for the method of the entry. Its data stays as it was. *)
Theorem C108_compile : forall o F c e i v x,
  (forall a e, o_slope o a = Err e -> In e F) -> (forall l e, o_bytecode o l = Err e -> In e F) ->
  e_id e = Some i -> e_data e = Dec v -> has_form o i v -> sound i v ->
  snd (entry_compile (table o) c e) = Err x ->
  (In x (compile_raises i) \/ (In i [1294; 2001] /\ In x F)) /\ fst (entry_compile (table o) c e) = e.
Proof.
  intros o F c e i v x Hs Hb Ei Ed Hf So E. unfold entry_compile in *. rewrite Ed, Ei in *.
  destruct (cd_compile (table o) i) as [comp|] eqn:C; [|discriminate]. destruct (comp c v) as [b|y] eqn:W; [discriminate|].
  cbn [snd] in E. injection E as <-. split; [|reflexivity]. eapply C108_raises; eauto.
Qed.
Print Assumptions C108_compile.

(** ... for a whole font: the exception comes from the header or from one of its entries, and the entries
    before that one are compiled without exceptions. *)
Theorem C108_font : forall o v x, snd (vfb_compile (table o) v) = Err x ->
  header_compile (v_header v) = Err x \/
  exists before e after, v_entries v = before ++ e :: after /\ snd (entry_compile (table o) (v_ctx v) e) = Err x /\
    Forall (fun b => exists r, snd (entry_compile (table o) (v_ctx v) b) = Ok r) before.
Proof.
  intros o v x H. unfold vfb_compile in H. destruct (header_compile (v_header v)) as [h|e]; [right|left; cbn [snd] in H; congruence].
  replace (v_ctx (with_header h v)) with (v_ctx v) in H by (destruct v; reflexivity).
  replace (v_entries (with_header h v)) with (v_entries v) in H by (destruct v; reflexivity).
  generalize dependent (v_entries v). intros es H.
  destruct (compile_entries (table o) (v_ctx v) es) as [es' r] eqn:E. cbn [snd] in H. subst r. revert es' E.
  induction es as [|e es IH]; intros es' E; cbn [compile_entries] in E; [discriminate|].
  destruct (entry_compile (table o) (v_ctx v) e) as [e' [b|y]] eqn:C.
  - destruct (compile_entries (table o) (v_ctx v) es) as [es2 r] eqn:E2. injection E as _ ->.
    destruct (IH es2 eq_refl) as (before & e2 & after & -> & X & Fb). exists (e :: before), e2, after.
    split; [reflexivity|]. split; [exact X|]. constructor; [exists b; rewrite C; reflexivity|exact Fb].
  - injection E as _ ->. exists [], e, es. split; [reflexivity|]. split; [rewrite C; reflexivity|constructor].
Qed.
Print Assumptions C108_font.

(** Entries of nothing but doubles are always compiled. *)
Theorem C108_doubles : forall o i c v, In i double_ids -> has_form o i v -> sound i v ->
  exists comp b, cd_compile (table o) i = Some comp /\ comp c v = Ok b.
Proof.
  intros o i c v I Hf So.
  set (F := [EOFError; ValueError; KeyError; IndexError; OverflowError; StructError; AssertionError; AttributeError; TypeError; RuntimeError;
             UnicodeDecodeError; UnicodeEncodeError; UnboundLocalError; NotImplementedError; ZeroDivisionError; Diverge]).
  assert (All : forall e, In e F) by (intros []; cbn; tauto).
  destruct (cd_compile (table o) i) as [comp|] eqn:C.
  2:{ exfalso. cbn [double_ids In] in I. repeat (destruct I as [<-|I]; [discriminate C|]). destruct I. }
  exists comp. destruct (comp c v) as [b|x] eqn:W; [eauto|exfalso].
  destruct (C108_raises o F i c v comp x (fun _ e _ => All e) (fun _ e _ => All e) Hf So C W) as [H|[H _]]; clear - I H;
    cbn [double_ids In] in I; repeat (destruct I as [<-|I]; [vm_compute in H; intuition discriminate|]); destruct I.
Qed.
Print Assumptions C108_doubles.

(** ** Each of them is raised by some data *)
Definition big : Z := 2 ^ 40.
Definition snowman : pystr := [0x2603].
Definition text_of (x : exn) : pystr := match x with UnicodeEncodeError => snowman | _ => [] end.
Definition number_of (x : exn) : Z := match x with StructError | OverflowError => big | _ => 0 end.
Definition bad_num (x : exn) : pynum :=
  match x with ValueError => NFloat S754_nan | OverflowError => NFloat (S754_infinity false) | StructError => NInt big | _ => NInt 0 end.
Definition bad_outlines (x : exn) : mask_outlines :=
  match x with
  | StructError => MaskOutlines big None
  | IndexError => MaskOutlines 1 (Some [MMNode Move 0 []])
  | OverflowError => MaskOutlines 1 (Some [MMNode Move big [[(0, 0)]]])
  | _ => MaskOutlines 1 None
  end.
Definition bad_bitmap (x : exn) : bitmap_data := Bitmap (match x with OverflowError => [[big]] | _ => [] end) None.
Definition bad_origin (x : exn) : Z * Z := match x with StructError => (big, 0) | _ => (0, 0) end.
Definition tt_six (n : Z) : tt_info :=
  [(py "max_zones", VInt n); (py "max_twilight_points", VInt 0); (py "max_storage", VInt 0); (py "max_function_defs", VInt 0);
   (py "max_instruction_defs", VInt 0); (py "max_stack_elements", VInt 0)].
Definition bad_value (i : Z) (x : exn) : value :=
  if among hex_ids i then DStr (py "0")
  else if i =? 1276 then DLines [snowman]
  else if among text_ids i then DStr snowman
  else match i with
  | 2011 => DPair (big, 0) | 2027 => DOrigin (big, 0) | 1133 | 1515 | 1250 | 1253 | 1068 | 2023 => DInts [big]
  | 2021 => DInts [200] | 1265 => DGasp [Gasp big 0] | 1093 | 2010 => DPSOptions (PSOptions [] [40])
  | 1505 => DMasterLocation (big, [])
  | 1523 => DAxes [[(big, 0)]] | 1271 => DVdmx [Vdmx big 0 0] | 2019 => DSketch [(big, 0, 0)] | 2008 => DLinks (Links [] [(big, 0)])
  | 2028 => DPairs [(big, 0)] | 2020 => DAnchorProps [AnchorProps (Some big) None] | 1273 => DDeltas [(big, [(0, 0)])]
  | 1138 => DNames [NameRecord big 0 0 0 []] | 1118 => DInts []
  | 1141 => DCmaps [CustomCmap (number_of x) 0 0 0 0 (text_of x)]
  | 1255 => DZones (TTZones (Some [TTZone (number_of x) 0 (text_of x)]) None)
  | 1500 | 1501 => DEncoding (number_of x, text_of x)
  | 2007 => DBackground (Background (bad_origin x) (0, 0) (0, 0) (bad_bitmap x))
  | 2013 => DBitmaps [GlyphBitmap 0 (bad_origin x) (0, 0) (0, 0) (bad_bitmap x)]
  | 2024 => DFlags [(text_of x, match x with ValueError => [] | _ => [number_of x; 0; 0] end)]
  | 2026 => DFlags [(text_of x, match x with ValueError => [] | _ => [number_of x; 0] end)]
  | 1296 | 2031 =>
      DGuideProps (GuideProps [GuideProp (number_of x) (match x with ValueError => Some (py "#none") | _ => None end) (Some (text_of x))] [])
  | 2018 => DGdef (Gdef (match x with ValueError => Some (py "accent") | _ => None end) (Some [GdefAnchor (Some (text_of x)) (number_of x) 0]) None None)
  | 1266 | 1268 | 1524 =>
      DStems (TTStems [TTStem None None None (match x with KeyError => [] | _ => map (fun k => (k, big)) [1; 2; 3; 4; 5] end)] [])
  | 1742 => DMappingMode (MappingMode (match x with KeyError => py "none" | _ => py "codepages" end) (number_of x) 0 0)
  | 1269 => DStems (TTStems [match x with
              | KeyError => TTStem None None None []
              | OverflowError => TTStem (Some 0) (Some (repeat 65 256)) None []
              | _ => TTStem (Some (number_of x)) (Some (text_of x)) None []
              end] [])
  | 1536 => DPSInfo (PSInfo (match x with AssertionError => [] | _ => repeat 0 6 end) (number_of x) [] [] [] [] 0 0 0 0 0 [] [] 0 0 0 0 0 0 0 0 0 0 0)
  | 10 => DFLVersion (FLVersion (match x with KeyError => py "linux" | _ => py "macos" end)
            (match x with AssertionError => [] | OverflowError => repeat big 4 | _ => repeat 0 4 end) (number_of x))
  | 2014 => DBinaryTable (BinaryTable (text_of x) (match x with ValueError => py "0" | _ => [] end))
  | 1136 => DPclt (Pclt (match x with StructError => big | _ => 0 end) 0 0 0 0 0 0 (text_of x) [] [] (match x with OverflowError => big | _ => 0 end) 0 0)
  | 1254 => DInstances [Instance (text_of x) [bad_num x]]
  | 1743 => DFontOptions (match x with
              | AssertionError => [(py "none", OInt 0)]
              | StructError => [(py "paste_place_y", OInt big)]
              | ValueError => [(py "auto_hinting_h_ratio", OFloat S754_nan)]
              | _ => [(py "auto_hinting_h_ratio", OFloat (S754_infinity false))]
              end)
  | 1744 => DOptionList (match x with KeyError => [SInt 5] | _ => repeat (SStr (py "use_custom_cmap_encoding")) (128 * 128) end)
  | 1264 => DTTInfo (match x with
              | KeyError => []
              | StructError => tt_six big
              | AssertionError => tt_six 0 ++ [(py "head_flags", VInt 0)]
              | _ => tt_six 0 ++ [(py "head_flags", VFlags [] []); (py "OpenTypeOS2Panose", VList (repeat big 10))]
              end)
  | 1410 => DKernPair (KernPair 0 0 [])
  | 1295 => DGlobalMask (bad_outlines x)
  | 2009 => DMask (Mask (match x with ValueError => [NFloat S754_nan] | _ => [] end) (bad_outlines x))
  | 1294 => DGuides (Guides [match x with StructError => [GuideMaster big 0] | _ => [] end] [])
  | 2029 => DAnchors [match x with StructError => MMAnchor [big] [0] | _ => MMAnchor [] [] end]
  | 2001 => DGlyph (Glyph (Some (text_of x)) (match x with KeyError => None | _ => Some (mo_num_masters (bad_outlines x)) end)
              (mo_nodes (bad_outlines x)) None None None None None None None)
  | _ => DInt big
  end.
Definition one_master : ctx := mkCtx 1 0 0 MacOS.
(** something that is decompiled *)
Definition good_data (i : Z) : bytes :=
  if among hex_ids i || among text_ids i then []
  else if i =? 1505 then repeat 0 36
  else if among sized_ids i || among [2023; 1523; 2028; 1500; 1501; 2014; 1744; 1410; 1524] i then []
  else if among [1068; 1271; 2019; 2020; 1273; 1138; 1141; 2013; 2024; 2026; 1254] i then zeros 1
  else if among [2008; 1255; 1296; 2031; 1266; 1268; 1269; 1294; 2029] i then zeros 2
  else if i =? 1118 then repeat 0 10 else if i =? 1295 then zeros 3 else if among [2009; 2018] i then zeros 4
  else if i =? 2007 then zeros 4 ++ [147; 140; 141; 0; 255] else if i =? 1136 then zeros 7
  else if i =? 1742 then [1; 139; 2; 139; 3; 139; 4; 139; 0]
  else if i =? 1536 then repeat 0 400 else if i =? 10 then [0] else if i =? 1743 then [100] else if i =? 1264 then [0x32]
  else glyph_start ++ [15].
Definition raising_ids : list Z :=
  hex_ids ++ text_ids ++ sized_ids ++ encoded_ids ++ [1118; 1141; 1255; 1500; 1501; 2007; 2013; 2024; 2026; 1296; 2031; 2018; 1266; 1268; 1524; 1742;
   1269; 1536; 10; 2014; 1136; 1254; 1743; 1744; 1264; 1410; 1295; 2009; 1294; 2029; 2001].
Definition double_bitsb (x : Z) : bool := (0 <=? x) && (x <? 2 ^ 64).
Definition soundb (i : Z) (v : value) : bool :=
  match v with
  | DDouble _ | DDoubles _ | DDoublePairs _ => false
  | DMasterLocation d => forallb double_bitsb (snd d)
  | DPSInfo d => forallb double_bitsb (ps_font_matrix d) && double_bitsb (ps_blue_scale d)
  | DInts l => negb (i =? 2021) || forallb (Z.leb 0) l
  | DPSOptions d => forallb (Z.leb 0) (po_other d)
  | DTTInfo _ => i =? 1264
  | _ => true
  end.
Lemma forallb_Forall' : forall A (f : A -> bool) (P : A -> Prop) l, (forall a, f a = true -> P a) -> forallb f l = true -> Forall P l.
Proof. intros A f P l H E. rewrite forallb_forall in E. apply Forall_forall. auto. Qed.
Lemma soundb_ok : forall i x, soundb i (bad_value i x) = true -> sound i (bad_value i x).
Proof.
  assert (D : forall x, double_bitsb x = true -> double_bits x) by (unfold double_bitsb, double_bits; lia).
  assert (L : forall x, (0 <=? x) = true -> 0 <= x) by lia.
  intros i x H. destruct (bad_value i x) eqn:E; cbn [soundb sound] in *; try exact I; try discriminate.
  - intros ->. exact (forallb_Forall' _ _ _ _ L H).
  - exact (forallb_Forall' _ _ _ _ D H).
  - apply andb_prop in H. destruct H as [H1 H2]. split; [exact (forallb_Forall' _ _ _ _ D H1)|exact (D _ H2)].
  - exact (forallb_Forall' _ _ _ _ L H).
  - apply Z.eqb_eq in H. subst i. vm_compute in E. injection E as <-. destruct x; repeat constructor.
Qed.
Lemma compile_raises_known : forall i x, In x (compile_raises i) -> In i raising_ids.
Proof.
  intros i x H. assert (A : among raising_ids i = true).
  { destruct (among raising_ids i) eqn:N; [reflexivity|]. unfold raising_ids in N. rewrite !among_app in N.
    repeat (apply Bool.orb_false_iff in N; destruct N as [? N]).
    unfold compile_raises in H. cbn [among existsb] in N, H.
    repeat (apply Bool.orb_false_iff in N; destruct N as [? N]).
    repeat match goal with K : _ = false |- _ => rewrite K in H; clear K end. destruct H. }
  unfold among in A. apply existsb_exists in A. destruct A as (j & Hj & E). apply Z.eqb_eq in E. congruence.
Qed.
Theorem C108_all_raised : forall i x, In x (compile_raises i) ->
  exists c v, sound i v /\ forall o, has_form o i v /\ exists comp, cd_compile (table o) i = Some comp /\ comp c v = Err x.
Proof.
  intros i x H. exists one_master, (bad_value i x). pose proof (compile_raises_known _ _ H) as Hi. split.
  - apply soundb_ok.
    assert (A : forallb (fun i => forallb (fun x => soundb i (bad_value i x)) (compile_raises i)) raising_ids = true) by (vm_compute; reflexivity).
    rewrite forallb_forall in A. specialize (A i Hi). rewrite forallb_forall in A. exact (A x H).
  - intros o.
    assert (G : forallb (fun i => forallb (fun x =>
      match cd_parse (table o) i one_master (good_data i), cd_compile (table o) i with
      | Ok v0, Some comp => Nat.eqb (form (bad_value i x)) (form v0) &&
          match comp one_master (bad_value i x) with Ok _ => false | Err y => same_exn x y end
      | _, _ => false
      end) (compile_raises i)) raising_ids = true) by (vm_compute; reflexivity).
    rewrite forallb_forall in G. specialize (G i Hi). rewrite forallb_forall in G. specialize (G x H).
    destruct (cd_parse (table o) i one_master (good_data i)) as [v0|] eqn:E1; [|discriminate].
    destruct (cd_compile (table o) i) as [comp|]; [|discriminate].
    apply andb_prop in G. destruct G as [G1 G2]. apply Nat.eqb_eq in G1.
    split; [exists one_master, (good_data i), v0; split; assumption|]. exists comp. split; [reflexivity|].
    destruct (comp one_master (bad_value i x)) as [b|y]; [discriminate|]. f_equal. symmetry. apply same_exn_ok. exact G2.
Qed.
Print Assumptions C108_all_raised.

(** Kerning pairs of multiple masters are never compiled. *)
Theorem C108_kern_pair : forall o c v, has_form o 1410 v -> exists comp, cd_compile (table o) 1410 = Some comp /\ comp c v = Err AttributeError.
Proof.
  intros o c v (c' & data & v0 & P & Ef). exists (on_value MMKernPairCompiler). split; [reflexivity|].
  change (run_parser (MMKernPairParser c') data = Ok v0) in P. apply plain_form in P. destruct P as (a & ->). destruct v; try discriminate Ef. reflexivity.
Qed.
Print Assumptions C108_kern_pair.

(** A case of the hypotheses: two masters of anchors, and four in the font *)
Definition some_oracles : oracles := Oracles (fun v => v) (fun _ => Ok 0) (fun _ => Ok []) (fun _ => Err ValueError).
Example C108_meets :
  let v := DAnchors [MMAnchor [10; 20] [30; 40]] in
  (forall a e, o_slope some_oracles a = Err e -> In e [ValueError]) /\ (forall l e, o_bytecode some_oracles l = Err e -> In e [ValueError]) /\
  has_form some_oracles 2029 v /\ sound 2029 v /\
  exists comp, cd_compile (table some_oracles) 2029 = Some comp /\ comp (mkCtx 4 0 0 MacOS) v = Err IndexError /\
    comp (mkCtx 2 0 0 MacOS) v = Ok [140; 141; 149; 169; 159; 179].
Proof.
  cbv zeta. split; [discriminate|]. split; [intros l e [= <-]; left; reflexivity|].
  split; [exists one_master, (zeros 2), (DAnchors []); split; reflexivity|]. split; [exact I|].
  exists (on_value GlyphAnchorsCompiler). split; [reflexivity|]. split; reflexivity.
Qed.
