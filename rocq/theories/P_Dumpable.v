(** Proofs: orjson takes all data that the parsers make, but for the texts of name records (C97). *)
From Coq Require Import ZifyBool ZifyNat String Permutation.
From Verif Require Import Base M_Stream M_Py M_Helpers M_Text M_Simple M_Bitmap M_TrueType M_Glyph M_Float M_Options
  M_Container M_Table M_Tools S_Encoding S_Text S_Entry S_Glyph S_TrueType S_Options M_Json Lib P_Stream P_Loop P_Dec P_Simple P_Simple2 P_Simple3
  P_Bitmap P_TrueType P_TrueType2 P_Glyph P_Glyph3 P_Glyph5 P_Options P_Table P_Text P_Text2 S_File P_File P_JsonFile.
Local Open Scope list_scope.

Definition dok (v : pyval) : Prop := dumpable v = true.
Definition iok (z : Z) : Prop := - 2 ^ 63 <= z < 2 ^ 64.
Definition tok (s : pystr) : Prop := M_Json.text_ok s = true.
Definition cok (c : Z) : Prop := 0 <= c < 0x110000 /\ ~ (0xD800 <= c <= 0xDFFF).

(** ** Values *)
Lemma tok_iff : forall s, tok s <-> Forall cok s.
Proof.
  intros s. unfold tok, M_Json.text_ok. rewrite forallb_forall, Forall_forall. split; intros H c I; specialize (H c I); unfold char_text_ok, cok, in_range in *; lia.
Qed.
Lemma dok_int : forall z, iok z -> dok (PInt z).
Proof. intros z H. unfold dok, dumpable, iok in *. lia. Qed.
Lemma dok_str : forall s, tok s -> dok (PStr s). Proof. auto. Qed.
Lemma dok_float : forall x, dok (PFloat x). Proof. reflexivity. Qed.
Lemma dok_double : forall x, dok (pdouble x). Proof. reflexivity. Qed.
Lemma dok_none : dok PNone. Proof. reflexivity. Qed.
Lemma dok_list : forall l, Forall dok l -> dok (PList l).
Proof. intros l H. unfold dok. cbn [dumpable]. rewrite forallb_forall. now rewrite Forall_forall in H. Qed.
Lemma dok_dict : forall d, Forall (fun p => tok (fst p) /\ dok (snd p)) d -> dok (PDict d).
Proof.
  intros d H. unfold dok. cbn [dumpable]. rewrite forallb_forall. rewrite Forall_forall in H. intros p I. destruct (H p I) as (H1 & H2).
  unfold tok, dok in *. now rewrite H1, H2.
Qed.
Lemma dok_plist : forall A (f : A -> pyval) l, Forall (fun a => dok (f a)) l -> dok (plist f l).
Proof. intros A f l H. apply dok_list. now apply Forall_map. Qed.
Lemma dok_str_dict : forall A (f : A -> pyval) d, Forall (fun p => tok (fst p) /\ dok (f (snd p))) d -> dok (pstr_dict f d).
Proof. intros A f d H. apply dok_dict. now apply Forall_map. Qed.
Lemma tok_dec_nat : forall n, 0 <= n -> tok (dec_nat n).
Proof.
  intros n Hn. apply tok_iff. unfold dec_nat.
  assert (G : forall fuel n, 0 <= n -> Forall cok (dec_digits fuel n)).
  { induction fuel as [|f IH]; intros m Hm; cbn [dec_digits]; [constructor|]. destruct (m <? 10) eqn:E.
    - constructor; [|constructor]. unfold cok. lia.
    - apply Forall_app. split; [apply IH; apply Z.div_pos; lia|]. constructor; [|constructor].
      pose proof (Z.mod_pos_bound m 10). unfold cok. lia. }
  now apply G.
Qed.
Lemma tok_dec : forall n, tok (dec_str n).
Proof.
  intros n. unfold dec_str. destruct (n <? 0) eqn:E; [|apply tok_dec_nat; lia].
  apply tok_iff. constructor; [unfold cok; lia|]. apply tok_iff, tok_dec_nat. lia.
Qed.
Lemma dok_int_dict : forall A (f : A -> pyval) d, Forall (fun p => dok (f (snd p))) d -> dok (pint_dict f d).
Proof. intros A f d H. apply dok_dict. apply Forall_map. eapply Forall_impl; [|exact H]. intros p Hp. split; [apply tok_dec|exact Hp]. Qed.

(** *** numbers *)
Lemma iok_i8 : forall z, i8 z -> iok z. Proof. unfold i8, iok. lia. Qed.
Lemma iok_i16 : forall z, i16 z -> iok z. Proof. unfold i16, iok. lia. Qed.
Lemma iok_i32 : forall z, i32 z -> iok z. Proof. unfold i32, iok. lia. Qed.
Lemma iok_int16 : forall z, int16 z -> iok z. Proof. unfold int16, iok. lia. Qed.
Lemma iok_int32 : forall z, int32 z -> iok z. Proof. unfold int32, iok. lia. Qed.
Lemma iok_u16 : forall z, u16 z -> iok z. Proof. unfold u16, iok. lia. Qed.
Lemma iok_u32 : forall z, u32 z -> iok z. Proof. unfold u32, iok. lia. Qed.
Lemma iok_w32 : forall z, w32 z -> iok z. Proof. unfold w32, iok. lia. Qed.
Lemma iok_byte : forall z, byteZ z -> iok z. Proof. unfold byteZ, iok. lia. Qed.
Lemma iok_uint8 : forall z, uint8 z -> iok z. Proof. unfold uint8, iok. lia. Qed.
Lemma iok_uint16 : forall z, uint16 z -> iok z. Proof. unfold uint16, iok. lia. Qed.
Lemma iok_uint32 : forall z, uint32 z -> iok z. Proof. unfold uint32, iok. lia. Qed.
Lemma iok_uvalue : forall z, uvalue z -> iok z. Proof. unfold uvalue, iok. lia. Qed.
Lemma iok_nat : forall n, Z.of_nat n < 2 ^ 31 -> iok (Z.of_nat n). Proof. unfold iok. lia. Qed.

(** *** texts *)
Lemma tok_encodable : forall s, encodable s -> tok s.
Proof.
  intros s H. apply tok_iff. eapply Forall_impl; [|exact H]. intros c (b & Hb). unfold cok.
  destruct Hb as (R & Hb). destruct ((0x80 <=? b) && (b <? 0xA0)); [|subst c; lia].
  assert (G : Forall (fun o => match o with Some x => 0 <= x < 0xD800 | None => True end) win1252_high)
    by (unfold win1252_high; repeat (apply Forall_cons; [first [exact Logic.I|lia]|]); apply Forall_nil).
  apply nth_error_In in Hb. rewrite Forall_forall in G. specialize (G _ Hb). cbn beta iota in G. lia.
Qed.
Lemma tok_text : forall s, text s -> tok s. Proof. intros s (H & _). now apply tok_encodable. Qed.
Lemma tok_short : forall s, P_Loop.text_ok s -> tok s. Proof. intros s (H & _). now apply tok_encodable. Qed.
Lemma tok_hex : forall s, hex_text s -> tok s.
Proof. intros s (_ & H). apply tok_iff. eapply Forall_impl; [|exact H]. intros c Hc. cbn beta in Hc. unfold cok. lia. Qed.
Lemma tok_app : forall s t, tok s -> tok t -> tok (s ++ t).
Proof. intros s t H1 H2. apply tok_iff. apply tok_iff in H1, H2. now apply Forall_app. Qed.

Lemma tok_sub : forall s t, incl t s -> tok s -> tok t.
Proof. intros s t I H. apply tok_iff. apply tok_iff in H. rewrite Forall_forall in *. auto. Qed.

Create HintDb dok.
#[local] Hint Resolve dok_int dok_str dok_float dok_double dok_none iok_i8 iok_i16 iok_i32 iok_int16 iok_int32 iok_u16 iok_u32 iok_w32 iok_byte iok_uint8 iok_uint16
  iok_uint32 iok_uvalue tok_dec tok_text tok_short tok_hex tok_encodable : dok.
#[local] Hint Extern 1 (tok (py _)) => reflexivity : dok.
Lemma dok_ints : forall l, Forall iok l -> dok (pints l).
Proof. intros l H. apply dok_plist. eapply Forall_impl; [|exact H]. auto with dok. Qed.
Lemma dok_ints_of : forall (P : Z -> Prop) l, (forall z, P z -> iok z) -> Forall P l -> dok (pints l).
Proof. intros P l H F. apply dok_ints. eapply Forall_impl; [|exact F]. exact H. Qed.
Lemma dok_doubles : forall l, dok (pdoubles l).
Proof. intros l. apply dok_plist. apply Forall_forall. intros. reflexivity. Qed.
Lemma dok_strs : forall l, Forall tok l -> dok (pstrs l).
Proof. intros l H. apply dok_plist. exact H. Qed.
Lemma dok_pair : forall p, iok (fst p) -> iok (snd p) -> dok (ppair p).
Proof. intros p H1 H2. apply dok_list. repeat constructor; auto with dok. Qed.
Definition pok (p : Z * Z) : Prop := iok (fst p) /\ iok (snd p).
Lemma dok_pok : forall p, pok p -> dok (ppair p). Proof. intros p (H1 & H2). now apply dok_pair. Qed.
Lemma dok_pairs : forall l, Forall pok l -> dok (ppairs l).
Proof. intros l H. apply dok_plist. eapply Forall_impl; [|exact H]. exact dok_pok. Qed.
Lemma pok_int32 : forall p, int32_pair p -> pok p. Proof. intros p (H1 & H2). split; auto with dok. Qed.
Lemma Forall_imp : forall A (P Q : A -> Prop) l, Forall P l -> (forall a, P a -> Q a) -> Forall Q l.
Proof. intros A P Q l F H. eapply Forall_impl; [exact H|exact F]. Qed.
#[local] Hint Resolve dok_ints dok_doubles dok_strs dok_pair dok_pok dok_pairs pok_int32 : dok.
Ltac mem := cbn [map fst snd app opt]; repeat first [apply Forall_nil | apply Forall_cons; [split; [reflexivity|cbn [fst snd]]|]].
Ltac drec := unfold pd; apply dok_dict; mem; auto with dok.

(** ** Readers *)
Lemma rps_imp : forall A (r : rd A) (P Q : A -> Prop), rps r P -> (forall a, P a -> Q a) -> rps r Q.
Proof. intros. eapply rps_weaken; eassumption. Qed.
Ltac by_rps L := eapply rps_imp; [apply L|cbv beta; intros].
Ltac conj := repeat match goal with |- _ /\ _ => split end.
Ltac each := eapply Forall_imp; [eassumption|cbv beta; intros].
Definition out {A} (C : A -> value) (r : rd A) : Prop := rps r (fun a => dok (plain_py (C a))).

Lemma d_hex : out DStr parse_hex.
Proof. unfold out, parse_hex. eapply rps_bind; [apply rps_read_all|]. intros b Hb. apply rps_ret. cbn [plain_py]. auto using hex_text_of with dok. Qed.
Lemma lstrip_incl : forall s, incl (lstrip0 s) s.
Proof. induction s as [|c s IH]; [apply incl_refl|]. cbn [lstrip0]. destruct (c =? 0); [apply incl_tl, IH|apply incl_refl]. Qed.
Lemma d_string : out DStr parse_string.
Proof.
  unfold out, parse_string. eapply rps_bind; [apply rps_str_all|]. intros s Hs. apply rps_ret. cbn [plain_py]. apply dok_str.
  eapply tok_sub; [|apply tok_short, Hs]. unfold strip0. intros c H. apply in_rev in H. apply lstrip_incl in H. apply in_rev in H. now apply lstrip_incl in H.
Qed.
Lemma d_fl_version : out DFLVersion parse_fl_version.
Proof.
  by_rps rps_fl_version. destruct H as (P & _ & V & W). cbn [plain_py]. drec.
  - destruct P as [-> | ->]; auto with dok.
  - eapply dok_ints_of; [|exact V]. auto with dok.
Qed.
Lemma d_encoding : out DEncoding parse_encoding.
Proof. by_rps rps_encoding. destruct H as (P & V). cbn [plain_py]. apply dok_list. repeat constructor; auto with dok. Qed.
Lemma d_int16 : out DInt parse_int16. Proof. by_rps rps_uint16. cbn [plain_py]. auto with dok. Qed.
Lemma d_sint16 : out DInt parse_sint16. Proof. by_rps rps_int16. cbn [plain_py]. auto with dok. Qed.
Lemma d_sint32 : out DInt parse_sint32. Proof. by_rps rps_int32. cbn [plain_py]. auto with dok. Qed.
Lemma d_double : out DDouble parse_double.
Proof. unfold out, parse_double. eapply rps_imp; [apply rps_of; [apply tot_double|apply rpost_double]|]. intros. reflexivity. Qed.
Lemma d_doubles : out DDoubles parse_doubles. Proof. by_rps rps_doubles_entry. apply dok_doubles. Qed.
Lemma d_int_list : out DInts parse_int_list. Proof. by_rps rps_int_list. eapply dok_ints_of; [|exact H]. auto with dok. Qed.
Lemma d_panose : out DInts parse_panose. Proof. by_rps rps_panose. destruct H as (_ & H). eapply dok_ints_of; [|exact H]. auto with dok. Qed.
Lemma d_unicode_ranges : out DInts parse_unicode_ranges.
Proof. by_rps rps_unicode_ranges. destruct H as (_ & H). eapply dok_ints_of; [|exact H]. cbv beta. unfold iok. lia. Qed.
Lemma d_values : out DInts parse_values. Proof. by_rps rps_values. eapply dok_ints_of; [|exact H]. auto with dok. Qed.
Lemma d_counted : out DInts parse_counted. Proof. by_rps rps_counted. destruct H as (H & _). eapply dok_ints_of; [|exact H]. auto with dok. Qed.
Lemma d_class_flags : forall n, out DFlags (parse_class_flags n).
Proof.
  intros n. by_rps rps_class_flags. destruct H as (_ & _ & H). cbn [plain_py]. apply dok_str_dict. each. destruct H0 as (H1 & _ & H2).
  split; [auto with dok|]. eapply dok_ints_of; [|exact H2]. auto with dok.
Qed.
Lemma tok_get_or_str : forall t k, Forall (fun p => tok (snd p)) t -> tok (get_or_str t k).
Proof.
  intros t k H. unfold get_or_str. destruct (aget Z.eqb k t) as [s|] eqn:E; [|apply tok_dec]. apply (aget_In Z.eqb Z.eqb_eq) in E.
  rewrite Forall_forall in H. exact (H _ E).
Qed.
Ltac table_tok t := unfold t; repeat first [apply Forall_nil | apply Forall_cons; [reflexivity|]].
Definition all_some {A} (P : A -> Prop) (x : option A) : Prop := forall a, x = Some a -> P a.
Lemma d_mapping_mode : out DMappingMode parse_mapping_mode.
Proof.
  unfold out, parse_mapping_mode.
  apply (rps_loop _ _ _ (fun st => all_some tok (v_mode st) /\ all_some iok (v_m2 st) /\ all_some iok (v_m3 st) /\ all_some iok (v_id st))).
  { conj; intros ? E; discriminate E. }
  intros [a b c d] (Ha & Hb & Hc & Hd). cbn [v_mode v_m2 v_m3 v_id] in *. eapply rps_bind; [apply rps_uint8|]. intros key _.
  apply rps_if; intros _.
  - destruct a as [a|]; [|apply rps_raise]. destruct b as [b|]; [|apply rps_raise]. destruct c as [c|]; [|apply rps_raise].
    destruct d as [d|]; [|apply rps_raise]. apply rps_ret. cbn [plain_py]. specialize (Ha _ eq_refl). specialize (Hb _ eq_refl). specialize (Hc _ eq_refl).
    specialize (Hd _ eq_refl). unfold mapping_mode_py. cbn [mm_mode mm_m2 mm_m3 mm_id]. drec.
  - eapply rps_bind; [apply rps_value|]. intros v Hv. apply iok_i32 in Hv.
    assert (O : forall x : Z, iok x -> all_some iok (Some x)) by (intros x Hx y E; injection E as <-; exact Hx).
    repeat (apply rps_if; intros _); try apply rps_raise; apply rps_ret; cbn [v_mode v_m2 v_m3 v_id]; conj; auto.
    intros y E. injection E as <-. apply tok_get_or_str. table_tok mapping_modes.
Qed.

Lemma d_binary_table : out DBinaryTable parse_binary_table.
Proof. by_rps rps_binary_table. destruct H as (P & V & _). cbn [plain_py]. drec. Qed.
Lemma firstn_sub : forall A n (l : list A) x, In x (firstn n l) -> In x l.
Proof. intros A n l x H. rewrite <- (firstn_skipn n l). apply in_or_app. now left. Qed.
Lemma tok_preview : forall data w, Forall tok (preview data w).
Proof.
  intros data w. unfold preview. apply Forall_map, Forall_forall. intros row _. unfold py_prefix. eapply (tok_sub (flat_map preview_byte row)); [intros c H; eapply firstn_sub; exact H|].
  apply tok_iff, Forall_forall. intros c H. apply in_flat_map in H. destruct H as (r & _ & H). unfold preview_byte in H. apply in_flat_map in H.
  destruct H as (i & _ & H). destruct (Z.testbit r i); cbn in H; unfold cok; lia.
Qed.
Lemma d_bitmap : forall w b, bytes_bitmap w b -> dok (bitmap_py b).
Proof.
  intros w b (H & _ & P). unfold bitmap_py. rewrite P. apply dok_dict. mem.
  - apply dok_plist. each. eapply dok_ints_of; [|exact H0]. auto with dok.
  - apply dok_strs, tok_preview.
Qed.
Lemma pok_of : forall (P : Z -> Prop) p, (forall z, P z -> iok z) -> pair_of P p -> pok p.
Proof. intros P p H (H1 & H2). split; auto. Qed.
Lemma d_background : forall win, out DBackground (parse_background win).
Proof.
  intros win. by_rps rps_background. destruct H as ((H1 & H2 & H3) & B). apply d_bitmap in B. cbn [plain_py]. drec;
  apply dok_pok; eapply pok_of; try eassumption; auto with dok.
Qed.
Lemma d_glyph_bitmaps : forall win, out DBitmaps (parse_glyph_bitmaps win).
Proof.
  intros win. by_rps rps_glyph_bitmaps. destruct H as (H & _). cbn [plain_py]. apply dok_plist. each. destruct H0 as ((H1 & H2 & H3 & H4) & B). apply d_bitmap in B. drec;
  apply dok_pok; eapply pok_of; try eassumption; auto with dok.
Qed.
Lemma d_cmaps : out DCmaps parse_custom_cmaps.
Proof. by_rps rps_cmaps. destruct H as (H & _). cbn [plain_py]. apply dok_plist. each. destruct H0 as (H1 & H2 & H3 & H4 & H5 & H6). drec. Qed.
Lemma d_kern_pair : forall n, out DKernPair (parse_kern_pair n).
Proof.
  intros n. unfold out, parse_kern_pair. eapply rps_bind; [apply rps_uint32|]. intros l Hl. eapply rps_bind; [apply rps_uint32|]. intros r Hr.
  eapply rps_bind; [apply rps_range, rps_int16|]. intros vs (_ & Hv). apply rps_ret. cbn [plain_py]. unfold kern_pair_py. cbn [kp_l kp_r kp_values].
  drec. eapply dok_ints_of; [|exact Hv]. auto with dok.
Qed.
Lemma d_anchors : out DAnchors parse_anchors.
Proof.
  by_rps rps_anchors. destruct H as (_ & n & _ & H). cbn [plain_py]. apply dok_plist. each. destruct H0 as ((_ & H1) & (_ & H2)).
  drec; eapply dok_ints_of; try eassumption; auto with dok.
Qed.
Lemma d_anchor_props : out DAnchorProps parse_anchor_props.
Proof.
  unfold out, parse_anchor_props. eapply rps_bind; [apply rps_value|]. intros n _. eapply rps_imp.
  - apply (rps_range _ _ (fun a => dok (anchor_props_py a))). eapply rps_bind; [apply rps_value|]. intros h Hh. eapply rps_bind; [apply rps_value|]. intros d Hd.
    apply rps_ret. unfold anchor_props_py. cbn [ap_hue ap_data]. drec.
  - cbv beta. intros l (_ & H). cbn [plain_py]. now apply dok_plist.
Qed.
Lemma dok_opt : forall A k (f : A -> pyval) x, tok (py k) -> (forall a, x = Some a -> dok (f a)) -> Forall (fun p => tok (fst p) /\ dok (snd p)) (opt k f x).
Proof. intros A k f [a|] K H; cbn [opt]; constructor; [|constructor]. split; [exact K|]. now apply H. Qed.
Ltac opts := repeat first [apply Forall_nil | apply dok_opt; [reflexivity|intros ? ?] | apply Forall_app; split | apply Forall_cons; [split; [reflexivity|cbn [fst snd]]|]].
Lemma tok_gdef : Forall tok gdef_classes. Proof. unfold gdef_classes. repeat first [apply Forall_nil | apply Forall_cons; [reflexivity|]]. Qed.
Lemma d_gdef : out DGdef parse_gdef.
Proof.
  by_rps rps_gdef. destruct H as ((C & _ & A & _ & R & _ & O) & _). cbn [plain_py]. unfold gdef_py. apply dok_dict. opts.
  - destruct C as [C|[C|(c & C & I)]]; rewrite C in H; try discriminate; injection H as <-; [reflexivity|]. apply dok_str.
    pose proof tok_gdef as T. rewrite Forall_forall in T. auto.
  - rewrite H in A. cbn [or_nil] in A. apply dok_plist. each. destruct H0 as (H1 & H2 & H3). unfold gdef_anchor_py. apply dok_dict. opts; auto with dok.
    rewrite H0 in H1. cbn [or_empty] in H1. auto with dok.
  - rewrite H in R. cbn [or_nil] in R. apply dok_pairs. each. auto with dok.
  - rewrite H in O. cbn [or_nil] in O. eapply dok_ints_of; [|exact O]. auto with dok.
Qed.
Lemma d_origin : out DOrigin parse_int16_pair. Proof. by_rps rps_int16_pair. destruct H. cbn [plain_py]. drec. Qed.
Lemma d_pair : out DPair parse_int16_pair. Proof. by_rps rps_int16_pair. destruct H. cbn [plain_py]. auto with dok. Qed.
Lemma d_sketch : out DSketch parse_sketch.
Proof.
  by_rps rps_sketch. destruct H as (_ & H). cbn [plain_py]. apply dok_plist. each. destruct a0 as [[x y] z]. destruct H0 as (H1 & H2 & H3). cbn [fst snd] in *.
  apply dok_list. repeat constructor; auto with dok.
Qed.
Lemma d_unicodes : out DInts parse_unicodes. Proof. by_rps rps_unicodes. eapply dok_ints_of; [|exact H]. auto with dok. Qed.
Lemma d_unicodes_supp : out DInts parse_unicodes_supp. Proof. by_rps rps_unicodes_supp. eapply dok_ints_of; [|exact H]. auto with dok. Qed.
Lemma d_links : out DLinks parse_links.
Proof. by_rps rps_links. destruct H as (_ & H1 & _ & H2). cbn [plain_py]. drec; apply dok_pairs; each; auto with dok. Qed.
Lemma d_mask_metrics_mm : forall n, out DPairs (parse_mask_metrics_mm (Some n)).
Proof. intros n. by_rps rps_mask_metrics_mm. destruct H as (_ & H). cbn [plain_py]. apply dok_pairs. each. auto with dok. Qed.

Lemma dok_guides : forall o d, Forall (fun l => read_slopes o l) (gs_h d ++ gs_v d) -> dok (guides_py d).
Proof.
  intros o d H. apply Forall_app in H. destruct H as (H1 & H2).
  assert (G : forall l, Forall (fun l => read_slopes o l) l -> dok (plist (plist guide_py) l)).
  { intros l F. apply dok_plist. each. apply dok_plist. eapply Forall_imp; [exact H|]. cbv beta. intros g (P & _). drec. }
  unfold guides_py. drec.
Qed.
Lemma d_guides : forall o n, out DGuides (parse_global_guides o n).
Proof.
  intros o [n|]; unfold out, parse_global_guides; [|apply rps_raise]. eapply rps_bind; [apply rps_guides|]. intros g (_ & _ & H).
  eapply rps_bind; [apply rps_read_all|]. intros b _. unfold rassert. apply rps_bind with (P := fun _ => True); [destruct (Nat.eqb _ _); [now apply rps_ret|apply rps_raise]|].
  intros _ _. apply rps_ret. cbn [plain_py]. eapply dok_guides. each. destruct H0 as (_ & H0). exact H0.
Qed.
Lemma cok_hexc : forall n, 0 <= n < 16 -> cok (hexc n).
Proof. intros n H. unfold hexc, cok. destruct (n <? 10) eqn:E; lia. Qed.
Lemma tok_hex06 : forall n, 0 <= n -> tok (hex06 n).
Proof.
  intros n Hn. apply tok_iff. unfold hex06, hex_nat. apply Forall_app. split; [apply Forall_forall; intros c H; apply repeat_spec in H; subst; unfold cok; lia|].
  assert (G : forall fuel m, 0 <= m -> Forall cok (hex_digits fuel m)).
  { induction fuel as [|f IH]; intros m Hm; cbn [hex_digits]; [constructor|]. destruct (m <? 16) eqn:E.
    - constructor; [|constructor]. apply cok_hexc. lia.
    - apply Forall_app. split; [apply IH; apply Z.div_pos; lia|]. constructor; [|constructor]. apply cok_hexc. apply Z.mod_pos_bound. lia. }
  now apply G.
Qed.
Lemma tok_color : forall v c, guide_color v = Some c -> tok c.
Proof.
  intros v c. unfold guide_color. destruct (-1 <? v) eqn:E; [|discriminate]. intros H. injection H as <-. apply (tok_app (py "#")); [reflexivity|].
  unfold swap_color. assert (T : tok (hex06 v)) by (apply tok_hex06; lia).
  assert (F : forall n, tok (firstn n (hex06 v))) by (intros n; eapply tok_sub; [|exact T]; intros x Hx; eapply firstn_sub; exact Hx).
  assert (K : forall n s, tok s -> tok (skipn n s)).
  { intros n s Ts. eapply tok_sub; [|exact Ts]. intros x Hx. rewrite <- (firstn_skipn n s). apply in_or_app. now right. }
  assert (Fi : forall n s, tok s -> tok (firstn n s)) by (intros n s Ts; eapply tok_sub; [|exact Ts]; intros x Hx; eapply firstn_sub; exact Hx).
  unfold slice_from, slice. repeat apply tok_app; auto.
Qed.
Lemma d_guide_props : out DGuideProps parse_guide_props.
Proof.
  assert (L : rps (rloop guide_props_turn []) (fun l => dok (plist guide_prop_py l))).
  { apply (rps_loop _ _ _ (Forall (fun g => dok (guide_prop_py g)))); [constructor|]. intros l Hl. unfold guide_props_turn. eapply rps_bind; [apply rps_value|]. intros i Hi.
    apply rps_if; intros _; [apply rps_ret; now apply dok_plist|]. eapply rps_bind; [apply rps_value|]. intros c _. eapply rps_bind; [apply rps_str_with_len|]. intros n Hn.
    apply rps_ret. apply Forall_app. split; [exact Hl|]. constructor; [|constructor]. unfold guide_prop_py. cbn [gp_index gp_color gp_name]. apply dok_dict. opts; auto with dok.
    - apply dok_str. eapply tok_color. exact H.
    - destruct n; [discriminate|]. injection H as <-. auto with dok. }
  unfold out, parse_guide_props. eapply rps_bind; [exact L|]. intros h Hh. eapply rps_bind; [exact L|]. intros v Hv. apply rps_ret. cbn [plain_py]. unfold guide_props_py. cbn [gps_h gps_v]. drec.
Qed.
Lemma d_anisotropic : out DAxes parse_anisotropic.
Proof. by_rps rps_anisotropic. cbn [plain_py]. apply dok_plist. each. destruct H0 as (_ & H0). apply dok_pairs. eapply Forall_imp; [exact H0|]. cbv beta. intros p (H1 & H2). split; auto with dok. Qed.
Lemma d_axis_counts : out DInts parse_axis_counts.
Proof. unfold out, parse_axis_counts. eapply rps_imp; [apply rps_repeat, rps_uint32|]. cbv beta. intros l (_ & H). eapply dok_ints_of; [|exact H]. auto with dok. Qed.
Lemma d_axis_mappings : out DDoublePairs parse_axis_mappings.
Proof. by_rps rps_axis_mappings. cbn [plain_py]. apply dok_plist. each. reflexivity. Qed.
Lemma d_master_location : out DMasterLocation parse_master_location.
Proof. by_rps rps_master_location. destruct H as (H & _). cbn [plain_py]. apply dok_list. repeat constructor; auto with dok. Qed.
Lemma d_instances : out DInstances parse_instances.
Proof.
  unfold out, parse_instances. eapply rps_bind; [apply rps_value|]. intros n _. eapply rps_imp.
  - apply (rps_range _ _ (fun i => dok (instance_py i))). unfold parse_instance. eapply rps_bind; [apply rps_str_with_len|]. intros s Hs.
    eapply rps_bind; [apply (rps_repeat _ _ (fun x => dok (pnum x)))|].
    + eapply rps_bind; [apply rps_value|]. intros v _. apply rps_ret. reflexivity.
    + cbv beta. intros vs (_ & Hv). apply rps_ret. unfold instance_py. cbn [in_name in_values]. drec. now apply dok_plist.
  - cbv beta. intros l (_ & H). cbn [plain_py]. now apply dok_plist.
Qed.
Lemma bits_small : forall fuel v k l, binaryToIntList_loop fuel v k = Ok l -> Forall (fun b => k <= b < k + Z.of_nat fuel) l.
Proof.
  induction fuel as [|f IH]; intros v k l E; cbn [binaryToIntList_loop] in E; [discriminate|]. destruct (v =? 0); [injection E as <-; constructor|].
  destruct (binaryToIntList_loop f (Z.shiftr v 1) (k + 1)) as [m|] eqn:G; [|discriminate]. apply IH in G. injection E as <-.
  assert (F : Forall (fun b => k <= b < k + Z.of_nat (Datatypes.S f)) m) by (eapply Forall_imp; [exact G|]; cbv beta; intros; lia).
  destruct (Z.land v 1 =? 1); [|exact F]. constructor; [lia|exact F].
Qed.
Lemma bits_iok : forall v l, v < 2 ^ 64 -> binaryToIntList v 0 = Ok l -> Forall iok l.
Proof.
  intros v l Hv E. apply bits_small in E. assert (Z.log2 v < 64).
  { destruct (Z_lt_le_dec 0 v); [apply Z.log2_lt_pow2; lia|]. rewrite Z.log2_nonpos; lia. }
  eapply Forall_imp; [exact E|]. cbv beta. unfold iok. intros b Hb. lia.
Qed.
Lemma d_export_options : out DOptionList parse_export_options.
Proof.
  unfold out, parse_export_options. eapply rps_bind; [apply rps_uint16|]. intros v Hv.
  eapply rps_bind; [apply rps_lift; intros a Ea; exact Ea|]. intros bits E. apply bits_iok in E; [|unfold u16 in Hv; lia]. apply rps_ret. cbn [plain_py]. apply dok_plist, Forall_map. each.
  unfold export_name. destruct (aget Z.eqb a export_options) as [s|] eqn:G; [|cbn [option_py]; auto with dok]. cbn [option_py]. apply dok_str.
  apply (aget_In Z.eqb Z.eqb_eq) in G. assert (T : Forall (fun p => tok (snd p)) export_options) by table_tok export_options. rewrite Forall_forall in T. exact (T _ G).
Qed.
Lemma d_pclt : out DPclt parse_pclt.
Proof.
  unfold out, parse_pclt. eapply rps_bind; [apply rps_uvalue|]. intros a Ha. do 6 (eapply rps_bind; [apply rps_value|]; intros ? ?).
  eapply rps_bind; [apply rps_str|]. intros tf Htf. eapply rps_bind; [apply rps_repeat, rps_uint8|]. cbv beta. intros cc (_ & Hcc). eapply rps_bind; [apply rps_str|]. intros fn Hfn.
  do 2 (eapply rps_bind; [apply rps_int8|]; intros ? ?). eapply rps_bind; [apply rps_uint8|]. intros ? ?. apply rps_ret. cbn [plain_py]. unfold pclt_py.
  cbn [pc_font_number pc_pitch pc_x_height pc_style pc_type_family pc_cap_height pc_symbol_set pc_typeface pc_complement pc_file_name pc_stroke_weight pc_width_type pc_serif_style].
  drec. eapply dok_ints_of; [|exact Hcc]. auto with dok.
Qed.

Lemma take_named_ok : forall opts bits d r, take_named opts bits = (d, r) -> Forall (fun p => tok (fst p)) opts -> Forall iok bits ->
  Forall (fun p => tok (fst p) /\ iok (snd p)) d /\ Forall iok r.
Proof.
  induction opts as [|[k bit] opts IH]; intros bits d r E T B; cbn [take_named] in E; [injection E as <- <-; split; [constructor|exact B]|].
  apply Forall_cons_iff in T. destruct T as (T1 & T2). destruct (existsb (Z.eqb bit) bits); [|eapply IH; eassumption].
  destruct (take_named opts (filter (fun b => negb (b =? bit)) bits)) as [d' r'] eqn:G. injection E as <- <-.
  destruct (IH _ _ _ G T2) as (D & R).
  { apply Forall_forall. intros x Hx. apply filter_In in Hx. rewrite Forall_forall in B. now apply B. }
  split; [|exact R]. constructor; [|exact D]. split; [exact T1|]. cbn [snd]. unfold iok. lia.
Qed.
Lemma d_ps_options : forall opts r P, Forall (fun p => tok (fst p)) opts -> rps r P -> (forall v, P v -> v < 2 ^ 64) -> out DPSOptions (parse_ps_options opts r).
Proof.
  intros opts r P T R B. unfold out, parse_ps_options. eapply rps_bind; [exact R|]. intros v Hv. eapply rps_bind; [apply rps_lift; intros a Ea; exact Ea|].
  intros bits E. apply bits_iok in E; [|auto]. destruct (take_named opts bits) as [d other] eqn:G. destruct (take_named_ok _ _ _ _ G T E) as (D & O).
  apply rps_ret. cbn [plain_py]. unfold ps_options_py. cbn [po_named po_other]. apply dok_dict. apply Forall_app. split.
  - apply Forall_map. eapply Forall_imp; [exact D|]. cbv beta. intros p (H1 & H2). cbn [fst snd]. auto with dok.
  - mem. auto with dok.
Qed.
Lemma d_ps_global : out DPSOptions parse_ps_global.
Proof. eapply d_ps_options; [table_tok ps_global_options|apply rps_uint16|]. unfold u16. intros. lia. Qed.
Lemma d_ps_glyph : out DPSOptions parse_ps_glyph.
Proof. eapply d_ps_options; [table_tok ps_glyph_options|apply rps_uint32|]. unfold w32. intros. lia. Qed.
Lemma d_ps_info : out DPSInfo parse_ps_info.
Proof.
  by_rps rps_ps_info. red in H. cbn [plain_py]. repeat match goal with H : _ /\ _ |- _ => destruct H | H : array _ _ _ |- _ => destruct H as (_ & ?) end.
  unfold ps_info_py. drec; try (eapply dok_ints_of; [|eassumption]; auto with dok). drec.
Qed.
Lemma splitlines_tok : forall n s cur, (List.length s <= n)%nat -> tok cur -> tok s -> Forall tok (splitlines_from cur s).
Proof.
  induction n as [|n IH]; intros s cur L C S; (destruct s as [|c s]; [cbn [splitlines_from]; destruct cur; repeat constructor; exact C|]); [cbn in L; lia|].
  assert (Sc : cok c /\ tok s) by (apply tok_iff in S; apply Forall_cons_iff in S; destruct S as (S1 & S2); split; [exact S1|now apply tok_iff]). destruct Sc as (Cc & Ts).
  cbn [List.length] in L. cbn [splitlines_from]. destruct (line_break c).
  - constructor; [exact C|]. assert (N : tok []) by reflexivity. destruct s as [|d s]; [apply IH; auto; lia|].
    destruct ((c =? 13) && (d =? 10)); [|apply IH; auto; lia]. apply IH; auto; [cbn in L; lia|].
    apply tok_iff in Ts. apply Forall_cons_iff in Ts. now apply tok_iff.
  - apply IH; auto; [lia|]. apply tok_app; [exact C|]. apply tok_iff. constructor; [exact Cc|constructor].
Qed.
Lemma filter_blank_sub : forall ls c, incl (filter_blank c ls) ls.
Proof.
  induction ls as [|l ls IH]; intros c x H; cbn [filter_blank] in H; [exact H|]. destruct (negb (blank l)); [destruct H as [H|H]; [now left|right; eapply IH; exact H]|].
  destruct (c <? 2); [destruct H as [H|H]; [now left|right; eapply IH; exact H]|right; eapply IH; exact H].
Qed.
Lemma pop_empty_sub : forall rl m, pop_empty rl = Ok m -> incl m rl.
Proof.
  induction rl as [|l rl IH]; intros m E; cbn [pop_empty] in E; [discriminate|]. destruct l; [apply incl_tl, IH, E|]. apply Ok_inj in E. subst m. apply incl_refl.
Qed.
Lemma d_lines : out DLines parse_opentype_string.
Proof.
  unfold out, parse_opentype_string. eapply rps_bind; [apply rps_str_all|]. intros s Hs. apply rps_lift. intros ls E. cbn [plain_py]. apply dok_strs.
  assert (T : Forall tok (splitlines s)) by (apply (splitlines_tok (List.length s)); [lia|reflexivity|now apply tok_short]).
  rewrite Forall_forall in T. assert (N : tok []) by reflexivity. unfold normalize_lines in E.
  destruct (1 <? _).
  - destruct (pop_empty (rev (filter_blank 0 (splitlines s)))) as [rl|] eqn:P; [|discriminate]. cbn [rmap] in E. apply Ok_inj in E. subst ls.
    apply Forall_app. split; [|constructor; [exact N|constructor]]. apply Forall_forall. intros x Hx. apply in_rev in Hx. apply (pop_empty_sub _ _ P) in Hx. apply in_rev in Hx.
    apply filter_blank_sub in Hx. auto.
  - apply Ok_inj in E. subst ls. apply Forall_app. split; [|constructor; [exact N|constructor]]. apply Forall_forall. intros x Hx. apply filter_blank_sub in Hx. auto.
Qed.
Lemma d_gasp : out DGasp parse_gasp.
Proof. by_rps rps_gasp. cbn [plain_py]. apply dok_plist. each. destruct H0 as (H1 & H2). drec. Qed.
Lemma aset_Forall : forall V (P : pystr * V -> Prop) k v d, Forall P d -> P (k, v) -> Forall P (aset str_eqb k v d).
Proof.
  intros V P k v. induction d as [|[a w] d IH]; intros F H; cbn [aset]; [constructor; [exact H|constructor]|]. apply Forall_cons_iff in F. destruct F as (F1 & F2).
  destruct (str_eqb k a) eqn:E; [|constructor; auto]. apply str_eqb_eq in E. subst a. constructor; auto.
Qed.
Lemma d_tt_info : out DTTInfo parse_tt_info.
Proof.
  unfold out, parse_tt_info. eapply rps_imp.
  - apply (rps_loop _ _ _ (Forall (fun p => tok (fst p) /\ dok (tt_value_py (snd p)))) (Forall (fun p => tok (fst p) /\ dok (tt_value_py (snd p))))); [constructor|].
    intros info F. unfold tt_info_turn. eapply rps_bind; [apply rps_uint8|]. intros k _. cbv zeta.
    assert (Sx : forall v, dok (tt_value_py v) -> rps (ret (@inl tt_info tt_info (aset str_eqb (tt_key k) v info)))
      (fun x => match x with inl st' => Forall (fun p => tok (fst p) /\ dok (tt_value_py (snd p))) st' | inr a => Forall (fun p => tok (fst p) /\ dok (tt_value_py (snd p))) a end)).
    { intros v Hv. apply rps_ret. apply aset_Forall; [exact F|]. split; [|exact Hv]. cbn [fst]. unfold tt_key.
      change (tok (get_or_str ttinfo_names k)). apply tok_get_or_str. table_tok ttinfo_names. }
    assert (U : forall key, rps (assert_unique info key) (fun _ => True)).
    { intros key. unfold assert_unique. destruct (aget str_eqb key info); [apply rps_raise|now apply rps_ret]. }
    apply rps_if; intros _; [apply rps_ret; exact F|].
    apply rps_if; intros _; [eapply rps_bind; [apply U|]; intros _ _; eapply rps_bind; [apply rps_value|]; intros v Hv; apply Sx; cbn [tt_value_py]; auto with dok|].
    apply rps_if; intros _.
    { eapply rps_bind; [apply U|]. intros _ _. eapply rps_bind; [apply rps_value|]. intros v Hv. eapply rps_bind; [apply rps_lift; intros a Ea; exact Ea|]. intros fo E.
      apply Sx. unfold convert_int_to_flags_options in E. unfold i32 in Hv.
      destruct (binaryToIntList (Z.land v 0xFFFF) 0) as [fl|] eqn:E1; [|discriminate]. cbn [rthen] in E.
      destruct (binaryToIntList (Z.shiftr v 16) 0) as [op|] eqn:E2; [|discriminate]. cbn [rthen] in E. apply Ok_inj in E. subst fo. cbn [tt_value_py].
      apply bits_iok in E1; [|change 0xFFFF with (Z.ones 16); rewrite Z.land_ones by lia; pose proof (Z.mod_pos_bound v (2 ^ 16)); lia]. drec. apply dok_strs, Forall_map, Forall_forall. intros i _.
      unfold tt_option_name. change (tok (get_or_str tt_settings i)). apply tok_get_or_str. table_tok tt_settings. }
    apply rps_if; intros _.
    { eapply rps_bind; [apply U|]. intros _ _. eapply rps_bind; [apply rps_repeat, rps_uint8|]. cbv beta. intros l (_ & Hl). apply Sx. cbn [tt_value_py]. eapply dok_ints_of; [|exact Hl]. auto with dok. }
    apply rps_if; intros _.
    { eapply rps_bind; [apply U|]. intros _ _. eapply rps_bind; [apply rps_value|]. intros n _. eapply rps_bind; [apply rps_range, rps_uint8|]. cbv beta. intros l (_ & Hl). apply Sx. cbn [tt_value_py].
      eapply dok_ints_of; [|exact Hl]. auto with dok. }
    apply rps_if; intros _; [|apply rps_ret; exact F].
    eapply rps_bind; [apply U|]. intros _ _. eapply rps_bind; [apply rps_uvalue|]. intros r1 H1. eapply rps_bind; [apply rps_uvalue|]. intros r2 H2. apply Sx. cbn [tt_value_py]. drec.
  - cbv beta. intros d H. cbn [plain_py]. now apply dok_str_dict.
Qed.
Lemma dok_stems : forall d, Forall (fun s => dok (tt_stem_py s)) (tts_v d) -> Forall (fun s => dok (tt_stem_py s)) (tts_h d) -> dok (tt_stems_py d).
Proof. intros d H1 H2. unfold tt_stems_py. drec; now apply dok_plist. Qed.
Lemma d_stems : out DStems parse_tt_stems.
Proof.
  assert (G : forall s, wf_stem s -> dok (tt_stem_py s)).
  { intros s (w & n & p & -> & H1 & H2 & H3 & _). unfold tt_stem_py. cbn [ts_value ts_name ts_stem ts_round]. apply dok_dict. mem; auto with dok.
    apply dok_int_dict. constructor; [cbn [snd]; auto with dok|constructor]. }
  by_rps rps_stems. destruct H as (H1 & _ & H2 & _). apply dok_stems; each; auto.
Qed.
Lemma d_zones : out DZones parse_tt_zones.
Proof.
  by_rps rps_zones. destruct H as (t & b & -> & (H1 & _) & (H2 & _)). cbn [plain_py]. unfold tt_zones_py. cbn [tz_top tz_bottom].
  assert (G : forall z, wf_zone z -> dok (tt_zone_py z)) by (intros z (Z1 & Z2 & Z3); drec). apply dok_dict. mem; apply dok_plist; each; auto.
Qed.
Lemma d_vdmx : out DVdmx parse_vdmx.
Proof. by_rps rps_vdmx. destruct H as (_ & H). cbn [plain_py]. apply dok_plist. each. destruct H0 as (H1 & H2 & H3). drec. Qed.
Lemma d_deltas : out DDeltas parse_zone_deltas.
Proof.
  by_rps rps_deltas. destruct H as ((_ & H & _) & _). cbn [plain_py]. apply dok_int_dict. each. destruct H0 as (_ & _ & H0). apply dok_int_dict. eapply Forall_imp; [exact H0|]. cbv beta.
  intros p (_ & Hp). auto with dok.
Qed.
Lemma d_font_options : out DFontOptions parse_font_options.
Proof.
  set (P := fun p : pystr * opt_val => tok (fst p) /\ dok (opt_val_py (snd p))).
  unfold out, parse_font_options. eapply rps_bind; [apply rps_key_values|]. intros l Hl. apply rps_ret. cbn [plain_py]. apply dok_str_dict.
  change (Forall P (post_process (collect_options l))).
  assert (C : Forall P (collect_options l)).
  { unfold collect_options. assert (O : Forall P []) by constructor. revert O. generalize (@nil (pystr * opt_val)) as d.
    induction l as [|p l IH]; intros d O; cbn [fold_left]; [exact O|]. apply Forall_cons_iff in Hl. destruct Hl as ((_ & _ & Hp) & Hl). apply IH; [exact Hl|].
    apply aset_Forall; [exact O|]. split; [cbn [fst]; apply tok_get_or_str; table_tok font_options|cbn [snd opt_val_py]; auto with dok]. }
  assert (U : forall k f d, Forall P d -> (forall k v, P (k, v) -> P (k, f v)) -> Forall P (update_option k f d)).
  { intros k f d H G. unfold update_option. destruct (aget str_eqb k d) as [v|] eqn:E; [|exact H]. apply aset_Forall; [exact H|]. apply G.
    apply (aget_In str_eqb str_eqb_eq) in E. rewrite Forall_forall in H. exact (H _ E). }
  assert (Fl : forall t v, Forall (fun p => tok (fst p)) t -> Forall (fun p => tok (fst p) /\ dok (PInt (snd p))) (unpack_flags t v)).
  { intros t v H. unfold unpack_flags. apply Forall_map. eapply Forall_imp; [exact H|]. cbv beta. intros p Hp. cbn [fst snd]. split; [exact Hp|]. unfold flag_of. destruct (_ =? 0); reflexivity. }
  unfold post_process. repeat apply U; try exact C; intros k [z|x|d] (H1 & H2); (split; [exact H1|]); cbn [snd to_ratio to_autohint to_expand_kern opt_val_py]; try exact H2; try reflexivity; apply dok_str_dict.
  - unfold unpack_autohint. constructor; [|apply Fl; table_tok autohint_flags]. cbn [fst snd]. split; [reflexivity|]. apply dok_int. change 7 with (Z.ones 3). rewrite Z.land_ones by lia.
    pose proof (Z.mod_pos_bound z (2 ^ 3)). unfold iok. lia.
  - apply Fl. table_tok expand_kern_table.
Qed.

(** ** Sums: what is left of the entry bounds the number of terms *)
Definition lps {A} (k : Z) (r : rd A) (Q : Z -> A -> Prop) : Prop :=
  forall s a s', small s -> Z.of_nat (List.length s) <= k -> r s = ROk a s' -> small s' /\ Z.of_nat (List.length s') <= Z.of_nat (List.length s) /\ Q (Z.of_nat (List.length s')) a.
Lemma lps_ret : forall A (a : A) k (Q : Z -> A -> Prop), (forall m, 0 <= m <= k -> Q m a) -> lps k (ret a) Q.
Proof. intros A a k Q H s a' s' Hs L E. unfold ret in E. inversion E; subst. split; [exact Hs|]. split; [lia|]. apply H. lia. Qed.
Lemma lps_raise : forall A e k (Q : Z -> A -> Prop), lps k (rraise e) Q. Proof. intros A e k Q s a s' _ _ E. discriminate. Qed.
Lemma lps_of : forall A (r : rd A) (P : A -> Prop) k, tot r -> rps r P -> lps k r (fun m a => m <= k /\ P a).
Proof.
  intros A r P k T H s a s' Hs L E. destruct (H _ _ _ Hs E) as (Pa & S'). pose proof (tot_length _ _ s T (proj1 Hs)) as G. rewrite E in G. cbn [rest_of] in G.
  split; [exact S'|]. split; [lia|]. split; [lia|exact Pa].
Qed.
Lemma lps_prog : forall A (r : rd A) (P : A -> Prop) k, tot r -> prog r -> rps r P -> lps k r (fun m a => m < k /\ P a).
Proof.
  intros A r P k T G H s a s' Hs L E. destruct (H _ _ _ Hs E) as (Pa & S'). apply G in E; [|exact (proj1 Hs)]. split; [exact S'|]. split; [lia|]. split; [lia|exact Pa].
Qed.
Lemma lps_bind : forall A B (r : rd A) (f : A -> rd B) k Q R, lps k r Q -> (forall m a, m <= k -> Q m a -> lps m (f a) R) -> lps k (rbind r f) R.
Proof.
  intros A B r f k Q R Hr Hf s b s' Hs L E. unfold rbind in E. destruct (r s) as [a s1|] eqn:E1; [|discriminate]. destruct (Hr _ _ _ Hs L E1) as (S1 & L1 & Qa).
  assert (M : Z.of_nat (List.length s1) <= k) by lia.
  destruct (Hf _ a M Qa _ _ _ S1 (Z.le_refl _) E) as (S2 & L2 & Rb). split; [exact S2|]. split; [lia|exact Rb].
Qed.
Lemma lps_rps : forall A (r : rd A) (P : A -> Prop), (forall k, k < 2 ^ 31 -> lps k r (fun _ a => P a)) -> rps r P.
Proof. intros A r P H s a s' Hs E. destruct (H (Z.of_nat (List.length s)) (proj2 Hs) _ _ _ Hs (Z.le_refl _) E) as (S & _ & Pa). auto. Qed.
Lemma lps_imp : forall A (r : rd A) k (P Q : Z -> A -> Prop), lps k r P -> (forall m a, 0 <= m -> P m a -> Q m a) -> lps k r Q.
Proof. intros A r k P Q H G s a s' Hs L E. destruct (H _ _ _ Hs L E) as (H1 & H2 & H3). split; [exact H1|]. split; [exact H2|]. apply G; [lia|exact H3]. Qed.
Lemma lps_times : forall St (I : Z -> St -> Prop) (f : St -> rd St), (forall m m' st, m' <= m -> I m st -> I m' st) ->
  (forall m st, I m st -> lps m (f st) I) -> forall n k st, I k st -> lps k (rtimes n f st) I.
Proof.
  intros St I f A H. induction n as [|n IH]; intros k st Hst; cbn [rtimes]; [apply lps_ret; intros m Hm; eapply A; [|exact Hst]; lia|].
  eapply lps_bind; [apply H; exact Hst|]. intros m a _ Ha. apply IH. exact Ha.
Qed.

Definition near (m : Z) (p : Z * Z) : Prop := Z.abs (fst p) <= 2 ^ 31 * (2 ^ 31 - m) /\ Z.abs (snd p) <= 2 ^ 31 * (2 ^ 31 - m).
Lemma near_le : forall m m' p, m' <= m -> near m p -> near m' p. Proof. intros m m' p H (H1 & H2). unfold near. nia. Qed.
Lemma nears_le : forall m m' l, m' <= m -> Forall (near m) l -> Forall (near m') l.
Proof. intros m m' l H F. eapply Forall_imp; [exact F|]. intros p Hp. eapply near_le; eassumption. Qed.
Lemma near_pok : forall m p, 0 <= m -> near m p -> pok p. Proof. intros m p H (H1 & H2). unfold pok, iok. nia. Qed.
Lemma near_add : forall m m' p q, m' < m -> near m p -> int32_pair q -> near m' (padd p q).
Proof. intros m m' [x y] [u v] H (H1 & H2) (H3 & H4). unfold near, padd, int32 in *. cbn [fst snd] in *. nia. Qed.
Lemma map2_near : forall m m' ref rel, m' < m -> Forall (near m) ref -> Forall int32_pair rel -> Forall (near m') (map2 padd ref rel).
Proof.
  intros m m'. induction ref as [|p ref IH]; intros [|q rel] H F G; cbn [map2]; try constructor.
  - apply Forall_cons_iff in F, G. destruct F, G. eapply near_add; eassumption.
  - apply Forall_cons_iff in F, G. destruct F, G. apply IH; assumption.
Qed.
Lemma l_row : forall n ref k, Forall (near k) ref -> lps k (read_row n ref) (fun m row => Forall (near m) row).
Proof.
  intros n ref k F. unfold read_row. apply (lps_bind _ _ _ _ _ (fun m rel => (m < k \/ rel = []) /\ Forall int32_pair rel)).
  - intros s rel s' Hs L E. destruct (rps_range _ _ _ n rps_pair _ _ _ Hs E) as ((Ln & G) & S'). pose proof (range_prog _ _ _ _ _ _ tot_pair prog_pair (proj1 Hs) E) as B.
    split; [exact S'|]. split; [lia|]. split; [|exact G]. destruct rel; [now right|]. left. cbn [List.length] in Ln. lia.
  - intros m rel Hm (D & G). apply lps_ret. intros m' Hm'. destruct D as [D|D]; [|subst rel; destruct ref; constructor].
    eapply map2_near; [|exact F|exact G]. lia.
Qed.
Lemma add_row_near : forall m m' pts row, m' <= m -> Forall (Forall (near m)) pts -> Forall (near m') row -> Forall (Forall (near m')) (add_row pts row).
Proof.
  intros m m'. unfold add_row. induction pts as [|ps pts IH]; intros [|p row] H F G; cbn [map2]; try constructor.
  - apply Forall_cons_iff in F, G. destruct F as (F1 & F2), G. apply Forall_app. split; [eapply nears_le; eassumption|]. constructor; [assumption|constructor].
  - apply Forall_cons_iff in F, G. destruct F, G. apply IH; assumption.
Qed.
Lemma dok_node : forall m c f pts, 0 <= m -> iok f -> Forall (Forall (near m)) pts -> dok (node_py (MMNode c f pts)).
Proof.
  intros m c f pts Hm Hf H. unfold node_py. cbn [nd_type nd_flags nd_points]. drec.
  - destruct c; reflexivity.
  - apply dok_plist. each. apply dok_pairs. eapply Forall_imp; [exact H0|]. intros p. now apply near_pok.
Qed.
Definition nodes_inv (m : Z) (st : list mm_node * list (Z * Z)) : Prop := Forall (fun n => dok (node_py n)) (fst st) /\ Forall (near m) (snd st).
Lemma l_outlines_turn : forall n m st, nodes_inv m st -> lps m (outlines_turn n st) nodes_inv.
Proof.
  intros n k [segs ref] (D & F). cbn [fst snd] in *. unfold outlines_turn.
  eapply lps_bind; [apply (lps_of _ _ _ _ tot_uint8 rps_uint8)|]. intros k1 b L1 (_ & Hb).
  eapply lps_bind; [apply (lps_of _ _ (fun _ => True)); [apply tot_path_command|]; apply rps_lift; intros; exact Logic.I|]. intros k2 c L2 _. cbv zeta.
  assert (Fl : iok (Z.shiftr b 4)).
  { rewrite Z.shiftr_div_pow2 by lia. change (2 ^ 4) with 16. unfold byteZ in Hb. unfold iok. lia. }
  eapply lps_bind; [apply l_row; eapply nears_le; [|exact F]; lia|]. cbv beta. intros m1 r1 M1 R1.
  assert (P0 : Forall (Forall (near m1)) (repeat [] (Z.to_nat n))) by (apply Forall_forall; intros x Hx; apply repeat_spec in Hx; subst x; constructor).
  assert (P1 : Forall (Forall (near m1)) (add_row (repeat [] (Z.to_nat n)) r1)) by (eapply add_row_near; [|exact P0|exact R1]; lia).
  assert (Ad : forall m r pts, m <= m1 -> Forall (Forall (near m)) pts -> Forall (near m) r -> lps m (ret (segs ++ [MMNode c (Z.shiftr b 4) pts], r)) nodes_inv).
  { intros m r pts M P R. apply lps_ret. intros m' Hm'. split; cbn [fst snd]; [|eapply nears_le; [|exact R]; lia]. apply Forall_app. split; [exact D|].
    constructor; [|constructor]. apply (dok_node m); [lia|exact Fl|exact P]. }
  destruct c; try (apply Ad; [lia|exact P1|exact R1]).
  eapply lps_bind; [apply l_row; exact R1|]. cbv beta. intros m2 r2 M2 R2.
  eapply lps_bind; [apply l_row; exact R2|]. cbv beta. intros m3 r3 M3 R3.
  assert (P2 : Forall (Forall (near m2)) (add_row (add_row (repeat [] (Z.to_nat n)) r1) r2)) by (eapply add_row_near; [|exact P1|exact R2]; lia).
  assert (P3 : Forall (Forall (near m3)) (add_row (add_row (add_row (repeat [] (Z.to_nat n)) r1) r2) r3)) by (eapply add_row_near; [|exact P2|exact R3]; lia).
  apply Ad; [lia|exact P3|exact R3].
Qed.
Lemma near_0 : forall k, k < 2 ^ 31 -> near k (0, 0). Proof. intros k H. unfold near. cbn [fst snd Z.abs]. nia. Qed.
Lemma nodes_inv_le : forall m m' st, m' <= m -> nodes_inv m st -> nodes_inv m' st.
Proof. intros m m' st H (D & F). split; [exact D|]. eapply nears_le; eassumption. Qed.
Lemma r_outlines : rps parse_outlines (fun r => iok (fst r) /\ Forall (fun n => dok (node_py n)) (snd r)).
Proof.
  unfold parse_outlines. eapply rps_bind; [apply rps_uvalue|]. intros n Hn. eapply rps_bind; [apply rps_value|]. intros _ _. eapply rps_bind; [apply rps_value|]. intros k _.
  eapply rps_bind.
  - apply (lps_rps _ _ (fun st => Forall (fun n => dok (node_py n)) (fst st))). intros m Hm. eapply lps_imp.
    + apply (lps_times _ nodes_inv); [exact nodes_inv_le|intros; now apply l_outlines_turn|]. split; [constructor|]. cbn [snd]. apply Forall_forall. intros x Hx. apply repeat_spec in Hx. subst x. now apply near_0.
    + intros ? ? _ (H & _). exact H.
  - cbv beta. intros st H. apply rps_ret. cbn [fst snd]. auto with dok.
Qed.
Lemma d_global_mask : out DGlobalMask parse_global_mask.
Proof.
  unfold out, parse_global_mask. eapply rps_bind; [apply r_outlines|]. cbv beta. intros [n l] (H1 & H2). apply rps_ret. cbn [plain_py fst snd] in *. unfold outlines_py. cbn [mo_num_masters mo_nodes].
  apply dok_dict. mem; auto with dok. now apply dok_plist.
Qed.
Lemma d_mask : out DMask parse_mask.
Proof.
  unfold out, parse_mask. eapply rps_bind; [apply rps_value|]. intros n _. eapply rps_bind.
  - apply (rps_range _ _ (fun x => dok (pnum x))). eapply rps_bind; [apply rps_value|]. intros v _. apply rps_ret. reflexivity.
  - cbv beta. intros w (_ & W). eapply rps_bind; [apply r_outlines|]. cbv beta. intros [k l] (H1 & H2). apply rps_ret. cbn [plain_py fst snd] in *. unfold mask_py, outlines_py.
    cbn [mk_weight_vector mk_outlines mo_num_masters mo_nodes]. apply dok_dict. mem; auto with dok; now apply dok_plist.
Qed.
(** *** stems *)
Lemma foldM_iok : forall ks d, Forall (fun p => iok (snd p)) d -> rps (rfoldM (fun d k => ppm <- read_value ;; ret (aset Z.eqb k ppm d)) d ks) (Forall (fun p => iok (snd p))).
Proof.
  induction ks as [|k ks IH]; intros d D; cbn [rfoldM]; [now apply rps_ret|]. eapply rps_bind; [|intros d' D'; apply IH; exact D'].
  eapply rps_bind; [apply rps_value|]. intros v Hv. apply rps_ret. clear IH. induction d as [|[a w] d IH]; cbn [aset].
  - constructor; [cbn [snd]; auto with dok|constructor].
  - apply Forall_cons_iff in D. destruct D as (D1 & D2). destruct (k =? a); constructor; auto. cbn [snd]. auto with dok.
Qed.
Definition stems_inv (m : Z) (st : list tt_stem * list (Z * Z)) : Prop :=
  Forall (fun s => dok (tt_stem_py s)) (fst st) /\ Forall (fun p => iok (snd p)) (snd st) /\ Z.of_nat (List.length (fst st)) <= 2 ^ 31 - m.
Lemma l_ppems_turn : forall ks m st, ks <> [] -> 0 <= m -> stems_inv m st -> lps m (ppems_turn ks st) stems_inv.
Proof.
  intros ks m [dir d] N Hm (D & P & L). cbn [fst snd] in *. unfold ppems_turn. eapply lps_bind; [apply (lps_prog _ _ (Forall (fun p => iok (snd p))))|].
  - apply tot_foldM. intros. tot_auto.
  - destruct ks as [|k ks]; [now elim N|]. cbn [rfoldM]. apply prog_bind_l; [apply prog_bind_l; [apply prog_value|apply tot_value|]; intros; tot_auto|tot_auto|]. intros. apply tot_foldM. intros. tot_auto.
  - apply foldM_iok. exact P.
  - cbv beta. intros m' d' M (M' & D'). apply lps_ret. intros m2 Hm2. split; [|split]; cbn [fst snd].
    + apply Forall_app. split; [exact D|]. constructor; [|constructor]. unfold tt_stem_py. cbn [ts_value ts_name ts_stem ts_round opt app]. apply dok_dict. mem; [apply dok_int; unfold iok; lia|].
      apply dok_int_dict. eapply Forall_imp; [exact D'|]. auto with dok.
    + exact D'.
    + rewrite app_length. cbn [List.length]. lia.
Qed.
Lemma r_ppems_dir : forall ks n, ks <> [] -> rps (parse_ppems_dir ks n) (Forall (fun s => dok (tt_stem_py s))).
Proof.
  intros ks n N. unfold parse_ppems_dir. eapply rps_bind.
  - apply (lps_rps _ _ (fun st => Forall (fun s => dok (tt_stem_py s)) (fst st))). intros m Hm.
    destruct (Z_lt_le_dec m 0) as [G|G]; [intros s a s' _ L; lia|]. eapply lps_imp.
    + apply (lps_times _ (fun m st => stems_inv (Z.max 0 m) st)).
      * intros a b st H (H1 & H2 & H3). repeat split; auto. lia.
      * intros k st H. destruct (Z_lt_le_dec k 0) as [K|K]; [intros s a s' _ L; lia|]. eapply lps_imp; [apply l_ppems_turn; [exact N|exact K|]|].
        -- now rewrite Z.max_r in H by lia.
        -- cbv beta. intros k' st' K' H'. now rewrite Z.max_r by lia.
      * split; [constructor|]. split; [constructor|]. cbn [fst List.length]. lia.
    + cbv beta. intros k st _ (H & _). exact H.
  - cbv beta. intros st H. now apply rps_ret.
Qed.
Lemma d_ppems : forall ks, ks <> [] -> out DStems (parse_ppems ks).
Proof.
  intros ks N. unfold out, parse_ppems. eapply rps_bind; [apply rps_value|]. intros nv _. eapply rps_bind; [apply r_ppems_dir; exact N|]. intros v V.
  eapply rps_bind; [apply rps_value|]. intros nh _. eapply rps_bind; [apply r_ppems_dir; exact N|]. intros h H. apply rps_ret. cbn [plain_py]. now apply dok_stems.
Qed.
Lemma d_ppems1 : forall a b, out DStems (parse_stem_ppems1 a b).
Proof.
  intros [nv|] b; unfold out, parse_stem_ppems1; [|apply rps_raise]. eapply rps_bind; [apply r_ppems_dir; discriminate|]. intros v V.
  destruct b as [nh|]; [|apply rps_raise]. eapply rps_bind; [apply r_ppems_dir; discriminate|]. intros h H. apply rps_ret. cbn [plain_py]. now apply dok_stems.
Qed.

(** *** glyphs *)
Definition bnodes_inv (m : Z) (st : list binary_node * (Z * Z)) : Prop := Forall (fun n => dok (binary_node_py n)) (fst st) /\ near m (snd st).
Lemma l_binary_nodes : forall m st, bnodes_inv m st -> lps m (binary_nodes_turn st) bnodes_inv.
Proof.
  intros k [nodes p] (D & N). cbn [fst snd] in *. unfold binary_nodes_turn.
  eapply lps_bind; [apply (lps_prog _ _ _ _ tot_pair prog_pair rps_pair)|]. cbv beta. intros k1 d L1 (M1 & Hd).
  eapply lps_bind; [apply (lps_of _ _ _ _ tot_uint8 rps_uint8)|]. intros k2 f L2 (_ & Hf). cbv zeta.
  apply lps_ret. intros m Hm. assert (P : near m (padd p d)) by (eapply near_add; [|exact N|exact Hd]; lia). split; cbn [fst snd]; [|exact P].
  apply Forall_app. split; [exact D|]. constructor; [|constructor]. unfold binary_node_py. cbn [bn_flags bn_on bn_point]. drec.
  - apply dok_int. change 1 with (Z.ones 1). rewrite Z.land_ones by lia. unfold iok. pose proof (Z.mod_pos_bound f (2 ^ 1) ltac:(lia)). lia.
  - apply dok_pok. eapply near_pok; [|exact P]. lia.
Qed.
Lemma r_binary_nodes : forall n, rps (rtimes n binary_nodes_turn ([], (0, 0))) (fun st => Forall (fun n => dok (binary_node_py n)) (fst st)).
Proof.
  intros n. apply lps_rps. intros k Hk. eapply lps_imp; [apply (lps_times _ bnodes_inv)|].
  - intros m m' st H (H1 & H2). split; [exact H1|]. eapply near_le; eassumption.
  - exact l_binary_nodes.
  - split; [constructor|]. now apply near_0.
  - intros ? ? _ (H & _). exact H.
Qed.
Definition asm_texts (o : oracles) : Prop := forall b l, o_asm o b = Ok l -> Forall tok l.
Definition metrics_ok (m : imported_metrics) : Prop :=
  iok (ib_width m) /\ iok (ib_lsb m) /\ iok (ib_unknown1 m) /\ iok (ib_unknown2 m) /\ iok (ib_unknown3 m) /\ Forall iok (ib_bbox m).
Definition imp_ok (i : imported) : Prop :=
  all_some metrics_ok (im_metrics i) /\ all_some (fun c => iok (fst c) /\ Forall iok (snd c)) (im_contours i) /\
  all_some (Forall (fun n => dok (binary_node_py n))) (im_nodes i) /\ all_some (Forall tok) (im_instructions i) /\ all_some (Forall iok) (im_hdmx i).
Lemma some_all : forall A (P : A -> Prop) a, P a -> all_some P (Some a). Proof. intros A P a H b E. injection E as <-. exact H. Qed.
Lemma none_all : forall A (P : A -> Prop), all_some P None. Proof. intros A P b E. discriminate. Qed.
Lemma rps_lift_eq : forall A (x : res A), rps (rlift x) (fun a => x = Ok a).
Proof. intros A [a|e] s b s' Hs E; [injection E as <- <-; auto|discriminate]. Qed.
Lemma r_binary : forall o, asm_texts o -> rps (parse_binary o) imp_ok.
Proof.
  intros o T. unfold parse_binary. apply (rps_loop _ _ _ imp_ok).
  - unfold imp_ok. cbn [empty_imported im_metrics im_contours im_nodes im_instructions im_hdmx]. conj; apply none_all.
  - intros i H. pose proof H as (I1 & I2 & I3 & I4 & I5). unfold binary_turn. eapply rps_bind; [apply rps_uint8|]. intros k _.
    apply rps_if; intros _; [apply rps_ret; exact H|].
    apply rps_if; intros _.
    { eapply rps_bind; [apply rps_uvalue|]. intros w Hw. do 4 (eapply rps_bind; [apply rps_value|]; intros ? ?). eapply rps_bind; [apply rps_repeat, rps_value|]. intros bb (_ & B).
      apply rps_ret. unfold imp_ok. cbn [im_metrics im_contours im_nodes im_instructions im_hdmx]. conj; try assumption. apply some_all. unfold metrics_ok.
      cbn [ib_width ib_lsb ib_unknown1 ib_unknown2 ib_unknown3 ib_bbox]. conj; auto with dok. each. auto with dok. }
    apply rps_if; intros _.
    { eapply rps_bind; [apply rps_value|]. intros n Hn. eapply rps_bind; [apply rps_range, rps_uvalue|]. intros e (_ & He). eapply rps_bind; [apply rps_uvalue|]. intros nn _.
      eapply rps_bind; [apply r_binary_nodes|]. cbv beta. intros [nodes q] N. cbn [fst] in *. apply rps_ret. unfold imp_ok. cbn [im_metrics im_contours im_nodes im_instructions im_hdmx].
      conj; try assumption.
      - apply some_all. cbn [fst snd]. split; [auto with dok|]. each. auto with dok.
      - destruct nodes; [exact I3|]. now apply some_all. }
    apply rps_if; intros _.
    { eapply rps_bind; [apply rps_uvalue|]. intros n _. eapply rps_bind; [apply rps_true; tot_auto|]. intros b _. eapply rps_bind; [apply rps_lift_eq|]. intros l E. apply T in E.
      apply rps_ret. unfold imp_ok. cbn [im_metrics im_contours im_nodes im_instructions im_hdmx]. conj; try assumption. now apply some_all. }
    apply rps_if; intros _.
    { eapply rps_bind; [apply rps_value|]. intros n _. eapply rps_bind; [apply rps_range, rps_uint8|]. intros l (_ & L). apply rps_ret. unfold imp_ok.
      cbn [im_metrics im_contours im_nodes im_instructions im_hdmx]. conj; try assumption. apply some_all. each. auto with dok. }
    apply rps_raise.
Qed.
Definition kv_ok (p : pystr * pyval) : Prop := tok (fst p) /\ dok (snd p).
Lemma imp_items : forall i, imp_ok i -> Forall kv_ok (imported_items i).
Proof.
  intros i (I1 & I2 & I3 & I4 & I5). unfold imported_items. apply Forall_app. split; [|apply Forall_app; split; [|unfold kv_ok; opts]].
  - destruct (im_metrics i) as [m|]; [|constructor]. destruct (I1 m eq_refl) as (H1 & H2 & H3 & H4 & H5 & H6). unfold kv_ok. mem; auto with dok.
  - destruct (im_contours i) as [[n l]|]; [|constructor]. destruct (I2 _ eq_refl) as (H1 & H2). cbn [fst snd] in *. unfold kv_ok. mem; auto with dok.
  - apply dok_plist. now apply I3.
  - apply dok_strs. now apply I4.
  - apply dok_ints. now apply I5.
Qed.
Lemma dok_hints : forall h, Forall (Forall int32_pair) (mh_h h) -> Forall (Forall int32_pair) (mh_v h) -> Forall wf_hintmask (or_nil (mh_masks h)) -> dok (hints_py h).
Proof.
  intros h H1 H2 H3. assert (G : forall l, Forall (Forall int32_pair) l -> dok (plist (plist hint_py) l)).
  { intros l F. apply dok_plist. each. apply dok_plist. each. destruct H0. unfold hint_py. drec. }
  unfold hints_py. apply dok_dict. opts; auto. apply dok_plist. rewrite H in H3. cbn [or_nil] in H3. eapply Forall_imp; [exact H3|]. intros [k z] (K & V). unfold hintmask_py. cbn [fst snd] in *.
  apply dok_list. constructor; [|constructor; [auto with dok|constructor]]. apply dok_str. cbn [In] in K. destruct K as [<-|[<-|[<-|[]]]]; reflexivity.
Qed.
Lemma dok_component : forall c, read_component c -> dok (component_py c).
Proof. intros c (H1 & H2 & H3 & _). unfold component_py. drec; try apply dok_doubles; apply dok_ints; each; auto with dok. Qed.
Lemma dok_instruction : forall i, wf_instruction i -> dok (instruction_py i).
Proof.
  intros i (ps & K & P & V).
  assert (T : tok (in_cmd i) /\ Forall tok ps).
  { assert (A : Forall (fun e => tok (fst e) /\ Forall tok (snd e)) hinting_commands).
    { unfold hinting_commands. repeat first [apply Forall_nil | apply Forall_cons; [split; [reflexivity|cbn [snd]; repeat first [apply Forall_nil | apply Forall_cons; [reflexivity|]]]|]]. }
    rewrite Forall_forall in A. exact (A _ K). }
  destruct T as (T1 & T2). assert (Q : Forall tok (map fst (in_params i))) by (eapply Permutation_Forall; [apply Permutation_sym; exact P|exact T2]).
  unfold instruction_py. drec. apply dok_str_dict. rewrite Forall_map in Q. apply Forall_forall. intros p Hp. rewrite Forall_forall in Q, V. split; [exact (Q p Hp)|]. apply V in Hp. auto with dok.
Qed.
Definition gl_ok (g : glyph) : Prop :=
  all_some tok (g_name g) /\ all_some iok (g_num_masters g) /\ all_some (Forall (fun n => dok (node_py n))) (g_nodes g) /\ all_some (Forall pok) (g_metrics g) /\
  all_some (fun h => dok (hints_py h)) (g_hints g) /\ all_some (fun h => dok (guides_py h)) (g_guides g) /\ all_some (Forall (fun h => dok (component_py h))) (g_components g) /\
  all_some (Forall (fun p => Forall iok (snd p))) (g_kerning g) /\ all_some imp_ok (g_imported g) /\ all_some (Forall (fun h => dok (instruction_py h))) (g_tth g).
Ltac fields := cbn [g_name g_num_masters g_nodes g_metrics g_hints g_guides g_components g_kerning g_imported g_tth
  set_name set_outlines set_metrics set_hints set_guides set_components set_kerning set_imported set_tth].
Lemma r_glyph : forall o, asm_texts o -> rps (parse_glyph o) gl_ok.
Proof.
  intros o T. unfold parse_glyph. eapply rps_bind; [apply rps_read_bytes|]. intros b _. eapply rps_bind; [apply (rps_true _ _); tot_auto|]. intros _ _.
  apply (rps_loop _ _ _ gl_ok).
  - unfold gl_ok, empty_glyph_data. fields. conj; apply none_all.
  - intros g G. pose proof G as (G1 & G2 & G3 & G4 & G5 & G6 & G7 & G8 & G9 & G10). unfold glyph_turn. cbv zeta. eapply rps_bind; [apply rps_uint8|]. intros v _.
    apply rps_if; intros _. { eapply rps_bind; [apply rps_str_with_len|]. intros s Hs. apply rps_ret. unfold gl_ok. fields. conj; try assumption. apply some_all. now apply tok_text. }
    apply rps_if; intros _. { eapply rps_bind; [apply rps_per_master, rps_pair|]. intros l Hl. apply rps_ret. unfold gl_ok. fields. conj; try assumption. apply some_all. each. now apply pok_int32. }
    apply rps_if; intros _.
    { eapply rps_bind; [apply rps_hints|]. intros h (_ & H1 & _ & H2 & _ & H3). apply rps_ret. assert (D : dok (hints_py h)) by now apply dok_hints.
      assert (S : store_hints h g = g \/ store_hints h g = set_hints h g) by (unfold store_hints; destruct (mh_v h), (mh_h h), (mh_masks h); auto).
      destruct S as [S|S]; rewrite S; [exact G|]. unfold gl_ok. fields. conj; try assumption. now apply some_all. }
    apply rps_if; intros _.
    { destruct (g_num_masters g) as [n|]; [|apply rps_raise]. destruct (g_name g); [|apply rps_raise]. eapply rps_bind; [apply rps_guides|]. intros d (_ & _ & D). apply rps_ret.
      destruct G as (A1 & A2 & _). unfold gl_ok. fields. conj; try assumption. apply some_all. eapply dok_guides. each. destruct H as (_ & H). exact H. }
    apply rps_if; intros _. { eapply rps_bind; [apply rps_components|]. intros l (_ & F). apply rps_ret. unfold gl_ok. fields. conj; try assumption. apply some_all. each. now apply dok_component. }
    apply rps_if; intros _.
    { eapply rps_bind; [apply rps_kerning|]. intros l (_ & _ & F). apply rps_ret. unfold gl_ok. fields. conj; try assumption. apply some_all. each. destruct H as (_ & H). each. auto with dok. }
    apply rps_if; intros _; [apply rps_ret; exact G|].
    apply rps_if; intros _. { eapply rps_bind; [apply r_outlines|]. intros [n l] (H1 & H2). apply rps_ret. cbn [fst snd] in *. unfold gl_ok. fields. conj; try assumption; now apply some_all. }
    apply rps_if; intros _. { eapply rps_bind; [apply r_binary; exact T|]. intros i Hi. apply rps_ret. unfold gl_ok. fields. conj; try assumption; now apply some_all. }
    apply rps_if; intros _.
    { eapply rps_bind; [apply rps_instructions|]. intros l F. apply rps_ret. destruct l as [|i l]; [exact G|]. unfold gl_ok. fields. conj; try assumption. apply some_all. each. now apply dok_instruction. }
    apply rps_if; intros _; [apply rps_ret; exact G|]. eapply rps_bind; [apply rps_true; tot_auto|]. intros _ _. apply rps_raise.
Qed.
Lemma dok_perm : forall d l, Permutation d l -> Forall kv_ok l -> dok (PDict d).
Proof. intros d l P F. apply dok_dict. eapply Permutation_Forall; [apply Permutation_sym; exact P|exact F]. Qed.
Lemma dok_glyph : forall g t, gl_ok g -> glyph_py g t -> dok t.
Proof.
  intros g t (G1 & G2 & G3 & G4 & G5 & G6 & G7 & G8 & G9 & G10) (imp & d & -> & P & I). eapply dok_perm; [exact P|]. unfold glyph_items, kv_ok. opts.
  - apply dok_str. now apply G1.
  - apply dok_int. now apply G2.
  - apply dok_plist. now apply G3.
  - apply dok_pairs. now apply G4.
  - now apply G5.
  - now apply G6.
  - apply dok_plist. now apply G7.
  - apply dok_int_dict. apply G8 in H. each. now apply dok_ints.
  - subst imp. destruct (g_imported g) as [i|]; [|destruct I]. destruct I as (l & -> & Q). eapply dok_perm; [exact Q|]. apply imp_items. now apply G9.
  - apply dok_plist. now apply G10.
Qed.

(** *** name records *)
Lemma r_names : rps parse_name_records (Forall (fun n => iok (nr_name n) /\ iok (nr_plat n) /\ iok (nr_enc n) /\ iok (nr_lang n) /\ Forall (fun c => 0 <= c < 0x110000) (nr_text n))).
Proof.
  unfold parse_name_records. eapply rps_bind; [apply rps_value|]. intros n _. eapply rps_imp; [apply (rps_range _ _ (fun n => iok (nr_name n) /\ iok (nr_plat n) /\ iok (nr_enc n) /\ iok (nr_lang n) /\ Forall (fun c => 0 <= c < 0x110000) (nr_text n)))|now intros l (_ & H)].
  unfold parse_name_record. do 5 (eapply rps_bind; [apply rps_value|]; intros ? ?). eapply rps_bind; [apply rps_range, rps_value|]. intros codes _.
  eapply rps_bind; [apply rps_lift_eq|]. intros t E. apply rps_ret. cbn [nr_name nr_plat nr_enc nr_lang nr_text]. conj; auto with dok.
  eapply res_map_forall in E; [apply E|]. intros x y. apply name_char_range.
Qed.

(** ** Rows of the table *)
Definition names_text (d : value) : Prop := match d with DNames l => Forall (fun n => tok (nr_text n)) l | _ => True end.
Lemma run_dok : forall A (C : A -> value) (r : rd A) (P : A -> Prop) b d, small b -> rps r P -> run_parser (plain C r) b = Ok d -> exists x, d = C x /\ P x.
Proof.
  intros A C r P b d Hb H. unfold run_parser, plain, rbind, ret. destruct (r b) as [a rest|] eqn:E; [|discriminate]. destruct rest; [|discriminate].
  intros X. apply Ok_inj in X. subst d. exists a. split; [reflexivity|]. exact (proj1 (H _ _ _ Hb E)).
Qed.
Lemma plain_dok : forall A (C : A -> value) (r : rd A) b d t, (forall x t, value_py (C x) t -> t = plain_py (C x)) -> out C r -> small b ->
  run_parser (plain C r) b = Ok d -> names_text d -> value_py d t -> dok t.
Proof. intros A C r b d t K O Hb E _ V. destruct (run_dok _ _ _ _ _ _ Hb O E) as (x & -> & D). apply K in V. now subst t. Qed.
Lemma glyph_dok : forall o b d t, asm_texts o -> small b -> run_parser (plain DGlyph (parse_glyph o)) b = Ok d -> names_text d -> value_py d t -> dok t.
Proof. intros o b d t T Hb E _ V. destruct (run_dok _ _ _ _ _ _ Hb (r_glyph o T) E) as (x & -> & D). eapply dok_glyph; eassumption. Qed.
Lemma names_dok : forall b d t, small b -> run_parser (plain DNames parse_name_records) b = Ok d -> names_text d -> value_py d t -> dok t.
Proof.
  intros b d t Hb E N V. destruct (run_dok _ _ _ _ _ _ Hb r_names E) as (x & -> & D). cbn [value_py plain_py names_text] in *. subst t. apply dok_plist.
  rewrite Forall_forall in *. intros n I. destruct (D n I) as (H1 & H2 & H3 & H4 & _). specialize (N n I). unfold name_record_py. apply dok_list.
  repeat (apply Forall_cons; [auto with dok|]). apply Forall_nil.
Qed.
Lemma row_dok : forall o, asm_texts o -> Forall (fun r => forall c b d t, small b -> run_parser (snd (fst (snd r)) c) b = Ok d -> names_text d -> value_py d t -> dok t) (parser_classes o).
Proof.
  intros o T. unfold parser_classes.
  repeat first [apply Forall_nil | apply Forall_cons; [intros c b d t; cbn [fst snd];
    first [apply names_dok | apply glyph_dok; exact T |
      eapply plain_dok; [intros x t' V; exact V|
      first [apply d_hex|apply d_string|apply d_fl_version|apply d_encoding|apply d_int16|apply d_sint16|apply d_sint32|apply d_double|apply d_doubles|apply d_int_list|apply d_panose
            |apply d_unicode_ranges|apply d_values|apply d_counted|apply d_class_flags|apply d_mapping_mode|apply d_binary_table|apply d_background|apply d_glyph_bitmaps|apply d_cmaps
            |apply d_kern_pair|apply d_anchors|apply d_anchor_props|apply d_gdef|apply d_origin|apply d_pair|apply d_sketch|apply d_unicodes|apply d_unicodes_supp|apply d_links
            |apply d_mask_metrics_mm|apply d_guides|apply d_guide_props|apply d_anisotropic|apply d_axis_counts|apply d_axis_mappings|apply d_master_location|apply d_instances
            |apply d_export_options|apply d_pclt|apply d_ps_global|apply d_ps_glyph|apply d_ps_info|apply d_lines|apply d_gasp|apply d_tt_info|apply d_stems|apply d_zones|apply d_vdmx
            |apply d_deltas|apply d_font_options|apply d_global_mask|apply d_mask|apply d_ppems1|apply d_ppems; discriminate]]]|]].
Qed.
Lemma table_dok : forall o i c b d t, asm_texts o -> small b -> cd_parse (table o) i c b = Ok d -> names_text d -> value_py d t -> dok t.
Proof.
  intros o i c b d t T Hb. cbn [cd_parse table]. unfold parser_of, row. destruct (aget Z.eqb i (parser_classes o)) as [[[k p] w]|] eqn:E.
  - apply (aget_In Z.eqb Z.eqb_eq) in E. pose proof (proj1 (Forall_forall _ _) (row_dok o T) _ E) as H. cbn [fst snd] in H. now apply H.
  - unfold BaseParser. eapply plain_dok; [intros x t' V; exact V|apply d_hex|exact Hb].
Qed.
Definition names_range (d : value) : Prop := match d with DNames l => Forall (fun n => Forall (fun c => 0 <= c < 0x110000) (nr_text n)) l | _ => True end.
Lemma row_names : forall o, Forall (fun r => forall c b d, small b -> run_parser (snd (fst (snd r)) c) b = Ok d -> names_range d) (parser_classes o).
Proof.
  intros o. unfold parser_classes.
  repeat first [apply Forall_nil | apply Forall_cons; [intros c b d Hb E; cbn [fst snd] in E;
    first [destruct (plain_made _ _ _ _ _ E) as (x & ->); exact Logic.I
          |destruct (run_dok _ _ _ _ _ _ Hb r_names E) as (x & -> & D); cbn [names_range]; eapply Forall_imp; [exact D|]; cbv beta; tauto]|]].
Qed.
Lemma table_names : forall o i c b d, small b -> cd_parse (table o) i c b = Ok d -> names_range d.
Proof.
  intros o i c b d Hb. cbn [cd_parse table]. unfold parser_of, row. destruct (aget Z.eqb i (parser_classes o)) as [[[k p] w]|] eqn:E.
  - apply (aget_In Z.eqb Z.eqb_eq) in E. pose proof (proj1 (Forall_forall _ _) (row_names o) _ E) as H. cbn [fst snd] in H. now apply H.
  - intros D. apply plain_made in D. destruct D as (x & ->). exact Logic.I.
Qed.
Lemma row_keys : forall o, Forall (fun r => tok (fst (fst (snd r)))) (parser_classes o).
Proof. intros o. unfold parser_classes. repeat first [apply Forall_nil | apply Forall_cons; [reflexivity|]]. Qed.
Lemma tok_key : forall o i, tok (key_of o i).
Proof.
  intros o i. unfold key_of, row. destruct (aget Z.eqb i (parser_classes o)) as [[[k p] w]|] eqn:E; [|apply tok_dec].
  apply (aget_In Z.eqb Z.eqb_eq) in E. exact (proj1 (Forall_forall _ _) (row_keys o) _ E).
Qed.

(** ** Files *)
Definition small_data (o : oracles) (e : entry value) : Prop :=
  exists i, e_id e = Some i /\
    match e_data e with
    | Raw b => small b
    | Dec d => exists c b, small b /\ cd_parse (table o) i c b = Ok d
    | NoData => False
    end.
Section vfb.
  Variable o : oracles.
  Notation T := (table o).
  Lemma append_small : forall i e v, Forall (small_data o) (v_entries v) -> small_data o e -> Forall (small_data o) (v_entries (append_entry i e v)).
  Proof. intros i e v H E. unfold append_entry. destruct (M_Container.zmem i (v_drop v)); [assumption|]. apply P_JsonFile.app1; assumption. Qed.
  Lemma read_loop_small : forall fuel v s, small s -> Forall (small_data o) (v_entries v) -> Forall (small_data o) (v_entries (fst (read_loop T fuel v s))).
  Proof.
    induction fuel as [|fuel IH]; intros v s Hs Hv; [assumption|]. cbn [read_loop].
    destruct (read_entry_ok (v_ctx v) s (proj1 Hs) (proj2 Hs)) as (i & b & r & E & _ & Hb & Hr & Lr). rewrite E. cbn [e_id].
    assert (Hr' : small r) by (split; assumption).
    destruct (is_eager i).
    - unfold entry_decompile. cbn [e_id e_data]. destruct (cd_parse T i (v_ctx v) b) as [d|x] eqn:P; [|assumption].
      cbn [e_data set_data]. apply IH; [assumption|]. apply append_small; [now rewrite remember_entries|].
      exists i. cbn [e_id e_data]. split; [reflexivity|]. exists (v_ctx v), b. auto.
    - assert (M : Forall (small_data o) (v_entries (append_entry i (mkEntry (Some i) (Raw b) None) v))).
      { apply append_small; [assumption|]. exists i. split; [reflexivity|exact Hb]. }
      destruct (i =? F_BlockFileDataEnd); [exact M|]. apply IH; assumption.
  Qed.
  Lemma read_small : forall fuel v s, small s -> Forall (small_data o) (v_entries (fst (vfb_read_bytes T fuel v s))).
  Proof.
    intros fuel v s Hs. unfold vfb_read_bytes, read_stream. destruct (parse_header s) as [h r|x r] eqn:E; [|constructor].
    destruct (v_only_header _); [constructor|]. apply read_loop_small; [|constructor].
    unfold parse_header in E. destruct (read_header_fields s) as [[? off] ?|]; [|discriminate].
    injection E as _ <-. split; [apply bytes_ok_drop; exact (proj1 Hs)|]. unfold drop. destruct (off <? 0); [cbn [List.length]; lia|]. rewrite skipn_length. pose proof (proj2 Hs). lia.
  Qed.
  Lemma decompile_small : forall c k es, Forall (small_data o) es -> Forall (small_data o) (fst (fst (decompile_entries T c k es))).
  Proof.
    intros c k. induction es as [|e es IH]; intros H; [constructor|]. apply Forall_cons_iff in H. destruct H as (He & H). specialize (IH H). cbn [decompile_entries].
    assert (G : small_data o (fst (fst (entry_decompile T c e)))).
    { unfold entry_decompile. pose proof He as (i & Ei & Di). rewrite Ei. destruct (e_data e) as [b|d|]; try exact He.
      destruct (cd_parse T i c b) as [d|x] eqn:Pd; [|exact He]. exists i. cbn. split; [assumption|]. exists c, b. auto. }
    destruct (match e_id e with Some _ => _ | None => _ end).
    - destruct (decompile_entries T c k es) as [[es' err] r]. constructor; assumption.
    - destruct (entry_decompile T c e) as [[e' err] [u|x]]; cbn [fst] in G; [|constructor; assumption].
      destruct (decompile_entries T c k es) as [[es' err'] r]. constructor; assumption.
  Qed.
  Lemma save_small : forall fuel only minimal uni nd file v, small file -> save_vfb o fuel only minimal uni nd false file = (v, Ok tt) -> Forall (small_data o) (v_entries v).
  Proof.
    intros fuel only minimal uni nd file v Hf. unfold save_vfb. pose proof (read_small fuel (new_vfb [] only uni) file Hf) as R.
    destruct (vfb_read_bytes T fuel (new_vfb [] only uni) file) as [w [u rest|x rest]]; [|discriminate]. cbn [fst] in R.
    destruct nd; [intros E; injection E as <-; exact R|]. unfold vfb_decompile. destruct (header_decompile _) as [h|x]; [|discriminate].
    cbn [v_ctx v_drop v_entries with_header with_errors]. pose proof (decompile_small (v_ctx w) (v_drop w) _ R) as M.
    destruct (decompile_entries T (v_ctx w) (v_drop w) (v_entries w)) as [[es err] r]. intros E. injection E as <- _. exact M.
  Qed.
End vfb.
Lemma rps_assert_ : forall b, rps (M_Container.rassert b) (fun _ => True).
Proof. intros [|]; [now apply rps_ret|apply rps_raise]. Qed.
Lemma header_fields_ok : forall s h off r, small s -> read_header_fields s = ROk (h, off) r -> dok (header_py h).
Proof.
  intros s h off r Hs E.
  assert (H : rps read_header_fields (fun p => dok (header_py (fst p)))).
  { unfold read_header_fields. eapply rps_bind; [apply rps_uint32|]. intros a Ha. eapply rps_bind; [apply rps_assert_|]. intros _ _.
    do 3 (eapply rps_bind; [apply rps_uint8|]; intros ? ?; eapply rps_bind; [apply rps_assert_|]; intros _ _).
    eapply rps_bind; [apply rps_uint8|]. intros m Hm. eapply rps_bind; [apply rps_uint32|]. intros q _. apply rps_ret. unfold header_py. cbn [fst signature app_version file_version version_major version_minor].
    drec. }
  exact (proj1 (H _ _ _ Hs E)).
Qed.

Lemma read_loop_header : forall o fuel (w : vfb value) r v rest, read_loop (table o) fuel w r = (v, ROk tt rest) -> v_header v = v_header w.
Proof.
  intros o. induction fuel as [|fuel IH]; intros w r v rest R; [discriminate|]. cbn [read_loop] in R.
  destruct (read_entry (v_ctx w) r) as [e r'|x r']; [|destruct x; try discriminate; injection R as <- _; reflexivity].
  destruct (e_id e) as [i|]; [|discriminate].
  assert (A : forall e (w : vfb value), v_header (append_entry i e w) = v_header w) by (intros; unfold append_entry; destruct (M_Container.zmem i _); reflexivity).
  assert (B : forall d (w : vfb value), v_header (remember (table o) i d w) = v_header w) by (intros; unfold remember; destruct (i =? F_FLVersion), (i =? F_MasterCount); reflexivity).
  destruct (is_eager i).
  - destruct (entry_decompile (table o) (v_ctx w) e) as [[e' err] [u|x]]; [|discriminate]. destruct (e_data e'); apply IH in R; rewrite R, A, ?B; reflexivity.
  - destruct (i =? F_BlockFileDataEnd); [injection R as <- _; apply A|]. apply IH in R. rewrite R. apply A.
Qed.
Lemma save_header : forall o fuel only minimal uni nd file v, small file -> save_vfb o fuel only minimal uni nd false file = (v, Ok tt) ->
  exists h, v_header v = HDec h /\ dok (header_py h).
Proof.
  intros o fuel only minimal uni nd file v Hf. unfold save_vfb.
  destruct (vfb_read_bytes (table o) fuel (new_vfb [] only uni) file) as [w [u rest|x rest]] eqn:R; [|discriminate]. destruct u.
  assert (G : exists h, v_header w = HDec h /\ dok (header_py h)).
  { unfold vfb_read_bytes, read_stream in R. destruct (parse_header file) as [h r|x r] eqn:P; [|discriminate]. exists h. split.
    - destruct (v_only_header _); [injection R as <- _; reflexivity|]. apply read_loop_header in R. exact R.
    - unfold parse_header in P. destruct (read_header_fields file) as [[h' off] q|] eqn:Q; [|discriminate]. injection P as -> _. eapply header_fields_ok; eassumption. }
  destruct nd; [intros E; injection E as <-; exact G|]. destruct G as (h & Hh & D). unfold vfb_decompile. cbn [with_errors v_header]. rewrite Hh. cbn [header_decompile].
  destruct (decompile_entries _ _ _ _) as [[es err] r]. intros E. injection E as <- _. exists h. split; [reflexivity|exact D].
Qed.
