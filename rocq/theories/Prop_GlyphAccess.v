(** C42: access to glyphs by name. *)
From Coq Require Import String ZifyBool ZifyNat.
From Verif Require Import Base Lib M_Stream M_Text M_Py M_Glyph M_Container M_Table M_GlyphAccess S_GlyphAccess P_GlyphAccess.
Local Open Scope list_scope.

(** The entries that are decompiled along with the glyphs can be decompiled. *)
Definition related_ok (T : codecs value) (v : vfb value) : Prop :=
  forall e, In e (v_entries v) -> In (e_id e) [Some 2008; Some 2010; Some 1093] -> snd (entry_decompile T (v_ctx v) e) = Ok tt.

(** ** What holds: one object per glyph entry, in file order, under distinct names, with its links and hinting
    options; no other entry is changed but for being decompiled. *)
Theorem C42_objects : forall T v t, gt_glyphs t = [] -> gt_order t = [] -> related_ok T v ->
  exists v' items, vfb_items T (v, t) = (v', Ok items) /\
    NoDup (map fst items) /\ gt_order (snd v') = map fst items /\
    map (fun x => go_entry (snd x)) items = positions 2001 0 (v_entries v) /\
    Forall (fun x => let g := snd x in
              (forall k, go_links g = Some k <-> belongs (v_entries v) (go_entry g) 2008 k) /\
              (forall k, go_hinting g = Some k <-> belongs (v_entries v) (go_entry g) 2010 k)) items /\
    Forall2 (fun e e' => e_id e' = e_id e /\ (e_id e <> Some 2001 ->
              e_data e' = e_data e \/ e_data e' = e_data (fst (fst (entry_decompile T (v_ctx v) e)))))
      (v_entries v) (v_entries (fst v')).
Proof.
  intros T v t Gt Ot R. unfold vfb_items, ensure. cbn [fst snd]. rewrite Gt.
  destruct (access_loop_ok T (v_ctx v) (v_entries v) 0 [] t) as (es' & t' & o & E & Hok & Herr); [split; assumption|].
  cbn [last_name List.length] in E. rewrite E. destruct o as [u|x].
  2: { exfalso. destruct (Herr x eq_refl) as (e & I & J & D). specialize (R e I J). congruence. }
  destruct u. destruct (Hok eq_refl) as (F & G & O). cbn [rmap fst snd]. do 2 eexists. split; [reflexivity|]. cbn [fst snd].
  destruct (objs_ok_loop (v_entries v)) as (P & Fo & _). rewrite G, named_keys. split; [apply nameless_nodup|]. split; [assumption|]. split.
  { rewrite <- (map_map snd go_entry), named_objs. assumption. }
  split.
  - rewrite Forall_forall in *. intros x I. destruct (Fo (snd x)) as (_ & B & C); [|split; assumption]. rewrite <- (named_objs (obj_loop 0 (v_entries v) [])). now apply in_map.
  - cbn [with_entries v_entries]. revert F. clear. induction 1 as [|e e' l l' (A & _ & _ & D) F IH]; constructor; [|assumption]. split; [assumption|]. intros H. destruct (D H) as [->| ->]; auto.
Qed.

(** The rule for names: distinct from all others, the name itself if it is free. *)
Theorem C42_unique : forall name glyphs, exists key, unique_name name glyphs = Ok key /\
  disambiguated (map fst glyphs) name key /\ ~ In key (map fst glyphs).
Proof.
  intros name glyphs. destruct (unique_name_ok name glyphs) as (key & E & D). exists key. split; [assumption|]. split; [assumption|].
  destruct D as [(N & ->)|(_ & i & _ & _ & N & _)]; assumption.
Qed.

(** ** What does not hold: the data of the glyphs is lost. Whatever the file has, its glyphs are blank after the
    first access, and their names are "", "#1", "#2" ... *)
Theorem C42_blank : forall T v t, gt_glyphs t = [] -> gt_order t = [] -> related_ok T v ->
  exists v', vfb_keys T (v, t) = (v', Ok (nameless (List.length (positions 2001 0 (v_entries v))))) /\
    forall k e, nth_error (v_entries (fst v')) k = Some e -> e_id e = Some 2001 ->
      e_data e = Dec (DGlyph (blank (num_masters (v_ctx v)))).
Proof.
  intros T v t Gt Ot R. unfold vfb_keys, ensure. cbn [fst snd]. rewrite Gt.
  destruct (access_loop_ok T (v_ctx v) (v_entries v) 0 [] t) as (es' & t' & o & E & Hok & Herr); [split; assumption|].
  cbn [last_name List.length] in E. rewrite E. destruct o as [u|x].
  2: { exfalso. destruct (Herr x eq_refl) as (e & I & J & D). specialize (R e I J). congruence. }
  destruct u. destruct (Hok eq_refl) as (F & G & O). cbn [rmap fst snd]. eexists. split.
  { do 2 f_equal. rewrite G, named_keys. f_equal. destruct (objs_ok_loop (v_entries v)) as (P & _). now rewrite <- P, map_length. }
  cbn [fst with_entries v_entries]. intros k e N I. revert k N. revert F. clear - I. induction 1 as [|f f' l l' (A & _ & B & _) F IH]; intros [|k] N; try discriminate.
  - cbn in N. injection N as ->. apply B. congruence.
  - now apply (IH k).
Qed.

Definition glyph_named (n : pystr) : entry value :=
  mkEntry (Some 2001) (Dec (DGlyph (Glyph (Some n) (Some 1) (Some [MMNode Move 0 [[(10, 20)]]]) (Some [(500, 0)]) None None None None None None))) None.
Definition vfb_of (es : list (entry value)) : vfb value := mkVfb HNone es (mkCtx 1 0 0 MacOS) Utf8 false [] false false.
(** A font with the glyphs "A" and "B": "A" is not found, and both glyphs lose their nodes. *)
Theorem C42_data_refuted : forall o, exists v' e,
  vfb_getitem (table o) (py "A") (vfb_of [glyph_named (py "A"); glyph_named (py "B")], no_glyphs) = (v', Err KeyError) /\
  snd (vfb_keys (table o) (vfb_of [glyph_named (py "A"); glyph_named (py "B")], no_glyphs)) = Ok [[]; py "#1"] /\
  nth_error (v_entries (fst v')) 0 = Some e /\ e_data e = Dec (DGlyph (blank 1)).
Proof. intros o. do 2 eexists. split; [reflexivity|]. split; [reflexivity|]. split; reflexivity. Qed.
(** An entry of links that cannot be parsed: the first access raises, the second one gives the glyphs before
    that entry only. *)
Theorem C42_retry_refuted : forall o, let es := [glyph_named (py "A"); mkEntry (Some 2008) (Raw []) None; glyph_named (py "B")] in
  exists v1 x v2, vfb_keys (table o) (vfb_of es, no_glyphs) = (v1, Err x) /\ vfb_keys (table o) v1 = (v2, Ok [[]]) /\
    List.length (positions 2001 0 es) = 2%nat.
Proof.
  intros o es. unfold vfb_keys, ensure. cbn [fst snd gt_glyphs no_glyphs].
  assert (P : exists x, snd (entry_decompile (table o) (mkCtx 1 0 0 MacOS) (mkEntry (Some 2008) (Raw []) None)) = Err x).
  { eexists. unfold entry_decompile. cbn [e_id e_data]. unfold table. cbn [cd_parse]. unfold parser_of.
    replace (row o 2008) with (Some (py "Links", LinkParser, LinksCompiler)) by (symmetry; lazy [row parser_classes aget Z.eqb Pos.eqb]; reflexivity). vm_compute. reflexivity. }
  destruct P as (x & P).
  set (e2 := mkEntry (Some 2008) (Raw []) None : entry value) in *.
  assert (E : exists t', access_loop (table o) (mkCtx 1 0 0 MacOS) 0 es None no_glyphs =
    ([fst (glyph_decompile (table o) (mkCtx 1 0 0 MacOS) (glyph_empty (mkCtx 1 0 0 MacOS) (glyph_named (py "A")))); fst (fst (entry_decompile (table o) (mkCtx 1 0 0 MacOS) e2)); glyph_named (py "B")], t', Err x) /\ gt_glyphs t' = [([], GObj 0 None None)]).
  { unfold es. cbn [access_loop]. destruct (entry_decompile (table o) (mkCtx 1 0 0 MacOS) e2) as [[e' err] r] eqn:Ed. cbn [snd] in P. subst r.
    unfold access_entry at 1. cbn [e_id glyph_named]. cbn [Z.eqb Pos.eqb G_Glyph]. rewrite glyph_emptied by reflexivity. cbn [rthen gt_glyphs no_glyphs]. cbn [unique_name aget].
    unfold access_entry. cbn [e_id e2]. cbn [G_Glyph G_Links Z.eqb Pos.eqb orb]. rewrite Ed. eexists. split; reflexivity. }
  destruct E as (t' & E & G). cbn [vfb_of v_ctx v_entries]. rewrite E. do 3 eexists. split; [reflexivity|]. cbn [fst snd]. rewrite G. split; [|reflexivity]. cbn [rmap fst snd]. rewrite G. reflexivity.
Qed.
(** Reading another file into the same object keeps the glyphs of the first one. *)
Theorem C42_reread_refuted : forall T fuel v t file, gt_glyphs t <> [] ->
  exists v', fst (reread T fuel (v, t) file) = (v', t) /\ vfb_keys T (v', t) = ((v', t), Ok (map fst (gt_glyphs t))).
Proof.
  intros T fuel v t file H. unfold reread. cbn [fst snd]. destruct (vfb_read_bytes T fuel v file) as [v' o]. exists v'. split; [reflexivity|].
  unfold vfb_keys, ensure. cbn [snd]. destruct (gt_glyphs t) eqn:E; [congruence|]. cbn [rmap snd]. now rewrite E.
Qed.

Print Assumptions C42_objects. Print Assumptions C42_unique. Print Assumptions C42_blank. Print Assumptions C42_data_refuted.
Print Assumptions C42_retry_refuted. Print Assumptions C42_reread_refuted.

(** ** Examples *)
Definition ex_entries : list (entry value) :=
  [mkEntry (Some 1503) (Dec (DInt 1)) None; glyph_named (py "A"); mkEntry (Some 2008) (Dec (DLinks (Links [(0, 1)] []))) None;
   mkEntry (Some 2012) (Raw [1; 0]) None; mkEntry (Some 2008) (Dec (DLinks (Links [] []))) None; glyph_named (py "A");
   mkEntry (Some 2010) (Dec (DOptionList [])) None].
Example ex_related : forall o, related_ok (table o) (vfb_of ex_entries).
Proof. intros o e I J. cbn in I. repeat (destruct I as [<-|I]; [cbn in J; first [reflexivity|exfalso; repeat (destruct J as [J|J]; [discriminate|]); destruct J]|]). destruct I. Qed.
Example ex_items : forall o, snd (vfb_items (table o) (vfb_of ex_entries, no_glyphs)) =
  Ok [([], GObj 1 (Some 4%nat) None); (py "#1", GObj 5 None (Some 6%nat))].
Proof. reflexivity. Qed.
Example ex_unique : unique_name (py "a") [(py "a", GObj 0 None None); (py "a#1", GObj 1 None None)] = Ok (py "a#2").
Proof. reflexivity. Qed.
