(** Model of how the exporter collects glyphs and masters: ufo/builder.py 178-212, 416-590,
    660-691, 712. Data that are only passed on have the type [V]. *)
From Coq Require Import String.
From Verif Require Import Base M_Py.
Local Open Scope list_scope.

(** The attributes of a glyph that an entry sets: [links], the lib's mark colour, user data, background and
    bitmaps, [note], [anchors], [mm_anchors], [guide_properties], [mm_mask_nodes] *)
Inductive field := FLinks | FMark | FUserData | FNote | FAnchors | FMMAnchors | FGuides | FBackground | FBitmaps | FMask.
Definition field_eqb (a b : field) : bool :=
  match a, b with
  | FLinks, FLinks | FMark, FMark | FUserData, FUserData | FNote, FNote | FAnchors, FAnchors | FMMAnchors, FMMAnchors
  | FGuides, FGuides | FBackground, FBackground | FBitmaps, FBitmaps | FMask, FMask => true
  | _, _ => false
  end.

Section Builder.
  Variable V : Type.
  (** [VfbToUfoGlyph]; [bg_data]: what [build_mm_glyph] takes from the glyph entry *)
  Record bglyph := BGlyph
    { bg_name : pystr; bg_data : V; bg_unicodes : list Z; bg_mask : list (Z * Z); bg_fields : list (field * V) }.
  (** The entries. [BField FAnchors] is GDEF data with anchors; GDEF data without and all entries that do
      not concern glyphs or masters are [BOther]. [BVsb] is only checked for its place. *)
  Inductive b_entry :=
  | BGlyphE (name : pystr) (kerning : list (Z * list Z)) (data : V)
  | BUnicodes (l : list Z) | BMask (l : list (Z * Z)) | BField (f : field) (v : V) | BVsb
  | BMasterName (name : pystr) | BAxisCount (n : Z) | BPsInfo (v : V) | BOther.
  Record bstate := BState
    { bs_current : option bglyph; bs_glyphs : list (pystr * bglyph); bs_order : list pystr;
      bs_kerning : list ((pystr * Z) * list Z);
      bs_masters : list pystr; bs_axes : Z; bs_infos : list V }.
  (** 79-118 *)
  Definition b_start : bstate := BState None [] [] [] [] 0 [].

  Definition pair_eqb (a b : pystr * Z) : bool := str_eqb (fst a) (fst b) && (snd a =? snd b).
  (** 455-464: the first free name of [n] numbers from [i] *)
  Fixpoint free_name (glyphs : list (pystr * bglyph)) (name : pystr) (n : nat) (i : Z) : option pystr :=
    match n with
    | O => None
    | S n => let k := name ++ py "#" ++ dec_str i in
             match aget str_eqb k glyphs with Some _ => free_name glyphs name n (i + 1) | None => Some k end
    end.
  (** 451-470: the glyph before this one is stored. Simplification: glyphs always have a name. *)
  Definition store_glyph (s : bstate) : bstate :=
    match bs_current s with
    | None => s
    | Some g =>
        let put k := BState (bs_current s) (aset str_eqb k g (bs_glyphs s)) (bs_order s ++ [k]) (bs_kerning s)
                            (bs_masters s) (bs_axes s) (bs_infos s) in
        match aget str_eqb (bg_name g) (bs_glyphs s) with
        | Some _ => match free_name (bs_glyphs s) (bg_name g) 255 0 with Some k => put k | None => s end
        | None => put (bg_name g)
        end
    end.
  (** 178-212 [build_mm_glyph] *)
  Definition new_glyph (name : pystr) (kerning : list (Z * list Z)) (data : V) (s : bstate) : bstate :=
    BState (Some (BGlyph name data [] [] [])) (bs_glyphs s) (bs_order s)
           (fold_left (fun d x => aset pair_eqb (name, fst x) (snd x) d) kerning (bs_kerning s))
           (bs_masters s) (bs_axes s) (bs_infos s).
  Definition with_glyph (f : bglyph -> bglyph) (s : bstate) : res bstate :=
    match bs_current s with
    | None => Err AssertionError
    | Some g => Ok (BState (Some (f g)) (bs_glyphs s) (bs_order s) (bs_kerning s) (bs_masters s) (bs_axes s) (bs_infos s))
    end.
  (** 431-659, one turn of the loop *)
  Definition b_add (s : bstate) (e : b_entry) : res bstate :=
    match e with
    | BGlyphE name kerning data => Ok (new_glyph name kerning data (store_glyph s))
    | BUnicodes l => with_glyph (fun g => BGlyph (bg_name g) (bg_data g) (bg_unicodes g ++ l) (bg_mask g) (bg_fields g)) s
    | BMask l => with_glyph (fun g => BGlyph (bg_name g) (bg_data g) (bg_unicodes g) (bg_mask g ++ l) (bg_fields g)) s
    | BField f v => with_glyph (fun g => BGlyph (bg_name g) (bg_data g) (bg_unicodes g) (bg_mask g) (aset field_eqb f v (bg_fields g))) s
    | BVsb => with_glyph (fun g => g) s
    | BMasterName n => Ok (BState (bs_current s) (bs_glyphs s) (bs_order s) (bs_kerning s) (bs_masters s ++ [n]) (bs_axes s) (bs_infos s))
    | BAxisCount n => Ok (BState (bs_current s) (bs_glyphs s) (bs_order s) (bs_kerning s) (bs_masters s) n (bs_infos s))
    | BPsInfo v => Ok (BState (bs_current s) (bs_glyphs s) (bs_order s) (bs_kerning s) (bs_masters s) (bs_axes s) (bs_infos s ++ [v]))
    | BOther => Ok s
    end.
  Fixpoint b_loop (s : bstate) (es : list b_entry) : res bstate :=
    match es with [] => Ok s | e :: es => rthen (b_add s e) (fun s => b_loop s es) end.
  (** 662-665: the last glyph *)
  Definition store_last (s : bstate) : bstate :=
    match bs_current s with
    | None => s
    | Some g => BState (bs_current s) (aset str_eqb (bg_name g) g (bs_glyphs s)) (bs_order s ++ [bg_name g]) (bs_kerning s)
                       (bs_masters s) (bs_axes s) (bs_infos s)
    end.
  (** 681-691 [fix_masters_count] *)
  Fixpoint synthetic (n : nat) (i : Z) : list pystr :=
    match n with O => [] | S n => (py "m" ++ dec_str i) :: synthetic n (i + 1) end.
  Definition fix_masters_count (s : bstate) : bstate :=
    let count := if bs_axes s =? 0 then 1 else bs_axes s ^ 2 in
    let have := Z.of_nat (List.length (bs_masters s)) in
    if have <? count then
      BState (bs_current s) (bs_glyphs s) (bs_order s) (bs_kerning s)
             (bs_masters s ++ synthetic (Z.to_nat (count - have)) have) (bs_axes s) (bs_infos s)
    else s.
  (** 416-680 [build] *)
  Definition build (es : list b_entry) : res bstate :=
    rmap (fun s => fix_masters_count (store_last s)) (b_loop b_start es).
  (** 693-737, 888-890: the data of the masters that are exported; [get_master_info] needs the PostScript
      info of each master *)
  Definition master_infos (s : bstate) : res (list V) :=
    let fix go (n : nat) (i : Z) : res (list V) :=
      match n with
      | O => Ok []
      | S n => rthen (py_index (bs_infos s) i) (fun v => rmap (cons v) (go n (i + 1)))
      end in
    go (List.length (bs_masters s)) 0.
End Builder.
Arguments BGlyph {V}. Arguments bg_name {V}. Arguments bg_data {V}. Arguments bg_unicodes {V}. Arguments bg_mask {V}. Arguments bg_fields {V}.
Arguments BGlyphE {V}. Arguments BUnicodes {V}. Arguments BMask {V}. Arguments BField {V}. Arguments BVsb {V}.
Arguments BMasterName {V}. Arguments BAxisCount {V}. Arguments BPsInfo {V}. Arguments BOther {V}.
Arguments BState {V}. Arguments bs_current {V}. Arguments bs_glyphs {V}. Arguments bs_order {V}. Arguments bs_kerning {V}.
Arguments bs_masters {V}. Arguments bs_axes {V}. Arguments bs_infos {V}.
Arguments b_start {V}. Arguments free_name {V}. Arguments store_glyph {V}. Arguments new_glyph {V}. Arguments with_glyph {V}.
Arguments b_add {V}. Arguments b_loop {V}. Arguments store_last {V}. Arguments fix_masters_count {V}. Arguments build {V}. Arguments master_infos {V}.
