(** Model of what the exporter takes from a glyph entry and from the data of one master:
    ufo/builder.py 178-212, 218-222, 496-504, 515-526, 693-737, ufo/paths.py 67-90, 104-117, 213-224.
    Contours are in M_Paths, PostScript hints in M_PsHints, guides in M_Guides. *)
From Coq Require Import String.
From Verif Require Import Base M_Py M_Text M_Simple M_Glyph M_Tth M_Info.
Local Open Scope list_scope.

(** ** Glyph entries *)
(** ufo/glyph.py 23-48 [VfbToUfoGlyph], what [build_mm_glyph] sets. [mg_instructions] are those that
    are formatted for the lib. *)
Record mm_glyph := MMGlyph {
  mg_name : pystr; mg_guides : option guides;
  mg_h : list (list (Z * Z)); mg_v : list (list (Z * Z)); mg_masks : list (pystr * Z);
  mg_metrics : list (Z * Z); mg_nodes : list mm_node; mg_components : list component;
  mg_tth : option (list instruction); mg_instructions : option (list pystr) }.

(** [data[key]] *)
Definition get_key {A} (o : option A) : res A := match o with Some v => Ok v | None => Err KeyError end.
(** builder.py 188-192: [del data["hints"]["hintmasks"]] changes the data of the entry *)
Definition without_masks (g : glyph) : glyph :=
  match g_hints g with
  | Some h => set_hints (MMHints (mh_h h) (mh_v h) None) g
  | None => g
  end.
(** builder.py 209-212, ufo/glyph.py 100-102 *)
Definition set_instructions (i : option imported) : option (list pystr) :=
  match i with
  | Some i => match im_instructions i with
              | Some (x :: l) => Some (x :: l)
              | _ => None
              end
  | None => None
  end.
(** builder.py 178-212 [build_mm_glyph]: the glyph, and the data of the entry afterwards. Kerning is in
    M_Builder. *)
Definition build_mm_glyph (minimal include_ps_hints : bool) (d : glyph) : res (mm_glyph * glyph) :=
  rthen (get_key (g_name d)) (fun name =>
  let guides := if minimal then None else g_guides d in
  let hints := if include_ps_hints then g_hints d else None in
  let d' := if include_ps_hints then without_masks d else d in
  rthen (get_key (g_metrics d)) (fun metrics =>
  rmap (fun nodes =>
    (MMGlyph name guides
       (match hints with Some h => mh_h h | None => [] end)
       (match hints with Some h => mh_v h | None => [] end)
       (match hints with Some h => match mh_masks h with Some m => m | None => [] end | None => [] end)
       metrics nodes
       (match g_components d with Some l => l | None => [] end)
       (g_tth d) (set_instructions (g_imported d)), d'))
    (get_key (g_nodes d)))).

(** ** One master of a glyph *)
(** builder.py 496-504: the anchors of GDEF data without what the UFO does not have; [gdef_anchor] is
    that already *)
(** paths.py 114-117: [self.anchors[j]["x"] = anchor["x"][m]], and the same for y *)
Definition apply_anchor (m : Z) (anchors : list gdef_anchor) (ja : Z * mm_anchor) : res (list gdef_anchor) :=
  let '(j, a) := ja in
  rthen (py_index (an_x a) m) (fun x =>
  rthen (py_update anchors j (fun b => GdefAnchor (ga_name b) x (ga_y b))) (fun anchors =>
  rthen (py_index (an_y a) m) (fun y =>
  py_update anchors j (fun b => GdefAnchor (ga_name b) (ga_x b) y)))).
Fixpoint enumerate_from {A} (i : Z) (l : list A) : list (Z * A) :=
  match l with [] => [] | x :: l' => (i, x) :: enumerate_from (i + 1) l' end.
(** paths.py 104-117 [_extract_master_anchors]. Simplification: the list of anchors is never None. *)
Definition extract_anchors (m : Z) (anchors : list gdef_anchor) (mm_anchors : option (list mm_anchor))
  : res (list gdef_anchor) :=
  match mm_anchors with
  | None => Ok anchors
  | Some mm => res_fold (apply_anchor m) anchors (enumerate_from 0 mm)
  end.
(** paths.py 213-224 [_extract_master_mask_metrics] *)
Definition extract_mask_metrics (m : Z) (metrics mask_metrics : list (Z * Z)) : res (Z * Z) :=
  match mask_metrics with
  | [] => py_index metrics m
  | _ => if Z.of_nat (List.length mask_metrics) - 1 <? m then Err ValueError else py_index mask_metrics m
  end.
(** What the entries after the glyph entry have given: code points, anchors, their positions in the
    masters, widths and heights of the mask *)
Record glyph_extras := GlyphExtras {
  ge_unicodes : list Z; ge_anchors : list gdef_anchor; ge_mm_anchors : option (list mm_anchor);
  ge_mask_metrics : list (Z * Z) }.
Record master_glyph := MasterGlyph {
  um_metrics : Z * Z; um_anchors : list gdef_anchor; um_unicodes : list Z; um_mask_metrics : option (Z * Z) }.
(** paths.py 67-90 [build], builder.py 777-796: width and height, anchors, code points and, unless the
    export is minimal, width and height of the mask glyph *)
Definition build_master (minimal : bool) (m : Z) (g : mm_glyph) (e : glyph_extras) : res master_glyph :=
  rthen (if minimal then Ok None
         else rmap Some (extract_mask_metrics m (mg_metrics g) (ge_mask_metrics e))) (fun mask =>
  rthen (extract_anchors m (ge_anchors e) (ge_mm_anchors e)) (fun anchors =>
  rmap (fun metrics => MasterGlyph metrics anchors (ge_unicodes e) mask) (py_index (mg_metrics g) m))).

(** builder.py 481-486, 518-526: the entries that follow a glyph entry *)
Inductive extra_entry :=
| XUnicodes (l : list Z) | XNonBmp (l : list Z)
| XGdef (d : gdef) | XAnchorsMM (l : list mm_anchor)
| XMaskMetrics (w h : Z) | XMaskMetricsMM (l : list (Z * Z)).
Definition no_extras : glyph_extras := GlyphExtras [] [] None [].
Definition add_extra (e : glyph_extras) (x : extra_entry) : glyph_extras :=
  match x with
  | XUnicodes l | XNonBmp l => GlyphExtras (ge_unicodes e ++ l) (ge_anchors e) (ge_mm_anchors e) (ge_mask_metrics e)
  | XGdef d => match gd_anchors d with
               | Some l => GlyphExtras (ge_unicodes e) l (ge_mm_anchors e) (ge_mask_metrics e)
               | None => e
               end
  | XAnchorsMM l => GlyphExtras (ge_unicodes e) (ge_anchors e) (Some l) (ge_mask_metrics e)
  | XMaskMetrics w h => GlyphExtras (ge_unicodes e) (ge_anchors e) (ge_mm_anchors e) (ge_mask_metrics e ++ [(w, h)])
  | XMaskMetricsMM l => GlyphExtras (ge_unicodes e) (ge_anchors e) (ge_mm_anchors e) (ge_mask_metrics e ++ l)
  end.

(** ** Font info of one master *)
(** [value[:n]] *)
Definition slice_to {A} (n : Z) (l : list A) : list A :=
  if 0 <=? n then firstn (Z.to_nat n) l else firstn (Z.to_nat (Z.of_nat (List.length l) + n)) l.
(** the six counts of builder.py 94-99 *)
Record ps_counts := PsCounts {
  pn_blue_values : Z; pn_other_blues : Z; pn_family_blues : Z; pn_family_other_blues : Z;
  pn_stem_snap_h : Z; pn_stem_snap_v : Z }.
(** 726-737: one list *)
Definition set_clipped (attr : pystr) (n : Z) (l : list Z) (i : info) : info :=
  if n =? 0 then i else setattr attr (IList (slice_to n l)) i.
(** builder.py 693-737 [get_master_info] without guides. [blue_scale] is a double, given by its bits. *)
Definition get_master_info (include_ps_hints : bool) (n : ps_counts) (infos : list ps_info) (m : Z) (i : info)
  : res info :=
  rmap (fun p =>
    let i := setattr (py "ascender") (IInt (ps_ascender p)) i in
    let i := setattr (py "descender") (IInt (ps_descender p)) i in
    let i := setattr (py "xHeight") (IInt (ps_x_height p)) i in
    let i := setattr (py "capHeight") (IInt (ps_cap_height p)) i in
    if include_ps_hints then
      let i := setattr (py "postscriptBlueScale") (IDouble (ps_blue_scale p)) i in
      let i := setattr (py "postscriptBlueShift") (IInt (ps_blue_shift p)) i in
      let i := setattr (py "postscriptBlueFuzz") (IInt (ps_blue_fuzz p)) i in
      let i := setattr (py "postscriptForceBold") (IBool (negb (ps_force_bold p =? 0))) i in
      let i := set_clipped (py "postscriptBlueValues") (pn_blue_values n) (ps_blue_values p) i in
      let i := set_clipped (py "postscriptOtherBlues") (pn_other_blues n) (ps_other_blues p) i in
      let i := set_clipped (py "postscriptFamilyBlues") (pn_family_blues n) (ps_family_blues p) i in
      let i := set_clipped (py "postscriptFamilyOtherBlues") (pn_family_other_blues n) (ps_family_other_blues p) i in
      let i := set_clipped (py "postscriptStemSnapH") (pn_stem_snap_h n) (ps_stem_snap_h p) i in
      set_clipped (py "postscriptStemSnapV") (pn_stem_snap_v n) (ps_stem_snap_v p) i
    else i) (py_index infos m).
