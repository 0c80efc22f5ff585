(** Specification of what reaches the UFO of one master (C69, C70) and of what the export leaves in the
    Vfb (C71). *)
From Coq Require Import String.
From Verif Require Import Base M_Py M_Simple M_Glyph M_Info M_Master.
Local Open Scope list_scope.

(** ** What the entries after a glyph entry say *)
(** all code points, in order *)
Definition unicodes_of (es : list extra_entry) : list Z :=
  flat_map (fun x => match x with XUnicodes l | XNonBmp l => l | _ => [] end) es.
(** the anchors of the last GDEF data that have anchors *)
Definition anchors_of (es : list extra_entry) : list gdef_anchor :=
  last (flat_map (fun x => match x with
                           | XGdef d => match gd_anchors d with Some l => [l] | None => [] end
                           | _ => [] end) es) [].
(** the positions of the anchors in the masters, of the last entry with them *)
Definition mm_anchors_of (es : list extra_entry) : list mm_anchor :=
  last (flat_map (fun x => match x with XAnchorsMM l => [l] | _ => [] end) es) [].
(** width and height of the mask in each master: first the entry for the first master, then the one
    for the others *)
Definition mask_of (es : list extra_entry) : list (Z * Z) :=
  flat_map (fun x => match x with XMaskMetrics w h => [(w, h)] | XMaskMetricsMM l => l | _ => [] end) es.

(** "[a'] is the anchor number [j] in master [m]" *)
Definition anchor_in_master (m : nat) (es : list extra_entry) (j : nat) (a' : gdef_anchor) : Prop :=
  exists a, nth_error (anchors_of es) j = Some a /\ ga_name a' = ga_name a /\
  match nth_error (mm_anchors_of es) j with
  | Some p => nth_error (an_x p) m = Some (ga_x a') /\ nth_error (an_y p) m = Some (ga_y a')
  | None => ga_x a' = ga_x a /\ ga_y a' = ga_y a
  end.

(** ** Font info *)
(** the value of an attribute *)
Definition attr (i : info) (name : pystr) : option info_val := aget str_eqb name (if_attrs i).
(** the attributes that have a value for each master *)
Definition vertical_metrics (p : ps_info) : list (pystr * info_val) :=
  [(py "ascender", IInt (ps_ascender p)); (py "descender", IInt (ps_descender p));
   (py "xHeight", IInt (ps_x_height p)); (py "capHeight", IInt (ps_cap_height p))].
Definition hint_values (p : ps_info) : list (pystr * info_val) :=
  [(py "postscriptBlueScale", IDouble (ps_blue_scale p)); (py "postscriptBlueShift", IInt (ps_blue_shift p));
   (py "postscriptBlueFuzz", IInt (ps_blue_fuzz p));
   (py "postscriptForceBold", IBool (negb (ps_force_bold p =? 0)))].
(** lists with room for more values than are used, with the number of those that are *)
Definition hint_lists (n : ps_counts) (p : ps_info) : list (pystr * (Z * list Z)) :=
  [(py "postscriptBlueValues", (pn_blue_values n, ps_blue_values p));
   (py "postscriptOtherBlues", (pn_other_blues n, ps_other_blues p));
   (py "postscriptFamilyBlues", (pn_family_blues n, ps_family_blues p));
   (py "postscriptFamilyOtherBlues", (pn_family_other_blues n, ps_family_other_blues p));
   (py "postscriptStemSnapH", (pn_stem_snap_h n, ps_stem_snap_h p));
   (py "postscriptStemSnapV", (pn_stem_snap_v n, ps_stem_snap_v p))].
Definition used_lists (n : ps_counts) (p : ps_info) : list (pystr * info_val) :=
  flat_map (fun x => let '(name, (k, l)) := x in
                     if k =? 0 then [] else [(name, IList (firstn (Z.to_nat k) l))]) (hint_lists n p).
(** all that the master says *)
Definition master_values (hints : bool) (n : ps_counts) (p : ps_info) : list (pystr * info_val) :=
  vertical_metrics p ++ if hints then hint_values p ++ used_lists n p else [].
Definition counts_ok (n : ps_counts) : Prop :=
  Forall (fun k => 0 <= k) [pn_blue_values n; pn_other_blues n; pn_family_blues n; pn_family_other_blues n;
                            pn_stem_snap_h n; pn_stem_snap_v n].

(** ** The data of a glyph entry *)
(** the same, but without hint masks *)
Definition lost_masks (d d' : glyph) : Prop :=
  g_name d' = g_name d /\ g_num_masters d' = g_num_masters d /\ g_nodes d' = g_nodes d /\
  g_metrics d' = g_metrics d /\ g_guides d' = g_guides d /\ g_components d' = g_components d /\
  g_kerning d' = g_kerning d /\ g_imported d' = g_imported d /\ g_tth d' = g_tth d /\
  match g_hints d, g_hints d' with
  | Some h, Some h' => mh_h h' = mh_h h /\ mh_v h' = mh_v h /\ mh_masks h' = None
  | None, None => True
  | _, _ => False
  end.
Definition has_masks (d : glyph) : Prop := exists h m, g_hints d = Some h /\ mh_masks h = Some m.
