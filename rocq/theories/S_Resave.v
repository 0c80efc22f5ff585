(** Specification of C95: when the UFOs made from two files are the same. *)
From Coq Require Import String Permutation.
From Verif Require Import Base M_Py M_TrueType M_Glyph M_Table M_Groups M_Features.
From Verif Require Import M_Info M_FontInfo M_Tth M_Designspace M_Paths M_Guides M_Programs M_Builder M_Master M_Classes M_Build M_Ufo S_Glyph.
Local Open Scope list_scope.

(** two dicts with the same items, in any order *)
Definition same_dict {V} (d e : list (pystr * V)) : Prop := NoDup (map fst d) /\ Permutation d e.
Definition same_info (i j : info) : Prop :=
  same_dict (if_attrs i) (if_attrs j) /\ same_option same_dict (if_lib i) (if_lib j).
(** the same zone, with the same deltas *)
Definition same_zone (p q : pystr * uzone) : Prop :=
  fst p = fst q /\ uz_position (snd p) = uz_position (snd q) /\ uz_top (snd p) = uz_top (snd q) /\
  uz_width (snd p) = uz_width (snd q) /\ same_option same_dict (uz_delta (snd p)) (uz_delta (snd q)).
(** options and stems are equal, the zones are in the same order *)
Definition same_hinting (x y : list (pystr * Z) * list (pystr * ustem) * list (pystr * uzone)) : Prop :=
  fst x = fst y /\ Forall2 same_zone (snd x) (snd y).
Definition same_lib (x y : font_lib) : Prop :=
  fl_order x = fl_order y /\ fl_group_order x = fl_group_order y /\ fl_key_glyphs x = fl_key_glyphs y /\
  same_option same_hinting (fl_hinting x) (fl_hinting y) /\
  same_option same_dict (fl_programs x) (fl_programs y) /\ fl_other x = fl_other y.
(** Everything is equal, except for the order of the attributes of the font info, of the items of the lib with the
    TrueType programs, and of the deltas of each zone. *)
Definition same_ufo (u v : ufo) : Prop :=
  uf_features u = uf_features v /\ uf_groups u = uf_groups v /\ same_info (uf_info u) (uf_info v) /\
  uf_guidelines u = uf_guidelines v /\ uf_kerning u = uf_kerning v /\ same_lib (uf_lib u) (uf_lib v) /\
  uf_glyphs u = uf_glyphs v /\ uf_background u = uf_background v.

(** ** What a file must satisfy *)
(** every glyph has a name *)
Definition glyphs_named (es : list (Z * option value)) : Prop :=
  forall x, In (2001, Some (DGlyph x)) es -> g_name x <> Some [].
(** the names of the TrueType zones, in the order in which the deltas count them *)
Definition zone_names (e : Z * option value) : list pystr :=
  match e with
  | (1255, Some (DZones z)) => map tz_name (or_nil (tz_bottom z)) ++ map tz_name (or_nil (tz_top z))
  | _ => []
  end.
(** no two zones have the same name, and the deltas count the zones from 0 *)
Definition zones_distinct (es : list (Z * option value)) : Prop :=
  NoDup (flat_map zone_names es) /\
  forall d, In (1273, Some (DDeltas d)) es -> Forall (fun zs => 0 <= fst zs) d.
