(** Specification of the UFOs (C86, C87): what of a VFB each master has. *)
From Coq Require Import String QArith.
From Verif Require Import Base M_Py M_Helpers M_Simple M_Text M_TrueType M_Bitmap M_Glyph M_Options M_Container M_Table M_Groups.
From Verif Require Import M_Info M_FontInfo M_Tth M_Programs M_Builder M_Master M_Features M_Designspace M_Build M_Labels M_PsHints.
From Verif Require Import M_Paths M_Guides M_Export M_Ufo S_Build S_Paths S_Guides S_Builder.
Local Open Scope list_scope.
Local Open Scope Z_scope.

(** ** The glyph entries of a file, each with the entries that follow it, up to the next glyph entry *)
Fixpoint split_glyphs (l : list (Z * value)) : list (Z * value) * list (glyph * list (Z * value)) :=
  match l with
  | [] => ([], [])
  | e :: l => let '(details, blocks) := split_glyphs l in
              match e with
              | (2001, DGlyph x) => ([], (x, details) :: blocks)
              | _ => (e :: details, blocks)
              end
  end.
Definition glyph_blocks (l : list (Z * value)) : list (glyph * list (Z * value)) := snd (split_glyphs l).

(** the names of the alignment zones, top and bottom, that the last entry with zones before each glyph entry has *)
Fixpoint glyph_zones (z : option (list pystr * list pystr)) (l : list (Z * value)) : list (option (list pystr * list pystr)) :=
  match l with
  | [] => []
  | e :: l => match e with
              | (2001, DGlyph _) => z :: glyph_zones z l
              | _ => glyph_zones (zones_of e z) l
              end
  end.

(** ** What the entries that follow a glyph entry say *)
(** the last data of the entries [k] *)
Definition said (k : Z) (details : list (Z * value)) : option value := last_or None (map Some (flat_map (data_part k) details)).
Definition code_points (details : list (Z * value)) : list Z :=
  flat_map (fun e => match e with (1250, DInts l) | (1253, DInts l) => l | _ => [] end) details.
(** the anchors of the last GDEF data that have anchors *)
Definition said_anchors (details : list (Z * value)) : list gdef_anchor :=
  last_or [] (flat_map (fun e => match e with
                                 | (2018, DGdef d) => match gd_anchors d with Some l => [l] | None => [] end
                                 | _ => [] end) details).
Definition said_positions (details : list (Z * value)) : list mm_anchor :=
  match said 2029 details with Some (DAnchors l) => l | _ => [] end.
Definition said_links (details : list (Z * value)) : links :=
  match said 2008 details with Some (DLinks l) => l | _ => Links [] [] end.
Definition said_props (details : list (Z * value)) : guide_props :=
  match said 2031 details with Some (DGuideProps p) => p | _ => GuideProps [] [] end.
Definition said_mask (details : list (Z * value)) : list mm_node :=
  match said 2009 details with
  | Some (DMask m) => match mo_nodes (mk_outlines m) with Some l => l | None => [] end
  | _ => []
  end.
Definition mask_sizes (details : list (Z * value)) : list (Z * Z) :=
  flat_map (fun e => match e with (2011, DPair wh) => [wh] | (2028, DPairs l) => l | _ => [] end) details.

(** ** Outlines *)
(** The UFO contour [c] draws what the contour [g] of the file has in master [m]. *)
Definition drawn (m : nat) (g : list mm_node) (c : list upoint) : Prop :=
  match g with
  | [] => False
  | [n] => exists p, c = [p] /\ up_type p = Some SMove /\ up_pt p = node_pt m n
  | n :: rest => ufo_path c = Some (source_path m (Z.odd (nd_flags n / 8)) n rest)
  end.
Definition outline_shown (m : nat) (nodes : list mm_node) (cs : list (list upoint)) : Prop :=
  forall gs, Forall (node_ok m) nodes -> contours_of nodes gs -> Forall2 (drawn m) gs cs.
(** a component refers to the glyph with its number *)
Definition component_shown (round15 : Z -> Z) (names : list pystr) (m : nat) (k : M_Glyph.component) (u : ucomponent Z) : Prop :=
  (0 <= M_Glyph.co_gid k -> nth_error names (Z.to_nat (M_Glyph.co_gid k)) = Some (uc_name _ u)) /\
  nth_error (co_x k) m = Some (uc_dx _ u) /\ nth_error (co_y k) m = Some (uc_dy _ u) /\
  (exists x, nth_error (co_sx k) m = Some x /\ uc_xx _ u = round15 x) /\
  (exists y, nth_error (co_sy k) m = Some y /\ uc_yy _ u = round15 y).

(** ** Anchors and guides *)
(** [u] is anchor number [j] of [anchors], at its position in master [m] if there is one *)
Definition anchor_shown (m : nat) (anchors : list gdef_anchor) (positions : list mm_anchor) (j : nat) (u : gdef_anchor) : Prop :=
  exists a, nth_error anchors j = Some a /\ ga_name u = ga_name a /\
  match nth_error positions j with
  | Some p => nth_error (an_x p) m = Some (ga_x u) /\ nth_error (an_y p) m = Some (ga_y u)
  | None => ga_x u = ga_x a /\ ga_y u = ga_y a
  end.
(** the guides: first the horizontal, then the vertical ones, with the colours and names of the properties *)
Definition guides_shown (number : Z -> Q) (m : nat) (d : guides) (props : guide_props) (us : list ufo_guide) : Prop :=
  Forall (fun g => exists mg, nth_error g m = Some mg /\ (-(90 # 1) <= number (gm_angle mg) <= 90 # 1)%Q) (gs_h d ++ gs_v d) ->
  Forall guide_prop_ok (gps_h props ++ gps_v props) ->
  exists h v, us = h ++ v /\
    Forall2 (placed number false m) (gs_h d) h /\ Forall2 (placed number true m) (gs_v d) v /\
    (forall i u, nth_error h i = Some u ->
       given says_color (gps_h props) (Z.of_nat i + 1) (ug_color u) /\
       given says_name (gps_h props) (Z.of_nat i + 1) (ug_name u)) /\
    (forall i u, nth_error v i = Some u ->
       given says_color (gps_v props) (Z.of_nat i + 1) (ug_color u) /\
       given says_name (gps_v props) (Z.of_nat i + 1) (ug_name u)).

(** ** Colours *)
(** the colour of hue [t] with lightness 0.8 and saturation 0.76, one channel (the others are a third of the circle
    away); [t] is between 0 and 1 *)
Definition hls_channel (t : Q) : Q :=
  (if Qle_bool (1 # 6) t then
     if Qle_bool (1 # 2) t then
       if Qle_bool (2 # 3) t then 648 # 1000
       else (648 # 1000) + (304 # 1000) * ((2 # 3) - t) * 6
     else 952 # 1000
   else (648 # 1000) + (304 # 1000) * t * 6)%Q.
(** [s] is the number [q] with four digits behind the point *)
Definition four_digits (q : Q) (s : pystr) : Prop :=
  exists d0 d1 d2 d3 d4, s = [48 + d0; 46; 48 + d1; 48 + d2; 48 + d3; 48 + d4] /\
    Forall (fun d => 0 <= d <= 9) [d0; d1; d2; d3; d4] /\
    (Qabs.Qabs ((10000 * d0 + 1000 * d1 + 100 * d2 + 10 * d3 + d4 # 10000) - q) <= 1 # 20000)%Q.
(** the colour of [hue] of 255 *)
Definition hue_color (hue : Z) (s : pystr) : Prop :=
  exists r g b, s = r ++ py "," ++ g ++ py "," ++ b ++ py ",1" /\
    four_digits (hls_channel ((hue + 85) mod 255 # 255)) r /\ four_digits (hls_channel (hue mod 255 # 255)) g /\
    four_digits (hls_channel ((hue - 85) mod 255 # 255)) b.

(** ** A glyph of a master *)
Record glyph_shown (c : settings) (o : options) (names : list pystr) (m : nat) (x : glyph) (details : list (Z * value))
  (u : ufo_glyph) : Prop := GlyphShown {
  sh_metrics : exists metrics, g_metrics x = Some metrics /\ nth_error metrics m = Some (og_width u, og_height u);
  sh_unicodes : og_unicodes u = code_points details;
  sh_outline : exists nodes, g_nodes x = Some nodes /\ outline_shown m nodes (og_contours u);
  sh_components : Forall2 (component_shown (op_round15 o) names m)
                          (match g_components x with Some l => l | None => [] end) (og_components u);
  sh_anchors : List.length (og_anchors u) = List.length (said_anchors details) /\
    forall j a, nth_error (og_anchors u) j = Some a -> anchor_shown m (said_anchors details) (said_positions details) j a;
  sh_guides : if st_minimal c then og_guidelines u = []
              else match g_guides x with
                   | None => og_guidelines u = []
                   | Some d => guides_shown (op_number o) m d (said_props details) (og_guidelines u)
                   end;
  sh_user_data : gl_user_data (og_lib u) = said 2015 details;
  sh_mark : match said 2012 details with
            | Some (DInt hue) => exists s, gl_mark (og_lib u) = Some s /\ hue_color hue s
            | _ => gl_mark (og_lib u) = None
            end;
  sh_background : match said 2007 details with
                  | Some (DBackground b) => gl_background (og_lib u) =
                      Some (Background (bg_origin b) (bg_size_units b) (bg_size_pixels b) (Bitmap (bm_data (bg_bitmap b)) None))
                  | _ => gl_background (og_lib u) = None
                  end;
  sh_bitmaps : gl_bitmaps (og_lib u) =
               match said 2013 details with Some (DBitmaps l) => Some (set_glyph_bitmaps l) | _ => None end;
  sh_program : gl_program (og_lib u) =
               match g_imported x with
               | Some i => match im_instructions i with
                           | Some (a :: p) => Some (format_list (st_asm c) (a :: p))
                           | _ => None
                           end
               | None => None
               end;
  sh_hints : st_ps_hints c = false -> gl_hints (og_lib u) = None;
  sh_tth : g_tth x = None -> gl_tth (og_lib u) = None }.

(** ** The mask of a glyph: its own outline, without names of points, and its own size if there is one *)
Record mask_shown (m : nat) (x : glyph) (details : list (Z * value)) (k : mask_glyph) : Prop := MaskShown {
  mh_size : match mask_sizes details with
            | [] => exists metrics, g_metrics x = Some metrics /\ nth_error metrics m = Some (ok_width k, ok_height k)
            | sizes => nth_error sizes m = Some (ok_width k, ok_height k)
            end;
  mh_outline : outline_shown m (said_mask details) (ok_contours k);
  mh_unnamed : forall gs, Forall (node_ok m) (said_mask details) -> contours_of (said_mask details) gs ->
    Forall (Forall (fun p => up_name p = None)) (ok_contours k) }.
Definition has_mask (b : glyph * list (Z * value)) : bool := match said_mask (snd b) with [] => false | _ => true end.

(** ** The masters of the file: the entries with names, but at least one for a font without axes and [n ^ 2] for a font
    with [n] axes (C53) *)
Definition count_of_masters (l : list (Z * value)) : Z :=
  let axes := last_or 0 (flat_map (int_part 1513) l) in
  Z.max (Z.of_nat (List.length (flat_map (data_part 1504) l))) (if axes =? 0 then 1 else axes ^ 2).
Definition names_of (l : list (Z * value)) : list pystr := flat_map name_of (glyph_entries l).
(** a file whose glyphs have different names and different partners in their kerning; the entries with details follow a
    glyph *)
Definition good_glyphs (l : list (Z * value)) : Prop :=
  details_follow l /\ names_of l <> [] /\ NoDup (names_of l) /\ not_crowded (removelast (names_of l)) /\
  Forall (fun x => NoDup (map fst (kerning_of x))) (glyph_entries l).
(** the PostScript infos of the masters and the numbers of values of the file *)
Definition infos_said (l : list (Z * value)) : list ps_info := flat_map (fun e => match e with (1536, DPSInfo p) => [p] | _ => [] end) l.
Definition counts_said (l : list (Z * value)) : ps_counts :=
  let n k := last_or 0 (flat_map (int_part k) l) in PsCounts (n 1530) (n 1531) (n 1532) (n 1533) (n 1534) (n 1535).
