(** Model of the UFOs: ufo/builder.py 404-414, 661-679, 693-878, ufo/paths.py 67-96, 119-246, 254-261,
    ufo/glyph.py 104-117, 124-151. The parts are modelled in M_Export, M_Master, M_Guides, M_Paths, M_PsHints, M_Tth,
    M_Groups and M_Features; here they are put together, from the font that the loop over the entries has built
    (M_Build) to the UFO of each master. *)
From Coq Require Import String QArith.
From Verif Require Import Base M_Py M_Simple M_Text M_TrueType M_Bitmap M_Glyph M_Options M_Container M_Table M_Groups.
From Verif Require Import M_Info M_FontInfo M_Tth M_Programs M_Builder M_Master M_Features M_Designspace M_Build.
From Verif Require Import M_Labels M_PsHints M_Paths M_Guides M_Export.
Local Open Scope list_scope.
Local Open Scope Z_scope.

(** ** What a glyph of the builder has *)
(** [xl_]: the lib that ufo/glyph.py and the loop of the builder fill; [links], [mm_mask_nodes], [guide_properties],
    [anchors] and [mm_anchors] with the values of [VfbToUfoGlyph.__init__] when no entry has set them *)
Definition field_data (f : field) (g : bglyph gvalue) : option value :=
  match aget field_eqb f (bg_fields g) with
  | Some (VData d) => Some d
  | _ => None
  end.
Definition glyph_links (g : bglyph gvalue) : links :=
  match field_data FLinks g with Some (DLinks l) => l | _ => Links [] [] end.
(** ufo/glyph.py 119-120 [set_mask] *)
Definition glyph_mask (g : bglyph gvalue) : list mm_node :=
  match field_data FMask g with
  | Some (DMask m) => match mo_nodes (mk_outlines m) with Some l => l | None => [] end
  | _ => []
  end.
Definition glyph_props (g : bglyph gvalue) : guide_props :=
  match field_data FGuides g with Some (DGuideProps p) => p | _ => GuideProps [] [] end.
(** builder.py 496-504 *)
Definition glyph_anchors (g : bglyph gvalue) : list gdef_anchor :=
  match field_data FAnchors g with
  | Some (DGdef d) => match gd_anchors d with Some l => l | None => [] end
  | _ => []
  end.
Definition glyph_mm_anchors (g : bglyph gvalue) : option (list mm_anchor) :=
  match field_data FMMAnchors g with Some (DAnchors l) => Some l | _ => None end.
Definition glyph_extras_of (g : bglyph gvalue) : glyph_extras :=
  GlyphExtras (bg_unicodes g) (glyph_anchors g) (glyph_mm_anchors g) (bg_mask g).

(** ufo/glyph.py 114-117 [set_mark]: [hls_to_rgb(h=hue / 255, l=0.8, s=0.76)] in ten-thousandths. Simplification: exact
    numbers; for hues of 16 bits the doubles are so near that the four digits are the same. *)
Definition channel (h : Z) : Z :=
  let h := h mod 255 in
  if 6 * h <? 255 then 6480 + (2432 * h + 17) / 34
  else if 2 * h <? 255 then 9520
  else if h <? 170 then 6480 + (2432 * (170 - h) + 17) / 34
  else 6480.
Definition mark_color (hue : Z) : pystr :=
  let digits n := dec_str (n / 10000) ++ py "." ++ dec_pad4 (n mod 10000) in
  digits (channel (hue + 85)) ++ py "," ++ digits (channel hue) ++ py "," ++ digits (channel (hue - 85)) ++ py ",1".

(** ** The lib of a glyph *)
(** "com.fontlab.ttprogram" is text, or bytes if it is encoded *)
Inductive tt_data := TtText (s : pystr) | TtBytes (b : bytes).
(** the keys: "public.truetype.instructions", "com.adobe.type.autohint.v2" (its hint sets), "com.fontlab.ttprogram",
    "com.fontlab.v5.userData", "public.markColor", "com.fontlab.v5.background", "com.fontlab.v5.bitmaps" *)
Record glyph_lib := GlyphLib {
  gl_program : option pystr; gl_hints : option (list (pystr * list pystr)); gl_tth : option tt_data;
  gl_user_data : option value; gl_mark : option pystr; gl_background : option background;
  gl_bitmaps : option (list ufo_bitmap) }.
(** base64.b64encode: groups of three bytes, with the alphabet of RFC 4648 *)
Definition b64_char (n : Z) : Z :=
  if n <? 26 then 65 + n else if n <? 52 then 97 + (n - 26) else if n <? 62 then 48 + (n - 52)
  else if n =? 62 then 43 else 47.
Fixpoint b64encode (b : bytes) : bytes :=
  match b with
  | [] => []
  | [x] => [b64_char (x / 4); b64_char (x mod 4 * 16); 61; 61]
  | [x; y] => [b64_char (x / 4); b64_char (x mod 4 * 16 + y / 16); b64_char (y mod 16 * 4); 61]
  | x :: y :: z :: b => [b64_char (x / 4); b64_char (x mod 4 * 16 + y / 16); b64_char (y mod 16 * 4 + z / 64); b64_char (z mod 64)]
                        ++ b64encode b
  end.
(** ufo/paths.py 254-259 of [_finalize_lib]; [data.encode("ascii")] *)
Definition finalize_tth (encode : bool) (t : option pystr) : res (option tt_data) :=
  match t with
  | None => Ok None
  | Some s => if encode then
                if forallb (fun c => c <? 128) s then Ok (Some (TtBytes (b64encode s))) else Err UnicodeEncodeError
              else Ok (Some (TtText s))
  end.
(** builder.py 218-222: the preview is deleted *)
Definition drop_preview (b : background) : background :=
  Background (bg_origin b) (bg_size_units b) (bg_size_pixels b) (Bitmap (bm_data (bg_bitmap b)) None).

(** ** One master of a glyph *)
(** what [get_ufo_master] sets in a UFO glyph. The note of a ufoLib2 glyph is never set. *)
Record ufo_glyph := UfoGlyph {
  og_width : Z; og_height : Z; og_unicodes : list Z; og_contours : list (list upoint);
  og_components : list (ucomponent Z); og_anchors : list gdef_anchor; og_guidelines : list ufo_guide;
  og_note : option pystr; og_lib : glyph_lib }.
Record mask_glyph := MaskGlyph { ok_width : Z; ok_height : Z; ok_contours : list (list upoint) }.

(** the arguments of the export that are not in [settings]: [base64], [add_kerning_groups_to_fea],
    [move_groups_to_fea]; the number of a double, and [round(x, 15)] as an integer if it is one *)
Record options := Options {
  op_base64 : bool; op_kerning_fea : bool; op_move_fea : bool;
  op_number : Z -> Q; op_round15 : Z -> Z; op_fuel : nat }.

Section Export.
  Variable c : settings.
  Variable o : options.
  Variable order : list pystr.

  Definition eglyph_of (m : mm_glyph) (g : bglyph gvalue) : eglyph :=
    EGlyph (mg_nodes m) (mg_masks m) (mg_h m) (mg_v m) (glyph_links g).
  Definition component_of (k : M_Glyph.component) : M_Paths.component Z :=
    M_Paths.Component (M_Glyph.co_gid k) (co_sx k) (co_sy k) (co_x k) (co_y k).

  (** paths.py 67-90 [build] and builder.py 772-800: one glyph of master [m], with its mask. [commands] are the
      TrueType commands. Lines 263-314, the renaming of points in [self.tth_commands] (M_Rename; C89_renaming), come after the commands have
      been put into the lib and have no effect. Simplification: if several steps fail, the first here may not be
      the first in the code, so the error may be another one. *)
  Definition export_one (m : Z) (name : pystr) (g : bglyph gvalue) (commands : list command) (st : store)
    : res (ufo_glyph * option mask_glyph * store) :=
    match bg_data g with
    | VData _ => Err TypeError
    | VGlyph x _ =>
        rthen (export_glyph (op_fuel o) order (st_ps_hints c) m name (eglyph_of x g) st) (fun r =>
        rthen (tth_lib commands) (fun tth =>
        rthen (if st_minimal c then Ok None
               else rmap Some (extract_contours m (fun _ => None) (glyph_mask g))) (fun mask =>
        rthen (extract_components (op_round15 o) order m (map component_of (mg_components x))) (fun components =>
        rthen (build_master (st_minimal c) m x (glyph_extras_of g)) (fun d =>
        rthen (if st_minimal c then Ok []
               else match mg_guides x with
                    | None => Ok []
                    | Some gs => extract_guides (op_number o) gs (glyph_props g) m
                    end) (fun guides =>
        rmap (fun tth =>
          (UfoGlyph (fst (um_metrics d)) (snd (um_metrics d)) (um_unicodes d) (ex_contours (fst r)) components
             (um_anchors d) guides None
             (GlyphLib (option_map (format_list (st_asm c)) (mg_instructions x))
                (match ex_hints (fst r) with [] => None | l => Some l end) tth
                (field_data FUserData g)
                (match field_data FMark g with Some (DInt hue) => Some (mark_color hue) | _ => None end)
                (match field_data FBackground g with Some (DBackground b) => Some (drop_preview b) | _ => None end)
                (match field_data FBitmaps g with Some (DBitmaps l) => Some (set_glyph_bitmaps l) | _ => None end)),
           match mask, um_mask_metrics d with
           | Some (contours, _), Some (w, h) => Some (MaskGlyph w h contours)
           | _, _ => None
           end, snd r))
          (finalize_tth (op_base64 o) tth)))))))
    end.

  (** builder.py 772-804: the loop over the glyphs; only mask glyphs with contours are kept *)
  Fixpoint export_all (m : Z) (glyphs : list (pystr * bglyph gvalue)) (commands : list (pystr * list command)) (st : store)
    : res (list (pystr * ufo_glyph) * list (pystr * mask_glyph) * store) :=
    match glyphs with
    | [] => Ok ([], [], st)
    | (name, g) :: glyphs =>
        rthen (export_one m name g (match aget str_eqb name commands with Some l => l | None => [] end) st) (fun a =>
        rmap (fun b =>
          ((name, fst (fst a)) :: fst (fst b),
           match snd (fst a) with
           | Some k => match ok_contours k with [] => snd (fst b) | _ => (name, k) :: snd (fst b) end
           | None => snd (fst b)
           end, snd b))
          (export_all m glyphs commands (snd a)))
    end.

  (** ** TrueType commands *)
  (** ufo/glyph.py 142-151 [__lt__] *)
  Fixpoint str_ltb (a b : pystr) : bool :=
    match a, b with
    | _, [] => false
    | [], _ :: _ => true
    | x :: a, y :: b => (x <? y) || ((x =? y) && str_ltb a b)
    end.
  Definition components_count (g : bglyph gvalue) : Z :=
    match bg_data g with VGlyph x _ => Z.of_nat (List.length (mg_components x)) | VData _ => 0 end.
  Definition glyph_ltb (a b : pystr * bglyph gvalue) : bool :=
    let na := components_count (snd a) in
    let nb := components_count (snd b) in
    (na <? nb) || ((na =? nb) && str_ltb (bg_name (snd a)) (bg_name (snd b))).
  (** [sorted], which is stable: an element is put before the first one that is not less, from the last element on *)
  Fixpoint insert_glyph (x : pystr * bglyph gvalue) (l : list (pystr * bglyph gvalue)) : list (pystr * bglyph gvalue) :=
    match l with
    | [] => [x]
    | y :: l' => if glyph_ltb y x then y :: insert_glyph x l' else x :: l
    end.
  Definition sorted_glyphs (l : list (pystr * bglyph gvalue)) : list (pystr * bglyph gvalue) := fold_right insert_glyph [] l.
  (** the glyph's own zone names (builder.py 207) *)
  Definition own_zone (z : option (list pystr * list pystr)) (top : bool) (i : Z) : res pystr :=
    match z with
    | Some (t, b) => py_index (if top then t else b) i
    | None => Err KeyError
    end.
  (** builder.py 409-414 [build_tt_glyph_lib] *)
  Fixpoint tt_glyph_lib (t : tt_state) (l : list (pystr * bglyph gvalue)) (st : store)
    : res (list (pystr * list command) * store) :=
    match l with
    | [] => Ok ([], st)
    | (name, g) :: l =>
        match bg_data g with
        | VGlyph x z =>
            match mg_tth x with
            | Some cmds =>
                rthen (export_commands store (builder_label (op_fuel o) order name) (own_zone z) (builder_stems t) st cmds) (fun a =>
                rmap (fun b => ((name, fst a) :: fst b, snd b)) (tt_glyph_lib t l (snd a)))
            | None => tt_glyph_lib t l st
            end
        | VData _ => tt_glyph_lib t l st
        end
    end.
  (** the labels before that: none *)
  Definition first_store (glyphs : list (pystr * bglyph gvalue)) : store :=
    map (fun p => (fst p, match bg_data (snd p) with
                          | VGlyph x _ => LGlyph (map M_Glyph.co_gid (mg_components x)) (Z.of_nat (List.length (mg_nodes x))) [] []
                          | VData _ => LGlyph [] 0 [] []
                          end)) glyphs.
End Export.

(** ** The UFOs *)
(** the lib of the font: the key of TrueType hinting has options, stems and zones, and is left out if it is empty
    (builder.py 669-672); [fl_programs] is the lib of the info (builder.py 845-846); [fl_other] the user data and class flags *)
Record font_lib := FontLib {
  fl_order : list pystr; fl_group_order : list pystr; fl_key_glyphs : list (pystr * pystr);
  fl_hinting : option (list (pystr * Z) * list (pystr * ustem) * list (pystr * uzone));
  fl_programs : option (list (pystr * info_val)); fl_other : list (pystr * value) }.
Record ufo := Ufo {
  uf_features : pystr; uf_groups : groups; uf_info : info; uf_guidelines : list ufo_guide;
  uf_kerning : pair_kerning Z; uf_lib : font_lib; uf_glyphs : list (pystr * ufo_glyph);
  uf_background : list (pystr * mask_glyph) (* the layer "public.background", which does not exist if it is empty *) }.

(** builder.py 669-672 *)
Definition hinting_lib (s : font) : option (list (pystr * Z) * list (pystr * ustem) * list (pystr * uzone)) :=
  match (match fo_options s with Some l => l | None => [] end), build_tt_stems_lib (fo_tt s), ex_zones (fo_tt s) with
  | [], [], [] => None
  | options, stems, zones => Some (options, stems, zones)
  end.
(** builder.py 740-746 *)
Definition font_guides (c : settings) (o : options) (s : font) (m : Z) : res (list ufo_guide) :=
  if st_minimal c then Ok []
  else match fo_guides s with
       | None => Ok []
       | Some g => extract_guides (op_number o) g (fo_props s) m
       end.
Definition ps_infos (s : font) : list ps_info :=
  flat_map (fun v => match v with VData (DPSInfo p) => [p] | _ => [] end) (bs_infos (fo_glyphs s)).
(** builder.py 750-822 [get_ufo_master], without the hashes of glyphs *)
Definition get_ufo_master (c : settings) (o : options) (s : font) (sh : ufo_shared) (lib : font_lib)
  (commands : list (pystr * list command)) (m : Z) (st : store) : res (ufo * store) :=
  let b := fo_glyphs s in
  rthen (get_master_kerning (us_kerning sh) m) (fun kerning =>
  rthen (get_master_info (st_ps_hints c) (fo_counts s) (ps_infos s) m (fo_info s)) (fun info =>
  rthen (font_guides c o s m) (fun guides =>
  rmap (fun g => (Ufo (us_features sh) (us_groups sh) info guides kerning lib (fst (fst g)) (snd (fst g)), snd g))
       (export_all c o (bs_order b) m (bs_glyphs b) commands st)))).
(** the loop of builder.py 874-877 *)
Fixpoint ufo_masters (c : settings) (o : options) (s : font) (sh : ufo_shared) (lib : font_lib)
  (commands : list (pystr * list command)) (m : Z) (n : nat) (st : store) : res (list ufo) :=
  match n with
  | O => Ok []
  | S n => rthen (get_ufo_master c o s sh lib commands m st) (fun a =>
           rmap (cons (fst a)) (ufo_masters c o s sh lib commands (m + 1) n (snd a)))
  end.
(** builder.py 668 and 824-878 [get_ufo_masters] *)
Definition get_ufo_masters (c : settings) (o : options) (s : font) : res (list ufo) :=
  let b := fo_glyphs s in
  rthen (tt_glyph_lib o (bs_order b) (fo_tt s) (sorted_glyphs (bs_glyphs b)) (first_store (bs_glyphs b))) (fun t =>
  rthen (transform_groups (fo_groups s) (fo_flags s) (bs_order b) (st_minimal c)) (fun tg =>
  rthen (export_shared (fo_groups s) (fo_flags s) (bs_order b) (st_minimal c) (op_kerning_fea o) (op_move_fea o)
           (bs_kerning b) (fo_features s)) (fun sh =>
  ufo_masters c o s sh
    (FontLib (bs_order b) (tg_order tg) (tg_keys tg) (hinting_lib s) (if_lib (fo_info s)) (fo_lib s))
    (fst t) 0 (List.length (bs_masters b)) (snd t)))).
(** From the entries to the UFOs *)
Definition vfb_to_ufos (c : settings) (o : options) (es : list (Z * option value)) : res (list ufo) :=
  rthen (build_font c es) (get_ufo_masters c o).
