(** Specification of hinting in the UFOs (C89, C90): which point, zone and stem the hints of a file name. *)
From Coq Require Import String QArith.
From Verif Require Import S_Tth S_Base64.
From Verif Require Import Base M_Py M_Helpers M_Simple M_Text M_TrueType M_Bitmap M_Glyph M_Options M_Container M_Table M_Groups.
From Verif Require Import M_Info M_FontInfo M_Tth M_Programs M_Builder M_Master M_Features M_Designspace M_Build M_Labels M_PsHints.
From Verif Require Import M_Paths M_Guides M_Export M_Ufo S_Build S_Paths S_Ufo S_Labels S_PsHints S_Export.
Local Open Scope list_scope.
Local Open Scope Z_scope.

Definition nodes_of (x : glyph) : list mm_node := match g_nodes x with Some l => l | None => [] end.
Definition components_of (x : glyph) : list M_Glyph.component := match g_components x with Some l => l | None => [] end.

(** ** PostScript hints *)
(** the outline of a glyph entry, and its hints, masks and links if [ps] *)
Definition hinted_entry (ps : bool) (b : glyph * list (Z * value)) : eglyph :=
  if ps then
    EGlyph (nodes_of (fst b))
           (match g_hints (fst b) with Some h => match mh_masks h with Some m => m | None => [] end | None => [] end)
           (match g_hints (fst b) with Some h => mh_h h | None => [] end)
           (match g_hints (fst b) with Some h => mh_v h | None => [] end)
           (said_links (snd b))
  else EGlyph (nodes_of (fst b)) [] [] [] (Links [] []).
(** Every glyph has contours, hints and links in all masters, its masks name nodes and hints that are there, and
    glyphs with components have no hints of their own. *)
Definition hints_fine (ps : bool) (l : list (Z * value)) : Prop :=
  Forall (fun b => let e := hinted_entry ps b in
    (exists gs, contours_of (nodes_of (fst b)) gs) /\
    (no_hints e \/ (components_of (fst b) = [] /\ masks_ok e)) /\
    forall m, Z.of_nat m < count_of_masters l -> master_ok e m) (glyph_blocks l).

(** ** TrueType commands *)
(** the names of the stems, in the order of the file *)
Definition stem_names (l : list (Z * value)) (hor : bool) : list pystr :=
  flat_map (fun e => match e with
                     | (1269, DStems d) => flat_map (fun s => match ts_name s with Some n => [n] | None => [] end)
                                                    (if hor then tts_h d else tts_v d)
                     | _ => []
                     end) l.
(** the component [k] is the glyph [y] of the file, which has no components *)
Definition part (l : list (Z * value)) (k : M_Glyph.component) (y : glyph) : Prop :=
  0 <= M_Glyph.co_gid k /\ nth_error (glyph_entries l) (Z.to_nat (M_Glyph.co_gid k)) = Some y /\ components_of y = [].
Definition count_nodes (ys : list glyph) : Z := fold_right (fun y n => Z.of_nat (List.length (nodes_of y)) + n) 0 ys.
(** the number of points of a glyph *)
Definition point_count (l : list (Z * value)) (x : glyph) (n : Z) : Prop :=
  match components_of x with
  | [] => n = Z.of_nat (List.length (nodes_of x))
  | ks => exists parts, Forall2 (part l) ks parts /\ n = count_nodes parts
  end.
(** [z]: the zones of the glyph *)
Definition zone_at (z : option (list pystr * list pystr)) (top : bool) (n : Z) (name : pystr) : Prop :=
  0 <= n /\ exists t b, z = Some (t, b) /\ nth_error (if top then t else b) (Z.to_nat n) = Some name.
(** The instruction uses points of the glyph or its side bearings, zones and stems that are there. *)
Definition instruction_fine (stems : bool -> list pystr) (points : Z) (z : option (list pystr * list pystr)) (i : instruction) : Prop :=
  instruction_ok i /\
  (forall p n, In p [py "pt"; py "pt1"; py "pt2"; py "pti"] -> param i p n -> 0 <= n < points + 2) /\
  (forall n (t : bool), param i (py "zone") n -> in_cmd i = (if t then py "AlignTop" else py "AlignBottom") ->
     exists name, zone_at z t n name) /\
  (forall n (hor : bool), param i (py "stem") n -> 0 <= n ->
     In (in_cmd i) (if hor then [py "SingleLinkH"; py "DoubleLinkH"] else [py "SingleLinkV"; py "DoubleLinkV"]) ->
     stems hor <> []).
Definition commands_fine (l : list (Z * value)) : Prop :=
  Forall2 (fun x z => forall is, g_tth x = Some is ->
    exists n, point_count l x n /\ Forall (instruction_fine (stem_names l) n z) is) (glyph_entries l) (glyph_zones None l).

(** ** What the UFO shows *)
(** what point number [i] of the glyph [x], exported as [g], is called in the master [u]: a point of the glyph, a point
    of a component, which has the name it has in the glyph of the component, with the number of the component, or a
    side bearing *)
Definition point_shown (l : list (Z * value)) (m : nat) (u : ufo) (x : glyph) (g : ufo_glyph) (i : Z) (t : tval) : Prop :=
  exists label, t = TStr label /\
  ((components_of x = [] /\ own_point m (nodes_of x) (og_contours g) i label) \/
   (exists before y after j name gy part_label, Forall2 (part l) (components_of x) (before ++ y :: after) /\
      i = count_nodes before + j /\ g_name y = Some name /\ In (name, gy) (uf_glyphs u) /\
      own_point m (nodes_of y) (og_contours gy) j part_label /\
      label = part_label ++ py "-" ++ dec_str (Z.of_nat (List.length before))) \/
   (exists n, point_count l x n /\ ((i = n /\ label = py "lsb") \/ (i = n + 1 /\ label = py "rsb")))).
(** the text as it is, or its ASCII bytes in base64 *)
Definition encoded (b64 : bool) (text : pystr) (t : tt_data) : Prop :=
  if b64 then Forall (fun c => c < 128) text /\ exists b, t = TtBytes b /\ (Forall (fun c => 0 <= c) text -> base64 text b)
  else t = TtText text.
(** the commands of the glyph [x] with the zones [z], exported as [g] *)
Definition commands_shown (o : options) (l : list (Z * value)) (m : nat) (u : ufo) (x : glyph)
  (z : option (list pystr * list pystr)) (g : ufo_glyph) : Prop :=
  match g_tth x with
  | Some (i :: is) => exists ds text, Forall2 (exported_command (point_shown l m u x g) (zone_at z) (stem_names l)) (i :: is) ds /\
      tth_lib ds = Ok (Some text) /\ exists t, gl_tth (og_lib g) = Some t /\ encoded (op_base64 o) text t
  | _ => gl_tth (og_lib g) = None
  end.
(** the names of the points of a glyph *)
Definition point_names (g : ufo_glyph) : list pystr :=
  flat_map (fun p => match up_name p with Some n => [n] | None => [] end) (concat (og_contours g)).
