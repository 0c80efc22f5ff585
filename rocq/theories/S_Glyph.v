(** Specification of the glyph entries (C19, C20 in part, C25-C28, C37, C41): which values the
    formats can hold, and when two glyph dicts say the same. *)
From Coq Require Import String Permutation.
From Verif Require Import Base M_Py M_Glyph S_Text S_Entry.
Local Open Scope list_scope.

Definition int32_pair (p : Z * Z) : Prop := int32 (fst p) /\ int32 (snd p).
(** one item per master *)
Definition masters {A} (n : Z) (P : A -> Prop) (l : list A) : Prop :=
  Z.of_nat (length l) = n /\ Forall P l.
(** what the unsigned variable length format holds *)
Definition uvalue (v : Z) : Prop := -1131 <= v < 2 ^ 32.
(** a number of masters that can be stored *)
Definition master_count (n : Z) : Prop := 1 <= n < 2 ^ 31.

(** ** Small entries *)
Definition wf_anchor (n : Z) (a : mm_anchor) : Prop :=
  masters n int32 (an_x a) /\ masters n int32 (an_y a).
Definition wf_anchor_props (a : anchor_props) : Prop :=
  exists hue data, a = AnchorProps (Some hue) (Some data) /\ small_flag hue /\ small_flag data.
Definition wf_links (d : links) : Prop :=
  countable (lk_x d) /\ Forall int32_pair (lk_x d) /\ countable (lk_y d) /\ Forall int32_pair (lk_y d).

(** GDEF. An empty part, or an empty anchor name, is the same as a missing one. *)
Definition wf_gdef_anchor (a : gdef_anchor) : Prop :=
  text (or_empty (ga_name a)) /\ int32 (ga_x a) /\ int32 (ga_y a).
Definition gdef_classes : list pystr := [py "base"; py "ligature"; py "mark"; py "component"].
Definition wf_gdef (d : gdef) : Prop :=
  (gd_class d = None \/ gd_class d = Some (py "unassigned") \/
   exists c, gd_class d = Some c /\ In c gdef_classes) /\
  countable (or_nil (gd_anchors d)) /\ Forall wf_gdef_anchor (or_nil (gd_anchors d)) /\
  countable (or_nil (gd_carets d)) /\ Forall int32_pair (or_nil (gd_carets d)) /\
  countable (or_nil (gd_ot_classes d)) /\ Forall int32 (or_nil (gd_ot_classes d)).
Definition class_of (d : gdef) : pystr :=
  match gd_class d with Some c => c | None => py "unassigned" end.
Definition same_gdef_anchor (a b : gdef_anchor) : Prop :=
  or_empty (ga_name a) = or_empty (ga_name b) /\ ga_x a = ga_x b /\ ga_y a = ga_y b.
Definition same_gdef (d e : gdef) : Prop :=
  class_of d = class_of e /\
  Forall2 same_gdef_anchor (or_nil (gd_anchors d)) (or_nil (gd_anchors e)) /\
  or_nil (gd_carets d) = or_nil (gd_carets e) /\
  or_nil (gd_ot_classes d) = or_nil (gd_ot_classes e).

(** ** Guides *)
(** the slope that is stored for an angle is in range *)
Definition wf_guide_master (o : oracles) (g : guide_master) : Prop :=
  int32 (gm_pos g) /\ exists s, o_slope o (gm_angle g) = Ok s /\ int32 s.
Definition wf_guides (o : oracles) (n : Z) (d : guides) : Prop :=
  countable (gs_h d) /\ Forall (masters n (wf_guide_master o)) (gs_h d) /\
  countable (gs_v d) /\ Forall (masters n (wf_guide_master o)) (gs_v d).
(** the angle that is read for a stored slope *)
Definition stored_angle (o : oracles) (g : guide_master) : guide_master :=
  match o_slope o (gm_angle g) with
  | Ok s => GuideMaster (gm_pos g) (o_angle o s)
  | Err _ => g
  end.
Definition stored_guides (o : oracles) (d : guides) : guides :=
  Guides (map (map (stored_angle o)) (gs_h d)) (map (map (stored_angle o)) (gs_v d)).
(** the angle is recovered from the slope that is stored for it *)
Definition exact_angle (o : oracles) (g : guide_master) : Prop :=
  forall s, o_slope o (gm_angle g) = Ok s -> o_angle o s = gm_angle g.
Definition exact_guides (o : oracles) (d : guides) : Prop :=
  Forall (Forall (exact_angle o)) (gs_h d) /\ Forall (Forall (exact_angle o)) (gs_v d).

(** [#rrggbb], lower case *)
Definition rgb_color (s : pystr) : Prop :=
  length s = 7%nat /\ exists t, s = py "#" ++ t /\ Forall (fun c => 48 <= c <= 57 \/ 97 <= c <= 102) t.
Definition wf_guide_prop (g : guide_prop) : Prop :=
  int32 (gp_index g) /\ gp_index g <> 0 /\
  (forall c, gp_color g = Some c -> rgb_color c) /\
  (forall n, gp_name g = Some n -> n <> [] /\ text n).
Definition wf_guide_props (d : guide_props) : Prop :=
  Forall wf_guide_prop (gps_h d) /\ Forall wf_guide_prop (gps_v d).

(** ** Outlines *)
(** how many points a node of a type has *)
Definition node_points (c : path_cmd) : nat := match c with Curve => 3 | _ => 1 end.
Definition wf_node (n : Z) (nd : mm_node) : Prop :=
  0 <= nd_flags nd <= 15 /\
  masters n (fun ps => length ps = node_points (nd_type nd)) (nd_points nd).
(** all points of master [m], in the order of the nodes *)
Definition master_path (nodes : list mm_node) (m : nat) : list (Z * Z) :=
  flat_map (fun nd => nth m (nd_points nd) []) nodes.
(** each point is at most 32 bit away from the one before, the first one from the origin *)
Fixpoint small_steps (from : Z * Z) (path : list (Z * Z)) : Prop :=
  match path with
  | [] => True
  | p :: path' => int32 (fst p - fst from) /\ int32 (snd p - snd from) /\ small_steps p path'
  end.
(** the number of values stored for the nodes: one per node, two per point of every master *)
Definition stored_values (n : Z) (nodes : list mm_node) : Z :=
  fold_right Z.add 0 (map (fun nd => 1 + n * (2 * Z.of_nat (node_points (nd_type nd)))) nodes).
Definition wf_nodes (n : Z) (nodes : list mm_node) : Prop :=
  Forall (wf_node n) nodes /\
  (forall m, Z.of_nat m < n -> small_steps (0, 0) (master_path nodes m)) /\
  2 * stored_values n nodes < 2 ^ 31.

(** ** TrueType hinting *)
(** the visual commands and their parameters *)
Definition hinting_commands : list (pystr * list pystr) :=
  let link := [py "pt1"; py "pt2"; py "stem"; py "align"] in
  let double_link := [py "pt1"; py "pt2"; py "stem"] in
  let interpolate := [py "pti"; py "pt1"; py "pt2"; py "align"] in
  let delta := [py "pt"; py "shift"; py "ppm1"; py "ppm2"] in
  [(py "AlignTop", [py "pt"; py "zone"]); (py "AlignBottom", [py "pt"; py "zone"]);
   (py "AlignH", [py "pt"; py "align"]); (py "AlignV", [py "pt"; py "align"]);
   (py "SingleLinkH", link); (py "SingleLinkV", link);
   (py "DoubleLinkH", double_link); (py "DoubleLinkV", double_link);
   (py "InterpolateH", interpolate); (py "InterpolateV", interpolate);
   (py "MDeltaH", delta); (py "MDeltaV", delta); (py "FDeltaH", delta); (py "FDeltaV", delta)].
(** a known command, with a value for each of its parameters, in any order *)
Definition wf_instruction (i : instruction) : Prop :=
  exists params, In (in_cmd i, params) hinting_commands /\
    Permutation (map fst (in_params i)) params /\ Forall (fun p => int32 (snd p)) (in_params i).
(** equal, with dicts in any order *)
Definition same_instruction (i j : instruction) : Prop :=
  in_cmd i = in_cmd j /\ Permutation (in_params i) (in_params j).

(** ** Other parts *)
Definition wf_hintmask (kv : pystr * Z) : Prop :=
  In (fst kv) [py "h"; py "v"; py "r"] /\ int32 (snd kv).
Definition wf_hints (n : Z) (h : mm_hints) : Prop :=
  countable (mh_h h) /\ Forall (masters n int32_pair) (mh_h h) /\
  countable (mh_v h) /\ Forall (masters n int32_pair) (mh_v h) /\
  countable (or_nil (mh_masks h)) /\ Forall wf_hintmask (or_nil (mh_masks h)).
Definition wf_component (n : Z) (c : component) : Prop :=
  int32 (co_gid c) /\ masters n int32 (co_x c) /\ masters n int32 (co_y c) /\
  masters n double (co_sx c) /\ masters n double (co_sy c).
Definition wf_kerning (n : Z) (k : list (Z * list Z)) : Prop :=
  NoDup (map fst k) /\ Forall (fun kv => int32 (fst kv) /\ masters n int32 (snd kv)) k.
Definition wf_binary_node (b : binary_node) : Prop :=
  uint8 (bn_flags b) /\ bn_on b = bn_flags b mod 2.
Definition wf_imported_metrics (m : imported_metrics) : Prop :=
  uvalue (ib_width m) /\ int32 (ib_lsb m) /\ int32 (ib_unknown1 m) /\ int32 (ib_unknown2 m) /\
  int32 (ib_unknown3 m) /\ array 4 int32 (ib_bbox m).
(** the program assembles to bytecode that disassembles to the same program *)
Definition wf_program (o : oracles) (p : list pystr) : Prop :=
  match p with
  | [] => o_asm o [] = Ok []
  | _ => exists bc, o_bytecode o p = Ok bc /\ bytes_ok bc /\ countable bc /\ o_asm o bc = Ok p
  end.
Definition wf_imported (o : oracles) (i : imported) : Prop :=
  (exists m, im_metrics i = Some m /\ wf_imported_metrics m) /\
  (exists num_contours endpoints, im_contours i = Some (num_contours, endpoints) /\
     int32 num_contours /\ Z.of_nat (length endpoints) = Z.max 0 num_contours /\
     Forall uvalue endpoints) /\
  countable (or_nil (im_nodes i)) /\ Forall wf_binary_node (or_nil (im_nodes i)) /\
  small_steps (0, 0) (map bn_point (or_nil (im_nodes i))) /\
  wf_program o (or_nil (im_instructions i)) /\
  countable (or_nil (im_hdmx i)) /\ Forall uint8 (or_nil (im_hdmx i)).
Definition same_imported (i j : imported) : Prop :=
  im_metrics i = im_metrics j /\ im_contours i = im_contours j /\
  or_nil (im_nodes i) = or_nil (im_nodes j) /\
  or_nil (im_instructions i) = or_nil (im_instructions j) /\
  or_nil (im_hdmx i) = or_nil (im_hdmx j).

(** ** Glyphs *)
Definition on_some {A} (P : A -> Prop) (o : option A) : Prop :=
  match o with Some x => P x | None => True end.
(** [vfb_masters] is the number of masters of the file, [n] that of the glyph. Guides need a glyph
    with a name, and as many masters as the file has. *)
Definition wf_glyph (o : oracles) (vfb_masters : option Z) (n : Z) (g : glyph) : Prop :=
  g_num_masters g = Some n /\ master_count n /\
  text (or_empty (g_name g)) /\
  wf_nodes n (or_nil (g_nodes g)) /\
  (g_metrics g = None \/ g_metrics g = Some [] \/
   exists l, g_metrics g = Some l /\ masters n int32_pair l) /\
  on_some (wf_hints n) (g_hints g) /\
  on_some (fun gs => wf_guides o n gs /\ vfb_masters = Some n /\ or_empty (g_name g) <> []) (g_guides g) /\
  countable (or_nil (g_components g)) /\ Forall (wf_component n) (or_nil (g_components g)) /\
  countable (or_nil (g_kerning g)) /\ wf_kerning n (or_nil (g_kerning g)) /\
  on_some (wf_imported o) (g_imported g) /\
  Forall wf_instruction (or_nil (g_tth g)) /\ Z.of_nat (length (or_nil (g_tth g))) < 2 ^ 26.

(** Two glyph dicts say the same: equal, except that empty optional parts may be missing. *)
Definition empty_hints : mm_hints := MMHints [] [] None.
Definition hints_of (g : glyph) : mm_hints :=
  match g_hints g with Some h => h | None => empty_hints end.
Definition same_hints (h k : mm_hints) : Prop :=
  mh_h h = mh_h k /\ mh_v h = mh_v k /\ or_nil (mh_masks h) = or_nil (mh_masks k).
Definition same_option {A} (R : A -> A -> Prop) (x y : option A) : Prop :=
  match x, y with Some a, Some b => R a b | None, None => True | _, _ => False end.
Definition same_glyph (g h : glyph) : Prop :=
  or_empty (g_name g) = or_empty (g_name h) /\
  g_num_masters g = g_num_masters h /\
  or_nil (g_nodes g) = or_nil (g_nodes h) /\
  or_nil (g_metrics g) = or_nil (g_metrics h) /\
  same_hints (hints_of g) (hints_of h) /\
  g_guides g = g_guides h /\
  or_nil (g_components g) = or_nil (g_components h) /\
  or_nil (g_kerning g) = or_nil (g_kerning h) /\
  same_option same_imported (g_imported g) (g_imported h) /\
  Forall2 same_instruction (or_nil (g_tth g)) (or_nil (g_tth h)).
(** the glyph with the angles of its guides as they are read back *)
Definition with_stored_angles (o : oracles) (g : glyph) : glyph :=
  Glyph (g_name g) (g_num_masters g) (g_nodes g) (g_metrics g) (g_hints g)
    (option_map (stored_guides o) (g_guides g)) (g_components g) (g_kerning g) (g_imported g) (g_tth g).

(** What parsing a glyph does not ensure: that all parts are there and have the same number of masters,
    that the sizes fit their fields, and that angles and bytecode can be converted back. *)
Definition has_masters {A} (n : Z) (l : list A) : Prop := Z.of_nat (length l) = n.
Definition regular (o : oracles) (vfb_masters : option Z) (n : Z) (g : glyph) : Prop :=
  g_num_masters g = Some n /\ master_count n /\
  2 * stored_values n (or_nil (g_nodes g)) < 2 ^ 31 /\
  on_some (has_masters n) (g_metrics g) /\
  on_some (fun h => Forall (has_masters n) (mh_h h) /\ Forall (has_masters n) (mh_v h)) (g_hints g) /\
  on_some (fun gs => vfb_masters = Some n /\ or_empty (g_name g) <> [] /\
     Forall (fun l => has_masters n l /\ Forall (fun gm => exists s, o_slope o (gm_angle gm) = Ok s /\ int32 s) l)
       (gs_h gs ++ gs_v gs)) (g_guides g) /\
  Forall (fun c => has_masters n (co_x c)) (or_nil (g_components g)) /\
  Forall (fun kv => has_masters n (snd kv)) (or_nil (g_kerning g)) /\
  on_some (fun i => im_metrics i <> None /\ im_contours i <> None /\ wf_program o (or_nil (im_instructions i))) (g_imported g) /\
  Z.of_nat (length (or_nil (g_tth g))) < 2 ^ 26.
