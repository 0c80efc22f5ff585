(** Specification: glyphs and masters of the export. *)
From Coq Require Import String.
From Verif Require Import Base M_Py M_Builder.
Local Open Scope list_scope.

Section Spec.
  Variable V : Type.
  (** ** A file: first what does not belong to a glyph, then the glyphs, each with the entries after it *)
  Record block := Block { bl_name : pystr; bl_kerning : list (Z * list Z); bl_data : V; bl_rest : list (b_entry V) }.
  Definition no_glyph (e : b_entry V) : Prop := match e with BGlyphE _ _ _ => False | _ => True end.
  Definition no_part (e : b_entry V) : Prop :=
    match e with BGlyphE _ _ _ | BUnicodes _ | BMask _ | BField _ _ | BVsb => False | _ => True end.
  Definition file (front : list (b_entry V)) (blocks : list block) : list (b_entry V) :=
    front ++ concat (map (fun b => BGlyphE (bl_name b) (bl_kerning b) (bl_data b) :: bl_rest b) blocks).
  Definition file_ok (front : list (b_entry V)) (blocks : list block) : Prop :=
    Forall no_part front /\ Forall (fun b => Forall no_glyph (bl_rest b)) blocks.

  (** the value of the last entry for the field *)
  Definition last_value (f : field) (es : list (b_entry V)) (v : V) : Prop :=
    exists a c, es = a ++ BField f v :: c /\ forall w, ~ In (BField f w) c.
  (** the glyph has the data of its entry and of the entries after it *)
  Definition glyph_of (b : block) (g : bglyph V) : Prop :=
    bg_name g = bl_name b /\ bg_data g = bl_data b /\
    bg_unicodes g = concat (map (fun e => match e with BUnicodes l => l | _ => [] end) (bl_rest b)) /\
    bg_mask g = concat (map (fun e => match e with BMask l => l | _ => [] end) (bl_rest b)) /\
    forall f v, In (f, v) (bg_fields g) <-> last_value f (bl_rest b) v.

  (** ** Names *)
  Definition with_number (name : pystr) (i : Z) : pystr := name ++ py "#" ++ dec_str i.
  (** the name itself if it is not used yet, else the first free number *)
  Definition chosen (used : list pystr) (name key : pystr) : Prop :=
    (~ In name used /\ key = name) \/
    (In name used /\ exists i, 0 <= i < 255 /\ key = with_number name i /\ ~ In key used /\
       forall j, 0 <= j < i -> In (with_number name j) used).
  Definition keys_of (names keys : list pystr) : Prop :=
    List.length keys = List.length names /\
    forall k name key, nth_error names k = Some name -> nth_error keys k = Some key -> chosen (firstn k keys) name key.
  (** names that may collide with [name] or its numbers *)
  Fixpoint starts_with (p s : pystr) : bool :=
    match p, s with
    | [], _ => true
    | a :: p, b :: s => (a =? b) && starts_with p s
    | _ :: _, [] => false
    end.
  Definition similar (name n : pystr) : bool := str_eqb n name || starts_with (name ++ py "#") n.
  Definition not_crowded (names : list pystr) : Prop :=
    Forall (fun name => (List.length (filter (similar name) names) <= 255)%nat) names.

  (** ** Masters *)
  Definition entry_names (es : list (b_entry V)) : list pystr :=
    concat (map (fun e => match e with BMasterName n => [n] | _ => [] end) es).
  Definition entry_infos (es : list (b_entry V)) : list V :=
    concat (map (fun e => match e with BPsInfo v => [v] | _ => [] end) es).
  (** the number of axes of the file: the last entry *)
  Definition axes_of (es : list (b_entry V)) : Z :=
    fold_left (fun a e => match e with BAxisCount n => n | _ => a end) es 0.
End Spec.
Arguments Block {V}. Arguments bl_name {V}. Arguments bl_kerning {V}. Arguments bl_data {V}. Arguments bl_rest {V}.
Arguments no_glyph {V}. Arguments no_part {V}. Arguments file {V}. Arguments file_ok {V}. Arguments last_value {V}. Arguments glyph_of {V}.
Arguments entry_names {V}. Arguments entry_infos {V}. Arguments axes_of {V}.
