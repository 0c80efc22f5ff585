(** Specification of the properties of groups and kerning in the UFO (C45-C47). *)
From Coq Require Import String.
From Verif Require Import Base M_Py M_Groups.
Local Open Scope list_scope.

(** The sides of kerning groups, by the names the UFO specification gives them *)
Definition first_side (n : pystr) : Prop := exists s, n = py "public.kern1" ++ s.
Definition second_side (n : pystr) : Prop := exists s, n = py "public.kern2" ++ s.
Definition kerning_name (n : pystr) : Prop := exists s, n = py "public.kern" ++ s.

(** "[n] is the first group of the side, in the order of the groups, that has [g] as a member" *)
Definition first_of (side : pystr -> Prop) (gs : groups) (g n : pystr) : Prop :=
  exists before gl after, gs = before ++ (n, gl) :: after /\ side n /\ In g gl /\
    forall m gm, In (m, gm) before -> side m -> ~ In g gm.

(** "[l] is [m] with some elements left out" *)
Inductive left_out {A} : list A -> list A -> Prop :=
| lo_nil : left_out [] []
| lo_keep : forall x l m, left_out l m -> left_out (x :: l) (x :: m)
| lo_drop : forall x l m, left_out l m -> left_out l (x :: m).

(** ** Classes as FontLab stores them: the key glyphs are marked with a quote *)
Record glyph_class := mkClass { cl_name : pystr; cl_members : list (pystr * bool) }.
Definition member_text (p : pystr * bool) : pystr := if snd p then fst p ++ [39] else fst p.
Definition class_entry (c : glyph_class) : pystr * list pystr :=
  (cl_name c, map member_text (cl_members c)).

(** glyph names neither begin nor end with a quote *)
Definition unquoted (g : pystr) : Prop :=
  g <> [] /\ (forall s, g <> 39 :: s) /\ (forall s, g <> s ++ [39]).
Definition wf_class (c : glyph_class) : Prop :=
  Forall (fun p => unquoted (fst p)) (cl_members c) /\ ~ kerning_name (cl_name c).

(** the glyphs of a class, key glyph first *)
Definition key_glyphs_of (c : glyph_class) : list pystr := map fst (filter snd (cl_members c)).
Definition glyphs_of (c : glyph_class) : list pystr :=
  key_glyphs_of c ++ map fst (filter (fun p => negb (snd p)) (cl_members c)).

(** those that are in the font *)
Definition existing (order l : list pystr) : list pystr := filter (fun g => mem g order) l.

(** what the exporter makes of them. A class all of whose glyphs are missing keeps them. *)
Definition exported_glyphs (order : list pystr) (skip : bool) (c : glyph_class) : list pystr :=
  if skip then match existing order (glyphs_of c) with [] => glyphs_of c | l => l end
  else glyphs_of c.

(** the key glyph: the first one in the font, or the first one of all if the font has no glyph of
    the class *)
Definition exported_key (order : list pystr) (c : glyph_class) : option pystr :=
  match existing order (glyphs_of c) with
  | [] => hd_error (key_glyphs_of c)
  | _ => hd_error (existing order (key_glyphs_of c))
  end.

(** the names of the UFO groups of a class: kerning classes begin with an underscore and become a
    group for each side their flags (bit 10: first, bit 11: second) tell; without flags, none *)
Definition group_names (flags : list (pystr * list Z)) (c : glyph_class) : list pystr :=
  if hd 0 (cl_name c) =? 95 then
    match aget str_eqb (cl_name c) flags with
    | Some (f :: _) =>
        (if Z.testbit f 10 then [py "public.kern1." ++ cl_name c] else []) ++
        (if Z.testbit f 11 then [py "public.kern2." ++ cl_name c] else [])
    | _ => []
    end
  else [cl_name c].

Definition exported_groups flags order skip (cs : list glyph_class) : groups :=
  flat_map (fun c => map (fun n => (n, exported_glyphs order skip c)) (group_names flags c)) cs.
Definition exported_keys flags order (cs : list glyph_class) : list (pystr * pystr) :=
  flat_map (fun c => match exported_key order c with
                     | Some k => map (fun n => (n, k)) (group_names flags c)
                     | None => []
                     end) cs.

(** ** Kerning *)

(** "[g] is the key glyph of the group [n] of the side", the first one if there are several *)
Definition key_group (side : pystr -> Prop) (keys : list (pystr * pystr)) (g n : pystr) : Prop :=
  exists before after, keys = before ++ (n, g) :: after /\ side n /\
    forall m, In (m, g) before -> ~ side m.

(** the name under which a glyph appears in kerning pairs: that of the group of which it is the
    key glyph, if the UFO has that group; its own otherwise *)
Definition kerned_as (side : pystr -> Prop) (keys : list (pystr * pystr)) (gs : groups)
  (g x : pystr) : Prop :=
  (exists n, key_group side keys g n /\ In n (map fst gs) /\ x = n) \/
  ((forall n, key_group side keys g n -> ~ In n (map fst gs)) /\ x = g).

(** "[x] stands for a glyph that belongs to a group without being the key glyph of one" *)
Definition excepted (side : pystr -> Prop) (keys : list (pystr * pystr)) (gs : groups)
  (x : pystr) : Prop :=
  (exists n gl, In (n, gl) gs /\ side n /\ In x gl) /\
  (forall n, In (n, x) keys -> ~ side n).
