(** Specification of the ids of TrueType instructions (C118). *)
From Coq Require Import String.
From Verif Require Import Base M_Py M_Glyph M_Table M_Paths M_Ufo M_Hash S_Build S_Paths S_Ufo.
Local Open Scope list_scope.

(** What a glyph shows: its contours, then what its components show, each with its transformation. *)
Inductive shows (u : list (pystr * ufo_glyph)) : ufo_glyph -> list hash_part -> Prop :=
| Shows : forall g ts, components_show u (og_components g) ts ->
    shows u g (concat (map (fun c => map (fun p => HPoint (up_type p) (up_pt p)) c ++ [HEnd]) (og_contours g)) ++ ts)
with components_show (u : list (pystr * ufo_glyph)) : list (ucomponent Z) -> list hash_part -> Prop :=
| NoComponents : components_show u [] []
| AComponent : forall k b t ks ts, aget str_eqb (uc_name _ k) u = Some b -> shows u b t -> components_show u ks ts ->
    components_show u (k :: ks) ([HStart] ++ t ++ [HTransform k] ++ ts)
| AMissing : forall k ks ts, aget str_eqb (uc_name _ k) u = None -> components_show u ks ts ->
    components_show u (k :: ks) ([HStart; HTransform k] ++ ts).

Definition has_instructions (g : ufo_glyph) : bool := match gl_program (og_lib g) with Some _ => true | None => false end.

(** No glyph is a component of itself, directly or not: components have a smaller rank. *)
Definition acyclic (u : list (pystr * ufo_glyph)) : Prop :=
  exists rank : pystr -> nat, forall name g k, In (name, g) u -> In k (og_components g) -> (rank (uc_name _ k) < rank name)%nat.
(** the same, of the glyph entries of a file *)
Definition acyclic_entries (l : list (Z * value)) : Prop :=
  exists rank : nat -> nat, forall i x k, nth_error (glyph_entries l) i = Some x -> In k (match g_components x with Some ks => ks | None => [] end) ->
    0 <= M_Glyph.co_gid k /\ (rank (Z.to_nat (M_Glyph.co_gid k)) < rank i)%nat.
(** the outlines of two UFOs are the same, and so are the glyphs with instructions *)
Definition same_outlines (u u' : list (pystr * ufo_glyph)) : Prop :=
  Forall2 (fun p q => fst p = fst q /\ og_width (snd p) = og_width (snd q) /\ og_contours (snd p) = og_contours (snd q) /\
                      og_components (snd p) = og_components (snd q) /\ has_instructions (snd p) = has_instructions (snd q)) u u'.
