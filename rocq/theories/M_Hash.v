(** Model of the ids of TrueType instructions: ufo/builder.py 810-821, with the HashPointPen of fontTools and the
    [drawPoints] of ufoLib2 that it calls. *)
From Coq Require Import String.
From Verif Require Import Base M_Py M_Text M_Paths M_Ufo.
Local Open Scope list_scope.

(** What the pen appends to its data: the width, a point with type and position, the end of a contour, the start of
    a component, its transformation and end. Simplification: the pen appends texts; what they are, and the SHA-512
    of long ones, is in [digest]. *)
Inductive hash_part :=
| HWidth (w : Z) | HPoint (type : option seg) (pt : Z * Z) | HEnd | HStart | HTransform (k : ucomponent Z).

Section Hash.
  Variable digest : list hash_part -> pystr.
  (** the glyphs of the UFO *)
  Variable glyphs : list (pystr * ufo_glyph).
  (** builder.py 820, [glyph.drawPoints(hp)]: the contours *)
  Definition hash_contours (g : ufo_glyph) : list hash_part :=
    flat_map (fun contour => map (fun p => HPoint (up_type p) (up_pt p)) contour ++ [HEnd]) (og_contours g).
  (** builder.py 820: the contours, then the components, each of which draws its base glyph (HashPointPen.addComponent).
      A missing base glyph is logged by the pen. [fuel] bounds the depth of components; Python ends with a
      RecursionError where it does not suffice. *)
  Fixpoint hash_draw (fuel : nat) (g : ufo_glyph) : res (list hash_part) :=
    match fuel with
    | O => Err Diverge
    | S fuel =>
        rmap (fun l => hash_contours g ++ concat l)
          (res_map (fun k => match aget str_eqb (uc_name _ k) glyphs with
                             | Some b => rmap (fun t => HStart :: t ++ [HTransform k]) (hash_draw fuel b)
                             | None => Ok [HStart; HTransform k]
                             end) (og_components g))
    end.
  (** builder.py 819-821 *)
  Definition glyph_hash (fuel : nat) (g : ufo_glyph) : res pystr :=
    rmap (fun t => digest (HWidth (og_width g) :: t)) (hash_draw fuel g).
  (** builder.py 814-821: glyphs without instructions are left out *)
  Definition glyph_hashes (fuel : nat) : res (list (pystr * pystr)) :=
    res_map (fun p => rmap (pair (fst p)) (glyph_hash fuel (snd p)))
      (filter (fun p => match gl_program (og_lib (snd p)) with Some _ => true | None => false end) glyphs).
End Hash.
