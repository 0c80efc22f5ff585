(** Model of the number of contours of a glyph: vfb/glyph.py 40-51, 368-379. *)
From Verif Require Import Base M_Py M_Glyph M_Pens.
Local Open Scope list_scope.

(** [node_types.count("move")] *)
Fixpoint count_moves (nodes : list mm_node) : Z :=
  match nodes with
  | [] => 0
  | n :: nodes => (if cmd_eqb (nd_type n) Move then 1 else 0) + count_moves nodes
  end.
(** vfb/glyph.py 40-51 [VfbGlyph.__len__] and 368-379 [VfbGlyphMaster.__len__], of a decompiled entry *)
Definition glyph_len (g : glyph) : res Z :=
  match g_nodes g with
  | None => Err KeyError
  | Some [] => Ok 0
  | Some nodes => Ok (count_moves nodes)
  end.
(** what drawing with a pen leaves: vfb/pens.py 24-25, 38-49, 116-118, the target is the data of the glyph *)
Definition pen_start (g : glyph) : pen_st := PenSt None false (g_nodes g) (g_components g).
Definition pen_result (g : glyph) (st : pen_st) : glyph :=
  Glyph (g_name g) (g_num_masters g) (pe_nodes st) (g_metrics g) (g_hints g) (g_guides g) (pe_components st) (g_kerning g)
        (g_imported g) (g_tth g).
