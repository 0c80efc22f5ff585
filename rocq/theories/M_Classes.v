(** Model of the glyph classes of a font: ufo/builder.py 562-563. *)
From Verif Require Import Base M_Py M_Text M_Groups M_Tth.

(** builder.py 562-563: the texts of the entries [F.GlyphClass] in the order of the file; the dict of groups is
    empty at the start (builder.py 91) *)
Definition class_entries (texts : list pystr) : res groups :=
  res_fold (fun gs data => add_ot_class data gs) [] texts.
