(** Model of the export of a VFB to UFOs and a designspace document: ufo/builder.py 880-931, together with the build
    (M_Build) and the UFOs (M_Ufo). *)
From Coq Require Import String.
From Verif Require Import Base M_Py M_Table M_FontInfo M_Tth M_Designspace M_Builder M_Build M_Ufo.
Local Open Scope list_scope.

(** the attributes of the builder that [get_designspace] looks at (builder.py 939-988). Simplification: a missing
    [styleMapStyleName], which is None in the code, is the empty text. *)
Definition ds_data_of (s : font) : ds_data num :=
  let d := fo_design s in
  DsData (de_count d) (de_axes d) (de_masters d) (bs_masters (fo_glyphs s)) (de_locations d) (de_instances d)
         (ds_family_name (fo_info s)) (info_text (py "styleMapStyleName") (fo_info s)).
(** builder.py 904-908 and 880-896: [json] as in [write] *)
Definition get_ufos_designspace (c : settings) (o : options) (json : bool) (out : path) (s : font)
  : res (list ufo * option (designspace num)) :=
  rthen (get_ufo_masters c o s) (fun ufos =>
  match ufos with
  | [] => Err ValueError
  | _ => rmap (pair ufos) (written_designspace (st_ops c) (ds_data_of s) json out)
  end).
(** From the entries to the UFOs and the document *)
Definition vfb_to_document (c : settings) (o : options) (json : bool) (out : path) (es : list (Z * option value))
  : res (list ufo * option (designspace num)) :=
  rthen (build_font c es) (get_ufos_designspace c o json out).
