(** Model of the passes over the glyphs of a font, one for each master: ufo/builder.py 748-800, 824-878,
    ufo/paths.py 67-90. The labels of points are kept in the builder's glyphs and shared by the passes. *)
From Coq Require Import String.
From Verif Require Import Base M_Py M_Glyph M_Labels M_PsHints M_Paths.
Local Open Scope list_scope.

(** [VfbToUfoGlyph], the attributes that PostScript hints and outlines depend on. Simplification: attributes
    that are missing are empty. *)
Record eglyph := EGlyph
  { eg_nodes : list mm_node; eg_masks : list (pystr * Z);
    eg_h : list (list (Z * Z)); eg_v : list (list (Z * Z)); eg_links : links }.
(** [UfoMasterGlyph]: the hint sets, the contours and [rename_points] *)
Record exported := Exported
  { ex_hints : list (pystr * list pystr); ex_contours : list (list upoint); ex_renames : list (pystr * pystr) }.

(** ufo/paths.py 77-83 of [build], 235-246 [_extract_master_ps_hints]; [ps] is [include_ps_hints] *)
Definition export_glyph (fuel : nat) (order : list pystr) (ps : bool) (m : Z) (name : pystr) (g : eglyph) (st : store)
  : res (exported * store) :=
  rthen (if ps then
           rthen (get_master_hints m (eg_h g) (eg_v g) (eg_links g) (eg_nodes g)) (fun hv =>
           build_ps_glyph_hints fuel order name (eg_masks g) (fst hv) (snd hv) st)
         else Ok ([], st)) (fun r =>
  rthen (aget_res str_eqb name (snd r)) (fun lg =>
  rmap (fun c => (Exported (fst r) (fst c) (snd c), snd r))
       (extract_contours m (fun i => aget Z.eqb i (lg_points lg)) (eg_nodes g)))).
(** ufo/builder.py 767-785 of [get_ufo_master]: the loop over [glyph_masters] *)
Fixpoint export_master (fuel : nat) (order : list pystr) (ps : bool) (m : Z) (font : list (pystr * eglyph)) (st : store)
  : res (list (pystr * exported) * store) :=
  match font with
  | [] => Ok ([], st)
  | (name, g) :: font =>
      rthen (export_glyph fuel order ps m name g st) (fun a =>
      rmap (fun b => ((name, fst a) :: fst b, snd b)) (export_master fuel order ps m font (snd a)))
  end.
(** ufo/builder.py 824-878 of [get_ufo_masters]: the masters [m], [m + 1], ... *)
Fixpoint export_masters (fuel : nat) (order : list pystr) (ps : bool) (m : Z) (n : nat) (font : list (pystr * eglyph))
  (st : store) : res (list (list (pystr * exported)) * store) :=
  match n with
  | O => Ok ([], st)
  | S n => rthen (export_master fuel order ps m font st) (fun a =>
           rmap (fun b => (fst a :: fst b, snd b)) (export_masters fuel order ps (m + 1) n font (snd a)))
  end.
