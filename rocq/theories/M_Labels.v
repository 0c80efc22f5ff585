(** Model of the point labels: ufo/glyph.py 49-104, ufo/vfb2ufo.py. *)
From Coq Require Import String.
From Verif Require Import Base M_Py.
Local Open Scope list_scope.

(** ufo/vfb2ufo.py 58-74 [vfb2ufo_label_codes] *)
Definition label_codes : list (pystr * pystr) :=
  [(py "AlignBottom", py "ab"); (py "AlignTop", py "at"); (py "SingleLinkH", py "sh");
   (py "SingleLinkV", py "sv"); (py "DoubleLinkH", py "dh"); (py "DoubleLinkV", py "dv");
   (py "AlignH", py "ah"); (py "AlignV", py "av"); (py "InterpolateH", py "ih");
   (py "InterpolateV", py "iv"); (py "MDeltaH", py "mh"); (py "MDeltaV", py "mv");
   (py "FDeltaH", py "fh"); (py "FDeltaV", py "fv"); (py "PSHintReplacement", py "hr")].

(** [VfbToUfoGlyph], the attributes that labels depend on: the [gid]s of [mm_components],
    [len(mm_nodes)], [labels], [point_labels] *)
Record lglyph := LGlyph
  { lg_components : list Z; lg_nodes : Z; lg_labels : list (pystr * Z); lg_points : list (Z * pystr) }.
(** the builder's [glyph_masters] *)
Notation store := (list (pystr * lglyph)).

(** ["%02d" % i] *)
Definition dec02 (i : Z) : pystr :=
  if in_range 0 10 i then [48; 48 + i] else dec_str i.
(** lines 94-101: the loop tries at most one number more than there are labels, see
    [P_Labels.new_label_ok] *)
Fixpoint new_label (fuel : nat) (short : pystr) (labels : list (pystr * Z)) (i : Z) : res pystr :=
  match fuel with
  | O => Err Diverge
  | S f => let label := short ++ dec02 i in
           match aget str_eqb label labels with
           | Some _ => new_label f short labels (i + 1)
           | None => Ok label
           end
  end.

(** lines 81-104, a glyph without components; returns the label and the changed glyph *)
Definition simple_label (g : lglyph) (index : Z) (code : pystr) (start : Z) : res (pystr * lglyph) :=
  match aget Z.eqb index (lg_points g) with
  | Some l => Ok (l, g)
  | None =>
      if index =? lg_nodes g then Ok (py "lsb", g)
      else if index =? lg_nodes g + 1 then Ok (py "rsb", g)
      else rthen (aget_res str_eqb code label_codes) (fun short =>
           rthen (new_label (S (List.length (lg_labels g))) short (lg_labels g) start) (fun label =>
           Ok (label, LGlyph (lg_components g) (lg_nodes g)
                        (aset str_eqb label index (lg_labels g))
                        (aset Z.eqb index label (lg_points g)))))
  end.

(** lines 59-68: the component that has the point. [inl (i, name, index)] or [inr total] *)
Fixpoint find_component (st : store) (order : list pystr) (gids : list Z) (i index total : Z)
  : res ((Z * pystr * Z) + Z) :=
  match gids with
  | [] => Ok (inr total)
  | gid :: gids =>
      rthen (py_index order gid) (fun name =>
      rthen (aget_res str_eqb name st) (fun component =>
      let n := lg_nodes component in
      if index <? n then Ok (inl (i, name, index))
      else find_component st order gids (i + 1) (index - n) (total + n)))
  end.

(** lines 49-104 [get_point_label] of the glyph [name] of the builder. [fuel] bounds the nesting of
    composites; Python's limit is its recursion limit. *)
Fixpoint get_point_label (fuel : nat) (order : list pystr) (st : store) (name : pystr) (index : Z)
  (code : pystr) (start : Z) : res (pystr * store) :=
  match fuel with
  | O => Err Diverge
  | S f =>
      rthen (aget_res str_eqb name st) (fun g =>
      match lg_components g with
      | [] => rmap (fun r => (fst r, aset str_eqb name (snd r) st)) (simple_label g index code start)
      | gids =>
          rthen (find_component st order gids 0 index 0) (fun found =>
          match found with
          | inl (i, component, index') =>
              rmap (fun r => (fst r ++ [45] ++ dec_str i, snd r))
                   (get_point_label f order st component index' code 1)
          | inr total =>
              Ok (if index =? total then py "lsb"
                  else if index =? total + 1 then py "rsb" else py "invalid", st)
          end)
      end)
  end.

(** a history of requests: glyph, index, code, start count *)
Record request := Request { rq_glyph : pystr; rq_index : Z; rq_code : pystr; rq_start : Z }.
Fixpoint run_requests (fuel : nat) (order : list pystr) (st : store) (h : list request)
  : res (list pystr * store) :=
  match h with
  | [] => Ok ([], st)
  | r :: h => rthen (get_point_label fuel order st (rq_glyph r) (rq_index r) (rq_code r) (rq_start r)) (fun a =>
              rmap (fun b => (fst a :: fst b, snd b)) (run_requests fuel order (snd a) h))
  end.
