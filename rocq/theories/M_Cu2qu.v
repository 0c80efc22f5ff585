(** Model of the converter to quadratic curves: cu2qu.py 10-98 [vfbcu2qu], and the access to the masters of a Vfb,
    vfb/vfb.py 25-59, 198-202 [VfbMaster], [getGlyphMaster], [get_masters]. *)
From Coq Require Import String.
From Verif Require Import Base M_Stream M_Text M_Py M_Glyph M_Container M_Table M_GlyphAccess M_Pens M_Designspace M_Tools.
Local Open Scope list_scope.

Section Converter.
  Variable T : codecs value.
  (** What fontTools does to the glyph of a name that has an outline in some master: the outlines of all masters, the
      Vfb afterwards and whether the glyph was modified *)
  Variable convert : pystr -> list (list (M_Paths.pen_call Z)) -> vfb value * gtable -> (vfb value * gtable) * res bool.

  (** vfb/vfb.py 40-41, 198-199, 430-447 of vfb/glyph.py: [VfbMaster[name].drawPoints], or [Vfb[name].drawPoints] for
      the master 0. The glyph object of a master is new for each access. Components are left out, as the pen of fontTools
      that collects the segments ignores them. *)
  Definition draw_master (name : pystr) (m : Z) (v : vfb value * gtable)
    : (vfb value * gtable) * res (list (M_Paths.pen_call Z)) :=
    let '(v', o) := vfb_getitem T name v in
    (v', rthen o (fun g =>
      match nth_error (v_entries (fst v')) (go_entry g) with
      | Some e => match e_data e with Dec (DGlyph g) => snd (draw_cached m g None) | _ => Err TypeError end
      | None => Err IndexError
      end)).
  (** fontTools cu2qu/ufo.py, the loop of [fonts_to_quadratic] over the fonts: the fonts are the masters [m], [m + 1] ...
      of the Vfb, so each has the name *)
  Fixpoint draw_masters (name : pystr) (m : Z) (count : nat) (v : vfb value * gtable)
    : (vfb value * gtable) * res (list (list (M_Paths.pen_call Z))) :=
    match count with
    | O => (v, Ok [])
    | S count =>
        let '(v1, o) := draw_master name m v in
        match o with
        | Err x => (v1, Err x)
        | Ok calls => let '(v2, o') := draw_masters name (m + 1) count v1 in (v2, rmap (cons calls) o')
        end
    end.
  (** fontTools [_glyphs_to_quadratic]: nothing is done to a glyph without segments *)
  Definition glyph_to_quadratic (count : nat) (name : pystr) (v : vfb value * gtable) : (vfb value * gtable) * res bool :=
    let '(v1, o) := draw_masters name 0 count v in
    match o with
    | Err x => (v1, Err x)
    | Ok drawn => if forallb (fun calls => match calls with [] => true | _ => false end) drawn then (v1, Ok false)
                  else convert name drawn v1
    end.
  (** fontTools [fonts_to_quadratic], the loop over the names, and whether any glyph was modified. The order of the names,
      which is that of a set there, is that of the font here. *)
  Fixpoint glyphs_to_quadratic (count : nat) (names : list pystr) (v : vfb value * gtable)
    : (vfb value * gtable) * res bool :=
    match names with
    | [] => (v, Ok false)
    | name :: names =>
        let '(v1, o) := glyph_to_quadratic count name v in
        match o with
        | Err x => (v1, Err x)
        | Ok b => let '(v2, o') := glyphs_to_quadratic count names v1 in (v2, rmap (orb b) o')
        end
    end.
  (** fontTools [fonts_to_quadratic] and [font_to_quadratic] (the same with one font): the units per em for the allowed
      error, then the names of all fonts (vfb/vfb.py 51-52, 226-229), then the glyphs *)
  Definition to_quadratic (count : nat) (v : vfb value * gtable) : (vfb value * gtable) * res bool :=
    let '(_, v1, u) := unitsPerEm T None (fst v) in
    match u with
    | Err x => ((v1, snd v), Err x)
    | Ok _ =>
        let '(v2, names) := vfb_keys T (v1, snd v) in
        match names with
        | Err x => (v2, Err x)
        | Ok names => glyphs_to_quadratic count names v2
        end
    end.

  (** How the tool ends: with an exception, with one of its messages (lines 75, 79, 89-92), or with a new file *)
  Inductive cu_result := CuFailed (e : exn) | CuUnsupported | CuUnmodified | CuExists | CuSaved.
  (** cu2qu.py 50-98. [file] is the content of the input file; [fs] are the files that exist. *)
  Definition vfbcu2qu (fuel : nat) (folder : option (bool * list pystr)) (force : bool) (input : path)
    (outputpath : option path) (file : bytes) (fs : files bytes) : files bytes * cu_result :=
    match vfb_read_bytes T fuel (new_vfb [G_Links] false false) file with
    | (_, RErr x _) => (fs, CuFailed x)
    | (v, ROk _ _) =>
        match vfb_decompile T v with
        | (_, Err x) => (fs, CuFailed x)
        | (v, Ok _) =>
            let n := num_masters (v_ctx v) in
            if n <? 1 then (fs, CuUnsupported)
            else
              match to_quadratic (Z.to_nat n) (v, no_glyphs) with
              | (_, Err x) => (fs, CuFailed x)
              | (_, Ok false) => (fs, CuUnmodified)
              | (v, Ok true) =>
                  let out := path_text (vfbcu2qu_out folder input outputpath) in
                  match aget str_eqb out fs, force with
                  | Some _, false => (fs, CuExists)
                  | old, _ =>
                      let '(_, b, o) := vfb_write_file T (fst v) (match old with Some b => b | None => [] end) in
                      (aset str_eqb out b fs, match o with Ok _ => CuSaved | Err x => CuFailed x end)
                  end
              end
        end
    end.
End Converter.
