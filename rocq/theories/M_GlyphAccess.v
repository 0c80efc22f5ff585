(** Model of the access to glyphs by name: vfb/vfb.py 93-95, 150-198, 221-229, vfb/glyph.py 25-37, 67-80
    and templates/glyph.py 4-10. *)
From Coq Require Import String.
From Verif Require Import Base M_Stream M_Text M_Py M_Glyph M_Container M_Table.
Local Open Scope list_scope.

(** enum.py 57, 234, 235, 240 *)
Definition F_PostScriptHintingOptions : Z := 1093.
Definition G_Glyph : Z := 2001.
Definition G_Links : Z := 2008.
Definition G_HintingOptions : Z := 2010.

(** vfb/glyph.py 25-37 [VfbGlyph]: the entries are given by their position in [Vfb.entries]. Not modelled
    here: [_glyph] and [master_index] (M_Pens.v). *)
Record gobj := GObj { go_entry : nat; go_links : option nat; go_hinting : option nat }.
Definition set_links (k : nat) (g : gobj) : gobj := GObj (go_entry g) (Some k) (go_hinting g).
Definition set_hinting (k : nat) (g : gobj) : gobj := GObj (go_entry g) (go_links g) (Some k).

(** vfb/vfb.py 94, 95, 105: the fields [_glyphs], [glyph_order] and [ps_hinting_options] of a Vfb, beside those
    of M_Container.v *)
Record gtable := GTable
  { gt_glyphs : list (pystr * gobj); gt_order : list pystr; gt_options : option nat }.
Definition no_glyphs : gtable := GTable [] [] None.

(** templates/glyph.py 4-10 [get_empty_glyph] *)
Definition get_empty_glyph (n : Z) : glyph :=
  Glyph (Some []) (Some n) (Some []) (Some (repeat (0, 0) (Z.to_nat n))) None None None None None None.

Section Access.
  Variable T : codecs value.

  (** vfb/vfb.py 158-164: the name of the glyph in the table. The loop of line 161 ends, as the table is
      finite: the fuel is more than its size. *)
  Fixpoint first_free (fuel : nat) (name : pystr) (i : Z) (glyphs : list (pystr * gobj)) : res pystr :=
    match fuel with
    | O => Err Diverge
    | S fuel =>
        let key := name ++ py "#" ++ dec_str i in
        match aget str_eqb key glyphs with
        | Some _ => first_free fuel name (i + 1) glyphs
        | None => Ok key
        end
    end.
  Definition unique_name (name : pystr) (glyphs : list (pystr * gobj)) : res pystr :=
    match aget str_eqb name glyphs with
    | None => Ok name
    | Some _ => first_free (S (List.length glyphs)) name 1 glyphs
    end.

  (** vfb/glyph.py 67-77 [VfbGlyph.decompile]: the data of the entry afterwards, and its name. [any_errors]
      is not modelled here. *)
  Definition glyph_decompile (c : ctx) (e : entry value) : entry value * res pystr :=
    let '(e', _, o) := entry_decompile T c e in
    match o with
    | Err x => (e', Err x)
    | Ok _ =>
        match e_data e' with
        | Dec (DGlyph g) => (e', match g_name g with Some n => Ok n | None => Err KeyError end)
        | _ => (e', Err TypeError)
        end
    end.

  (** vfb/glyph.py 36, 79-80: [VfbGlyph.__init__] calls [empty], which replaces the data of the entry *)
  Definition glyph_empty (c : ctx) (e : entry value) : entry value :=
    set_data (Dec (DGlyph (get_empty_glyph (num_masters c)))) e.

  (** vfb/vfb.py 152-186: one entry, the [k]-th. [name] is the local variable of that name. *)
  Definition access_entry (c : ctx) (k : nat) (e : entry value) (name : option pystr) (t : gtable)
    : entry value * option pystr * gtable * res unit :=
    match e_id e with
    | None => (e, name, t, Ok tt)
    | Some i =>
        if i =? G_Glyph then
          let '(e', o) := glyph_decompile c (glyph_empty c e) in
          match rthen o (fun n => unique_name n (gt_glyphs t)) with
          | Err x => (e', name, t, Err x)
          | Ok n =>
              (e', Some n,
               GTable (aset str_eqb n (GObj k None None) (gt_glyphs t)) (gt_order t ++ [n]) (gt_options t),
               Ok tt)
          end
        else if (i =? G_Links) || (i =? G_HintingOptions) then
          let '(e', _, o) := entry_decompile T c e in
          match o, name with
          | Err x, _ => (e', name, t, Err x)
          | Ok _, None => (e', name, t, Ok tt)
          | Ok _, Some n =>
              match aget str_eqb n (gt_glyphs t) with
              | None => (e', name, t, Err KeyError)
              | Some g =>
                  let g' := if i =? G_Links then set_links k g else set_hinting k g in
                  (e', name, GTable (aset str_eqb n g' (gt_glyphs t)) (gt_order t) (gt_options t), Ok tt)
              end
          end
        else if i =? F_PostScriptHintingOptions then
          let '(e', _, o) := entry_decompile T c e in
          match o with
          | Err x => (e', name, t, Err x)
          | Ok _ => (e', name, GTable (gt_glyphs t) (gt_order t) (Some k), Ok tt)
          end
        else (e, name, t, Ok tt)
    end.

  (** vfb/vfb.py 150-186 [_decompile_glyphs] *)
  Fixpoint access_loop (c : ctx) (k : nat) (es : list (entry value)) (name : option pystr) (t : gtable)
    : list (entry value) * gtable * res unit :=
    match es with
    | [] => ([], t, Ok tt)
    | e :: es =>
        let '(e', name', t', o) := access_entry c k e name t in
        match o with
        | Err x => (e' :: es, t', Err x)
        | Ok _ => let '(es', t'', o') := access_loop c (S k) es name' t' in (e' :: es', t'', o')
        end
    end.

  (** vfb/vfb.py 189-190, 194-195, 222-223, 227-228: done before every access while there are no glyphs *)
  Definition ensure (v : vfb value * gtable) : vfb value * gtable * res unit :=
    match gt_glyphs (snd v) with
    | [] =>
        let '(es, t, o) := access_loop (v_ctx (fst v)) 0 (v_entries (fst v)) None (snd v) in
        (with_entries es (fst v), t, o)
    | _ => (v, Ok tt)
    end.
  (** vfb/vfb.py 226-229 [Vfb.keys] *)
  Definition vfb_keys (v : vfb value * gtable) : vfb value * gtable * res (list pystr) :=
    let '(v', o) := ensure v in (v', rmap (fun _ => map fst (gt_glyphs (snd v'))) o).
  (** vfb/vfb.py 221-224 [Vfb.items] *)
  Definition vfb_items (v : vfb value * gtable) : vfb value * gtable * res (list (pystr * gobj)) :=
    let '(v', o) := ensure v in (v', rmap (fun _ => gt_glyphs (snd v')) o).
  (** vfb/vfb.py 188-191 [Vfb.__contains__] *)
  Definition vfb_contains (key : pystr) (v : vfb value * gtable) : vfb value * gtable * res bool :=
    let '(v', o) := ensure v in
    (v', rmap (fun _ => match aget str_eqb key (gt_glyphs (snd v')) with Some _ => true | None => false end) o).
  (** vfb/vfb.py 193-196 [Vfb.__getitem__] *)
  Definition vfb_getitem (key : pystr) (v : vfb value * gtable) : vfb value * gtable * res gobj :=
    let '(v', o) := ensure v in
    (v', rthen o (fun _ => match aget str_eqb key (gt_glyphs (snd v')) with Some g => Ok g | None => Err KeyError end)).
  (** vfb/vfb.py 135-140, 305-313: [read_bytes] calls [clear], which leaves the glyphs as they are *)
  Definition reread (fuel : nat) (v : vfb value * gtable) (file : bytes) : vfb value * gtable * out unit :=
    let '(v', o) := vfb_read_bytes T fuel (fst v) file in (v', snd v, o).
End Access.
