(** Model of drawing: vfb/glyph.py 61-66, 198-338, 404-428 (draw, drawPoints, drawPointsDirect, clearContours),
    vfb/pens.py (the point pen that draws into a glyph), compilers/glyph.py 78-104 (merging of masters) and
    vfb/entry.py 233-248. Coordinates are integers, scales opaque doubles. *)
From Coq Require Import String.
From Verif Require Import Base M_Py M_Text M_Glyph M_Paths.
Local Open Scope list_scope.

(** ** The segment pen (fontTools AbstractPen): the calls *)
Inductive seg_call :=
| PMove (p : Z * Z) | PLine (p : Z * Z) | PCurve (c1 c2 p : Z * Z) | PQCurve (ps : list (Z * Z))
| PClose | PEnd | PComponent (name : pystr) (transform : list Z).

(** vfb/glyph.py 208-211: the variables of the loop *)
Record draw_st := DrawSt { ds_open : bool; ds_in_path : bool; ds_in_q : bool; ds_q : list (Z * Z) }.
Definition draw_start : draw_st := DrawSt false false false [].
(** vfb/glyph.py 224-228, 250-254 *)
Definition finish (st : draw_st) : list seg_call :=
  if ds_in_path st then [if ds_open st then PEnd else PClose] else [].
(** vfb/glyph.py 213-249: one node *)
Definition draw_node (m : Z) (n : mm_node) (st : draw_st) : res (list seg_call * draw_st) :=
  rthen (py_index (nd_points n) m) (fun row =>
  rthen (py_index row 0) (fun pt =>
  match nd_type n with
  | Move =>
      Ok ((if ds_in_q st then [PQCurve (ds_q st ++ [pt])] else []) ++ finish st ++ [PMove pt],
          DrawSt (Z.testbit (nd_flags n) 3) true false [])
  | Line =>
      if ds_in_q st then Ok ([PQCurve (ds_q st ++ [pt])], DrawSt (ds_open st) (ds_in_path st) false [])
      else Ok ([PLine pt], st)
  | Curve =>
      match row with
      | [p; c1; c2] => Ok ([PCurve c1 c2 p], st)
      | _ => Err ValueError
      end
  | QCurve => Ok ([], DrawSt (ds_open st) (ds_in_path st) true (ds_q st ++ [pt]))
  end)).
Fixpoint draw_nodes (m : Z) (nodes : list mm_node) (st : draw_st) : res (list seg_call * draw_st) :=
  match nodes with
  | [] => Ok ([], st)
  | n :: nodes =>
      rthen (draw_node m n st) (fun x =>
      rthen (draw_nodes m nodes (snd x)) (fun y => Ok (fst x ++ fst y, snd y)))
  end.
(** vfb/glyph.py 256-267 and 327-338: a component *)
Definition draw_component (order : list pystr) (m : Z) (c : M_Glyph.component) : res (pystr * list Z) :=
  rthen (py_index order (M_Glyph.co_gid c)) (fun name =>
  rthen (py_index (M_Glyph.co_sx c) m) (fun sx =>
  rthen (py_index (M_Glyph.co_sy c) m) (fun sy =>
  rthen (py_index (M_Glyph.co_x c) m) (fun x =>
  rthen (py_index (M_Glyph.co_y c) m) (fun y => Ok (name, [sx; 0; 0; sy; x; y])))))).
(** vfb/glyph.py 198-267 [VfbGlyph.draw]: the calls if no exception is raised *)
Definition draw (order : list pystr) (m : Z) (g : glyph) : res (list seg_call) :=
  rthen (draw_nodes m (match g_nodes g with Some l => l | None => [] end) draw_start) (fun x =>
  rthen (res_map (draw_component order m) (match g_components g with Some l => l | None => [] end)) (fun cs =>
  Ok (fst x ++ finish (snd x) ++ map (fun c => PComponent (fst c) (snd c)) cs))).

(** ** Drawing onto a point pen directly: vfb/glyph.py 284-338 *)
Inductive dcall := DBegin | DPoint (p : Z * Z) (t : option seg) | DEnd | DComponent (name : pystr) (transform : list Z).
(** [in_path], [in_qcurve] *)
Definition direct_node (m : Z) (n : mm_node) (st : bool * bool) : res (list dcall * (bool * bool)) :=
  let '(in_path, in_q) := st in
  rthen (py_index (nd_points n) m) (fun row =>
  match nd_type n with
  | Curve =>
      match row with
      | [p; c1; c2] => Ok ([DPoint c1 None; DPoint c2 None; DPoint p (Some SCurve)], st)
      | _ => Err ValueError
      end
  | t =>
      rthen (py_index row 0) (fun pt =>
      match t with
      | Move => Ok ((if in_q then [DPoint pt (Some SQCurve)] else []) ++ (if in_path then [DEnd] else []) ++
                    [DBegin; DPoint pt (Some SMove)], (true, false))
      | Line => Ok ([DPoint pt (Some (if in_q then SQCurve else SLine))], (in_path, false))
      | _ => Ok ([DPoint pt None], (in_path, true))
      end)
  end).
Fixpoint direct_nodes (m : Z) (nodes : list mm_node) (st : bool * bool) : res (list dcall * (bool * bool)) :=
  match nodes with
  | [] => Ok ([], st)
  | n :: nodes =>
      rthen (direct_node m n st) (fun x =>
      rthen (direct_nodes m nodes (snd x)) (fun y => Ok (fst x ++ fst y, snd y)))
  end.
Definition draw_direct (order : list pystr) (m : Z) (g : glyph) : res (list dcall) :=
  rthen (direct_nodes m (match g_nodes g with Some l => l | None => [] end) (false, false)) (fun x =>
  rthen (res_map (draw_component order m) (match g_components g with Some l => l | None => [] end)) (fun cs =>
  Ok (fst x ++ (if fst (snd x) then [DEnd] else []) ++ map (fun c => DComponent (fst c) (snd c)) cs))).

(** ** drawPoints: vfb/glyph.py 269-282, 430-447 and 82-112. The outlines are converted on the first call, and kept
    ([_glyph], the second component). [m] is the master index of the parent for a VfbGlyph, its own for a
    VfbGlyphMaster. Not modelled: components, and what [UfoMasterGlyph.build] does beside the outlines. *)
Definition draw_cached (m : Z) (g : glyph) (cache : option (list (list upoint)))
  : option (list (list upoint)) * res (list (pen_call Z)) :=
  match cache with
  | Some cs => (cache, Ok (draw_points cs []))
  | None =>
      match extract_contours m (fun _ => None) (match g_nodes g with Some l => l | None => [] end) with
      | Ok (cs, _) => (Some cs, Ok (draw_points cs []))
      | Err x => (None, Err x)
      end
  end.

(** ** Drawing into a glyph: vfb/pens.py *)
(** The target of a pen: the data of the glyph for the first master, else an element of
    [VfbEntry.temp_masters]: a dict with the optional keys nodes and components, or (lines 28-30) a list. *)
Inductive target := TDict (nodes : option (list mm_node)) (components : option (list M_Glyph.component)) | TList.
(** vfb/pens.py 23-31: the target of the pen; [temp_masters] afterwards. The data of the first master is not
    looked at. *)
Definition pen_target (m : Z) (temp : option (list target)) : option (list target) * res unit :=
  if m =? 0 then (temp, Ok tt)
  else
    let t := match temp with None => [TList] | Some t => t end in
    (Some t, rmap (fun _ => tt) (py_index t m)).
(** vfb/glyph.py 61-66, 404-418 [clearContours] of the data of the glyph *)
Definition clear_data (g : glyph) : glyph :=
  Glyph (g_name g) (g_num_masters g) (Some []) (g_metrics g) None (g_guides g) (g_components g) (g_kerning g)
        (g_imported g) (g_tth g).
Fixpoint set_nth {A} (k : nat) (x : A) (l : list A) : list A :=
  match l, k with
  | [], _ => []
  | _ :: l, O => x :: l
  | y :: l, S k => y :: set_nth k x l
  end.
(** [l[i] = x] of a list *)
Definition py_assign {A} (l : list A) (i : Z) (x : A) : res (list A) :=
  let j := if i <? 0 then i + Z.of_nat (List.length l) else i in
  if (j <? 0) || (Z.of_nat (List.length l) <=? j) then Err IndexError else Ok (set_nth (Z.to_nat j) x l).
(** vfb/glyph.py 404-418 [VfbGlyphMaster.clearContours] of another master *)
Definition clear_temp (num_masters m : Z) (temp : option (list target)) : option (list target) * res unit :=
  let t := match temp with None => repeat (TDict None None) (Z.to_nat num_masters) | Some t => t end in
  match py_index t m with
  | Err x => (Some t, Err x)
  | Ok TList => (Some t, Err TypeError)
  | Ok (TDict _ cs) =>
      match py_assign t m (TDict (Some []) cs) with Ok t' => (Some t', Ok tt) | Err x => (Some t, Err x) end
  end.

(** the calls of a point pen; the coordinates are integers, so [round] (line 67) is left out *)
Record pen_st := PenSt { pe_path : option (list mm_node); pe_in_q : bool; pe_nodes : option (list mm_node);
                         pe_components : option (list M_Glyph.component) }.
Inductive pcall := CBegin | CPoint (p : Z * Z) (t : option seg) | CEnd
| CComponent (name : pystr) (xx xy yx yy dx dy : Z).
Section Pen.
  (** [glyphSet.num_masters], [glyphSet.glyph_order] *)
  Variable num_masters : Z.
  Variable order : list pystr.
  (** lines 59-101 *)
  Definition pen_node (flags : Z) (t : path_cmd) (p : Z * Z) : mm_node :=
    MMNode t flags (repeat [p] (Z.to_nat num_masters)).
  Fixpoint position_of (name : pystr) (l : list pystr) (k : Z) : option Z :=
    match l with
    | [] => None
    | x :: l => if str_eqb x name then Some k else position_of name l (k + 1)
    end.
  Definition pen_call (c : pcall) (st : pen_st) : res pen_st :=
    match c with
    | CBegin => Ok (PenSt (Some []) (pe_in_q st) (pe_nodes st) (pe_components st))        (* 33-36 *)
    | CEnd =>                                                                             (* 38-49 *)
        match pe_path st with
        | None => Err TypeError
        | Some path =>
            Ok (PenSt None (pe_in_q st) (Some (match pe_nodes st with Some l => l | None => [] end ++ path)) (pe_components st))
        end
    | CPoint p t =>                                                                       (* 51-104 *)
        match pe_path st with
        | None => Err AssertionError
        | Some path =>
            let in_q := match t with Some SQCurve => true | _ => pe_in_q st end in
            let st' n q := Ok (PenSt (Some (path ++ [n])) q (pe_nodes st) (pe_components st)) in
            match path with
            | [] => st' (pen_node (match t with Some SMove => 8 | _ => 0 end) Move p) in_q
            | _ =>
                match t with
                | None => st' (pen_node 0 QCurve p) in_q
                | Some SQCurve => st' (pen_node 0 Line p) false  (* line 87: [in_qcurve] is True here, see line 75 *)
                | Some SLine => st' (pen_node 0 Line p) in_q
                | Some _ => Err ValueError
                end
            end
        end
    | CComponent name xx xy yx yy dx dy =>                                                (* 106-133 *)
        match pe_path st with
        | Some _ => Err AssertionError
        | None =>
            match position_of name order 0 with
            | None => Err ValueError
            | Some gid =>
                let r := fun x => repeat x (Z.to_nat num_masters) in
                Ok (PenSt None (pe_in_q st) (pe_nodes st)
                     (Some (match pe_components st with Some l => l | None => [] end ++
                            [M_Glyph.Component gid (r dx) (r dy) (r xx) (r yy)])))
            end
        end
    end.
  Fixpoint pen_calls (cs : list pcall) (st : pen_st) : res pen_st :=
    match cs with
    | [] => Ok st
    | c :: cs => rthen (pen_call c st) (pen_calls cs)
    end.
End Pen.

(** ** Merging of masters: compilers/glyph.py 78-104. Each function gives the data as it is left, also when an
    exception is raised. *)
Definition cmd_eqb (a b : path_cmd) : bool :=
  match a, b with Move, Move | Line, Line | Curve, Curve | QCurve, QCurve => true | _, _ => false end.
(** lines 89-93 *)
Definition merge_node (m : Z) (src tgt : mm_node) : res mm_node :=
  if cmd_eqb (nd_type src) (nd_type tgt) && (nd_flags src =? nd_flags tgt) then
    rthen (py_index (nd_points src) m) (fun p =>
    rthen (py_assign (nd_points tgt) m p) (fun points => Ok (MMNode (nd_type tgt) (nd_flags tgt) points)))
  else Err AssertionError.
(** lines 97-104. The lists of a component are changed one by one. *)
Definition merge_component (m : Z) (src tgt : M_Glyph.component) : M_Glyph.component * res unit :=
  if M_Glyph.co_gid src =? M_Glyph.co_gid tgt then
    match rthen (py_index (M_Glyph.co_x src) m) (py_assign (M_Glyph.co_x tgt) m) with
    | Err e => (tgt, Err e)
    | Ok x =>
        let tgt := M_Glyph.Component (M_Glyph.co_gid tgt) x (M_Glyph.co_y tgt) (M_Glyph.co_sx tgt) (M_Glyph.co_sy tgt) in
        match rthen (py_index (M_Glyph.co_y src) m) (py_assign (M_Glyph.co_y tgt) m) with
        | Err e => (tgt, Err e)
        | Ok y =>
            let tgt := M_Glyph.Component (M_Glyph.co_gid tgt) x y (M_Glyph.co_sx tgt) (M_Glyph.co_sy tgt) in
            match rthen (py_index (M_Glyph.co_sx src) m) (py_assign (M_Glyph.co_sx tgt) m) with
            | Err e => (tgt, Err e)
            | Ok sx =>
                let tgt := M_Glyph.Component (M_Glyph.co_gid tgt) x y sx (M_Glyph.co_sy tgt) in
                match rthen (py_index (M_Glyph.co_sy src) m) (py_assign (M_Glyph.co_sy tgt) m) with
                | Err e => (tgt, Err e)
                | Ok sy => (M_Glyph.Component (M_Glyph.co_gid tgt) x y sx sy, Ok tt)
                end
            end
        end
    end
  else (tgt, Err AssertionError).
(** line 88, 96: the [i]-th element of the source with the [i]-th of the data *)
Fixpoint merge_list {A} (f : A -> A -> A * res unit) (src tgt : list A) {struct tgt} : list A * res unit :=
  match tgt with
  | [] => ([], Ok tt)
  | t :: tgt =>
      match src with
      | [] => (t :: tgt, Err IndexError)
      | s :: src =>
          let '(t', o) := f s t in
          match o with
          | Err e => (t' :: tgt, Err e)
          | Ok _ => let '(l, o') := merge_list f src tgt in (t' :: l, o')
          end
      end
  end.
Definition merge_node' (m : Z) (src tgt : mm_node) : mm_node * res unit :=
  match merge_node m src tgt with Ok t => (t, Ok tt) | Err e => (tgt, Err e) end.
(** lines 83-104: one master. The data is that of the glyph, the optional keys nodes and components. *)
Definition data := (option (list mm_node) * option (list M_Glyph.component))%type.
Definition merge_master (m : Z) (src : target) (d : data) : data * res unit :=
  match src with
  | TList => (d, Ok tt)
  | TDict ns cs =>
      let '(nodes, o) :=
        match ns, fst d with
        | None, x => (x, Ok tt)
        | Some _, None => (None, Err AssertionError)
        | Some s, Some t => let '(l, o) := merge_list (merge_node' m) s t in (Some l, o)
        end in
      match o with
      | Err e => ((nodes, snd d), Err e)
      | Ok _ =>
          let '(comps, o') :=
            match cs, snd d with
            | None, x => (x, Ok tt)
            | Some _, None => (None, Err AssertionError)
            | Some s, Some t => let '(l, o) := merge_list (merge_component m) s t in (Some l, o)
            end in
          ((nodes, comps), o')
      end
  end.
Fixpoint merge_masters (m : Z) (masters : list target) (d : data) : data * res unit :=
  match masters with
  | [] => (d, Ok tt)
  | s :: masters =>
      let '(d', o) := merge_master m s d in
      match o with Err e => (d', Err e) | Ok _ => merge_masters (m + 1) masters d' end
  end.
(** lines 78-82 [GlyphCompiler.merge] *)
Definition merge (masters : list target) (d : data) : data * res unit :=
  match masters with
  | [] | [_] => (d, Ok tt)
  | _ :: masters => merge_masters 1 masters d
  end.
(** vfb/entry.py 233-248 [merge_masters_data] of a glyph entry *)
Definition merge_masters_data (num_masters : Z) (temp : option (list target)) (d : data) : data * res unit :=
  match temp with
  | None => (d, Ok tt)
  | Some t => if num_masters =? 1 then (d, Ok tt) else merge t d
  end.
