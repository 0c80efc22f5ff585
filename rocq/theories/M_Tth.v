(** Model of TrueType hinting in the export: ufo/builder.py 265-352, 376-415; ufo/tth.py; tth.py. *)
From Coq Require Import String.
From Verif Require Import Base M_Py M_Text M_Glyph M_Labels M_TrueType.
Local Open Scope list_scope.

(** ufo/tth.py 65-94 [transform_stem_rounds]. The test [key in d] looks for an int among str keys and never
    succeeds, so later pixel numbers replace earlier ones. *)
Notation rounds := (list (pystr * Z)).
Definition transform_rounds (data : list (Z * Z)) : rounds :=
  fold_left (fun d kv => aset str_eqb (dec_str (snd kv)) (fst kv) d) data [].

(** ** The builder *)
(** typing.py [TUfoStemDict]. [round] is the dict of the builder's [stem_ppms] for the same direction and
    number, shared, so that later changes of that dict change the stem; here it is its number. *)
Record ustem := UStem { us_horizontal : bool; us_width : Z; us_name : pystr; us_round : Z }.
(** [TUfoTTZoneDict] *)
Record uzone := UZone { uz_position : Z; uz_top : bool; uz_width : Z; uz_delta : option rounds }.
(** ufo/builder.py 113-117. [ppms], [stems]: [h] is ["ttStemsH"] *)
Record tt_state := TtState
  { ex_ppms_h : list (Z * rounds); ex_ppms_v : list (Z * rounds);
    ex_stems_h : list ustem; ex_stems_v : list ustem;
    ex_zones : list (pystr * uzone); ex_zone_names : list pystr;
    ex_side_names : option (list pystr * list pystr) (* top, bottom; [None] is the empty dict *) }.
Definition tt_start : tt_state := TtState [] [] [] [] [] [] None.

(** 265-279 [set_tt_stem_ppms], one direction *)
Definition ppms_of (l : list tt_stem) : res (list (Z * rounds)) :=
  res_map (fun ds => rmap (fun i => (i, transform_rounds (ts_round ds))) (opt_res (ts_stem ds))) l.
Definition set_tt_stem_ppms (d : tt_stems) (s : tt_state) : res tt_state :=
  rthen (ppms_of (tts_h d)) (fun h => rmap (fun v =>
    TtState (ex_ppms_h s ++ h) (ex_ppms_v s ++ v) (ex_stems_h s) (ex_stems_v s) (ex_zones s)
            (ex_zone_names s) (ex_side_names s)) (ppms_of (tts_v d))).

(** [l[i] = f(l[i])] *)
Definition py_update {A} (l : list A) (i : Z) (f : A -> A) : res (list A) :=
  let j := if i <? 0 then i + Z.of_nat (List.length l) else i in
  if in_range 0 (Z.of_nat (List.length l)) j then
    Ok (firstn (Z.to_nat j) l ++ map f (firstn 1 (skipn (Z.to_nat j) l)) ++ skipn (S (Z.to_nat j)) l)
  else Err IndexError.
(** 281-300 [set_tt_stem_ppms_1], one stem *)
Definition add_missing (ppm : pystr) (px : Z) (r : rounds) : rounds :=
  match aget str_eqb ppm r with Some _ => r | None => aset str_eqb ppm px r end.
Definition ppms1_turn (l : list (Z * rounds)) (ds : tt_stem) : res (list (Z * rounds)) :=
  rthen (opt_res (ts_stem ds)) (fun i =>
  rthen (py_index l i) (fun _ =>
  rthen (aget_res Z.eqb 1 (ts_round ds)) (fun p =>
  py_update l i (fun x => (fst x, add_missing (dec_str p) 1 (snd x)))))).
Fixpoint res_fold {A B} (f : A -> B -> res A) (a : A) (l : list B) : res A :=
  match l with
  | [] => Ok a
  | x :: l => rthen (f a x) (fun a => res_fold f a l)
  end.
Definition set_tt_stem_ppms_1 (d : tt_stems) (s : tt_state) : res tt_state :=
  rthen (res_fold ppms1_turn (ex_ppms_h s) (tts_h d)) (fun h => rmap (fun v =>
    TtState h v (ex_stems_h s) (ex_stems_v s) (ex_zones s) (ex_zone_names s) (ex_side_names s))
    (res_fold ppms1_turn (ex_ppms_v s) (tts_v d))).

(** 302-332 [set_tt_stems], one stem of one direction; [i] is its number *)
Definition stem_turn (hor : bool) (a : list (Z * rounds) * list ustem * Z) (ds : tt_stem)
  : res (list (Z * rounds) * list ustem * Z) :=
  let '(ppms, stems, i) := a in
  match ts_round ds with
  | [] => Err IndexError
  | (rk, rv) :: _ =>
      rthen (py_index ppms i) (fun p =>
      if i =? fst p then
        rthen (opt_res (ts_value ds)) (fun value =>
        rthen (opt_res (ts_name ds)) (fun name =>
        rmap (fun ppms => (ppms, stems ++ [UStem hor value name i], i + 1))
             (py_update ppms i (fun x => (fst x, aset str_eqb (dec_str rv) rk (snd x))))))
      else Err AssertionError)
  end.
Definition set_tt_stems (d : tt_stems) (s : tt_state) : res tt_state :=
  rthen (res_fold (stem_turn false) (ex_ppms_h s, ex_stems_h s, 0) (tts_h d)) (fun h =>
  rmap (fun v => TtState (fst (fst h)) (fst (fst v)) (snd (fst h)) (snd (fst v)) (ex_zones s) (ex_zone_names s) (ex_side_names s))
       (res_fold (stem_turn true) (ex_ppms_v s, ex_stems_v s, 0) (tts_v d))).

(** 334-352 [set_tt_zones] *)
Definition zone_turn (top : bool) (a : list (pystr * uzone) * list pystr) (z : tt_zone) : list (pystr * uzone) * list pystr :=
  (aset str_eqb (tz_name z) (UZone (tz_position z) top (tz_value z) None) (fst a), snd a ++ [tz_name z]).
Definition set_tt_zones (d : tt_zones) (s : tt_state) : res tt_state :=
  rthen (opt_res (tz_bottom d)) (fun b =>
  rmap (fun t =>
    let r := fold_left (zone_turn true) t (fold_left (zone_turn false) b (ex_zones s, ex_zone_names s)) in
    TtState (ex_ppms_h s) (ex_ppms_v s) (ex_stems_h s) (ex_stems_v s) (fst r) (snd r)
            (Some (map tz_name t, map tz_name b)))
    (opt_res (tz_top d))).
(** 376-379 [set_tt_zone_deltas] *)
Definition delta_texts (deltas : list (Z * Z)) : rounds :=
  fold_left (fun d kv => aset str_eqb (dec_str (fst kv)) (snd kv) d) deltas [].
Definition delta_turn (names : list pystr) (zones : list (pystr * uzone)) (x : Z * list (Z * Z)) : res (list (pystr * uzone)) :=
  rthen (py_index names (fst x)) (fun name =>
  rmap (fun z => aset str_eqb name (UZone (uz_position z) (uz_top z) (uz_width z) (Some (delta_texts (snd x)))) zones)
       (aget_res str_eqb name zones)).
Definition set_tt_zone_deltas (d : zone_deltas) (s : tt_state) : res tt_state :=
  rmap (fun z => TtState (ex_ppms_h s) (ex_ppms_v s) (ex_stems_h s) (ex_stems_v s) z (ex_zone_names s) (ex_side_names s))
       (res_fold (delta_turn (ex_zone_names s)) (ex_zones s) d).

(** 381-402 [build_tt_stems_lib]: the stems of one direction are added to [lib]; [i] counts the stems without
    a name *)
Fixpoint stems_lib (hor : bool) (i : Z) (lib : list (pystr * ustem)) (stems : list ustem) : list (pystr * ustem) :=
  match stems with
  | [] => lib
  | s :: stems =>
      let unnamed := match us_name s with [] => true | _ => false end in
      let name := if unnamed then (if hor then py "h" else py "v") ++ dec02 i else us_name s in
      let i := if unnamed then i + 1 else i in
      let name := match aget str_eqb name lib with Some _ => name ++ py "#" ++ dec02 i | None => name end in
      stems_lib hor i (aset str_eqb name s lib) stems
  end.
Definition build_tt_stems_lib (s : tt_state) : list (pystr * ustem) :=
  stems_lib true 0 (stems_lib false 0 [] (ex_stems_h s)) (ex_stems_v s).
(** what is written for a stem: the shared dict is looked up *)
Definition stem_round (s : tt_state) (u : ustem) : res rounds :=
  rmap snd (py_index (if us_horizontal u then ex_ppms_v s else ex_ppms_h s) (us_round u)).

(** The entries of a VFB, in order: ufo/builder.py 538-539, 546-549, 552-553, 607-608 *)
Inductive tt_entry :=
| EPpms (d : tt_stems) | EPpms1 (d : tt_stems) | EStems (d : tt_stems) | EZones (d : tt_zones) | EDeltas (d : zone_deltas).
Definition tt_add (s : tt_state) (e : tt_entry) : res tt_state :=
  match e with
  | EPpms d => set_tt_stem_ppms d s
  | EPpms1 d => set_tt_stem_ppms_1 d s
  | EStems d => set_tt_stems d s
  | EZones d => set_tt_zones d s
  | EDeltas d => set_tt_zone_deltas d s
  end.
Definition tt_build (entries : list tt_entry) : res tt_state := res_fold tt_add tt_start entries.

(** ** Commands of a glyph *)
(** ufo/vfb2ufo.py 32-39, 41-56 *)
Definition alignment_rev : list (Z * pystr) :=
  [(-1, py "default"); (0, py "round"); (1, py "left"); (2, py "right"); (3, py "center"); (4, py "double")].
Definition command_codes : list (pystr * pystr) :=
  [(py "AlignBottom", py "alignb"); (py "AlignTop", py "alignt"); (py "SingleLinkH", py "singleh");
   (py "SingleLinkV", py "singlev"); (py "DoubleLinkH", py "doubleh"); (py "DoubleLinkV", py "doublev");
   (py "AlignH", py "alignh"); (py "AlignV", py "alignv"); (py "InterpolateH", py "interpolateh");
   (py "InterpolateV", py "interpolatev"); (py "MDeltaH", py "mdeltah"); (py "MDeltaV", py "mdeltav");
   (py "FDeltaH", py "fdeltah"); (py "FDeltaV", py "fdeltav")].
(** values of the exported dicts *)
Inductive tval := TStr (s : pystr) | TInt (n : Z) | TTrue.
Notation command := (list (pystr * tval)).

Section Commands.
  (** the glyph's [get_point_label] with its state, the zone of a number of the top or bottom side, and the
      names of the stems of ["ttStemsH"] or ["ttStemsV"] *)
  Variable L : Type.
  Variable label : L -> Z -> pystr -> res (tval * L).
  Variable zone : bool -> Z -> res pystr.
  Variable stems : bool -> list pystr.

  (** [d[attr] = get_point_label(params[param], code)] *)
  Definition add_point (i : instruction) (attr param : pystr) (a : command * L) : res (command * L) :=
    rthen (aget_res str_eqb param (in_params i)) (fun p =>
    rmap (fun r => (aset str_eqb attr (fst r) (fst a), snd r)) (label (snd a) p (in_cmd i))).
  (** lines 129-132, 162-165, 173-176 *)
  Definition add_align (i : instruction) (d : command) : command :=
    match aget str_eqb (py "align") (in_params i) with
    | Some align =>
        if align >? -1 then
          aset str_eqb (py "align") (TStr (match aget Z.eqb align alignment_rev with Some s => s | None => py "round" end)) d
        else d
    | None => d
    end.
  (** lines 141-161; [hor]: the code ends with H *)
  Definition add_stem (hor : bool) (i : instruction) (d : command) : res command :=
    match aget str_eqb (py "stem") (in_params i) with
    | Some stem =>
        if stem <=? -2 then Ok (aset str_eqb (py "round") TTrue d)
        else if stem =? -1 then Ok d
        else
          let stem := if stem >=? Z.of_nat (List.length (stems hor)) then 0 else stem in
          rmap (fun s => aset str_eqb (py "stem") (TStr s) d) (py_index (stems hor) stem)
    | None => Ok d
    end.
  Definition is_one (s : pystr) (l : list pystr) : bool := existsb (str_eqb s) l.
  Definition add_param (i : instruction) (attr param : pystr) (d : command) : res command :=
    rmap (fun v => aset str_eqb attr (TInt v) d) (aget_res str_eqb param (in_params i)).
  (** ufo/tth.py 112-188, one command *)
  Definition export_command (st : L) (i : instruction) : res (command * L) :=
    let code := in_cmd i in
    rthen (aget_res str_eqb code command_codes) (fun c =>
    let d := [(py "code", TStr c)] in
    if is_one code [py "AlignBottom"; py "AlignTop"] then
      rthen (add_point i (py "point") (py "pt") (d, st)) (fun r =>
      rthen (aget_res str_eqb (py "zone") (in_params i)) (fun z =>
      rmap (fun s => (aset str_eqb (py "zone") (TStr s) (fst r), snd r)) (zone (negb (str_eqb code (py "AlignBottom"))) z)))
    else if is_one code [py "AlignH"; py "AlignV"] then
      rmap (fun r => (add_align i (fst r), snd r)) (add_point i (py "point") (py "pt") (d, st))
    else if is_one code [py "SingleLinkH"; py "SingleLinkV"; py "DoubleLinkH"; py "DoubleLinkV"] then
      rthen (add_point i (py "point1") (py "pt1") (d, st)) (fun r =>
      rthen (add_point i (py "point2") (py "pt2") r) (fun r =>
      rmap (fun d => (add_align i d, snd r))
           (add_stem (is_one code [py "SingleLinkH"; py "DoubleLinkH"]) i (fst r))))
    else if is_one code [py "InterpolateH"; py "InterpolateV"] then
      rthen (add_point i (py "point") (py "pti") (d, st)) (fun r =>
      rthen (add_point i (py "point1") (py "pt1") r) (fun r =>
      rmap (fun r => (add_align i (fst r), snd r)) (add_point i (py "point2") (py "pt2") r)))
    else if is_one code [py "MDeltaH"; py "MDeltaV"; py "FDeltaH"; py "FDeltaV"] then
      rthen (add_point i (py "point") (py "pt") (d, st)) (fun r =>
      rthen (add_param i (py "delta") (py "shift") (fst r)) (fun d =>
      rthen (add_param i (py "ppm1") (py "ppm1") d) (fun d =>
      rmap (fun d => (d, snd r)) (add_param i (py "ppm2") (py "ppm2") d))))
    else Err ValueError).
  Fixpoint export_commands (st : L) (l : list instruction) : res (list command * L) :=
    match l with
    | [] => Ok ([], st)
    | i :: l => rthen (export_command st i) (fun r => rmap (fun rs => (fst r :: fst rs, snd rs)) (export_commands (snd r) l))
    end.
End Commands.

(** 409-414 [build_tt_glyph_lib] for the glyph [name]: this happens before [build_tt_stems_lib] *)
Definition builder_zone (s : tt_state) (top : bool) (i : Z) : res pystr :=
  match ex_side_names s with
  | Some (t, b) => py_index (if top then t else b) i
  | None => Err KeyError
  end.
Definition builder_stems (s : tt_state) (h : bool) : list pystr := map us_name (if h then ex_stems_h s else ex_stems_v s).
Definition builder_label (fuel : nat) (order : list pystr) (name : pystr) (st : store) (i : Z) (code : pystr) : res (tval * store) :=
  rmap (fun r => (TStr (fst r), snd r)) (get_point_label fuel order st name i code 1).
Definition glyph_commands (fuel : nat) (order : list pystr) (name : pystr) (s : tt_state) (st : store) (l : list instruction)
  : res (list command * store) :=
  export_commands store (builder_label fuel order name) (builder_zone s) (builder_stems s) st l.

(** ** XML *)
(** [html.escape] with [quote] *)
Definition escape_char (c : Z) : pystr :=
  if c =? 38 then py "&amp;" else if c =? 60 then py "&lt;" else if c =? 62 then py "&gt;"
  else if c =? 34 then py "&quot;" else if c =? 39 then py "&#x27;" else [c].
Definition html_escape (s : pystr) : pystr := concat (map escape_char s).
(** [str(val)], for ["round"] also [lower()]. Simplification: ["round"] is only ever true. *)
Definition tval_str (v : tval) : pystr := match v with TStr s => s | TInt n => dec_str n | TTrue => py "true" end.
(** ufo/tth.py 37-62 [tt_cmd_dict_to_xml] *)
Definition xml_attrs : list pystr :=
  [py "point"; py "point1"; py "point2"; py "round"; py "stem"; py "zone"; py "align"; py "delta"; py "ppm1"; py "ppm2"].
Definition quoted (s : pystr) : pystr := [34] ++ s ++ [34].
Definition xml_attr (d : command) (attr : pystr) : pystr :=
  match aget str_eqb attr d with
  | Some v => [32] ++ attr ++ [61] ++ quoted (html_escape (tval_str v))
  | None => []
  end.
Definition cmd_xml (d : command) : res pystr :=
  rmap (fun code => py "    <ttc code=" ++ quoted (tval_str code) ++ concat (map (xml_attr d) xml_attrs) ++ py "/>")
       (aget_res str_eqb (py "code") d).
(** ufo/tth.py 19-34 [get_xml_tth], [set_tth_lib]: what is put into the lib of the glyph, if anything *)
Definition tth_lib (commands : list command) : res (option pystr) :=
  rmap (fun lines => match lines with
                     | [] => None
                     | _ => Some (py "  <ttProgram>" ++ [10] ++ join_nl lines ++ [10] ++ py "  </ttProgram>" ++ [10])
                     end)
       (res_map cmd_xml commands).
