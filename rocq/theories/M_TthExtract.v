(** Model of the extraction of TrueType hinting: tth.py 88-359. The entries gasp, ttinfo, stemsnaplimit,
    zoneppm and codeppm, whose numbers are copied, are in M_TthFile.v. *)
From Coq Require Import String.
From Verif Require Import Base M_Py M_Text M_Glyph M_Labels M_TrueType M_Tth.
Local Open Scope list_scope.

(** tth.py 242-249 and 286-293: names are made unique. The loop tries at most one number more than there are
    names, see [P_TthExtract.unique_ok]. *)
Fixpoint unique_loop (fuel : nat) (names : list pystr) (name : pystr) (i : Z) : res pystr :=
  match fuel with
  | O => Err Diverge
  | S f => let n := name ++ py "#" ++ dec_str i in
           if existsb (str_eqb n) names then unique_loop f names name (i + 1) else Ok n
  end.
Definition unique_name (names : list pystr) (name : pystr) : res pystr :=
  if existsb (str_eqb name) names then unique_loop (S (List.length names)) names name 1 else Ok name.
(** the dict of a stem and of a zone *)
Record estem := EStem { es_name : pystr; es_round : list (Z * Z); es_width : Z; es_horizontal : bool }.
Record ezone := EZone { ez_name : pystr; ez_position : Z; ez_top : bool; ez_width : Z; ez_deltas : option rounds }.
(** the stems in the result; rounding is by ppm *)
Record fstem := FStem { fs_round : rounds; fs_width : Z; fs_horizontal : bool }.
Record fzone := FZone { fz_position : Z; fz_top : bool; fz_width : Z; fz_deltas : option rounds }.

(** tth.py 229-257 [extract_tt_stems], one direction. Simplification: a stem of the parser always has name, value
    and rounding; if one is missing, there is a KeyError. *)
Fixpoint extract_stems (hor : bool) (names : list pystr) (l : list tt_stem) : res (list estem * list pystr) :=
  match l with
  | [] => Ok ([], names)
  | s :: l =>
      rthen (opt_res (ts_name s)) (fun name =>
      rthen (unique_name names name) (fun name =>
      rthen (opt_res (ts_value s)) (fun value =>
      rmap (fun r => (EStem name (ts_round s) value hor :: fst r, snd r)) (extract_stems hor (name :: names) l))))
  end.
(** vertical, horizontal *)
Definition extract_tt_stems (d : tt_stems) : res (list estem * list estem) :=
  rthen (extract_stems true [] (tts_v d)) (fun v =>
  rmap (fun h => (fst v, fst h)) (extract_stems false (snd v) (tts_h d))).
(** tth.py 272-302 [extract_tt_zones], one side *)
Fixpoint extract_zones (top : bool) (names : list pystr) (l : list tt_zone) : res (list ezone * list pystr) :=
  match l with
  | [] => Ok ([], names)
  | z :: l =>
      rthen (unique_name names (tz_name z)) (fun name =>
      rmap (fun r => (EZone name (tz_position z) top (tz_value z) None :: fst r, snd r)) (extract_zones top (name :: names) l))
  end.
(** top, bottom; a side that is missing is empty *)
Definition some_list {A} (o : option (list A)) : list A := match o with Some l => l | None => [] end.
Definition extract_tt_zones (d : tt_zones) : res (list ezone * list ezone) :=
  rthen (extract_zones true [] (some_list (tz_top d))) (fun t =>
  rmap (fun b => (fst t, fst b)) (extract_zones false (snd t) (some_list (tz_bottom d)))).

(** tth.py 100-104: what is collected. [zone_names] is set by number and never cleared. *)
Record xstate := XState
  { x_stems : option (list estem * list estem); x_zones : option (list ezone * list ezone);
    x_deltas : option zone_deltas; x_names_t : list (Z * pystr); x_names_b : list (Z * pystr);
    x_round_v : list (Z * list (Z * Z)); x_round_h : list (Z * list (Z * Z));
    x_glyphs : list (pystr * list command) }.
Definition x_start : xstate := XState None None None [] [] [] [] [].

(** tth.py 213-226 [extract_tt_stem_ppems], one direction *)
Definition extract_ppems (a : list (Z * list (Z * Z))) (l : list tt_stem) : res (list (Z * list (Z * Z))) :=
  res_fold (fun a s => rmap (fun i => aset Z.eqb i (ts_round s) a) (opt_res (ts_stem s))) a l.
(** tth.py 196-210 [extract_tt_stem_ppem_1], one direction: the rounding dict of the parser has the key [1]; the
    function looks for ["1"]. *)
Definition extract_ppem_1 (l : list tt_stem) : res unit := match l with [] => Ok tt | _ => Err KeyError end.
Fixpoint number {A} (i : Z) (l : list A) : list (Z * A) :=
  match l with [] => [] | x :: l => (i, x) :: number (i + 1) l end.
Definition set_names (l : list ezone) (d : list (Z * pystr)) : list (Z * pystr) :=
  fold_left (fun d x => aset Z.eqb (fst x) (ez_name (snd x)) d) (number 0 l) d.

(** tth.py 173-193 [extract_glyph_hints]; ufo/glyph.py 150-159: the label of a point is its number. Stems are
    needed even if the commands do not use them. *)
Definition index_label (st : unit) (i : Z) (code : pystr) : res (tval * unit) := Ok (TInt i, tt).
Definition extract_glyph (s : xstate) (name : pystr) (tth : option (list instruction)) : res xstate :=
  match tth with
  | None | Some [] => Ok s
  | Some l =>
      match x_stems s with
      | None => Err KeyError
      | Some (v, h) =>
          rmap (fun r => XState (x_stems s) (x_zones s) (x_deltas s) (x_names_t s) (x_names_b s) (x_round_v s) (x_round_h s)
                                (aset str_eqb name (fst r) (x_glyphs s)))
               (export_commands unit index_label
                  (fun top i => aget_res Z.eqb i (if top then x_names_t s else x_names_b s))
                  (fun hor => map es_name (if hor then h else v)) tt l)
      end
  end.

Inductive x_entry :=
| XPpms (d : tt_stems) | XPpms1 (d : tt_stems) | XStems (d : tt_stems) | XZones (d : tt_zones) | XDeltas (d : zone_deltas)
| XGlyph (name : pystr) (tth : option (list instruction)).
(** tth.py 122-165 *)
Definition x_add (s : xstate) (e : x_entry) : res xstate :=
  match e with
  | XPpms d =>
      rthen (extract_ppems (x_round_v s) (tts_v d)) (fun v =>
      rmap (fun h => XState (x_stems s) (x_zones s) (x_deltas s) (x_names_t s) (x_names_b s) v h (x_glyphs s))
           (extract_ppems (x_round_h s) (tts_h d)))
  | XPpms1 d => rthen (extract_ppem_1 (tts_v d)) (fun _ => rmap (fun _ => s) (extract_ppem_1 (tts_h d)))
  | XStems d =>
      rmap (fun r => XState (Some r) (x_zones s) (x_deltas s) (x_names_t s) (x_names_b s) (x_round_v s) (x_round_h s) (x_glyphs s))
           (extract_tt_stems d)
  | XZones d =>
      rmap (fun r => XState (x_stems s) (Some r) (x_deltas s) (set_names (fst r) (x_names_t s)) (set_names (snd r) (x_names_b s))
                            (x_round_v s) (x_round_h s) (x_glyphs s))
           (extract_tt_zones d)
  | XDeltas d =>
      Ok (XState (x_stems s) (x_zones s) (Some d) (x_names_t s) (x_names_b s) (x_round_v s) (x_round_h s) (x_glyphs s))
  | XGlyph name tth => extract_glyph s name tth
  end.

(** [sorted(..., key=lambda item: item[1])] *)
Fixpoint insert_px (x : pystr * Z) (l : rounds) : rounds :=
  match l with
  | [] => [x]
  | y :: l' => if snd x <? snd y then x :: l else y :: insert_px x l'
  end.
Definition sort_px (l : rounds) : rounds := fold_left (fun a x => insert_px x a) l [].
(** tth.py 305-331 [merge_stem_information]; [d[k] = v] of the sorted items is the sorted list, as the keys are
    different *)
Definition update (d e : list (Z * Z)) : list (Z * Z) := fold_left (fun d x => aset Z.eqb (fst x) (snd x) d) e d.
Definition merge_stem (stems : list estem) (d : list (pystr * fstem)) (x : Z * list (Z * Z)) : res (list (pystr * fstem)) :=
  rmap (fun s => aset str_eqb (es_name s)
                   (FStem (sort_px (transform_rounds (update (es_round s) (snd x)))) (es_width s) (es_horizontal s)) d)
       (py_index stems (fst x)).
(** [font["stems"]] is looked up in each turn *)
Definition merge_stems (s : xstate) : res (list (pystr * fstem)) :=
  let stems (v : bool) := rmap (fun r => if v then fst r else snd r) (opt_res (x_stems s)) in
  rthen (res_fold (fun d x => rthen (stems true) (fun l => merge_stem l d x)) (@nil (pystr * fstem)) (x_round_v s)) (fun d =>
  rthen (res_fold (fun d x => rthen (stems false) (fun l => merge_stem l d x)) d (x_round_h s)) (fun d =>
  match d with
  | [] => rmap (fun _ => d) (opt_res (x_stems s))
  | _ => Ok d
  end)).
(** [sorted(zone_delta.items())]: by ppm *)
Fixpoint insert_ppm (x : Z * Z) (l : list (Z * Z)) : list (Z * Z) :=
  match l with
  | [] => [x]
  | y :: l' => if fst x <? fst y then x :: l else y :: insert_ppm x l'
  end.
Definition sort_ppm (l : list (Z * Z)) : list (Z * Z) := fold_left (fun a x => insert_ppm x a) l [].
(** tth.py 334-359 [merge_zone_information] *)
Definition merge_delta (zones : list ezone) (x : Z * list (Z * Z)) : res (list ezone) :=
  py_update zones (fst x) (fun z => EZone (ez_name z) (ez_position z) (ez_top z) (ez_width z) (Some (delta_texts (sort_ppm (snd x))))).
Definition merge_zones (s : xstate) : res (list (pystr * fzone)) :=
  rthen (opt_res (x_zones s)) (fun tb =>
  rthen (res_fold merge_delta (snd tb ++ fst tb) (match x_deltas s with Some d => d | None => [] end)) (fun all =>
  rmap (fun _ => fold_left (fun d z => aset str_eqb (ez_name z) (FZone (ez_position z) (ez_top z) (ez_width z) (ez_deltas z)) d) all [])
       (opt_res (x_deltas s)))).

(** tth.py 88-170 [extract_truetype_hinting]: stems, zones and glyphs of the result; no key is written for empty
    dicts of stems or zones *)
Definition extract_truetype_hinting (entries : list x_entry)
  : res (list (pystr * fstem) * list (pystr * fzone) * list (pystr * list command)) :=
  rthen (res_fold x_add x_start entries) (fun s =>
  rthen (merge_stems s) (fun stems => rmap (fun zones => (stems, zones, x_glyphs s)) (merge_zones s))).
