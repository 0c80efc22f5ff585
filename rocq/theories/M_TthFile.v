(** Model of vfb2tth: tth.py 15-170, for the format json. Toml and yaml, which libraries write, are not modelled. *)
From Coq Require Import String.
From Verif Require Import Base M_Stream M_Py M_Text M_Glyph M_Labels M_TrueType M_Tth M_TthExtract M_Container M_Table M_Designspace M_Tools M_Json M_Diff.
Local Open Scope list_scope.

(** [font] without stems, zones and zone_deltas, which are in [xstate] *)
Notation fnumbers := (list (pystr * pyval)).
(** tth.py 110-113: a dict comprehension; of several ranges with the same ppem the last counts *)
Definition gasp_dict (l : list gasp_rec) : pyval :=
  PDict (fold_left (fun d g => aset str_eqb (dec_str (gr_ppem g)) (PInt (gr_flags g)) d) l []).
(** tth.py 118-120 *)
Definition copy_info (d : tt_info) (font : fnumbers) (k : pystr) : fnumbers :=
  match aget str_eqb k d with
  | Some v => aset str_eqb k (tt_value_py v) font
  | None => font
  end.
(** tth.py 173-193: the name is looked up after the commands are made, which makes no difference but for the exception *)
Definition glyph_hints (s : xstate) (g : glyph) : res xstate :=
  match g_name g with
  | Some n => extract_glyph s n (g_tth g)
  | None => rthen (extract_glyph s [] (g_tth g)) (fun _ => match g_tth g with None | Some [] => Ok s | _ => Err KeyError end)
  end.
(** tth.py 107-165, the cases of the loop with the data of the entry after [decompile]. Entries are told by their key,
    which belongs to one id only (C60). *)
Definition tth_case (s : fnumbers * xstate) (i : Z) (d : value) : res (fnumbers * xstate) :=
  let '(font, x) := s in
  if i =? 1265 then
    match d with DGasp l => Ok (aset str_eqb (py "gasp") (gasp_dict l) font, x) | _ => Err AssertionError end
  else if i =? 1264 then
    match d with
    | DTTInfo t => Ok (copy_info t (copy_info t font (py "head_lowest_rec_ppem")) (py "head_units_per_em"), x)
    | _ => Err AssertionError
    end
  else if i =? 1268 then match d with DStems t => rmap (pair font) (x_add x (XPpms t)) | _ => Err AssertionError end
  else if i =? 1269 then match d with DStems t => rmap (pair font) (x_add x (XStems t)) | _ => Err AssertionError end
  else if i =? 1524 then match d with DStems t => rmap (pair font) (x_add x (XPpms1 t)) | _ => Err AssertionError end
  else if i =? 1255 then match d with DZones t => rmap (pair font) (x_add x (XZones t)) | _ => Err AssertionError end
  else if i =? 1272 then match d with DInt n => Ok (aset str_eqb (py "stemsnaplimit") (PInt n) font, x) | _ => Err AssertionError end
  else if i =? 1274 then match d with DInt n => Ok (aset str_eqb (py "zoneppm") (PInt n) font, x) | _ => Err AssertionError end
  else if i =? 1275 then match d with DInt n => Ok (aset str_eqb (py "codeppm") (PInt n) font, x) | _ => Err AssertionError end
  else if i =? 1273 then match d with DDeltas t => rmap (pair font) (x_add x (XDeltas t)) | _ => Err AssertionError end
  else if i =? 2001 then match d with DGlyph g => rmap (pair font) (glyph_hints x g) | _ => Err AssertionError end
  else Ok s.
(** the entries that have a case *)
Definition tth_ids : list Z := [1265; 1264; 1268; 1269; 1524; 1255; 1272; 1274; 1275; 1273; 2001].
(** tth.py 105-165, one turn: all other entries are not decompiled *)
Definition tth_turn (o : oracles) (c : ctx) (s : fnumbers * xstate) (e : entry value) : res (fnumbers * xstate) :=
  match e_id e with
  | Some i =>
      if existsb (Z.eqb i) tth_ids then
        let '(e', _, r) := entry_decompile (table o) c e in
        rthen r (fun _ => match e_data e' with Dec d => tth_case s i d | _ => Err AssertionError end)
      else Ok s
  | None => Ok s
  end.

(** ** The dict as a Python value *)
Definition rounds_py (r : rounds) : pyval := pstr_dict PInt r.
(** tth.py 250-257, 323-327 *)
Definition fstem_py (s : fstem) : pyval :=
  pd [("round", rounds_py (fs_round s)); ("width", PInt (fs_width s)); ("horizontal", PBool (fs_horizontal s))]%string.
(** tth.py 295-302, 349-354 *)
Definition fzone_py (z : fzone) : pyval :=
  PDict ([(py "position", PInt (fz_position z)); (py "top", PBool (fz_top z)); (py "width", PInt (fz_width z))] ++
         opt "deltas" rounds_py (fz_deltas z)).
(** ufo/tth.py 110-188 *)
Definition tval_py (v : tval) : pyval := match v with TStr s => PStr s | TInt n => PInt n | TTrue => PBool true end.
Definition command_py (c : command) : pyval := pstr_dict tval_py c.
(** tth.py 328-331, 355-358: no key for no stems or no zones *)
Definition part {A} (k : string) (f : A -> pyval) (d : list (pystr * A)) : list (pystr * pyval) :=
  match d with [] => [] | _ => [(py k, pstr_dict f d)] end.
Definition tth_py (font : fnumbers) (stems : list (pystr * fstem)) (zones : list (pystr * fzone))
  (glyphs : list (pystr * list command)) : pyval :=
  pd [("font", PDict (font ++ part "stems" fstem_py stems ++ part "zones" fzone_py zones));
      ("glyphs", pstr_dict (plist command_py) glyphs)]%string.
(** tth.py 88-170 [extract_truetype_hinting] *)
Definition vfb_tth (o : oracles) (v : vfb value) : res pyval :=
  rthen (res_fold (tth_turn o (v_ctx v)) ([], x_start) (v_entries v)) (fun s =>
  rthen (merge_stems (snd s)) (fun stems =>
  rmap (fun zones => tth_py (fst s) stems zones (x_glyphs (snd s))) (merge_zones (snd s)))).
(** tth.py 71-79: [orjson.dumps] with OPT_SORT_KEYS. The file is opened before: it is empty if there is an exception. *)
Definition write_tth (number : fval -> option pystr) (d : pyval) : bytes * res unit :=
  match dumps number (sort_keys d) with
  | Ok b => (b, Ok tt)
  | Err e => ([], Err e)
  end.
(** tth.py 54-58: where it is written *)
Definition vfb2tth_out (format : pystr) (folder : option (bool * list pystr)) (inputpath : path) : path :=
  match folder with
  | Some f => with_suffix (in_folder f inputpath) (py ".tth." ++ format)
  | None => with_suffix inputpath (py ".tth." ++ format)
  end.
(** tth.py 48-82: the content of the output file, if there is one, afterwards. [vfb.any_errors] is only set when there is an
    exception, so that the message of line 82 is never printed. *)
Definition vfb2tth (o : oracles) (number : fval -> option pystr) (fuel : nat) (file : bytes) (old : option bytes)
  : option bytes * res unit :=
  match vfb_read_bytes (table o) fuel (new_vfb [] false true) file with
  | (_, RErr x _) => (old, Err x)
  | (v, ROk _ _) =>
      match vfb_tth o v with
      | Err x => (old, Err x)
      | Ok d => let '(b, r) := write_tth number d in (Some b, r)
      end
  end.
