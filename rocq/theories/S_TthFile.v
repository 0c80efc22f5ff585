(** Specification of what vfb2tth writes (C99). *)
From Coq Require Import String Permutation.
From Verif Require Import Base M_Py M_Glyph M_TrueType M_Tth S_Tth M_TthExtract S_TthExtract M_Container M_Table M_Json S_Json.
Local Open Scope list_scope.

(** ** JSON *)
(** "an object with these members, in any order, whose values are like this" *)
Definition object (l : list (pystr * (js -> Prop))) (j : js) : Prop :=
  exists d m, j = JsDict d /\ Permutation d m /\ NoDup (map fst d) /\
    Forall2 (fun p q => fst q = fst p /\ snd p (snd q)) l m.
Definition int_json (n : Z) : js -> Prop := eq (JsInt n).
Definition bool_json (b : bool) : js -> Prop := eq (JsBool b).
Definition text_json (s : pystr) : js -> Prop := eq (JsStr s).
(** "an object whose members are numbers" *)
Definition ints_json (l : list (pystr * Z)) : js -> Prop := object (map (fun x => (fst x, int_json (snd x))) l).
(** what orjson can write: integers of 64 bits, strings that UTF-8 has a form of *)
Fixpoint fits (j : js) : bool :=
  match j with
  | JsInt n => (- 2 ^ 63 <=? n) && (n <? 2 ^ 64)
  | JsStr s => text_ok s
  | JsList l => forallb fits l
  | JsDict d => forallb (fun p => text_ok (fst p) && fits (snd p)) d
  | _ => true
  end.

(** ** The entries of a file *)
(** the entries that are looked at: gasp, ttinfo, TrueType Stem PPEMs, TrueType Stems, TrueType Stem PPEMs 1,
    TrueType Zones, stemsnaplimit, zoneppm, codeppm, TrueType Zone Deltas and Glyph *)
Definition looked_at (e : entry value) : bool :=
  match e_id e with
  | Some i => existsb (Z.eqb i) [1265; 1264; 1268; 1269; 1524; 1255; 1272; 1274; 1275; 1273; 2001]
  | None => false
  end.
(** their ids and data, which the parser of the id makes of the bytes *)
Definition entry_says (o : oracles) (c : ctx) (e : entry value) (p : Z * value) : Prop :=
  e_id e = Some (fst p) /\
  exists c' b, bytes_ok b /\ cd_parse (table o) (fst p) c' b = Ok (snd p) /\ (e_data e = Dec (snd p) \/ e_data e = Raw b /\ c' = c).
Definition hint_data (o : oracles) (v : vfb value) (l : list (Z * value)) : Prop :=
  Forall2 (entry_says o (v_ctx v)) (filter looked_at (v_entries v)) l.
(** stems, zones and glyphs of these; a glyph has hints if it has a name and commands *)
Definition hint_part (e : Z * value) : list x_entry :=
  match e with
  | (1268, DStems t) => [XPpms t]
  | (1269, DStems t) => [XStems t]
  | (1524, DStems t) => [XPpms1 t]
  | (1255, DZones z) => [XZones z]
  | (1273, DDeltas d) => [XDeltas d]
  | (2001, DGlyph g) =>
      match g_name g, g_tth g with
      | Some n, Some (i :: l) => [XGlyph n (Some (i :: l))]
      | _, _ => []
      end
  | _ => []
  end.
(** "all glyphs with commands have names" *)
Definition named (e : Z * value) : Prop :=
  match snd e with
  | DGlyph g => g_name g = None -> g_tth g = None \/ g_tth g = Some []
  | _ => True
  end.

(** ** The numbers of the font: those of the last entry that has them *)
Definition last_of {A} (f : Z * value -> option A) (l : list (Z * value)) : option A :=
  fold_left (fun a e => match f e with Some x => Some x | None => a end) l None.
Definition gasp_of (e : Z * value) : option (list gasp_rec) := match e with (1265, DGasp g) => Some g | _ => None end.
Definition info_of (k : string) (e : Z * value) : option Z :=
  match e with
  | (1264, DTTInfo t) => match aget str_eqb (py k) t with Some (VInt n) => Some n | _ => None end
  | _ => None
  end.
Definition int_of (i : Z) (e : Z * value) : option Z :=
  match e with (k, DInt n) => if k =? i then Some n else None | _ => None end.
(** the ranges by their ppem; of several with the same ppem the last counts *)
Definition gasp_json (g : list gasp_rec) (j : js) : Prop :=
  exists r, ints_json (map (fun x => (dec_str (fst x), snd x)) r) j /\
    forall ppem flags, In (ppem, flags) r <->
      exists a b, g = a ++ Gasp ppem flags :: b /\ ~ In ppem (map gr_ppem b).
Definition some {A} (k : string) (f : A -> js -> Prop) (x : option A) : list (pystr * (js -> Prop)) :=
  match x with Some a => [(py k, f a)] | None => [] end.
Definition font_numbers (l : list (Z * value)) : list (pystr * (js -> Prop)) :=
  some "gasp" gasp_json (last_of gasp_of l) ++
  some "head_lowest_rec_ppem" int_json (last_of (info_of "head_lowest_rec_ppem") l) ++
  some "head_units_per_em" int_json (last_of (info_of "head_units_per_em") l) ++
  some "stemsnaplimit" int_json (last_of (int_of 1272) l) ++ some "zoneppm" int_json (last_of (int_of 1274) l) ++
  some "codeppm" int_json (last_of (int_of 1275) l).

(** ** Stems, zones, commands *)
(** of several numbers of pixels for the same ppm the biggest of 2 to 5 counts; 6 only if it is the only one *)
Definition rounding_json (s : stem) (j : js) : Prop :=
  exists r, ints_json r j /\
    forall ppm px, In (ppm, px) r <->
      2 <= px <= 6 /\ ppm = dec_str (sm_ppm s px) /\
      forall px', 2 <= px' <= 6 -> sm_ppm s px' = sm_ppm s px -> px' = 6 \/ (px <> 6 /\ px' <= px).
Definition stem_json (s : bool * stem) : js -> Prop :=
  object [(py "width", int_json (sm_width (snd s))); (py "horizontal", bool_json (fst s)); (py "round", rounding_json (snd s))].
(** the zone number [k], bottom zones first *)
Definition zone_json (bottom : list tt_zone) (d : zone_deltas) (kz : Z * tt_zone) : js -> Prop :=
  let (k, z) := kz in
  object ([(py "position", int_json (tz_position z)); (py "top", bool_json (Z.of_nat (List.length bottom) <=? k));
           (py "width", int_json (tz_value z))] ++
          some "deltas" ints_json (option_map (map (fun x => (dec_str (fst x), snd x))) (aget Z.eqb k d))).
Definition tval_json (v : tval) : js -> Prop :=
  match v with TStr s => text_json s | TInt n => int_json n | TTrue => bool_json true end.
(** a point is called by its number, zones and stems by their keys *)
Definition command_json (tn bn vn hn : list pystr) (i : instruction) (j : js) : Prop :=
  exists c : command,
    exported_command (fun n l => l = TInt n)
      (fun t n name => 0 <= n /\ nth_error (if t then tn else bn) (Z.to_nat n) = Some name)
      (fun hor => if hor then hn else vn) i c /\
    object (map (fun x => (fst x, tval_json (snd x))) c) j.
Definition commands_json (tn bn vn hn : list pystr) (l : list instruction) (j : js) : Prop :=
  exists js, j = JsList js /\ Forall2 (command_json tn bn vn hn) l js.
(** a dict that is left out if it is empty *)
Definition filled (k : string) (l : list (pystr * (js -> Prop))) : list (pystr * (js -> Prop)) :=
  match l with [] => [] | _ => [(py k, object l)] end.

(** ** The file *)
Definition tth_json (l : list (Z * value)) (v h : list stem) (top bottom : list tt_zone) (d : zone_deltas)
  (glyphs : list (pystr * list instruction)) (j : js) : Prop :=
  exists vn hn tn bn,
    List.length vn = List.length v /\ List.length hn = List.length h /\
    List.length tn = List.length top /\ List.length bn = List.length bottom /\
    made_unique [] (map sm_name (v ++ h)) (vn ++ hn) /\ made_unique [] (map tz_name (top ++ bottom)) (tn ++ bn) /\
    object
      [(py "font", object
          (font_numbers l ++
           filled "stems" (combine (vn ++ hn) (map stem_json (map (pair true) v ++ map (pair false) h))) ++
           filled "zones" (combine (bn ++ tn) (map (zone_json bottom d) (enum 0 (bottom ++ top))))));
       (py "glyphs", object (map (fun g => (fst g, commands_json tn bn vn hn (snd g))) glyphs))] j.
