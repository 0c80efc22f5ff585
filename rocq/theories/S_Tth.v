(** Specification of TrueType hinting in the export. *)
From Coq Require Import String.
From Verif Require Import Base M_Py M_Glyph M_Labels M_TrueType M_Tth S_Labels.
Local Open Scope list_scope.

(** ** Stems *)
(** a stem of the font: it is rounded to [px] pixels from [sm_ppm px] ppm *)
Record stem := Stem { sm_name : pystr; sm_width : Z; sm_ppm : Z -> Z }.
Fixpoint enum {A} (i : Z) (l : list A) : list (Z * A) := match l with [] => [] | x :: l => (i, x) :: enum (i + 1) l end.
(** the entries of the file for vertical and horizontal stems: rounding for 2 to 5 pixels; for 1 pixel; stems
    with rounding for 6 pixels *)
Definition numbered (pxs : list Z) (l : list stem) : list tt_stem :=
  map (fun x => TTStem None None (Some (fst x)) (map (fun px => (px, sm_ppm (snd x) px)) pxs)) (enum 0 l).
Definition ppms_entry (v h : list stem) : tt_entry := EPpms (TTStems (numbered [2; 3; 4; 5] v) (numbered [2; 3; 4; 5] h)).
Definition ppms1_entry (v h : list stem) : tt_entry := EPpms1 (TTStems (numbered [1] v) (numbered [1] h)).
Definition stems_entry (v h : list stem) : tt_entry :=
  let f s := TTStem (Some (sm_width s)) (Some (sm_name s)) None [(6, sm_ppm s 6)] in EStems (TTStems (map f v) (map f h)).
Definition stem_part (e : tt_entry) : bool := match e with EPpms _ | EPpms1 _ | EStems _ => true | _ => false end.
(** the stem entries of a file; rounding starts at [first] pixels *)
Inductive stem_history (v h : list stem) : Z -> list tt_entry -> Prop :=
| no_one : stem_history v h 2 [ppms_entry v h; stems_entry v h]
| one_last : stem_history v h 1 [ppms_entry v h; stems_entry v h; ppms1_entry v h]
| one_before : stem_history v h 1 [ppms_entry v h; ppms1_entry v h; stems_entry v h].

(** exported rounding: by ppm; of several numbers of pixels for the same ppm the biggest *)
Definition rounding (s : stem) (first : Z) (r : rounds) : Prop :=
  NoDup (map fst r) /\
  forall ppm px, In (ppm, px) r <->
    first <= px <= 6 /\ ppm = dec_str (sm_ppm s px) /\
    forall px', first <= px' <= 6 -> sm_ppm s px' = sm_ppm s px -> px' <= px.
(** exported names: stems without a name are numbered in each direction *)
Fixpoint export_names (letter : pystr) (i : Z) (l : list stem) : list pystr :=
  match l with
  | [] => []
  | s :: l => match sm_name s with
              | [] => (letter ++ dec02 i) :: export_names letter (i + 1) l
              | n => n :: export_names letter i l
              end
  end.
Definition all_names (v h : list stem) : list pystr := export_names (py "v") 0 h ++ export_names (py "h") 0 v.
(** what is exported for a stem; FontLab's vertical direction of stems is the UFO's horizontal *)
Definition exported_stem (s : tt_state) (first : Z) (src : bool * stem) (u : ustem) : Prop :=
  us_horizontal u = fst src /\ us_width u = sm_width (snd src) /\
  exists r, stem_round s u = Ok r /\ rounding (snd src) first r.
Definition all_stems (v h : list stem) : list (bool * stem) := map (pair false) h ++ map (pair true) v.

(** ** Zones *)
Definition zone_part (e : tt_entry) : bool := negb (stem_part e).
Inductive zone_history (top bottom : list tt_zone) : zone_deltas -> list tt_entry -> Prop :=
| no_deltas : zone_history top bottom [] [EZones (TTZones (Some top) (Some bottom))]
| deltas_last : forall d, zone_history top bottom d [EZones (TTZones (Some top) (Some bottom)); EDeltas d].
(** the deltas name zones, the bottom zones first *)
Definition deltas_ok (top bottom : list tt_zone) (d : zone_deltas) : Prop :=
  NoDup (map fst d) /\
  Forall (fun x => 0 <= fst x < Z.of_nat (List.length (bottom ++ top)) /\ NoDup (map fst (snd x))) d.
(** the exported zone number [k] *)
Definition exported_zone (top bottom : list tt_zone) (d : zone_deltas) (k : nat) (z : tt_zone) : uzone :=
  UZone (tz_position z) (Nat.leb (List.length bottom) k) (tz_value z)
        (match aget Z.eqb (Z.of_nat k) d with
         | Some l => Some (map (fun x => (dec_str (fst x), snd x)) l)
         | None => None
         end).

(** ** Commands *)
(** instructions as they are in a file: all parameters of the command are there *)
Definition instruction_ok (i : instruction) : Prop :=
  exists c, In c tt_commands /\ in_cmd i = fst (snd c) /\ map fst (in_params i) = snd (snd c).
Inductive attribute := APoint (param : pystr) | AZone (top : bool) | AStem (h : bool) | ARound | AAlign | ANumber (param : pystr).
(** the attributes of the commands *)
Definition attributes : list (pystr * (pystr * list (pystr * attribute))) :=
  let pt := (py "point", APoint (py "pt")) in
  let pt1 := (py "point1", APoint (py "pt1")) in
  let pt2 := (py "point2", APoint (py "pt2")) in
  let align := (py "align", AAlign) in
  let round := (py "round", ARound) in
  let pti := (py "point", APoint (py "pti")) in
  let delta := [pt; (py "delta", ANumber (py "shift")); (py "ppm1", ANumber (py "ppm1")); (py "ppm2", ANumber (py "ppm2"))] in
  [(py "AlignTop", (py "alignt", [pt; (py "zone", AZone true)]));
   (py "AlignBottom", (py "alignb", [pt; (py "zone", AZone false)]));
   (py "AlignH", (py "alignh", [pt; align])); (py "AlignV", (py "alignv", [pt; align]));
   (py "SingleLinkH", (py "singleh", [pt1; pt2; (py "stem", AStem true); round; align]));
   (py "SingleLinkV", (py "singlev", [pt1; pt2; (py "stem", AStem false); round; align]));
   (py "DoubleLinkH", (py "doubleh", [pt1; pt2; (py "stem", AStem true); round]));
   (py "DoubleLinkV", (py "doublev", [pt1; pt2; (py "stem", AStem false); round]));
   (py "InterpolateH", (py "interpolateh", [pti; pt1; pt2; align]));
   (py "InterpolateV", (py "interpolatev", [pti; pt1; pt2; align]));
   (py "MDeltaH", (py "mdeltah", delta)); (py "MDeltaV", (py "mdeltav", delta));
   (py "FDeltaH", (py "fdeltah", delta)); (py "FDeltaV", (py "fdeltav", delta))].
Definition param (i : instruction) (name : pystr) (v : Z) : Prop := In (name, v) (in_params i).
(** what the value of an attribute is, given what points, zones and stems are called *)
Section Values.
  Variable point : Z -> tval -> Prop.
  Variable zone : bool -> Z -> pystr -> Prop.
  Variable stems : bool -> list pystr.
  Definition value (i : instruction) (a : attribute) (v : option tval) : Prop :=
    match a with
    | APoint p => exists n l, param i p n /\ point n l /\ v = Some l
    | AZone top => exists n z, param i (py "zone") n /\ zone top n z /\ v = Some (TStr z)
    | AStem h => exists n, param i (py "stem") n /\
        (if n <? 0 then v = None
         else exists s, v = Some (TStr s) /\ nth_error (stems h) (if n <? Z.of_nat (List.length (stems h)) then Z.to_nat n else 0) = Some s)
    | ARound => exists n, param i (py "stem") n /\ v = if n <? -1 then Some TTrue else None
    | AAlign => exists n, param i (py "align") n /\
        v = if n <? 0 then None
            else Some (TStr (if n =? 1 then py "left" else if n =? 2 then py "right" else if n =? 3 then py "center"
                             else if n =? 4 then py "double" else py "round"))
    | ANumber p => exists n, param i p n /\ v = Some (TInt n)
    end.
  (** the exported command [d] of the instruction [i]: its code, its attributes, no more *)
  Definition exported_command (i : instruction) (d : command) : Prop :=
    exists code attrs, In (in_cmd i, (code, attrs)) attributes /\ NoDup (map fst d) /\
      aget str_eqb (py "code") d = Some (TStr code) /\
      Forall (fun a => value i (snd a) (aget str_eqb (fst a) d)) attrs /\
      forall key v, In (key, v) d -> key = py "code" \/ In key (map fst attrs).
End Values.
(** the instruction uses points of the glyph or its side bearings, zones and stems that are there *)
Definition refers (points : Z) (top bottom : list tt_zone) (v h : list stem) (i : instruction) : Prop :=
  (forall p n, In p [py "pt"; py "pt1"; py "pt2"; py "pti"] -> param i p n -> 0 <= n < points + 2) /\
  (forall n (t : bool), param i (py "zone") n -> in_cmd i = (if t then py "AlignTop" else py "AlignBottom") ->
     0 <= n < Z.of_nat (List.length (if t then top else bottom))) /\
  (forall n (hor : bool), param i (py "stem") n -> 0 <= n ->
     In (in_cmd i) (if hor then [py "SingleLinkH"; py "DoubleLinkH"] else [py "SingleLinkV"; py "DoubleLinkV"]) ->
     (if hor then h else v) <> []).
(** zones are counted on each side *)
Definition zone_name (top bottom : list tt_zone) (t : bool) (n : Z) (name : pystr) : Prop :=
  0 <= n /\ exists z, nth_error (if t then top else bottom) (Z.to_nat n) = Some z /\ name = tz_name z.

(** ** XML *)
(** how the value of an attribute is read *)
Definition entities : list (pystr * Z) :=
  [(py "&amp;", 38); (py "&lt;", 60); (py "&gt;", 62); (py "&quot;", 34); (py "&#x27;", 39)].
Inductive reads : pystr -> pystr -> Prop :=
| reads_nil : reads [] []
| reads_entity : forall e c s t, In (e, c) entities -> reads s t -> reads (e ++ s) (c :: t)
| reads_char : forall c s t, ~ In c (map snd entities) -> reads s t -> reads (c :: s) (c :: t).
(** the text of a value *)
Definition text_of (d : command) (attr : pystr) : option pystr :=
  match aget str_eqb attr d with
  | Some (TStr s) => Some s
  | Some (TInt n) => Some (dec_str n)
  | Some TTrue => Some (py "true")
  | None => None
  end.
Definition attribute_names : list pystr :=
  [py "code"; py "point"; py "point1"; py "point2"; py "round"; py "stem"; py "zone"; py "align"; py "delta"; py "ppm1"; py "ppm2"].
(** the command has a code, which is a word *)
Definition has_code (d : command) : Prop :=
  exists code, aget str_eqb (py "code") d = Some (TStr code) /\ ~ In 34 code.
