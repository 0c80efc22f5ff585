(** Specification of the extraction of TrueType hinting. *)
From Coq Require Import String.
From Coq Require Import Permutation Sorted.
From Verif Require Import Base M_Py M_Glyph M_TrueType M_Tth S_Tth M_TthExtract.
From Verif Require S_GlyphAccess.
Local Open Scope list_scope.

(** keys for names: each is the name or, if that is used, the name with the first free number *)
Inductive made_unique : list pystr -> list pystr -> list pystr -> Prop :=
| unique_nil : forall used, made_unique used [] []
| unique_cons : forall used n k ns ks, S_GlyphAccess.disambiguated used n k -> made_unique (k :: used) ns ks ->
    made_unique used (n :: ns) (k :: ks).

(** the entries of the font, in any order *)
Definition stem_texts (l : list stem) : list tt_stem :=
  map (fun s => TTStem (Some (sm_width s)) (Some (sm_name s)) None [(6, sm_ppm s 6)]) l.
Definition x_ppms (v h : list stem) : x_entry := XPpms (TTStems (numbered [2; 3; 4; 5] v) (numbered [2; 3; 4; 5] h)).
Definition x_one (v h : list stem) : x_entry := XPpms1 (TTStems (numbered [1] v) (numbered [1] h)).
Definition x_stems_of (v h : list stem) : x_entry := XStems (TTStems (stem_texts v) (stem_texts h)).
Definition x_zones_of (top bottom : list tt_zone) : x_entry := XZones (TTZones (Some top) (Some bottom)).
Definition font_entries (v h : list stem) (top bottom : list tt_zone) (d : zone_deltas) (entries : list x_entry) : Prop :=
  Permutation entries [x_ppms v h; x_stems_of v h; x_zones_of top bottom; XDeltas d].

(** rounding: by ppm, sorted by pixels. Of several numbers of pixels for the same ppm the biggest of 2 to 5
    counts; 6 only counts if it is the only one. *)
Definition extracted_rounding (s : stem) (r : rounds) : Prop :=
  NoDup (map fst r) /\ StronglySorted (fun a b => snd a < snd b) r /\
  forall ppm px, In (ppm, px) r <->
    2 <= px <= 6 /\ ppm = dec_str (sm_ppm s px) /\
    forall px', 2 <= px' <= 6 -> sm_ppm s px' = sm_ppm s px -> px' = 6 \/ (px <> 6 /\ px' <= px).
Definition extracted_stem (src : bool * stem) (f : fstem) : Prop :=
  fs_horizontal f = fst src /\ fs_width f = sm_width (snd src) /\ extracted_rounding (snd src) (fs_round f).
(** the zone number [k], bottom zones first *)
Definition extracted_zone (bottom : list tt_zone) (d : zone_deltas) (k : nat) (z : tt_zone) (f : fzone) : Prop :=
  fz_position f = tz_position z /\ fz_width f = tz_value z /\ fz_top f = Nat.leb (List.length bottom) k /\
  match aget Z.eqb (Z.of_nat k) d with
  | None => fz_deltas f = None
  | Some l => exists l', Permutation l' l /\ StronglySorted (fun a b => fst a < fst b) l' /\
                         fz_deltas f = Some (map (fun x => (dec_str (fst x), snd x)) l')
  end.

(** glyphs with hints *)
Definition glyph_entry (g : pystr * list instruction) : x_entry := XGlyph (fst g) (Some (snd g)).
Definition x_refers (top bottom : list tt_zone) (v h : list stem) (i : instruction) : Prop :=
  (forall n (t : bool), param i (py "zone") n -> in_cmd i = (if t then py "AlignTop" else py "AlignBottom") ->
     0 <= n < Z.of_nat (List.length (if t then top else bottom))) /\
  (forall n (hor : bool), param i (py "stem") n -> 0 <= n ->
     In (in_cmd i) (if hor then [py "SingleLinkH"; py "DoubleLinkH"] else [py "SingleLinkV"; py "DoubleLinkV"]) ->
     (if hor then h else v) <> []).
Definition x_glyph_ok (top bottom : list tt_zone) (v h : list stem) (g : pystr * list instruction) : Prop :=
  snd g <> [] /\ Forall instruction_ok (snd g) /\ Forall (x_refers top bottom v h) (snd g).
(** the extracted commands of a glyph: a point is called by its number, zones and stems by their keys *)
Definition extracted_glyph (tn bn vn hn : list pystr) (g : pystr * list instruction) (x : pystr * list command) : Prop :=
  fst x = fst g /\
  Forall2 (exported_command (fun n l => l = TInt n)
             (fun t n name => 0 <= n /\ nth_error (if t then tn else bn) (Z.to_nat n) = Some name)
             (fun hor => if hor then hn else vn)) (snd g) (snd x).
