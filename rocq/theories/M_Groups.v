(** Model of the conversion of classes and kerning to UFO: ufo/groups.py, ufo/kerning.py and the
    parts of ufo/builder.py that feed them.

    Python dicts are association lists in insertion order; logging is left out. *)
From Coq Require Import String.
From Verif Require Import Base M_Py M_Text.
Local Open Scope list_scope.

(** ** Python string methods *)

(** [s.startswith(p)], [s.endswith(p)] *)
Definition starts (p s : pystr) : bool := str_eqb (firstn (length p) s) p.
Definition ends (p s : pystr) : bool := starts (rev p) (rev s).
(** [s.lstrip], [s.strip], of the characters that satisfy [f] *)
Fixpoint lstrip (f : Z -> bool) (s : pystr) : pystr :=
  match s with
  | c :: s' => if f c then lstrip f s' else s
  | [] => []
  end.
Definition strip (f : Z -> bool) (s : pystr) : pystr := rev (lstrip f (rev (lstrip f s))).
(** [s.split(sep)] for a separator of one character *)
Fixpoint split_from (sep : Z) (cur s : pystr) : list pystr :=
  match s with
  | [] => [cur]
  | c :: s' => if c =? sep then cur :: split_from sep [] s' else split_from sep (cur ++ [c]) s'
  end.
Definition split_on (sep : Z) (s : pystr) : list pystr := split_from sep [] s.
(** [x in l] for strings *)
Definition mem (x : pystr) (l : list pystr) : bool := existsb (str_eqb x) l.

(** ufo/typing.py [UfoGroups]: group name to the names of its glyphs *)
Notation groups := (list (pystr * list pystr)).

(** ufo/builder.py 144-171 [add_ot_class] *)
Definition add_ot_class (data : pystr) (gs : groups) : res groups :=
  if existsb (Z.eqb 58) data then
    match split_on 58 data with
    | [name; contents] =>
        let glyphs := filter (fun g => negb (str_eqb g [])) (map (strip is_space) (split_on 32 contents)) in
        match aget str_eqb name gs with
        | Some _ => Ok gs
        | None => Ok (aset str_eqb name glyphs gs)
        end
    | _ => Err ValueError
    end
  else Ok gs.

(** ufo/groups.py 12-38 [check_for_missing_glyphs]: the glyphs and the missing ones *)
Definition check_for_missing_glyphs (glyphs order : list pystr) (skip : bool)
  : list pystr * list pystr :=
  let missing := filter (fun n => negb (mem n order)) glyphs in
  match missing with
  | [] => (glyphs, missing)
  | _ =>
      if skip then
        match filter (fun g => negb (mem g missing)) glyphs with
        | [] => (glyphs, missing)
        | remaining => (remaining, missing)
        end
      else (glyphs, missing)
  end.

(** ufo/groups.py 82-83: [g.strip("'")] and [g.endswith("'")] *)
Definition quote : Z := 39.
Definition is_key_glyph (g : pystr) : bool := ends [quote] g.
Definition strip_quotes (g : pystr) : pystr := strip (Z.eqb quote) g.

(** the three dicts that [transform_groups] builds *)
Record tg_state := mkTG {
  tg_groups : groups;
  tg_order : list pystr;
  tg_keys : list (pystr * pystr) }.

(** ufo/groups.py 104-113: the first key glyph that is not missing, any of them if all glyphs are
    missing *)
Definition choose_key (candidates missing : list pystr) (num_glyphs : Z) : option pystr :=
  find (fun c => negb (mem c missing && negb (Z.of_nat (length missing) =? num_glyphs))) candidates.

(** ufo/groups.py 138-146, 153-160 *)
Definition set_key (final : pystr) (key : option pystr) (keys : list (pystr * pystr)) :=
  match aget str_eqb final keys, key with
  | None, Some k => aset str_eqb final k keys
  | _, _ => keys
  end.

(** ufo/groups.py 75-76 *)
Definition FIRST : Z := 2 ^ 10.
Definition SECOND : Z := 2 ^ 11.

(** ufo/groups.py 131: [f"public.kern{sidename}.{name}"] *)
Definition kern_name (sidename : Z) (name : pystr) : pystr :=
  py "public.kern" ++ dec_str sidename ++ py "." ++ name.

(** ufo/groups.py 128-148, one turn of the loop over the sides *)
Definition add_side (flags side sidename : Z) (name : pystr) (glyphs : list pystr)
  (key : option pystr) (st : tg_state) : tg_state :=
  if Z.land flags side =? 0 then st
  else
    let final := kern_name sidename name in
    match aget str_eqb final (tg_groups st) with
    | Some _ => st
    | None =>
        mkTG (aset str_eqb final glyphs (tg_groups st)) (tg_order st ++ [final])
             (set_key final key (tg_keys st))
    end.

(** ufo/groups.py 80-162, one turn of the loop over the groups. The flags of a kerning class are
    a tuple of which the first number is used. *)
Definition transform_group (flags : list (pystr * list Z)) (order : list pystr) (skip : bool)
  (name : pystr) (glyphs : list pystr) (st : tg_state) : res tg_state :=
  let group_key_glyphs := map strip_quotes (filter is_key_glyph glyphs) in
  let other_group_glyphs := filter (fun g => negb (is_key_glyph g)) glyphs in
  let glyphs := group_key_glyphs ++ other_group_glyphs in
  let num_glyphs := Z.of_nat (length glyphs) in
  let '(glyphs, missing) := check_for_missing_glyphs glyphs order skip in
  let key := choose_key group_key_glyphs missing num_glyphs in
  if starts (py "_") name then
    match aget str_eqb name flags with
    | None => Ok st
    | Some fl =>
        rmap (fun f => add_side f SECOND 2 name glyphs key (add_side f FIRST 1 name glyphs key st))
             (py_index fl 0)
    end
  else
    Ok (mkTG (aset str_eqb name glyphs (tg_groups st)) (tg_order st ++ [name])
             (set_key name key (tg_keys st))).

Fixpoint transform_groups_from (flags : list (pystr * list Z)) (order : list pystr) (skip : bool)
  (gs : groups) (st : tg_state) : res tg_state :=
  match gs with
  | [] => Ok st
  | (name, glyphs) :: gs' =>
      rthen (transform_group flags order skip name glyphs st)
            (transform_groups_from flags order skip gs')
  end.

(** ufo/groups.py 41-164 [transform_groups] *)
Definition transform_groups (gs : groups) (flags : list (pystr * list Z)) (order : list pystr)
  (skip : bool) : res tg_state :=
  transform_groups_from flags order skip gs (mkTG [] [] []).

(** ** Glyph to group mappings *)

Notation mapping := (list (pystr * pystr)).

(** ufo/groups.py 175-182, 184-191: the loop over the glyphs of one group *)
Definition map_glyph (name : pystr) (m : mapping) (g : pystr) : mapping :=
  match aget str_eqb g m with
  | Some _ => m
  | None => aset str_eqb g name m
  end.
Definition map_group (name : pystr) (glyphs : list pystr) (m : mapping) : mapping :=
  fold_left (map_glyph name) glyphs m.

(** ufo/groups.py 172-191: the loop over the groups *)
Fixpoint map_groups (gs : groups) (m1 m2 : mapping) : mapping * mapping :=
  match gs with
  | [] => (m1, m2)
  | (name, glyphs) :: gs' =>
      if starts (py "public.kern1") name then map_groups gs' (map_group name glyphs m1) m2
      else if starts (py "public.kern2") name then map_groups gs' m1 (map_group name glyphs m2)
      else map_groups gs' m1 m2
  end.

(** ufo/groups.py 197-204 [_build_groups] *)
Definition build_groups (m : mapping) : groups :=
  fold_left (fun gs p => let '(name, group) := p in
    match aget str_eqb group gs with
    | Some l => aset str_eqb group (l ++ [name]) gs
    | None => aset str_eqb group [name] gs
    end) m [].

(** [d.update(e)] *)
Definition dict_update {V} (d e : list (pystr * V)) : list (pystr * V) :=
  fold_left (fun d p => aset str_eqb (fst p) (snd p) d) e d.

(** ufo/groups.py 207-220 [rebuild_kerning_groups] *)
Definition rebuild_kerning_groups (gs : groups) (m1 m2 : mapping) : groups :=
  let new_groups := filter (fun p => negb (starts (py "public.kern") (fst p))) gs in
  dict_update (dict_update new_groups (build_groups m1)) (build_groups m2).

(** ufo/groups.py 167-194 [build_glyph_to_group_maps] *)
Definition build_glyph_to_group_maps (gs : groups) : groups * mapping * mapping :=
  let '(m1, m2) := map_groups gs [] [] in
  (rebuild_kerning_groups gs m1 m2, m1, m2).

(** ** Kerning *)

(** keys of [self.key_glyphs]: side and glyph name, or None *)
Notation kkey := (option (Z * pystr)).
Definition kkey_eqb (a b : kkey) : bool :=
  match a, b with
  | None, None => true
  | Some (s, n), Some (t, m) => (s =? t) && str_eqb n m
  | _, _ => false
  end.

(** ufo/kerning.py 59-84 [_reverse_key_glyph_dict] *)
Definition reverse_key_glyphs (keys : list (pystr * pystr)) : list (kkey * pystr) :=
  fold_left (fun rev p => let '(name, key_glyph) := p in
    let key := if starts (py "public.kern1") name then Some (1, key_glyph)
               else if starts (py "public.kern2") name then Some (2, key_glyph)
               else None in
    match aget kkey_eqb key rev with
    | Some _ => rev
    | None => aset kkey_eqb key name rev
    end) keys [].

(** ufo/typing.py [UfoMMKerning]: left glyph name and right glyph index to one value per master *)
Notation mm_kerning := (list ((pystr * Z) * list Z)).
Notation pair_kerning V := (list ((pystr * pystr) * V)).
Definition pair_eqb (a b : pystr * pystr) : bool :=
  str_eqb (fst a) (fst b) && str_eqb (snd a) (snd b).

(** ufo/kerning.py 50-51, 54-55 *)
Definition group_or_glyph (side : Z) (keys : list (kkey * pystr)) (gs : groups) (g : pystr) : pystr :=
  match aget kkey_eqb (Some (side, g)) keys with
  | Some group => match aget str_eqb group gs with Some _ => group | None => g end
  | None => g
  end.

(** ufo/kerning.py 38-57 [_make_name_based_kerning] *)
Definition name_pair (order : list pystr) (keys : list (kkey * pystr)) (gs : groups)
  (lr : pystr * Z) : res (pystr * pystr) :=
  rmap (fun r => (group_or_glyph 1 keys gs (fst lr), group_or_glyph 2 keys gs r))
       (py_index order (snd lr)).
Fixpoint make_name_based_kerning (order : list pystr) (keys : list (kkey * pystr)) (gs : groups)
  (kerning : mm_kerning) (acc : pair_kerning (list Z)) : res (pair_kerning (list Z)) :=
  match kerning with
  | [] => Ok acc
  | (lr, values) :: kerning' =>
      rthen (name_pair order keys gs lr) (fun p =>
        make_name_based_kerning order keys gs kerning' (aset pair_eqb p values acc))
  end.

(** ufo/kerning.py 14-26 [UfoKerning.__init__] *)
Record ufo_kerning := mkUK {
  uk_groups : groups;
  uk_group_1 : mapping;
  uk_group_2 : mapping;
  uk_keys : list (kkey * pystr);
  uk_kerning : pair_kerning (list Z) }.
Definition new_ufo_kerning (order : list pystr) (gs : groups) (kerning : mm_kerning)
  (key_glyphs : list (pystr * pystr)) : res ufo_kerning :=
  let '(gs', m1, m2) := build_glyph_to_group_maps gs in
  let keys := reverse_key_glyphs key_glyphs in
  rmap (mkUK gs' m1 m2 keys) (make_name_based_kerning order keys gs' kerning []).

(** ufo/kerning.py 28-36 [_is_exception] *)
Definition is_some {A} (o : option A) : bool := match o with Some _ => true | None => false end.
Definition is_exception (k : ufo_kerning) (L R : pystr) : bool :=
  let L_is_key := is_some (aget kkey_eqb (Some (1, L)) (uk_keys k))
                  || negb (is_some (aget str_eqb L (uk_group_1 k))) in
  let R_is_key := is_some (aget kkey_eqb (Some (2, R)) (uk_keys k))
                  || negb (is_some (aget str_eqb R (uk_group_2 k))) in
  negb (L_is_key && R_is_key).

(** ufo/kerning.py 86-96 [get_master_kerning] *)
Fixpoint master_kerning_from (k : ufo_kerning) (m : Z) (l : pair_kerning (list Z))
  (acc : pair_kerning Z) : res (pair_kerning Z) :=
  match l with
  | [] => Ok acc
  | (lr, values) :: l' =>
      rthen (py_index values m) (fun value =>
        master_kerning_from k m l'
          (if negb (value =? 0) || is_exception k (fst lr) (snd lr)
           then aset pair_eqb lr value acc else acc))
  end.
Definition get_master_kerning (k : ufo_kerning) (m : Z) : res (pair_kerning Z) :=
  master_kerning_from k m (uk_kerning k) [].

(** ufo/builder.py 827-836 [get_ufo_masters]: the groups and the kerning of the UFOs *)
Definition export_kerning (gs : groups) (flags : list (pystr * list Z)) (order : list pystr)
  (minimal : bool) (kerning : mm_kerning) : res ufo_kerning :=
  rthen (transform_groups gs flags order minimal) (fun st =>
    new_ufo_kerning order (tg_groups st) kerning (tg_keys st)).
