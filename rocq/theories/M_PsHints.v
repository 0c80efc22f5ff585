(** Model of PostScript hints: ufo/pshints.py 18-28, 151-277; vfb/glyph.py 113-196. *)
From Coq Require Import String.
From Verif Require Import Base M_Py M_Text M_Glyph M_Labels.
Local Open Scope list_scope.

(** [HintTuple]: (["hstem"] or ["vstem"], position, width). Simplification: the name is a boolean; nothing
    else is ever built. *)
Record hint := Hint { hi_v : bool; hi_pos : Z; hi_width : Z }.
Definition hint_name (h : hint) : pystr := if hi_v h then py "vstem" else py "hstem".
(** ufo/pshints.py 18-28 [normalize_hint], [normalize_hint_dict] *)
Definition normalize_hint (h : hint) : hint :=
  if hi_width h <? 0 then
    if (hi_width h =? -21) || (hi_width h =? -20) then h
    else Hint (hi_v h) (hi_pos h + hi_width h) (Z.abs (hi_width h))
  else h.

(** lines 242-247 of [get_master_hints]; the hints of one direction *)
Definition master_hints (m : Z) (v : bool) (hs : list (list (Z * Z))) : res (list hint) :=
  res_map (fun mm => rmap (fun h => normalize_hint (Hint v (fst h) (snd h))) (py_index mm m)) hs.
(** [src["points"][master_index][0][i]]; [x] is the axis *)
Definition node_coord (m : Z) (x : bool) (nodes : list mm_node) (i : Z) : res Z :=
  rthen (py_index nodes i) (fun n =>
  rthen (py_index (nd_points n) m) (fun row =>
  rmap (fun p => if x then fst p else snd p) (py_index row 0))).
(** lines 257-274: one link, to a hint in the other direction *)
Definition link_hint (m : Z) (x : bool) (nodes : list mm_node) (link : Z * Z) : res hint :=
  let (isrc, itgt) := link in
  rthen (node_coord m x nodes isrc) (fun src =>
  if itgt =? -1 then Ok (Hint x (src - -21) (-21))
  else if itgt =? -2 then Ok (Hint x src (-20))
  else rmap (fun tgt => Hint x src (tgt - src)) (node_coord m x nodes itgt)).
(** ufo/pshints.py 236-277 [get_master_hints]: the hints in directions h and v. Links along x give v. *)
Definition get_master_hints (m : Z) (h v : list (list (Z * Z))) (lk : links) (nodes : list mm_node)
  : res (list hint * list hint) :=
  rthen (master_hints m false h) (fun hh =>
  rthen (master_hints m true v) (fun vv =>
  rthen (res_map (link_hint m true nodes) (lk_x lk)) (fun lx =>
  rmap (fun ly => (hh ++ ly, vv ++ lx)) (res_map (link_hint m false nodes) (lk_y lk))))).

(** vfb/glyph.py 159-196 [resolve_links] and 139-157 [resolve_hints] *)
Definition resolve_links (m : Z) (lk : option links) (nodes : list mm_node) : res (list hint * list hint) :=
  match lk with
  | None => Ok ([], [])
  | Some (Links [] []) => Ok ([], [])
  | Some lk =>
      rthen (res_map (link_hint m true nodes) (lk_x lk)) (fun lx =>
      rmap (fun ly => (ly, lx)) (res_map (link_hint m false nodes) (lk_y lk)))
  end.
Definition resolve_hints (m : Z) (h v : list (list (Z * Z))) (lk : option links) (nodes : list mm_node)
  : res (list hint * list hint) :=
  rthen (master_hints m false h) (fun hh =>
  rthen (master_hints m true v) (fun vv =>
  rmap (fun l => (hh ++ fst l, vv ++ snd l)) (resolve_links m lk nodes))).

(** ** Hint sets *)
(** [sorted(set(...))] of line 209. The order of the tuples; ["hstem" < "vstem"]. *)
Definition hint_ltb (a b : hint) : bool :=
  match hi_v a, hi_v b with
  | false, true => true
  | true, false => false
  | _, _ => (hi_pos a <? hi_pos b) || ((hi_pos a =? hi_pos b) && (hi_width a <? hi_width b))
  end.
Fixpoint insert_hint (h : hint) (l : list hint) : list hint :=
  match l with
  | [] => [h]
  | x :: l' => if hint_ltb h x then h :: l else if hint_ltb x h then x :: insert_hint h l' else l
  end.
Definition sorted_set (l : list hint) : list hint := fold_right insert_hint [] l.
(** line 209, the text of a stem *)
Definition hint_text (h : hint) : pystr :=
  hint_name h ++ [32] ++ dec_str (hi_pos h) ++ [32] ++ dec_str (hi_width h).

(** lines 156-167: a mask adds a hint if there is one; [hint_index < len] also holds for negative ones *)
Definition mask_stems (h v : list hint) (mask : pystr * Z) : res (list hint) :=
  let pick l := if snd mask <? Z.of_nat (List.length l) then rmap (fun x => [x]) (py_index l (snd mask)) else Ok [] in
  if str_eqb (fst mask) (py "h") then pick h else if str_eqb (fst mask) (py "v") then pick v else Ok [].
(** [hint_set], [hint_sets] *)
Record hs_state := HsState { hs_node : Z; hs_stems : list hint; hs_sets : list (pystr * list hint) }.
(** [get_point_label(index, "PSHintReplacement", 0)] of the glyph [name] of the builder *)
Definition hint_label (fuel : nat) (order : list pystr) (name : pystr) (st : store) (node : Z) : res (pystr * store) :=
  get_point_label fuel order st name node (py "PSHintReplacement") 0.
(** lines 155-180 *)
Definition mask_turn (fuel : nat) (order : list pystr) (name : pystr) (h v : list hint)
  (s : hs_state) (st : store) (mask : pystr * Z) : res (hs_state * store) :=
  rthen (mask_stems h v mask) (fun new =>
  let stems := hs_stems s ++ new in
  if str_eqb (fst mask) (py "r") then
    rmap (fun r => (HsState (if snd mask <? 0 then Z.abs (snd mask) - 1 else snd mask) []
                            (hs_sets s ++ [(fst r, stems)]), snd r))
         (hint_label fuel order name st (hs_node s))
  else Ok (HsState (hs_node s) stems (hs_sets s), st)).
Fixpoint mask_loop (fuel : nat) (order : list pystr) (name : pystr) (h v : list hint)
  (s : hs_state) (st : store) (masks : list (pystr * Z)) : res (hs_state * store) :=
  match masks with
  | [] => Ok (s, st)
  | mask :: masks => rthen (mask_turn fuel order name h v s st mask) (fun r =>
                     mask_loop fuel order name h v (fst r) (snd r) masks)
  end.
(** lines 182-189, 195-201: the last or only set *)
Definition last_set (fuel : nat) (order : list pystr) (name : pystr) (s : hs_state) (st : store)
  : res (list (pystr * list hint) * store) :=
  match hs_stems s with
  | [] => Ok (hs_sets s, st)
  | _ => rmap (fun r => (hs_sets s ++ [(fst r, hs_stems s)], snd r)) (hint_label fuel order name st (hs_node s))
  end.
(** lines 204-223: by point; sets without stems are dropped, later sets replace earlier ones *)
Definition ufo_hint_sets (sets : list (pystr * list hint)) : list (pystr * list pystr) :=
  fold_left (fun d s => match snd s with
                        | [] => d
                        | _ => aset str_eqb (fst s) (map hint_text (sorted_set (snd s))) d
                        end) sets [].
(** ufo/pshints.py 31-233 [build_ps_glyph_hints]: the [hintSetList] (nothing is written if it is empty) and
    the changed labels *)
Definition build_ps_glyph_hints (fuel : nat) (order : list pystr) (name : pystr) (masks : list (pystr * Z))
  (h v : list hint) (st : store) : res (list (pystr * list pystr) * store) :=
  rmap (fun r => (ufo_hint_sets (fst r), snd r))
    match masks with
    | [] => last_set fuel order name (HsState 0 (h ++ v) []) st
    | _ => rthen (mask_loop fuel order name h v (HsState 0 [] []) st masks) (fun r =>
           last_set fuel order name (fst r) (snd r))
    end.

(** vfb/glyph.py 113-137 [resolve_hint_sets]: by node *)
Fixpoint resolve_sets_loop (h v : list hint) (d : list (Z * list hint)) (node : Z) (stems : list hint)
  (masks : list (pystr * Z)) : res (list (Z * list hint)) :=
  match masks with
  | [] => Ok (match stems with [] => d | _ => aset Z.eqb node stems d end)
  | (kind, index) :: masks =>
      if str_eqb kind (py "r") then
        resolve_sets_loop h v (match stems with [] => d | _ => aset Z.eqb node stems d end) index [] masks
      else
        rthen (if str_eqb kind (py "h") then py_index h index
               else if str_eqb kind (py "v") then py_index v index else Err KeyError) (fun x =>
        resolve_sets_loop h v d node (stems ++ [x]) masks)
  end.
Definition resolve_hint_sets (h v : list hint) (masks : list (pystr * Z)) : res (list (Z * list hint)) :=
  match masks with
  | [] => Ok [(0, h ++ v)]
  | _ => resolve_sets_loop h v [] 0 [] masks
  end.
