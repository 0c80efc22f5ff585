(** Specification of PostScript hints. *)
From Coq Require Import String Sorted.
From Verif Require Import Base M_Py M_Glyph M_Labels M_PsHints S_Labels.
Local Open Scope list_scope.

(** the two edges of a stem, in order *)
Definition low (h : hint) : Z := Z.min (hi_pos h) (hi_pos h + hi_width h).
Definition high (h : hint) : Z := Z.max (hi_pos h) (hi_pos h + hi_width h).
(** Type 1 font format: the widths -21 and -20 mark hints for one edge only: a bottom edge at the end, a top
    edge at the position *)
Definition bottom_ghost (h : hint) : Prop := hi_width h = -21.
Definition top_ghost (h : hint) : Prop := hi_width h = -20.
Definition ghost (h : hint) : Prop := bottom_ghost h \/ top_ghost h.

(** Hint masks: the hints of masks up to a replacement belong to one node, first node 0, then the node of
    the replacement. Negative numbers of nodes count from -1 for node 0. *)
Definition plain (mask : pystr * Z) : Prop := fst mask = py "h" \/ fst mask = py "v".
Definition replaced_node (i : Z) : Z := if i <? 0 then - i - 1 else i.
Inductive hint_sets_of : Z -> list (pystr * Z) -> list (Z * list (pystr * Z)) -> Prop :=
| one_set : forall node masks, Forall plain masks -> hint_sets_of node masks [(node, masks)]
| next_set : forall node masks i rest sets, Forall plain masks -> hint_sets_of (replaced_node i) rest sets ->
    hint_sets_of node (masks ++ (py "r", i) :: rest) ((node, masks) :: sets).
(** the hints a set chooses; numbers that are too big choose nothing *)
Definition choice (h v : list hint) (mask : pystr * Z) : list hint :=
  match nth_error (if str_eqb (fst mask) (py "h") then h else v) (Z.to_nat (snd mask)) with
  | Some x => [x]
  | None => []
  end.
Definition chosen (h v : list hint) (masks : list (pystr * Z)) : list hint := concat (map (choice h v) masks).

(** order of stems: h before v, then by position, then by width *)
Definition hint_lt (a b : hint) : Prop :=
  (hi_v a = false /\ hi_v b = true) \/
  (hi_v a = hi_v b /\ (hi_pos a < hi_pos b \/ (hi_pos a = hi_pos b /\ hi_width a < hi_width b))).
(** [l] is the set of the elements of [stems], sorted *)
Definition sorted_version (stems l : list hint) : Prop :=
  StronglySorted hint_lt l /\ forall x, In x l <-> In x stems.

(** set number [k] is the last one of its node that has hints; these are [stems] *)
Definition effective (h v : list hint) (sets : list (Z * list (pystr * Z))) (node : Z) (stems : list hint) : Prop :=
  exists before masks after, sets = before ++ (node, masks) :: after /\ stems = chosen h v masks /\ stems <> [] /\
    forall masks', In (node, masks') after -> chosen h v masks' = [].

(** ** Texts, nodes and the hints of a master *)
Definition stem_text (h : hint) : pystr :=
  (if hi_v h then py "vstem " else py "hstem ") ++ dec_str (hi_pos h) ++ py " " ++ dec_str (hi_width h).
(** the coordinate of node [i] in master [m]: x if [x], else y *)
Definition coordinate (m : nat) (x : bool) (nodes : list mm_node) (i : Z) (c : Z) : Prop :=
  0 <= i /\ exists n px py rest, nth_error nodes (Z.to_nat i) = Some n /\
    nth_error (nd_points n) m = Some ((px, py) :: rest) /\ c = if x then px else py.
(** the stem a hint of the file stands for *)
Definition same_stem (x : bool) (src : Z * Z) (h : hint) : Prop :=
  hi_v h = x /\
  (if (snd src =? -21) || (snd src =? -20) then hi_pos h = fst src /\ hi_width h = snd src
   else low h = Z.min (fst src) (fst src + snd src) /\ high h = Z.max (fst src) (fst src + snd src) /\ 0 <= hi_width h).
(** the stem a link stands for: the edges are the two nodes, or the one of a ghost *)
Definition link_stem (m : nat) (x : bool) (nodes : list mm_node) (l : Z * Z) (h : hint) : Prop :=
  hi_v h = x /\ exists s, coordinate m x nodes (fst l) s /\
  if snd l =? -1 then bottom_ghost h /\ hi_pos h + hi_width h = s
  else if snd l =? -2 then top_ghost h /\ hi_pos h = s
  else exists t, coordinate m x nodes (snd l) t /\ low h = Z.min s t /\ high h = Z.max s t.
(** the nodes of a link are there *)
Definition link_ok (m : nat) (x : bool) (nodes : list mm_node) (l : Z * Z) : Prop :=
  (exists s, coordinate m x nodes (fst l) s) /\
  (snd l = -1 \/ snd l = -2 \/ exists t, coordinate m x nodes (snd l) t).
