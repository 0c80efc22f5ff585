(** Specification of JSON (RFC 8259): the values, and a reader of texts. It does not use the model. *)
From Coq Require Import String.
From Verif Require Import Base M_Py.
Local Open Scope list_scope.

(** A number without fraction and exponent is an integer; another number stays the text that it is. *)
Inductive js :=
| JsNull
| JsBool (b : bool)
| JsInt (n : Z)
| JsNum (text : pystr)
| JsStr (s : pystr)
| JsList (l : list js)
| JsDict (d : list (pystr * js)).

(** ** Section 2: white space *)
Definition blank (c : Z) : bool := (c =? 32) || (c =? 9) || (c =? 10) || (c =? 13).
Fixpoint skip (s : pystr) : pystr :=
  match s with
  | c :: s' => if blank c then skip s' else s
  | [] => []
  end.

(** the longest beginning whose characters are all in [p], and the rest *)
Fixpoint span (p : Z -> bool) (s : pystr) : pystr * pystr :=
  match s with
  | c :: s' => if p c then let '(a, b) := span p s' in (c :: a, b) else ([], s)
  | [] => ([], [])
  end.

(** ** Section 6: numbers *)
Definition digit (c : Z) : bool := (48 <=? c) && (c <=? 57).
(** each of these gives what is left after the part *)
Definition digits (s : pystr) : option pystr :=
  match s with
  | c :: r => if digit c then Some (snd (span digit r)) else None
  | [] => None
  end.
Definition int_part (s : pystr) : option pystr :=
  let unsigned s := match s with
                    | c :: r => if c =? 48 then Some r else digits s
                    | [] => None
                    end in
  match s with
  | c :: r => if c =? 45 then unsigned r else unsigned s
  | [] => None
  end.
Definition frac_part (s : pystr) : option pystr :=
  match s with
  | c :: r => if c =? 46 then digits r else Some s
  | [] => Some []
  end.
Definition exp_part (s : pystr) : option pystr :=
  match s with
  | c :: r =>
      if (c =? 69) || (c =? 101) then
        match r with
        | d :: r' => if (d =? 43) || (d =? 45) then digits r' else digits r
        | [] => None
        end
      else Some s
  | [] => Some []
  end.
Definition is_int (s : pystr) : bool := match int_part s with Some [] => true | _ => false end.
Definition is_number (s : pystr) : bool :=
  match int_part s with
  | Some r => match frac_part r with
              | Some r => match exp_part r with Some [] => true | _ => false end
              | None => false
              end
  | None => false
  end.
Fixpoint digits_value (n : Z) (s : pystr) : Z :=
  match s with
  | c :: s' => digits_value (n * 10 + (c - 48)) s'
  | [] => n
  end.
Definition int_value (s : pystr) : Z :=
  match s with
  | c :: r => if c =? 45 then - digits_value 0 r else digits_value 0 s
  | [] => 0
  end.
Definition number_char (c : Z) : bool := digit c || existsb (Z.eqb c) [43; 45; 46; 69; 101].
Definition number_of (s : pystr) : option js :=
  if is_int s then Some (JsInt (int_value s)) else if is_number s then Some (JsNum s) else None.

(** ** Section 7: strings. A pair of escaped surrogates is not put together. *)
Definition hex_value (c : Z) : option Z :=
  if digit c then Some (c - 48)
  else if (97 <=? c) && (c <=? 102) then Some (c - 87)
  else if (65 <=? c) && (c <=? 70) then Some (c - 55)
  else None.
Definition escaped (c : Z) : option Z :=
  aget Z.eqb c [(34, 34); (92, 92); (47, 47); (98, 8); (102, 12); (110, 10); (114, 13); (116, 9)].
(** what comes up to the closing quote, and the rest *)
Fixpoint chars (s : pystr) : option (pystr * pystr) :=
  let put (c : Z) (o : option (pystr * pystr)) := match o with Some (t, r) => Some (c :: t, r) | None => None end in
  match s with
  | [] => None
  | c :: r =>
      if c =? 34 then Some ([], r)
      else if c =? 92 then
        match r with
        | [] => None
        | e :: r1 =>
            if e =? 117 then
              match r1 with
              | h1 :: h2 :: h3 :: h4 :: r2 =>
                  match hex_value h1, hex_value h2, hex_value h3, hex_value h4 with
                  | Some a, Some b, Some c, Some d => put (((a * 16 + b) * 16 + c) * 16 + d) (chars r2)
                  | _, _, _, _ => None
                  end
              | _ => None
              end
            else match escaped e with Some c => put c (chars r1) | None => None end
        end
      else if c <? 32 then None
      else put c (chars r)
  end.

(** ** Sections 3 to 5: values. The fuel bounds the depth of the recursion. *)
Fixpoint after (w s : pystr) : option pystr :=
  match w, s with
  | [], _ => Some s
  | a :: w', b :: s' => if a =? b then after w' s' else None
  | _ :: _, [] => None
  end.
Definition literal (s : pystr) : option (js * pystr) :=
  match after (py "null") s with
  | Some r => Some (JsNull, r)
  | None =>
      match after (py "true") s with
      | Some r => Some (JsBool true, r)
      | None =>
          match after (py "false") s with
          | Some r => Some (JsBool false, r)
          | None => let '(t, r) := span number_char s in
                    match number_of t with Some j => Some (j, r) | None => None end
          end
      end
  end.
Fixpoint rd_value (fuel : nat) (s : pystr) : option (js * pystr) :=
  match fuel with
  | O => None
  | S f =>
      match skip s with
      | [] => None
      | c :: r =>
          if c =? 34 then match chars r with Some (t, r) => Some (JsStr t, r) | None => None end
          else if c =? 91 then
            match after (py "]") (skip r) with
            | Some r => Some (JsList [], r)
            | None => match rd_items f r with Some (l, r) => Some (JsList l, r) | None => None end
            end
          else if c =? 123 then
            match after (py "}") (skip r) with
            | Some r => Some (JsDict [], r)
            | None => match rd_members f r with Some (d, r) => Some (JsDict d, r) | None => None end
            end
          else literal (c :: r)
      end
  end
with rd_items (fuel : nat) (s : pystr) : option (list js * pystr) :=
  match fuel with
  | O => None
  | S f =>
      match rd_value f s with
      | Some (x, r) =>
          match after (py ",") (skip r) with
          | Some r => match rd_items f r with Some (l, r) => Some (x :: l, r) | None => None end
          | None => match after (py "]") (skip r) with Some r => Some ([x], r) | None => None end
          end
      | None => None
      end
  end
with rd_members (fuel : nat) (s : pystr) : option (list (pystr * js) * pystr) :=
  match fuel with
  | O => None
  | S f =>
      match skip s with
      | [] => None
      | c :: r =>
          if c =? 34 then
            match chars r with
            | Some (k, r) =>
                match after (py ":") (skip r) with
                | Some r =>
                    match rd_value f r with
                    | Some (x, r) =>
                        match after (py ",") (skip r) with
                        | Some r => match rd_members f r with Some (d, r) => Some ((k, x) :: d, r) | None => None end
                        | None => match after (py "}") (skip r) with Some r => Some ([(k, x)], r) | None => None end
                        end
                    | None => None
                    end
                | None => None
                end
            | None => None
            end
          else None
      end
  end.
(** Section 2: a text is a value, with white space around it. *)
Definition loads (s : pystr) : option js :=
  match rd_value (length s) s with
  | Some (j, r) => match skip r with [] => Some j | _ => None end
  | None => None
  end.

Example loads_ex : loads (py "{ ""a"": [1, -2.5e3, ""x\n\u00e4"", null, true], ""b"": {} }") =
  Some (JsDict [(py "a", JsList [JsInt 1; JsNum (py "-2.5e3"); JsStr [120; 10; 228]; JsNull; JsBool true]); (py "b", JsDict [])]) /\
  loads (py "[1,]") = None /\ loads (py "[01]") = None /\ loads (py "[1] 2") = None.
Proof. vm_compute. repeat split. Qed.
