(** Specification of TrueType programs, control values and hinting options in the UFO (C72, C74) and of
    bitmaps (C73). *)
From Coq Require Import String.
From Verif Require Import Base M_Py M_Text M_Bitmap M_Info M_Programs.
Local Open Scope list_scope.

(** ** Reading a program text *)
(** the lines of a text, each ended by a line feed *)
Fixpoint lines_of (cur : pystr) (s : pystr) : list pystr :=
  match s with
  | [] => []
  | c :: s' => if c =? 10 then cur :: lines_of [] s' else lines_of (cur ++ [c]) s'
  end.
Fixpoint without_indent (l : pystr) : pystr :=
  match l with
  | c :: l' => if c =? 32 then without_indent l' else l
  | [] => []
  end.
(** the instructions of a program text: the first line is empty, and indentation does not count *)
Definition instructions_of (text : pystr) : option (list pystr) :=
  match lines_of [] text with
  | [] :: ls => Some (map without_indent ls)
  | _ => None
  end.
(** "a line of a program": it has no line feed and does not begin with a space *)
Definition program_line (l : pystr) : Prop := ~ In 10 l /\ (forall s, l <> 32 :: s).

(** the blocks that are open at line [k]: those that began on a line before it, without those that ended before it or
    end with it *)
Definition open_blocks (o : asm_oracle) (lines : list pystr) (k : nat) : Z :=
  Z.of_nat (List.length (filter (asm_indent o) (firstn k lines)))
  - Z.of_nat (List.length (filter (asm_unindent o) (firstn (S k) lines))).

(** ** What the entries say *)
(** "[v] is the signed 16 bit number at place [i] of [b]", low byte first *)
Definition int16_at (b : bytes) (i : nat) (v : Z) : Prop :=
  exists lo hi, nth_error b (2 * i) = Some lo /\ nth_error b (2 * i + 1) = Some hi /\
  v = (if hi <? 128 then lo + 256 * hi else lo + 256 * hi - 65536).
Definition last_of {A} (l : list A) : option A := last (map Some l) None.
Definition last_cvt (es : list tt_entry) : option bytes :=
  last_of (flat_map (fun e => match e with TCvt b => [b] | _ => [] end) es).
Definition last_prep (es : list tt_entry) : option bytes :=
  last_of (flat_map (fun e => match e with TPrep b => [b] | _ => [] end) es).
Definition last_fpgm (es : list tt_entry) : option bytes :=
  last_of (flat_map (fun e => match e with TFpgm b => [b] | _ => [] end) es).
Definition last_max (k : pystr) (es : list tt_entry) : option Z :=
  last_of (flat_map (fun e => match e with TMax k' v => if str_eqb k' k then [v] else [] | _ => [] end) es).
Definition max_names : list pystr :=
  [py "maxZones"; py "maxTwilightPoints"; py "maxStorage"; py "maxFunctionDefs"; py "maxInstructionDefs";
   py "maxStackElements"].
Definition names_ok (es : list tt_entry) : Prop :=
  Forall (fun e => match e with
                   | TMax k _ => In k max_names
                   | TCvt b | TPrep b | TFpgm b => bytes_ok b
                   end) es.

(** what is in the lib of the UFO under the key of TrueType instructions *)
Definition in_lib (i : info) (k : pystr) : option info_val :=
  match if_lib i with Some d => aget str_eqb k d | None => None end.
(** "[v] is the text of the program [b], if there is one" *)
Definition program_in (o : asm_oracle) (b : option bytes) (v : option info_val) : Prop :=
  match b with
  | None => v = None
  | Some b => exists text lines, v = Some (IStr text) /\ asm_lines o b = Ok lines /\
              (Forall program_line lines -> instructions_of text = Some lines)
  end.
(** "[v] are the control values [b], if there are any", numbered from 0 *)
Definition cvt_in (b : option bytes) (v : option info_val) : Prop :=
  match b with
  | None => v = None
  | Some b => exists d, v = Some (IDict d) /\
              (forall i x, aget str_eqb (dec_str (Z.of_nat i)) d = Some x <-> int16_at b i x) /\
              (forall k, aget str_eqb k d <> None -> exists i, k = dec_str (Z.of_nat i) /\ (2 * i < List.length b)%nat)
  end.
(** "[v] is the maximum [x]"; 0 when it is left out *)
Definition max_in (x : option Z) (v : option info_val) : Prop :=
  match v with
  | Some v => exists z, x = Some z /\ v = IInt z
  | None => x = None \/ x = Some 0
  end.

(** ** Options *)
(** the value of an option in the UFO, or what a reader assumes when it is left out *)
Definition opt_value (lib : option (list (pystr * Z))) (k : pystr) (default : Z) : Z :=
  match lib with
  | Some d => match aget str_eqb k d with Some v => v | None => default end
  | None => default
  end.
Definition snaps (es : list opt_entry) := flat_map (fun e => match e with OPixelSnap v => [v] | _ => [] end) es.
Definition zone_stops (es : list opt_entry) := flat_map (fun e => match e with OZoneStop v => [v] | _ => [] end) es.
Definition dropouts (es : list opt_entry) := flat_map (fun e => match e with ODropoutStop v => [v] | _ => [] end) es.
Definition code_stops (es : list opt_entry) := flat_map (fun e => match e with OCodeStop v => [v] | _ => [] end) es.
(** "the option has at most one entry, and [x] is its value" *)
Definition only_value (l : list Z) (default x : Z) : Prop := l = [] /\ x = default \/ l = [x].
