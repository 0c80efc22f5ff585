(** Model of the TrueType programs, the control values and the hinting options in the UFO, and of the
    bitmaps of glyphs: ufo/instructions.py, ufo/builder.py 170-172, 224-263, 354-374, 646-680,
    ufo/glyph.py 104-112, ufo/info.py 30-38. *)
From Coq Require Import String.
From Verif Require Import Base M_Py M_Helpers M_Text M_Tth M_Bitmap M_Info.
Local Open Scope list_scope.

(** ** Programs *)
(** What fontTools gives: the lines of a binary program, and whether a line ends or begins an indented
    part *)
Record asm_oracle := AsmOracle {
  asm_lines : bytes -> res (list pystr);
  asm_unindent : pystr -> bool;
  asm_indent : pystr -> bool }.

(** instructions.py 18-26: the loop; [white * indent] is empty for a negative [indent] *)
Fixpoint format_lines (o : asm_oracle) (inst : list pystr) (indent : Z) : pystr :=
  match inst with
  | [] => []
  | line :: inst' =>
      let indent := if asm_unindent o line then indent - 1 else indent in
      repeat 32 (2 * Z.to_nat indent) ++ line ++ [10]
      ++ format_lines o inst' (if asm_indent o line then indent + 1 else indent)
  end.
(** instructions.py 4-27 [format_assembly] of a list, as ufo/glyph.py 104-112 calls it, and of bytes. No
    caller passes a [str]. *)
Definition format_list (o : asm_oracle) (inst : list pystr) : pystr := 10 :: format_lines o inst 0.
Definition format_bytes (o : asm_oracle) (b : bytes) : res pystr := rmap (format_list o) (asm_lines o b).

(** [[v[0] for v in iter_unpack("<h", b)]] *)
Fixpoint unpack_h (b : bytes) : res (list Z) :=
  match b with
  | [] => Ok []
  | lo :: hi :: b' => rmap (cons (le_dec_s [lo; hi])) (unpack_h b')
  | _ => Err StructError
  end.
(** [{str(i): v for i, v in enumerate(values)}] *)
Fixpoint number_values (i : Z) (l : list Z) : list (pystr * Z) :=
  match l with [] => [] | v :: l' => (dec_str i, v) :: number_values (i + 1) l' end.

(** builder.py 252-258 [set_tt_cvt], 260-263 [set_tt_program] *)
Definition set_tt_cvt (data : pystr) (i : info) : res info :=
  rthen (deHexStr data) (fun b =>
  rmap (fun values => set_tt_instructions (py "controlValue") (IDict (number_values 0 values)) i) (unpack_h b)).
Definition set_tt_program (o : asm_oracle) (key data : pystr) (i : info) : res info :=
  rthen (deHexStr data) (fun b => rmap (fun asm => set_tt_instructions key (IStr asm) i) (format_bytes o b)).

(** The entries cvt, prep and fpgm with the bytes of their data, for which parsers/base.py 230-238 gives
    the hex string, and the maxima of the entry ttinfo by their UFO names (info.py 294-320) *)
Inductive tt_entry := TMax (k : pystr) (v : Z) | TCvt (b : bytes) | TPrep (b : bytes) | TFpgm (b : bytes).
(** builder.py 541, 646-651 *)
Definition tt_step (o : asm_oracle) (i : info) (e : tt_entry) : res info :=
  match e with
  | TMax k v => Ok (set_tt_instructions k (IInt v) i)
  | TCvt b => set_tt_cvt (hexStr b) i
  | TPrep b => set_tt_program o (py "controlValueProgram") (hexStr b) i
  | TFpgm b => set_tt_program o (py "fontProgram") (hexStr b) i
  end.
(** info.py 30-38 *)
Definition default_tt_lib : list (pystr * info_val) :=
  [(py "formatVersion", IStr (py "1")); (py "maxZones", IInt 0); (py "maxTwilightPoints", IInt 0);
   (py "maxStorage", IInt 0); (py "maxFunctionDefs", IInt 0); (py "maxInstructionDefs", IInt 0);
   (py "maxStackElements", IInt 0)].
(** [==] of two dicts, with the values that [tt_step] stores *)
Definition val_eqb (a b : info_val) : bool :=
  match a, b with
  | IInt x, IInt y => x =? y
  | IStr x, IStr y => str_eqb x y
  | _, _ => false
  end.
Definition dict_eqb (d d' : list (pystr * info_val)) : bool :=
  (List.length d =? List.length d')%nat
  && forallb (fun kv => match aget str_eqb (fst kv) d with
                        | Some v => val_eqb v (snd kv)
                        | None => false
                        end) d'.
(** builder.py 673-677 *)
Definition drop_default (i : info) : info :=
  match if_lib i with
  | Some d => if dict_eqb d default_tt_lib then mkInfo (if_attrs i) None else i
  | None => i
  end.
Definition tt_build (o : asm_oracle) (es : list tt_entry) : res info :=
  rmap drop_default (res_fold (tt_step o) (mkInfo [] None) es).

(** ** Options of TrueType hinting: [self.lib[TT_LIB_KEY]], without stems and zones *)
Inductive opt_entry := OPixelSnap (v : Z) | OZoneStop (v : Z) | OCodeStop (v : Z) | ODropoutStop (v : Z).
(** builder.py 170-172, 354-374 *)
Definition opt_step (lib : option (list (pystr * Z))) (e : opt_entry) : option (list (pystr * Z)) :=
  let d := match lib with Some d => d | None => [] end in
  Some (match e with
        | OPixelSnap v => if v =? 68 then d else aset str_eqb (py "stemsnaplimit") v d
        | OZoneStop v => if v =? 48 then d else aset str_eqb (py "zoneppm") v d
        | OCodeStop v => aset str_eqb (py "codeppm") v d
        | ODropoutStop v => if v =? 255 then d else aset str_eqb (py "dropoutppm") v d
        end).
(** builder.py 668-672; the stems and zones are left out *)
Definition opt_build (es : list opt_entry) : option (list (pystr * Z)) :=
  match fold_left opt_step es None with
  | Some [] | None => None
  | Some d => Some d
  end.

(** ** Bitmaps *)
Record ufo_bitmap := UfoBitmap {
  ub_imageData : list bytes; ub_bitDepth : Z; ub_horiAdvance : Z; ub_vertAdvance : Z;
  ub_width : Z; ub_height : Z; ub_horiBearingX : Z; ub_horiBearingY : Z; ub_ppemX : Z; ub_ppemY : Z }.
(** builder.py 224-250 [set_glyph_bitmaps] *)
Definition ufo_bitmap_of (d : glyph_bitmap) : ufo_bitmap :=
  UfoBitmap (rev (bm_data (gb_bitmap d))) 1 (fst (gb_adv d)) (snd (gb_adv d))
    (fst (gb_size_pixels d)) (snd (gb_size_pixels d)) (fst (gb_origin d))
    (snd (gb_size_pixels d) + snd (gb_origin d)) (gb_ppm d) (gb_ppm d).
Definition set_glyph_bitmaps (data : list glyph_bitmap) : list ufo_bitmap := map ufo_bitmap_of data.
