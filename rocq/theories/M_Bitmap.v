(** Model of parsers/bitmap.py and compilers/bitmap.py.

    [win] stands for [self.vfb is not None and self.vfb.writer_platform == "windows"]. *)
From Verif Require Import Base M_Stream M_Py.
Open Scope rd_scope.

(** A run-length encoded chunk: the specifier and the bytes after it (a Python list whose first
    element is the specifier). *)
Notation chunk := (Z * bytes)%type.

(** parsers/bitmap.py 10-40 [_read_bitmap]: one turn of the [while] loop per unit of fuel. Each turn
    takes at least 1 off [bytes_remaining], so [bytes_remaining] turns are enough. *)
Fixpoint read_bitmap_from (fuel : nat) (remaining : Z) : rd (list chunk) :=
  match fuel with
  | O => if 0 <? remaining then rraise Diverge else ret []
  | S f =>
      if 0 <? remaining then
        let remaining := remaining - 1 in
        v <- read_int8 ;;
        if 0 <=? v then
          let n := v + 1 in
          if remaining <? n then ret []
          else
            l <- rrange n read_uint8 ;;
            cs <- read_bitmap_from f (remaining - n) ;; ret ((v, l) :: cs)
        else
          if remaining <? 1 then ret []
          else
            i <- read_uint8 ;;
            cs <- read_bitmap_from f (remaining - 1) ;; ret ((v, [i]) :: cs)
      else ret []
  end.
Definition read_bitmap (datalen : Z) : rd (list chunk) :=
  read_bitmap_from (Z.to_nat datalen) datalen.

(** [l * n] for lists *)
Fixpoint list_times {A} (n : nat) (l : list A) : list A :=
  match n with O => [] | S n' => l ++ list_times n' l end.
(** parsers/bitmap.py 42-52 [_decode_bitmap] *)
Definition decode_chunk (c : chunk) : bytes :=
  if 0 <=? fst c then snd c else list_times (Z.to_nat (- fst c + 1)) (snd c).
Definition decode_bitmap (cs : list chunk) : bytes := concat (map decode_chunk cs).

(** parsers/bitmap.py 69 *)
Definition bytes_per_row (w : Z) : Z := (w + 15) / 16 * 2.
(** parsers/bitmap.py 71-74: [[data[j:j+n] for j in range(0, len(data), n)]] *)
Fixpoint rows_from (fuel : nat) (n : nat) (data : bytes) : list bytes :=
  match fuel with
  | O => []
  | S f => match data with
           | [] => []
           | _ => firstn n data :: rows_from f n (skipn n data)
           end
  end.
Definition split_rows (n : Z) (data : bytes) : res (list bytes) :=
  if n =? 0 then Err ValueError
  else if n <? 0 then Ok []
  else Ok (rows_from (length data) (Z.to_nat n) data).

(** parsers/bitmap.py 94: [f"{r:08b}"] with "0" replaced by " ▕" and "1" by "█▉". All bytes of a
    bitmap are below 256, so there are eight digits. *)
Definition preview_byte (r : Z) : pystr :=
  flat_map (fun i => if Z.testbit r i then [0x2588; 0x2589] else [0x20; 0x2595])
           [7; 6; 5; 4; 3; 2; 1; 0].
(** [s[:n]]: a negative [n] counts from the end *)
Definition py_prefix {A} (n : Z) (s : list A) : list A :=
  firstn (Z.to_nat (if n <? 0 then Z.of_nat (length s) + n else n)) s.
(** parsers/bitmap.py 89-101 [_get_preview] *)
Definition preview (data : list bytes) (w : Z) : list pystr :=
  map (fun row => py_prefix (w * 2) (flat_map preview_byte row)) data.

(** typing.py [BitmapDataDict]; the parsers always add the preview (line 121-123: nothing in the
    package sets [preview], and [origin_top] is never passed) *)
Record bitmap_data := Bitmap { bm_data : list bytes; bm_preview : option (list pystr) }.

(** parsers/bitmap.py 54-87 [_parse_bitmap_data] *)
Definition parse_bitmap_data (win : bool) (w datalen : Z) : rd bitmap_data :=
  rle <- read_bitmap datalen ;;
  let data := decode_bitmap rle in
  let data := if win then map (fun b => Z.lnot b + 0x100) data else data in
  rows <- rlift (split_rows (bytes_per_row w) data) ;;
  ret (Bitmap rows (Some (preview rows w))).

Record background := Background
  { bg_origin : Z * Z; bg_size_units : Z * Z; bg_size_pixels : Z * Z; bg_bitmap : bitmap_data }.
(** parsers/bitmap.py 104-124 *)
Definition parse_background (win : bool) : rd background :=
  x <- read_value ;; y <- read_value ;;
  uw <- read_uvalue ;; uh <- read_uvalue ;;
  w <- read_uvalue ;; h <- read_uvalue ;;
  datalen <- read_uvalue ;;
  b <- parse_bitmap_data win w datalen ;;
  ret (Background (x, y) (uw, uh) (w, h) b).

Record glyph_bitmap := GlyphBitmap
  { gb_ppm : Z; gb_origin : Z * Z; gb_adv : Z * Z; gb_size_pixels : Z * Z;
    gb_bitmap : bitmap_data }.
(** parsers/bitmap.py 131-150, one bitmap; its data length is read signed *)
Definition parse_glyph_bitmap (win : bool) : rd glyph_bitmap :=
  ppm <- read_uvalue ;;
  x <- read_value ;; y <- read_value ;;
  aw <- read_uvalue ;; ah <- read_uvalue ;;
  w <- read_uvalue ;; h <- read_uvalue ;;
  datalen <- read_value ;;
  b <- parse_bitmap_data win w datalen ;;
  ret (GlyphBitmap ppm (x, y) (aw, ah) (w, h) b).
(** parsers/bitmap.py 127-151 *)
Definition parse_glyph_bitmaps (win : bool) : rd (list glyph_bitmap) :=
  n <- read_uvalue ;; rrange n (parse_glyph_bitmap win).

(** compilers/bitmap.py 13-21 [flush_buffer] with [max_chunk_len = 128] *)
Definition max_chunk_len : nat := 128%nat.
Definition flush_buffer (buf : bytes) : list chunk :=
  map (fun c => (Z.of_nat (length c) - 1, c)) (rows_from (length buf) max_chunk_len buf).

(** [itertools.groupby]: the runs of equal values *)
Fixpoint groupby (l : bytes) : list (Z * nat) :=
  match l with
  | [] => []
  | x :: l' =>
      match groupby l' with
      | (y, n) :: g => if x =? y then (y, S n) :: g else (x, 1%nat) :: (y, n) :: g
      | [] => [(x, 1%nat)]
      end
  end.

(** compilers/bitmap.py 40-58, one turn of the loop; [st] is [encoded], [buf] *)
Definition encode_run (st : list chunk * bytes) (run : Z * nat) : list chunk * bytes :=
  let '(encoded, buf) := st in
  let '(value, count) := run in
  if Nat.ltb 2 count then
    let full := (count / max_chunk_len)%nat in
    let partial := (count mod max_chunk_len)%nat in
    (encoded ++ flush_buffer buf
     ++ repeat (- Z.of_nat max_chunk_len + 1, [value]) full
     ++ (if Nat.eqb partial 0 then [] else [(- Z.of_nat partial + 1, [value])]), [])
  else (encoded, buf ++ repeat value count).
(** compilers/bitmap.py 25-66 [_encode_bitmap] *)
Definition encode_bitmap (data : list bytes) : list chunk :=
  let '(encoded, buf) := fold_left encode_run (groupby (concat data)) ([], []) in
  encoded ++ flush_buffer buf.

(** compilers/bitmap.py 68-81 [_compile_bitmap_data] *)
Definition compile_bitmap_data (win : bool) (b : bitmap_data) : wr :=
  let data := bm_data b in
  let data := if win then map (map (fun b => Z.lnot b - 0x100)) data else data in
  let encoded := encode_bitmap data in
  write_value (Z.of_nat (length (concat (map (fun c => fst c :: snd c) encoded)))) +++
  wlist (fun c => write_int8 (fst c) +++ wlist write_uint8 (snd c)) encoded.

(** compilers/bitmap.py 84-99 *)
Definition compile_background (win : bool) (d : background) : wr :=
  write_value (fst (bg_origin d)) +++ write_value (snd (bg_origin d)) +++
  write_uvalue (fst (bg_size_units d)) +++ write_uvalue (snd (bg_size_units d)) +++
  write_uvalue (fst (bg_size_pixels d)) +++ write_uvalue (snd (bg_size_pixels d)) +++
  compile_bitmap_data win (bg_bitmap d).
(** compilers/bitmap.py 102-120 *)
Definition compile_glyph_bitmap (win : bool) (d : glyph_bitmap) : wr :=
  write_uvalue (gb_ppm d) +++
  write_value (fst (gb_origin d)) +++ write_value (snd (gb_origin d)) +++
  write_uvalue (fst (gb_adv d)) +++ write_uvalue (snd (gb_adv d)) +++
  write_uvalue (fst (gb_size_pixels d)) +++ write_uvalue (snd (gb_size_pixels d)) +++
  compile_bitmap_data win (gb_bitmap d).
Definition compile_glyph_bitmaps (win : bool) (l : list glyph_bitmap) : wr :=
  write_uvalue (Z.of_nat (length l)) +++ wlist (compile_glyph_bitmap win) l.
