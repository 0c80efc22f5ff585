(** Model of the container layer: the file header (parsers/header.py,
    compilers/header.py, vfb/header.py), the entry framing and life cycle
    (vfb/entry.py) and reading and writing of whole files (vfb/vfb.py).

    The entry parsers and compilers enter through a [codecs] record, which
    M_Table.v fills with the functions of parser_classes (constants.py 144-324). *)
From Verif Require Import Base M_Stream.
Open Scope rd_scope.

(** vfb/vfb.py 99-102: the fields of the Vfb that parsers and compilers look at.
    [writer_platform] only ever holds one of the two values of [platform_names]
    (parsers/flversion.py 17-20) or its initial value "macos". *)
Inductive platform := MacOS | Windows.
Record ctx := mkCtx {
  num_masters : Z;
  ttStemsV_count : Z;
  ttStemsH_count : Z;
  writer_platform : platform }.

(** enum.py: the ids that the container treats specially *)
Definition F_BlockFileDataEnd : Z := 2.
Definition F_FLVersion : Z := 10.
Definition F_MasterCount : Z := 1503.
Definition T_TrueTypeStems : Z := 1269.
Definition F_MMKernPair : Z := 1410.

(** ** The file header *)

(** typing.py [VfbHeaderDict] *)
Record hdr := mkHdr {
  signature : Z; app_version : Z; file_version : Z;
  version_major : Z; version_minor : Z }.

(** parsers/header.py 11-14 *)
Definition FL30_SIGNATURE : Z := 0x464C571A.
Definition FL30_APP : Z := 0x31.
Definition FL30_FILE : Z := 0x30.

(** [assert c] *)
Definition rassert (c : bool) : rd unit := if c then ret tt else rraise AssertionError.

(** parsers/header.py 26-35, 45: the reads of [VfbHeaderParser.parse] *)
Definition read_header_fields : rd (hdr * Z) :=
  sig <- read_uint32 ;;
  rassert (sig =? FL30_SIGNATURE) ;;;
  app <- read_uint8 ;;
  rassert (app =? FL30_APP) ;;;
  file <- read_uint8 ;;
  rassert (file =? FL30_FILE) ;;;
  major <- read_uint8 ;;
  rassert (major =? 3) ;;;
  minor <- read_uint8 ;;
  offset <- read_uint32 ;;
  ret (mkHdr sig app file major minor, offset).

(** parsers/header.py 26-48 [VfbHeaderParser.parse]. The stream is at its start
    when it is called (a file that was just opened or a fresh buffer), so that
    [stream.seek(data_offset)] leaves the bytes from [data_offset] on to be read. *)
Definition parse_header : rd hdr := fun file =>
  match read_header_fields file with
  | ROk (h, offset) _ => ROk h (drop offset file)
  | RErr e rest => RErr e rest
  end.

(** compilers/header.py 16-27 [VfbHeaderCompiler._compile] *)
Definition compile_header (h : hdr) : wr :=
  write_uint32 (signature h) +++
  write_uint8 (app_version h) +++
  write_uint8 (file_version h) +++
  write_uint8 (version_major h) +++
  write_uint8 (version_minor h) +++
  let data_offset := 44 in
  write_uint32 data_offset +++
  let bytes_written := 12 in
  wlist write_uint8 (repeat 0 (Z.to_nat (data_offset - bytes_written))).

(** vfb/header.py 19-38: the header object holds bytes, a dict or None *)
Inductive hdata := HRaw (b : bytes) | HDec (h : hdr) | HNone.

(** vfb/header.py 40-50 [VfbHeader.compile] *)
Definition header_compile (d : hdata) : res hdata :=
  match d with
  | HRaw _ => Ok d
  | HNone => Err TypeError
  | HDec h => rmap HRaw (compile_header h)
  end.

(** vfb/header.py 52-58 [VfbHeader.decompile]; the stream is made of the data *)
Definition header_decompile (d : hdata) : res hdata :=
  match d with
  | HRaw b => match parse_header b with ROk h _ => Ok (HDec h) | RErr e _ => Err e end
  | _ => Ok d
  end.

(** ** Entries *)

(** What the container needs to know about the parsers and compilers of
    parser_classes. [cd_parse] is total in the id: ids that are not in the table
    get [FALLBACK_PARSER] (vfb/entry.py 24, 140-145); [cd_compile] is [None] for
    them. [cd_compile_none] is what the compiler does when it is called with None
    instead of a decompiled value. [cd_platform], [cd_int] and [cd_stems] are the accesses of
    vfb/vfb.py 257, 271 and 278-279 to the decompiled data. *)
Record codecs (D : Type) := mkCodecs {
  cd_parse : Z -> ctx -> bytes -> res D;
  cd_compile : Z -> option (ctx -> D -> wr);
  cd_compile_none : Z -> wr;
  cd_platform : D -> platform;
  cd_int : D -> Z;
  cd_stems : D -> Z * Z }.
Arguments cd_parse {D}.
Arguments cd_compile {D}.
Arguments cd_compile_none {D}.
Arguments cd_platform {D}.
Arguments cd_int {D}.
Arguments cd_stems {D}.

(** vfb/entry.py 38: the data of an entry is bytes, a decompiled value or None *)
Inductive edata (D : Type) := Raw (b : bytes) | Dec (d : D) | NoData.
Arguments Raw {D} b.
Arguments Dec {D} d.
Arguments NoData {D}.

(** vfb/entry.py 28-54 [VfbEntry]: [e_cache] is the value that
    [functools.cached_property] stored for [header], if it was accessed.
    Not modelled: overriding of parser and compiler by constructor arguments,
    and [temp_masters] (None unless a pen draws into a multiple master glyph,
    see M_Pens.v). *)
Record entry (D : Type) := mkEntry {
  e_id : option Z;
  e_data : edata D;
  e_cache : option bytes }.
Arguments mkEntry {D}.
Arguments e_id {D}.
Arguments e_data {D}.
Arguments e_cache {D}.

Section Entry.
  Context {D : Type} (T : codecs D).

  (** vfb/entry.py 104-117 [VfbEntry.size] *)
  Definition entry_size (e : entry D) : res Z :=
    match e_data e with
    | NoData => Ok 0
    | Raw b => Ok (Z.of_nat (length b))
    | Dec _ => Err RuntimeError
    end.

  (** vfb/entry.py 62-86, the body of [VfbEntry.header] *)
  Definition compute_header (e : entry D) : wr :=
    match e_id e with
    | None => Err ValueError
    | Some i =>
        rthen (entry_size e) (fun size =>
          pack_le_u 2 (if 0xFFFF <? size then Z.lor i 0x8000 else i) +++
          (if 0xFFFF <? size then pack_le_u 4 size else pack_le_u 2 size))
    end.

  (** vfb/entry.py 62 [@cached_property]: the value computed by the first
      successful access is returned by all later ones. *)
  Definition entry_header (e : entry D) : entry D * wr :=
    match e_cache e with
    | Some h => (e, Ok h)
    | None =>
        match compute_header e with
        | Ok h => (mkEntry (e_id e) (e_data e) (Some h), Ok h)
        | Err x => (e, Err x)
        end
    end.

  (** vfb/entry.py 123-125 [data.setter], 131-149 [id.setter] (parser and compiler
      follow from the id, see [codecs]) *)
  Definition set_data (d : edata D) (e : entry D) : entry D :=
    mkEntry (e_id e) d (e_cache e).
  Definition set_id (i : option Z) (e : entry D) : entry D :=
    mkEntry i (e_data e) (e_cache e).

  (** vfb/entry.py 181-205 [VfbEntry.compile]: the bool is its return value *)
  Definition entry_compile (c : ctx) (e : entry D) : entry D * res bool :=
    match e_data e with
    | Raw _ => (e, Ok true)
    | Dec d =>
        match e_id e with
        | None => (e, Ok false)
        | Some i =>
            match cd_compile T i with
            | None => (e, Ok false)
            | Some comp =>
                match comp c d with
                | Ok b => (set_data (Raw b) e, Ok true)
                | Err x => (e, Err x)
                end
            end
        end
    | NoData =>
        match e_id e with
        | None => (e, Ok false)
        | Some i =>
            match cd_compile T i with
            | None => (e, Ok false)
            | Some _ =>
                match cd_compile_none T i with
                | Ok b => (set_data (Raw b) e, Ok true)
                | Err x => (e, Err x)
                end
            end
        end
    end.

  (** vfb/entry.py 207-231 [VfbEntry.decompile]; the bool says whether
      [vfb.any_errors] is set to True *)
  Definition entry_decompile (c : ctx) (e : entry D) : entry D * bool * res unit :=
    match e_id e with
    | None => (e, false, Err ValueError)
    | Some i =>
        match e_data e with
        | NoData => (e, false, Err ValueError)
        | Dec _ => (e, false, Ok tt)
        | Raw b =>
            match cd_parse T i c b with
            | Ok d => (set_data (Dec d) e, false, Ok tt)
            | Err x => (e, true, Err x)
            end
        end
    end.

  (** vfb/entry.py 151-165 [_read_entry] and 250-263 [VfbEntry.read] on the
      fresh entry of vfb/vfb.py 245 *)
  Definition read_entry (c : ctx) : rd (entry D) :=
    raw_id <- read_uint16 ;;
    let i := Z.land raw_id (Z.lnot 0x8000) in
    size <- (if Z.land raw_id 0x8000 =? 0 then read_uint16 else read_uint32) ;;
    let size := if i =? F_MMKernPair then 2 * 4 + num_masters c * 2 else size in
    b <- read_bytes size ;;
    ret (mkEntry (Some i) (Raw b) None).
End Entry.

(** ** The Vfb object *)

(** vfb/vfb.py 87, 262-264 *)
Inductive encoding := Utf8 | Cp1252.

(** vfb/vfb.py 70-112. The glyph access fields ([_glyphs], [glyph_order],
    [ps_hinting_options]) are in M_GlyphAccess.v. *)
Record vfb (D : Type) := mkVfb {
  v_header : hdata;
  v_entries : list (entry D);
  v_ctx : ctx;
  v_encoding : encoding;
  v_any_errors : bool;
  v_drop : list Z;
  v_only_header : bool;
  v_force_unicode : bool }.
Arguments mkVfb {D}.
Arguments v_header {D}.
Arguments v_entries {D}.
Arguments v_ctx {D}.
Arguments v_encoding {D}.
Arguments v_any_errors {D}.
Arguments v_drop {D}.
Arguments v_only_header {D}.
Arguments v_force_unicode {D}.

Section Vfb.
  Context {D : Type} (T : codecs D).

  (** vfb/vfb.py 70-112 [Vfb(drop_keys=..., only_header=..., unicode_strings=...)] *)
  Definition new_vfb (dropk : list Z) (only : bool) (uni : bool) : vfb D :=
    mkVfb HNone [] (mkCtx 0 0 0 MacOS) Utf8 false dropk only uni.

  Definition with_header h (v : vfb D) :=
    mkVfb h (v_entries v) (v_ctx v) (v_encoding v) (v_any_errors v) (v_drop v)
          (v_only_header v) (v_force_unicode v).
  Definition with_entries (es : list (entry D)) (v : vfb D) :=
    mkVfb (v_header v) es (v_ctx v) (v_encoding v) (v_any_errors v) (v_drop v)
          (v_only_header v) (v_force_unicode v).
  Definition with_ctx c (v : vfb D) :=
    mkVfb (v_header v) (v_entries v) c (v_encoding v) (v_any_errors v) (v_drop v)
          (v_only_header v) (v_force_unicode v).
  Definition with_encoding x (v : vfb D) :=
    mkVfb (v_header v) (v_entries v) (v_ctx v) x (v_any_errors v) (v_drop v)
          (v_only_header v) (v_force_unicode v).
  Definition with_errors x (v : vfb D) :=
    mkVfb (v_header v) (v_entries v) (v_ctx v) (v_encoding v) x (v_drop v)
          (v_only_header v) (v_force_unicode v).

  (** vfb/vfb.py 135-140 [clear] *)
  Definition vfb_clear (v : vfb D) : vfb D := with_entries [] (with_header HNone v).

  Definition set_num_masters n c :=
    mkCtx n (ttStemsV_count c) (ttStemsH_count c) (writer_platform c).
  Definition set_stems (p : Z * Z) c :=
    mkCtx (num_masters c) (fst p) (snd p) (writer_platform c).
  Definition set_platform p c :=
    mkCtx (num_masters c) (ttStemsV_count c) (ttStemsH_count c) p.

  (** vfb/vfb.py 254-279: entries that are decompiled while reading, and what is
      remembered of them *)
  Definition is_eager (i : Z) : bool :=
    (i =? F_FLVersion) || (i =? F_MasterCount) || (i =? T_TrueTypeStems).

  Definition remember (i : Z) (d : D) (v : vfb D) : vfb D :=
    if i =? F_FLVersion then
      let p := cd_platform T d in
      with_encoding
        (if v_force_unicode v then Utf8
         else match p with MacOS => Utf8 | Windows => Cp1252 end)
        (with_ctx (set_platform p (v_ctx v)) v)
    else if i =? F_MasterCount then
      with_ctx (set_num_masters (cd_int T d) (v_ctx v)) v
    else
      with_ctx (set_stems (cd_stems T d) (v_ctx v)) v.

  Definition zmem (i : Z) (l : list Z) : bool := existsb (Z.eqb i) l.

  Definition append_entry (i : Z) (e : entry D) (v : vfb D) : vfb D :=
    if zmem i (v_drop v) then v else with_entries (v_entries v ++ [e]) v.

  (** vfb/vfb.py 243-285: the [while True] loop of [read_stream]. The state after
      an exception is that of the Vfb at that moment. [read_entry] raises no
      exception, so the [except EOFError] of line 247 is never taken. *)
  Fixpoint read_loop (fuel : nat) (v : vfb D) (s : bytes) : vfb D * out unit :=
    match fuel with
    | O => (v, RErr Diverge s)
    | S fuel =>
        match read_entry (v_ctx v) s with
        | RErr EOFError r => (v, ROk tt r)
        | RErr x r => (v, RErr x r)
        | ROk e r =>
            match e_id e with
            | None => (v, RErr TypeError r)
            | Some i =>
                if is_eager i then
                  let '(e', err, o) := entry_decompile T (v_ctx v) e in
                  match o, e_data e' with
                  | Err x, _ => (with_errors (v_any_errors v || err) v, RErr x r)
                  | Ok _, Dec d => read_loop fuel (append_entry i e' (remember i d v)) r
                  | Ok _, _ => read_loop fuel (append_entry i e' v) r
                  end
                else
                  let v' := append_entry i e v in
                  if i =? F_BlockFileDataEnd then (v', ROk tt r)
                  else read_loop fuel v' r
            end
        end
    end.

  (** vfb/vfb.py 231-292 [read_stream], 305-313 [read_bytes]. [read] (294-303) is
      [read_bytes] applied to the content of the file. *)
  Definition read_stream (fuel : nat) (v : vfb D) (file : bytes) : vfb D * out unit :=
    match parse_header file with
    | RErr x r => (with_header HNone v, RErr x r)
    | ROk h r =>
        let v := with_header (HDec h) v in
        if v_only_header v then (v, ROk tt r) else read_loop fuel v r
    end.
  Definition vfb_read_bytes (fuel : nat) (v : vfb D) (file : bytes) : vfb D * out unit :=
    read_stream fuel (vfb_clear v) file.

  (** vfb/vfb.py 147-148: [for e in self.entries: e.compile()] *)
  Fixpoint compile_entries (c : ctx) (es : list (entry D)) : list (entry D) * res unit :=
    match es with
    | [] => ([], Ok tt)
    | e :: es =>
        let '(e', o) := entry_compile T c e in
        match o with
        | Err x => (e' :: es, Err x)
        | Ok _ => let '(es', o') := compile_entries c es in (e' :: es', o')
        end
    end.

  (** vfb/vfb.py 142-148 [Vfb.compile] *)
  Definition vfb_compile (v : vfb D) : vfb D * res unit :=
    match header_compile (v_header v) with
    | Err x => (v, Err x)
    | Ok h =>
        let v := with_header h v in
        let '(es, o) := compile_entries (v_ctx v) (v_entries v) in
        (with_entries es v, o)
    end.

  (** vfb/vfb.py 211-215, the loop of [Vfb.decompile] *)
  Fixpoint decompile_entries (c : ctx) (dropk : list Z) (es : list (entry D))
    : list (entry D) * bool * res unit :=
    match es with
    | [] => ([], false, Ok tt)
    | e :: es =>
        if match e_id e with Some i => zmem i dropk | None => false end then
          let '(es', err, o) := decompile_entries c dropk es in (e :: es', err, o)
        else
          let '(e', err, o) := entry_decompile T c e in
          match o with
          | Err x => (e' :: es, err, Err x)
          | Ok _ =>
              let '(es', err', o') := decompile_entries c dropk es in
              (e' :: es', err || err', o')
          end
    end.

  (** vfb/vfb.py 204-219 [Vfb.decompile] *)
  Definition vfb_decompile (v : vfb D) : vfb D * res unit :=
    let v := with_errors false v in
    match header_decompile (v_header v) with
    | Err x => (v, Err x)
    | Ok h =>
        let v := with_header h v in
        let '(es, err, o) := decompile_entries (v_ctx v) (v_drop v) (v_entries v) in
        (with_errors err (with_entries es v), o)
    end.

  (** vfb/vfb.py 337-342, the entries part of [write_bytes]: the bytes that reach
      the buffer, also when an exception is raised *)
  Fixpoint write_entries (es : list (entry D)) : list (entry D) * bytes * res unit :=
    match es with
    | [] => ([], [], Ok tt)
    | e :: es =>
        let '(e', oh) := entry_header e in
        match oh with
        | Err x => (e' :: es, [], Err x)
        | Ok h =>
            match e_data e' with
            | Dec _ => (e' :: es, h, Err AssertionError)
            | NoData =>
                let '(es', b, o) := write_entries es in (e' :: es', h ++ b, o)
            | Raw d =>
                let '(es', b, o) := write_entries es in (e' :: es', h ++ d ++ b, o)
            end
        end
    end.

  (** vfb/vfb.py 322-342 [write_bytes]: new state, bytes that reached the buffer,
      outcome *)
  Definition vfb_write_bytes (v : vfb D) : vfb D * bytes * res unit :=
    let '(v, o) := vfb_compile v in
    match o with
    | Err x => (v, [], Err x)
    | Ok _ =>
        match v_header v with
        | HRaw h =>
            let '(es, b, o) := write_entries (v_entries v) in
            (with_entries es v, h ++ b, o)
        | _ => (v, [], Err AssertionError)
        end
    end.

  (** vfb/vfb.py 315-320 [Vfb.write(out_path)]: [open(out_path, "wb")] empties
      the file before anything is compiled. The second component is the content of
      the file afterwards, [old] its content before. *)
  Definition vfb_write_file (v : vfb D) (old : bytes) : vfb D * bytes * res unit :=
    vfb_write_bytes v.
End Vfb.
