# Formal model of vfbLib: design

## 1. Approach

vfbLib is a codec library: a VFB file is a header and a sequence of entries, each
entry has a parser (bytes -> Python value) and a compiler (Python value -> bytes).
On top of it are glyph objects, pens and a converter to UFO data.

The model is a *shallow embedding*: each Python function is a total Gallina
function, branch by branch.

* bytes = `list Z` with members 0..255; `str` = list of code points (`list Z`);
  Python `int` = `Z`.
* A parser is a stream function `list Z -> res (A * list Z)`; `res` is `Ok`/`Err` with
  one constructor per Python exception that the code can raise.
  Python's `stream.read(n)` returns *up to* n bytes (all if n is negative),
  and the model does the same: short reads are not errors.
* A compiler is a function into `res (list Z)`.
* `while True` loops take explicit fuel and yield the pseudo exception `Diverge` when it
  runs out. A termination theorem says that a fuel computed from the input suffices; a
  non-termination finding says that *every* fuel runs out.
* Python dicts with fixed keys are records; `NotRequired` keys are `option`; dicts
  with data keys are association lists in insertion order. Mutation is an update of the
  record or list; where two names share one Python object, the model says so.
* Exceptions are values, so "fails atomically" can be stated.
* Floating point: doubles stored with `struct.pack("d")` are 64-bit patterns. Scaled
  values (`v / 10000`) are binary64 arithmetic: `SpecFloat` of the standard library in the
  model, Flocq in the proofs.

Layers (files in `rocq/theories`):

| layer | content |
|---|---|
| Base, M_*.v | the model: definitions only, each citing file and lines, and saying where it simplifies |
| S_*.v | small independent specifications used in the statements |
| Lib, P_*.v | proofs |
| Prop_*.v | the property theorems, with `Print Assumptions` and examples that meet the hypotheses |

## 2. Trusted base

* Coq 8.16.1's kernel, including its `vm_compute` reduction.
* The axioms printed by `Print Assumptions`. All theorems are "Closed under the global
  context" except those marked † in section 5, whose proofs use Flocq and with it the real
  numbers of the standard library. These depend on (all of the standard library)
  `ClassicalDedekindReals.sig_not_dec`, `ClassicalDedekindReals.sig_forall_dec`,
  `FunctionalExtensionality.functional_extensionality_dep` and `Classical_Prop.classic`.
  No axiom is added.
* The reading of the Python code: the model is hand-written from the text of /repo.
  Every definition cites the lines it models.
* Python's own semantics as transcribed in Base.v, M_Py.v, M_Text.v, M_Float.v and where used:
  `int.from_bytes`, `int.to_bytes`, `struct`, `BytesIO.read`, `dict` order, `list` indexing and slices,
  `str.splitlines`, `strip`, `split`, `startswith`, `str(int)`, `%` formats, `round`, the tables of the
  cp1252, Mac Roman and other codecs, `datetime` calendar arithmetic, the regular expressions, which are
  written out as functions.
* Oracles, which are arguments of the model and visible in the statements that use them: `math.tan`
  and `math.atan2` (italic angle), `str.upper`, the text of a float in orjson's dumps (the rest of dumps is in M_Json), fontTools' TrueType assembler and disassembler, `round(x, 15)` of the
  scales of components, the contents of the UFO font object, fontTools' cu2qu conversion of one glyph (C93), the XML parser and
  the decoding of UTF-8 in front of it (C94).

## 3. What is modelled

| file | code |
|---|---|
| Base, M_Py | Python notions: exceptions, streams, integers as bytes, dicts, lists, text formats |
| M_Stream, M_Text | parsers/value.py, compilers/value.py, parsers/base.py and compilers/base.py (stream layer, strings), parsers/text.py, compilers/text.py |
| M_Helpers | helpers.py |
| M_Simple | small entry codecs: parsers/ and compilers/ base.py, numeric.py, cmap.py, mm.py, fl3.py, ps.py, pclt.py, options |
| M_Bitmap | parsers/bitmap.py, compilers/bitmap.py |
| M_Glyph | parsers/glyph.py, parsers/guides.py, compilers/glyph.py, compilers/guides.py, truetype.py |
| M_Options, M_Float | entries with scaled numbers, binary64 |
| M_TrueType | parsers/truetype.py, compilers/truetype.py |
| M_Container | parsers/header.py, compilers/header.py, vfb/header.py, vfb/entry.py, vfb/vfb.py |
| M_Table | constants.py: the table of entry types |
| M_Encoding | the choice of text encodings |
| M_GlyphAccess | vfb/vfb.py access by name, vfb/glyph.py, templates/glyph.py |
| M_Pens | vfb/glyph.py drawing, vfb/pens.py, merging of masters |
| M_Len | vfb/glyph.py: number of contours, pens |
| M_Groups, M_Features | ufo/groups.py, ufo/kerning.py, ufo/features.py and their callers in ufo/builder.py |
| M_Info | ufo/time.py, ufo/info.py |
| M_Labels, M_PsHints, M_Paths | ufo/glyph.py, ufo/pshints.py, ufo/paths.py, links and hints of vfb/glyph.py |
| M_Tth, M_TthExtract | TrueType hinting in ufo/builder.py, ufo/tth.py, tth.py |
| M_Builder | ufo/builder.py: collection of glyphs and masters |
| M_Guides | ufo/guides.py, guides in ufo/builder.py and ufo/paths.py |
| M_Designspace | ufo/designspace.py, the designspace and the file names in ufo/builder.py |
| M_Master | ufo/builder.py: glyphs, metrics, anchors and font info of one master |
| M_Programs | ufo/instructions.py, control values, options and bitmaps in ufo/builder.py |
| M_FontInfo, M_Classes | ufo/info.py and the cases of ufo/builder.py for the font info; glyph classes |
| M_Export | ufo/builder.py: passes over all glyphs for all masters |
| M_Build | ufo/builder.py: the loop over all entries, with all its cases |
| M_Ufo | ufo/builder.py: get_ufo_masters and get_ufo_master, from the font to the UFOs; ufo/paths.py: build |
| M_Cu2qu | cu2qu.py and the access to masters, vfb/vfb.py VfbMaster |
| M_Document | ufo/builder.py: get_ufos_designspace, from the font to the UFOs and the document |
| M_HintsV1 | ufo/pshints.py: the update of Adobe hinting data |
| M_Json | json.py: save_vfb_json; the Python values that the parsers make of entries, and the text that orjson writes of them |
| M_Diff | diff.py without --html |
| M_TthFile | tth.py: vfb2tth for the format json |
| M_Vfb2ufo | cmdline.py: vfb2ufo, from the arguments and the files to the files |
| M_Hash | ufo/builder.py 810-821: what the ids of TrueType instructions are made from |
| M_Tools | value.py, json.py, the output of cmdline.py and cu2qu.py, as_dict, vfb/info.py |

Proof methods: round trips by combinators over stream functions (`wrt`, `rfix` in P_Stream, P_Loop) and
induction over lists; entry sequences and operation histories by invariants; loops by fuel bounds;
finite tables by computation inside a theorem that quantifies over all inputs; exports by invariants over
folds and by showing the fold equal to a closed form from the specification; refutations by witnesses.

## 4. Not modelled

Logging, timing prints, command line parsing, file system effects other than which file gets which
content (C56, C76, C77; no symbolic links, no directories), the curve conversion itself in cu2qu.py (a call into fontTools with floating point; C93 holds for every conversion), the writing of UFO
files by ufoLib2 and their normalisation by ufonormalizer, the texts and hashes that fontTools' HashPointPen makes of what it draws (M_Hash has what it draws),
the formats toml and yaml of vfb2tth (libraries write them; the JSON of the same dict is modelled),
the option --html of diff.py (it gives the library HtmlDiff the characters of a printed list in place of lines).


## 5. Properties, theorems and findings

One section per property: what is modelled, the theorems, what they say and what is missing. "proved"
means the full statement; "partial" means that a part is missing or that the code does not have the
property, in which case a theorem with the suffix `_refuted` exhibits it and the other theorems say what
the code does instead, for all inputs.


### C01 Encoded integers round-trip (proved)

Whatever integer is written with write_value and can be represented, read_value with the same signedness gives the same integer back, consumes exactly the bytes that were written and leaves every following byte unread. This also holds for the long form (shortest=False).

* Model: M_Stream. Specification: S_Stream.
* Theorems (Prop_Stream): `C01_value_roundtrip`, `C01_value_long_roundtrip`.
* Encoded integers, short and long form.

### C02 Encoded integers: out-of-range values are rejected, never truncated; the short forms are minimal and prefix-free (proved)

write_value either writes bytes that decode to the value or raises struct.error and writes nothing; it raises exactly for integers outside the range of the chosen signedness. The encoding chosen is the shortest one that read_value decodes to that value, and no encoding is a proper prefix of another.

* Model: M_Stream. Specification: S_Stream.
* Theorems (Prop_Stream): `C02_value_rejects`, `C02_value_prefix_free`, `C02_value_shortest`.
* Shortest among the complete encodings.

### C03 Decoding an encoded integer is total and has a fixed error discipline (proved)

For every byte string, read_value either returns an integer in [-2^31, 2^32) after consuming 1, 2 or 5 bytes (fewer at the end of the data), or raises EOFError (exactly when the next byte is 0 or there is none) or ValueError (exactly when the next byte is 1..31). No other exception, no non-termination.

* Model: M_Stream. Specification: S_Stream.
* Theorems (Prop_Stream): `C03_value_total`.
* Exhaustive case description by the next byte.

### C04 Truncated encoded integers are noticed (partial)

If the last byte(s) of an encoded integer are cut off, reading it raises an error instead of returning a different number.

* Model: M_Stream. Specification: S_Stream.
* Theorems (Prop_Stream): `C04_truncation_noticed_refuted`, `C04_truncation_never_noticed`.
* Refuted: the code violates the property; the exact behaviour is proved (no truncation that leaves a byte is noticed).

### C05 Fixed-width integers round-trip and reject out-of-range values (proved)

write_int8/16/32 and write_uint8/16/32 followed by the matching read give the same integer and leave the rest of the stream untouched; they raise OverflowError exactly when the value does not fit and write nothing then.

* Model: M_Stream. Specification: S_Stream.
* Theorems (Prop_Stream): `C05_fixed_width`.
* Six widths.

### C06 cp1252 and length-prefixed strings round-trip (proved)

A string that can be encoded in cp1252 and is written with write_str_with_len is read back unchanged by read_str_with_len, with the following bytes left unread; strings with other characters raise UnicodeEncodeError and nothing is written. Decoding then encoding any decodable bytes gives the same bytes.

* Model: M_Stream, M_Text. Specification: S_Text.
* Theorems (Prop_Text): `C06_str_with_len_roundtrip`, `C06_unencodable_rejected`, `C06_codec`, `C06_decode_encode`.
* All Unicode strings; the code page is specified separately in S_Text.v.

### C07 Bit list helpers are inverse (proved)

binaryToIntList(intListToBinary(l)) is the sorted list l for any list of distinct non-negative bit numbers, and intListToBinary(binaryToIntList(v)) = v for any non-negative v; a start offset shifts the result.

* Model: M_Helpers. Specification: S_Bits.
* Theorems (Prop_Bits): `C07_bits_of_number`, `C07_number_bits_number`, `C07_bits_number_bits`, `C07_start_offset`, `C07_duplicates_refuted`.
* The hypothesis of distinct bits is necessary (C07_duplicates_refuted).

### C08 Bit list conversion terminates (partial)

binaryToIntList returns for every integer it is given.

* Model: M_Helpers, M_Info, M_Text, M_TrueType. Specification: S_Bits, S_Info.
* Theorems (Prop_Bits, Prop_Info): `C08_terminates_nonneg`, `C08_terminates_refuted`, `C55_negative_refuted`.
* Refuted for every negative number (infinite loop), reachable from a VFB whose os2_fs_type is negative; termination proved for all non-negative numbers.

### C09 Entry framing round-trips (proved)

The header and data of an entry, written one after the other, are read back as an entry with the same id and the same data, and the stream is positioned at the first byte after it. Ids are 15 bit; data may be any length below 2^32 (switching to the long size form above 65535). The data of an MM Kern Pair entry must have the size that follows from the number of masters, which is what the reader goes by. An entry without data is written like one of no bytes.

* Model: M_Container, M_Stream. Specification: S_File.
* Theorems (Prop_Container, Prop_Keeps): `C09_frame_written`, `C09_frame_read`, `C09_unframable`, `C09_no_data`.
* Holds for every id below 2^15 and every size below 2^32; C09_mmkern_size_refuted shows why MM Kern Pair entries need the size that follows from the master count.

### C10 Writing a Vfb and reading it back gives the same Vfb (proved)

For a Vfb whose entries all hold compiled data and whose only BlockFileDataEnd entry is the last one, reading the output of write_bytes with a fresh Vfb gives the same header fields and the same sequence of (id, data) entries, except that the three entries that are decompiled while reading (FL Version, Master Count, TrueType Stems) hold their decompiled value, and it stops exactly at the end of the output.

* Model: M_Container, M_Stream. Specification: S_File.
* Theorems (Prop_Container): `C10_write_then_read`.
* For every parser/compiler table; reads_as (S_File.v) says what a lazy read makes of the entries.

### C11 Reading a file and writing it unchanged is byte-identical (proved)

If a VFB file has the canonical 44 byte header and canonical size forms, and its FL Version, Master Count and TrueType Stems entries are in the form the compilers write, then read_bytes followed by write_bytes gives the same bytes; unknown entries and undecoded data are passed through verbatim.

* Model: M_Container, M_Stream. Specification: S_File.
* Theorems (Prop_Container): `C11_read_then_write`.
* For every parser/compiler table; recompiles (S_File.v) is the canonical-form condition on the three eagerly decompiled entries.

### C12 Reading a stream terminates (partial)

read_stream returns or raises for every byte stream.

* Model: M_Container, M_Stream. Specification: S_File.
* Theorems (Prop_Container): `C12_read_terminates_refuted`, `C12_no_end_marker_diverges`, `C12_terminates_partial`.
* False of the code: at the end of the data read_uint16 gives 0 instead of EOFError, so a file without the end marker is read forever. Proved: this is the only way to loop, all other reads end within one turn per byte.

### C13 File header codec (proved)

Compiling a header dict and parsing it gives the same dict; parsing accepts exactly the FontLab 3+ signature and version bytes and raises AssertionError otherwise; the compiled header is always 44 bytes and its data offset field says so.

* Model: M_Container, M_Stream. Specification: S_File.
* Theorems (Prop_Container): `C13_header_roundtrip`, `C13_accepts`.
* 

### C14 The header of an entry always describes its current data (partial)

Whatever sequence of data assignments, id assignments, compile, decompile and header accesses is performed on an entry, its header states the current id and the length of the current compiled data, so a file can be written, edited and written again.

* Model: M_Container, M_Stream. Specification: S_File.
* Theorems (Prop_Container): `C14_header_current_refuted`, `C14_write_edit_write_refuted`, `C14_header_first_access`, `C14_header_frozen`.
* False of the code: header is a cached_property. Proved: correct on first access after any history, and frozen from then on.

### C15 decompile and compile are idempotent and fail atomically (proved)

Calling decompile (compile) twice has the same effect as once. If the parser or compiler raises, the entry's data is unchanged and the parser error is recorded in any_errors; entries of other kinds are not touched. Reading, decompiling, compiling and writing never change the options the font was opened with; decompiling, compiling and writing keep the number, order and ids of the entries and what is known of the font, also when they fail.

* Model: M_Container, M_Stream. Specification: S_File.
* Theorems (Prop_Container, Prop_Keeps): `C15_decompile_idempotent`, `C15_decompile_atomic`, `C15_compile_idempotent`, `C15_compile_atomic`, `C15_vfb_decompile_atomic`, `C15_vfb_decompile_idempotent`, `C15_decompile_keeps`, `C15_compile_keeps`, `C15_write_keeps`, `C15_read_keeps`, `C15_read_records`.
* 

### C16 Decompile, compile, write gives an equivalent file (proved)

Decompiling all entries of a Vfb and writing it yields a file that, read and decompiled again, gives the same decompiled entries.

* Model: M_Bitmap, M_Container, M_Float, M_Glyph, M_Options, M_Simple, M_Stream, M_Table, M_Text, M_TrueType. Specification: S_Entry, S_File, S_Glyph, S_Options, S_Table, S_Text, S_TrueType.
* Theorems (Prop_File): `C16_vfb`, `C16_file`†, `C16_faithful_file`†.
* For every file that is read and decompiled without an exception and whose entries are in the writable domain (can_be_written: no condition for 121 types) and fit the 32 bit size field. 'The same' is equality, up to the order of dicts and missing optional parts of glyphs.

### C17 Entries of unknown type can be written back (partial)

An entry whose id is not in the table is kept: reading and writing the file, with or without decompiling, keeps its id and data.

* Model: M_Bitmap, M_Container, M_Float, M_Glyph, M_Options, M_Simple, M_Stream, M_Table, M_Text, M_TrueType. Specification: S_Entry, S_File, S_Glyph, S_Options, S_Table, S_Text, S_TrueType.
* Theorems (Prop_File, Prop_Container): `C17_unknown`, `C17_unknown_refuted`, `C17_decompiled_unknown_refuted`, `C11_read_then_write`, `C10_write_then_read`.
* Without decompiling, unknown entries are kept (C10, C11 hold for every id). After decompile() the file cannot be written, whatever else it contains: an exception (RuntimeError).

### C18 drop_keys removes exactly the requested entries (proved)

Reading with drop_keys gives the entries of a plain read with exactly the entries of those ids removed, in the same order and with the same data; the values derived from the dropped entries (platform, master count, stem counts) are the same as in a plain read.

* Model: M_Container, M_Stream. Specification: S_File.
* Theorems (Prop_Container): `C18_drop_keys`.
* 

### C19 Value list entries round-trip (partial)

EncodedValueList, EncodedValueListWithCount, Links, Glyph Sketch, VDMX, anisotropic interpolation maps, anchors, anchor properties, kerning and metrics class flags, mask metrics: compiling a value and parsing the bytes gives the same value and consumes all bytes.

* Model: M_Helpers, M_Simple, M_Stream, M_Text, M_TrueType, M_Glyph. Specification: S_Bits, S_Entry, S_Text, S_TrueType, S_Glyph, S_Stream.
* Theorems (Prop_Simple, Prop_TrueType, Prop_Glyph): `C19_values`, `C19_counted`, `C19_anisotropic`, `C19_class_flags`, `C19_class_flags_refuted`, `C19_vdmx`, `C19_anchors`, `C19_anchor_props`, `C19_anchor_props_refuted`, `C19_links`, `C19_sketch`, `C19_mask_metrics`, `C19_mask_metrics_mm`.
* All listed entries are proved for the full range of their format; class flags and anchor properties of 2^31 and more are written unsigned and read signed (refuted).

### C20 Fixed layout numeric entries round-trip (partial)

Int16, SignedInt16, SignedInt32, IntList, double, double list, PANOSE, glyph origin, glyph unicodes (BMP and non-BMP), gasp, axis mappings, master location, master kern pair and PostScript info: compiling then parsing gives the same value; parsing then compiling any accepted data gives the same bytes.

* Model: M_Helpers, M_Simple, M_Stream, M_Text, M_TrueType, M_Glyph, M_Bitmap, M_Container, M_Float, M_Options, M_Table. Specification: S_Bits, S_Entry, S_Text, S_TrueType, S_Glyph, S_Stream, S_File, S_Options, S_Table.
* Theorems (Prop_Simple, Prop_TrueType, Prop_Glyph, Prop_Table): `C20_int16`, `C20_sint16`, `C20_sint32`, `C20_double`, `C20_doubles`, `C20_int_list`, `C20_panose`, `C20_axis_counts`, `C20_axis_mappings`, `C20_master_location`, `C20_ps_info`, `C20_gasp`, `C20_gasp_tail_refuted`, `C20_gasp_odd`, `C20_short_entry_refuted`, `C20_kern_pair_refuted`, `C20_origin`, `C20_unicodes`, `C20_unicodes_non_bmp`, `C20_kern_pair_read`.
* Both directions proved for entries of the full length; entries that are too short are accepted and grow when written, two bytes after the last gasp pair are dropped, and the master kern pair compiler always fails (refuted; reading a master kern pair gives the stored values).

### C21 Unicode ranges, export options and hinting option bit fields round-trip (partial)

The bit list entries (Unicode ranges, export options, PostScript hinting options global and per glyph) survive compile then parse, and parse then compile gives the original bytes.

* Model: M_Helpers, M_Simple, M_Stream, M_Text. Specification: S_Bits, S_Entry, S_Text.
* Theorems (Prop_Simple): `C21_unicode_ranges`, `C21_unicode_ranges_refuted`, `C21_export_options`, `C21_export_options_survive`, `C21_export_options_refuted`, `C21_ps_global`, `C21_ps_glyph`.
* Proved for every subset and every field value except: Unicode ranges of more than 16 bytes and export option bits from 3 on are read but cannot be compiled (refuted).

### C22 Run-length encoding of bitmaps is lossless (proved)

The bytes written for a bitmap decode to exactly the original pixels, in rows of the same width; each chunk written fits a signed 8-bit specifier and the byte count that precedes the data is exact.

* Model: M_Bitmap, M_Helpers, M_Simple, M_Stream, M_Text. Specification: S_Bitmap, S_Bits, S_Entry, S_Stream, S_Text.
* Theorems (Prop_Bitmap): `C22_rle_written`, `C22_rle_unique`, `C22_rle_read`, `C22_rows_roundtrip`.
* Bitmaps of less than 2^30 bytes; the written bytes are characterised by the independent relation rle.

### C23 Bitmap entries round-trip on both platforms (partial)

A background image or list of glyph bitmaps that was parsed can be compiled again, and compiles to data that parses to the same value, whatever the writer platform of the file is.

* Model: M_Bitmap, M_Helpers, M_Simple, M_Stream, M_Text. Specification: S_Bitmap, S_Bits, S_Entry, S_Stream, S_Text.
* Theorems (Prop_Bitmap): `C23_background_macos`, `C23_glyph_bitmaps_macos`, `C23_background_windows_refuted`, `C23_glyph_bitmaps_windows_refuted`.
* Proved for macOS files. False for Windows files: the compiler inverts with ~b - 0x100, so every bitmap with at least one pixel byte raises.

### C24 Bitmap parsing never reads past the declared length and terminates (proved)

For any data, reading a run-length encoded bitmap consumes at most the declared number of bytes, terminates, and never loops or reads following fields as pixel data.

* Model: M_Bitmap, M_Helpers, M_Simple, M_Stream, M_Text. Specification: S_Bitmap, S_Bits, S_Entry, S_Stream, S_Text.
* Theorems (Prop_Bitmap): `C24_reads_declared_length`, `C24_terminates`.
* For all byte strings, declared lengths and platforms.

### C25 Glyph outlines round-trip in every master (proved)

Compiling nodes and parsing the result gives the same nodes: types, flags, and absolute coordinates of every point in every master; the stored value count is as documented.

* Model: M_Glyph, M_Helpers, M_Simple, M_Stream, M_Text. Specification: S_Bits, S_Entry, S_Glyph, S_Stream, S_Text.
* Theorems (Prop_Glyph): `C25_outlines`, `C25_global_mask`, `C25_value_count`, `C25_no_masters_refuted`.
* For every number of masters from 1, every list of nodes whose value count fits the format.

### C26 Glyph entries round-trip (partial)

Compiling a glyph dict (name, outlines, metrics, hints and hint masks, guides, components, kerning, imported binary data, TrueType hinting) and parsing it gives the same dict, up to the documented omission of empty optional parts.

* Model: M_Glyph, M_Helpers, M_Simple, M_Stream, M_Text. Specification: S_Bits, S_Entry, S_Glyph, S_Stream, S_Text.
* Theorems (Prop_Glyph): `C26_glyph`, `C26_glyph_exact`, `C26_nameless_guides_refuted`, `C26_guide_masters_refuted`, `C26_masters_required`.
* All parts proved for every glyph with at least one master. Missing: angles of guides come back exactly only if the slope stored for them gives them back (tan and atan2 are parameters of the theorem; C109 says when it does for accurate functions). A glyph with guides needs a name and the file's number of masters; otherwise what is written cannot be read (refuted).

### C27 Glyph parsing terminates and rejects unknown sections (proved)

For every byte string, the glyph parser returns a value or raises; it never loops.

* Model: M_Glyph, M_Helpers, M_Simple, M_Stream, M_Text. Specification: S_Bits, S_Entry, S_Glyph, S_Stream, S_Text.
* Theorems (Prop_Glyph): `C27_terminates`, `C27_unknown_section`, `C27_truncated`.
* Termination assumes in the statement that fontTools' disassembler stops.

### C28 TrueType hinting commands round-trip (proved)

Every list of visual TrueType hinting commands with the parameters each command requires is compiled and parsed back unchanged.

* Model: M_Glyph, M_Helpers, M_Simple, M_Stream, M_Text. Specification: S_Bits, S_Entry, S_Glyph, S_Stream, S_Text.
* Theorems (Prop_Glyph): `C28_instructions`, `C28_order`, `C28_required`.
* Parameters are a dict: their order is not kept.

### C29 TrueType stems, PPEMs, zones and zone deltas round-trip (proved)

The TrueType Stems, Stem PPEMs (all three entry kinds), Zones and Zone Deltas entries survive compile then parse; zone deltas as a mapping zone -> ppm -> shift.

* Model: M_Helpers, M_Simple, M_Stream, M_Text, M_TrueType. Specification: S_Bits, S_Entry, S_Text, S_TrueType.
* Theorems (Prop_TrueType): `C29_stems`, `C29_stem_ppems`, `C29_stem_ppems23`, `C29_stem_ppems1`, `C29_zones`, `C29_zone_deltas`, `C29_zone_deltas_canonical`, `C29_reparse`, `C29_zone_deltas_reparse`, `C29_long_stem_name`, `C29_zone_deltas_order`.
* Proved for all lists and mappings in range. Stem names are limited to 255 bytes (longer ones are refused); a zone without deltas is not stored; a missing zone side is read as an empty one.

### C30 TrueType info round-trips (proved)

A TrueType info dict with all required keys survives compile then parse, including head flags and options.

* Model: M_Helpers, M_Simple, M_Stream, M_Text, M_TrueType. Specification: S_Bits, S_Entry, S_Text, S_TrueType.
* Theorems (Prop_TrueType): `C30_tt_info`, `C30_required`, `C30_unknown_options_refuted`, `C30_hhea_keys_refuted`, `C30_stored`, `C30_marks`.
* Proved for all dicts with the required names, any subset of the optional ones and the three known options. The two _refuted theorems are about data outside that domain: option bits above the three known ones are lost, and the hhea keys of the table of names are not read.

### C31 TrueType info parsing terminates (partial)

Parsing a TrueType info entry returns or raises for every byte string.

* Model: M_Helpers, M_Simple, M_Stream, M_Text, M_TrueType. Specification: S_Bits, S_Entry, S_Text, S_TrueType.
* Theorems (Prop_TrueType): `C31_diverges_iff`, `C31_terminates_refuted`, `C31_truncated_refuted`, `C31_no_marker`, `C31_negative_flags_refuted`.
* The property is false of the code: the parser runs forever on an empty entry, on every compiled entry without its last byte, and on negative head flags. C31_diverges_iff says the model's verdict is exact.

### C32 Entry parsers terminate on all input (partial)

Every entry parser returns or raises for every byte string, within a number of steps linear in the input plus the counts that occur in it.

* Model: M_Bitmap, M_Container, M_Float, M_Glyph, M_Options, M_Simple, M_Stream, M_Table, M_Text, M_TrueType. Specification: S_Entry, S_File, S_Glyph, S_Options, S_Table, S_Text, S_TrueType.
* Theorems (Prop_Table): `C32_entries_terminate`, `C32_ttinfo_refuted`.
* Every entry type but TrueType info (1264), which loops for ever at the end of the data. The linear bound on the number of steps is not modelled; that the result is in proportion to the data is C107. The fontTools disassembler is assumed to terminate.

### C33 Name records round-trip (proved)

Name records with any text survive compile then parse; Mac Roman records as long as their characters are in Mac Roman. The characters of a record are those that its numbers stand for: in Mac OS Roman for platform 1 with encoding 0, else in Unicode; U+FEFF stands for a number that is no character.

* Model: M_Stream, M_Text. Specification: S_Text, S_Entry, S_MacRoman, S_Stream.
* Theorems (Prop_Text, Prop_Names): `C33_name_records_roundtrip`, `C33_name_records_unchanged`, `C33_mac_code_refuted`, `C33_characters`.
* Round trip for all record lists; separately, the parser does not accept Mac Roman codes above 255 (OverflowError). C33_characters: which characters the numbers of a record stand for, with Mac OS Roman written down independently in S_MacRoman.v.

### C34 Feature code text is normalised once and for all (partial)

Parsing OpenType feature text, compiling it and parsing again gives the same lines; no non-blank line is lost, changed or reordered, there are never more than two consecutive blank lines, and the parser accepts every text.

* Model: M_Stream, M_Text. Specification: S_Text.
* Theorems (Prop_Text): `C34_normalised_once`, `C34_nonblank_kept`, `C34_two_blank_lines`, `C34_accepts_iff`, `C34_only_error`, `C34_two_blank_lines_refuted`, `C34_accepts_refuted`.
* Idempotence and preservation proved; 'accepts every text' is refuted and the rejected texts characterised exactly; 'at most two blank lines' holds except for the final empty line.

### C35 Text entries round-trip (proved)

String entries survive compile then parse when they do not start or end with NUL; parse then compile keeps the bytes up to leading/trailing NULs; vendor ids are padded to four bytes.

* Model: M_Stream, M_Text. Specification: S_Text.
* Theorems (Prop_Text): `C35_string_roundtrip`, `C35_string_bytes_kept`, `C35_vendor_id`.
* All cp1252 strings.

### C36 The string encoding chosen for the file is used (partial)

Strings of a file written on macOS (or read with unicode_strings=True) are decoded as UTF-8, others as cp1252.

* Model: M_Container, M_Encoding, M_Glyph, M_Table, M_Text. Specification: S_Encoding, S_Text.
* Theorems (Prop_Encoding): `C36_asked`, `C36_used`, `C36_cp1252`, `C36_ascii`, `C36_utf8_refuted`, `C36_written_refuted`.
* The Vfb asks for the right encoding, but every parser and compiler uses cp1252, since the instance attribute hides the class attribute that is set: strings in cp1252 are read right on all platforms, and every string in UTF-8 with a character outside ASCII is read wrong (refuted for all such strings and all 37 string entry types).

### C37 Guides and guide properties round-trip (proved)

Global and glyph guides survive compile then parse as far as positions and structure are concerned; guide properties (index, colour, name) survive completely. A colour that is none raises ValueError.

* Model: M_Glyph, M_Helpers, M_Simple, M_Stream, M_Text, M_Guides. Specification: S_Bits, S_Entry, S_Glyph, S_Stream, S_Text.
* Theorems (Prop_Glyph, Prop_Color): `C37_guides`, `C37_positions`, `C37_guides_exact`, `C37_guide_props`, `C37_color_refuted`, `C37_index_zero_refuted`, `C37_bad_color`.
* Angles are exact when the slope stored for them gives them back. Outside of the property: stored colours above 0xFFFFFF and guides with index 0.

### C38 FL Version, mapping mode, custom cmaps, PCLT and binary tables round-trip (partial)

These small structured entries survive compile then parse.

* Model: M_Helpers, M_Simple, M_Stream, M_Text. Specification: S_Bits, S_Entry, S_Text.
* Theorems (Prop_Simple): `C38_fl_version`, `C38_mapping_mode`, `C38_custom_cmaps`, `C38_binary_table`, `C38_pclt`, `C38_pclt_short_names`, `C38_pclt_refuted`, `C38_mapping_mode_refuted`.
* Proved for all values the formats can hold; PCLT negative stroke weight and unknown mapping modes cannot be compiled (refuted), short PCLT names come back padded.

### C39 Font options round-trip (proved)

A font options dict (including the packed auto-hinting and kerning expansion flags) survives compile then parse.

* Model: M_Float, M_Glyph, M_Options, M_Simple, M_Stream, M_Text. Specification: S_Bits, S_Entry, S_Glyph, S_Options, S_Text.
* Theorems (Prop_Options): `C39_font_options`†, `C39_ratio_nearest`†, `C39_autohint_bits`, `C39_expand_kern_bits`, `C39_plain_integer_refuted`.
* Every options dict with known keys and the dict form of the packed fields; the bit of each flag is part of the statement. The integer form of the packed fields, which the type also allows, is refused (refuted). Uses the axioms of the standard library's real numbers (through Flocq).

### C40 Whatever a parser returns can be compiled (partial)

For every byte string that an entry's parser accepts, the entry's compiler accepts the parsed value, and what it writes parses to the same value.

* Model: M_Bitmap, M_Container, M_Float, M_Glyph, M_Options, M_Simple, M_Stream, M_Table, M_Text, M_TrueType, M_Helpers. Specification: S_Entry, S_File, S_Glyph, S_Options, S_Table, S_Text, S_TrueType, S_Bits, S_Stream.
* Theorems (Prop_Table, Prop_Simple, Prop_TrueType, Prop_Glyph, Prop_Options): `C40_table`†, `C40_table_domain`†, `C40_table_ids`, `C40_delicate_refuted`, `C40_simple`, `C29_reparse`, `C29_zone_deltas_reparse`, `C20_gasp`, `C19_vdmx`, `C40_class_flags_refuted`, `C20_kern_pair_refuted`, `C21_unicode_ranges_refuted`, `C21_export_options_refuted`, `C38_pclt_refuted`, `C38_mapping_mode_refuted`, `C30_required`, `C30_unknown_options_refuted`, `C19_links`, `C19_sketch`, `C41_reparse`, `C40_glyph`, `C40_glyph_refuted`, `C40_outlines`, `C40_anchors`, `C40_anchor_masters_refuted`, `C40_anchor_props_refuted`, `C40_mask_metrics_mm`, `C40_origin`, `C40_guides`, `C40_guide_props`, `C37_color_refuted`, `C40_font_options`†, `C40_font_options_refuted`, `C40_font_options_bits_refuted`.
* The table of all 144 entry types: without any condition for 121 of them (C40_table), under the stated conditions for the others (C40_table_domain); each of the other 22 has data for which the property is false (C40_delicate_refuted), except global guides, where that depends on the rounding of the angles (C109).

### C41 GDEF data round-trips (proved)

Glyph GDEF data (class, anchors, carets, OpenType classes) survives compile then parse, up to omission of empty parts.

* Model: M_Glyph, M_Helpers, M_Simple, M_Stream, M_Text. Specification: S_Bits, S_Entry, S_Glyph, S_Stream, S_Text.
* Theorems (Prop_Glyph, Prop_Gdef): `C41_gdef`, `C41_reparse`, `C41_extras`, `C41_anchor_extras_refuted`, `C41_negative_class`.
* The dict survives; the two extra values per anchor that the parser drops are written as -1 (C41_extras, with a reader of its own that keeps them).

### C42 Glyph access gives every glyph once, under a unique name, with its data (partial)

vfb.keys()/items()/[] list one glyph object per glyph entry, in file order, under pairwise distinct names; the first glyph with a name keeps that name; the glyph data is that of the entry.

* Model: M_Container, M_Glyph, M_GlyphAccess, M_Stream, M_Table, M_Text. Specification: S_GlyphAccess.
* Theorems (Prop_GlyphAccess): `C42_objects`, `C42_unique`, `C42_blank`, `C42_data_refuted`, `C42_retry_refuted`, `C42_reread_refuted`.
* Proved: one object per glyph entry, in file order, distinct names, its links and hinting options, no other entry changed; the rule that makes names unique, for all names. Refuted: the data of the glyph is replaced by a blank glyph on first access, so names are lost too; an access after a failed one gives a part of the glyphs; reading another file keeps the old glyphs.

### C43 Drawing a glyph emits well-formed contours with all points (partial)

draw and drawPoints emit every node of the glyph in order, with begin/end (moveTo/closePath) calls balanced.

* Model: M_Glyph, M_Paths, M_Pens, M_Text. Specification: S_Paths, S_Pens.
* Theorems (Prop_Pens): `C43_draw`, `C43_points`, `C43_direct`, `C43_last_refuted`, `C43_next_refuted`, `C43_stale_refuted`, `C43_direct_refuted`.
* draw gives the path of every contour and all components if the control points of quadratic curves are followed by the node where the curve ends; drawPoints gives all points balanced, on the first call. Refuted: draw drops the control points at the end of the last contour and draws those of an earlier one to the start of the next contour; drawPoints repeats the outlines of its first call after the glyph was changed; drawPointsDirect draws closed contours as open ones.

### C44 Merging masters only touches the merged master (proved)

GlyphCompiler.merge copies the points of master m of every node from the m-th source into master m of the target and changes nothing else; it rejects sources with different types or flags.

* Model: M_Glyph, M_Paths, M_Pens, M_Text. Specification: S_Paths, S_Pens.
* Theorems (Prop_Pens): `C44_merge`, `C44_succeeds`, `C44_rejects`, `C44_exceptions`, `C44_entry`, `C44_cleared`, `C44_longer_refuted`, `C44_atomic_refuted`, `C44_pen_refuted`.
* A successful merge changes exactly the values of the masters that have a source; sources of other types or flags and shorter ones are rejected. Beyond the statement: additional nodes of a source are ignored, a failed merge leaves changes behind, and a point pen for a master that was not cleared raises IndexError.

### C45 Kerning groups are disjoint per side (proved)

In the groups passed to the UFO, a glyph is member of at most one first-side and at most one second-side kerning group, and the first group in order wins.

* Model: M_Groups, M_Text. Specification: S_Groups.
* Theorems (Prop_Groups): `C45_groups`, `C45_disjoint`.
* Members of a kerning group are exactly the glyphs whose first group of that side it is; other groups unchanged.

### C46 Groups keep exactly their existing glyphs, key glyph first (partial)

With skip_missing_group_glyphs, the glyphs of a UFO group are exactly those of the VFB class that exist in the font, in the same order, with the key glyph moved to the front; a group that becomes empty is omitted.

* Model: M_Groups, M_Text. Specification: S_Groups.
* Theorems (Prop_Groups): `C46_classes`, `C46_members_partial`, `C46_empty_refuted`.
* Exact result of the transformation for all well-formed classes. Refuted part: a class all of whose glyphs are missing is exported with the missing glyphs instead of being omitted.

### C47 Kerning values are never lost or attributed to the wrong pair (partial)

For each master, every kerning pair of the VFB appears in the UFO kerning with its value under the names of the groups of which the glyphs are key glyphs, except zero values that are not exceptions; no other pair appears.

* Model: M_Groups, M_Text. Specification: S_Groups.
* Theorems (Prop_Groups): `C47_kerning`, `C47_names`, `C47_duplicate_refuted`.
* Exact kerning of every master for distinct glyph names that do not look like kerning groups; with duplicate names a value is lost (refuted).

### C48 Timestamps convert back and forth (proved)

A timestamp converted to a date and back is the same timestamp, for all dates from 1970 on that fit; earlier ones are clamped.

* Model: M_Helpers, M_Info, M_Text, M_TrueType. Specification: S_Bits, S_Info.
* Theorems (Prop_Info): `C48_from_timestamp`, `C48_from_date`, `C48_seconds`, `C48_rejected`, `C48_text`.
* Against a second-by-second calendar specification.

### C49 Point labels are unique (partial)

Whatever order labels are requested in, each point gets exactly one label, different points get different labels, and asking again returns the same label.

* Model: M_Labels. Specification: S_Labels.
* Theorems (Prop_Labels): `C49_unique`, `C49_attached`, `C49_stored`, `C49_nested_refuted`, `C49_mixed_refuted`.
* Proved for every history over simple glyphs and composites of simple glyphs. False for composites of composites and for glyphs with both points and components, where the source counts the wrong points (refuted).

### C50 Contours are converted without losing points (proved)

Converting a VFB node list to UFO contours gives one contour per VFB contour, which keeps every point in order and draws the same path. A curve that returns to the start of a closed contour is joined with the start; an explicit line to it is kept. Open contours stay open. Points keep their labels and smoothness.

* Model: M_Glyph, M_Paths, M_Text. Specification: S_Paths.
* Theorems (Prop_Paths): `C50_contours`, `C50_path`, `C50_single`, `C50_named`, `C50_unnamed`, `C50_draw`, `C50_components`.
* A closed contour of a single node becomes a single point of type move (C50_single).

### C51 Stem and zone names used in the UFO hinting data are unique and complete (partial)

The UFO lib holds every TrueType stem and zone of the VFB under a name of its own: named stems under their name, others under a number in their direction; with width, direction and the ppm from which the stem is rounded to each number of pixels (of several numbers for the same ppm the biggest); zones with position, side, width and deltas.

* Model: M_Glyph, M_Labels, M_Paths, M_Text, M_TrueType, M_Tth. Specification: S_Labels, S_Tth.
* Theorems (Prop_Tth): `C51_export`, `C51_named`, `C51_stem_refuted`, `C51_zone_refuted`.
* Proved for all histories of the entries of a file when the exported names are distinct (C51_export; with distinct non-empty names also C51_named). Refuted otherwise: of three stems with the same name one is lost, because the renamed ones share the number (C51_stem_refuted), and of two zones with the same name one is lost (C51_zone_refuted).

### C52 PostScript hints are normalised consistently (partial)

Hint normalisation keeps the two edge positions of a stem, and ghost hints keep their special width. A link is resolved to a stem whose edges are its two nodes, or to a ghost hint at its node; a link between two nodes never becomes a ghost hint. The exporter and the glyph API resolve hints and links to the same stems in the same order. Hint masks are turned into hint sets: for each node where hints are replaced, the stems of its last set that has any, each once, under the label of that node.

* Model: M_Glyph, M_Labels, M_PsHints, M_Text. Specification: S_Labels, S_PsHints.
* Theorems (Prop_PsHints): `C52_normalize`, `C52_master`, `C52_agree`, `C52_sets`, `C52_no_masks`, `C52_text`, `C52_api_sets`, `C52_ghost_refuted`, `C52_negative_refuted`.
* All parts hold but one: a link to a node exactly 20 or 21 below its source becomes a ghost hint (C52_ghost_refuted), because links are not normalised (C52_negative_refuted).

### C53 Number of masters is consistent with the number of axes (partial)

When master data is missing, the exporter completes it to 2^axes masters.

* Model: M_Builder. Specification: S_Builder.
* Theorems (Prop_Builder): `C53_completed`, `C53_count`, `C53_one_axis_refuted`, `C53_three_axes_refuted`, `C53_infos`.
* The code computes axes squared, not two to the axes. Proved: exact count and names for every file; the claim for 0, 2 and 4 axes; refuted for 1 axis (one master) and for 3 axes (a complete file with 8 masters cannot be exported: IndexError).

### C54 Every glyph of the VFB reaches the UFO under its own name (partial)

The exporter keeps one glyph per glyph entry, under pairwise distinct names, in file order.

* Model: M_Builder. Specification: S_Builder.
* Theorems (Prop_Builder): `C54_glyphs`, `C54_distinct`, `C54_last_refuted`, `C54_kerning_refuted`, `C54_crowded_refuted`.
* Proved: every glyph but the last is kept under a distinct name (own name or first free number), in file order, with the data of its entries; all glyphs and all kerning when names are distinct. Refuted: the last glyph replaces an earlier one of the same name; a renamed glyph's kerning overwrites the other's; more than 255 equal names.

### C55 Font info conversions are exact (proved)

Family class, weight class clamp, code page and selection bit conversions are exact inverses or clamps as documented.

* Model: M_Helpers, M_Info, M_Text, M_TrueType. Specification: S_Bits, S_Info.
* Theorems (Prop_Info): `C55_family_class`, `C55_weight_class`, `C55_code_pages`, `C55_selection`, `C55_tt_info`, `C55_underline`.
* Every item of the TrueType info, for all non-negative bit fields.

### C56 A failing write does not destroy the existing file (partial)

If Vfb.write(path) raises, the file at path still has its previous content; in particular no truncated VFB file is left behind.

* Model: M_Container, M_Stream. Specification: S_File.
* Theorems (Prop_Container): `C56_failed_write_keeps_file_refuted`, `C56_failed_write_content`.
* False of the code: the file is opened for writing before compiling. Proved: exactly what is left in the file.

### C57 A Vfb object can be reused (partial)

Reading a second file with the same Vfb object gives the same header, entries and derived values as reading it with a fresh object.

* Model: M_Container, M_Stream. Specification: S_File.
* Theorems (Prop_Container): `C57_reread_refuted`, `C57_reread_partial`.
* False of the code: clear() keeps the master count, stem counts, platform and encoding. Proved: these are the only things that leak.

### C58 Glyph masks round-trip (proved)

Compiling a glyph mask (weight vector and outlines) and parsing it gives the same mask: every weight is written as the integer it was read from, although it is a float in between.

* Model: M_Float, M_Glyph, M_Options, M_Simple, M_Stream, M_Text. Specification: S_Bits, S_Entry, S_Glyph, S_Options, S_Text.
* Theorems (Prop_Options): `C58_mask`†, `C58_reparse`†.
* Uses the axioms of the standard library's real numbers (through Flocq).

### C59 Primary instances keep their locations (partial)

Reading the primary instances of a file and writing them again keeps all names and all axis values, however often the file is saved.

* Model: M_Float, M_Glyph, M_Options, M_Simple, M_Stream, M_Text. Specification: S_Bits, S_Entry, S_Glyph, S_Options, S_Text.
* Theorems (Prop_Options): `C59_instances`†, `C59_instances_refuted`, `C59_reparse`†.
* False of the code: values are truncated instead of rounded, 0.57 becomes 0.5699 and a value can drift with each save. Proved: names are kept and a value moves by at most 1/10000, towards zero, per save.

### C60 The name of an entry type identifies it (proved)

Two entries have the same key (name) only if they have the same id, also for ids that are not in the table; the names and the ids that are ignored in minimal mode denote the same entries.

* Model: M_Bitmap, M_Container, M_Float, M_Glyph, M_Options, M_Simple, M_Stream, M_Table, M_Text, M_TrueType. Specification: S_Entry, S_File, S_Glyph, S_Options, S_Table, S_Text, S_TrueType.
* Theorems (Prop_File): `C60_names`, `C60_minimal`.
* For the whole table and all unknown ids.

### C61 Exported TrueType commands refer to the right points, zones and stems (partial)

The UFO export has one hinting command per TrueType instruction of a glyph, in order, with the code of the instruction; its points are named as in the outline, its zone and stem as in the font lib, and its alignment and delta values are those of the instruction.

* Model: M_Glyph, M_Labels, M_Paths, M_Text, M_TrueType, M_Tth. Specification: S_Labels, S_Tth.
* Theorems (Prop_Tth): `C61_commands`, `C61_stems`, `C61_unnamed_refuted`, `C61_duplicate_refuted`, `C61_closing_refuted`.
* Proved: one command per instruction with the labels of the points, the names of zone and stem and all values, after any history of label requests, and with distinct non-empty stem names these are names in the lib with the data of that stem. Refuted: commands on a stem without a name or with a name used twice name no stem or another one; when the last curve of a contour ends at its start and both points are hinted, a label in the commands is not in the outline (renames never reach the lib).

### C62 Extraction of TrueType hinting keeps stems, zones and instructions (partial)

Extracting the TrueType hinting of a font gives each stem once, under its name or, if that is taken, its name with the first free number, with its width, its direction and its rounding by ppm; each zone once, in the same way, with its position, side, width and its deltas sorted by ppm; and for each glyph with hints one command per instruction, in order, whose points are the point numbers and whose zones and stems are names in the result.

* Model: M_Glyph, M_Labels, M_Text, M_TrueType, M_Tth, M_TthExtract. Specification: S_Tth, S_TthExtract.
* Theorems (Prop_TthExtract): `C62_extract`, `C62_one_refuted`, `C62_missing_refuted`, `C62_early_refuted`, `C62_dropped_refuted`, `C62_ties_refuted`.
* Proved for fonts with the entries for stems, their rounding, zones and deltas in any order, followed by the glyphs (C62_extract). Refuted: a rounding for one pixel, a missing entry for stems, zones or deltas, or a hinted glyph before the stems make the extraction fail; stems without rounding for 2 to 5 pixels are dropped; of rounding to 5 and 6 pixels from the same ppm the export keeps 6, the extraction 5.

### C63 The XML of TrueType commands can be read back (proved)

The text that the export writes into a glyph's lib determines the number of commands and the text of every attribute, whatever characters the names of stems and zones contain; attribute values contain no quotes or angle brackets and read back as they were.

* Model: M_Glyph, M_Labels, M_Paths, M_Text, M_TrueType, M_Tth. Specification: S_Labels, S_Tth.
* Theorems (Prop_Tth): `C63_value`, `C63_text`, `C63_exists`, `C63_codes`.
* Text determines commands; values read back.

### C64 Drawing into a glyph keeps the outline (proved)

Contours of lines and quadratic curves drawn into a glyph with its point pen are appended to its nodes so that the glyph draws the same paths in every master, so redrawing a glyph without cubic curves does not change its outline; cubic curves are rejected; a component refers to the glyph of its name, an unknown name is rejected.

* Model: M_Glyph, M_Paths, M_Pens, M_Text. Specification: S_Paths, S_Pens.
* Theorems (Prop_Pens): `C64_contours`, `C64_redraw`, `C64_cubic`, `C64_component`, `C64_smooth_refuted`, `C64_skew_refuted`.
* For contours whose line points follow points on the curve and whose quadratic curves have control points. Beyond the statement: the smooth flag and the skew of components are lost.

### C65 Moving classes to the feature code loses nothing (partial)

When a VFB is exported to UFO, the feature file holds the definitions of exactly the groups that the options send there, then the feature code of the font; classes and code can be read back from it; every group other than a kerning group is in groups.plist or in the feature file and not in both; every group the kerning refers to is in groups.plist.

* Model: M_Features, M_Groups, M_Text. Specification: S_Features, S_Groups, S_Text.
* Theorems (Prop_Features): `C65_export`, `C65_read_back`, `C65_once`, `C65_referenced_partial`, `C65_kerning_groups_gone`, `C65_referenced_refuted`, `C65_disjoint_refuted`.
* Text and groups exactly, reading back, and every ordinary group in one place: proved for all inputs and options. The last part holds unless kerning groups are added while groups are moved (C65_referenced_partial); with both, which is what the option for kerning groups gives, every kerning group is deleted from the groups although the kerning refers to them (C65_kerning_groups_gone, C65_referenced_refuted). The kerning classes in the feature code are not made disjoint (C65_disjoint_refuted).

### C66 Kerning class references in the feature code follow the groups (partial)

In the exported feature code every reference to a kerning class in a pair rule is replaced by the name of the UFO group of the side it stands on, so that the reference names the group that the class became; everything else in the code stays as it is; the classes referred to are defined.

* Model: M_Features, M_Groups, M_Text. Specification: S_Features, S_Groups, S_Text.
* Theorems (Prop_Features): `C66_rule`, `C66_rule_unique`, `C66_other`, `C66_lines`, `C66_names`, `C66_idempotent`, `C66_defined`, `C66_forms_refuted`, `C66_defined_refuted`.
* Proved for every line: pair rules of two words one space apart are renamed, all other lines stay. Refuted: rules written with two spaces, long keywords or class lists keep the old name (C66_forms_refuted); without the option for kerning groups the renamed classes are not defined in the feature code (C66_defined_refuted).

### C67 Guides are exported with their own position, direction, name and colour (proved)

In the UFO of every master the guidelines are exactly the guides of the VFB, horizontal ones first and in their order, each at its position and direction in that master, with an angle between 0 and 360; a guide has the name and the colour that the guide properties give to it by direction and index, the last one if there are several, and none otherwise; different colours stay different. Green and blue parts of a colour that are no numbers count as 0; a red part that is no number raises ValueError.

* Model: M_Glyph, M_Guides, M_Text, M_Tth, M_Stream. Specification: S_Guides.
* Theorems (Prop_Guides, Prop_Color): `C67_guides`, `C67_missing`, `C67_colors_distinct`, `C67_negative_refuted`, `C67_wide_color_refuted`, `C67_bad_red`, `C67_bad_green_blue`.
* Angles are exact rationals (binary64 rounding of the sums is not modelled). Outside the range of the statement: a negative index decorates a guide counted from the end, a colour with a fourth byte is misread.

### C68 The designspace describes the UFOs that were written (partial)

When a multiple master font is exported, the designspace has one source per master UFO, in order, whose file name is the one the UFO was written to, with the master's name and location; one instance per primary instance, each with its own name, at its location; and each axis with the number of mapping pairs that the font gives for it, the range of their user coordinates and the default at the smallest. The masters go to different files.

* Model: M_Designspace, M_Groups, M_Text, M_Tth. Specification: S_Designspace.
* Theorems (Prop_Designspace): `C68_designspace`, `C68_paths_distinct`, `C68_resolves`, `C68_resolves_refuted`, `C68_mappings`, `C68_mappings_refuted`, `C68_axes_refuted`, `C68_instances_refuted`, `C68_again_refuted`.
* Proved for fonts with distinct axis names, counts up to ten and complete locations. Refuted: a source's file name is the output path itself, although it is relative to the document's directory, so it is right only for absolute paths or without a directory; counts above ten take pairs of the next axis; equal axis names or style names collide; a second export adds the labels again.

### C69 Each master UFO has the glyph data of its own master (partial)

In the UFO of master m every glyph has the width and height of master m, all code points of its entries in order, its anchors under their names with the positions of master m where the font has positions per master, and its mask glyph the mask's width and height in master m, or the glyph's if the font has none.

* Model: M_Glyph, M_Info, M_Master, M_Simple, M_Text, M_Tth. Specification: S_Glyph, S_Master.
* Theorems (Prop_Master): `C69_master`, `C69_mask`, `C69_anchors_refuted`, `C69_minimal`, `C69_mask_refuted`.
* Proved for fonts whose anchors and mask metrics are complete. Refuted otherwise: positions without an anchor in the GDEF data, or mask metrics for the first of several masters only, make the whole export fail; mask metrics of the other masters before those of the first go to the wrong masters.

### C70 Each master UFO has the font info of its own master (partial)

In the info of master m's UFO ascender, descender, x-height and cap height are those of master m; with PostScript hints exported also blue scale, shift and fuzz, force bold, and the zone and stem lists, of which exactly the values in use are kept; all other attributes are the same in all masters.

* Model: M_Glyph, M_Info, M_Master, M_Simple, M_Text, M_Tth. Specification: S_Glyph, S_Master.
* Theorems (Prop_Master): `C70_info`, `C70_missing`, `C70_negative_refuted`.
* Proved for all counts that are not negative; a negative count, which a VFB can hold, cuts from the end instead (C70_negative_refuted). A master without PostScript info makes the export fail (C70_missing).

### C71 Exporting UFOs leaves the Vfb as it was (partial)

Building UFOs from a Vfb object does not change its entries: a second export gives the same UFOs, and the Vfb can be saved afterwards with the same contents.

* Model: M_Glyph, M_Info, M_Master, M_Simple, M_Text, M_Tth. Specification: S_Glyph, S_Master.
* Theorems (Prop_Master): `C71_entry`, `C71_again`, `C71_saved`, `C71_refuted`.
* Refuted: with PostScript hints the export deletes the hint masks from the glyph entries, so a second export or a file saved afterwards has none (C71_again, C71_saved, C71_refuted). Exactly that and nothing else in a glyph entry changes, and without PostScript hints nothing does (C71_entry). Also deleted, but never written to a file: the preview of background images.

### C72 TrueType programs and control values survive the UFO export (partial)

When a VFB is exported to UFO, the control values (cvt) and the instructions of the font program and the control value program of the VFB are in the lib of the UFO: each control value under its number with its signed 16 bit value, and each program as a text whose lines, without indentation, are the instructions of the binary program in their order, whatever other TrueType entries there are. A maximum that is left out of the lib was 0 or absent. No such font fails to export.

* Model: M_Bitmap, M_Helpers, M_Info, M_Programs, M_Text, M_Tth. Specification: S_Programs.
* Theorems (Prop_Programs): `C72_programs`, `C72_succeeds`, `C72_glyph`, `C72_indent`, `C72_refuted`.
* Proved for every sequence of entries that does not fail. Refuted: a cvt entry with an odd number of bytes makes the whole export fail with struct.error.

### C73 Bitmaps of a glyph survive the UFO export (proved)

For every bitmap of a glyph in the VFB the UFO glyph has one, in the same order, with the same rows from the other end, the same size, advance and pixels per em, and bearings from which the origin can be told. Nothing but the preview is lost.

* Model: M_Bitmap, M_Helpers, M_Info, M_Programs, M_Text, M_Tth. Specification: S_Programs.
* Theorems (Prop_Programs): `C73_bitmaps`, `C73_lossless`.
* 

### C74 Hinting options that are left out of the UFO are the defaults (partial)

For the TrueType options stem snap limit, zone ppm, dropout ppm and code ppm, reading the exported UFO with the defaults 68, 48 and 255 for what is left out gives the value of the VFB, for every value and order of the entries.

* Model: M_Bitmap, M_Helpers, M_Info, M_Programs, M_Text, M_Tth. Specification: S_Programs.
* Theorems (Prop_Programs): `C74_options`, `C74_refuted`.
* Proved when each option has at most one entry. Refuted for two entries: a later default does not remove an earlier value.

### C75 The value tool decodes what it encodes (partial)

Running the value tool on numbers with --encode and running it again on the hex string it printed, in any number of pieces, with the same signedness, prints the same numbers; numbers that do not fit are refused; decoding always ends, and it prints every value of its input.

* Model: M_Container, M_Designspace, M_Helpers, M_Stream, M_Table, M_Text, M_Tools, M_Tth. Specification: S_Stream, S_Tools.
* Theorems (Prop_Tools): `C75_roundtrip`, `C75_rejects`, `C75_terminates`, `C75_reports`, `C75_refuted`.
* Round trip, rejection and termination proved. Refuted: values after a zero byte are not printed.

### C76 The JSON of a Vfb tells its entries apart (partial)

Two Vfb objects with the same JSON dump have the same header and the same entries in the same order: the same types and the same binary or decompiled data. If all entries are binary, they are written as the same file. A failing dump leaves an existing JSON file as it was.

* Model: M_Container, M_Designspace, M_Helpers, M_Stream, M_Table, M_Text, M_Tools, M_Tth. Specification: S_Stream, S_Tools.
* Theorems (Prop_Tools): `C76_dict`, `C76_files`, `C76_failure_refuted`.
* The dump determines the Vfb. Refuted: the file is opened before the dump is made, so a failing dump empties it. orjson is not modelled.

### C77 Existing files are only overwritten with permission (partial)

Without permission to overwrite, writing the UFOs and the designspace, or the converted VFB, changes no existing file and fails when one of its files exists; then nothing is written. With permission, each UFO and the designspace end up in their own files and no other file is changed.

* Model: M_Container, M_Designspace, M_Helpers, M_Stream, M_Table, M_Text, M_Tools, M_Tth. Specification: S_Stream, S_Tools.
* Theorems (Prop_Tools): `C77_kept`, `C77_refuses`, `C77_written`, `C77_overwrites`, `C77_failed`, `C77_cu2qu`, `C77_cu2qu_input`, `C77_json_refuted`, `C77_atomic_refuted`.
* Proved for UFO output and the converter. Refuted: JSON output overwrites existing files without permission; the UFOs are already written when an existing designspace makes the export fail.

### C78 The tools write to the output path they were given (partial)

vfb2ufo and vfbcu2qu write to the output path given on the command line; without one they write next to the input file or to the folder given with --path, under the name of the input file.

* Model: M_Container, M_Designspace, M_Helpers, M_Stream, M_Table, M_Text, M_Tools, M_Tth. Specification: S_Stream, S_Tools.
* Theorems (Prop_Tools): `C78_output`, `C78_refuted`, `C78_cu2qu_refuted`.
* Refuted: the output path argument is ignored by both tools. What they use instead is proved.

### C79 Units per em are those of the current data (partial)

The units per em that the info object of a Vfb reports are the value of its first upm entry, 0 without one, at every moment of the life of the Vfb.

* Model: M_Container, M_Designspace, M_Helpers, M_Stream, M_Table, M_Text, M_Tools, M_Tth. Specification: S_Stream, S_Tools.
* Theorems (Prop_Tools): `C79_upm`, `C79_refuted`.
* Proved for the first access. Refuted afterwards: the value is cached for the life of the Vfb.

### C80 Master UFOs are compatible (partial)

For a font whose glyphs have no components and whose nodes and hints have data for every master, exporting all masters succeeds, every master has the same glyphs with the same number of contours, and a contour has the same points (types, smooth flags and names, in order) in two masters if and only if it ends at its start in both or in neither of them. After a contour that closes in only one master, or for components that get names from hinted composites, the masters differ.

* Model: M_Export, M_Glyph, M_Labels, M_Paths, M_PsHints. Specification: S_Export, S_Labels, S_Paths, S_PsHints.
* Theorems (Prop_Export): `C80_compatible`, `C80_refuted`, `C80_composite_refuted`.
* The exact condition for compatible contours is proved for fonts whose composites have no hints of their own; the unconditional claim is refuted by a contour that ends at its start in one master only, and for composites with hints by names added to components between the masters.

### C81 PostScript hint sets refer to points of the glyph (partial)

In the exported glyph, the point tag of every PostScript hint set is the name of the point where the hints are replaced. This holds for glyphs without components, unless the node is the first of a contour that ends at its start; there, and in composites, a tag may name no point at all.

* Model: M_Export, M_Glyph, M_Labels, M_Paths, M_PsHints. Specification: S_Export, S_Labels, S_Paths, S_PsHints.
* Theorems (Prop_Export): `C81_tags`, `C81_refuted`, `C81_composite_refuted`.
* Proved for glyphs without components except at the start of contours that end at their start; refuted there and for composites.

### C82 Every entry about the font arrives in its own attribute of the font info (partial)

After the export, every attribute of the UFO font info has the value of the last VFB entry that is about it, or the default if there is none; the underline position is moved by half the thickness. No two kinds of entries are about the same attribute, so the order of the entries does not matter. Not true of weight, width and year: their attributes do not exist in UFO 3, and the UFO is the same as without them.

* Model: M_FontInfo, M_Info, M_Text, M_TrueType, M_Tth. Specification: S_Bits, S_FontInfo, S_Info.
* Theorems (Prop_FontInfo): `C82_attributes`, `C82_own`, `C82_order`, `C82_ufo3`, `C82_refuted`.
* Every attribute has the value of the last entry about it (C82_attributes), kinds of entries do not contend (C82_own) and their order does not matter (C82_order). The part that the values reach the UFO is false for weight, width and year (C82_refuted) and holds for all others (C82_ufo3).

### C83 The exported family keeps its name (partial)

The family name in the designspace and in the messages is the preferred family name of the VFB, and the style name the preferred style name, if they are not empty. A font that has a family name but no preferred family name should be exported under its family name, but is called Untitled.

* Model: M_FontInfo, M_Info, M_Text, M_TrueType, M_Tth. Specification: S_Bits, S_FontInfo, S_Info.
* Theorems (Prop_FontInfo): `C83_family`, `C83_style`, `C83_empty`, `C83_refuted`.
* The preferred names are used if present (C83_family, C83_style); without a preferred family name the font is called Untitled although its family name is known (C83_refuted).

### C84 Glyph classes of the VFB become groups (partial)

Every glyph class of the VFB becomes a group with the members that its text names, in their order; of several classes with the same name the first counts, and texts without a colon are skipped. A malformed class should not stop the export, but a class with two colons does, and members separated by a tab are taken for one glyph.

* Model: M_Classes, M_Groups, M_Text, M_Tth. Specification: S_Classes.
* Theorems (Prop_Classes): `C84_classes`, `C84_refuted`, `C84_tab_refuted`.
* All classes written with spaces are proved; a class with two colons stops the export with ValueError (C84_refuted), and a tab does not separate members (C84_tab_refuted).

### C85 Each part of the font is made from its own entries (partial)

When a VFB is exported, every part of the font (attributes, TrueType programs, glyphs, hinting data, features, classes, guides, axes, masters, custom data) is what the entries about that part say, in the order of the file, whatever other entries the VFB has; the export fails only if a glyph lacks name, metrics or nodes or one of the parts cannot be made. With distinct names the font has one glyph per glyph entry with its outline, metrics and components, and just the kerning pairs of the entries. The order of entries about different parts should not matter, but the alignment zones of a glyph are those that came before it in the file.

* Model: M_Bitmap, M_Build, M_Builder, M_Classes, M_Container, M_Designspace, M_Features, M_FontInfo, M_Glyph, M_Groups, M_Helpers, M_Info, M_Master, M_Options, M_Programs, M_Simple, M_Table, M_Text, M_TrueType, M_Tth. Specification: S_Build, S_Builder, S_Entry, S_FontInfo, S_Info, S_Table.
* Theorems (Prop_Build): `C85_parts`, `C85_succeeds`, `C85_independent`, `C85_glyphs`, `C85_file`, `C85_attributes`, `C85_zones_refuted`.
* All parts are proved to come from their own entries, for every list of entries and for every file that is read; that the order of different kinds of entries does not matter fails for TrueType zones and glyphs (C85_zones_refuted). For build_tt_glyph_lib, which runs after the loop, see C89.

### C86 The glyphs of every master, from the entries to the UFO (partial)

When a VFB is exported there is one UFO per master, and every UFO has the glyphs of the file, in its order, each with what its glyph entry and the entries after it say about that master: width and height, code points, outline, components, anchors, guidelines, user data, mark colour, background image, bitmaps and glyph program. Notes of glyphs should be kept too, but they are lost.

* Model: M_Bitmap, M_Build, M_Builder, M_Container, M_Designspace, M_Export, M_Features, M_FontInfo, M_Glyph, M_Groups, M_Guides, M_Helpers, M_Info, M_Labels, M_Master, M_Options, M_Paths, M_Programs, M_PsHints, M_Simple, M_Table, M_Text, M_TrueType, M_Tth, M_Ufo. Specification: S_Build, S_Builder, S_Guides, S_Paths, S_Ufo.
* Theorems (Prop_Ufo): `C86_masters`, `C86_glyphs`, `C86_no_notes`, `C86_notes_refuted`.
* From the entries to the glyphs of every UFO. Refuted for notes. For PostScript hints and TrueType commands C86_glyphs says only that there are none if they are not asked for or not there; what they are is C89 and C90.

### C87 Masks become the background layer (proved)

The background layer of every UFO has the masks of just the glyphs that have a mask with nodes, in the order of the file, each with its own outline and size in that master (or that of the glyph) and without names of points; a minimal export has no background layer.

* Model: M_Bitmap, M_Build, M_Builder, M_Container, M_Designspace, M_Export, M_Features, M_FontInfo, M_Glyph, M_Groups, M_Guides, M_Helpers, M_Info, M_Labels, M_Master, M_Options, M_Paths, M_Programs, M_PsHints, M_Simple, M_Table, M_Text, M_TrueType, M_Tth, M_Ufo. Specification: S_Build, S_Builder, S_Guides, S_Paths, S_Ufo.
* Theorems (Prop_Ufo): `C87_masks`, `C87_minimal`.
* Background layer, from the entries.

### C88 Kerning, attributes, guides and lib of every master, from the entries to the UFO (proved)

The masters of an exported VFB have the same features, groups and lib. The kerning of each is just the values that the glyph entries have for that master, between the kerning groups of which the glyphs are key glyphs or the glyphs themselves, zeros left out but for exceptions. Its attributes are those of the PostScript info of that master, else those that the font info entries say. Its guidelines are those of the last guides entry. The lib has the glyph order, the TrueType programs, the options, stems and zones of TrueType hinting, the user data and the class flags.

* Model: M_Bitmap, M_Build, M_Builder, M_Container, M_Designspace, M_Export, M_Features, M_FontInfo, M_Glyph, M_Groups, M_Guides, M_Helpers, M_Info, M_Labels, M_Master, M_Options, M_Paths, M_Programs, M_PsHints, M_Simple, M_Table, M_Text, M_TrueType, M_Tth, M_Ufo. Specification: S_Build, S_Builder, S_FontInfo, S_Groups, S_Guides, S_Labels, S_Master, S_Paths, S_Programs, S_Tth, S_Ufo.
* Theorems (Prop_Ufo2): `C88_shared`, `C88_kerning`, `C88_info`, `C88_lib`, `C88_hinting`, `C88_guides`.
* From the entries to the UFO. C88_kerning is for exports that do not move groups to the features. C88_hinting: the TrueType hinting options, stems and zones in the lib.

### C89 TrueType commands in the UFOs name the points, zones and stems of the file (partial)

In every UFO of an exported VFB, the TrueType hinting commands of a glyph are the instructions of its glyph entry, in order. A point a command names is the point of the outline of that UFO that the instruction means, a point of a component under its own name with the number of the component, or a side bearing; the zones are those in force at the glyph, the stems those of the font. Different points of a glyph have different names. If asked for, the commands are encoded as base64.

* Model: M_Bitmap, M_Build, M_Builder, M_Container, M_Designspace, M_Export, M_Features, M_FontInfo, M_Glyph, M_Groups, M_Guides, M_Helpers, M_Info, M_Labels, M_Master, M_Options, M_Paths, M_Programs, M_PsHints, M_Simple, M_Table, M_Text, M_TrueType, M_Tth, M_Ufo, M_Rename. Specification: S_Build, S_Builder, S_Export, S_Guides, S_Hinting, S_Labels, S_Paths, S_PsHints, S_Tth, S_Ufo.
* Theorems (Prop_Ufo3, Prop_Rename): `C89_commands`, `C89_names`, `C89_renaming`, `C89_refuted`.
* From the entries to the UFO. That a named point is there is refuted for the start of a contour that ends with a curve at its start if both nodes have names (C89_refuted); C89_commands has this as the one exception. C89_renaming: the renaming of joined points, which comes too late, after the commands were put into the lib, never fails.

### C90 Outlines and hint sets of the UFOs of all masters fit together (partial)

In the UFOs exported from a VFB, the outlines of a glyph have the same contours and points with the same names in all masters. The hint sets of a glyph in a master are those that its hints, links and hint masks say for that master, each stem once and in order, and every hint set is tagged with the name of the point at which it starts.

* Model: M_Bitmap, M_Build, M_Builder, M_Container, M_Designspace, M_Export, M_Features, M_FontInfo, M_Glyph, M_Groups, M_Guides, M_Helpers, M_Info, M_Labels, M_Master, M_Options, M_Paths, M_Programs, M_PsHints, M_Simple, M_Table, M_Text, M_TrueType, M_Tth, M_Ufo. Specification: S_Build, S_Builder, S_Export, S_Guides, S_Hinting, S_Labels, S_Paths, S_PsHints, S_Tth, S_Ufo.
* Theorems (Prop_Ufo3): `C90_compatible`, `C90_hints`, `C90_refuted`.
* From the entries to the UFO: the exact condition for compatible contours; the hint sets are exactly those of hints, links and masks, tagged with the points at which they start, but for the start of a contour that ends there. Glyphs with components must have no PostScript hints of their own. The unconditional claim is refuted.

### C91 A VFB whose entries fit together is exported (proved)

If every reference from one entry of a VFB to a glyph, master, stem, zone, point, node or hint is to one that exists, the glyph data have values for every master the export makes, programs can be disassembled, no glyph is a component of itself, directly or not, and, for encoded programs, names are ASCII, then the conversion to UFOs raises no exception and gives one UFO per master. Conversely, a VFB with fewer PostScript info entries than masters is never exported.

* Model: M_Bitmap, M_Build, M_Builder, M_Classes, M_Container, M_Designspace, M_Export, M_Features, M_FontInfo, M_Glyph, M_Groups, M_Guides, M_Helpers, M_Info, M_Labels, M_Master, M_Options, M_Paths, M_Programs, M_PsHints, M_Simple, M_Table, M_Text, M_TrueType, M_Tth, M_Ufo, M_Hash. Specification: S_Build, S_Builder, S_Export, S_Fine, S_FontInfo, S_Guides, S_Hinting, S_Labels, S_Paths, S_Programs, S_PsHints, S_Tth, S_Ufo, S_Hash.
* Theorems (Prop_Fine, Prop_Hash): `C91_succeeds`, `C91_infos`, `C118_entries`.
* Failure-freedom of the whole export under the conditions of S_Fine.v. The ids of TrueType instructions, which are made after that, are in C118_entries; they need that no glyph is a component of itself.

### C92 A multiple master font with n axes is exported as 2^n UFOs (partial)

A multiple master VFB with n axes whose 2^n masters all have a name and data is exported as 2^n UFOs. (For n = 3 this is false: the builder expects n squared = 9 masters and fails; for every other n it holds.)

* Model: M_Bitmap, M_Build, M_Builder, M_Classes, M_Container, M_Designspace, M_Export, M_Features, M_FontInfo, M_Glyph, M_Groups, M_Guides, M_Helpers, M_Info, M_Labels, M_Master, M_Options, M_Paths, M_Programs, M_PsHints, M_Simple, M_Table, M_Text, M_TrueType, M_Tth, M_Ufo. Specification: S_Build, S_Builder, S_Export, S_Fine, S_FontInfo, S_Guides, S_Hinting, S_Labels, S_Paths, S_Programs, S_PsHints, S_Tth, S_Ufo.
* Theorems (Prop_Fine): `C92_succeeds`, `C92_masters`, `C92_refuted`.
* False for three axes (C92_refuted: no VFB with three axes and eight PostScript infos is exported); proved for all other numbers of axes

### C93 The converter to quadratic curves saves the converted font (partial)

vfbcu2qu, given a VFB with at least one master, saves a VFB in which the outlines of every glyph that has some are those that fontTools' cu2qu makes of them, in every master, and leaves all other files as they are; it says that the file was not modified only if no glyph has an outline.

* Model: M_Container, M_Cu2qu, M_Designspace, M_Glyph, M_GlyphAccess, M_Paths, M_Pens, M_Stream, M_Table, M_Text, M_Tools. Specification: S_File, S_GlyphAccess.
* Theorems (Prop_Cu2qu): `C93_exact`, `C93_never`, `C93_refuted`.
* False of the code: the first access to the glyphs blanks them (C42), so for every file that can be read and decompiled the tool says that it was not modified, and it never writes anything, whatever fontTools would do (C93_exact, C93_never; a concrete file with a cubic curve: C93_refuted). That other files are left as they are holds.

### C94 Updating Adobe hinting data keeps all hint sets (partial)

update_adobe_hinting turns the XML form of Adobe's hinting data (text or UTF-8 bytes) into the dict form: every hint set of the document, in document order, with its point tag and, for each of its stems, the text of the same stem, in order, negative widths turned round except for ghost hints. Elements of other kinds do not matter. Data that is neither text nor bytes is returned as it is.

* Model: M_HintsV1, M_PsHints, M_Text, M_Tth. Specification: S_HintsV1, S_PsHints.
* Theorems (Prop_HintsV1): `C94_sets`, `C94_update`, `C94_lists_refuted`.
* Proved for every document with one list of hint sets, anywhere among other elements. With two lists all sets of the first but its last are lost (C94_lists_refuted). ElementTree's parser and the UTF-8 decoder are parameters.

### C95 Saving a VFB does not change its export (partial)

Let a VFB be read, decompiled, and all its data be writable. If it is exported to UFOs, then saving it does not fail, and whoever reads the saved file and exports it with the same options gets the same UFOs: the same masters, glyphs, outlines, libs, kerning, groups, features and hinting; only the order in which some dicts list their items may differ.

* Model: M_Bitmap, M_Build, M_Container, M_Glyph, M_Options, M_Simple, M_Stream, M_Table, M_Text, M_TrueType, M_Ufo. Specification: S_Build, S_Entry, S_File, S_Glyph, S_Resave, S_Table, S_Text, S_Tth.
* Theorems (Prop_Resave): `C95_file`†, `C95_names_refuted`.
* C95_file covers every file whose data can be written (the condition of C16, which lists it for each entry type), whose glyphs have non-empty names, whose zone names are distinct and whose zone deltas count from 0. The first of these extra conditions is needed: the name of a glyph with an empty name is not written, so that the export of the saved file ends with a KeyError (C95_names_refuted). Equality of the UFOs is exact but for the order of the items of the font info, of the programs lib and of the deltas of a zone. c95_conditions shows a file with two masters, hints, TrueType commands, zones and deltas that meets all hypotheses.

### C96 The designspace document of a VFB (proved)

If the axes of a VFB have different names that are not empty, and each master and each instance has a coordinate on each axis, the export writes a designspace document with one source per UFO. Source i names the file that UFO i is written to, has the name of master i in the file without white space around it, and the location that the file gives master i, times 1000. The instances are those of the last entry with instances, in order, each with its own name, style, family and location. The axes are those of the file, in order, with their registered or made tags. If there is one axis, the instances are its labels. The family is the family name of the file. If the file has ten pairs of coordinates for each axis and says how many of them count, each axis has exactly these pairs as its map, and the smallest and the largest user coordinate as its range, with the smallest as its default. Without axes there is no document.

* Model: M_Bitmap, M_Build, M_Builder, M_Container, M_Designspace, M_Document, M_Export, M_Features, M_FontInfo, M_Glyph, M_Groups, M_Guides, M_Helpers, M_Info, M_Labels, M_Master, M_Options, M_Paths, M_PsHints, M_Simple, M_Table, M_Text, M_TrueType, M_Tth, M_Ufo. Specification: S_Build, S_Builder, S_Designspace, S_Document, S_FontInfo, S_Info.
* Theorems (Prop_Document): `C96_document`, `C96_mappings`, `C96_no_axes`.
* Conditions of the theorems: different axis names, a coordinate per axis for each master and instance (design_complete), ten pairs per axis and counts up to ten (mappings_fit); the behaviour outside of them is in C68.

### C97 The JSON of a VFB file says all of its data (partial)

When vfb2json writes a file, its content is UTF-8 of a valid JSON text, and reading that text gives the dict of the Vfb. Two VFB files of which the same JSON is made have the same header and the same entries, in the same order, with the same ids and the same data: nothing that was decompiled is lost or run together in the JSON, for any of the types of entries. In no object of the JSON do two members have the same key, so that a reader that makes dicts of objects loses nothing. JSON is written of every VFB file that can be read and decompiled.

* Model: M_Bitmap, M_Container, M_Float, M_Glyph, M_Helpers, M_Json, M_Options, M_Simple, M_Stream, M_Table, M_Text, M_Tools, M_TrueType. Specification: S_Dump, S_Encoding, S_File, S_Json, S_Keys.
* Theorems (Prop_Json, Prop_JsonKeys, Prop_Dumpable): `C97_reads`, `C97_determines`, `C97_files`, `C97_keys`, `C97_written`, `C97_surrogates_refuted`, `C97_nan_refuted`, `C97_minimal_refuted`.
* The text that orjson writes is modelled (M_Json: dump) and read by an independent JSON reader (S_Json: loads), for all Python values. What the parsers make of each type of entry is modelled as a Python value (M_Json: value_py); the order of the keys of a glyph, which the model of the parser does not keep, is arbitrary. C97_files says that the JSON determines header and entries if all doubles of one of the two are finite. Refuted in two cases: JSON has no infinities and NaNs, so files that differ only there have the same JSON (C97_nan_refuted); and a name record with a character outside of the BMP becomes a string with surrogates, at which orjson raises an exception, so that an empty file is left although the VFB can be decompiled (C97_surrogates_refuted). The option --minimal (parse only minimal amount of data) has no effect on the JSON (C97_minimal_refuted). The text of a float is an oracle (numbers_ok in S_Dump.v: JSON numbers that are not integers, different for different floats); sample_number_ok shows that such texts exist. C97_keys: in no object of the JSON do two members have the same key, so that a reader that makes dicts of objects gets all of it. C97_written: these name records are the only data at which orjson raises. Of every file below 2 GB that is read and decompiled (without --roundtrip) JSON is written unless a name record has a surrogate, so every integer that the parsers make, sums of coordinates and counts included, is in the range of 64 bits and every other text can be encoded.

### C98 vfbdiff prints nothing exactly if two files have the same content (partial)

vfbdiff prints nothing for two files with the same header and the same entries with the same data, whatever the order of the keys of glyphs and other dicts. Conversely, if it prints nothing, both files have the same header and the same entries, in the same order, with the same ids and the same data up to the order of keys.

* Model: M_Bitmap, M_Container, M_Diff, M_Float, M_Glyph, M_Helpers, M_Json, M_Options, M_Simple, M_Stream, M_Table, M_Text, M_Tools, M_TrueType. Specification: S_Diff, S_Dump, S_Encoding, S_File, S_Json.
* Theorems (Prop_Diff): `C98_same`, `C98_same_file`, `C98_silent`, `C98_files`, `C98_separators_refuted`.
* diff.py with OPT_SORT_KEYS and str.splitlines modelled; difflib's unified_diff is an oracle that gives no lines exactly for equal lists. The second direction holds if no string has a NEL (U+0085), LS or PS in it, which JSON does not escape but splitlines breaks lines at; without this it is refuted by two files with different names of which the same lines are made (C98_separators_refuted). Data are compared as JSON (same_js), so an infinity equals a NaN, as in C97. The files are read twice in a row into the same Vfb (once by the constructor), so that what is compared is the second reading, which can differ from the first (C57_reread_refuted). The option --html is not modelled.

### C99 vfb2tth writes the TrueType hints of the file (partial)

The JSON that vfb2tth writes has, for a VFB file with TrueType hints, one object for each stem with its direction, width and rounding, one for each zone with its side, position, width and deltas, the gasp ranges, units per em, stem snap limit and code ppm of the font, and for each named glyph with commands the list of its commands in order, with each reference to a stem or zone given by the name that this stem or zone has in the same JSON. Other entries of the file, and the order of the font's entries, have no effect. Nothing is written if the hints cannot be extracted.

* Model: M_Container, M_Designspace, M_Diff, M_Glyph, M_Json, M_Labels, M_Stream, M_Table, M_Text, M_Tools, M_TrueType, M_Tth, M_TthExtract, M_TthFile. Specification: S_Dump, S_Encoding, S_File, S_Json, S_Tth, S_TthExtract, S_TthFile.
* Theorems (Prop_TthFile): `C99_json`, `C99_output`, `C99_kept`, `C99_missing_refuted`, `C99_one_refuted`, `C99_early_refuted`.
* C99_json: the file is UTF-8 of a JSON text of the stems, zones, font numbers and commands of the entries. C99_kept: after an exception the output file is as it was, or empty if the text could not be made. Refuted: files without an entry for stems, zones or zone deltas, files with rounding to one pixel and files with a hinted glyph before the stems cannot be exported, with nothing written. Only the format json; toml and yaml are written by libraries.

### C100 vfb2ufo, from the bytes of a VFB file to the files it writes (proved)

When vfb2ufo ends without an error, UFO i of the VFB is in the file that has the name of the VFB, the number i for all masters but the first, and the suffix .ufo, .ufoz (--zip) or .json (--json), next to the VFB or in the given folder; the designspace, if the VFB has axes, is beside them, each of its sources names the file of a UFO that was written, and no other file has changed. When it ends with an error, no file has changed, except that new UFOs may be there if it met a file that it may not overwrite. Without --force-overwrite and --json, no existing file is ever changed; the VFB itself is never changed unless it has the suffix of an output file. A VFB whose entries fit together (C91) and whose axes are complete (C96) is exported without an error, with one UFO per master. The entries with the encoding play no part, even if they cannot be read.

* Model: M_Build, M_Builder, M_Container, M_Designspace, M_Document, M_FontInfo, M_Glyph, M_Groups, M_Info, M_Options, M_Simple, M_Table, M_Text, M_Tools, M_Tth, M_Ufo, M_Vfb2ufo. Specification: S_Build, S_Document, S_File, S_Fine, S_Hinting, S_Tools, S_Ufo, S_Vfb2ufo.
* Theorems (Prop_Vfb2ufo): `C100_written`, `C100_exported`, `C100_stopped`, `C100_kept`, `C100_input`, `C100_encoding`.
* Whole tool: reading with drop_keys, decompiling, building, writing. The content of the UFOs is that of C86 to C90 (vfb_to_ufos of the entries). That --json overwrites without permission is C77_json_refuted.

### C101 A glyph has as many contours as it draws (partial)

len(glyph) is the number of contours that glyph.draw starts, and the number of contours that glyph.drawPoints begins and ends. After clearContours it is 0. Drawing contours into the glyph with a point pen adds the number of contours that have points.

* Model: M_Glyph, M_Len, M_Paths, M_Pens, M_Text. Specification: S_Paths, S_Pens.
* Theorems (Prop_Len): `C101_draw`, `C101_points`, `C101_headless_refuted`, `C101_cleared`, `C101_pen`.
* Proved for draw and the pen, and for drawPoints if the outline is empty or starts with a node of type move. Refuted otherwise: drawPoints gives a contour that is not counted.

### C102 Hex strings say exactly the bytes that are written (proved)

Data that are given as a hex string (entries of unknown type, binary tables, the argument of the value tool) are written as exactly the bytes that the digits say, in upper or lower case, with white space allowed between bytes only; any other string is refused with ValueError. Data that are read are shown as two lower case digits for each byte.

* Model: M_Helpers, M_Simple, M_Stream, M_Text, M_Tools. Specification: S_Hex.
* Theorems (Prop_Hex): `C102_entry`, `C102_table`, `C102_tool`, `C102_shown`.
* bytes.fromhex and bytes.hex of the Python standard library are modelled (M_Helpers); S_Hex.v says independently what a hex string says.

### C103 Fonts assembled by a program are written as they were assembled (partial)

A program makes Vfb objects and entries, sets the data of headers and entries and the number of masters, and adds entries to fonts in any order. Writing a font then gives the header it was given and exactly the entries that were added to it, in the order of the calls of add_entry, each with the data it was given last; decompiled data is compiled for the font that is written. The file is read back as these entries if the end-of-file entry was added last. Without header data nothing is written and TypeError is raised. Adding an entry to a second font does not change what is written of the first; the number of masters is that of the Master Count entry.

* Model: M_Assemble, M_Container, M_Glyph, M_Simple, M_Stream, M_Table, M_Text. Specification: S_Assemble, S_File.
* Theorems (Prop_Assemble): `C103_written`, `C103_read`, `C103_header_refuted`, `C103_shared_bytes`, `C103_shared_refuted`, `C103_masters_refuted`.
* Proved for all histories: what is written and read back (compiled for the font the entry was added to last), and that entries of bytes can be shared. Refuted: a decompiled entry that is added to a second font is compiled for the masters of that font also when the first is written (C103_shared_refuted); the Master Count entry of an assembled font does not set the number of masters, so anchors lose their positions (C103_masters_refuted). Only num_masters is modelled of what compilers look at.

### C104 Decompiling an entry raises only the exceptions of its type (proved)

Decompiling an entry (entry.decompile, or Vfb.decompile reaching it) either succeeds or raises one of a fixed set of exceptions that depends only on the id of the entry: AssertionError for bytes left over, EOFError and ValueError for encoded values, struct.error for doubles cut short, UnicodeDecodeError for text, and a few more for FL Version, Mapping Mode, ttinfo, fontnames, features, GDEF data and glyphs (plus what the TrueType disassembler raises for glyphs). Each exception of the set is raised by some data; entries kept as hexadecimal and entries of unknown types never raise.

* Model: M_Container, M_Glyph, M_Simple, M_Stream, M_Table, M_Text. Specification: S_Entry, S_Raises.
* Theorems (Prop_Raises): `C104_raises`, `C104_decompile`, `C104_all_raised`, `C104_never`.
* Exact sets: C104_raises bounds, C104_all_raised gives data for each exception. ttinfo (1264) may also never stop, which is C32.

### C105 The numbers of a file mean the names the decompiled data shows (proved)

Decompiled data has names for numbers that only the file format defines. A font option stored under number k shows up under the documented name of k (1 fit_ascender ... 115 paste_place_y) with the stored value, ratios divided by 10000 and the bits of the autohinting and kerning options each under its own name; the bits of the export options and of the PostScript hinting options of font and glyph are named exactly as documented, other bits by their number; so are the mapping modes, the platform and the version, the GDEF glyph classes, the kinds of hint masks and the TrueType visual commands with their parameters in order. Round-trip tests cannot see two names swapped, as compiler and parser share the tables.

* Model: M_Container, M_Float, M_Glyph, M_Helpers, M_Options, M_Simple, M_Stream, M_Table, M_Text. Specification: S_Bits, S_Entry, S_Meaning, S_Stream.
* Theorems (Prop_Meaning): `C105_font_options`, `C105_export_options`, `C105_ps_options`, `C105_glyph_ps_options`, `C105_mapping_mode`, `C105_fl_version`, `C105_gdef_class`, `C105_hint_masks`, `C105_commands`.
* The tables of S_Meaning are written out again from the documentation of the format in the source; the theorems say what the parser of each entry does with bytes that store the numbers.

### C106 Decompiled bitmaps and their previews show the stored pixels (proved)

Decompiling a background image gives the pixels its run-length data stands for, inverted if the font was written on Windows, in rows that are padded to 16 bits. Whatever bitmap data is decompiled (background or glyph bitmaps), the preview has one line per row, in order, with two characters per pixel, never more columns than the bitmap is wide, and column j is filled if and only if pixel j of the row is set, the first pixel being the highest bit of the first byte.

* Model: M_Bitmap, M_Container, M_Helpers, M_Stream, M_Table, M_Text. Specification: S_Bitmap, S_Bits, S_Entry, S_Preview, S_Stream.
* Theorems (Prop_Preview, Prop_Pixels): `C106_background_pixels`, `C106_background_preview`, `C106_bitmaps_preview`, `C106_bitmaps_pixels`.
* The pixels and previews of the background entry and of all bitmaps of a glyph.

### C107 Decompiled data is in proportion to the entry (partial)

Decompiling an entry of n bytes gives data of at most 300 n + 2000 values and characters, whatever counts the bytes declare, for every entry type except bitmaps, and provided that what is stored per master is stored for at least one master. Where the provision fails the claim is false: an entry of fewer than 40 bytes that declares bitmap data it does not hold, or anchors, masks, hints or guides in no master, decompiles to as many records as a 30-bit number declares.

* Model: M_Bitmap, M_Container, M_Glyph, M_Json, M_Options, M_Simple, M_Stream, M_Table, M_Text, M_TrueType. Specification: S_Size, S_Stream.
* Theorems (Prop_Size): `C107_proportional`, `C107_image_refuted`, `C107_bitmaps_refuted`, `C107_anchors_refuted`, `C107_mask_refuted`, `C107_global_mask_refuted`, `C107_guides_refuted`, `C107_glyph_refuted`.
* False as stated for all entries: reading past the end of an entry gives zeros instead of an exception, so a bitmap that declares 2k bytes and holds none decompiles to k bytes, and records of no master take no bytes. C107_proportional proves the bound for every entry type and every input otherwise (S_Size.stored lists the provisions; asm_in_proportion is what is asked of fontTools' disassembler).

### C108 Compiling raises only the exceptions of the entry type (proved)

Compiling an entry with decompiled data, changed in any way that keeps its form, comes to an end, and raises nothing but the exceptions that belong to its type: a number too big for its field, text that cp1252 has not, a missing key or master, a list of another length, an unknown name. Each of these exceptions is raised by some data. The entry keeps its data when there is an exception. Entries of doubles are always compiled; kerning pairs of multiple masters never are.

* Model: M_Bitmap, M_Container, M_Float, M_Glyph, M_Options, M_Simple, M_Stream, M_Table, M_Text, M_TrueType. Specification: S_CompileRaises, S_Raises.
* Theorems (Prop_CompileRaises): `C108_raises`, `C108_compile`, `C108_font`, `C108_all_raised`, `C108_doubles`, `C108_kern_pair`.
* Data of another form, doubles that are no doubles and negative bit numbers are excluded: the model has TypeError or StructError for them, where the code may raise others. The exceptions of fontTools' assembler and of the angle conversion are a parameter.

### C109 Guides keep their angles when a file is saved (partial)

Guides of a font or a glyph that are read from a file and written again are in the same places with the same angles, however often this is done, on any machine whose math functions are accurate to two units in the last place. At most the slope of a guide, in ten-thousandths, moves by one towards zero per save.

* Model: M_Glyph, M_Stream. Specification: S_Angle, S_Entry, S_Glyph, S_Stream.
* Theorems (Prop_Angle): `C109_slope`†, `C109_saves`†, `C109_guides`†, `C109_glyph`†, `C109_exact_refuted`†.
* False of the code: the slope is truncated instead of rounded, so with an accurate math library it can lose one with each save (C109_exact_refuted; CPython on Linux does this to 4, 6, 8, 10 and about a fifth of all slopes up to 20000). Proved with real analysis: places are kept, a slope is the same or one nearer to zero after a save, the angle is at most 0.006 degrees away, and guides that were read can always be written. The theorems use the axioms of Coq's real numbers.

### C110 A file that was cut off is not taken for a whole one (partial)

Reading a VFB file whose last bytes are missing raises an exception, or does not return; it never returns as if the font were complete, with fewer entries than the file had.

* Model: M_Container, M_Stream. Specification: S_File, S_Stream.
* Theorems (Prop_Cut): `C110_cut`, `C110_marker`, `C110_lost`, `C110_noticed_refuted`.
* Proved: a cut file is accepted at two kinds of places only. Inside of the end marker nothing is lost. After the first byte of an entry whose id has 2 as the low byte (weight name 1026 among others) the remaining byte is taken for the end marker, and that entry and all that follow are lost without an exception (C110_lost; C110_noticed_refuted). At all other places reading raises or, as in C12, does not return.

### C111 Saving a file again does not change it (partial)

Let a VFB be read and decompiled, and all its data be writable. Saving it can change the file, but when the saved file is opened and saved again, with any options of the same kind and however often, every save writes exactly the same bytes.

* Model: M_Bitmap, M_Build, M_Container, M_Glyph, M_Options, M_Simple, M_Stream, M_Table, M_Text, M_TrueType, M_Ufo. Specification: S_Build, S_Entry, S_File, S_Glyph, S_Resave, S_Table, S_Text, S_TrueType, S_Tth.
* Theorems (Prop_Twice): `C111_file`†, `C111_often`†, `C111_refuted`.
* Proved for files whose data is in the domain of the compilers (S_Table.can_be_written, the same condition as in C16 and C95): the second save, and every later one, writes the bytes of the first. Without it the property is false: C111_refuted gives a file with a primary instance whose location changes with every save (C59); slopes of guides can do the same (C109). Depends on the axioms of Coq's Reals through Flocq.

### C112 Edits arrive in the file and nothing else changes (partial)

After a VFB file was read and entries of it were given new data (bytes, or decompiled data that can be compiled), saving gives a file with the same header and the same entries in the same order, in which every edited entry holds exactly the new data and every other entry, also of a type that is not known, holds the bytes it had. Reading that file gives the entries as they were edited, with the same number of masters and stems.

* Model: M_Bitmap, M_Container, M_Float, M_Glyph, M_Options, M_Simple, M_Stream, M_Table, M_Text, M_TrueType. Specification: S_Entry, S_File, S_Glyph, S_Options, S_Table, S_Text, S_TrueType.
* Theorems (Prop_Edit): `C112_edits`†, `C112_masters_refuted`.
* Proved for all files and all edits that leave the entries FL Version, Master Count, TrueType Stems (which concern the reading of other entries) and MM Kern Pair (fixed size) as they are. Refuted for an edit of Master Count: the number of masters that was read is used for the data of the other entries, so the positions of an added master are lost.

### C113 The order of decompiling and compiling does not matter (partial)

A program that reads a VFB file, decompiles and compiles its entries in any order and as often as it likes (single entries or all of them, also after exceptions), and then saves it, saves a file with the same entries in the same order: entries that were not decompiled have the bytes they had, and each other entry the bytes that its decompiled data is compiled to. Reading the saved file gives the same header and the same data.

* Model: M_Bitmap, M_Container, M_Float, M_Glyph, M_Options, M_Simple, M_Stream, M_Table, M_Text, M_TrueType. Specification: S_Entry, S_File, S_Glyph, S_Options, S_Table, S_Text, S_TrueType.
* Theorems (Prop_History): `C113_any_order`†, `C113_saved_refuted`.
* Proved for all sequences of decompile and compile calls, provided the entries that are decompiled can be written (the conditions of C16). Refuted for programs that also save in between: the size of an entry is frozen by the first save (C14), so an entry decompiled afterwards whose bytes change makes the next saved file unreadable.

### C114 Each option of vfb2ufo changes what it is about and nothing else (proved)

For every VFB file and all arguments of vfb2ufo: with --base64 the UFOs are the same but for the TrueType commands of the glyphs, which are the base64 encoding of the text, and the export fails only if it fails without or a command is not ASCII. With --keep-groups and --add-kerning-groups, only the feature code and the groups differ: classes that are neither for kerning nor for metrics are either groups or class definitions at the beginning of the feature code, with the same glyphs, and with --add-kerning-groups there is a definition for each kerning group. With --no-postscript-hints every file that can be exported still can, and the UFOs are the same but for the hints of the glyphs, the names of points, and the attributes of the font info about hints, which have no values. With --json, --zip, --force, an output path or folder the content of the UFOs is the same and the designspace differs only in the names of its files.

* Model: M_Build, M_Builder, M_Container, M_Designspace, M_Document, M_Export, M_Features, M_FontInfo, M_Glyph, M_Groups, M_Guides, M_Info, M_Labels, M_Master, M_Options, M_Paths, M_Programs, M_PsHints, M_Simple, M_Table, M_Text, M_Tools, M_Tth, M_Ufo, M_Vfb2ufo, M_Helpers, M_TrueType. Specification: S_Build, S_Features, S_Groups.
* Theorems (Prop_Flags, Prop_NoHints): `C114_base64`, `C114_classes`, `C114_keep_groups`, `C114_kerning_groups`, `C114_no_hints`, `C114_form`.
* C114_classes and C114_form: the export fails with the same exception as without the options; C114_base64: it fails if it does without --base64 or if a command is not ASCII. C114_keep_groups compares without and with --keep-groups, C114_kerning_groups without and with --add-kerning-groups (both with --keep-groups). --minimal and --unicode-strings change what is read and are not part of this property.

### C115 Each option of vfb2json does what its help says (partial)

For every VFB file: with --header the JSON has the header that it has without the option and no entries, and can be made of every file with a header. With --no-decompile it can be made of every file it can be made of without; it has the same header and entries, and the bytes of an entry are those that decompile to the data shown without the option. With --roundtrip it shows the same entries with the same data, or with --no-decompile the bytes that the data is compiled to. With --unicode-strings the strings are read as Unicode.

* Model: M_Container, M_Glyph, M_Json, M_Options, M_Simple, M_Stream, M_Table, M_Text, M_Tools, M_Vfb2ufo. Specification: S_Entry, S_File, S_Table.
* Theorems (Prop_JsonOptions): `C115_header`, `C115_no_decompile`, `C115_roundtrip`†, `C115_roundtrip_refuted`, `C115_unicode_refuted`, `C115_ufo_unicode_refuted`.
* The three entry types that are decompiled while a file is read are shown decompiled even with --no-decompile. C115_roundtrip: for data that can be written (C16) and entries of unknown types, which are not compiled. Refuted: with --roundtrip there is no JSON of a file with a pair of MM kerning; --unicode-strings changes nothing for any file, in vfb2json and in vfb2ufo. --minimal changes nothing either (C97_minimal_refuted).

### C116 The option --minimal leaves out guidelines, masks, marks, images, bitmaps and the font's note, and nothing else (proved)

vfb2ufo --minimal writes the same designspace and, for each master, the same UFO as without the option, but without guidelines of the font and the glyphs, the background layer, mark colours, background images, bitmaps and the note of the font info. Groups, kerning and the classes in the features may differ besides only because missing glyphs are dropped from the groups: if all glyphs of the classes are in the font they are the same. If the export works without the option, it works with it or ends with an IndexError; if no glyph of a class is missing, it works.

* Model: M_Build, M_Builder, M_Container, M_Designspace, M_Document, M_Export, M_Features, M_FontInfo, M_Glyph, M_Groups, M_Guides, M_Helpers, M_Info, M_Labels, M_Master, M_Options, M_Paths, M_Programs, M_PsHints, M_Simple, M_Table, M_Text, M_Tools, M_TrueType, M_Tth, M_Ufo, M_Vfb2ufo. Specification: S_Build.
* Theorems (Prop_Minimal): `C116_minimal`, `C116_complete`, `C116_fails`.
* C116_minimal: for all files and arguments the output with the option is minimal_ufo of the one without, and the designspace is the same. C116_complete: with all glyphs of the classes in the font, groups, kerning and features are the same too, and the export works. C116_fails: otherwise the only new exception is an IndexError (kerning of a master).

### C117 What an entry says about a glyph stays with that glyph (proved)

If the mark colour, the user data, the background image or the bitmaps of one glyph are changed in a VFB that can be exported to UFO, the changed VFB can be exported too, with the same designspace document, and each UFO is the same as before except for that one item in the lib of that glyph: the other glyphs, the outlines, the hints, the kerning, the groups, the features, the info and the lib of the font do not change. If the code points, the anchors, the guides or the mask of one glyph are changed and both VFBs can be exported, the exports differ in that item of that glyph only (for the mask: in the background layer).

* Model: M_Build, M_Builder, M_Container, M_Designspace, M_Document, M_Export, M_Features, M_FontInfo, M_Glyph, M_Groups, M_Guides, M_Helpers, M_Info, M_Labels, M_Master, M_Options, M_Paths, M_Programs, M_PsHints, M_Simple, M_Table, M_Text, M_Tools, M_TrueType, M_Tth, M_Ufo, M_Vfb2ufo. Specification: S_Build.
* Theorems (Prop_Local, Prop_Local2): `C117_local`, `C117_others`.
* C117_local: mark, user data, background image and bitmaps; the changed VFB is exported. C117_others: code points, anchors and their positions, guides, mask and its metrics, if both are exported. For all entries before and after the changed one and all old and new data. What the item becomes is in C86. The glyph is the one the entry follows, under its own name or, if there are several of that name, with a number. --minimal leaves some of these entries out: then nothing changes.

### C118 TrueType instructions of a glyph get the id of its outline (partial)

In every UFO that is exported from a VFB, each glyph with TrueType instructions, and no other, gets an id which is made from the width of the glyph and its outline with the outlines of its components, so that it does not depend on anything else in the font, and the export ends with these ids for every VFB.

* Model: M_Build, M_Builder, M_Glyph, M_Hash, M_Paths, M_Table, M_Text, M_Ufo. Specification: S_Build, S_Fine, S_Hash, S_Paths, S_Ufo.
* Theorems (Prop_Hash): `C118_ids`, `C118_ends`, `C118_entries`, `C118_endless`, `C118_outlines_only`, `C118_refuted`.
* Refuted where a glyph with instructions is a component of itself or of one of its components: the recursion of the pen has no end (in Python a RecursionError, and no UFO is written). Proved: what the ids are made from, that they are made if there are no such components (also from the entries, with the conditions of C91), and that nothing but the outlines matters. The texts of the pen and their hash are a parameter.

### C119 Glyphs that share no component do not influence each other's export (proved)

Take a set of glyphs that is closed under components in both directions: a component is in the set exactly if the glyph that uses it is. These glyphs are the same in the UFO of every master (metrics, code points, outlines with names of points, components, anchors, guidelines, hints, TrueType commands, other lib data, masks) whatever other glyphs, kerning, groups, features and font info the font has, as long as the indices of components mean the same glyphs and the TrueType stems are the same. (For a glyph whose users are left out this is false: a hinted composite adds names to the points of its components.)

* Model: M_Build, M_Builder, M_Container, M_Designspace, M_Export, M_Features, M_FontInfo, M_Glyph, M_Groups, M_Guides, M_Helpers, M_Info, M_Labels, M_Master, M_Options, M_Paths, M_Programs, M_PsHints, M_Simple, M_Table, M_Text, M_TrueType, M_Tth, M_Ufo. Specification: S_Build, S_Ufo.
* Theorems (Prop_Indep2, Prop_Indep4, Prop_Indep3, Prop_Indep): `C119_ufos`, `C119_edited`, `C119_added`, `C119_family`, `C119_others`, `C119_users_matter`.
* C119_ufos: the whole export of two fonts that have a family of glyphs in common, with TrueType commands, masks and lib. C119_edited: for files, an edit of outline, hints, metrics, guides or TrueType programs in a glyph entry leaves the families without that glyph as they are. C119_added: for files, a glyph without components that is added at the end leaves all other glyphs of the UFOs as they are. C119_family: a family exported alone gives the outlines, names of points and PostScript hint sets it has in the whole export, from any state of the labels. C119_others: the same for two fonts. C119_users_matter: the condition on users of components is needed. The theorems speak of exports that succeed.
