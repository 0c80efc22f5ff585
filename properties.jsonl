{"id": "C01", "title": "Encoded integers round-trip", "statement": "Whatever integer is written with write_value and can be represented, read_value with the same signedness gives the same integer back, consumes exactly the bytes that were written and leaves every following byte unread. This also holds for the long form (shortest=False).", "quantifier": "every integer in the signed 32-bit range (signed) or from -1131 to 2^32-1 (unsigned), and every byte string that follows it in the stream", "why_tests_cant": "There are about 2^33 values and infinitely many continuations; the four length classes meet at boundaries where an off-by-one is only visible at single values.", "anchors": ["src/vfbLib/parsers/value.py: read_value", "src/vfbLib/compilers/value.py: write_value, write_value_long"]}
{"id": "C02", "title": "Encoded integers: out-of-range values are rejected, never truncated; the short forms are minimal and prefix-free", "statement": "write_value either writes bytes that decode to the value or raises struct.error and writes nothing; it raises exactly for integers outside the range of the chosen signedness. The encoding chosen is the shortest one that read_value decodes to that value, and no encoding is a proper prefix of another.", "quantifier": "all integers, both signedness modes, all pairs of encodings", "why_tests_cant": "Unbounded integer domain; minimality and prefix-freedom quantify over all byte strings and pairs of values.", "anchors": ["src/vfbLib/compilers/value.py: write_value, write_value_long", "src/vfbLib/parsers/value.py: read_value"]}
{"id": "C03", "title": "Decoding an encoded integer is total and has a fixed error discipline", "statement": "For every byte string, read_value either returns an integer in [-2^31, 2^32) after consuming 1, 2 or 5 bytes (fewer at the end of the data), or raises EOFError (exactly when the next byte is 0 or there is none) or ValueError (exactly when the next byte is 1..31). No other exception, no non-termination.", "quantifier": "every byte string and both signedness modes", "why_tests_cant": "All byte strings.", "anchors": ["src/vfbLib/parsers/value.py: read_value"]}
{"id": "C04", "title": "Truncated encoded integers are noticed", "statement": "If the last byte(s) of an encoded integer are cut off, reading it raises an error instead of returning a different number.", "quantifier": "every integer and every proper prefix of its encoding", "why_tests_cant": "Crash-point style property: any truncation position of any value.", "anchors": ["src/vfbLib/parsers/value.py: read_value"]}
{"id": "C05", "title": "Fixed-width integers round-trip and reject out-of-range values", "statement": "write_int8/16/32 and write_uint8/16/32 followed by the matching read give the same integer and leave the rest of the stream untouched; they raise OverflowError exactly when the value does not fit and write nothing then.", "quantifier": "all integers, all six widths, all continuations of the stream", "why_tests_cant": "Unbounded integer domain and continuations.", "anchors": ["src/vfbLib/parsers/base.py: StreamReader", "src/vfbLib/compilers/base.py: StreamWriter"]}
{"id": "C06", "title": "cp1252 and length-prefixed strings round-trip", "statement": "A string that can be encoded in cp1252 and is written with write_str_with_len is read back unchanged by read_str_with_len, with the following bytes left unread; strings with other characters raise UnicodeEncodeError and nothing is written. Decoding then encoding any decodable bytes gives the same bytes.", "quantifier": "every Unicode string (list of code points) of any length below 2^31 and every byte continuation", "why_tests_cant": "All strings; the 27 remapped and 5 undefined cp1252 positions are easy to get wrong and no sample covers all combinations of lengths and characters.", "anchors": ["src/vfbLib/parsers/base.py: read_str_with_len, read_str", "src/vfbLib/compilers/base.py: write_str_with_len, write_str"]}
{"id": "C07", "title": "Bit list helpers are inverse", "statement": "binaryToIntList(intListToBinary(l)) is the sorted list l for any list of distinct non-negative bit numbers, and intListToBinary(binaryToIntList(v)) = v for any non-negative v; a start offset shifts the result.", "quantifier": "all duplicate-free lists of bit numbers, all non-negative integers, all offsets", "why_tests_cant": "Unbounded lists and integers.", "anchors": ["src/vfbLib/helpers.py: binaryToIntList, intListToBinary"]}
{"id": "C08", "title": "Bit list conversion terminates", "statement": "binaryToIntList returns for every integer it is given.", "quantifier": "all integers, including negative ones", "why_tests_cant": "Non-termination can not be observed by a test that returns.", "anchors": ["src/vfbLib/helpers.py: binaryToIntList", "src/vfbLib/parsers/truetype.py: convert_int_to_flags_options"]}
{"id": "C09", "title": "Entry framing round-trips", "statement": "The header and data of an entry, written one after the other, are read back as an entry with the same id and the same data, and the stream is positioned at the first byte after it. Ids are 15 bit; data may be any length below 2^32 (switching to the long size form above 65535). The data of an MM Kern Pair entry must have the size that follows from the number of masters, which is what the reader goes by. An entry without data is written like one of no bytes.", "quantifier": "every id below 0x8000 except MMKernPair (and MMKernPair when its data has the length derived from the master count), every data length below 2^32, every continuation", "why_tests_cant": "All data lengths including both sides of 65535 and all continuations.", "anchors": ["src/vfbLib/vfb/entry.py: VfbEntry.header, _read_entry, read"]}
{"id": "C10", "title": "Writing a Vfb and reading it back gives the same Vfb", "statement": "For a Vfb whose entries all hold compiled data and whose only BlockFileDataEnd entry is the last one, reading the output of write_bytes with a fresh Vfb gives the same header fields and the same sequence of (id, data) entries, except that the three entries that are decompiled while reading (FL Version, Master Count, TrueType Stems) hold their decompiled value, and it stops exactly at the end of the output.", "quantifier": "every header and every finite sequence of entries of any length and any data sizes", "why_tests_cant": "All entry sequences; whole-file composition of framing.", "anchors": ["src/vfbLib/vfb/vfb.py: Vfb.write_bytes, read_stream, read_bytes", "src/vfbLib/vfb/entry.py"]}
{"id": "C11", "title": "Reading a file and writing it unchanged is byte-identical", "statement": "If a VFB file has the canonical 44 byte header and canonical size forms, and its FL Version, Master Count and TrueType Stems entries are in the form the compilers write, then read_bytes followed by write_bytes gives the same bytes; unknown entries and undecoded data are passed through verbatim.", "quantifier": "every canonical file, any number and kind of entries, including unknown ids and arbitrary data", "why_tests_cant": "All files.", "anchors": ["src/vfbLib/vfb/vfb.py", "src/vfbLib/vfb/entry.py", "src/vfbLib/vfb/header.py"]}
{"id": "C12", "title": "Reading a stream terminates", "statement": "read_stream returns or raises for every byte stream.", "quantifier": "every byte string, in particular every truncation of a valid file", "why_tests_cant": "The interesting behaviour is divergence at a crash point (truncated file), which a passing test cannot show.", "anchors": ["src/vfbLib/vfb/vfb.py: Vfb.read_stream", "src/vfbLib/vfb/entry.py: _read_entry"]}
{"id": "C13", "title": "File header codec", "statement": "Compiling a header dict and parsing it gives the same dict; parsing accepts exactly the FontLab 3+ signature and version bytes and raises AssertionError otherwise; the compiled header is always 44 bytes and its data offset field says so.", "quantifier": "all header dicts with fields in range, all 44 byte (and longer) header blocks", "why_tests_cant": "All byte strings / all field values.", "anchors": ["src/vfbLib/parsers/header.py", "src/vfbLib/compilers/header.py", "src/vfbLib/vfb/header.py"]}
{"id": "C14", "title": "The header of an entry always describes its current data", "statement": "Whatever sequence of data assignments, id assignments, compile, decompile and header accesses is performed on an entry, its header states the current id and the length of the current compiled data, so a file can be written, edited and written again.", "quantifier": "every finite history of operations on an entry", "why_tests_cant": "History property; a test only sees one history.", "anchors": ["src/vfbLib/vfb/entry.py: VfbEntry.header (cached_property), data, size"]}
{"id": "C15", "title": "decompile and compile are idempotent and fail atomically", "statement": "Calling decompile (compile) twice has the same effect as once. If the parser or compiler raises, the entry's data is unchanged and the parser error is recorded in any_errors; entries of other kinds are not touched. Reading, decompiling, compiling and writing never change the options the font was opened with; decompiling, compiling and writing keep the number, order and ids of the entries and what is known of the font, also when they fail.", "quantifier": "every entry state and every parser/compiler behaviour (returning any value or raising any exception)", "why_tests_cant": "Quantifies over all parsers, compilers and failure points.", "anchors": ["src/vfbLib/vfb/entry.py: compile, decompile", "src/vfbLib/vfb/vfb.py: compile, decompile"]}
{"id": "C16", "title": "Decompile, compile, write gives an equivalent file", "statement": "Decompiling all entries of a Vfb and writing it yields a file that, read and decompiled again, gives the same decompiled entries.", "quantifier": "every Vfb all of whose entries decompile and are in the writable domain of their compiler", "why_tests_cant": "Whole-file composition over all entry kinds and values.", "anchors": ["src/vfbLib/vfb/vfb.py", "src/vfbLib/vfb/entry.py", "src/vfbLib/constants.py: parser_classes"]}
{"id": "C17", "title": "Entries of unknown type can be written back", "statement": "An entry whose id is not in the table is kept: reading and writing the file, with or without decompiling, keeps its id and data.", "quantifier": "every unknown id and every data", "why_tests_cant": "All ids and data, and all interleavings of decompile and write.", "anchors": ["src/vfbLib/vfb/entry.py: id setter, compile", "src/vfbLib/constants.py: parser_classes"]}
{"id": "C18", "title": "drop_keys removes exactly the requested entries", "statement": "Reading with drop_keys gives the entries of a plain read with exactly the entries of those ids removed, in the same order and with the same data; the values derived from the dropped entries (platform, master count, stem counts) are the same as in a plain read.", "quantifier": "every file and every set of ids", "why_tests_cant": "All files and key sets.", "anchors": ["src/vfbLib/vfb/vfb.py: read_stream, drop_keys"]}
{"id": "C19", "title": "Value list entries round-trip", "statement": "EncodedValueList, EncodedValueListWithCount, Links, Glyph Sketch, VDMX, anisotropic interpolation maps, anchors, anchor properties, kerning and metrics class flags, mask metrics: compiling a value and parsing the bytes gives the same value and consumes all bytes.", "quantifier": "all lists of any length with members in the encodable range", "why_tests_cant": "Unbounded lists and values.", "anchors": ["src/vfbLib/parsers/base.py", "src/vfbLib/compilers/base.py", "src/vfbLib/parsers/glyph.py", "src/vfbLib/compilers/glyph.py", "src/vfbLib/parsers/truetype.py", "src/vfbLib/parsers/mm.py"]}
{"id": "C20", "title": "Fixed layout numeric entries round-trip", "statement": "Int16, SignedInt16, SignedInt32, IntList, double, double list, PANOSE, glyph origin, glyph unicodes (BMP and non-BMP), gasp, axis mappings, master location, master kern pair and PostScript info: compiling then parsing gives the same value; parsing then compiling any accepted data gives the same bytes.", "quantifier": "all values in range; all byte strings the parser accepts", "why_tests_cant": "All values and byte strings.", "anchors": ["src/vfbLib/parsers/numeric.py", "src/vfbLib/compilers/numeric.py", "src/vfbLib/parsers/ps.py", "src/vfbLib/compilers/ps.py", "src/vfbLib/parsers/mm.py", "src/vfbLib/compilers/mm.py", "src/vfbLib/parsers/fl3.py", "src/vfbLib/compilers/fl3.py"]}
{"id": "C21", "title": "Unicode ranges, export options and hinting option bit fields round-trip", "statement": "The bit list entries (Unicode ranges, export options, PostScript hinting options global and per glyph) survive compile then parse, and parse then compile gives the original bytes.", "quantifier": "every subset of the bits of the field; every field value", "why_tests_cant": "2^128 subsets.", "anchors": ["src/vfbLib/parsers/numeric.py: UnicodeRangesParser", "src/vfbLib/parsers/options.py: ExportOptionsParser", "src/vfbLib/parsers/ps.py"]}
{"id": "C22", "title": "Run-length encoding of bitmaps is lossless", "statement": "The bytes written for a bitmap decode to exactly the original pixels, in rows of the same width; each chunk written fits a signed 8-bit specifier and the byte count that precedes the data is exact.", "quantifier": "every bitmap: all sequences of byte values of any length, any row structure", "why_tests_cant": "All byte sequences; run lengths at 2, 3, 127, 128, 129 and multiples interact with buffered verbatim data.", "anchors": ["src/vfbLib/compilers/bitmap.py: _encode_bitmap, flush_buffer", "src/vfbLib/parsers/bitmap.py: _read_bitmap, _decode_bitmap"]}
{"id": "C23", "title": "Bitmap entries round-trip on both platforms", "statement": "A background image or list of glyph bitmaps that was parsed can be compiled again, and compiles to data that parses to the same value, whatever the writer platform of the file is.", "quantifier": "every bitmap entry, platforms macos and windows", "why_tests_cant": "All bitmaps, both platforms.", "anchors": ["src/vfbLib/compilers/bitmap.py: _compile_bitmap_data", "src/vfbLib/parsers/bitmap.py: _parse_bitmap_data"]}
{"id": "C24", "title": "Bitmap parsing never reads past the declared length and terminates", "statement": "For any data, reading a run-length encoded bitmap consumes at most the declared number of bytes, terminates, and never loops or reads following fields as pixel data.", "quantifier": "all byte strings and declared lengths", "why_tests_cant": "All byte strings.", "anchors": ["src/vfbLib/parsers/bitmap.py: _read_bitmap"]}
{"id": "C25", "title": "Glyph outlines round-trip in every master", "statement": "Compiling nodes and parsing the result gives the same nodes: types, flags, and absolute coordinates of every point in every master; the stored value count is as documented.", "quantifier": "every list of nodes with flags 0..15, any number of masters >= 1, any coordinates whose differences fit 32 bit", "why_tests_cant": "All node lists; relative coordinate accumulation over unbounded sequences in several masters at once.", "anchors": ["src/vfbLib/compilers/glyph.py: OutlinesCompiler, compile_outlines", "src/vfbLib/parsers/glyph.py: parse_outlines, read_absolute_point"]}
{"id": "C26", "title": "Glyph entries round-trip", "statement": "Compiling a glyph dict (name, outlines, metrics, hints and hint masks, guides, components, kerning, imported binary data, TrueType hinting) and parsing it gives the same dict, up to the documented omission of empty optional parts.", "quantifier": "every well-formed glyph dict, any number of masters and any size of each part", "why_tests_cant": "All glyphs; nine independently optional sections.", "anchors": ["src/vfbLib/compilers/glyph.py: GlyphCompiler", "src/vfbLib/parsers/glyph.py: GlyphParser"]}
{"id": "C27", "title": "Glyph parsing terminates and rejects unknown sections", "statement": "For every byte string, the glyph parser returns a value or raises; it never loops.", "quantifier": "all byte strings", "why_tests_cant": "All byte strings, non-termination.", "anchors": ["src/vfbLib/parsers/glyph.py: GlyphParser._parse, parse_binary"]}
{"id": "C28", "title": "TrueType hinting commands round-trip", "statement": "Every list of visual TrueType hinting commands with the parameters each command requires is compiled and parsed back unchanged.", "quantifier": "all lists of the 14 commands with all parameter values in range", "why_tests_cant": "All command lists.", "anchors": ["src/vfbLib/truetype.py: TT_COMMANDS", "src/vfbLib/compilers/glyph.py: InstructionsCompiler", "src/vfbLib/parsers/glyph.py: parse_instructions"]}
{"id": "C29", "title": "TrueType stems, PPEMs, zones and zone deltas round-trip", "statement": "The TrueType Stems, Stem PPEMs (all three entry kinds), Zones and Zone Deltas entries survive compile then parse; zone deltas as a mapping zone -> ppm -> shift.", "quantifier": "all stem/zone lists and delta mappings in range", "why_tests_cant": "Unbounded lists and nested mappings.", "anchors": ["src/vfbLib/parsers/truetype.py", "src/vfbLib/compilers/truetype.py"]}
{"id": "C30", "title": "TrueType info round-trips", "statement": "A TrueType info dict with all required keys survives compile then parse, including head flags and options.", "quantifier": "all TrueType info dicts with values in range, all subsets of optional keys", "why_tests_cant": "Many optional keys and value ranges.", "anchors": ["src/vfbLib/parsers/truetype.py: TrueTypeInfoParser", "src/vfbLib/compilers/truetype.py: TrueTypeInfoCompiler, convert_flags_options_to_int"]}
{"id": "C31", "title": "TrueType info parsing terminates", "statement": "Parsing a TrueType info entry returns or raises for every byte string.", "quantifier": "all byte strings, in particular truncations of valid data", "why_tests_cant": "Divergence is not observable by a returning test.", "anchors": ["src/vfbLib/parsers/truetype.py: TrueTypeInfoParser._parse"]}
{"id": "C32", "title": "Entry parsers terminate on all input", "statement": "Every entry parser returns or raises for every byte string, within a number of steps linear in the input plus the counts that occur in it.", "quantifier": "all byte strings, all entry parsers", "why_tests_cant": "All byte strings.", "anchors": ["src/vfbLib/parsers/"]}
{"id": "C33", "title": "Name records round-trip", "statement": "Name records with any text survive compile then parse; Mac Roman records as long as their characters are in Mac Roman. The characters of a record are those that its numbers stand for: in Mac OS Roman for platform 1 with encoding 0, else in Unicode; U+FEFF stands for a number that is no character.", "quantifier": "all lists of name records, all code points", "why_tests_cant": "All strings and platform/encoding combinations.", "anchors": ["src/vfbLib/parsers/text.py: NameRecordsParser", "src/vfbLib/compilers/text.py: NameRecordsCompiler"]}
{"id": "C34", "title": "Feature code text is normalised once and for all", "statement": "Parsing OpenType feature text, compiling it and parsing again gives the same lines; no non-blank line is lost, changed or reordered, there are never more than two consecutive blank lines, and the parser accepts every text.", "quantifier": "all texts", "why_tests_cant": "All texts; interaction of blank-line filtering, trailing-line removal and line separators.", "anchors": ["src/vfbLib/parsers/text.py: OpenTypeStringParser._parse", "src/vfbLib/compilers/text.py: OpenTypeStringCompiler"]}
{"id": "C35", "title": "Text entries round-trip", "statement": "String entries survive compile then parse when they do not start or end with NUL; parse then compile keeps the bytes up to leading/trailing NULs; vendor ids are padded to four bytes.", "quantifier": "all cp1252 strings", "why_tests_cant": "All strings.", "anchors": ["src/vfbLib/parsers/text.py: StringParser", "src/vfbLib/compilers/text.py: StringCompiler, VendorIdCompiler"]}
{"id": "C36", "title": "The string encoding chosen for the file is used", "statement": "Strings of a file written on macOS (or read with unicode_strings=True) are decoded as UTF-8, others as cp1252.", "quantifier": "every file, both platforms, both settings of unicode_strings, all strings", "why_tests_cant": "Needs all orders of entry creation and decompilation, because the choice is stored in mutable class state.", "anchors": ["src/vfbLib/vfb/entry.py: id setter", "src/vfbLib/parsers/base.py: BaseParser.__init__", "src/vfbLib/vfb/vfb.py: read_stream"]}
{"id": "C37", "title": "Guides and guide properties round-trip", "statement": "Global and glyph guides survive compile then parse as far as positions and structure are concerned; guide properties (index, colour, name) survive completely. A colour that is none raises ValueError.", "quantifier": "all guide lists, all masters, all #rrggbb colours, all names", "why_tests_cant": "All lists and colours.", "anchors": ["src/vfbLib/parsers/guides.py", "src/vfbLib/compilers/guides.py"]}
{"id": "C38", "title": "FL Version, mapping mode, custom cmaps, PCLT and binary tables round-trip", "statement": "These small structured entries survive compile then parse.", "quantifier": "all values in range", "why_tests_cant": "All values.", "anchors": ["src/vfbLib/parsers/flversion.py", "src/vfbLib/parsers/cmap.py", "src/vfbLib/parsers/pclt.py", "src/vfbLib/parsers/binary.py", "src/vfbLib/parsers/base.py: MappingModeParser"]}
{"id": "C39", "title": "Font options round-trip", "statement": "A font options dict (including the packed auto-hinting and kerning expansion flags) survives compile then parse.", "quantifier": "all option dicts with known keys and values in range", "why_tests_cant": "All dicts.", "anchors": ["src/vfbLib/parsers/options.py", "src/vfbLib/compilers/options.py"]}
{"id": "C40", "title": "Whatever a parser returns can be compiled", "statement": "For every byte string that an entry's parser accepts, the entry's compiler accepts the parsed value, and what it writes parses to the same value.", "quantifier": "all entry kinds, all byte strings", "why_tests_cant": "All byte strings; the parser may return values outside the compiler's domain.", "anchors": ["src/vfbLib/parsers/", "src/vfbLib/compilers/"]}
{"id": "C41", "title": "GDEF data round-trips", "statement": "Glyph GDEF data (class, anchors, carets, OpenType classes) survives compile then parse, up to omission of empty parts.", "quantifier": "all GDEF dicts", "why_tests_cant": "All dicts.", "anchors": ["src/vfbLib/parsers/glyph.py: GlyphGDEFParser", "src/vfbLib/compilers/glyph.py: GlyphGDEFCompiler"]}
{"id": "C42", "title": "Glyph access gives every glyph once, under a unique name, with its data", "statement": "vfb.keys()/items()/[] list one glyph object per glyph entry, in file order, under pairwise distinct names; the first glyph with a name keeps that name; the glyph data is that of the entry.", "quantifier": "all files, including any pattern of duplicate names", "why_tests_cant": "All name sequences, including names that already look like generated ones.", "anchors": ["src/vfbLib/vfb/vfb.py: _decompile_glyphs", "src/vfbLib/vfb/glyph.py: VfbGlyph.__init__"]}
{"id": "C43", "title": "Drawing a glyph emits well-formed contours with all points", "statement": "draw and drawPoints emit every node of the glyph in order, with begin/end (moveTo/closePath) calls balanced.", "quantifier": "all node lists and master indices", "why_tests_cant": "All node sequences.", "anchors": ["src/vfbLib/vfb/glyph.py: draw, drawPoints"]}
{"id": "C44", "title": "Merging masters only touches the merged master", "statement": "GlyphCompiler.merge copies the points of master m of every node from the m-th source into master m of the target and changes nothing else; it rejects sources with different types or flags.", "quantifier": "all glyphs, any number of masters and nodes", "why_tests_cant": "All sizes.", "anchors": ["src/vfbLib/compilers/glyph.py: GlyphCompiler.merge", "src/vfbLib/vfb/pens.py"]}
{"id": "C45", "title": "Kerning groups are disjoint per side", "statement": "In the groups passed to the UFO, a glyph is member of at most one first-side and at most one second-side kerning group, and the first group in order wins.", "quantifier": "all VFB classes, flags and glyph orders", "why_tests_cant": "All group structures.", "anchors": ["src/vfbLib/ufo/groups.py: build_glyph_to_group_maps, rebuild_kerning_groups, transform_groups"]}
{"id": "C46", "title": "Groups keep exactly their existing glyphs, key glyph first", "statement": "With skip_missing_group_glyphs, the glyphs of a UFO group are exactly those of the VFB class that exist in the font, in the same order, with the key glyph moved to the front; a group that becomes empty is omitted.", "quantifier": "all classes and glyph orders", "why_tests_cant": "All group structures.", "anchors": ["src/vfbLib/ufo/groups.py: transform_groups, check_for_missing_glyphs"]}
{"id": "C47", "title": "Kerning values are never lost or attributed to the wrong pair", "statement": "For each master, every kerning pair of the VFB appears in the UFO kerning with its value under the names of the groups of which the glyphs are key glyphs, except zero values that are not exceptions; no other pair appears.", "quantifier": "all kerning tables, groups and masters", "why_tests_cant": "All kerning tables.", "anchors": ["src/vfbLib/ufo/kerning.py"]}
{"id": "C48", "title": "Timestamps convert back and forth", "statement": "A timestamp converted to a date and back is the same timestamp, for all dates from 1970 on that fit; earlier ones are clamped.", "quantifier": "all 32-bit timestamps", "why_tests_cant": "2^32 values, two's complement wrap-around.", "anchors": ["src/vfbLib/ufo/time.py"]}
{"id": "C49", "title": "Point labels are unique", "statement": "Whatever order labels are requested in, each point gets exactly one label, different points get different labels, and asking again returns the same label.", "quantifier": "all request histories", "why_tests_cant": "History property with collision resolution loop.", "anchors": ["src/vfbLib/ufo/glyph.py: get_point_label"]}
{"id": "C50", "title": "Contours are converted without losing points", "statement": "Converting a VFB node list to UFO contours gives one contour per VFB contour, which keeps every point in order and draws the same path. A curve that returns to the start of a closed contour is joined with the start; an explicit line to it is kept. Open contours stay open. Points keep their labels and smoothness.", "quantifier": "all node lists in which every contour starts with a move, all masters, all labels", "why_tests_cant": "All node sequences.", "anchors": ["src/vfbLib/ufo/paths.py"]}
{"id": "C51", "title": "Stem and zone names used in the UFO hinting data are unique and complete", "statement": "The UFO lib holds every TrueType stem and zone of the VFB under a name of its own: named stems under their name, others under a number in their direction; with width, direction and the ppm from which the stem is rounded to each number of pixels (of several numbers for the same ppm the biggest); zones with position, side, width and deltas.", "quantifier": "all stem/zone lists including duplicate and empty names", "why_tests_cant": "All name patterns.", "anchors": ["src/vfbLib/ufo/builder.py:set_tt_stem_ppms, set_tt_stem_ppms_1, set_tt_stems, set_tt_zones, set_tt_zone_deltas, build_tt_stems_lib", "src/vfbLib/ufo/tth.py:transform_stem_rounds"]}
{"id": "C52", "title": "PostScript hints are normalised consistently", "statement": "Hint normalisation keeps the two edge positions of a stem, and ghost hints keep their special width. A link is resolved to a stem whose edges are its two nodes, or to a ghost hint at its node; a link between two nodes never becomes a ghost hint. The exporter and the glyph API resolve hints and links to the same stems in the same order. Hint masks are turned into hint sets: for each node where hints are replaced, the stems of its last set that has any, each once, under the label of that node.", "quantifier": "all hints, links, nodes, masters and hint masks, after every history of point labels", "why_tests_cant": "All values.", "anchors": ["src/vfbLib/ufo/pshints.py", "src/vfbLib/vfb/glyph.py"]}
{"id": "C53", "title": "Number of masters is consistent with the number of axes", "statement": "When master data is missing, the exporter completes it to 2^axes masters.", "quantifier": "all axis counts 0..4 and numbers of present masters", "why_tests_cant": "Covers configurations absent from the test fonts.", "anchors": ["src/vfbLib/ufo/builder.py: fix_masters_count"]}
{"id": "C54", "title": "Every glyph of the VFB reaches the UFO under its own name", "statement": "The exporter keeps one glyph per glyph entry, under pairwise distinct names, in file order.", "quantifier": "all sequences of glyph entries", "why_tests_cant": "All name sequences; position in the file matters.", "anchors": ["src/vfbLib/ufo/builder.py"]}
{"id": "C55", "title": "Font info conversions are exact", "statement": "Family class, weight class clamp, code page and selection bit conversions are exact inverses or clamps as documented.", "quantifier": "all field values", "why_tests_cant": "All integers.", "anchors": ["src/vfbLib/ufo/info.py"]}
{"id": "C56", "title": "A failing write does not destroy the existing file", "statement": "If Vfb.write(path) raises, the file at path still has its previous content; in particular no truncated VFB file is left behind.", "quantifier": "every Vfb, every entry at which compiling or writing fails, every previous content of the file", "why_tests_cant": "The failure can happen at any entry and with any exception; a test shows one failure point.", "anchors": ["src/vfbLib/vfb/vfb.py: Vfb.write, Vfb.write_bytes, Vfb.compile", "src/vfbLib/vfb/entry.py: VfbEntry.size, VfbEntry.header"]}
{"id": "C57", "title": "A Vfb object can be reused", "statement": "Reading a second file with the same Vfb object gives the same header, entries and derived values as reading it with a fresh object.", "quantifier": "every pair of files read one after the other with one Vfb object", "why_tests_cant": "It is a property of histories: what leaks from the first read depends on which entries both files contain.", "anchors": ["src/vfbLib/vfb/vfb.py: Vfb.clear, Vfb.read_bytes, Vfb.read_stream"]}
{"id": "C58", "title": "Glyph masks round-trip", "statement": "Compiling a glyph mask (weight vector and outlines) and parsing it gives the same mask: every weight is written as the integer it was read from, although it is a float in between.", "quantifier": "all weight vectors whose weights come from the 32 bit integers of a file, all outlines in any number of masters, and all mask entries that the parser accepts", "why_tests_cant": "The weights go through a floating point division and multiplication; that rounding returns the integer has to be known for all 2^32 of them.", "anchors": ["src/vfbLib/parsers/glyph.py: MaskParser", "src/vfbLib/compilers/glyph.py: MaskCompiler"]}
{"id": "C59", "title": "Primary instances keep their locations", "statement": "Reading the primary instances of a file and writing them again keeps all names and all axis values, however often the file is saved.", "quantifier": "all lists of instances, all values of the format (32 bit integers, in units of 1/10000)", "why_tests_cant": "Whether int(10000 * (v / 10000)) is v depends on the rounding error of each v; a few sample locations do not show the ones that change.", "anchors": ["src/vfbLib/parsers/mm.py: PrimaryInstancesParser", "src/vfbLib/compilers/mm.py: PrimaryInstancesCompiler"]}
{"id": "C60", "title": "The name of an entry type identifies it", "statement": "Two entries have the same key (name) only if they have the same id, also for ids that are not in the table; the names and the ids that are ignored in minimal mode denote the same entries.", "quantifier": "all pairs of ids, known and unknown", "why_tests_cant": "All ids, including the unknown ones; the table is the same list written twice.", "anchors": ["src/vfbLib/constants.py: parser_classes, ignore_minimal, ignore_minimal_keys", "src/vfbLib/vfb/entry.py: id setter, key"]}
{"id": "C61", "title": "Exported TrueType commands refer to the right points, zones and stems", "statement": "The UFO export has one hinting command per TrueType instruction of a glyph, in order, with the code of the instruction; its points are named as in the outline, its zone and stem as in the font lib, and its alignment and delta values are those of the instruction.", "quantifier": "all glyphs, instructions, stems, zones, and all histories of label requests before", "why_tests_cant": "All instruction lists and all orders in which labels are given out.", "anchors": ["src/vfbLib/ufo/tth.py:TTGlyphHints", "src/vfbLib/ufo/glyph.py:get_point_label", "src/vfbLib/ufo/paths.py:build"]}
{"id": "C62", "title": "Extraction of TrueType hinting keeps stems, zones and instructions", "statement": "Extracting the TrueType hinting of a font gives each stem once, under its name or, if that is taken, its name with the first free number, with its width, its direction and its rounding by ppm; each zone once, in the same way, with its position, side, width and its deltas sorted by ppm; and for each glyph with hints one command per instruction, in order, whose points are the point numbers and whose zones and stems are names in the result.", "quantifier": "all fonts with any number of stems, zones, deltas and hinted glyphs, whatever their names, and all orders of the entries", "why_tests_cant": "Names may collide in any way, and the order of the entries is free.", "anchors": ["src/vfbLib/tth.py: extract_truetype_hinting, extract_tt_stems, extract_tt_zones, extract_tt_stem_ppems, extract_tt_stem_ppem_1, extract_glyph_hints, merge_stem_information, merge_zone_information", "src/vfbLib/ufo/tth.py: TTGlyphHints, transform_stem_rounds"]}
{"id": "C63", "title": "The XML of TrueType commands can be read back", "statement": "The text that the export writes into a glyph's lib determines the number of commands and the text of every attribute, whatever characters the names of stems and zones contain; attribute values contain no quotes or angle brackets and read back as they were.", "quantifier": "all lists of commands and all strings", "why_tests_cant": "All strings in names, including quotes and line breaks.", "anchors": ["src/vfbLib/ufo/tth.py:tt_cmd_dict_to_xml, get_xml_tth, set_tth_lib"]}
{"id": "C64", "title": "Drawing into a glyph keeps the outline", "statement": "Contours of lines and quadratic curves drawn into a glyph with its point pen are appended to its nodes so that the glyph draws the same paths in every master, so redrawing a glyph without cubic curves does not change its outline; cubic curves are rejected; a component refers to the glyph of its name, an unknown name is rejected.", "quantifier": "all sequences of well-formed contours of any length, any number of masters", "why_tests_cant": "All contours and all numbers of masters.", "anchors": ["src/vfbLib/vfb/pens.py: VfbGlyphPointPen", "src/vfbLib/vfb/glyph.py: drawPoints, clearContours, getPointPen"]}
{"id": "C65", "title": "Moving classes to the feature code loses nothing", "statement": "When a VFB is exported to UFO, the feature file holds the definitions of exactly the groups that the options send there, then the feature code of the font; classes and code can be read back from it; every group other than a kerning group is in groups.plist or in the feature file and not in both; every group the kerning refers to is in groups.plist.", "quantifier": "all classes, class flags, glyph orders, kerning, feature texts and option combinations", "why_tests_cant": "All sets of classes and all combinations of the options; a test sees one font with the default options.", "anchors": ["src/vfbLib/ufo/builder.py: get_ufo_masters", "src/vfbLib/ufo/groups.py: transform_groups", "src/vfbLib/cmdline.py: vfb2ufo"]}
{"id": "C66", "title": "Kerning class references in the feature code follow the groups", "statement": "In the exported feature code every reference to a kerning class in a pair rule is replaced by the name of the UFO group of the side it stands on, so that the reference names the group that the class became; everything else in the code stays as it is; the classes referred to are defined.", "quantifier": "all lines of feature code, all classes", "why_tests_cant": "All lines of text; a test fixes a few spellings of a rule.", "anchors": ["src/vfbLib/ufo/features.py: rename_kern_classes_in_feature_code", "src/vfbLib/ufo/builder.py: set_feature_code, get_ufo_masters"]}
{"id": "C67", "title": "Guides are exported with their own position, direction, name and colour", "statement": "In the UFO of every master the guidelines are exactly the guides of the VFB, horizontal ones first and in their order, each at its position and direction in that master, with an angle between 0 and 360; a guide has the name and the colour that the guide properties give to it by direction and index, the last one if there are several, and none otherwise; different colours stay different. Green and blue parts of a colour that are no numbers count as 0; a red part that is no number raises ValueError.", "quantifier": "all global and glyph guides, all masters, all guide properties with a positive index and a 24-bit colour", "why_tests_cant": "All lists of guides and properties, all masters, all 2^24 colours.", "anchors": ["src/vfbLib/ufo/guides.py: get_master_guides, apply_guide_properties", "src/vfbLib/ufo/paths.py: _extract_master_guides", "src/vfbLib/ufo/builder.py: get_master_info"]}
{"id": "C68", "title": "The designspace describes the UFOs that were written", "statement": "When a multiple master font is exported, the designspace has one source per master UFO, in order, whose file name is the one the UFO was written to, with the master's name and location; one instance per primary instance, each with its own name, at its location; and each axis with the number of mapping pairs that the font gives for it, the range of their user coordinates and the default at the smallest. The masters go to different files.", "quantifier": "all fonts with distinct non-empty axis names and complete locations, all output paths, all axis mappings", "why_tests_cant": "Tests open a designspace of one font, next to its UFOs; a wrong index, block or directory shows only for other numbers of axes, masters and pairs or other output paths.", "anchors": ["src/vfbLib/ufo/builder.py:VfbToUfoBuilder.get_designspace,add_axis_mappings,write,get_master_path", "src/vfbLib/ufo/designspace.py:get_ds_location"]}
{"id": "C69", "title": "Each master UFO has the glyph data of its own master", "statement": "In the UFO of master m every glyph has the width and height of master m, all code points of its entries in order, its anchors under their names with the positions of master m where the font has positions per master, and its mask glyph the mask's width and height in master m, or the glyph's if the font has none.", "quantifier": "all glyphs, all numbers of masters, all sequences of the entries that follow a glyph entry", "why_tests_cant": "Tests have one or two masters and few anchors; an index of the wrong master or of the wrong anchor shows only with others.", "anchors": ["src/vfbLib/ufo/paths.py:UfoMasterGlyph.build,_extract_master_anchors,_extract_master_mask_metrics", "src/vfbLib/ufo/builder.py:VfbToUfoBuilder.build_mm_glyph,build"]}
{"id": "C70", "title": "Each master UFO has the font info of its own master", "statement": "In the info of master m's UFO ascender, descender, x-height and cap height are those of master m; with PostScript hints exported also blue scale, shift and fuzz, force bold, and the zone and stem lists, of which exactly the values in use are kept; all other attributes are the same in all masters.", "quantifier": "all fonts, all masters, all counts of zones and stems, with and without hints", "why_tests_cant": "The lists have fixed room for fourteen, ten or twelve values, and a count for each; tests have one combination of counts.", "anchors": ["src/vfbLib/ufo/builder.py:VfbToUfoBuilder.get_master_info"]}
{"id": "C71", "title": "Exporting UFOs leaves the Vfb as it was", "statement": "Building UFOs from a Vfb object does not change its entries: a second export gives the same UFOs, and the Vfb can be saved afterwards with the same contents.", "quantifier": "all glyph entries, both settings of the hint option, all sequences of export, export and save", "why_tests_cant": "Tests export once from a freshly read file; the loss shows only when the same object is used again.", "anchors": ["src/vfbLib/ufo/builder.py:VfbToUfoBuilder.build_mm_glyph", "src/vfbLib/vfb/vfb.py:Vfb.write"]}
{"id": "C72", "title": "TrueType programs and control values survive the UFO export", "statement": "When a VFB is exported to UFO, the control values (cvt) and the instructions of the font program and the control value program of the VFB are in the lib of the UFO: each control value under its number with its signed 16 bit value, and each program as a text whose lines, without indentation, are the instructions of the binary program in their order, whatever other TrueType entries there are. A maximum that is left out of the lib was 0 or absent. No such font fails to export.", "quantifier": "all sequences of cvt, prep, fpgm and maxima entries with arbitrary bytes, all disassemblies", "why_tests_cant": "The tests export a few fonts; no test covers every payload, order of entries or indentation pattern, nor odd payload sizes.", "anchors": ["src/vfbLib/ufo/builder.py: set_tt_cvt, set_tt_program, build", "src/vfbLib/ufo/instructions.py: format_assembly", "src/vfbLib/ufo/info.py: set_tt_instructions, default_tt_lib", "src/vfbLib/ufo/glyph.py: set_instructions"]}
{"id": "C73", "title": "Bitmaps of a glyph survive the UFO export", "statement": "For every bitmap of a glyph in the VFB the UFO glyph has one, in the same order, with the same rows from the other end, the same size, advance and pixels per em, and bearings from which the origin can be told. Nothing but the preview is lost.", "quantifier": "all lists of bitmaps, all sizes, origins and rows", "why_tests_cant": "Every size and origin matters; tests look at one bitmap, if at any.", "anchors": ["src/vfbLib/ufo/builder.py: set_glyph_bitmaps"]}
{"id": "C74", "title": "Hinting options that are left out of the UFO are the defaults", "statement": "For the TrueType options stem snap limit, zone ppm, dropout ppm and code ppm, reading the exported UFO with the defaults 68, 48 and 255 for what is left out gives the value of the VFB, for every value and order of the entries.", "quantifier": "all sequences of the four kinds of entries, all values", "why_tests_cant": "The tests check one value of each; that leaving out never hides a value has to hold for all values and histories.", "anchors": ["src/vfbLib/ufo/builder.py: set_tt_pixel_snap, set_tt_zone_stop, set_tt_code_stop, set_tt_dropout_stop"]}
{"id": "C75", "title": "The value tool decodes what it encodes", "statement": "Running the value tool on numbers with --encode and running it again on the hex string it printed, in any number of pieces, with the same signedness, prints the same numbers; numbers that do not fit are refused; decoding always ends, and it prints every value of its input.", "quantifier": "all lists of numbers, both signednesses, all hex strings and ways to cut them into arguments", "why_tests_cant": "Every value and every concatenation of encodings would have to be tried.", "anchors": ["src/vfbLib/value.py: yuri"]}
{"id": "C76", "title": "The JSON of a Vfb tells its entries apart", "statement": "Two Vfb objects with the same JSON dump have the same header and the same entries in the same order: the same types and the same binary or decompiled data. If all entries are binary, they are written as the same file. A failing dump leaves an existing JSON file as it was.", "quantifier": "all pairs of Vfb objects, decompiled or not", "why_tests_cant": "It is a statement about all pairs of objects.", "anchors": ["src/vfbLib/vfb/vfb.py: Vfb.as_dict", "src/vfbLib/vfb/entry.py: VfbEntry.as_dict", "src/vfbLib/vfb/header.py: VfbHeader.as_dict", "src/vfbLib/json.py: write_vfb_json"]}
{"id": "C77", "title": "Existing files are only overwritten with permission", "statement": "Without permission to overwrite, writing the UFOs and the designspace, or the converted VFB, changes no existing file and fails when one of its files exists; then nothing is written. With permission, each UFO and the designspace end up in their own files and no other file is changed.", "quantifier": "all states of the file system, all numbers of masters, all output paths, UFO and JSON output", "why_tests_cant": "The set of existing files and the number of masters are unbounded.", "anchors": ["src/vfbLib/ufo/builder.py: VfbToUfoBuilder.write, get_master_path", "src/vfbLib/cu2qu.py: vfbcu2qu"]}
{"id": "C78", "title": "The tools write to the output path they were given", "statement": "vfb2ufo and vfbcu2qu write to the output path given on the command line; without one they write next to the input file or to the folder given with --path, under the name of the input file.", "quantifier": "all input paths, folders, output paths and options", "why_tests_cant": "It has to hold for all combinations of arguments.", "anchors": ["src/vfbLib/cmdline.py: vfb2ufo", "src/vfbLib/cu2qu.py: vfbcu2qu"]}
{"id": "C79", "title": "Units per em are those of the current data", "statement": "The units per em that the info object of a Vfb reports are the value of its first upm entry, 0 without one, at every moment of the life of the Vfb.", "quantifier": "all Vfb objects and histories of changes", "why_tests_cant": "Histories of reading and changing are unbounded.", "anchors": ["src/vfbLib/vfb/info.py: VfbInfo.unitsPerEm"]}
{"id": "C80", "title": "Master UFOs are compatible", "statement": "For a font whose glyphs have no components and whose nodes and hints have data for every master, exporting all masters succeeds, every master has the same glyphs with the same number of contours, and a contour has the same points (types, smooth flags and names, in order) in two masters if and only if it ends at its start in both or in neither of them. After a contour that closes in only one master, or for components that get names from hinted composites, the masters differ.", "quantifier": "all fonts of glyphs without components, any number of masters, glyphs, contours and nodes, after any history of label requests, all pairs of masters", "why_tests_cant": "Compatibility relates all masters of a font and depends on coordinates of single masters and on labels shared by the passes; tests export a few fonts.", "anchors": ["src/vfbLib/ufo/builder.py: get_ufo_master, get_ufo_masters", "src/vfbLib/ufo/paths.py: UfoMasterGlyph.build, _extract_master_contours, _apply_closepath", "src/vfbLib/ufo/pshints.py: build_ps_glyph_hints", "src/vfbLib/ufo/glyph.py: VfbToUfoGlyph.get_point_label"]}
{"id": "C81", "title": "PostScript hint sets refer to points of the glyph", "statement": "In the exported glyph, the point tag of every PostScript hint set is the name of the point where the hints are replaced. This holds for glyphs without components, unless the node is the first of a contour that ends at its start; there, and in composites, a tag may name no point at all.", "quantifier": "all glyphs without components with valid hint masks, all masters, after any history of label requests", "why_tests_cant": "The tags are made from labels that are shared by all hints of a font and may be renamed when contours are closed; the claim ranges over all outlines, masks and earlier labels.", "anchors": ["src/vfbLib/ufo/pshints.py: build_ps_glyph_hints", "src/vfbLib/ufo/paths.py: _extract_master_ps_hints, _extract_master_contours, _apply_closepath, _finalize_ps_point_labels", "src/vfbLib/ufo/glyph.py: VfbToUfoGlyph.get_point_label"]}
{"id": "C82", "title": "Every entry about the font arrives in its own attribute of the font info", "statement": "After the export, every attribute of the UFO font info has the value of the last VFB entry that is about it, or the default if there is none; the underline position is moved by half the thickness. No two kinds of entries are about the same attribute, so the order of the entries does not matter. Not true of weight, width and year: their attributes do not exist in UFO 3, and the UFO is the same as without them.", "quantifier": "all lists of font entries with data of the types that the parsers make, minimal export or not", "why_tests_cant": "Some seventy attributes are set by several mechanisms, in the order of the entries; that none overwrites another, for any order and any values, is a claim about all lists of entries.", "anchors": ["src/vfbLib/ufo/info.py: VfbToUfoInfo.build_mapping, set_attr, set_tt_info, set_selection, set_tt_gasp, fix_underline_position", "src/vfbLib/ufo/builder.py: VfbToUfoBuilder.build"]}
{"id": "C83", "title": "The exported family keeps its name", "statement": "The family name in the designspace and in the messages is the preferred family name of the VFB, and the style name the preferred style name, if they are not empty. A font that has a family name but no preferred family name should be exported under its family name, but is called Untitled.", "quantifier": "all lists of font entries", "why_tests_cant": "The name is taken from a chain of attributes with defaults; which of them is set depends on all entries of the font.", "anchors": ["src/vfbLib/ufo/info.py: ds_family_name, ds_style_name, ui_name", "src/vfbLib/ufo/builder.py: VfbToUfoBuilder.build, get_designspace"]}
{"id": "C84", "title": "Glyph classes of the VFB become groups", "statement": "Every glyph class of the VFB becomes a group with the members that its text names, in their order; of several classes with the same name the first counts, and texts without a colon are skipped. A malformed class should not stop the export, but a class with two colons does, and members separated by a tab are taken for one glyph.", "quantifier": "all lists of class texts", "why_tests_cant": "The texts are free; splitting, stripping and the handling of duplicates must be right for every list of texts and names.", "anchors": ["src/vfbLib/ufo/builder.py: VfbToUfoBuilder.add_ot_class, build"]}
{"id": "C85", "title": "Each part of the font is made from its own entries", "statement": "When a VFB is exported, every part of the font (attributes, TrueType programs, glyphs, hinting data, features, classes, guides, axes, masters, custom data) is what the entries about that part say, in the order of the file, whatever other entries the VFB has; the export fails only if a glyph lacks name, metrics or nodes or one of the parts cannot be made. With distinct names the font has one glyph per glyph entry with its outline, metrics and components, and just the kerning pairs of the entries. The order of entries about different parts should not matter, but the alignment zones of a glyph are those that came before it in the file.", "quantifier": "all lists of entries with data of the types the parsers make, in particular the entries of every file that can be read, and all settings of the export", "why_tests_cant": "The loop handles over sixty kinds of entries in any order and number; that no case disturbs what another one stored must hold for every sequence of entries.", "anchors": ["src/vfbLib/ufo/builder.py: VfbToUfoBuilder.build, set_tt_zones, build_mm_glyph", "src/vfbLib/ufo/info.py: VfbToUfoInfo"]}
{"id": "C86", "title": "The glyphs of every master, from the entries to the UFO", "statement": "When a VFB is exported there is one UFO per master, and every UFO has the glyphs of the file, in its order, each with what its glyph entry and the entries after it say about that master: width and height, code points, outline, components, anchors, guidelines, user data, mark colour, background image, bitmaps and glyph program. Notes of glyphs should be kept too, but they are lost.", "quantifier": "all lists of typed entries, all settings, all masters and glyphs", "why_tests_cant": "The data of a glyph are spread over up to fifteen entries with any other entries between them, and the masters are exported one after the other with shared state; no finite set of fonts covers the combinations.", "anchors": ["src/vfbLib/ufo/builder.py: VfbToUfoBuilder.build, get_ufo_master, get_ufo_masters", "src/vfbLib/ufo/paths.py: UfoMasterGlyph.build", "src/vfbLib/ufo/glyph.py"]}
{"id": "C87", "title": "Masks become the background layer", "statement": "The background layer of every UFO has the masks of just the glyphs that have a mask with nodes, in the order of the file, each with its own outline and size in that master (or that of the glyph) and without names of points; a minimal export has no background layer.", "quantifier": "all lists of typed entries, all settings, all masters", "why_tests_cant": "Which glyphs get a mask and which metrics are used depends on the entries after each glyph entry.", "anchors": ["src/vfbLib/ufo/builder.py: VfbToUfoBuilder.get_ufo_master", "src/vfbLib/ufo/paths.py: UfoMasterGlyph._extract_master_mask_metrics"]}
{"id": "C88", "title": "Kerning, attributes, guides and lib of every master, from the entries to the UFO", "statement": "The masters of an exported VFB have the same features, groups and lib. The kerning of each is just the values that the glyph entries have for that master, between the kerning groups of which the glyphs are key glyphs or the glyphs themselves, zeros left out but for exceptions. Its attributes are those of the PostScript info of that master, else those that the font info entries say. Its guidelines are those of the last guides entry. The lib has the glyph order, the TrueType programs, the options, stems and zones of TrueType hinting, the user data and the class flags.", "quantifier": "all lists of typed entries, all settings, all masters", "why_tests_cant": "It joins the parsing of classes, flags, kerning and infos spread over the file; each test font has one combination.", "anchors": ["src/vfbLib/ufo/builder.py: VfbToUfoBuilder.get_ufo_masters, get_ufo_master, get_master_info", "src/vfbLib/ufo/kerning.py: UfoKerning"]}
{"id": "C89", "title": "TrueType commands in the UFOs name the points, zones and stems of the file", "statement": "In every UFO of an exported VFB, the TrueType hinting commands of a glyph are the instructions of its glyph entry, in order. A point a command names is the point of the outline of that UFO that the instruction means, a point of a component under its own name with the number of the component, or a side bearing; the zones are those in force at the glyph, the stems those of the font. Different points of a glyph have different names. If asked for, the commands are encoded as base64.", "quantifier": "all lists of typed entries with known stems, zones and points, all settings, all masters, all glyphs, all commands", "why_tests_cant": "Point names are given out while hints, commands and outlines are visited, and are shared by all masters; a wrong name shows up only for certain orders of glyphs and instructions.", "anchors": ["src/vfbLib/ufo/builder.py: VfbToUfoBuilder.build_tt_glyph_lib, get_ufo_masters, get_ufo_master", "src/vfbLib/ufo/glyph.py: VfbToUfoGlyph.get_point_label", "src/vfbLib/ufo/tth.py: TTGlyphHints.get_tt_glyph_hints", "src/vfbLib/ufo/paths.py: UfoMasterGlyph.build"]}
{"id": "C90", "title": "Outlines and hint sets of the UFOs of all masters fit together", "statement": "In the UFOs exported from a VFB, the outlines of a glyph have the same contours and points with the same names in all masters. The hint sets of a glyph in a master are those that its hints, links and hint masks say for that master, each stem once and in order, and every hint set is tagged with the name of the point at which it starts.", "quantifier": "all lists of typed entries with hints for all masters, all settings, all pairs of masters, all glyphs", "why_tests_cant": "Which points get names depends on all hints of the glyph; whether a closing point is dropped depends on the coordinates in each master.", "anchors": ["src/vfbLib/ufo/builder.py: VfbToUfoBuilder.get_ufo_masters, get_ufo_master", "src/vfbLib/ufo/paths.py: UfoMasterGlyph._extract_master_contours, _extract_master_ps_hints", "src/vfbLib/ufo/pshints.py: build_ps_glyph_hints, get_master_hints"]}
{"id": "C91", "title": "A VFB whose entries fit together is exported", "statement": "If every reference from one entry of a VFB to a glyph, master, stem, zone, point, node or hint is to one that exists, the glyph data have values for every master the export makes, programs can be disassembled, no glyph is a component of itself, directly or not, and, for encoded programs, names are ASCII, then the conversion to UFOs raises no exception and gives one UFO per master. Conversely, a VFB with fewer PostScript info entries than masters is never exported.", "quantifier": "all lists of typed entries that fit together, all settings and export options, all numbers of masters and glyphs", "why_tests_cant": "Whether some input makes the export fail cannot be seen from inputs that do not: the guarantee is about the absence of IndexError, KeyError, ValueError and UnicodeEncodeError in every step of the export.", "anchors": ["src/vfbLib/ufo/builder.py: VfbToUfoBuilder.build, get_ufo_masters, get_ufo_master, get_master_info", "src/vfbLib/ufo/paths.py: UfoMasterGlyph.build", "src/vfbLib/ufo/kerning.py: UfoKerning", "src/vfbLib/ufo/guides.py: get_master_guides, apply_guide_properties", "src/vfbLib/ufo/groups.py: transform_groups"]}
{"id": "C92", "title": "A multiple master font with n axes is exported as 2^n UFOs", "statement": "A multiple master VFB with n axes whose 2^n masters all have a name and data is exported as 2^n UFOs. (For n = 3 this is false: the builder expects n squared = 9 masters and fails; for every other n it holds.)", "quantifier": "all numbers of axes, all typed entries that fit together, all settings", "why_tests_cant": "Sample fonts have one or two axes, for which n squared and 2^n do not differ or do not matter.", "anchors": ["src/vfbLib/ufo/builder.py: VfbToUfoBuilder.fix_masters_count, get_ufo_masters, get_master_info"]}
{"id": "C93", "title": "The converter to quadratic curves saves the converted font", "statement": "vfbcu2qu, given a VFB with at least one master, saves a VFB in which the outlines of every glyph that has some are those that fontTools' cu2qu makes of them, in every master, and leaves all other files as they are; it says that the file was not modified only if no glyph has an outline.", "quantifier": "all input files, all results of fontTools' conversion, all options and existing files", "why_tests_cant": "The tool goes through reading, access to glyphs by name, drawing of every master, conversion and writing; that the outlines are still there when they are drawn depends on the history of the object, not on one glyph.", "anchors": ["src/vfbLib/cu2qu.py vfbcu2qu", "src/vfbLib/vfb/vfb.py Vfb.keys, Vfb.__getitem__, get_masters, VfbMaster", "src/vfbLib/vfb/glyph.py VfbGlyph.__init__, VfbGlyphMaster.drawPoints"]}
{"id": "C94", "title": "Updating Adobe hinting data keeps all hint sets", "statement": "update_adobe_hinting turns the XML form of Adobe's hinting data (text or UTF-8 bytes) into the dict form: every hint set of the document, in document order, with its point tag and, for each of its stems, the text of the same stem, in order, negative widths turned round except for ghost hints. Elements of other kinds do not matter. Data that is neither text nor bytes is returned as it is.", "quantifier": "all XML documents, any number and order of hint sets, stems and other elements at any depth, all positions and widths", "why_tests_cant": "The document is traversed as a flat sequence of elements with two accumulators; what belongs to a hint set depends on all elements before it.", "anchors": ["src/vfbLib/ufo/pshints.py update_adobe_hinting, normalize_hint"]}
{"id": "C95", "title": "Saving a VFB does not change its export", "statement": "Let a VFB be read, decompiled, and all its data be writable. If it is exported to UFOs, then saving it does not fail, and whoever reads the saved file and exports it with the same options gets the same UFOs: the same masters, glyphs, outlines, libs, kerning, groups, features and hinting; only the order in which some dicts list their items may differ.", "quantifier": "all VFB files, all export options, all readers of the saved file", "why_tests_cant": "Reading, compiling and building are three separate passes over all entry types; that what one of them drops or reorders does not matter to the next has to hold for every combination of entries.", "anchors": ["src/vfbLib/vfb/vfb.py Vfb.read_stream, Vfb.decompile, Vfb.write_bytes", "src/vfbLib/ufo/builder.py VfbToUfoBuilder.build, get_ufo_masters", "src/vfbLib/compilers/glyph.py GlyphCompiler.compile, compile_glyph_name"]}
{"id": "C96", "title": "The designspace document of a VFB", "statement": "If the axes of a VFB have different names that are not empty, and each master and each instance has a coordinate on each axis, the export writes a designspace document with one source per UFO. Source i names the file that UFO i is written to, has the name of master i in the file without white space around it, and the location that the file gives master i, times 1000. The instances are those of the last entry with instances, in order, each with its own name, style, family and location. The axes are those of the file, in order, with their registered or made tags. If there is one axis, the instances are its labels. The family is the family name of the file. If the file has ten pairs of coordinates for each axis and says how many of them count, each axis has exactly these pairs as its map, and the smallest and the largest user coordinate as its range, with the smallest as its default. Without axes there is no document.", "quantifier": "every list of entries of a VFB with data of the types that the parsers make, every setting of the exporter, every output path", "why_tests_cant": "Axes, masters, locations, instances and mappings come in any number and any order in the file, and the document must agree with the UFOs for all of them.", "anchors": ["src/vfbLib/ufo/builder.py: VfbToUfoBuilder.build, add_axis_mappings, get_ufos_designspace, get_designspace, get_master_path", "src/vfbLib/ufo/designspace.py: get_ds_location"]}
{"id": "C97", "title": "The JSON of a VFB file says all of its data", "statement": "When vfb2json writes a file, its content is UTF-8 of a valid JSON text, and reading that text gives the dict of the Vfb. Two VFB files of which the same JSON is made have the same header and the same entries, in the same order, with the same ids and the same data: nothing that was decompiled is lost or run together in the JSON, for any of the types of entries. In no object of the JSON do two members have the same key, so that a reader that makes dicts of objects loses nothing. JSON is written of every VFB file that can be read and decompiled.", "quantifier": "every VFB file, every option of vfb2json except --no-decompile together with --roundtrip, every text that a JSON library may choose for a float as long as it determines the float", "why_tests_cant": "Whether two different contents can have the same JSON is a question about all pairs of files and all types of data in them.", "anchors": ["src/vfbLib/json.py: save_vfb_json, write_vfb_json", "src/vfbLib/vfb/vfb.py: Vfb.as_dict", "src/vfbLib/vfb/entry.py: VfbEntry.as_dict", "src/vfbLib/parsers/*.py"]}
{"id": "C98", "title": "vfbdiff prints nothing exactly if two files have the same content", "statement": "vfbdiff prints nothing for two files with the same header and the same entries with the same data, whatever the order of the keys of glyphs and other dicts. Conversely, if it prints nothing, both files have the same header and the same entries, in the same order, with the same ids and the same data up to the order of keys.", "quantifier": "every pair of VFB files, every diff function that gives no lines exactly for equal lists of lines, every text of floats as in C97", "why_tests_cant": "A difference that is not shown can hide in any type of entry and any string; tests see the pairs of files they have.", "anchors": ["src/vfbLib/diff.py: diffvfb", "src/vfbLib/vfb/vfb.py: Vfb.as_dict"]}
{"id": "C99", "title": "vfb2tth writes the TrueType hints of the file", "statement": "The JSON that vfb2tth writes has, for a VFB file with TrueType hints, one object for each stem with its direction, width and rounding, one for each zone with its side, position, width and deltas, the gasp ranges, units per em, stem snap limit and code ppm of the font, and for each named glyph with commands the list of its commands in order, with each reference to a stem or zone given by the name that this stem or zone has in the same JSON. Other entries of the file, and the order of the font's entries, have no effect. Nothing is written if the hints cannot be extracted.", "quantifier": "every VFB file with the entries for stems, zones and deltas before its hinted glyphs, every number of stems, zones, deltas, glyphs and commands, every text for numbers", "why_tests_cant": "References between glyph commands and stems or zones depend on all names and orders in the file, and duplicate names are renamed on the way; a test has one file.", "anchors": ["src/vfbLib/tth.py: vfb2tth, extract_truetype_hinting, extract_glyph_hints, extract_tt_stems, extract_tt_zones, extract_tt_zone_deltas, merge_stem_information, merge_zone_information", "src/vfbLib/ufo/tth.py: transform_stem_rounds"]}
{"id": "C100", "title": "vfb2ufo, from the bytes of a VFB file to the files it writes", "statement": "When vfb2ufo ends without an error, UFO i of the VFB is in the file that has the name of the VFB, the number i for all masters but the first, and the suffix .ufo, .ufoz (--zip) or .json (--json), next to the VFB or in the given folder; the designspace, if the VFB has axes, is beside them, each of its sources names the file of a UFO that was written, and no other file has changed. When it ends with an error, no file has changed, except that new UFOs may be there if it met a file that it may not overwrite. Without --force-overwrite and --json, no existing file is ever changed; the VFB itself is never changed unless it has the suffix of an output file. A VFB whose entries fit together (C91) and whose axes are complete (C96) is exported without an error, with one UFO per master. The entries with the encoding play no part, even if they cannot be read.", "quantifier": "all bytes of VFB files, all arguments of the tool, all states of the file system", "why_tests_cant": "All files, options and states of the output folder at once; each stage is tested alone at best.", "anchors": ["src/vfbLib/cmdline.py: vfb2ufo", "src/vfbLib/ufo/builder.py: VfbToUfoBuilder.write, get_ufos_designspace, get_master_path", "src/vfbLib/vfb/vfb.py: Vfb.read, Vfb.decompile"]}
{"id": "C101", "title": "A glyph has as many contours as it draws", "statement": "len(glyph) is the number of contours that glyph.draw starts, and the number of contours that glyph.drawPoints begins and ends. After clearContours it is 0. Drawing contours into the glyph with a point pen adds the number of contours that have points.", "quantifier": "every decompiled glyph and master, every sequence of contours drawn into it", "why_tests_cant": "The number is counted from the types of the nodes, while drawing keeps track of open paths; they have to agree for all node lists.", "anchors": ["src/vfbLib/vfb/glyph.py: VfbGlyph.__len__, VfbGlyphMaster.__len__, draw, drawPoints, clearContours", "src/vfbLib/vfb/pens.py: VfbGlyphPointPen", "src/vfbLib/ufo/paths.py: UfoMasterGlyph._extract_master_contours"]}
{"id": "C102", "title": "Hex strings say exactly the bytes that are written", "statement": "Data that are given as a hex string (entries of unknown type, binary tables, the argument of the value tool) are written as exactly the bytes that the digits say, in upper or lower case, with white space allowed between bytes only; any other string is refused with ValueError. Data that are read are shown as two lower case digits for each byte.", "quantifier": "every string, every sequence of bytes", "why_tests_cant": "The set of accepted strings is infinite; which strings are refused is a statement about all of them.", "anchors": ["src/vfbLib/helpers.py: hexStr, deHexStr", "src/vfbLib/compilers/base.py: HexStringCompiler", "src/vfbLib/compilers/binary.py: BinaryTableCompiler", "src/vfbLib/value.py: yuri", "src/vfbLib/parsers/base.py: BaseParser"]}
{"id": "C103", "title": "Fonts assembled by a program are written as they were assembled", "statement": "A program makes Vfb objects and entries, sets the data of headers and entries and the number of masters, and adds entries to fonts in any order. Writing a font then gives the header it was given and exactly the entries that were added to it, in the order of the calls of add_entry, each with the data it was given last; decompiled data is compiled for the font that is written. The file is read back as these entries if the end-of-file entry was added last. Without header data nothing is written and TypeError is raised. Adding an entry to a second font does not change what is written of the first; the number of masters is that of the Master Count entry.", "quantifier": "every sequence of Vfb(), VfbEntry(...), add_entry, header.data =, num_masters =, entry.data = on any number of fonts and entries; every table of parsers and compilers", "why_tests_cant": "All interleavings of calls on all fonts and entries, including entries that are shared between fonts.", "anchors": ["src/vfbLib/vfb/vfb.py: Vfb.__init__, add_entry, compile, write_bytes", "src/vfbLib/vfb/entry.py: VfbEntry.__init__, data, compile", "src/vfbLib/vfb/header.py: VfbHeader"]}
{"id": "C104", "title": "Decompiling an entry raises only the exceptions of its type", "statement": "Decompiling an entry (entry.decompile, or Vfb.decompile reaching it) either succeeds or raises one of a fixed set of exceptions that depends only on the id of the entry: AssertionError for bytes left over, EOFError and ValueError for encoded values, struct.error for doubles cut short, UnicodeDecodeError for text, and a few more for FL Version, Mapping Mode, ttinfo, fontnames, features, GDEF data and glyphs (plus what the TrueType disassembler raises for glyphs). Each exception of the set is raised by some data; entries kept as hexadecimal and entries of unknown types never raise.", "quantifier": "every entry id, known or not, every data of any length, every number of masters and stems, every behaviour of the disassembler that comes to an end", "why_tests_cant": "the parsers are loops over data of any length; tests try a few corrupt entries, and cannot show that no other data raises something else", "anchors": ["src/vfbLib/parsers/base.py:BaseParser.parse", "src/vfbLib/vfb/entry.py:VfbEntry.decompile", "src/vfbLib/constants.py:parser_classes", "src/vfbLib/parsers/base.py:MappingModeParser"]}
{"id": "C105", "title": "The numbers of a file mean the names the decompiled data shows", "statement": "Decompiled data has names for numbers that only the file format defines. A font option stored under number k shows up under the documented name of k (1 fit_ascender ... 115 paste_place_y) with the stored value, ratios divided by 10000 and the bits of the autohinting and kerning options each under its own name; the bits of the export options and of the PostScript hinting options of font and glyph are named exactly as documented, other bits by their number; so are the mapping modes, the platform and the version, the GDEF glyph classes, the kinds of hint masks and the TrueType visual commands with their parameters in order. Round-trip tests cannot see two names swapped, as compiler and parser share the tables.", "quantifier": "every list of distinct known option numbers with any 32-bit values in any order, every two- or four-byte number, every mapping mode, version, class, and all lists of hint masks and commands of any length", "why_tests_cant": "the options, bits and commands combine in unboundedly many ways; a round trip through shared tables passes even if names are swapped", "anchors": ["src/vfbLib/__init__.py:font_options", "src/vfbLib/__init__.py:export_options", "src/vfbLib/parsers/options.py:FontOptionsParser", "src/vfbLib/parsers/ps.py", "src/vfbLib/truetype.py:TT_COMMANDS", "src/vfbLib/parsers/glyph.py:GlyphParser"]}
{"id": "C106", "title": "Decompiled bitmaps and their previews show the stored pixels", "statement": "Decompiling a background image gives the pixels its run-length data stands for, inverted if the font was written on Windows, in rows that are padded to 16 bits. Whatever bitmap data is decompiled (background or glyph bitmaps), the preview has one line per row, in order, with two characters per pixel, never more columns than the bitmap is wide, and column j is filled if and only if pixel j of the row is set, the first pixel being the highest bit of the first byte.", "quantifier": "every entry data of any length, every width, every platform, every row and column", "why_tests_cant": "bitmaps of any size with any pixels; tests compare a few small pictures", "anchors": ["src/vfbLib/parsers/bitmap.py:BaseBitmapParser._parse_bitmap_data", "src/vfbLib/parsers/bitmap.py:BaseBitmapParser._get_preview", "src/vfbLib/parsers/bitmap.py:BackgroundBitmapParser", "src/vfbLib/parsers/bitmap.py:GlyphBitmapsParser"]}
{"id": "C107", "title": "Decompiled data is in proportion to the entry", "statement": "Decompiling an entry of n bytes gives data of at most 300 n + 2000 values and characters, whatever counts the bytes declare, for every entry type except bitmaps, and provided that what is stored per master is stored for at least one master. Where the provision fails the claim is false: an entry of fewer than 40 bytes that declares bitmap data it does not hold, or anchors, masks, hints or guides in no master, decompiles to as many records as a 30-bit number declares.", "quantifier": "every entry type, every context of the font (number of masters, stem counts, platform), every sequence of bytes shorter than 2^31", "why_tests_cant": "A test decompiles files that FontLab has written, whose counts are true; that no declared count can be larger than the bytes that back it, or which ones can, needs an argument over all bytes and all loops of all parsers.", "anchors": ["src/vfbLib/parsers/base.py: BaseParser.parse, StreamReader", "src/vfbLib/parsers/glyph.py: GlyphParser, GlyphAnchorsParser, MaskParser", "src/vfbLib/parsers/bitmap.py: BaseBitmapParser", "src/vfbLib/parsers/guides.py: GlobalGuidesParser", "src/vfbLib/vfb/entry.py: VfbEntry.decompile"]}
{"id": "C108", "title": "Compiling raises only the exceptions of the entry type", "statement": "Compiling an entry with decompiled data, changed in any way that keeps its form, comes to an end, and raises nothing but the exceptions that belong to its type: a number too big for its field, text that cp1252 has not, a missing key or master, a list of another length, an unknown name. Each of these exceptions is raised by some data. The entry keeps its data when there is an exception. Entries of doubles are always compiled; kerning pairs of multiple masters never are.", "quantifier": "all entry types, all data of the form decompiling gives, all numbers of masters, all behaviours of the assembler and the angle conversion", "why_tests_cant": "The data is arbitrary and there are more than a hundred entry types; tests try a few bad values each and cannot exclude further exceptions.", "anchors": ["src/vfbLib/compilers: all compilers", "src/vfbLib/constants.py: parser_classes", "src/vfbLib/vfb/entry.py: VfbEntry.compile", "src/vfbLib/vfb/vfb.py: Vfb.compile"]}
{"id": "C109", "title": "Guides keep their angles when a file is saved", "statement": "Guides of a font or a glyph that are read from a file and written again are in the same places with the same angles, however often this is done, on any machine whose math functions are accurate to two units in the last place. At most the slope of a guide, in ten-thousandths, moves by one towards zero per save.", "quantifier": "all entries with global guides, all glyph entries with guides, all slopes a file can hold, all numbers of saves and all accurate implementations of atan2, tan, degrees and radians", "why_tests_cant": "the result depends on the rounding of four floating point functions for 2^32 slopes; a test sees one machine and a few angles", "anchors": ["src/vfbLib/compilers/guides.py: GuidesCompiler._compile", "src/vfbLib/parsers/guides.py: parse_guides"]}
{"id": "C110", "title": "A file that was cut off is not taken for a whole one", "statement": "Reading a VFB file whose last bytes are missing raises an exception, or does not return; it never returns as if the font were complete, with fewer entries than the file had.", "quantifier": "every file of a header and framed entries with an end marker, every position at which it was cut off, every table of parsers", "why_tests_cant": "Crash-point property: an interrupted download or write can end at any byte; a test cuts one file at one place, and the harmful places depend on the ids of the entries.", "anchors": ["src/vfbLib/vfb/vfb.py: Vfb.read_stream", "src/vfbLib/vfb/entry.py: VfbEntry._read_entry", "src/vfbLib/parsers/base.py: StreamReader.read_uint16", "src/vfbLib/parsers/header.py: VfbHeaderParser.parse"]}
{"id": "C111", "title": "Saving a file again does not change it", "statement": "Let a VFB be read and decompiled, and all its data be writable. Saving it can change the file, but when the saved file is opened and saved again, with any options of the same kind and however often, every save writes exactly the same bytes.", "quantifier": "every byte string that is accepted as a VFB, every number of saves, every behaviour of the math functions and of the bytecode assembler that is outside of the library", "why_tests_cant": "A test shows that one file is a fixed point. That dicts rebuilt in another order, optional parts that are dropped when empty, and values that are recomputed all settle after one save, for every entry type and any contents, is a claim about all files and any number of saves.", "anchors": ["src/vfbLib/vfb/vfb.py: Vfb.write, Vfb.read, Vfb.decompile", "src/vfbLib/vfb/entry.py: VfbEntry.compile", "src/vfbLib/compilers/glyph.py: GlyphCompiler", "src/vfbLib/compilers/truetype.py: TrueTypeInfoCompiler, TrueTypeZoneDeltasCompiler", "src/vfbLib/compilers/mm.py: PrimaryInstancesCompiler"]}
{"id": "C112", "title": "Edits arrive in the file and nothing else changes", "statement": "After a VFB file was read and entries of it were given new data (bytes, or decompiled data that can be compiled), saving gives a file with the same header and the same entries in the same order, in which every edited entry holds exactly the new data and every other entry, also of a type that is not known, holds the bytes it had. Reading that file gives the entries as they were edited, with the same number of masters and stems.", "quantifier": "every file below 2 GB that can be read, every set of edits to the entries, every kind of new data", "why_tests_cant": "The claim is about every combination of files and edits; a test edits one entry of one file", "anchors": ["src/vfbLib/vfb/vfb.py Vfb.read, Vfb.write, Vfb.compile", "src/vfbLib/vfb/entry.py VfbEntry.read, VfbEntry.compile, VfbEntry.data"]}
{"id": "C113", "title": "The order of decompiling and compiling does not matter", "statement": "A program that reads a VFB file, decompiles and compiles its entries in any order and as often as it likes (single entries or all of them, also after exceptions), and then saves it, saves a file with the same entries in the same order: entries that were not decompiled have the bytes they had, and each other entry the bytes that its decompiled data is compiled to. Reading the saved file gives the same header and the same data.", "quantifier": "every file below 2 GB that can be read, every sequence of decompile and compile calls on entries or on the whole Vfb", "why_tests_cant": "The sequences of calls are unbounded, and the result depends on every earlier call; tests run one fixed sequence", "anchors": ["src/vfbLib/vfb/vfb.py Vfb.decompile, Vfb.compile, Vfb.write", "src/vfbLib/vfb/entry.py VfbEntry.decompile, VfbEntry.compile, VfbEntry.header"]}
{"id": "C114", "title": "Each option of vfb2ufo changes what it is about and nothing else", "statement": "For every VFB file and all arguments of vfb2ufo: with --base64 the UFOs are the same but for the TrueType commands of the glyphs, which are the base64 encoding of the text, and the export fails only if it fails without or a command is not ASCII. With --keep-groups and --add-kerning-groups, only the feature code and the groups differ: classes that are neither for kerning nor for metrics are either groups or class definitions at the beginning of the feature code, with the same glyphs, and with --add-kerning-groups there is a definition for each kerning group. With --no-postscript-hints every file that can be exported still can, and the UFOs are the same but for the hints of the glyphs, the names of points, and the attributes of the font info about hints, which have no values. With --json, --zip, --force, an output path or folder the content of the UFOs is the same and the designspace differs only in the names of its files.", "quantifier": "all VFB files, all arguments of the tool, all results of the libraries the code calls", "why_tests_cant": "The options are passed through several layers to code that handles every glyph and master; a test of one option looks at one font and at what should change, not at everything that should not.", "anchors": ["src/vfbLib/cmdline.py: vfb2ufo", "src/vfbLib/ufo/builder.py: VfbToUfoBuilder, get_ufo_masters, get_ufo_master, build_mm_glyph, get_master_info", "src/vfbLib/ufo/paths.py: UfoMasterGlyph.build"]}
{"id": "C115", "title": "Each option of vfb2json does what its help says", "statement": "For every VFB file: with --header the JSON has the header that it has without the option and no entries, and can be made of every file with a header. With --no-decompile it can be made of every file it can be made of without; it has the same header and entries, and the bytes of an entry are those that decompile to the data shown without the option. With --roundtrip it shows the same entries with the same data, or with --no-decompile the bytes that the data is compiled to. With --unicode-strings the strings are read as Unicode.", "quantifier": "all VFB files, all combinations of the options", "why_tests_cant": "Tests run the tool with an option on a few files; that nothing else changes, for all files and all entry types, is about every entry of every file.", "anchors": ["src/vfbLib/cmdline.py: vfb2json", "src/vfbLib/json.py: save_vfb_json", "src/vfbLib/vfb/vfb.py: Vfb.read_stream, Vfb.decompile, Vfb.compile, Vfb.as_dict"]}
{"id": "C116", "title": "The option --minimal leaves out guidelines, masks, marks, images, bitmaps and the font's note, and nothing else", "statement": "vfb2ufo --minimal writes the same designspace and, for each master, the same UFO as without the option, but without guidelines of the font and the glyphs, the background layer, mark colours, background images, bitmaps and the note of the font info. Groups, kerning and the classes in the features may differ besides only because missing glyphs are dropped from the groups: if all glyphs of the classes are in the font they are the same. If the export works without the option, it works with it or ends with an IndexError; if no glyph of a class is missing, it works.", "quantifier": "all files, all other arguments", "why_tests_cant": "A test compares the outputs for some files; that no other entry, glyph, master or attribute is affected is about all of them.", "anchors": ["src/vfbLib/cmdline.py: vfb2ufo", "src/vfbLib/ufo/builder.py: VfbToUfoBuilder.build, build_mm_glyph, get_ufo_master, get_ufo_masters", "src/vfbLib/ufo/paths.py: UfoMasterGlyph.build", "src/vfbLib/ufo/groups.py: transform_groups", "src/vfbLib/constants.py: ignore_minimal_keys"]}
{"id": "C117", "title": "What an entry says about a glyph stays with that glyph", "statement": "If the mark colour, the user data, the background image or the bitmaps of one glyph are changed in a VFB that can be exported to UFO, the changed VFB can be exported too, with the same designspace document, and each UFO is the same as before except for that one item in the lib of that glyph: the other glyphs, the outlines, the hints, the kerning, the groups, the features, the info and the lib of the font do not change. If the code points, the anchors, the guides or the mask of one glyph are changed and both VFBs can be exported, the exports differ in that item of that glyph only (for the mask: in the background layer).", "quantifier": "All entries before and after the changed one, all old and new data, all twelve kinds of entries, all settings, options and output paths, and duplicate glyph names.", "why_tests_cant": "Two exports of every VFB and every pair of values have to be compared; a test compares a few fonts, and the glyphs share a table of point labels and a running state of the builder.", "anchors": ["src/vfbLib/ufo/builder.py VfbToUfoBuilder.build", "src/vfbLib/ufo/builder.py VfbToUfoBuilder.get_ufo_master", "src/vfbLib/ufo/glyph.py VfbToUfoGlyph"]}
{"id": "C118", "title": "TrueType instructions of a glyph get the id of its outline", "statement": "In every UFO that is exported from a VFB, each glyph with TrueType instructions, and no other, gets an id which is made from the width of the glyph and its outline with the outlines of its components, so that it does not depend on anything else in the font, and the export ends with these ids for every VFB.", "quantifier": "All UFOs, all VFBs that can be exported, all nestings of components, all digest functions.", "why_tests_cant": "Ids depend on components of components, to any depth, and the export has to end for every graph of components; a test tries a few.", "anchors": ["src/vfbLib/ufo/builder.py VfbToUfoBuilder.get_ufo_master", "src/vfbLib/ufo/glyph.py VfbToUfoGlyph.set_instructions"]}
{"id": "C119", "title": "Glyphs that share no component do not influence each other's export", "statement": "Take a set of glyphs that is closed under components in both directions: a component is in the set exactly if the glyph that uses it is. These glyphs are the same in the UFO of every master (metrics, code points, outlines with names of points, components, anchors, guidelines, hints, TrueType commands, other lib data, masks) whatever other glyphs, kerning, groups, features and font info the font has, as long as the indices of components mean the same glyphs and the TrueType stems are the same. (For a glyph whose users are left out this is false: a hinted composite adds names to the points of its components.)", "quantifier": "all pairs of fonts with such a set in common, all such sets of glyphs, all masters, all settings", "why_tests_cant": "The names of points are kept in one store that all glyphs and all masters change in turn; a test shows one font and one order of changes.", "anchors": ["src/vfbLib/ufo/glyph.py: VfbToUfoGlyph.get_point_label", "src/vfbLib/ufo/pshints.py: build_ps_glyph_hints", "src/vfbLib/ufo/builder.py: VfbToUfoBuilder.get_ufo_master, get_ufo_masters", "src/vfbLib/ufo/builder.py: VfbToUfoBuilder.build_tt_glyph_lib"]}
