{"claims": [
  {"property": "C01", "status": "proved", "theorems": ["C01_value_roundtrip", "C01_value_long_roundtrip"], "note": "Encoded integers, short and long form."},
  {"property": "C02", "status": "proved", "theorems": ["C02_value_rejects", "C02_value_prefix_free", "C02_value_shortest"], "note": "Shortest among the complete encodings."},
  {"property": "C03", "status": "proved", "theorems": ["C03_value_total"], "note": "Exhaustive case description by the next byte."},
  {"property": "C04", "status": "partial", "theorems": ["C04_truncation_noticed_refuted", "C04_truncation_never_noticed"], "note": "Refuted: the code violates the property; the exact behaviour is proved (no truncation that leaves a byte is noticed)."},
  {"property": "C05", "status": "proved", "theorems": ["C05_fixed_width"], "note": "Six widths."},
  {"property": "C06", "status": "proved", "theorems": ["C06_str_with_len_roundtrip", "C06_unencodable_rejected", "C06_codec", "C06_decode_encode"], "note": "All Unicode strings; the code page is specified separately in S_Text.v."},
  {"property": "C07", "status": "proved", "theorems": ["C07_bits_of_number", "C07_number_bits_number", "C07_bits_number_bits", "C07_start_offset", "C07_duplicates_refuted"], "note": "The hypothesis of distinct bits is necessary (C07_duplicates_refuted)."},
  {"property": "C08", "status": "partial", "theorems": ["C08_terminates_nonneg", "C08_terminates_refuted", "C55_negative_refuted"], "note": "Refuted for every negative number (infinite loop), reachable from a VFB whose os2_fs_type is negative; termination proved for all non-negative numbers."},
  {"property": "C09", "status": "proved", "theorems": ["C09_frame_written", "C09_frame_read", "C09_unframable", "C09_no_data"], "note": "Holds for every id below 2^15 and every size below 2^32; C09_mmkern_size_refuted shows why MM Kern Pair entries need the size that follows from the master count."},
  {"property": "C10", "status": "proved", "theorems": ["C10_write_then_read"], "note": "For every parser/compiler table; reads_as (S_File.v) says what a lazy read makes of the entries."},
  {"property": "C11", "status": "proved", "theorems": ["C11_read_then_write"], "note": "For every parser/compiler table; recompiles (S_File.v) is the canonical-form condition on the three eagerly decompiled entries."},
  {"property": "C12", "status": "partial", "theorems": ["C12_read_terminates_refuted", "C12_no_end_marker_diverges", "C12_terminates_partial"], "note": "False of the code: at the end of the data read_uint16 gives 0 instead of EOFError, so a file without the end marker is read forever. Proved: this is the only way to loop, all other reads end within one turn per byte."},
  {"property": "C13", "status": "proved", "theorems": ["C13_header_roundtrip", "C13_accepts"], "note": ""},
  {"property": "C14", "status": "partial", "theorems": ["C14_header_current_refuted", "C14_write_edit_write_refuted", "C14_header_first_access", "C14_header_frozen"], "note": "False of the code: header is a cached_property. Proved: correct on first access after any history, and frozen from then on."},
  {"property": "C15", "status": "proved", "theorems": ["C15_decompile_idempotent", "C15_decompile_atomic", "C15_compile_idempotent", "C15_compile_atomic", "C15_vfb_decompile_atomic", "C15_vfb_decompile_idempotent", "C15_decompile_keeps", "C15_compile_keeps", "C15_write_keeps", "C15_read_keeps", "C15_read_records"], "note": ""},
  {"property": "C16", "status": "proved", "theorems": ["C16_vfb", "C16_file", "C16_faithful_file"], "note": "For every file that is read and decompiled without an exception and whose entries are in the writable domain (can_be_written: no condition for 121 types) and fit the 32 bit size field. 'The same' is equality, up to the order of dicts and missing optional parts of glyphs."},
  {"property": "C17", "status": "partial", "theorems": ["C17_unknown", "C17_unknown_refuted", "C17_decompiled_unknown_refuted", "C11_read_then_write", "C10_write_then_read"], "note": "Without decompiling, unknown entries are kept (C10, C11 hold for every id). After decompile() the file cannot be written, whatever else it contains: an exception (RuntimeError)."},
  {"property": "C18", "status": "proved", "theorems": ["C18_drop_keys"], "note": ""},
  {"property": "C19", "status": "partial", "theorems": ["C19_values", "C19_counted", "C19_anisotropic", "C19_class_flags", "C19_class_flags_refuted", "C19_vdmx", "C19_anchors", "C19_anchor_props", "C19_anchor_props_refuted", "C19_links", "C19_sketch", "C19_mask_metrics", "C19_mask_metrics_mm"], "note": "All listed entries are proved for the full range of their format; class flags and anchor properties of 2^31 and more are written unsigned and read signed (refuted)."},
  {"property": "C20", "status": "partial", "theorems": ["C20_int16", "C20_sint16", "C20_sint32", "C20_double", "C20_doubles", "C20_int_list", "C20_panose", "C20_axis_counts", "C20_axis_mappings", "C20_master_location", "C20_ps_info", "C20_gasp", "C20_gasp_tail_refuted", "C20_gasp_odd", "C20_short_entry_refuted", "C20_kern_pair_refuted", "C20_origin", "C20_unicodes", "C20_unicodes_non_bmp", "C20_kern_pair_read"], "note": "Both directions proved for entries of the full length; entries that are too short are accepted and grow when written, two bytes after the last gasp pair are dropped, and the master kern pair compiler always fails (refuted; reading a master kern pair gives the stored values)."},
  {"property": "C21", "status": "partial", "theorems": ["C21_unicode_ranges", "C21_unicode_ranges_refuted", "C21_export_options", "C21_export_options_survive", "C21_export_options_refuted", "C21_ps_global", "C21_ps_glyph"], "note": "Proved for every subset and every field value except: Unicode ranges of more than 16 bytes and export option bits from 3 on are read but cannot be compiled (refuted)."},
  {"property": "C22", "status": "proved", "theorems": ["C22_rle_written", "C22_rle_unique", "C22_rle_read", "C22_rows_roundtrip"], "note": "Bitmaps of less than 2^30 bytes; the written bytes are characterised by the independent relation rle."},
  {"property": "C23", "status": "partial", "theorems": ["C23_background_macos", "C23_glyph_bitmaps_macos", "C23_background_windows_refuted", "C23_glyph_bitmaps_windows_refuted"], "note": "Proved for macOS files. False for Windows files: the compiler inverts with ~b - 0x100, so every bitmap with at least one pixel byte raises."},
  {"property": "C24", "status": "proved", "theorems": ["C24_reads_declared_length", "C24_terminates"], "note": "For all byte strings, declared lengths and platforms."},
  {"property": "C25", "status": "proved", "theorems": ["C25_outlines", "C25_global_mask", "C25_value_count", "C25_no_masters_refuted"], "note": "For every number of masters from 1, every list of nodes whose value count fits the format."},
  {"property": "C26", "status": "partial", "theorems": ["C26_glyph", "C26_glyph_exact", "C26_nameless_guides_refuted", "C26_guide_masters_refuted", "C26_masters_required"], "note": "All parts proved for every glyph with at least one master. Missing: angles of guides come back exactly only if the slope stored for them gives them back (tan and atan2 are parameters of the theorem; C109 says when it does for accurate functions). A glyph with guides needs a name and the file's number of masters; otherwise what is written cannot be read (refuted)."},
  {"property": "C27", "status": "proved", "theorems": ["C27_terminates", "C27_unknown_section", "C27_truncated"], "note": "Termination assumes in the statement that fontTools' disassembler stops."},
  {"property": "C28", "status": "proved", "theorems": ["C28_instructions", "C28_order", "C28_required"], "note": "Parameters are a dict: their order is not kept."},
  {"property": "C29", "status": "proved", "theorems": ["C29_stems", "C29_stem_ppems", "C29_stem_ppems23", "C29_stem_ppems1", "C29_zones", "C29_zone_deltas", "C29_zone_deltas_canonical", "C29_reparse", "C29_zone_deltas_reparse", "C29_long_stem_name", "C29_zone_deltas_order"], "note": "Proved for all lists and mappings in range. Stem names are limited to 255 bytes (longer ones are refused); a zone without deltas is not stored; a missing zone side is read as an empty one."},
  {"property": "C30", "status": "proved", "theorems": ["C30_tt_info", "C30_required", "C30_unknown_options_refuted", "C30_hhea_keys_refuted", "C30_stored", "C30_marks"], "note": "Proved for all dicts with the required names, any subset of the optional ones and the three known options. The two _refuted theorems are about data outside that domain: option bits above the three known ones are lost, and the hhea keys of the table of names are not read."},
  {"property": "C31", "status": "partial", "theorems": ["C31_diverges_iff", "C31_terminates_refuted", "C31_truncated_refuted", "C31_no_marker", "C31_negative_flags_refuted"], "note": "The property is false of the code: the parser runs forever on an empty entry, on every compiled entry without its last byte, and on negative head flags. C31_diverges_iff says the model's verdict is exact."},
  {"property": "C32", "status": "partial", "theorems": ["C32_entries_terminate", "C32_ttinfo_refuted"], "note": "Every entry type but TrueType info (1264), which loops for ever at the end of the data. The linear bound on the number of steps is not modelled; that the result is in proportion to the data is C107. The fontTools disassembler is assumed to terminate."},
  {"property": "C33", "status": "proved", "theorems": ["C33_name_records_roundtrip", "C33_name_records_unchanged", "C33_mac_code_refuted", "C33_characters"], "note": "Round trip for all record lists; separately, the parser does not accept Mac Roman codes above 255 (OverflowError). C33_characters: which characters the numbers of a record stand for, with Mac OS Roman written down independently in S_MacRoman.v."},
  {"property": "C34", "status": "partial", "theorems": ["C34_normalised_once", "C34_nonblank_kept", "C34_two_blank_lines", "C34_accepts_iff", "C34_only_error", "C34_two_blank_lines_refuted", "C34_accepts_refuted"], "note": "Idempotence and preservation proved; 'accepts every text' is refuted and the rejected texts characterised exactly; 'at most two blank lines' holds except for the final empty line."},
  {"property": "C35", "status": "proved", "theorems": ["C35_string_roundtrip", "C35_string_bytes_kept", "C35_vendor_id"], "note": "All cp1252 strings."},
  {"property": "C36", "status": "partial", "theorems": ["C36_asked", "C36_used", "C36_cp1252", "C36_ascii", "C36_utf8_refuted", "C36_written_refuted"], "note": "The Vfb asks for the right encoding, but every parser and compiler uses cp1252, since the instance attribute hides the class attribute that is set: strings in cp1252 are read right on all platforms, and every string in UTF-8 with a character outside ASCII is read wrong (refuted for all such strings and all 37 string entry types)."},
  {"property": "C37", "status": "proved", "theorems": ["C37_guides", "C37_positions", "C37_guides_exact", "C37_guide_props", "C37_color_refuted", "C37_index_zero_refuted", "C37_bad_color"], "note": "Angles are exact when the slope stored for them gives them back. Outside of the property: stored colours above 0xFFFFFF and guides with index 0."},
  {"property": "C38", "status": "partial", "theorems": ["C38_fl_version", "C38_mapping_mode", "C38_custom_cmaps", "C38_binary_table", "C38_pclt", "C38_pclt_short_names", "C38_pclt_refuted", "C38_mapping_mode_refuted"], "note": "Proved for all values the formats can hold; PCLT negative stroke weight and unknown mapping modes cannot be compiled (refuted), short PCLT names come back padded."},
  {"property": "C39", "status": "proved", "theorems": ["C39_font_options", "C39_ratio_nearest", "C39_autohint_bits", "C39_expand_kern_bits", "C39_plain_integer_refuted"], "note": "Every options dict with known keys and the dict form of the packed fields; the bit of each flag is part of the statement. The integer form of the packed fields, which the type also allows, is refused (refuted). Uses the axioms of the standard library's real numbers (through Flocq)."},
  {"property": "C40", "status": "partial", "theorems": ["C40_table", "C40_table_domain", "C40_table_ids", "C40_delicate_refuted", "C40_simple", "C29_reparse", "C29_zone_deltas_reparse", "C20_gasp", "C19_vdmx", "C40_class_flags_refuted", "C20_kern_pair_refuted", "C21_unicode_ranges_refuted", "C21_export_options_refuted", "C38_pclt_refuted", "C38_mapping_mode_refuted", "C30_required", "C30_unknown_options_refuted", "C19_links", "C19_sketch", "C41_reparse", "C40_glyph", "C40_glyph_refuted", "C40_outlines", "C40_anchors", "C40_anchor_masters_refuted", "C40_anchor_props_refuted", "C40_mask_metrics_mm", "C40_origin", "C40_guides", "C40_guide_props", "C37_color_refuted", "C40_font_options", "C40_font_options_refuted", "C40_font_options_bits_refuted"], "note": "The table of all 144 entry types: without any condition for 121 of them (C40_table), under the stated conditions for the others (C40_table_domain); each of the other 22 has data for which the property is false (C40_delicate_refuted), except global guides, where that depends on the rounding of the angles (C109)."},
  {"property": "C41", "status": "proved", "theorems": ["C41_gdef", "C41_reparse", "C41_extras", "C41_anchor_extras_refuted", "C41_negative_class"], "note": "The dict survives; the two extra values per anchor that the parser drops are written as -1 (C41_extras, with a reader of its own that keeps them)."},
  {"property": "C42", "status": "partial", "theorems": ["C42_objects", "C42_unique", "C42_blank", "C42_data_refuted", "C42_retry_refuted", "C42_reread_refuted"], "note": "Proved: one object per glyph entry, in file order, distinct names, its links and hinting options, no other entry changed; the rule that makes names unique, for all names. Refuted: the data of the glyph is replaced by a blank glyph on first access, so names are lost too; an access after a failed one gives a part of the glyphs; reading another file keeps the old glyphs."},
  {"property": "C43", "status": "partial", "theorems": ["C43_draw", "C43_points", "C43_direct", "C43_last_refuted", "C43_next_refuted", "C43_stale_refuted", "C43_direct_refuted"], "note": "draw gives the path of every contour and all components if the control points of quadratic curves are followed by the node where the curve ends; drawPoints gives all points balanced, on the first call. Refuted: draw drops the control points at the end of the last contour and draws those of an earlier one to the start of the next contour; drawPoints repeats the outlines of its first call after the glyph was changed; drawPointsDirect draws closed contours as open ones."},
  {"property": "C44", "status": "proved", "theorems": ["C44_merge", "C44_succeeds", "C44_rejects", "C44_exceptions", "C44_entry", "C44_cleared", "C44_longer_refuted", "C44_atomic_refuted", "C44_pen_refuted"], "note": "A successful merge changes exactly the values of the masters that have a source; sources of other types or flags and shorter ones are rejected. Beyond the statement: additional nodes of a source are ignored, a failed merge leaves changes behind, and a point pen for a master that was not cleared raises IndexError."},
  {"property": "C45", "status": "proved", "theorems": ["C45_groups", "C45_disjoint"], "note": "Members of a kerning group are exactly the glyphs whose first group of that side it is; other groups unchanged."},
  {"property": "C46", "status": "partial", "theorems": ["C46_classes", "C46_members_partial", "C46_empty_refuted"], "note": "Exact result of the transformation for all well-formed classes. Refuted part: a class all of whose glyphs are missing is exported with the missing glyphs instead of being omitted."},
  {"property": "C47", "status": "partial", "theorems": ["C47_kerning", "C47_names", "C47_duplicate_refuted"], "note": "Exact kerning of every master for distinct glyph names that do not look like kerning groups; with duplicate names a value is lost (refuted)."},
  {"property": "C48", "status": "proved", "theorems": ["C48_from_timestamp", "C48_from_date", "C48_seconds", "C48_rejected", "C48_text"], "note": "Against a second-by-second calendar specification."},
  {"property": "C49", "status": "partial", "theorems": ["C49_unique", "C49_attached", "C49_stored", "C49_nested_refuted", "C49_mixed_refuted"], "note": "Proved for every history over simple glyphs and composites of simple glyphs. False for composites of composites and for glyphs with both points and components, where the source counts the wrong points (refuted)."},
  {"property": "C50", "status": "proved", "theorems": ["C50_contours", "C50_path", "C50_single", "C50_named", "C50_unnamed", "C50_draw", "C50_components"], "note": "A closed contour of a single node becomes a single point of type move (C50_single)."},
  {"property": "C51", "status": "partial", "theorems": ["C51_export", "C51_named", "C51_stem_refuted", "C51_zone_refuted"], "note": "Proved for all histories of the entries of a file when the exported names are distinct (C51_export; with distinct non-empty names also C51_named). Refuted otherwise: of three stems with the same name one is lost, because the renamed ones share the number (C51_stem_refuted), and of two zones with the same name one is lost (C51_zone_refuted)."},
  {"property": "C52", "status": "partial", "theorems": ["C52_normalize", "C52_master", "C52_agree", "C52_sets", "C52_no_masks", "C52_text", "C52_api_sets", "C52_ghost_refuted", "C52_negative_refuted"], "note": "All parts hold but one: a link to a node exactly 20 or 21 below its source becomes a ghost hint (C52_ghost_refuted), because links are not normalised (C52_negative_refuted)."},
  {"property": "C53", "status": "partial", "theorems": ["C53_completed", "C53_count", "C53_one_axis_refuted", "C53_three_axes_refuted", "C53_infos"], "note": "The code computes axes squared, not two to the axes. Proved: exact count and names for every file; the claim for 0, 2 and 4 axes; refuted for 1 axis (one master) and for 3 axes (a complete file with 8 masters cannot be exported: IndexError)."},
  {"property": "C54", "status": "partial", "theorems": ["C54_glyphs", "C54_distinct", "C54_last_refuted", "C54_kerning_refuted", "C54_crowded_refuted"], "note": "Proved: every glyph but the last is kept under a distinct name (own name or first free number), in file order, with the data of its entries; all glyphs and all kerning when names are distinct. Refuted: the last glyph replaces an earlier one of the same name; a renamed glyph's kerning overwrites the other's; more than 255 equal names."},
  {"property": "C55", "status": "proved", "theorems": ["C55_family_class", "C55_weight_class", "C55_code_pages", "C55_selection", "C55_tt_info", "C55_underline"], "note": "Every item of the TrueType info, for all non-negative bit fields."},
  {"property": "C56", "status": "partial", "theorems": ["C56_failed_write_keeps_file_refuted", "C56_failed_write_content"], "note": "False of the code: the file is opened for writing before compiling. Proved: exactly what is left in the file."},
  {"property": "C57", "status": "partial", "theorems": ["C57_reread_refuted", "C57_reread_partial"], "note": "False of the code: clear() keeps the master count, stem counts, platform and encoding. Proved: these are the only things that leak."},
  {"property": "C58", "status": "proved", "theorems": ["C58_mask", "C58_reparse"], "note": "Uses the axioms of the standard library's real numbers (through Flocq)."},
  {"property": "C59", "status": "partial", "theorems": ["C59_instances", "C59_instances_refuted", "C59_reparse"], "note": "False of the code: values are truncated instead of rounded, 0.57 becomes 0.5699 and a value can drift with each save. Proved: names are kept and a value moves by at most 1/10000, towards zero, per save."},
  {"property": "C60", "status": "proved", "theorems": ["C60_names", "C60_minimal"], "note": "For the whole table and all unknown ids."},
  {"property": "C61", "status": "partial", "theorems": ["C61_commands", "C61_stems", "C61_unnamed_refuted", "C61_duplicate_refuted", "C61_closing_refuted"], "note": "Proved: one command per instruction with the labels of the points, the names of zone and stem and all values, after any history of label requests, and with distinct non-empty stem names these are names in the lib with the data of that stem. Refuted: commands on a stem without a name or with a name used twice name no stem or another one; when the last curve of a contour ends at its start and both points are hinted, a label in the commands is not in the outline (renames never reach the lib)."},
  {"property": "C62", "status": "partial", "theorems": ["C62_extract", "C62_one_refuted", "C62_missing_refuted", "C62_early_refuted", "C62_dropped_refuted", "C62_ties_refuted"], "note": "Proved for fonts with the entries for stems, their rounding, zones and deltas in any order, followed by the glyphs (C62_extract). Refuted: a rounding for one pixel, a missing entry for stems, zones or deltas, or a hinted glyph before the stems make the extraction fail; stems without rounding for 2 to 5 pixels are dropped; of rounding to 5 and 6 pixels from the same ppm the export keeps 6, the extraction 5."},
  {"property": "C63", "status": "proved", "theorems": ["C63_value", "C63_text", "C63_exists", "C63_codes"], "note": "Text determines commands; values read back."},
  {"property": "C64", "status": "proved", "theorems": ["C64_contours", "C64_redraw", "C64_cubic", "C64_component", "C64_smooth_refuted", "C64_skew_refuted"], "note": "For contours whose line points follow points on the curve and whose quadratic curves have control points. Beyond the statement: the smooth flag and the skew of components are lost."},
  {"property": "C65", "status": "partial", "theorems": ["C65_export", "C65_read_back", "C65_once", "C65_referenced_partial", "C65_kerning_groups_gone", "C65_referenced_refuted", "C65_disjoint_refuted"], "note": "Text and groups exactly, reading back, and every ordinary group in one place: proved for all inputs and options. The last part holds unless kerning groups are added while groups are moved (C65_referenced_partial); with both, which is what the option for kerning groups gives, every kerning group is deleted from the groups although the kerning refers to them (C65_kerning_groups_gone, C65_referenced_refuted). The kerning classes in the feature code are not made disjoint (C65_disjoint_refuted)."},
  {"property": "C66", "status": "partial", "theorems": ["C66_rule", "C66_rule_unique", "C66_other", "C66_lines", "C66_names", "C66_idempotent", "C66_defined", "C66_forms_refuted", "C66_defined_refuted"], "note": "Proved for every line: pair rules of two words one space apart are renamed, all other lines stay. Refuted: rules written with two spaces, long keywords or class lists keep the old name (C66_forms_refuted); without the option for kerning groups the renamed classes are not defined in the feature code (C66_defined_refuted)."},
  {"property": "C67", "status": "proved", "theorems": ["C67_guides", "C67_missing", "C67_colors_distinct", "C67_negative_refuted", "C67_wide_color_refuted", "C67_bad_red", "C67_bad_green_blue"], "note": "Angles are exact rationals (binary64 rounding of the sums is not modelled). Outside the range of the statement: a negative index decorates a guide counted from the end, a colour with a fourth byte is misread."},
  {"property": "C68", "status": "partial", "theorems": ["C68_designspace", "C68_paths_distinct", "C68_resolves", "C68_resolves_refuted", "C68_mappings", "C68_mappings_refuted", "C68_axes_refuted", "C68_instances_refuted", "C68_again_refuted"], "note": "Proved for fonts with distinct axis names, counts up to ten and complete locations. Refuted: a source's file name is the output path itself, although it is relative to the document's directory, so it is right only for absolute paths or without a directory; counts above ten take pairs of the next axis; equal axis names or style names collide; a second export adds the labels again."},
  {"property": "C69", "status": "partial", "theorems": ["C69_master", "C69_mask", "C69_anchors_refuted", "C69_minimal", "C69_mask_refuted"], "note": "Proved for fonts whose anchors and mask metrics are complete. Refuted otherwise: positions without an anchor in the GDEF data, or mask metrics for the first of several masters only, make the whole export fail; mask metrics of the other masters before those of the first go to the wrong masters."},
  {"property": "C70", "status": "partial", "theorems": ["C70_info", "C70_missing", "C70_negative_refuted"], "note": "Proved for all counts that are not negative; a negative count, which a VFB can hold, cuts from the end instead (C70_negative_refuted). A master without PostScript info makes the export fail (C70_missing)."},
  {"property": "C71", "status": "partial", "theorems": ["C71_entry", "C71_again", "C71_saved", "C71_refuted"], "note": "Refuted: with PostScript hints the export deletes the hint masks from the glyph entries, so a second export or a file saved afterwards has none (C71_again, C71_saved, C71_refuted). Exactly that and nothing else in a glyph entry changes, and without PostScript hints nothing does (C71_entry). Also deleted, but never written to a file: the preview of background images."},
  {"property": "C72", "status": "partial", "theorems": ["C72_programs", "C72_succeeds", "C72_glyph", "C72_indent", "C72_refuted"], "note": "Proved for every sequence of entries that does not fail. Refuted: a cvt entry with an odd number of bytes makes the whole export fail with struct.error."},
  {"property": "C73", "status": "proved", "theorems": ["C73_bitmaps", "C73_lossless"], "note": ""},
  {"property": "C74", "status": "partial", "theorems": ["C74_options", "C74_refuted"], "note": "Proved when each option has at most one entry. Refuted for two entries: a later default does not remove an earlier value."},
  {"property": "C75", "status": "partial", "theorems": ["C75_roundtrip", "C75_rejects", "C75_terminates", "C75_reports", "C75_refuted"], "note": "Round trip, rejection and termination proved. Refuted: values after a zero byte are not printed."},
  {"property": "C76", "status": "partial", "theorems": ["C76_dict", "C76_files", "C76_failure_refuted"], "note": "The dump determines the Vfb. Refuted: the file is opened before the dump is made, so a failing dump empties it. orjson is not modelled."},
  {"property": "C77", "status": "partial", "theorems": ["C77_kept", "C77_refuses", "C77_written", "C77_overwrites", "C77_failed", "C77_cu2qu", "C77_cu2qu_input", "C77_json_refuted", "C77_atomic_refuted"], "note": "Proved for UFO output and the converter. Refuted: JSON output overwrites existing files without permission; the UFOs are already written when an existing designspace makes the export fail."},
  {"property": "C78", "status": "partial", "theorems": ["C78_output", "C78_refuted", "C78_cu2qu_refuted"], "note": "Refuted: the output path argument is ignored by both tools. What they use instead is proved."},
  {"property": "C79", "status": "partial", "theorems": ["C79_upm", "C79_refuted"], "note": "Proved for the first access. Refuted afterwards: the value is cached for the life of the Vfb."},
  {"property": "C80", "status": "partial", "theorems": ["C80_compatible", "C80_refuted", "C80_composite_refuted"], "note": "The exact condition for compatible contours is proved for fonts whose composites have no hints of their own; the unconditional claim is refuted by a contour that ends at its start in one master only, and for composites with hints by names added to components between the masters."},
  {"property": "C81", "status": "partial", "theorems": ["C81_tags", "C81_refuted", "C81_composite_refuted"], "note": "Proved for glyphs without components except at the start of contours that end at their start; refuted there and for composites."},
  {"property": "C82", "status": "partial", "theorems": ["C82_attributes", "C82_own", "C82_order", "C82_ufo3", "C82_refuted"], "note": "Every attribute has the value of the last entry about it (C82_attributes), kinds of entries do not contend (C82_own) and their order does not matter (C82_order). The part that the values reach the UFO is false for weight, width and year (C82_refuted) and holds for all others (C82_ufo3)."},
  {"property": "C83", "status": "partial", "theorems": ["C83_family", "C83_style", "C83_empty", "C83_refuted"], "note": "The preferred names are used if present (C83_family, C83_style); without a preferred family name the font is called Untitled although its family name is known (C83_refuted)."},
  {"property": "C84", "status": "partial", "theorems": ["C84_classes", "C84_refuted", "C84_tab_refuted"], "note": "All classes written with spaces are proved; a class with two colons stops the export with ValueError (C84_refuted), and a tab does not separate members (C84_tab_refuted)."},
  {"property": "C85", "status": "partial", "theorems": ["C85_parts", "C85_succeeds", "C85_independent", "C85_glyphs", "C85_file", "C85_attributes", "C85_zones_refuted"], "note": "All parts are proved to come from their own entries, for every list of entries and for every file that is read; that the order of different kinds of entries does not matter fails for TrueType zones and glyphs (C85_zones_refuted). For build_tt_glyph_lib, which runs after the loop, see C89."},
  {"property": "C86", "status": "partial", "theorems": ["C86_masters", "C86_glyphs", "C86_no_notes", "C86_notes_refuted"], "note": "From the entries to the glyphs of every UFO. Refuted for notes. For PostScript hints and TrueType commands C86_glyphs says only that there are none if they are not asked for or not there; what they are is C89 and C90."},
  {"property": "C87", "status": "proved", "theorems": ["C87_masks", "C87_minimal"], "note": "Background layer, from the entries."},
  {"property": "C88", "status": "proved", "theorems": ["C88_shared", "C88_kerning", "C88_info", "C88_lib", "C88_hinting", "C88_guides"], "note": "From the entries to the UFO. C88_kerning is for exports that do not move groups to the features. C88_hinting: the TrueType hinting options, stems and zones in the lib."},
  {"property": "C89", "status": "partial", "theorems": ["C89_commands", "C89_names", "C89_renaming", "C89_refuted"], "note": "From the entries to the UFO. That a named point is there is refuted for the start of a contour that ends with a curve at its start if both nodes have names (C89_refuted); C89_commands has this as the one exception. C89_renaming: the renaming of joined points, which comes too late, after the commands were put into the lib, never fails."},
  {"property": "C90", "status": "partial", "theorems": ["C90_compatible", "C90_hints", "C90_refuted"], "note": "From the entries to the UFO: the exact condition for compatible contours; the hint sets are exactly those of hints, links and masks, tagged with the points at which they start, but for the start of a contour that ends there. Glyphs with components must have no PostScript hints of their own. The unconditional claim is refuted."},
  {"property": "C91", "status": "proved", "theorems": ["C91_succeeds", "C91_infos", "C118_entries"], "note": "Failure-freedom of the whole export under the conditions of S_Fine.v. The ids of TrueType instructions, which are made after that, are in C118_entries; they need that no glyph is a component of itself."},
  {"property": "C92", "status": "partial", "theorems": ["C92_succeeds", "C92_masters", "C92_refuted"], "note": "False for three axes (C92_refuted: no VFB with three axes and eight PostScript infos is exported); proved for all other numbers of axes"},
  {"property": "C93", "status": "partial", "theorems": ["C93_exact", "C93_never", "C93_refuted"], "note": "False of the code: the first access to the glyphs blanks them (C42), so for every file that can be read and decompiled the tool says that it was not modified, and it never writes anything, whatever fontTools would do (C93_exact, C93_never; a concrete file with a cubic curve: C93_refuted). That other files are left as they are holds."},
  {"property": "C94", "status": "partial", "theorems": ["C94_sets", "C94_update", "C94_lists_refuted"], "note": "Proved for every document with one list of hint sets, anywhere among other elements. With two lists all sets of the first but its last are lost (C94_lists_refuted). ElementTree's parser and the UTF-8 decoder are parameters."},
  {"property": "C95", "status": "partial", "theorems": ["C95_file", "C95_names_refuted"], "note": "C95_file covers every file whose data can be written (the condition of C16, which lists it for each entry type), whose glyphs have non-empty names, whose zone names are distinct and whose zone deltas count from 0. The first of these extra conditions is needed: the name of a glyph with an empty name is not written, so that the export of the saved file ends with a KeyError (C95_names_refuted). Equality of the UFOs is exact but for the order of the items of the font info, of the programs lib and of the deltas of a zone. c95_conditions shows a file with two masters, hints, TrueType commands, zones and deltas that meets all hypotheses."},
  {"property": "C96", "status": "proved", "theorems": ["C96_document", "C96_mappings", "C96_no_axes"], "note": "Conditions of the theorems: different axis names, a coordinate per axis for each master and instance (design_complete), ten pairs per axis and counts up to ten (mappings_fit); the behaviour outside of them is in C68."},
  {"property": "C97", "status": "partial", "theorems": ["C97_reads", "C97_determines", "C97_files", "C97_keys", "C97_written", "C97_surrogates_refuted", "C97_nan_refuted", "C97_minimal_refuted"], "note": "The text that orjson writes is modelled (M_Json: dump) and read by an independent JSON reader (S_Json: loads), for all Python values. What the parsers make of each type of entry is modelled as a Python value (M_Json: value_py); the order of the keys of a glyph, which the model of the parser does not keep, is arbitrary. C97_files says that the JSON determines header and entries if all doubles of one of the two are finite. Refuted in two cases: JSON has no infinities and NaNs, so files that differ only there have the same JSON (C97_nan_refuted); and a name record with a character outside of the BMP becomes a string with surrogates, at which orjson raises an exception, so that an empty file is left although the VFB can be decompiled (C97_surrogates_refuted). The option --minimal (parse only minimal amount of data) has no effect on the JSON (C97_minimal_refuted). The text of a float is an oracle (numbers_ok in S_Dump.v: JSON numbers that are not integers, different for different floats); sample_number_ok shows that such texts exist. C97_keys: in no object of the JSON do two members have the same key, so that a reader that makes dicts of objects gets all of it. C97_written: these name records are the only data at which orjson raises. Of every file below 2 GB that is read and decompiled (without --roundtrip) JSON is written unless a name record has a surrogate, so every integer that the parsers make, sums of coordinates and counts included, is in the range of 64 bits and every other text can be encoded."},
  {"property": "C98", "status": "partial", "theorems": ["C98_same", "C98_same_file", "C98_silent", "C98_files", "C98_separators_refuted"], "note": "diff.py with OPT_SORT_KEYS and str.splitlines modelled; difflib's unified_diff is an oracle that gives no lines exactly for equal lists. The second direction holds if no string has a NEL (U+0085), LS or PS in it, which JSON does not escape but splitlines breaks lines at; without this it is refuted by two files with different names of which the same lines are made (C98_separators_refuted). Data are compared as JSON (same_js), so an infinity equals a NaN, as in C97. The files are read twice in a row into the same Vfb (once by the constructor), so that what is compared is the second reading, which can differ from the first (C57_reread_refuted). The option --html is not modelled."},
  {"property": "C99", "status": "partial", "theorems": ["C99_json", "C99_output", "C99_kept", "C99_missing_refuted", "C99_one_refuted", "C99_early_refuted"], "note": "C99_json: the file is UTF-8 of a JSON text of the stems, zones, font numbers and commands of the entries. C99_kept: after an exception the output file is as it was, or empty if the text could not be made. Refuted: files without an entry for stems, zones or zone deltas, files with rounding to one pixel and files with a hinted glyph before the stems cannot be exported, with nothing written. Only the format json; toml and yaml are written by libraries."},
  {"property": "C100", "status": "proved", "theorems": ["C100_written", "C100_exported", "C100_stopped", "C100_kept", "C100_input", "C100_encoding"], "note": "Whole tool: reading with drop_keys, decompiling, building, writing. The content of the UFOs is that of C86 to C90 (vfb_to_ufos of the entries). That --json overwrites without permission is C77_json_refuted."},
  {"property": "C101", "status": "partial", "theorems": ["C101_draw", "C101_points", "C101_headless_refuted", "C101_cleared", "C101_pen"], "note": "Proved for draw and the pen, and for drawPoints if the outline is empty or starts with a node of type move. Refuted otherwise: drawPoints gives a contour that is not counted."},
  {"property": "C102", "status": "proved", "theorems": ["C102_entry", "C102_table", "C102_tool", "C102_shown"], "note": "bytes.fromhex and bytes.hex of the Python standard library are modelled (M_Helpers); S_Hex.v says independently what a hex string says."},
  {"property": "C103", "status": "partial", "theorems": ["C103_written", "C103_read", "C103_header_refuted", "C103_shared_bytes", "C103_shared_refuted", "C103_masters_refuted"], "note": "Proved for all histories: what is written and read back (compiled for the font the entry was added to last), and that entries of bytes can be shared. Refuted: a decompiled entry that is added to a second font is compiled for the masters of that font also when the first is written (C103_shared_refuted); the Master Count entry of an assembled font does not set the number of masters, so anchors lose their positions (C103_masters_refuted). Only num_masters is modelled of what compilers look at."},
  {"property": "C104", "status": "proved", "theorems": ["C104_raises", "C104_decompile", "C104_all_raised", "C104_never"], "note": "Exact sets: C104_raises bounds, C104_all_raised gives data for each exception. ttinfo (1264) may also never stop, which is C32."},
  {"property": "C105", "status": "proved", "theorems": ["C105_font_options", "C105_export_options", "C105_ps_options", "C105_glyph_ps_options", "C105_mapping_mode", "C105_fl_version", "C105_gdef_class", "C105_hint_masks", "C105_commands"], "note": "The tables of S_Meaning are written out again from the documentation of the format in the source; the theorems say what the parser of each entry does with bytes that store the numbers."},
  {"property": "C106", "status": "proved", "theorems": ["C106_background_pixels", "C106_background_preview", "C106_bitmaps_preview", "C106_bitmaps_pixels"], "note": "The pixels and previews of the background entry and of all bitmaps of a glyph."},
  {"property": "C107", "status": "partial", "theorems": ["C107_proportional", "C107_image_refuted", "C107_bitmaps_refuted", "C107_anchors_refuted", "C107_mask_refuted", "C107_global_mask_refuted", "C107_guides_refuted", "C107_glyph_refuted"], "note": "False as stated for all entries: reading past the end of an entry gives zeros instead of an exception, so a bitmap that declares 2k bytes and holds none decompiles to k bytes, and records of no master take no bytes. C107_proportional proves the bound for every entry type and every input otherwise (S_Size.stored lists the provisions; asm_in_proportion is what is asked of fontTools' disassembler)."},
  {"property": "C108", "status": "proved", "theorems": ["C108_raises", "C108_compile", "C108_font", "C108_all_raised", "C108_doubles", "C108_kern_pair"], "note": "Data of another form, doubles that are no doubles and negative bit numbers are excluded: the model has TypeError or StructError for them, where the code may raise others. The exceptions of fontTools' assembler and of the angle conversion are a parameter."},
  {"property": "C109", "status": "partial", "theorems": ["C109_slope", "C109_saves", "C109_guides", "C109_glyph", "C109_exact_refuted"], "note": "False of the code: the slope is truncated instead of rounded, so with an accurate math library it can lose one with each save (C109_exact_refuted; CPython on Linux does this to 4, 6, 8, 10 and about a fifth of all slopes up to 20000). Proved with real analysis: places are kept, a slope is the same or one nearer to zero after a save, the angle is at most 0.006 degrees away, and guides that were read can always be written. The theorems use the axioms of Coq's real numbers."},
  {"property": "C110", "status": "partial", "theorems": ["C110_cut", "C110_marker", "C110_lost", "C110_noticed_refuted"], "note": "Proved: a cut file is accepted at two kinds of places only. Inside of the end marker nothing is lost. After the first byte of an entry whose id has 2 as the low byte (weight name 1026 among others) the remaining byte is taken for the end marker, and that entry and all that follow are lost without an exception (C110_lost; C110_noticed_refuted). At all other places reading raises or, as in C12, does not return."},
  {"property": "C111", "status": "partial", "theorems": ["C111_file", "C111_often", "C111_refuted"], "note": "Proved for files whose data is in the domain of the compilers (S_Table.can_be_written, the same condition as in C16 and C95): the second save, and every later one, writes the bytes of the first. Without it the property is false: C111_refuted gives a file with a primary instance whose location changes with every save (C59); slopes of guides can do the same (C109). Depends on the axioms of Coq's Reals through Flocq."},
  {"property": "C112", "status": "partial", "theorems": ["C112_edits", "C112_masters_refuted"], "note": "Proved for all files and all edits that leave the entries FL Version, Master Count, TrueType Stems (which concern the reading of other entries) and MM Kern Pair (fixed size) as they are. Refuted for an edit of Master Count: the number of masters that was read is used for the data of the other entries, so the positions of an added master are lost."},
  {"property": "C113", "status": "partial", "theorems": ["C113_any_order", "C113_saved_refuted"], "note": "Proved for all sequences of decompile and compile calls, provided the entries that are decompiled can be written (the conditions of C16). Refuted for programs that also save in between: the size of an entry is frozen by the first save (C14), so an entry decompiled afterwards whose bytes change makes the next saved file unreadable."},
  {"property": "C114", "status": "proved", "theorems": ["C114_base64", "C114_classes", "C114_keep_groups", "C114_kerning_groups", "C114_no_hints", "C114_form"], "note": "C114_classes and C114_form: the export fails with the same exception as without the options; C114_base64: it fails if it does without --base64 or if a command is not ASCII. C114_keep_groups compares without and with --keep-groups, C114_kerning_groups without and with --add-kerning-groups (both with --keep-groups). --minimal and --unicode-strings change what is read and are not part of this property."},
  {"property": "C115", "status": "partial", "theorems": ["C115_header", "C115_no_decompile", "C115_roundtrip", "C115_roundtrip_refuted", "C115_unicode_refuted", "C115_ufo_unicode_refuted"], "note": "The three entry types that are decompiled while a file is read are shown decompiled even with --no-decompile. C115_roundtrip: for data that can be written (C16) and entries of unknown types, which are not compiled. Refuted: with --roundtrip there is no JSON of a file with a pair of MM kerning; --unicode-strings changes nothing for any file, in vfb2json and in vfb2ufo. --minimal changes nothing either (C97_minimal_refuted)."},
  {"property": "C116", "status": "proved", "theorems": ["C116_minimal", "C116_complete", "C116_fails"], "note": "C116_minimal: for all files and arguments the output with the option is minimal_ufo of the one without, and the designspace is the same. C116_complete: with all glyphs of the classes in the font, groups, kerning and features are the same too, and the export works. C116_fails: otherwise the only new exception is an IndexError (kerning of a master)."},
  {"property": "C117", "status": "proved", "theorems": ["C117_local", "C117_others"], "note": "C117_local: mark, user data, background image and bitmaps; the changed VFB is exported. C117_others: code points, anchors and their positions, guides, mask and its metrics, if both are exported. For all entries before and after the changed one and all old and new data. What the item becomes is in C86. The glyph is the one the entry follows, under its own name or, if there are several of that name, with a number. --minimal leaves some of these entries out: then nothing changes."},
  {"property": "C118", "status": "partial", "theorems": ["C118_ids", "C118_ends", "C118_entries", "C118_endless", "C118_outlines_only", "C118_refuted"], "note": "Refuted where a glyph with instructions is a component of itself or of one of its components: the recursion of the pen has no end (in Python a RecursionError, and no UFO is written). Proved: what the ids are made from, that they are made if there are no such components (also from the entries, with the conditions of C91), and that nothing but the outlines matters. The texts of the pen and their hash are a parameter."},
  {"property": "C119", "status": "proved", "theorems": ["C119_ufos", "C119_edited", "C119_added", "C119_family", "C119_others", "C119_users_matter"], "note": "C119_ufos: the whole export of two fonts that have a family of glyphs in common, with TrueType commands, masks and lib. C119_edited: for files, an edit of outline, hints, metrics, guides or TrueType programs in a glyph entry leaves the families without that glyph as they are. C119_added: for files, a glyph without components that is added at the end leaves all other glyphs of the UFOs as they are. C119_family: a family exported alone gives the outlines, names of points and PostScript hint sets it has in the whole export, from any state of the labels. C119_others: the same for two fonts. C119_users_matter: the condition on users of components is needed. The theorems speak of exports that succeed."}
]}
