{
 "claims": [
  {
   "property": "C01",
   "status": "proved",
   "theorems": [
    "c01_new_into_string"
   ],
   "note": ""
  },
  {
   "property": "C02",
   "status": "proved",
   "theorems": [
    "c02_length_limit",
    "c02_error_kind",
    "c02_accepted_but_not_writable"
   ],
   "note": "new never panics (it is a total function of the model). Extra: the accepted strings that cannot be written with overflow checks on."
  },
  {
   "property": "C03",
   "status": "proved",
   "theorems": [
    "c03_write_read"
   ],
   "note": "Exact: reads back iff not ambiguous."
  },
  {
   "property": "C04",
   "status": "proved",
   "theorems": [
    "c04_read_write_back"
   ],
   "note": "Exact: unchanged iff a read ISRC string has a consistent length field. Buffers shorter than 2^64-1."
  },
  {
   "property": "C05",
   "status": "proved",
   "theorems": [
    "c05_heap_size",
    "c05_heap_size_debug",
    "c05_invariant",
    "c05_release_refuted"
   ],
   "note": "Holds whenever at most 65535 bytes are written, always so with overflow checks on; refuted without overflow checks for one length of strings (c05_release_refuted)."
  },
  {
   "property": "C06",
   "status": "proved",
   "theorems": [
    "c06_reader_panics"
   ],
   "note": ""
  },
  {
   "property": "C07",
   "status": "proved",
   "theorems": [
    "c07_isrc_accepts",
    "c07_isrc_into_string",
    "c07_isrc_write_read"
   ],
   "note": "A NUL in the ISRC truncates what is read back; the theorem says exactly where."
  },
  {
   "property": "C08",
   "status": "proved",
   "theorems": [
    "c08_write_read",
    "c08_new_is_good",
    "c08_alignment",
    "c08_provided",
    "c08_read_write_back"
   ],
   "note": "Stated by a separate relation for where strings are laid; both build modes."
  },
  {
   "property": "C09",
   "status": "proved",
   "theorems": [
    "c09_exact",
    "c09_extent",
    "c09_provided_sum",
    "c09_provided_refuted"
   ],
   "note": ""
  },
  {
   "property": "C10",
   "status": "proved",
   "theorems": [
    "c10_error",
    "c10_stored_offsets"
   ],
   "note": ""
  },
  {
   "property": "C11",
   "status": "proved",
   "theorems": [
    "c11_write_read",
    "c11_write_read_provided"
   ],
   "note": ""
  },
  {
   "property": "C12",
   "status": "proved",
   "theorems": [
    "c12_read_write_back",
    "c12_strict_reader"
   ],
   "note": "For values with computed or given offsets whose pieces are disjoint."
  },
  {
   "property": "C13",
   "status": "proved",
   "theorems": [
    "c13_exact",
    "c13_debug"
   ],
   "note": "Exact for rows with computed offsets smaller than 64 KiB; with overflow checks on, for any size."
  },
  {
   "property": "C14",
   "status": "proved",
   "theorems": [
    "c14_bijection",
    "c14_bits",
    "c14_increment",
    "c14_from_all_valid",
    "c14_from_all_valid_refuted"
   ],
   "note": "from_all_valid truncates the 11-bit valid count: c14_from_all_valid_refuted."
  },
  {
   "property": "C15",
   "status": "proved",
   "theorems": [
    "c15_last_row",
    "c15_groups",
    "c15_in_last_group"
   ],
   "note": ""
  },
  {
   "property": "C16",
   "status": "proved",
   "theorems": [
    "c16_pack_unpack",
    "c16_unpack_pack",
    "c16_empty",
    "c16_debug",
    "c16_unvalidated_refuted"
   ],
   "note": "Holds for checked page indices; raw u32 values of 2^29 and more lose bits: c16_unvalidated_refuted."
  },
  {
   "property": "C17",
   "status": "proved",
   "theorems": [
    "c17_size",
    "c17_panic",
    "c17_write_read",
    "c17_frame"
   ],
   "note": "Exact size, panic condition, read-back and frame."
  },
  {
   "property": "C18",
   "status": "proved",
   "theorems": [
    "c18_accounting"
   ],
   "note": "Release builds: sizes up to 65528; for the rest see C21."
  },
  {
   "property": "C19",
   "status": "proved",
   "theorems": [
    "c19_run",
    "c19_write_read",
    "c19_step",
    "c19_predicted_size"
   ],
   "note": "All finite sequences of operations; together with C13 and C22 the resulting page reads back."
  },
  {
   "property": "C20",
   "status": "proved",
   "theorems": [
    "c20_unchanged",
    "c20_refused"
   ],
   "note": ""
  },
  {
   "property": "C21",
   "status": "proved",
   "theorems": [
    "c21_allocate_panics",
    "c21_insert_panics",
    "c21_usual_size",
    "c21_oversize_debug",
    "c21_oversize_release",
    "c21_zero_size"
   ],
   "note": "Exact panic conditions; overflow cases in release builds are shown to misbehave."
  },
  {
   "property": "C22",
   "status": "proved",
   "theorems": [
    "c22_write_read",
    "c22_write_read_disjoint",
    "c22_row_space"
   ],
   "note": "Slots that are not marked present may read back differently; the library's equality ignores them."
  },
  {
   "property": "C23",
   "status": "proved",
   "theorems": [
    "c23_data_page",
    "c23_index_page",
    "c23_strict"
   ],
   "note": "Data pages: whenever the page reads with ISRC strings of consistent length. Index pages: exactly when the tail is the one the library writes."
  },
  {
   "property": "C24",
   "status": "proved",
   "theorems": [
    "c24_outside",
    "c24_inside"
   ],
   "note": "Outside of the page, and inside the heap outside of present rows."
  },
  {
   "property": "C25",
   "status": "proved",
   "theorems": [
    "c25_bounded",
    "c25_collect"
   ],
   "note": "trace = any number of next calls with arbitrary page changes in between; an iterator that reported an error never ends with None, see C27"
  },
  {
   "property": "C26",
   "status": "proved",
   "theorems": [
    "c26_linked"
   ],
   "note": "Both directions; also what changes in memory (loaded_all)"
  },
  {
   "property": "C27",
   "status": "proved",
   "theorems": [
    "c27_sticky"
   ],
   "note": ""
  },
  {
   "property": "C28",
   "status": "proved",
   "theorems": [
    "c28_present",
    "c28_absent",
    "c28_zero",
    "c28_effect",
    "c28_failure",
    "c28_open"
   ],
   "note": "usize has 64 bits; page number and page size are u32"
  },
  {
   "property": "C29",
   "status": "proved",
   "theorems": [
    "c29_unloaded",
    "c29_size",
    "c29_header"
   ],
   "note": "Assumes the header fits in the first page and all parts of loaded pages lie inside their page (page_inside); rows can reach outside otherwise. Failed flushes are not modelled"
  },
  {
   "property": "C30",
   "status": "proved",
   "theorems": [
    "c30_persistent",
    "c30_inside"
   ],
   "note": "Consistent pages as in C22; unused row group slots may differ"
  },
  {
   "property": "C31",
   "status": "proved",
   "theorems": [
    "c31_unmodified"
   ],
   "note": "canonical_page: read by the strict reader (no inconsistent ISRC length), index pages with canonical tail"
  },
  {
   "property": "C32",
   "status": "proved",
   "theorems": [
    "c32_panics",
    "c32_good",
    "c32_typed",
    "c32_open_typed"
   ],
   "note": "db_typed holds for each database just opened and each page read"
  },
  {
   "property": "C33",
   "status": "proved",
   "theorems": [
    "c33_first",
    "c33_none",
    "c33_iter"
   ],
   "note": ""
  },
  {
   "property": "C34",
   "status": "proved",
   "theorems": [
    "c34_no_overflow"
   ],
   "note": ""
  },
  {
   "property": "C35",
   "status": "proved",
   "theorems": [
    "c35_progress",
    "c35_ends",
    "c35_sections"
   ],
   "note": ""
  },
  {
   "property": "C36",
   "status": "proved",
   "theorems": [
    "c36_accepted",
    "c36_panics",
    "c36_release"
   ],
   "note": "size_panic spells out the condition per section type; files below 4 GiB"
  },
  {
   "property": "C37",
   "status": "proved",
   "theorems": [
    "c37_comment",
    "c37_trimmed",
    "c37_writable"
   ],
   "note": ""
  },
  {
   "property": "C38",
   "status": "proved",
   "theorems": [
    "c38_consumed",
    "c38_canonical"
   ],
   "note": ""
  },
  {
   "property": "C39",
   "status": "proved",
   "theorems": [
    "c39_section",
    "c39_writable",
    "c39_rewrite",
    "c39_file",
    "c39_file_rewrite"
   ],
   "note": "Memory limits are not modelled; files below 4 GiB for the rewrite direction"
  },
  {
   "property": "C40",
   "status": "proved",
   "theorems": [
    "c40_cue_list",
    "c40_extended_cue_list",
    "c40_limit",
    "c40_song"
   ],
   "note": ""
  },
  {
   "property": "C41",
   "status": "proved",
   "theorems": [
    "c41_plain",
    "c41_encrypted",
    "c41_exact",
    "c41_limit"
   ],
   "note": ""
  },
  {
   "property": "C42",
   "status": "proved",
   "theorems": [
    "c42_song",
    "c42_bytes",
    "c42_limit"
   ],
   "note": "Encryption through XorStream is covered by c43_song_read and c43_write_pieces"
  },
  {
   "property": "C43",
   "status": "proved",
   "theorems": [
    "c43_key_aligned",
    "c43_transparent",
    "c43_involutive",
    "c43_empty_key",
    "c43_song_read",
    "c43_song_program",
    "c43_write_pieces"
   ],
   "note": "Complete reads and writes; gapless: no write behind a gap after the end of the stream"
  },
  {
   "property": "C44",
   "status": "proved",
   "theorems": [
    "c44_short_reads",
    "c44_full_read",
    "c44_song_key"
   ],
   "note": ""
  },
  {
   "property": "C45",
   "status": "proved",
   "theorems": [
    "c45_roundtrip",
    "c45_roundtrip_iff",
    "c45_write_total",
    "c45_rewrite",
    "c45_no_panic"
   ],
   "note": "All four kinds, any bytes behind the file. Strings with zero bytes read back cut at the first one (stated as an equivalence)."
  },
  {
   "property": "C46",
   "status": "proved",
   "theorems": [
    "c46_checksum",
    "c46_unique",
    "c46_crc"
   ],
   "note": "The checksum is specified as a remainder of polynomials over GF(2), independent of the bitwise algorithm; remainders are unique. The crate crc16 itself is not in the repository and is trusted to compute CRC-16/XMODEM."
  },
  {
   "property": "C47",
   "status": "proved",
   "theorems": [
    "c47_not_verified"
   ],
   "note": "Acceptance and result are the same before and after any change of the two checksum bytes."
  },
  {
   "property": "C48",
   "status": "proved",
   "theorems": [
    "c48_burst",
    "c48_burst_crc",
    "c48_one_option"
   ],
   "note": "Any error pattern within 16 consecutive bits; with 17 bits it can fail (example)."
  },
  {
   "property": "C49",
   "status": "proved",
   "theorems": [
    "c49_length",
    "c49_length_fields"
   ],
   "note": ""
  },
  {
   "property": "C50",
   "status": "proved",
   "theorems": [
    "c50_codes",
    "c50_all",
    "c50_accepted",
    "c50_rejected"
   ],
   "note": "46 enums; discriminants computed by Rust's rule from the source."
  },
  {
   "property": "C51",
   "status": "proved",
   "theorems": [
    "c51_values",
    "c51_isolated",
    "c51_fields"
   ],
   "note": "A file state is: cannot be opened, or its bytes."
  },
  {
   "property": "C52",
   "status": "proved",
   "theorems": [
    "c52_complete",
    "c52_folders",
    "c52_general",
    "c52_database",
    "c52_opened",
    "c52_reading",
    "c52_failed",
    "c52_stored"
   ],
   "note": "Recursion with a depth bound; the bound does not matter above the number of rows. From bytes: c52_database, c52_opened."
  },
  {
   "property": "C53",
   "status": "proved",
   "theorems": [
    "c53_listing",
    "c53_forever"
   ],
   "note": "Divergence: no result at any depth. In the program this is a stack overflow."
  },
  {
   "property": "C54",
   "status": "proved",
   "theorems": [
    "c54_files",
    "c54_inside",
    "c54_order",
    "c54_absolute_playlist",
    "c54_absolute_folder",
    "c54_dotdot",
    "c54_outside"
   ],
   "note": "Locations are computed without symbolic links, on Unix."
  },
  {
   "property": "C55",
   "status": "proved",
   "theorems": [
    "c55_content",
    "c55_all",
    "c55_line",
    "c55_two_slashes",
    "c55_database",
    "c55_stored",
    "c55_track_stored"
   ],
   "note": "Includes the composition with reading the three tables."
  },
  {
   "property": "C56",
   "status": "proved",
   "theorems": [
    "c56_db",
    "c56_setting",
    "c56_db_option",
    "c56_setting_option",
    "c56_no_name",
    "c56_file_name",
    "c56_file_name_end"
   ],
   "note": "The options are those clap admits."
  },
  {
   "property": "C57",
   "status": "proved",
   "theorems": [
    "c57_node",
    "c57_root"
   ],
   "note": "XML at the level of elements with attributes and children; quick-xml's text level is trusted (see DESIGN.md)."
  },
  {
   "property": "C58",
   "status": "proved",
   "theorems": [
    "c58_order",
    "c58_other_attributes"
   ],
   "note": "c58_order covers readable known attributes; c58_other_attributes states the exception for folders."
  },
  {
   "property": "C59",
   "status": "proved",
   "theorems": [
    "c59_folder",
    "c59_playlist",
    "c59_inside",
    "c59_unchecked"
   ],
   "note": "c59_inside carries the statement to all elements of a tree; c59_unchecked is the finding about reading."
  },
  {
   "property": "C60",
   "status": "proved",
   "theorems": [
    "c60_align",
    "c60_align_zero",
    "c60_parse",
    "c60_parse_error",
    "c60_write",
    "c60_page_rows_read",
    "c60_page_rows_write",
    "c60_try_map",
    "c60_zip"
   ],
   "note": "c60_page_rows_read and c60_page_rows_write show that the page model uses these functions. Positions above 2^63 are not modelled."
  },
  {
   "property": "C61",
   "status": "proved",
   "theorems": [
    "c61_fallback",
    "c61_file_type",
    "c61_menu_visibility",
    "c61_page_type",
    "c61_color_index"
   ],
   "note": ""
  },
  {
   "property": "C62",
   "status": "proved",
   "theorems": [
    "c62_listing",
    "c62_all_lines",
    "c62_panic"
   ],
   "note": ""
  },
  {
   "property": "C63",
   "status": "proved",
   "theorems": [
    "c63_document",
    "c63_track"
   ],
   "note": "Floating point numbers are abstract: any type with show and read that are inverse, where the empty text is no number."
  },
  {
   "property": "C64",
   "status": "proved",
   "theorems": [
    "c64_string",
    "c64_row",
    "c64_row_provided",
    "c64_data_page",
    "c64_index_page",
    "c64_flush"
   ],
   "note": "Proved as equivalences, so round trip theorems that assume a successful write are not vacuous."
  },
  {
   "property": "C65",
   "status": "proved",
   "theorems": [
    "c65_text",
    "c65_isrc",
    "c65_read"
   ],
   "note": "Literal byte formats in LayoutStr.v, independent of the model's coders except the UTF-16 coder that C07 verifies."
  },
  {
   "property": "C66",
   "status": "proved",
   "theorems": [
    "c66_read",
    "c66_history",
    "c66_written"
   ],
   "note": "Literal tables of names, offsets and widths in LayoutDb.v; history rows, whose strings follow each other, separately."
  },
  {
   "property": "C67",
   "status": "proved",
   "theorems": [
    "c67_read",
    "c67_data_written",
    "c67_index_written"
   ],
   "note": "Literal layout in LayoutDb.v (header_layout, index_layout, data_layout)."
  },
  {
   "property": "C68",
   "status": "proved",
   "theorems": [
    "c68_open",
    "c68_page",
    "c68_written"
   ],
   "note": "Literal layout in LayoutDb.v (tables_layout); pages from index 1, as page 0 is the header."
  },
  {
   "property": "C69",
   "status": "proved",
   "theorems": [
    "c69_section",
    "c69_file",
    "c69_section_written",
    "c69_file_written"
   ],
   "note": "Inversion of the section readers against literal tables of offsets; the written form follows from C39."
  },
  {
   "property": "C70",
   "status": "proved",
   "theorems": [
    "c70_read",
    "c70_written",
    "c70_meanings"
   ],
   "note": "Literal tables of offsets and bytes, compared with the model's items; the tables were also checked against the directory names in /repo/data."
  },
  {
   "property": "C71",
   "status": "proved",
   "theorems": [
    "c71_components",
    "c71_set",
    "c71_preview",
    "c71_preview_in_file",
    "c71_tiny_refuted",
    "c71_tiny_in_file",
    "c71_color_shown",
    "c71_color_refuted",
    "c71_color_in_file"
   ],
   "note": "Bit fields by induction over the widths. The code violates the documented order for tiny and colour columns: c71_tiny_refuted, c71_color_refuted; c71_color_shown says what is returned instead."
  },
  {
   "property": "C72",
   "status": "proved",
   "theorems": [
    "c72_listing",
    "c72_faithful",
    "c72_names",
    "c72_names_complete",
    "c72_language_refuted"
   ],
   "note": "c72_listing and c72_faithful cover list-settings from the bytes of the four files to the text. c72_names compares texts with the documented names, c72_language_refuted records the misplaced attribute (finding)."
  },
  {
   "property": "C73",
   "status": "proved",
   "theorems": [
    "c73_dump",
    "c73_segment",
    "c73_panic",
    "c73_panic_refuted"
   ],
   "note": "c73_dump: the output, split into parts per table; c73_segment: the part of a table is a function of the file and the table; c73_panic: exactly when it panics; c73_panic_refuted: a readable database that cannot be dumped. Printed values are events, their text is not modelled."
  },
  {
   "property": "C74",
   "status": "proved",
   "theorems": [
    "c74_open",
    "c74_page",
    "c74_analysis",
    "c74_load_page",
    "c74_iterate",
    "c74_rows",
    "c74_export",
    "c74_dump",
    "c74_checked",
    "c74_small"
   ],
   "note": "c74_open, c74_page, c74_analysis, c74_load_page, c74_iterate: no panic; c74_rows, c74_export, c74_dump: when the row iterator and the commands panic; c74_checked, c74_small: overflow checks. Memory exhaustion (e.g. a header with 2^32 tables) is not modelled. Settings files: C45."
  },
  {
   "property": "C75",
   "status": "proved",
   "theorems": [
    "c75_sessions",
    "c75_run",
    "c75_predicted",
    "c75_kept",
    "c75_all",
    "c75_others"
   ],
   "note": "c75_sessions: refinement over any number of sessions, against the small model `shelf`/`place`/`work` of Session.v; c75_run: no panic and no error; c75_kept, c75_all, c75_others: what is on the shelves; c75_predicted: row_heap is a valid size. Hypotheses: the pages named by the shelves are read strictly (c23) and consistent; pages of other numbers are arbitrary."
  },
  {
   "property": "C76",
   "status": "proved",
   "theorems": [
    "c76_header",
    "c76_tables",
    "c76_error",
    "c76_lines",
    "c76_unique",
    "c76_artist_stored"
   ],
   "note": "c76_lines for distinct ids other than 0; C62 and C54 for cycles. Strings as values, symbols and indentation of the text are not modelled."
  },
  {
   "property": "C77",
   "status": "proved",
   "theorems": [
    "c77_export"
   ],
   "note": "Failures of the file system are not modelled. If the table of tracks has both a path that does not decode and, later, a page that cannot be read, the model returns the error of the page (the program the other)."
  },
  {
   "property": "C78",
   "status": "proved",
   "theorems": [
    "c78_programs",
    "c78_unsaved",
    "c78_run",
    "c78_table",
    "c78_number",
    "c78_text",
    "c78_longer_refuted",
    "c78_last_refuted"
   ],
   "note": "Assignments change the fields of rows (numbers, enums, inline texts), not the offset arrays. Pages with unknown content are described by no shelf and are only required not to be loaded. c78_longer_refuted and c78_last_refuted show what happens without the condition on the size."
  },
  {
   "property": "C79",
   "status": "proved",
   "theorems": [
    "c79_interrupted",
    "c79_header",
    "c79_tables",
    "c79_states",
    "c79_atomic_refuted"
   ],
   "note": "Writes are assumed to arrive in program order (no reordering by a cache or buffer) and to be cut anywhere. Bytes of the interrupted page are arbitrary. c79_states ties the definition of an interruption to the run of flush; c79_atomic_refuted is the finding that saving is not atomic."
  },
  {
   "property": "C80",
   "status": "proved",
   "theorems": [
    "c80_jobs",
    "c80_run",
    "c80_link",
    "c80_extended",
    "c80_order_refuted"
   ],
   "note": "Assignments to the header are arbitrary functions subject to the stated conditions; growing the number of pages of a file is not covered (the page list is sized when the file is opened)."
  },
  {
   "property": "C81",
   "status": "proved",
   "theorems": [
    "c81_bytes",
    "c81_written",
    "c81_listing"
   ],
   "note": "The places and codes are literal tables of the specification (field_table, option_table)."
  },
  {
   "property": "C82",
   "status": "proved",
   "theorems": [
    "c82_read",
    "c82_same",
    "c82_write",
    "c82_database",
    "c82_programs",
    "c82_commands"
   ],
   "note": "equality of the results of the two builds, for all modelled functions in which an overflow can happen"
  },
  {
   "property": "C83",
   "status": "proved",
   "theorems": [
    "c83_track",
    "c83_node",
    "c83_document",
    "c83_order",
    "c83_extra",
    "c83_missing",
    "c83_separated"
   ],
   "note": "specification in XmlRead.v, with its own tables of attributes and its own meaning of numbers as text; c83_separated is a finding"
  },
  {
   "property": "C84",
   "status": "proved",
   "theorems": [
    "c84_row",
    "c84_string",
    "c84_longer_refuted"
   ],
   "note": "c84_row: one row changed in place, for any change that fits; c84_string: strings that take no more bytes fit; c84_longer_refuted: a longer string with kept offsets is overwritten by its neighbour, no error."
  },
  {
   "property": "C85",
   "status": "proved",
   "theorems": [
    "c85_written",
    "c85_begun",
    "c85_too_large",
    "c85_beginning",
    "c85_whole",
    "c85_replace",
    "c85_stale",
    "c85_read",
    "c85_lost_refuted",
    "c85_unreadable_refuted"
   ],
   "note": "c85_written: size of the file; c85_begun, c85_too_large, c85_beginning, c85_whole: what is read back for any total size; c85_replace: one section replaced; c85_stale: stale section headers; c85_read: files that were read meet the hypotheses; c85_lost_refuted, c85_unreadable_refuted: programs that change only a list."
  },
  {
   "property": "C86",
   "status": "proved",
   "theorems": [
    "c86_kept",
    "c86_inside",
    "c86_content",
    "c86_all",
    "c86_exact",
    "c86_fresh",
    "c86_again",
    "c86_retry",
    "c86_perform",
    "c86_names_refuted"
   ],
   "note": "File system as a map without links, permissions or case folding; create_dir_all and File::create after the standard library."
  },
  {
   "property": "C87",
   "status": "proved",
   "theorems": [
    "c87_files",
    "c87_reads",
    "c87_places",
    "c87_same",
    "c87_after",
    "c87_lines",
    "c87_settings",
    "c87_setting",
    "c87_analysis",
    "c87_xml",
    "c87_pdb",
    "c87_playlists",
    "c87_no_playlists",
    "c87_export"
   ],
   "note": "Capstone over C54, C55, C72-C74, C76, C77 and C86; argument parsing, the error stream and a closed standard output are not modelled."
  },
  {
   "property": "C88",
   "status": "proved",
   "theorems": [
    "c88_rows",
    "c88_entry",
    "c88_files"
   ],
   "note": "c88_rows: after any sessions the export is determined by the rows on the shelves (both directions); c88_entry: one added entry; c88_files: on the file system. Example c88_example meets the hypotheses with a database filled through the API; c88_exports shows the two exports."
  },
  {
   "property": "C89",
   "status": "proved",
   "theorems": [
    "c89_read",
    "c89_line",
    "c89_plays",
    "c89_line_feed_refuted",
    "c89_place_refuted"
   ],
   "note": "c89_read: exact condition for the lines; c89_line: the line in terms of the directory names, exact condition for its place; c89_plays: on the file system, from the rows to the opened files; c89_line_feed_refuted and c89_place_refuted: findings."
  },
  {
   "property": "C90",
   "status": "proved",
   "theorems": [
    "c90_tree",
    "c90_folder",
    "c90_playlists",
    "c90_export",
    "c90_files"
   ],
   "note": "c90_tree, c90_folder: one more row in the tree; c90_playlists: the playlists then; c90_export: from the inserted row to the planned export; c90_files: on the file system. c90_example meets the hypotheses with the database of C88; c90_exports shows the export."
  },
  {
   "property": "C91",
   "status": "proved",
   "theorems": [
    "c91_cache",
    "c91_looking",
    "c91_local"
   ],
   "note": "c91_cache: the refinement; c91_looking, c91_local: what follows from it. c91_example runs nine calls with a change, a failed read and two iterators; c91_size shows that the page size has to stay."
  },
  {
   "property": "C92",
   "status": "proved",
   "theorems": [
    "c92_exact",
    "c92_list",
    "c92_tables",
    "c92_run"
   ],
   "note": "The check was run on all database files in /repo/data (a test, see DESIGN.md); c92_check shows it on one real page inside Coq."
  },
  {
   "property": "C93",
   "status": "proved",
   "theorems": [
    "c93_string",
    "c93_lines",
    "c93_reads",
    "c93_track",
    "c93_tells",
    "c93_same",
    "c93_tree"
   ],
   "note": "The assumptions are needed: c93_forged_refuted (a line feed in a name forges lines), c93_dash_refuted (artists with a dash), c93_lossy_refuted (strings that are not UTF-16 look like others)."
  },
  {
   "property": "C94",
   "status": "proved",
   "theorems": [
    "c94_entry",
    "c94_node",
    "c94_track",
    "c94_artist",
    "c94_rows",
    "c94_checked"
   ],
   "note": "The row is placed on a loaded page with enough room, as in C75; new ids must be new, and a new node must not be the parent of existing ones. c94_checked derives the assumptions on the file from the check of C92."
  },
  {
   "property": "C95",
   "status": "proved",
   "theorems": [
    "c95_rows",
    "c95_name",
    "c95_entry",
    "c95_track",
    "c95_artist",
    "c95_exported",
    "c95_export_name",
    "c95_export_entry",
    "c95_export_track",
    "c95_export_same",
    "c95_checked",
    "c95_modest"
   ],
   "note": "Listing and export after one changed row; the number of the entry and the ids of tracks and artists are assumed to be unique. c95_rows and c95_exported state what the tables hold then, so that the theorems can be applied again. Changes that take more room are refuted in C78 and C84."
  },
  {
   "property": "C96",
   "status": "proved",
   "theorems": [
    "c96_listing",
    "c96_same",
    "c96_siblings",
    "c96_tree",
    "c96_export",
    "c96_disk",
    "c96_sort",
    "c96_sort_refuted"
   ],
   "note": "c96_sort_refuted is the finding: a sibling with a larger sort order is listed first. For rows with equal keys the last one counts (C76, C77), so their order matters; c96_same needs no distinctness."
  },
  {
   "property": "C97",
   "status": "proved",
   "theorems": [
    "c97_printed",
    "c97_lines",
    "c97_line_feed_refuted",
    "c97_early_refuted"
   ],
   "note": "c97_printed is about every run of the command with faults at any operation; c97_lines about reading the lines back. The standard output itself is assumed not to be closed."
  },
  {
   "property": "C98",
   "status": "proved",
   "theorems": [
    "c98_deleted",
    "c98_run",
    "c98_space",
    "c98_map_only_refuted",
    "c98_number_refuted",
    "c98_flags_refuted"
   ],
   "note": "Deleting is a further step of the programs of C78 (Delete.v, Revise.v), so c78_programs, c78_run, c79 and C83 cover it as well."
  },
  {
   "property": "C99",
   "status": "proved",
   "theorems": [
    "c99_rows",
    "c99_node",
    "c99_entry",
    "c99_track",
    "c99_artist",
    "c99_exported",
    "c99_export_node",
    "c99_export_entry",
    "c99_export_track",
    "c99_export_same",
    "c99_undone",
    "c99_checked"
   ],
   "note": "ComposeDelete.v, PropComposeDelete.v. The export is stated on the operations (C61) like c95_export_*, for exports that succeed before; uniqueness of ids and of entry numbers as hypotheses."
  },
  {
   "property": "C100",
   "status": "proved",
   "theorems": [
    "c100_bytes",
    "c100_default",
    "c100_refused"
   ],
   "note": "c100_bytes: the whole file; c100_default: no assignments; c100_refused: long texts."
  },
  {
   "property": "C101",
   "status": "proved",
   "theorems": [
    "c101_verdict",
    "c101_cut"
   ],
   "note": "c101_verdict: exactly which checks, in which order; c101_cut: files cut short."
  },
  {
   "property": "C102",
   "status": "proved",
   "theorems": [
    "c102_read",
    "c102_behind",
    "c102_cut",
    "c102_prefix",
    "c102_settings"
   ],
   "note": "Analysis files: any error kind (see DESIGN.md, enum reading). The settings part needs the input to be bytes; cuts of settings files are C101."
  },
  {
   "property": "C103",
   "status": "proved",
   "theorems": [
    "c103_open",
    "c103_rows",
    "c103_list",
    "c103_export",
    "c103_lengths_refuted"
   ],
   "note": "lengths_right: each page that is read is also read by the reader that rejects ISRC strings with a wrong length field. c103_lengths_refuted shows that the hypothesis is needed."
  },
  {
   "property": "C104",
   "status": "proved",
   "theorems": [
    "c104_unasked",
    "c104_looked",
    "c104_header",
    "c104_length"
   ],
   "note": "c104_unasked, c104_looked: bytes of pages that were not asked for / not changed; c104_header; c104_length."
  },
  {
   "property": "C105",
   "status": "proved",
   "theorems": [
    "c105_bytes",
    "c105_rows"
   ],
   "note": "Remains.v, PropRemains.v; programs as in C80; deletion is the editing of the public fields of a page that C98 describes. For pages in which rows may be inserted (GGrow)."
  },
  {
   "property": "C106",
   "status": "proved",
   "theorems": [
    "c106_page",
    "c106_file",
    "c106_once",
    "c106_delete_refuted",
    "c106_reserve_refuted"
   ],
   "note": "Same bytes of a page, same file, and the program that saves once; deletions and reservations are shown not to have the property."
  },
  {
   "property": "C107",
   "status": "proved",
   "theorems": [
    "c107_bytes",
    "c107_rows",
    "c107_one"
   ],
   "note": "Spare.v, PropSpare.v; programs as in C80 with the assignments of C78. Rows are followed by their values: a row that has just the values of an assigned row counts as assigned to. For pages in which rows may be inserted (GGrow)."
  },
  {
   "property": "C108",
   "status": "proved",
   "theorems": [
    "c108_interrupted",
    "c108_between",
    "c108_two_saves",
    "c108_one_save_refuted"
   ],
   "note": "c108_interrupted: stop within page j; c108_between: stop between pages; c108_two_saves: extending a table with two saves, also within the header page; c108_one_save_refuted: one save is not enough."
  },
  {
   "property": "C109",
   "status": "proved",
   "theorems": [
    "c109_append",
    "c109_run",
    "c109_jobs",
    "c109_header_refuted"
   ],
   "note": "c109_append, c109_run: the pages are there, the tables and other bytes are as before; c109_jobs: with programs of C80 afterwards; c109_header_refuted: raising next_unused_page alone does not make a page."
  },
  {
   "property": "C110",
   "status": "proved",
   "theorems": [
    "c110_history",
    "c110_run",
    "c110_spared",
    "c110_header"
   ],
   "note": "Events are programs of C80 with their endings and C109's appended pages. An interrupted append and a header page that is neither the old nor the new header are not events."
  },
  {
   "property": "C111",
   "status": "proved",
   "theorems": [
    "c111_cue",
    "c111_extended_codes",
    "c111_extended",
    "c111_cue_list",
    "c111_beat_grid",
    "c111_song"
   ],
   "note": "Equivalences for cues, cue lists, beat grids, song data and extended cues without comment; for extended cues with a comment only the direction that accepted entries have known codes. The equivalence with comments is in C113."
  },
  {
   "property": "C112",
   "status": "proved",
   "theorems": [
    "c112_vbr",
    "c112_unknown",
    "c112_wave",
    "c112_path",
    "c112_song",
    "c112_refused"
   ],
   "note": "Together with C111 and C113 exact for every kind of section. A panic counts as not accepted."
  },
  {
   "property": "C113",
   "status": "proved",
   "theorems": [
    "c113_entry",
    "c113_list",
    "c113_comment",
    "c113_end"
   ],
   "note": "Completes C111 and C112: acceptance is exact for every kind of section. A panic counts as not accepted."
  },
  {
   "property": "C114",
   "status": "proved",
   "theorems": [
    "c114_section",
    "c114_file",
    "c114_unique",
    "c114_refused"
   ],
   "note": "Puts C111 to C113 together and adds the end of each section. The contents that are returned are described by C69."
  },
  {
   "property": "C115",
   "status": "proved",
   "theorems": [
    "c115_string",
    "c115_row",
    "c115_refused",
    "c115_unique",
    "c115_builds"
   ],
   "note": "c115_string: a string is read if and only if it is stored in one of four forms; c115_row: the same for rows of each type; c115_refused: anything else is refused; c115_unique: what is stored is determined; c115_builds: where the builds differ."
  },
  {
   "property": "C116",
   "status": "proved",
   "theorems": [
    "c116_page",
    "c116_refused",
    "c116_one_row",
    "c116_count"
   ],
   "note": "c116_page: a page is read if and only if it is stored as an index page or a data page; c116_refused: anything else is refused; c116_one_row: one bad row is enough; c116_count: a wrong number of valid rows is enough."
  },
  {
   "property": "C117",
   "status": "proved",
   "theorems": [
    "c117_open",
    "c117_page",
    "c117_table",
    "c117_rows",
    "c117_readable",
    "c117_unique",
    "c117_refused"
   ],
   "note": "End-to-end: composes C115 (strings, rows) and C116 (pages) with the header, the page cache and the iterators. Page sizes below 40 are excluded (the heap size underflows there, C17)."
  },
  {
   "property": "C118",
   "status": "proved",
   "theorems": [
    "c118_listing",
    "c118_listed",
    "c118_export"
   ],
   "note": "End-to-end composition of C117 with C76 and C77; the specification mentions only positions in the file and the order of fields in rows."
  },
  {
   "property": "C119",
   "status": "proved",
   "theorems": [
    "c119_says",
    "c119_rows",
    "c119_listing",
    "c119_export",
    "c119_text_refuted"
   ],
   "note": "The page-local reading of texts is refuted for UCS-2 text beginning with the byte 3 (c119_text_refuted); the theorems exclude such texts explicitly."
  },
  {
   "property": "C120",
   "status": "proved",
   "theorems": [
    "c120_together",
    "c120_order",
    "c120_serial",
    "c120_page",
    "c120_shared_refuted"
   ],
   "note": "c120_together: each program as if alone, bytes of the file; c120_order and c120_serial: the interleaving does not show; c120_page: when a page can be loaded independently of the others; c120_shared_refuted: without disjoint pages a program that only reads undoes changes."
  },
  {
   "property": "C121",
   "status": "proved",
   "theorems": [
    "c121_last",
    "c121_stays"
   ],
   "note": "c121_last: the header of the last save and, for every page, the last program that saved it; c121_stays: the same for one save and what follows."
  },
  {
   "property": "C122",
   "status": "proved",
   "theorems": [
    "c122_page",
    "c122_rows",
    "c122_commands"
   ],
   "note": "c122_page, c122_rows: exactly which pages and tables can be read; c122_commands: listing and export. Debug builds panic at the data pages (c74_small)."
  },
  {
   "property": "C123",
   "status": "proved",
   "theorems": [
    "c123_dump",
    "c123_unique"
   ],
   "note": "c123_dump is the equivalence, c123_unique its uniqueness. Rows of pages of unknown type are shown without content (RUnknown)."
  },
  {
   "property": "C124",
   "status": "proved",
   "theorems": [
    "c124_made",
    "c124_makes",
    "c124_every",
    "c124_same"
   ],
   "note": "c124_made: a finished run gives a file that opens and shows the planned rows; c124_makes: there is always a finished run; c124_every: every list of rows that fits is shown by some file. c124_same: the file is determined, and the same in both builds."
  },
  {
   "property": "C125",
   "status": "proved",
   "theorems": [
    "c125_listing",
    "c125_export"
   ],
   "note": "c125_listing and c125_export; that such programs always succeed is c124_makes."
  },
  {
   "property": "C126",
   "status": "proved",
   "theorems": [
    "c126_dump",
    "c126_jobs",
    "c126_made"
   ],
   "note": "c126_dump for any database that stores known rows, c126_jobs after programs as in C80, c126_made for databases made from scratch"
  },
  {
   "property": "C127",
   "status": "proved",
   "theorems": [
    "c127_content",
    "c127_listing",
    "c127_export",
    "c127_distinct"
   ],
   "note": "by construction: one page per row, tables laid out one after the other; C124 and C126 for what the file shows"
  }
 ]
}