{"id": "C01", "title": "Database string construction loses nothing", "statement": "If DeviceSQLString::new(s) succeeds, into_string() of the result returns exactly s.", "quantifier": "every Unicode string s", "why_tests_cant": "There are infinitely many strings and three internal encodings chosen by length and content; tests sample a handful.", "anchors": ["src/pdb/string.rs: DeviceSQLString::new, into_string"]}
{"id": "C02", "title": "Database string length limit is exact", "statement": "DeviceSQLString::new(s) fails iff the UTF-8 length of s exceeds 32767 bytes, and then with TooLong; it never panics.", "quantifier": "every Unicode string s", "why_tests_cant": "The boundary interacts with three encodings and multi-byte characters; tests check one point.", "anchors": ["src/pdb/string.rs: DeviceSQLString::new"]}
{"id": "C03", "title": "Database string survives a write and a read", "statement": "Writing DeviceSQLString::new(s) anywhere in a file and reading at that place returns the same string and leaves the reader right behind it. This holds for every s that fits except where the on-disk form is ambiguous: a UTF-16 string whose first code unit has low byte 0x03 is read back as an ISRC string whenever a zero byte follows. The exception is exact.", "quantifier": "every string, every surrounding file content, every position", "why_tests_cant": "The ambiguity needs a specific first code unit and depends on bytes that follow; sampled strings miss it.", "anchors": ["src/pdb/string.rs: DeviceSQLString, DeviceSQLStringImpl, LongBody"]}
{"id": "C04", "title": "Reading a database string and writing it back changes no byte", "statement": "If a string is read from a file, writing the value back at the same place leaves the file as it was, except for ISRC strings whose stored length field disagrees with the content (their length field is rewritten).", "quantifier": "every file content and position at which reading succeeds", "why_tests_cant": "Quantifies over all byte sequences, including malformed ones.", "anchors": ["src/pdb/string.rs: DeviceSQLStringImpl, LongBody"]}
{"id": "C05", "title": "Database string size prediction is exact", "statement": "The number of bytes a string occupies when written equals its predicted heap size, whenever writing succeeds.", "quantifier": "every string value", "why_tests_cant": "All lengths and encodings.", "anchors": ["src/pdb/string.rs: PageHeapObject for DeviceSQLString::heap_bytes_required"]}
{"id": "C06", "title": "Which byte sequences make the string reader panic", "statement": "Reading a database string from arbitrary bytes panics (with overflow checks on) exactly when the header byte is 0x01 or it is a long string whose length field is below 4; with overflow checks off it never panics.", "quantifier": "every file content, position, and build mode", "why_tests_cant": "Robustness over all malformed inputs.", "anchors": ["src/pdb/string.rs: DeviceSQLStringImpl"]}
{"id": "C07", "title": "ISRC strings", "statement": "new_isrc(s) succeeds iff s is empty or 12 ASCII characters; into_string() gives s back; the written form reads back as the same value if s has no NUL character, and a NUL inside s truncates the value that is read back.", "quantifier": "every Unicode string s, every surrounding file content", "why_tests_cant": "Tests use one literal ISRC.", "anchors": ["src/pdb/string.rs: DeviceSQLString::new_isrc"]}
{"id": "C08", "title": "Rows with computed string offsets read back", "statement": "A group of strings written with computed offsets is read back as the same strings with the offsets made explicit, and every UTF-16 string starts at a multiple of 4 from the row start.", "quantifier": "every list of strings, offset width, base offset and surrounding content", "why_tests_cant": "All combinations of lengths and encodings determine offsets and padding.", "anchors": ["src/pdb/offset_array.rs: OffsetArrayContainer::read_options, write_options"]}
{"id": "C09", "title": "Predicted heap size of an offset group", "statement": "For computed offsets with a base offset that is a multiple of 4 (as in all row types), the predicted size equals the extent written. For explicitly provided offsets the prediction ignores gaps, so it can be smaller than the extent written.", "quantifier": "every list of strings, offset width, base offset", "why_tests_cant": "The allocator relies on the prediction for every row; a single under-estimate overlaps rows.", "anchors": ["src/pdb/offset_array.rs: OffsetArrayContainer::heap_bytes_required, write_options"]}
{"id": "C10", "title": "Offsets that do not fit are an error", "statement": "When a computed offset does not fit the offset width, writing fails; when writing succeeds each stored offset is the true distance of its string from the row start.", "quantifier": "every list of strings, offset width", "why_tests_cant": "Silent truncation appears only beyond 255 or 65535 bytes.", "anchors": ["src/pdb/offset_array.rs: OffsetArray::new, OffsetArrayContainer::write_options"]}
{"id": "C11", "title": "Every row type reads back as written", "statement": "For each row type of both databases, writing a row and reading it with the same page type yields the same row (with computed offsets made explicit).", "quantifier": "every row value of every row type with well-formed strings", "why_tests_cant": "Cross product of 17 row types and unbounded contents.", "anchors": ["src/pdb/mod.rs: Row, PlainRow, Album, Artist, Track", "src/pdb/ext.rs: ExtRow, TagOrCategory, TrackTag"]}
{"id": "C12", "title": "Reading a row and writing it back changes no byte", "statement": "For each row type, a row read from a file and written back at the same place leaves the file as it was (except ISRC length fields that disagree with the content).", "quantifier": "every file content and position at which reading succeeds", "why_tests_cant": "All on-disk rows, including ones rekordbox never wrote.", "anchors": ["src/pdb/mod.rs: Row, PlainRow", "src/pdb/ext.rs: ExtRow"]}
{"id": "C13", "title": "Row size prediction is exact", "statement": "For each row type the predicted heap size equals the extent of the written row when offsets are computed.", "quantifier": "every row value", "why_tests_cant": "Needed for allocation of any row.", "anchors": ["src/pdb/mod.rs: PageHeapObject impls"]}
{"id": "C14", "title": "Row counters in the page header", "statement": "The 3-byte row counter packs a 13-bit row count and an 11-bit valid-row count without interference; incrementing past the maximum panics instead of wrapping.", "quantifier": "every pair of counts, every 24-bit pattern", "why_tests_cant": "Exhaustive over 2^24 values.", "anchors": ["src/pdb/bitfields.rs: PackedRowCounts"]}
{"id": "C15", "title": "Row position arithmetic", "statement": "The last row of a page with n rows is in group (n-1)/16 at slot (n-1)%16, the number of groups is the least g with 16 g >= n, and there is no last row for n = 0.", "quantifier": "every row count", "why_tests_cant": "Boundary behaviour at multiples of 16 for all counts.", "anchors": ["src/pdb/bitfields.rs: PackedRowCounts::num_row_groups, last_row_index"]}
{"id": "C16", "title": "Index entries", "statement": "Packing a valid page index and 3-bit flags succeeds iff flags < 8, unpacks to the same values, and never equals the empty marker; the empty marker is never decoded as a page.", "quantifier": "every page index and flag byte", "why_tests_cant": "All 2^29 packed values.", "anchors": ["src/pdb/mod.rs: IndexEntry, PageIndex"]}
{"id": "C17", "title": "Index pages fill exactly one page", "statement": "Writing an index page whose entry count field matches its entries writes exactly one page and reads back equal; otherwise the page is too short, too long or panics, exactly characterised.", "quantifier": "every index page and page size", "why_tests_cant": "Depends on page size modulo 4 and on count mismatch.", "anchors": ["src/pdb/mod.rs: IndexPageContent, IndexPageHeader"]}
{"id": "C18", "title": "Row allocation accounting", "statement": "Each successful row allocation reserves the requested size rounded up to 4, sets the offset to the previous end of used space, and keeps used + free + footer space constant; free space never goes negative.", "quantifier": "every page with the right number of row groups and every requested size (release builds: up to 65528)", "why_tests_cant": "All page states and sizes.", "anchors": ["src/pdb/mod.rs: Page::allocate_row"]}
{"id": "C19", "title": "Allocated rows never overlap", "statement": "After any sequence of row allocations, insertions and abandoned allocations on a consistent page, all rows lie inside the heap, are disjoint from each other and from the row-group footer, and previously present rows are unchanged.", "quantifier": "every finite sequence of operations from every consistent page", "why_tests_cant": "Unbounded operation sequences.", "anchors": ["src/pdb/mod.rs: Page::allocate_row, RowGroup"]}
{"id": "C20", "title": "Refused allocations change nothing", "statement": "Allocation on an index page, or with too little free space, returns None and leaves the page unchanged.", "quantifier": "every page and size", "why_tests_cant": "All page states.", "anchors": ["src/pdb/mod.rs: Page::allocate_row"]}
{"id": "C21", "title": "Limits of row allocation", "statement": "On a consistent data page whose heap is smaller than 64 KiB, allocation panics or misbehaves only in these cases: requested size above 65528 (arithmetic overflow: panic in debug builds, bogus success in release builds), 8191 rows already (13-bit counter), 2047 valid rows already (11-bit counter); with pages of at most 4096 bytes the counters never overflow. A row inserted into a zero-size allocation makes the following insertion collide and panic.", "quantifier": "every consistent page, size and build mode", "why_tests_cant": "Limits are far outside of sample data.", "anchors": ["src/pdb/mod.rs: Page::allocate_row", "src/pdb/bitfields.rs: PackedRowCounts"]}
{"id": "C22", "title": "Data pages survive a write and a read", "statement": "A consistent data page written into any file and read back equals the page that was written.", "quantifier": "every consistent data page, every surrounding file content", "why_tests_cant": "Rows, offsets and footers interleave in one buffer; overlaps must be excluded for all pages.", "anchors": ["src/pdb/mod.rs: Page, DataPageContent, RowGroup"]}
{"id": "C23", "title": "Reading a page and writing it back changes no byte", "statement": "A data page read from a file and written back leaves the file unchanged (up to ISRC length fields); an index page likewise if its unused tail is in canonical form.", "quantifier": "every file content at which reading succeeds", "why_tests_cant": "All on-disk pages.", "anchors": ["src/pdb/mod.rs: Page, DataPageContent, IndexPageContent"]}
{"id": "C24", "title": "Writing a page touches only that page", "statement": "Writing a consistent page at its position changes no byte outside of its page_size range, and inside the heap no byte outside of present rows.", "quantifier": "every consistent page, every file", "why_tests_cant": "Frame property for all files.", "anchors": ["src/pdb/mod.rs: Page", "src/pdb/io.rs: LazyPage"]}
{"id": "C25", "title": "Table iteration always ends", "statement": "Iterating the pages of a table visits strictly increasing page indices, each at most once, and ends after at most as many pages as the file has, even if next-page links form a cycle.", "quantifier": "every file content, every table", "why_tests_cant": "Cyclic or hostile links.", "anchors": ["src/pdb/io.rs: PageIterator"]}
{"id": "C26", "title": "Table iteration visits exactly the linked pages", "statement": "If the links lead from the first to the last page in increasing order and every page is readable, iteration yields exactly those pages in order.", "quantifier": "every database and chain length", "why_tests_cant": "Unbounded chain lengths.", "anchors": ["src/pdb/io.rs: PageIterator"]}
{"id": "C27", "title": "Iteration errors are sticky", "statement": "After iteration returned an error, calling it again returns an error again and never yields a page.", "quantifier": "every database state", "why_tests_cant": "Sequences of calls after failures.", "anchors": ["src/pdb/io.rs: PageIterator"]}
{"id": "C28", "title": "Page lookup", "statement": "load_page(i) with 1 <= i < next_unused_page returns the cached page if it is loaded, otherwise the page parsed at offset i*page_size; larger i gives PageNotPresent; i = 0 panics with overflow checks on and gives PageNotPresent with them off.", "quantifier": "every database state and index", "why_tests_cant": "All indices and cache states.", "anchors": ["src/pdb/io.rs: Database::load_page"]}
{"id": "C29", "title": "Flush leaves unloaded pages alone", "statement": "Flushing a database changes only the header page and the loaded pages; every byte of every page that was never loaded is unchanged.", "quantifier": "every database state, every file", "why_tests_cant": "All subsets of loaded pages.", "anchors": ["src/pdb/io.rs: LazyPage, LazyDatabase, Database::flush"]}
{"id": "C30", "title": "Changes are persistent", "statement": "After changing pages, flushing and reopening, each loaded consistent page is read back as it was in memory.", "quantifier": "every database state with consistent loaded pages", "why_tests_cant": "All modification sets.", "anchors": ["src/pdb/io.rs: Database::flush, Database::open, load_page"]}
{"id": "C31", "title": "Opening and closing without changes", "statement": "Flushing after opening and loading any set of pages without modification leaves the file identical iff the rest of the header page is zero (for readable canonical pages).", "quantifier": "every file, every set of loaded pages", "why_tests_cant": "All files.", "anchors": ["src/pdb/io.rs: Database::open, flush"]}
{"id": "C32", "title": "Row iteration versus corrupt page types", "statement": "Iterating rows of a table panics when a page in the chain carries a different page type with rows; it does not if all data pages in the chain have the table's type.", "quantifier": "every database", "why_tests_cant": "Needs corrupt input.", "anchors": ["src/pdb/io.rs: Database::iter_rows"]}
{"id": "C33", "title": "Table lookup", "statement": "Table lookup returns the first table with the requested page type, and fails iff there is none.", "quantifier": "every header", "why_tests_cant": "All table lists.", "anchors": ["src/pdb/mod.rs: Header::find_table"]}
{"id": "C34", "title": "Page offsets never overflow", "statement": "The byte offset of a page, index * page_size, is computed without overflow for all 32-bit values.", "quantifier": "every 32-bit page index and page size", "why_tests_cant": "2^64 pairs.", "anchors": ["src/pdb/mod.rs: PageIndex::offset"]}
{"id": "C35", "title": "Analysis files are parsed in bounded time", "statement": "Parsing the sections of an analysis file ends for every input: each section consumes at least its 12-byte header and stays inside the file, so there are at most as many rounds as bytes. The result is the sequence of adjacent sections up to the first end at or behind the announced size.", "quantifier": "every file content", "why_tests_cant": "All inputs, including hostile sizes.", "anchors": ["src/anlz.rs: ANLZ::parse_sections, Section"]}
{"id": "C36", "title": "Section size fields", "statement": "A section is accepted only if the counts in its content agree with total_size - size (exactly with overflow checks, modulo 2^32 without). With overflow checks, reading a section panics exactly if the header and the fields in front of the check can be read and: size < 12 (unknown sections), or total_size < size (paths, VBR, waveforms, song structures, unknown sections), or entry size times count is 2^32 or more (waveforms), or the key of a song structure cannot be computed. Without overflow checks it never panics.", "quantifier": "every header", "why_tests_cant": "All size fields.", "anchors": ["src/anlz.rs: Header::remaining_size, content_size"]}
{"id": "C37", "title": "Comment strings in extended cues", "statement": "A comment written and read back is the same iff it does not end with a NUL character.", "quantifier": "every Unicode string without excessive length", "why_tests_cant": "All strings.", "anchors": ["src/anlz.rs: LenPrefixedWideString"]}
{"id": "C38", "title": "Extended cues consume their declared size", "statement": "An extended cue entry with total_size at least 68 plus the canonical comment size consumes exactly total_size bytes iff its stored comment length is canonical, otherwise it ends off by the difference and following entries are misaligned. Entries with the canonical length are written back byte for byte.", "quantifier": "every file content", "why_tests_cant": "Malformed or unusual comment lengths.", "anchors": ["src/anlz.rs: ExtendedCue"]}
{"id": "C39", "title": "Analysis sections survive a write and a read", "statement": "Every section value with consistent header fields can be written and reads back as written, and so does a whole file; sections that were read are written back byte for byte (extended cue lists: see C38).", "quantifier": "every section of every type", "why_tests_cant": "All section types and lengths.", "anchors": ["src/anlz.rs: Section, Content"]}
{"id": "C40", "title": "Element counts in analysis files", "statement": "Cue lists and phrases with more than 65535 entries are written with a truncated count and do not read back; up to that limit they do.", "quantifier": "every list length", "why_tests_cant": "Needs >65535 entries.", "anchors": ["src/anlz.rs: CueList, ExtendedCueList, SongStructure"]}
{"id": "C41", "title": "Detection of encrypted song structures is exact", "statement": "A plain song structure with a valid mood is never taken for encrypted, and an encrypted one with a valid mood is always detected, for every phrase count for which the key can be computed (with overflow checks: up to 65310; above, detection panics).", "quantifier": "every phrase count and mood", "why_tests_cant": "65536 key variants.", "anchors": ["src/anlz.rs: SongStructureData::check_if_encrypted"]}
{"id": "C42", "title": "Song structure encryption is undone by decryption", "statement": "Writing song structure data encrypted and reading it back gives the same data, for every phrase count up to 65535 (with overflow checks: 65285; above, encryption panics).", "quantifier": "every song structure", "why_tests_cant": "Key depends on count.", "anchors": ["src/anlz.rs: SongStructureData, write_encrypted, read_encrypted", "src/xor.rs: XorStream"]}
{"id": "C43", "title": "The XOR stream keeps its key aligned", "statement": "After any sequence of full reads, writes and seeks the key position equals the stream position minus the start position modulo the key length. A program over the stream behaves as on the decoded contents.", "quantifier": "every key, every finite sequence of operations", "why_tests_cant": "Unbounded operation sequences.", "anchors": ["src/xor.rs: XorStream"]}
{"id": "C44", "title": "The XOR stream and short reads", "statement": "With an inner reader that may return fewer bytes than asked, read_exact decodes correctly iff the key happens to repeat with the shift that each short read causes; the key is in step afterwards iff the total of the missing bytes is a multiple of the key length. With song structure keys a wrong shift changes something in any 19 bytes.", "quantifier": "every split of a read into chunks", "why_tests_cant": "Schedules of short reads.", "anchors": ["src/xor.rs: XorStream::read, write"]}
{"id": "C45", "title": "Settings files survive a write and a read", "statement": "Each settings value of the four kinds whose strings have at most 31 bytes is written, and reads back as written exactly if its strings contain no zero byte; longer strings are an error. A file that is accepted is written again with the same bytes, apart from the padding behind the strings and the checksum.", "quantifier": "every settings value of all four kinds", "why_tests_cant": "Product of all option values.", "anchors": ["src/setting.rs: Setting, SettingData"]}
{"id": "C46", "title": "Settings checksum is right", "statement": "The checksum in a written settings file is the CRC-16/XMODEM of the covered range (everything before it for DJM settings, the data section otherwise).", "quantifier": "every settings value", "why_tests_cant": "All contents.", "anchors": ["src/setting.rs: Setting::calculate_checksum"]}
{"id": "C47", "title": "Settings checksum is not verified", "statement": "Whether a settings file is accepted, and what is read, does not depend on the checksum bytes.", "quantifier": "every file content and checksum", "why_tests_cant": "All pairs of files.", "anchors": ["src/setting.rs: Setting"]}
{"id": "C48", "title": "The settings checksum detects errors", "statement": "Two data blocks of equal length that differ within one window of 16 bits have different checksums. In particular settings that differ in one option have different checksums.", "quantifier": "every pair of blocks", "why_tests_cant": "Quantifies over pairs of byte strings.", "anchors": ["src/setting.rs: Setting::calculate_checksum"]}
{"id": "C49", "title": "Settings file length", "statement": "A written settings file has 108 bytes plus the fixed data size of its kind.", "quantifier": "every settings value", "why_tests_cant": "All contents.", "anchors": ["src/setting.rs: Setting, SettingType::expected_data_size"]}
{"id": "C50", "title": "Option codes are unambiguous", "statement": "For each settings option, distinct choices have distinct codes, each code decodes to its choice, and a file with any other byte in its place is rejected.", "quantifier": "every option type, every byte", "why_tests_cant": "All 256 bytes times all option types.", "anchors": ["src/setting.rs: enums"]}
{"id": "C51", "title": "Loading settings is fault-isolated", "statement": "Loading settings succeeds whatever the four files are; each option has the value of its own file, or no value if that file is missing, unreadable or does not parse; other files do not affect it.", "quantifier": "every combination of four file states", "why_tests_cant": "All contents.", "anchors": ["src/device.rs: DeviceExportLoader::load_settings, Settings"]}
{"id": "C52", "title": "Playlist tree is complete", "statement": "If playlist ids are distinct and non-zero and the names decode, the playlist tree terminates and contains every row that is connected to the root by folders exactly once, in row order under its parent; without cycles it terminates in any case, with an error exactly if some connected name does not decode.", "quantifier": "every list of playlist rows", "why_tests_cant": "All forests.", "anchors": ["src/device.rs: get_playlists"]}
{"id": "C53", "title": "Playlist tree with cyclic rows", "statement": "Building the playlist tree recurses forever exactly if a folder is reachable from the root and is its own ancestor (names decoding); listing playlists exactly if such a row exists, folder or not (names displayable).", "quantifier": "every recursion depth", "why_tests_cant": "Non-termination is not testable.", "anchors": ["src/device.rs: get_playlists", "src/main.rs: list_playlists"]}
{"id": "C54", "title": "Playlist export stays in its directory", "statement": "If no name contains a slash and no folder is called \"..\", one file is written per playlist, below the output directory in the directories of its folders; a name with a leading slash, a folder \"..\" or a leading \"../\" leads outside.", "quantifier": "every playlist tree and output directory", "why_tests_cant": "All names.", "anchors": ["src/main.rs: export_playlists"]}
{"id": "C55", "title": "Playlist export order", "statement": "An exported playlist lists the tracks of its entries that exist, in strictly increasing entry index; of rows with the same index or the same track id the last one counts.", "quantifier": "every set of rows", "why_tests_cant": "All permutations.", "anchors": ["src/main.rs: export_playlists"]}
{"id": "C56", "title": "File type guessing", "statement": "An explicit type option wins if the path has a file name, otherwise no type results; without option the type depends only on the file name; unknown names give no type.", "quantifier": "every option and name", "why_tests_cant": "All names.", "anchors": ["src/main.rs: guess_db_type, guess_setting_type"]}
{"id": "C57", "title": "XML playlist trees survive serialisation", "statement": "A playlist node (folder or playlist, with everything below) reads back equal from its XML element iff no folder and no playlist in it is empty; otherwise reading is an error. A root reads back iff it has a child and no folder or playlist below is empty.", "quantifier": "every playlist tree whose track keys and child counts fit their types", "why_tests_cant": "All trees.", "anchors": ["src/xml.rs: PlaylistGenericNode, PlaylistFolderNode, PlaylistPlaylistNode"]}
{"id": "C58", "title": "XML attribute order does not matter", "statement": "If all attributes of a playlist node are known to the reader and their numbers are readable, the node is read with the same result, value or error, for each order of the attributes. An unknown attribute, or an unneeded one with an unreadable number, is an error before the needed ones and ignored behind them.", "quantifier": "every node, attribute list without duplicates, and permutation", "why_tests_cant": "All permutations.", "anchors": ["src/xml.rs: PlaylistGenericNode Deserialize"]}
{"id": "C59", "title": "XML counters are right", "statement": "The Count attribute written for a folder and the root, and the Entries attribute written for a playlist, equal the number of NODE or TRACK children written. On reading the count is not compared with the children.", "quantifier": "every tree", "why_tests_cant": "All trees.", "anchors": ["src/xml.rs: Serialize impls"]}
{"id": "C60", "title": "Alignment, positioned access and array helpers", "statement": "align_by returns the least multiple of the alignment not below the offset; if that is 2^64 it panics in debug builds and wraps in release builds, and alignment 0 panics unless the offset is 0. parse_at_offsets succeeds iff there is a value at each offset, returns exactly these values in order and leaves the reader where it was, and otherwise gives the first failure. write_at_offsets stores each value at its offset, leaves the writer where it was and other bytes unchanged, and parse_at_offsets reads disjoint values back. try_map_polyfill and zip_polyfill never panic and give all values in order or the first error.", "quantifier": "every offset and alignment, value reader and writer, list of offsets, stream", "why_tests_cant": "All values.", "anchors": ["src/util.rs: align_by, parse_at_offsets, write_at_offsets, ArrayPolyfills"]}
{"id": "C61", "title": "Fallback enum values", "statement": "Values of enums with a catch-all variant read back as written iff the catch-all does not hold the code of a named variant; colour indices above 8 are rejected.", "quantifier": "every code", "why_tests_cant": "All codes.", "anchors": ["src/util.rs: FileType, ColorIndex", "src/pdb/mod.rs: MenuVisibility, PageType", "src/anlz.rs: ContentKind"]}
{"id": "C62", "title": "Playlist listing is complete", "statement": "If playlist ids are distinct and non-zero, the listing prints every row connected to the root exactly once, indented by its depth, below its parent and in row order, followed by its tracks; it ends only before the first string that cannot be displayed, with a panic.", "quantifier": "every list of rows", "why_tests_cant": "All forests and strings.", "anchors": ["src/main.rs: list_playlists"]}
{"id": "C63", "title": "XML documents survive serialisation", "statement": "A document reads back equal from its XML elements iff the collection has a track, every track has all optional attributes that the serialiser does not skip when absent, the playlist root has a child, and no folder or playlist is empty.", "quantifier": "every document whose values fit their types, every faithful way to show and read floating point numbers", "why_tests_cant": "All documents and every combination of present and absent values; the test file has only some.", "anchors": ["src/xml.rs: Document, Product, Collection, Track, Tempo, PositionMark, Playlists"]}
{"id": "C64", "title": "What can be written", "statement": "Writing a string succeeds iff it is short or its content plus 4 bytes fits 16 bits (in builds without overflow checks: its content fits), and panics otherwise. Writing a row succeeds iff its strings can be written and computed offsets fit their size; too large offsets give an assertion error, nothing else fails. A data page can be written iff its rows can, an index page iff it has room for its entries, and flush succeeds iff every loaded page can be written.", "quantifier": "every string, row, page and database whose values exist in memory and whose pages have room for header, rows and row groups", "why_tests_cant": "All values; success and each kind of failure are characterised, not sampled.", "anchors": ["src/pdb/string.rs: DeviceSQLString (write)", "src/pdb/offset_array.rs: OffsetArrayImpl (write)", "src/pdb/mod.rs: Page (write)", "src/pdb/io.rs: Database::flush"]}
{"id": "C65", "title": "Bytes of stored strings", "statement": "The bytes of a written string are the documented ones: for ASCII text shorter than 127 bytes the byte 2*(length+1)+1 and the text; otherwise the flag byte (0x40 ASCII, 0x90 UTF-16), total length as 16 bits little endian, a zero byte and the content in ASCII or UTF-16LE; an ISRC as flag 0x90, length, zero, 3, text, zero. Conversely these bytes, whoever stored them, are read as that text.", "quantifier": "every string, every position and file contents", "why_tests_cant": "Round trips do not notice a reader and writer that agree on a wrong format, and literals cover few strings.", "anchors": ["src/pdb/string.rs: DeviceSQLString::new", "src/pdb/string.rs: DeviceSQLString::new_isrc", "src/pdb/string.rs: DeviceSQLString (read and write)"]}
{"id": "C66", "title": "Where rows store their fields", "statement": "In every row that can be read, each number is the little endian number at its documented offset and width, constant fields have their documented value, an inline string is the string at its documented offset, and the strings of an offset array start where the 8 or 16 bit pointers at the documented place say (8 or 16 bits as the row's subtype bit says). Rows that are written are stored in these places.", "quantifier": "every row type, every buffer, position and row", "why_tests_cant": "Round trips do not notice swapped fields or consistently wrong offsets; literals cover few values.", "anchors": ["src/pdb/mod.rs: Row and all row structs", "src/pdb/ext.rs: Tag, TrackTag", "src/pdb/offset_array.rs: OffsetArrayContainer"]}
{"id": "C67", "title": "Where pages store header, entries and rows", "statement": "A page that is read has its header fields at the documented offsets, with the two packed row counts, and its type from bit 6 of the flags; an index page has its entries of 4 bytes from offset 60; a data page has exactly the rows whose presence bit is set, each at the 16 bit offset (from byte 40) that its slot, counted backwards from the end of the page in groups of 16, contains. Written pages are stored that way.", "quantifier": "every page size, buffer, position and page", "why_tests_cant": "All layouts of slots and presence bits; a consistent mistake in reader and writer passes round trips.", "anchors": ["src/pdb/mod.rs: Page", "src/pdb/mod.rs: PageHeader", "src/pdb/mod.rs: DataPageContent", "src/pdb/mod.rs: RowGroup", "src/pdb/mod.rs: IndexPageContent"]}
{"id": "C68", "title": "Where databases store tables and pages", "statement": "An opened database has the header whose numbers are at the documented offsets, with its tables as entries of 16 bytes from offset 28; page i is loaded from byte i times the page size, with the layout of C67; after flush the header is stored in these places.", "quantifier": "every file contents, page index and database", "why_tests_cant": "All page sizes, indices and table lists; a consistent mistake in reader and writer passes round trips.", "anchors": ["src/pdb/mod.rs: Header", "src/pdb/mod.rs: Table", "src/pdb/io.rs: Database::open", "src/pdb/io.rs: Database::load_page", "src/pdb/io.rs: Database::flush"]}
{"id": "C69", "title": "Where analysis files store sections and their fields", "statement": "A section that is read has its kind as four letters, its two sizes and every field of its content at the documented offsets, big endian: beats of 8 bytes, cues, extended cues with comment and rest, columns of waveforms of the width of their kind, song structures with phrases of 24 bytes, encrypted ones under the documented 19 byte mask. A file is a header and a chain of sections. Sections and files that are written are stored in these places.", "quantifier": "every buffer shorter than 4 GiB, position, section and file", "why_tests_cant": "Round trips do not notice swapped fields or consistently wrong offsets or masks; literals cover few values.", "anchors": ["src/anlz.rs: Section", "src/anlz.rs: Header", "src/anlz.rs: Content", "src/anlz.rs: Cue", "src/anlz.rs: ExtendedCue", "src/anlz.rs: SongStructure", "src/anlz.rs: ANLZ"]}
{"id": "C70", "title": "Where settings files store their options", "statement": "A settings file that is read has each option at its documented offset, stored as the byte the documented table gives for it, the three strings at offsets 4, 36 and 68, the data size at 100, constant bytes in the documented places and the checksum behind the data. Files that are written are stored that way, and each byte has one meaning per option.", "quantifier": "all four types of settings files, every buffer and every setting", "why_tests_cant": "A wrong byte for one option or two swapped options pass round trips; there are too many combinations of options to test.", "anchors": ["src/setting.rs: Setting", "src/setting.rs: DevSetting", "src/setting.rs: DJMMySetting", "src/setting.rs: MySetting", "src/setting.rs: MySetting2"]}
{"id": "C71", "title": "Components of waveform columns", "statement": "A packed column and the values of its components determine each other, a setter changes one component only and panics if the value does not fit, and the whiteness and height of a preview column are the upper 3 and lower 5 bits of its byte. The documented components of tiny and colour columns are not what the getters return: a tiny column's height is always shown as 0, and colour columns are shown with mixed components (exact formulas proved).", "quantifier": "every column value, component and position in a file", "why_tests_cant": "The crate has no test of any component; round trips of whole columns hide the order of the bits.", "anchors": ["src/anlz.rs: WaveformPreviewColumn", "src/anlz.rs: TinyWaveformPreviewColumn", "src/anlz.rs: WaveformColorDetailColumn"]}
{"id": "C72", "title": "The listing of settings shows every setting, by its name, and nothing is lost", "statement": "`list-settings` never fails on an export: whatever the four settings files contain, its output has exactly one line for each of the 46 settings, and the name on the line (the part before the colon, in lower case, underscores for spaces) is the name of the field. Behind column 32 stands the text of the value that the file stores for this setting, or `<missing>` if that file cannot be read. The texts of the values of one setting differ from each other and from `<missing>` and contain no line feed, so two exports with the same listing have the same settings. Except for six values, the text is the name that the documentation gives for the value in Rekordbox's preferences, up to the case of letters. For the language Simplified Chinese it is not: the attribute with its name is attached to the next variant, Traditional Chinese.", "quantifier": "all contents of the four settings files (absent, damaged, or any bytes), all settings, all values of all 46 option types; whichever of two display attributes on one variant counts", "why_tests_cant": "The listing has no tests. It consists of 46 hand-written lines; a line with the wrong field, two values with the same text, or an attribute on the wrong variant show up only for particular contents of particular files.", "anchors": ["src/device.rs:255-493", "src/main.rs:259-268", "src/setting.rs:513-1363", "src/device.rs:52-81"]}
{"id": "C73", "title": "Dumping a database shows each table independently and always ends", "statement": "Once the header can be read, `dump-pdb` fails for no content of the file: it prints the header and then one part per table, in the order of the header. The part of a table is its name, then each page of its chain in order, each followed by its rows in the order of their offsets (or its index entries), then a message if the chain is broken; it depends only on the file, not on what the other tables contain or on what was read before. Tables of unknown type are skipped unless the flag is given. The command ends for every file, also with cyclic links, and exits successfully even if no table could be read. It panics exactly if a table that is not skipped leads to a page whose reading panics, to a text stored as ASCII that is not UTF-8, or to an index entry above 0x1FFFFFF8. The last two make the release build panic on files that can be read without errors.", "quantifier": "all files, both database types, both builds, with and without the flag, all tables", "why_tests_cant": "The dump has no tests; it shares lazily loaded pages between tables, so independence and termination are statements about all link structures of all files.", "anchors": ["src/main.rs: dump_pdb (278-321)", "src/pdb/io.rs: PageIterator::next", "src/pdb/mod.rs: IndexEntry Debug (300-315)", "src/pdb/string.rs: Display (139-172)"]}
{"id": "C74", "title": "Damaged files do not crash release builds, and the exceptions are known", "statement": "Whatever bytes a file contains: opening a database never panics. In release builds, reading a page at any position with any page size, loading any page number, any sequence of calls of a page iterator (with arbitrary changes of the pages in memory in between) and reading an analysis file give a value or an error, never a panic. Collecting the rows of a table panics exactly if its chain leads to a page with rows of another type; exporting playlists panics only for that reason; dumping panics exactly if a page is not printable. In debug builds, a page of at least 40 bytes panics only if the file contains the bytes of a string with an impossible length (01, or a long string with length below 4), and every data page panics if the header gives a page size below 40.", "quantifier": "all byte sequences, page sizes, positions, page numbers, sequences of iterator calls, databases opened from any file", "why_tests_cant": "Absence of panics for all inputs; fuzzing covers samples only.", "anchors": ["src/pdb/mod.rs: Page, Header", "src/pdb/io.rs", "src/pdb/string.rs", "src/anlz.rs: ANLZ", "src/main.rs: export_playlists, dump_pdb"]}
{"id": "C75", "title": "Rows inserted by programs are in the file, and nothing else changes", "statement": "Programs open a database, load pages, allocate and insert rows in them, save and end; others open the saved file and do the same, any number of times. If the pages they touch are well-formed at the start and the rows match the type of the page and the size that was asked for, then the file the last program leaves can be opened, and iterating over a table shows, page by page, the rows that were there at the start, unchanged and in their order, followed by the rows inserted in that page, in the order of insertion. Whether a request is refused depends only on the free space: a page with f free bytes takes a row of n bytes exactly if n rounded up to a multiple of 4, plus 6, is at most f. If the sums of these fit, no row is lost. Other pages show the same rows as before. With pages of at most 4096 bytes no such program panics or fails, and the predicted size of a row is always a valid size to ask for.", "quantifier": "all files, all sets of well-formed pages, all numbers of programs, all sequences of loads, allocations and insertions of rows of all types, both build modes", "why_tests_cant": "The tests of the repository insert rows into single pages in memory; none saves and opens a database again. An error that shows only after the second save (for example offsets computed differently for a page that was read again, or a group of 16 slots that fills up between two sessions) needs a sequence of sessions, and there are infinitely many.", "anchors": ["src/pdb/io.rs: Database::open, load_page, iter_rows, flush", "src/pdb/mod.rs: Page::allocate_row, RowGroup, DataPageContent", "src/pdb/offset_array.rs: OffsetArrayContainer"]}
{"id": "C76", "title": "The listing of playlists is the content of the file", "statement": "`list-playlists` on any file: if the header or one of the four tables (playlists, artists, tracks, entries, in this order) cannot be read, it prints no line and returns the error for the first of them. Otherwise the tables are exactly the rows that the file stores in the first chain of pages of each type, whatever order the tables are read in. If the ids of the playlists are distinct and not 0, the output is, for each node that can be reached from the root and in depth-first order, a line with its name, level and kind, and then one line for each of its entries in ascending order of the index, with the title of the track and the name of its artist; entries whose track does not exist and tracks whose artist does not exist are marked as such. For several rows with the same id or index the last one counts. Names that are not valid UTF-8 end the output with a panic at that line.", "quantifier": "all files, both builds, all sets of rows of the four tables", "why_tests_cant": "The command has no tests. The tables share pages that are loaded lazily; the result depends on all rows of four tables at once and on the link structure of the file.", "anchors": ["src/main.rs: list_playlists (88-189)", "src/pdb/io.rs: iter_rows (168-185)"]}
{"id": "C77", "title": "An export writes nothing unless the whole database is readable", "statement": "`export-playlists` on any file that can be opened: it creates directories and files only if the three tables of playlists, entries and tracks can be read completely and every name and path that is needed decodes. Then the operations are those for the rows of these tables as they are in the file. Otherwise it returns whichever error comes first: that of the first table that cannot be read, or an encoding error, which occurs only if the name of a reachable node or the path of a track does not decode; paths are decoded as the rows are delivered, so an undecodable path comes before the error of a later page, and the error of a page of tracks is returned only if all paths delivered before it decode; it panics only if a table leads to a page with other rows or whose reading panics.", "quantifier": "all files, both builds, all output directories", "why_tests_cant": "A partial export caused by damage in a table that is read late, or rows that depend on what was read before, show only for particular damaged files.", "anchors": ["src/main.rs: export_playlists (191-256)", "src/device.rs: get_playlists (525-565)", "src/pdb/io.rs: iter_rows (168-185)"]}
{"id": "C78", "title": "Assignments to rows reach the file, and nothing else", "statement": "Programs that open a database, assign fields of rows in place (through `load_page` or `iter_rows`), insert rows, save in between and at the end, any number of programs one after the other: if no assigned value takes more bytes than the value it replaces (every number does, except the subtype of rows with an offset array; a text if it is not longer), the file that the last program leaves can be opened, and the row iterator shows every row with the assigned values, in the old order, and all other rows unchanged; the same is shown before saving. With pages of at most 4096 bytes none of these programs fails or panics. Without the condition this is false, and no error is reported: the end of a longer text is overwritten by the next row, and a longer text in the last row can reach into the next page.", "quantifier": "all files whose described pages are consistent, both builds, all sequences of programs and assignments, all row types", "why_tests_cant": "There is no test that changes rows and saves. The effect depends on the layout of all rows of a page and on what earlier programs left; an overwritten neighbour shows only for particular lengths.", "anchors": ["src/pdb/io.rs: load_page (104-123), iter_rows (168-185), flush (213-218)", "src/pdb/mod.rs: DataPageContent (640-690), Row (2055-2101)"]}
{"id": "C79", "title": "A save that is interrupted loses at most one page", "statement": "A program opens a database, inserts rows, assigns fields, saves any number of times, and its last save stops at any point (error of the device, removed device, row that cannot be written), while page j is being written and whatever bytes are then in page j. Then the file can be opened, with the same header; every page in front of j has the rows the program gave it, every page behind j has the rows of the save before; the row iterator shows the complete new rows of a table whose pages are in front of j, and the complete old rows of a table whose pages are behind j. If the save stops while the header page is written, all rows are those of the save before. These are the states `flush` goes through. Saving is not atomic: it can leave a page with some new and some old rows.", "quantifier": "all files whose described pages are consistent, both builds, all programs, all points of interruption, all contents of the page that was being written", "why_tests_cant": "Points of interruption are as many as bytes written, for every program and file; no test interrupts a save.", "anchors": ["src/pdb/io.rs: LazyDatabase (28-41), LazyPage::write_options (49-67), flush (213-218)", "src/pdb/mod.rs: Page (440-500), DataPageContent (640-690)"]}
{"id": "C80", "title": "Programs can extend tables by pages and change the header without losing rows", "statement": "Programs that insert rows, assign fields, assign `next_page` and `page_type` of pages and change the header (`get_header_mut`, `find_table_mut`), in any order and over any number of saves, run without error or panic, and the file left by the last one opens, has the last header, and the row iterator shows for each table the rows of its pages in the order of the new links; provided that page size and number of pages stay, and only empty pages get another type. In particular linking the last page of a table to a free page behind it, making that the last page and inserting rows there gives a table with the old rows followed by the new ones. A link to a page in front is accepted by the program too, but afterwards no row of the table can be iterated.", "quantifier": "all files whose described pages are consistent, both builds, all programs of these steps, all tables, all rows that fit", "why_tests_cant": "Header, page headers and rows are written at different places of the file and read back by three different readers; there are infinitely many programs, and no test changes a header or link and saves.", "anchors": ["src/pdb/io.rs: get_header_mut (195-197), flush (213-218), PageIterator (256-310)", "src/pdb/mod.rs: Header (205-247), PageHeader (502-536)"]}
{"id": "C81", "title": "Changing options of a settings file changes these options and nothing else", "statement": "A program reads a settings file, assigns any options any of their values, any number of times, and writes the file. This always succeeds, and reading the result gives what the program had. In the result the byte of each assigned option (at its documented place) is the code of the last value assigned; apart from the checksum and the bytes behind the ends of the three texts, which become zero, all other bytes are those of the original file, and if that file was written by the crate nothing but the options and the checksum changes at all. `list-settings` then shows the new values on the lines of these options, and all other lines as before.", "quantifier": "all four kinds of files, all accepted contents, all sequences of assignments, all states of the other files", "why_tests_cant": "The tests write default values and read files with one changed option; combinations of 46 options, arbitrary texts and file contents, and the path from bytes to the printed line are not enumerable.", "anchors": ["src/setting.rs: Setting (28-79), DevSetting (262-284), DJMMySetting (300-337), MySetting (363-427), MySetting2 (464-490)", "src/device.rs: load_settings (52-81), Display for Settings (255-491)", "src/main.rs: list_settings (259-268)"]}
{"id": "C82", "title": "Release builds do what debug builds do, except where those panic", "statement": "Let one build have overflow checks (debug, tests) and one not (release). For every input, each operation of the crate either panics in the checked build or gives exactly the same in both: reading pages and analysis files (value, end position, error), writing rows, pages, whole databases and analysis files (bytes), predicted row sizes, loading pages, iterating over pages and rows (with the pages that are kept in memory), inserting rows. Programs that open a database, change it, and save it, run after run, leave the same bytes; exporting and listing playlists give the same; the dump prints the same, or what it printed before the panic is the beginning of what the other build prints. In particular pages of at least 40 bytes in a file without strings of an impossible length read the same in both builds.", "quantifier": "all byte sequences, positions, page sizes, values, databases, sequences of insertions and changes", "why_tests_cant": "Tests run with overflow checks, users run builds without them; no test compares two builds, and the difference only shows for values near the limits of the integer types.", "anchors": ["src/pdb/mod.rs: Page (428-617), PageHeapObject impls (686-981)", "src/pdb/string.rs: 184-264", "src/pdb/offset_array.rs: 121-257", "src/pdb/io.rs: 69-309", "src/anlz.rs: 127-133, 257-335, 469, 856-1129, 1163-1193", "src/main.rs: 88-316"]}
{"id": "C83", "title": "What is read from an XML document is exactly what its attributes and elements say", "statement": "An element is read as a track exactly when every attribute that a track needs is present, every documented attribute that is present holds the text of a value of its type (an optional sign and decimal digits within i32 or i64, a float, or any text), and its TEMPO and POSITION_MARK children each form one block of neighbours that read the same way; the track has exactly those values, with nothing for optional attributes that are absent. Likewise for playlist nodes with documented attributes and for whole documents. So the order of attributes and unknown attributes do not matter, a track without id or location is an error, and so are tempos that something else separates.", "quantifier": "all elements without duplicate attributes, all readers of floating point numbers, all results", "why_tests_cant": "the claim is an equivalence over all documents: every combination of present, absent, malformed, reordered and unknown attributes and every order of children", "anchors": ["src/xml.rs: Document, Product, Collection, Track, Tempo, PositionMark, PlaylistGenericNode, PlaylistFolderNode, PlaylistPlaylistNode, PlaylistTrack"]}
{"id": "C84", "title": "Changing one row, in particular its strings, changes that row and nothing else", "statement": "A program opens a database, loads a page, changes one row (fields, strings of the offset array such as a track's title or a tag's name, with the offsets kept or reset to `Calculated`), and saves. If the new content fits (each string takes no more bytes than the one it replaces and needs no larger alignment; or, with the offsets reset, the row as one block is not larger than the parts of the old row), the file can be opened again and the row iterator shows that row with exactly the new fields and strings, at its old place, and all rows in front of it and behind it as before. Without the condition this is false and no error is reported: rows that were read keep their offsets, so a longer string is overwritten by the next string of the same row even though the page has room behind the row; the same change with the offsets reset is stored.", "quantifier": "all files whose described pages are consistent, both builds, all rows with and without offset arrays, all changes", "why_tests_cant": "The layout of a row that was read is arbitrary (offsets may be in any order, with gaps); no test changes strings of rows that were read and saves them.", "anchors": ["src/pdb/offset_array.rs: OffsetArrayContainer (83-92), write (181-239)", "src/pdb/io.rs: load_page (104-123), flush (213-218)", "src/pdb/mod.rs: Artist (1055-1078), Track (1760-1805)", "src/pdb/ext.rs: TagOrCategory (90-115)"]}
{"id": "C85", "title": "After changes to an analysis file, exactly the sections that begin before the announced total size are read back", "statement": "A program reads an ANLZ file, changes its public fields (beats, cues, paths, waveforms, whole sections) and writes it. The written file has the header size plus the sum of the documented sizes of its sections. Reading it gives exactly the leading sections that begin before the total size stored in the file header, and fails with an I/O error if that size is larger than the file; the whole file comes back iff the total size ends within the last section. If a section is replaced and the total size follows, the changed file is read back and all bytes before and behind the section stay the same (apart from the total size). The sizes are not computed by the library: a path, waveform or song structure whose length changed without the sizes of its header makes the file unreadable, and adding a cue without changing the total size of the file silently loses later sections.", "quantifier": "all files of well-formed sections (every kind of content, any lengths), all total sizes, both builds; all files that can be read (with overflow checks)", "why_tests_cant": "The tests write values that were read unchanged; sizes, numbers of entries and positions of sections vary independently.", "anchors": ["src/anlz.rs: Header (117-134), Section (1147-1155), ANLZ and parse_sections (1157-1193)", "src/anlz.rs: BeatGrid, CueList, ExtendedCueList, Path (766-850), waveforms (880-1010), SongStructure (1014-1060)"]}
{"id": "C86", "title": "Exporting playlists never damages other files, succeeds exactly when nothing is in the way, and can be repeated", "statement": "Run of export-playlists on a file system, with a fault (permission, full or removed device) at any point. Whatever the database contains: directories stay directories, a file not called *.m3u keeps its content (so no database, settings, analysis file or track is damaged), no file is removed, and new entries are directories or files called *.m3u. With safe names every change is below the output directory, or a missing directory of its path. After a run without error each playlist's file has its content unless a later playlist has the same place. With plain names the run without faults succeeds iff no file is where a directory is needed, no directory where a file is needed, and no playlist file is a directory of another playlist; in particular in a new or empty output directory if no folder is called like a playlist file. A successful run can be repeated and changes nothing; a run stopped by a fault can be repeated and then succeeds. Names for which it fails: a folder '.', a folder 'a.m3u' beside playlist 'a', a zero byte.", "quantifier": "all databases, trees, names, output paths (also with '..'), file systems without links, and all faults", "why_tests_cant": "Tests run on a fresh temporary directory without faults and with a handful of names; the state of the file system and the point of the fault are unbounded.", "anchors": ["src/main.rs: export_playlists (191-256), walk_tree (219-230)"]}
{"id": "C87", "title": "Commands read only their own files, change none but playlists, and exit as their input demands", "statement": "For every command of the program on a file system, with faults: all commands but export-playlists change nothing, and that one keeps every directory and every file not called *.m3u, so the files that can be read before a run can be read with the same bytes afterwards and the database and the settings give the same results. What a command prints or plans depends only on the file it is given, the four settings files or PIONEER/rekordbox/export.pdb below the device path. list-playlists on the file given prints the lines of its rows and succeeds, or panics at the first string that cannot be shown; it prints nothing and fails if the file, its header or one of its tables cannot be read. list-settings always succeeds; dump-setting and (without overflow checks) dump-anlz never panic and succeed iff the file can be opened and decoded (dump-setting also, silently, if the type is unknown); dump-pdb always ends and fails iff the type is known and the header cannot be read; dump-xml fails iff the file cannot be opened and panics iff it is a directory or no document. After an export with exit status success each playlist with a place of its own is in its file with the lines for the rows of the database, and the path in each line (if the device directory has a name in UTF-8, C89) is absolute and leads to the track below the device directory from any working directory.", "quantifier": "all commands, file systems without links, working directories, paths, database contents, build modes, and all faults", "why_tests_cant": "Non-interference and preservation are statements about all pairs of file systems and all points of failure; tests run one command on one directory.", "anchors": ["src/main.rs: main and all commands (29-441)", "src/device.rs: DeviceExport::load_settings, open_pdb_non_persistent (33-100)"]}
{"id": "C88", "title": "An entry added to a playlist through the API adds exactly its line to the exported file", "statement": "After any allowed series of sessions (open, allocate and fill rows, save, drop) on an export.pdb the playlists that are exported are those of the rows then on the pages of the three tables. If a session adds one playlist entry (index x not yet used in playlist id, track t) to a page of the entries table with 18 bytes to spare and the export worked before, it works afterwards with the same directories and files; all playlists but id keep their content; the content of id gains, between the lines of the smaller and of the greater indices, the line of track t, or nothing if no track has this id. On disk: two successful runs of export-playlists, before and after, write the same bytes for all other playlists with a place of their own, and before++after versus before++new++after for this one, with new the absolute path of the track and a newline.", "quantifier": "all databases as C75 describes them, all entries, all file systems (the device may be elsewhere and the output directories may differ in content), build modes, and faults that leave the exit status at success", "why_tests_cant": "The path from a byte written into a page to a line of a file crosses the allocator, the row writer, the page reader, the tree, the sorting of entries and the file system; tests check single stages with fixed files.", "anchors": ["src/pdb/mod.rs: Page::allocate_row (573-616)", "src/pdb/io.rs: Database::open, load_page, iter_rows, flush", "src/main.rs: export_playlists (191-257)", "src/device.rs: get_playlists (525-566)"]}
{"id": "C89", "title": "A player opens the tracks of an exported playlist, in order, from anywhere", "statement": "After export-playlists ended with success, a program that reads the file of a playlist (with a place of its own) line by line, skipping comments and empty lines, gets one line per entry whose track exists, in ascending order of the index; opened from any working directory, each line gives the content that the path of the track below the device path as given leads to. Needed: the directory names above the device are UTF-8, and neither they nor the track paths contain a line feed. Both are sharp: the lines read are those written iff none contains a line feed, and a line leads to the place of its track iff the names are UTF-8; otherwise the player gets lines that the database does not contain, or paths with replacement characters.", "quantifier": "all file systems whose entries have directories as parents, working directories, device and output paths (relative, with dots), database contents, and faults that leave the exit status at success", "why_tests_cant": "Reading back is a statement about all track paths and device paths, including those that are not text, and about the file system after the export wrote to it.", "anchors": ["src/main.rs: export_playlists (191-257)", "src/device.rs: DeviceExportLoader::get_path, open_pdb_non_persistent (33-100)"]}
{"id": "C90", "title": "A playlist added through the API adds exactly its file", "statement": "One more row for a playlist, anywhere among the rows of the tree, adds the playlist as one more child to every folder with the id of its parent (the root has id 0) and leaves all other nodes, their order and their names as they were; a row for an empty folder adds that folder and no playlist appears, disappears or moves. If a session (open, allocate and fill a row, save, drop) adds such a playlist row to a page of the tree table where it fits, and the export worked before, it works afterwards; every playlist before keeps its content. On disk: two successful runs of export-playlists, before and after, write the same bytes for all playlists before, and the second one writes one more file in the directory of the parent, with the lines of the entries that have its id, in order; an empty file if there is none (all playlists of the new tree having safe names and places of their own).", "quantifier": "all databases as C75 describes them, all rows that can be written, all positions of the row in the table, all trees, file systems, build modes", "why_tests_cant": "Adding a node touches the multimap of children, the recursion over folders and the export of all other playlists; a test has one tree and one position.", "anchors": ["src/device.rs: get_playlists (525-566)", "src/main.rs: export_playlists (191-257)", "src/pdb/mod.rs: Page::allocate_row (573-616)", "src/pdb/io.rs: Database::open, load_page, iter_rows, flush"]}
{"id": "C91", "title": "Which pages are in memory does not show", "statement": "A program opens a database and makes any sequence of calls of load_page, iter_pages, iter_pages_for_table, next (any number of times, iterators may be dropped half way) and get_header_mut, and changes the pages it gets in any way, or only looks at them. All answers, errors and panics included, are those of a database that keeps no pages: a page that the program has changed is the changed page, every other page is read from the file again each time. Hence looking at pages, in any order, has no effect on any later call, and a page that the program did not change is what it would have been had it been asked for first. (The page size in the header must stay as it is: c91_size shows why.)", "quantifier": "all files, all sequences of calls, all changes to pages and to the header that keep the page size, both build modes", "why_tests_cant": "What is in memory depends on the whole history of calls, including iterators that failed or were dropped; a test follows a few histories.", "anchors": ["src/pdb/io.rs: Database::load_page (104-123)", "src/pdb/io.rs: iter_pages_for_table, iter_pages (126-165)", "src/pdb/io.rs: PageIterator::next (273-309)", "src/pdb/io.rs: get_header, get_header_mut"]}
{"id": "C92", "title": "Whether a database file is safe to modify can be checked, exactly", "statement": "From the bytes of any database file it can be computed which pages may be loaded and saved, which may take new rows, and which tables consist of such pages. The check is exact: a page passes if and only if it is read with all texts as they would be written, its rows lie apart and in front of the footer, and it can be written; it may take rows if and only if its counters and slots are right as well. For pages that pass nothing else is needed: after any number of programs that open the file, load such pages, allocate and insert rows that can be written, and save, the file can be opened, and each table whose pages passed shows its rows, the old ones and the inserted ones; with pages of at most 4096 bytes none of the programs fails or panics.", "quantifier": "all files, all pages, all sequences of programs on checked pages, both build modes", "why_tests_cant": "A test shows that one file survives one modification; whether a given file is one of those for which all modifications are safe cannot be seen from tests on other files.", "anchors": ["src/pdb/io.rs: Database::open, load_page, iter_rows, flush", "src/pdb/mod.rs: Page::allocate_row, DataPageContent, RowGroup", "src/pdb/string.rs: DeviceSQLString", "src/pdb/offset_array.rs"]}
{"id": "C93", "title": "The text of the playlist listing can be read back, unless names have line feeds in them", "statement": "The output of list-playlists shows each string of the database as its text in UTF-8. If no shown name or track has a line feed in it, the output has exactly one line for each node and each track; from a line one can tell whether it is a folder, a playlist or a track, its level, and its name or its number and track, and no line can be read in two ways. So two listings with the same text have the same nodes at the same levels, with the same kinds and names, and the same tracks in the same places. What is said about a track tells whether the track is missing, the artist is missing, or which artist and title it has, provided the artist has no ' - ' in it and does not look like the remark for a missing artist.", "quantifier": "all databases, all strings, all listings, all pairs of listings", "why_tests_cant": "A test compares the output for one database with an expected text; that different trees never give the same text is a statement about all pairs of databases and all strings.", "anchors": ["src/main.rs: list_playlists, print_children_of", "src/pdb/string.rs: Display for DeviceSQLString"]}
{"id": "C94", "title": "A row inserted into the database changes the listing of playlists by its own lines and nothing else", "statement": "After a program has opened a database file, inserted one row into a table and saved the file, list-playlists shows what it showed before, except: for a new entry of a playlist one more line among the lines of this playlist, behind all smaller and before all larger numbers, with the title and artist of its track; for a new folder or playlist its line and those of its entries at its place in the tree, if its parent can be reached from the root, and nothing otherwise; for a new track, its title and artist in the lines that had said that the track does not exist; for a new artist, the name in the lines that had said that the artist does not exist. No other line is new, gone, moved or changed.", "quantifier": "all database files whose pages pass the check of C92, all rows that can be written, all trees with distinct ids, both build modes", "why_tests_cant": "A test lists one database before and after one insertion; that nothing else in the listing changes depends on the whole chain from allocation of the row over saving and reading to printing, for all files and rows.", "anchors": ["src/main.rs: list_playlists", "src/pdb/mod.rs: Page::allocate_row (573-616)", "src/pdb/io.rs: Database::open, load_page, iter_rows, flush"]}
{"id": "C95", "title": "A row changed in the database changes what the listing and the export say about it and nothing else", "statement": "After a program has opened a database file, changed one row in place and saved the file, list-playlists and export-playlists give what they gave before, except: a renamed folder or playlist has its new name in its line, and its directory or file has the new name, at the same place and with the same content; an entry that refers to another track has the line of that track, in the listing and in the one file of its playlist, at the same position; a new title or artist of a track, or a new name of an artist, appears in the lines of exactly these tracks and leaves the export as it is; a new path of a track appears in exactly the lines for this track, and files of playlists without the track are the same.", "quantifier": "all database files whose pages pass the check of C92, all changes after which the row takes no more room (C78, C84), all trees with distinct ids, both build modes", "why_tests_cant": "A test changes one row of one file; that no other line or file changes depends on loading, assigning, saving and reading back of whole pages and on the walk over the tree, for all files and changes.", "anchors": ["src/main.rs: list_playlists, export_playlists", "src/device.rs: get_playlists (525-565)", "src/pdb/io.rs: Database::open, load_page, iter_rows, flush"]}
{"id": "C96", "title": "The order in which rows are stored shows only in the order of siblings", "statement": "Two databases whose tables of tracks, artists and playlist entries hold the same rows in any order (with distinct ids, and distinct positions in each playlist), and whose nodes are stored in the same order, have the same listing. If the nodes are stored in another order, too, the listing has the same lines for each node on the same level, and only siblings change places; the export writes the same files with the same contents into the same directories. The sort order recorded in a node has no influence at all: siblings appear as stored, even if their sort orders say otherwise.", "quantifier": "all pairs of databases with permuted rows, all trees, all outcomes of writing the files, both build modes", "why_tests_cant": "Rows end up in any order, depending on the history of the database, and pass through maps by id and a sorted map by position; tests see one order of one file.", "anchors": ["src/main.rs: list_playlists, export_playlists", "src/device.rs: get_playlists (525-565)", "src/pdb/mod.rs: PlaylistTreeNode::sort_order (1478-1479), PlaylistEntry"]}
{"id": "C97", "title": "The lines that export-playlists prints tell which files it has written", "statement": "Whatever goes wrong during an export (also a full disk, a failing write, a panic before the first file): if nothing is printed, no file has changed. Otherwise the printed lines are the paths of the playlists in the order of the tree, from the first one on, and of all of them if the command succeeds. With safe names, everything that changed on the disk is a new directory or the file of a printed line; the files of all lines before the last are completely written (unless a later playlist has the same place), and the file of the last line is completely written after success, and otherwise either as it was before or a beginning of its text. If the output path is text and no name is empty or has a slash or a line feed, cutting the output at line feeds gives exactly these paths, and after success there is a file at each of them. A name with a line feed breaks this, and the last line of a failed export may name a file that was not made.", "quantifier": "all databases, output paths, trees of playlists, file systems before the export, all points where an operation fails, both build modes", "why_tests_cant": "It relates the output, the exit status and the file system after every possible failure; a test would have to inject each fault at each operation for each tree of playlists.", "anchors": ["src/main.rs: export_playlists (191-256), println (237)", "src/device.rs: get_playlists (525-565)"]}
{"id": "C98", "title": "Rows can be deleted through the public fields, if the map, the flags and the count are changed together", "statement": "The library has no function that deletes a row, but all fields are public. A program that opens a database, takes one row out of `rows` of a page, clears the presence flags of the slots with its offset, takes 1 from `num_rows_valid`, and saves: the file can be opened again with the same header; the row iterator of the table shows the rows that it showed before, in the same order, without this one; the iterators of the other tables show the same rows. Deleting can be mixed with inserting, assigning and saving in any order (C78), and never fails or panics on consistent pages. The space is not used again: a page that has no room for a row has none after any number of deletions. All three changes are needed, and `flush` reports no error if one is missing: with the map alone, the row is there again when the file is opened; with flags or count left out, the table cannot be read any more.", "quantifier": "all files whose described pages are consistent, both builds, all pages and rows, all sequences of deletions", "why_tests_cant": "No test deletes a row. Slots, flags and offsets of up to sixteen rows per group interact with the size of the footer that is written and with the rows of the other groups; what is left of a deleted row stays in the file.", "anchors": ["src/pdb/mod.rs: PageHeader (500-540), DataPageContent (650-690), RowGroup (745-812)", "src/pdb/bitfields.rs: PackedRowCounts (22-70)", "src/pdb/io.rs: load_page (104-123), flush (213-218)"]}
{"id": "C99", "title": "What a deleted row changes in the listing and in the export", "statement": "A program that deletes one row as in C98 from a table of the listing and saves. A folder or playlist: `list-playlists` prints neither its lines nor those of the nodes below it (the lines directly behind it on deeper levels), all other lines are as before; `export-playlists` makes the same files with the same contents at the same places without this playlist, or without this folder and all that was below it; the rows of the nodes below stay in the table unreachable. An entry (the only one with its number in its playlist): its line is missing in the listing and in the one file of its playlist, all else is as before. A track (the only one with its id): its entries stay; in the listing their lines say that there is no such track, in the exported files their lines are missing without a message; files without such a line are the same. An artist: the lines of its tracks say that there is no such artist; the export is the same. A row inserted as in C94 and then deleted again leaves the listing as it was. The conditions on the file can be computed (C92).", "quantifier": "all files whose described pages are consistent, both builds, all rows of the four tables, all trees and orders of rows, all output directories", "why_tests_cant": "No test deletes a row or compares two listings. What disappears together with a folder depends on the shape of the whole tree, and what happens to dangling references depends on three tables that know nothing of each other.", "anchors": ["src/main.rs: list_playlists, export_playlists", "src/device.rs: get_playlists (525-565)", "src/pdb/mod.rs: PageHeader, DataPageContent, RowGroup (public fields)", "src/pdb/io.rs: Database::open, load_page, iter_rows, flush"]}
{"id": "C100", "title": "Settings files made from scratch", "statement": "A program makes the default settings of one of the four types (`Setting::default_devsetting` and so on), gives them any three texts of at most 31 bytes without zeros, assigns any public option fields any number of times and writes the file. The file consists of: the texts in fields of 32 bytes padded with zeros, with the two lengths; the data of the file that rekordbox itself ships in an empty export, byte for byte, apart from the assigned options, which have the documented byte of the last value assigned; the CRC-16/XMODEM checksum of the documented range; two zeros. It is read back as exactly these settings. Without any assignment it is that data with brand, \"rekordbox\" and \"6.6.1\". A longer text is refused with an error, whatever is assigned.", "quantifier": "all four types, all texts, all sequences of assignments of any length", "why_tests_cant": "Tests write a default file with one fixed option changed at most; there are more than 10^12 combinations of options, and the private fields that a program cannot set only come from the defaults.", "anchors": ["src/setting.rs: Setting (28-79), default_devsetting … default_mysetting2 (81-126), calculate_checksum (134-155), Default impls (286-508)"]}
{"id": "C101", "title": "Why a settings file is refused", "statement": "Reading bytes as a settings file of a given type succeeds exactly if none of these is the case, and otherwise gives the error of the first of them: fewer than 4 bytes (input error); first length not 96 (failed assertion); for each of the texts at 4, 36, 68: no zero byte behind its start in the whole file (input error), none within its 32 bytes (failed assertion); the file ends before 104 (input error); second length not that of the type (failed assertion); an option byte without documented meaning, or other bytes than the fixed ones, or an end of the file within the data (no variant matched); end of the file before the last field (input error); last field not zero (failed assertion). In particular a valid file cut short is always refused: as data without matching variant if the cut is within the data, as an input error otherwise.", "quantifier": "all byte strings of any length, all four types, all cut lengths", "why_tests_cant": "Tests read valid files only. Which error wins when several things are wrong, and that nothing else can be wrong, is a statement about all byte strings.", "anchors": ["src/setting.rs: Setting (28-79), SettingData (196-217), the field assertions (262-490)", "binrw: pad_size_to, assert, pre_assert, enum reading"]}
{"id": "C102", "title": "Analysis and settings files with trailing bytes, or cut short", "statement": "If reading bytes as an analysis file succeeds and ends at position p, then p is within the input, any input with the same first p bytes gives the same file and position (so bytes behind p are never looked at), and any shorter beginning, of fewer than p bytes, is refused with an error: it is never read as a file with fewer sections, and there is no panic, with or without overflow checks. Of two analysis files, one is a proper beginning of the other's bytes only if reading gives the same. A settings file that is read depends on its first 108 + data size bytes only.", "quantifier": "all byte strings of any length, all cut positions, all continuations, both builds", "why_tests_cant": "Tests read complete files. That no reader peeks behind what it consumes (there is a detection of encryption that reads two bytes and seeks back, and a decrypting stream), and that no truncation is taken for another file, concerns all inputs and all cuts.", "anchors": ["src/anlz.rs: ANLZ::parse_sections (1163-1193), SongStructureData::check_if_encrypted and read_encrypted (1015-1150), section readers", "src/xor.rs: XorStream", "src/setting.rs: Setting (28-79)"]}
{"id": "C103", "title": "A database file that was cut short never shows other rows", "statement": "Take a database file and its first n bytes. Opening the part fails with a read error or gives the same header. If the rows of a table are read from the whole file, then reading them from the part gives exactly the same rows or a read error; a build with overflow checks may panic instead. If listing or exporting the playlists succeeds for the whole file, then for the part it prints the same lines or performs the same file operations, or fails with a read error before anything is printed or written. This needs the length fields of ISRC strings to agree with their content; without this, a cut file can show another text (refuted by an example).", "quantifier": "all files, all cut positions, both database types, all row types, both builds, all recursion bounds", "why_tests_cant": "Tests read complete files. Strings are read by trying variants, so an end of the file may make another variant match; that this does not happen in any row of any file cut anywhere cannot be tested.", "anchors": ["src/pdb/string.rs: DeviceSQLString, LongBody (217-264)", "src/pdb/offset_array.rs (121-170)", "src/pdb/io.rs: open, read_page, PageIterator, iter_rows (69-185, 256-309)", "src/main.rs: list_playlists, export_playlists (88-256)"]}
{"id": "C104", "title": "Programs leave alone every byte of pages that they do not change", "statement": "After any number of programs that insert, assign and delete rows, link pages, change the header and save, in between and at the end: every byte of a page that no program asked for is the same as before, whatever that page contains (damaged pages, pages of unknown type, bytes behind the last page). Every byte of a page that programs loaded, but did not change, is the same too, however often it was saved (index pages: if the entries behind the used ones are as they are written). The first page is the last header followed by zeros. The file is never shortened, and keeps its length if the pages that were asked for are in it.", "quantifier": "all files whose described pages are consistent, both builds, all sequences of programs, all positions in the file", "why_tests_cant": "Tests compare single files after single changes; that no other byte ever changes is a statement about all programs and all contents of the other pages.", "anchors": ["src/pdb/io.rs:28-66", "src/pdb/io.rs:104-123", "src/pdb/io.rs:213-223"]}
{"id": "C105", "title": "Inserting and deleting rows leaves the bytes of the other rows, and of deleted ones, where they are", "statement": "After any number of programs that load and save a page, insert rows into it, delete rows from it and change its type or link, but assign nothing to its rows: every byte of the part of the page that was in use for rows at the start is the same. So a row is never moved or rewritten because of other rows, and a row that was deleted can still be read at its old place with its old value.", "quantifier": "all files whose described pages are consistent, both builds, all sequences of programs, all rows of all types in pages that may grow", "why_tests_cant": "Tests compare the rows that are left, not the bytes behind them, after single changes; that no sequence of insertions, deletions, saves and reopenings ever rewrites a row needs an invariant over files and memory.", "anchors": ["src/pdb/mod.rs:566-617", "src/pdb/mod.rs:668-672", "src/pdb/io.rs:104-123", "src/pdb/io.rs:213-223"]}
{"id": "C106", "title": "How often programs save, and how the work is divided among programs, does not show in the file", "statement": "Programs insert rows into pages, change types and links of pages and the header, and save wherever they like; the work may be divided among several programs that open the file again. If two such histories do the same to a page in the same order, the page has the same bytes in the end, whatever was done to other pages, and in whatever order. If this holds of all pages that were asked for and the last headers are equal, the files are equal: in particular, one program that does everything and saves once writes the same file. This does not hold of deleting rows, nor of reserving space without a row.", "quantifier": "all files whose described pages are consistent, with a row in the last slot of every group; both builds; all sequences of programs, pages, rows, and places of saves", "why_tests_cant": "A test compares two histories; the claim relates all pairs of histories. It needs the fact that a row read back with explicit text offsets is written to the same bytes as the row that was inserted with offsets to be calculated, gaps included, which holds only because the gaps were written before.", "anchors": ["src/pdb/io.rs:103-124", "src/pdb/io.rs:212-224", "src/pdb/mod.rs:566-617", "src/pdb/mod.rs:740-824", "src/pdb/offset_array.rs:143-247"]}
{"id": "C107", "title": "Assigning to a row changes no byte of the rows that are not assigned to", "statement": "After any number of programs that assign to rows in place (page by page or table by table), insert, delete and save in any order: a byte of the part of a page that was in use for rows is the same as at the start, unless it lies in the space of a row that got other values. So a row that always keeps its values is read at the same place with the same value, whatever its neighbours become, even if a new text is shorter, moves, or its offsets are calculated anew, and even if the row itself was deleted. In particular a program that changes one row changes bytes in the space of that row only.", "quantifier": "all files whose described pages are consistent; both builds; all sequences of programs, pages, rows and assignments that respect the size of the row (C78); all bytes of the heap of a page that takes rows", "why_tests_cant": "A test compares some bytes after some assignments; the claim is about every byte after every sequence of assignments, insertions, deletions, saves and reloads. It needs that the space a row takes never grows: not by assigning, not by writing with recalculated offsets, and not by being read back with explicit ones.", "anchors": ["src/pdb/io.rs:103-124", "src/pdb/io.rs:168-185", "src/pdb/io.rs:212-224", "src/pdb/mod.rs:672", "src/pdb/mod.rs:740-824", "src/pdb/offset_array.rs:143-247"]}
{"id": "C108", "title": "A save that is interrupted, in programs that change links, page types and tables", "statement": "A program may insert, delete, assign, change links and types of pages, change the tables in the header, and save. If its last save stops while page j is written, the file opens with the new header, the new pages in front of j and, behind j, the pages of the save before; every table whose pages are linked in this mixture is shown with these rows. If it stops between two pages, no page is lost. Extending a table by a free page is safe with two saves: one for the page and the link, then one for the table in the header. At each point between two pages the table has either its old rows or the old and the new ones, in order; only the page that is being written may be lost; within the header page the same holds if the two page numbers differ in one byte. With one save this is false (refuted): interrupted after the header, the table cannot be read at all although none of its pages has been written.", "quantifier": "all files whose described pages are consistent; both builds; all programs, pages, row kinds, inserted rows and all points at which saving can stop", "why_tests_cant": "A test would have to cut the power at every byte of every save of every program. The claim quantifies over all programs and all contents of the page that is being written.", "anchors": ["src/pdb/io.rs:33-67", "src/pdb/io.rs:103-124", "src/pdb/io.rs:195-224", "src/pdb/mod.rs:205-247", "src/pdb/mod.rs:502-536"]}
{"id": "C109", "title": "Appending pages to a database", "statement": "The database type has no function that adds a page, but pages can be written behind the last one, and counted in the header with one save. Afterwards the file opens with the new header, the new pages can be loaded with their rows, every table has exactly the rows that it had, and no byte between the header page and the new pages has changed. This can always be done when the new pages are consistent. Programs may then link the new pages to tables and insert rows into them like into any other page. Counting the page in the header alone is not enough (refuted): the page cannot be loaded before or after saving, and saving does not make it.", "quantifier": "all files whose described pages are consistent (also files that end before or after the last counted page); both builds; all lists of consistent pages; all sequences of programs as in C80 afterwards", "why_tests_cant": "A test appends one page to one file. The claim is about all files, lists of pages and later programs; it rests on the header and the pages being written to disjoint places, and on every other page being read from its own bytes only.", "anchors": ["src/pdb/io.rs:33-67", "src/pdb/io.rs:69-124", "src/pdb/io.rs:195-224", "src/pdb/mod.rs:205-226", "src/pdb/mod.rs:545-563"]}
{"id": "C110", "title": "The life of a database file", "statement": "Any number of events happen to a file in any order: programs as in C80 that end with a save, programs that stop without saving, programs whose last save is interrupted (within the header page leaving the old or the new header, between two pages, or within a page), and appended pages as in C109. Afterwards the file opens, its header and pages are those that follow from the events one after the other, and every table whose pages are linked shows exactly the rows on them. Every such history is possible. A table that no event works on keeps its rows through all of them, wherever else saves stop. A save that stops within the header page leaves one of the two headers if they are equal or differ only in the last byte of the last page of one table.", "quantifier": "all files whose described pages are consistent; both builds; all finite sequences of events that satisfy the conditions of C80 and C109; all bytes left by an interrupted write (page size at most 4096 for the existence of histories)", "why_tests_cant": "Tests run one program on one file and let it finish. The claim is about all sequences of programs, interruptions and extensions, and about arbitrary bytes in the page that was being written; it needs an invariant that each event preserves.", "anchors": ["src/pdb/io.rs:33-67", "src/pdb/io.rs:69-124", "src/pdb/io.rs:126-193", "src/pdb/io.rs:195-224", "src/pdb/mod.rs:205-226"]}
{"id": "C111", "title": "Which entries of analysis files are accepted", "statement": "A cue is read exactly if its 56 bytes are there and its type is 1 or 2. A cue list is read exactly if its type is 0 or 1, all announced cues are there and each of them has a type of 1 or 2: one bad cue makes the section unreadable, while the sizes in its header do not matter. An extended cue that is read has a type of 1 or 2 and a colour from 0 to 8; without a comment, it is read exactly if this holds and its 68 bytes, or as many as its header announces, are there. A beat grid is read exactly if all announced beats are there. The data of a song structure is read exactly if the mood is from 1 to 3, the bank from 0 to 8 and all phrases are there.", "quantifier": "all byte sequences and positions; both builds; all numbers of entries", "why_tests_cant": "Tests read a few valid files. The claim is an equivalence for all bytes: it excludes both that a documented value is refused and that an undocumented one is taken, at any entry of a list of any length.", "anchors": ["src/anlz.rs:140-235", "src/anlz.rs:342-471", "src/anlz.rs:601-638", "src/anlz.rs:768-826", "src/anlz.rs:1051-1069", "src/util.rs:89-117"]}
{"id": "C112", "title": "Which sections of analysis files are accepted", "statement": "With the two sizes in the header of a section, and their difference as the build computes it (a panic in debug builds and a wrap around 2^32 in release builds if negative): an index for variable bit rates and a section of an unknown kind are read exactly if the announced bytes are there. A waveform is read exactly if the difference is the number of announced columns times their fixed width, all columns are there, and the announced width and the fixed number are the right ones. A path is read exactly if the difference and the announced size both count the bytes up to and including its first zero unit. A song structure is read exactly if the difference is 24 times the number of phrases, all phrases are there, and mood and bank are known, either as they are or with the mask taken off; debug builds have a limit of 65310 phrases, 65285 with the mask. The letters of whole files and single cues do not start a section.", "quantifier": "all byte sequences (below 2^32 bytes for waveforms and paths) and positions; both builds; all numbers of entries", "why_tests_cant": "Tests read a few valid files. The claim is an equivalence for all bytes: whatever a device writes, it says whether the section is taken, including sizes that contradict each other and differences that wrap around.", "anchors": ["src/anlz.rs:41-111", "src/anlz.rs:113-138", "src/anlz.rs:702-763", "src/anlz.rs:828-1042", "src/anlz.rs:1071-1131", "src/anlz.rs:1136-1143"]}
{"id": "C113", "title": "Which extended cues are accepted, and where they end", "statement": "An extended cue is read exactly if its type is 1 or 2, its colour from 0 to 8, its comment has no lone surrogates, and all its bytes are there. It ends behind its comment, 24 further bytes, and what its total size leaves when the comment is taken to have the size of its text with one zero unit. So, with a total size that has room for the text, it ends where the total size says exactly if the comment is stored with one zero unit (or is empty and stored with none); otherwise the next entry is read from the wrong place. A list of extended cues is read exactly if its type is 0 or 1, its fixed number is zero, and each entry can be read where the one before it ends.", "quantifier": "all byte sequences below 2^31 bytes and positions; both builds; all numbers of entries, sizes and comments", "why_tests_cant": "Tests read a few files with comments as one program writes them. The claim gives for all bytes whether an entry is taken and its exact end, which decides how all following entries are read.", "anchors": ["src/anlz.rs:237-335", "src/anlz.rs:342-471", "src/anlz.rs:805-826", "src/util.rs:89-117"]}
{"id": "C114", "title": "A grammar of the analysis files that are accepted", "statement": "A grammar over positions and numbers in the bytes says what a file is: the letters PMAI, two sizes, the rest of the header, and sections that follow each other until the announced end is reached or passed, each of one of the known kinds with its own conditions or of an unknown kind. A file is read, and reading ends at a given position, exactly if the grammar has a file up to that position; the same holds for a single section. The grammar is not ambiguous. Anything else is refused, with an error in release builds and with an error or a panic in debug builds.", "quantifier": "all byte sequences below 2^31 bytes and positions; both builds; any number of sections and entries", "why_tests_cant": "A finite set of files neither shows that all well-formed files are accepted nor that no others are. The theorem is an equivalence for all inputs, by induction over sections and entries.", "anchors": ["src/anlz.rs:41-138", "src/anlz.rs:702-1042", "src/anlz.rs:1136-1193"]}
{"id": "C115", "title": "Exactly which strings and rows of databases are accepted, what they say and where they end", "statement": "A DeviceSQL string is read as d up to fin if and only if it is stored in one of four forms: short (a header byte 2*len+3 and the bytes), long ISRC (0x90, a stored size, a zero, a 3 and text up to the first zero), long ASCII (0x40, the stored size being four more than the text) and long UCS-2 (0x90, an even size, and no ISRC can be read there). A row of each of the 17 known types is read, with given numbers and strings and up to fin, if and only if its numbers, constants, color code (at most 8) and strings are stored one after the other; for albums, artists, tracks and tags the strings are found by offsets from the start of the row, one or two bytes wide by bit 2 of the subtype and preceded by a 3 of that width, and the reader goes back to the start of the row. Anything else is refused, with an error in release builds and with an error or a panic in debug builds; what is stored is determined; the two builds differ only for long strings with a stored size below four.", "quantifier": "for all builds, files below 2^64 bytes, positions and row types", "why_tests_cant": "An if-and-only-if over all byte sequences: tests sample a few rows that are accepted and a few that are refused, and cannot show that nothing else is accepted or that every stored row is.", "anchors": ["src/pdb/string.rs:217-264", "src/pdb/offset_array.rs:143-170", "src/pdb/mod.rs:1008-1918", "src/pdb/ext.rs:90-150"]}
{"id": "C116", "title": "Exactly which pages of databases are accepted, and where they end", "statement": "For page sizes from 40 on, a page is read up to fin if and only if it begins with a zero u32 and, if bit 6 of the flags at +27 is set, it is an index page (0x3ec at +36, 0x3ffffff at +48, and as many entries of four bytes from +60 on as the u16 at +56 says, where it ends), and otherwise a data page: it ends a page size behind its start; the groups of 36 bytes, one for each 16 rows counted in the low 13 bits at +24, lie between the start of the file and the end of the page; the number of different offsets of rows whose bit is set is the number in the high 11 bits; and at each of these offsets from +40 a row of the type of the page is stored as C115 says (nothing is asked of pages of an unknown type). Anything else is refused, so one bad row, or a wrong number of valid rows, makes the whole page unreadable.", "quantifier": "for all builds, page sizes from 40 on, database types, files below 2^64 bytes and positions", "why_tests_cant": "An if-and-only-if over all byte sequences and page sizes: tests read a few sample pages, and cannot show that no other page is accepted nor that every page of this shape is.", "anchors": ["src/pdb/mod.rs:319-375", "src/pdb/mod.rs:428-439", "src/pdb/mod.rs:497-564", "src/pdb/mod.rs:653-683", "src/pdb/mod.rs:735-794", "src/util.rs:146-169"]}
{"id": "C117", "title": "Exactly which database files open, which tables can be read, and what their rows say", "statement": "A database file opens if and only if the two zero fields of the header and the whole list of tables are there. However much was read before, a page can be loaded if and only if its number is at least 1 and below the number in the header, and a page as described by C116 is stored at its number times the page size. The pages of a table can be walked, giving exactly the pages `is`, if and only if these numbers are a growing chain, linked by the next-page fields in the file, from the first page of the table to its last. The rows of a kind can be read, saying the numbers and strings `xs`, if and only if the bytes say so: the first table with the type of the kind, its chain of pages, in each data page the rows at the offsets marked as present in the order of the offsets, in each row the fields at their places; a page with rows must be of the type of the table. A file says at most one such `xs`; if it says none, reading ends with an error or a panic and never with other rows.", "quantifier": "for all files (bytes, shorter than 2^64), both kinds of database, both builds, all page sizes of at least 40, all page numbers, tables, kinds of rows, and all databases reached from opening by loading pages and iterating", "why_tests_cant": "The statement is an equivalence between the bytes of arbitrary files and the result of reading, through four layers of lazy readers with seeks; tests fix a few well-formed files and never show that nothing else is accepted or that the answer does not depend on what was read before.", "anchors": ["src/pdb/io.rs:69-185", "src/pdb/io.rs:256-309", "src/pdb/mod.rs:183-248", "src/pdb/mod.rs:319-794"]}
{"id": "C118", "title": "What the playlist commands print and write follows from the bytes of the file alone", "statement": "For a file whose header and list of tables are there: if the bytes of the tables of playlist nodes, artists, tracks and entries say (in the sense of C117) the rows xn, xa, xt, xe, then list-playlists prints the lines of C76 for the nodes, artists, titles and entries that stand at fixed places among the numbers and strings of these rows. Conversely, if list-playlists prints anything and does not fail, the file opens and each of the four tables says something. export-playlists does the operations `ops` if and only if the bytes of its three tables say rows whose nodes form a tree, whose paths decode, and for which `ops` are the files of this tree with the text of each playlist.", "quantifier": "for all files (bytes, shorter than 2^64) with page sizes of at least 40, both builds, all depths, output directories and device paths; for the listing, all tables whose node numbers are distinct and not zero", "why_tests_cant": "It is an equivalence between arbitrary bytes and the output of the commands through header, page chain, row directory, row layout, string format, maps and tree; a test shows the output for a few exports made by the vendor's software and nothing about other files.", "anchors": ["src/main.rs:88-257", "src/device.rs:525-565", "src/pdb/io.rs:93-185", "src/pdb/mod.rs:319-794"]}
{"id": "C119", "title": "Damage to other pages does not change what a table says", "statement": "Take a file and a table of it whose pages hold all that belongs to them: the bytes of each page, taken as a file of their own, are a page with its rows, and no UCS-2 text in them is empty or begins with the byte 3. Then every file with the same header, the same list of tables and the same bytes in these pages opens and says the same rows for this table, whatever the other pages contain and however long the file is. If this holds for the four tables of the listing, list-playlists does the same for both files; if it holds for nodes, entries and tracks, an export performs the same operations. Without the condition on texts this is false: one byte behind the page can turn a name that begins with the byte 3 into an ISRC, because the reader looks for a zero byte in the whole rest of the file (refuted by an example).", "quantifier": "all pairs of files (bytes, shorter than 2^64) with the same header bytes and the same bytes in the pages of a table, page sizes of at least 40, all row types, both database types, both builds, all depths and directories", "why_tests_cant": "Tests read undamaged files. That offsets of rows and strings, groups of rows and searches never reach into other pages is a statement about all contents of all other pages, and it is even false for a class of texts that no test file contains.", "anchors": ["src/pdb/string.rs:215-265", "src/pdb/mod.rs:319-794", "src/pdb/io.rs:93-185", "src/main.rs:88-257", "src/device.rs:525-565"]}
{"id": "C120", "title": "Two programs with different pages can work on one file at the same time", "statement": "Two programs open the same database file for reading and writing and then, in any interleaving, load pages, change the pages they have loaded in any way, and save (flush or close), as often as they like. If they load no page in common, if the pages they load hold all that belongs to them (the bytes of the page, taken as a file of their own, are read as a page, and no UCS-2 text in it is empty or begins with the byte 3) and if their pages fit whenever they save, then every step does for each program what it would do if the other program did not exist; in the end the file has its old length, the pages of each program hold byte for byte what this program alone would have left there, all other pages hold what they held before. So the interleaving does not show: it is the file that results when one program runs after the other. If they share a page this is false even if one of them only looks at the page: saving writes pages that were only read, and brings back the old rows (refuted by an example).", "quantifier": "all files that open, both database types, both builds, all programs of loads, arbitrary changes of loaded pages and saves, all interleavings of their steps (a save is one step)", "why_tests_cant": "The number of interleavings is unbounded, and tests with one program at a time never show that a save writes only the bytes of pages in memory, that what it writes does not depend on the present contents of the file, and that loading a page never looks at other pages.", "anchors": ["src/pdb/io.rs:32-123", "src/pdb/io.rs:199-226", "src/pdb/mod.rs:497-794", "src/pdb/string.rs:215-265"]}
{"id": "C121", "title": "Of several programs that work on one file, the last one that saves a page wins", "statement": "Any number of programs open the same database file and then, in any interleaving, load pages, change the pages they have loaded in any way, change the header in memory, and save; they may share pages. If, whenever they save, their pages fit and their header is valid, fits in a page and has the page size of the file, the file opens afterwards with the header of the last save (a change of the header by another program is lost), and for each page inside the old file that this header counts: if some program saved while it had the page in memory, the page can be loaded and has the header and the rows (or the index entries) that it had in the memory of the last such program, provided that it was consistent there, and nothing remains of what other programs made of it; otherwise the page has all its old bytes. So what a program has saved to a page stays in the file as long as no program that has the page in memory saves later.", "quantifier": "all files (bytes), both database types, both builds, any number of programs of loads, arbitrary changes of loaded pages, arbitrary changes of the header that keep the page size, and saves, all interleavings of their steps (a save is one step), all pages inside the file", "why_tests_cant": "Pages are not rewritten as a whole: the gaps between the rows keep their bytes, so what is read after several programs have written different rows to different places of one page depends on all of them, unless the rows, the offsets and the flags of the last one are always complete. The interleavings and the programs are unbounded.", "anchors": ["src/pdb/io.rs:32-123", "src/pdb/io.rs:199-226", "src/pdb/mod.rs:497-830"]}
{"id": "C122", "title": "Databases whose header gives a page size below 40 never show rows", "statement": "If the header of a database file (shorter than 4 GiB minus 36 bytes) gives a page size below 40, in which the headers of a data page do not fit, then: a page can be loaded if and only if it is an index page (as in C116) or, in release builds, a data page that counts no rows; no page that can be loaded has rows; iterating the rows of a table ends in an error or a panic, or finds no rows, the latter if and only if the table is there and its chain consists of such pages; list-playlists prints nothing, and an export does nothing to the file system. So although the size of the heap wraps around in release builds, a damaged page size never leads to invented rows. Together with C116-C118, this covers all page sizes.", "quantifier": "all files (bytes) shorter than 2^32 - 36, all page sizes below 40, both database types, both builds, all states of the database after any reads, all kinds of rows, all pages", "why_tests_cant": "The heap size is computed by subtractions on u32 that wrap around in release builds, after which positions almost 4 GiB behind the page are used; tests would have to try all contents of files to show that nothing is found there.", "anchors": ["src/pdb/mod.rs:653-688", "src/pdb/mod.rs:497-560", "src/pdb/io.rs:69-185", "src/main.rs:92-189"]}
{"id": "C123", "title": "What dump-pdb prints about rows and index entries follows from the bytes of the file", "statement": "For a database file whose header gives a page size of at least 40: dump-pdb ends without a panic and without a message about a table, having printed rows that say xs (kinds, numbers, strings, in order) and the index entries es, if and only if the file opens and its bytes show exactly xs and es: every table whose type is known (or every table, if unknown tables are asked for) has a chain of stored pages with growing numbers up to its last page; every index page of the chains stores its entries, all of them empty or valid page numbers; every data page stores, at each offset marked as present, a row of the type of the page (not of the table) whose byte strings are UTF-8; and these pages together give xs and es in this order. A file shows at most one such output.", "quantifier": "all files (bytes) shorter than 2^64, all page sizes from 40, both database types, both builds, with and without unknown tables, all outputs", "why_tests_cant": "Both directions quantify over all files: tests can show that some good files are dumped, not that nothing else is ever printed and that no file with printable content is refused or cut short.", "anchors": ["src/main.rs:278-321", "src/pdb/io.rs:69-185", "src/pdb/mod.rs:254-315", "src/pdb/mod.rs:497-700", "src/pdb/string.rs:139-172"]}
{"id": "C124", "title": "Databases made from scratch show exactly the rows that were put in", "statement": "A program writes a header without pages to an empty file, makes empty data pages from their public fields, reserves space for rows and inserts them (allocate_row), writes the pages behind the header, opens the file, sets the number of pages and saves. If the page size is from 40 to 4096 and holds the table list, the rows can be written and are of the type of their page, and their sizes (rounded up to a multiple of 4, plus 6) fit on the page, then this always succeeds; the file opens with this header; and every table whose chain of pages, given by the next pages that the program chose, has growing numbers and ends with the last page of the table shows exactly the rows put on the pages of the chain, in this order. So for every list of rows of one kind that fits on a page there is a file that shows exactly these rows. The bytes of the file are determined by the program and are the same in debug and release builds.", "quantifier": "all headers, all numbers of tables and pages below 2^32, all page contents and links, all rows of all kinds, both database types, both builds, page sizes 40 to 4096", "why_tests_cant": "The tests of the project never make a file: they read existing ones and write them back. That every row list that fits can be stored and read back for any layout of pages and tables is a statement about unboundedly many files.", "anchors": ["src/pdb/mod.rs:205-235", "src/pdb/mod.rs:497-700", "src/pdb/io.rs:50-185", "src/pdb/bitfields.rs:62-71", "src/pdb/bitfields.rs:114-124"]}
{"id": "C125", "title": "Playlists of a database made from scratch are listed and exported as they were put in", "statement": "A program makes a database from nothing as in C124, with tables for playlist tree nodes, artists, tracks and playlist entries on any pages. If no two nodes have the same id and none has id 0, then list-playlists on the file prints, for every node that can be reached from the root, siblings in the order in which they were put in, a line for the node and below it one line per entry in the order of the entry numbers, with artist and title of the tracks put in. The playlist export succeeds exactly if the paths of all tracks and the names in the tree decode to text, and then writes exactly the playlist files whose lines are the paths of the tracks put in.", "quantifier": "all sets of nodes, artists, tracks and entries that fit on pages of at most 4096 bytes, any number of pages per table, all headers, both builds, all output directories and mount points", "why_tests_cant": "It relates everything that can be put into a database through the API with the output of the commands, through allocation, page and row encoding, saving, opening, reading and tree building; tests can only sample such databases, and the project has none that makes one.", "anchors": ["src/pdb/mod.rs:205-235", "src/pdb/mod.rs:497-700", "src/pdb/io.rs:50-185", "src/main.rs:88-257", "src/device.rs:300-565"]}
{"id": "C126", "title": "dump-pdb prints exactly the rows of databases that programs have made or changed", "statement": "Take a database file whose pages hold known rows: one made from nothing as in C124, or one left by any number of programs that insert, change and delete rows, relink pages and change the header as in C80. If every table of a known type (every table, if unknown tables are asked for) has a chain of pages, then dump-pdb on the file does one of two things. If all byte strings in the rows of these chains are UTF-8 and all entries of index pages in them are empty or valid, it ends successfully without a message about a table, having printed the kinds, numbers and strings of exactly these rows, table by table and page by page, in the order in which the rows are on the pages, and the entries of the index pages. Otherwise it panics. A database made from scratch prints exactly the rows put in and no index entries.", "quantifier": "all headers, plans and programs, all rows, both builds, with and without unknown tables", "why_tests_cant": "a test dumps a few files written by rekordbox; it cannot cover every sequence of programs and every row that such a file may hold, nor show that nothing is lost or printed twice", "anchors": ["src/main.rs:278-321", "src/pdb/io.rs:69-185", "src/pdb/io.rs:187-330", "src/pdb/mod.rs:254-315", "src/pdb/mod.rs:497-700"]}
{"id": "C127", "title": "Every content of a database can be stored with the library and read back", "statement": "Choose any kinds of tables of the database, each at most once, and for each of them any list of rows of this kind, of any length, such that each row can be written and fits on a page of its own. If the page size is from 40 to 4096 and holds the table list, and there are fewer than 2^32 pages, then a program that uses only the public functions (C124) makes a file that opens, in which every one of these tables shows exactly its rows in the given order, and whose dump, if the texts can be printed, ends successfully with exactly all these rows, table by table, and no index entries. For the tables of playlist tree nodes, artists, tracks and entries it follows that for any such rows there is a file with the listing and one with the export that C125 describes. Programs that leave the same bytes have put in the same header and, table by table, rows with the same values.", "quantifier": "all contents: all kinds, all lists of rows of any length, both builds and both kinds of databases", "why_tests_cant": "a test stores some rows in some tables; that no combination of tables and rows is out of reach is a statement about infinitely many databases with files of any length", "anchors": ["src/pdb/io.rs:187-351", "src/pdb/mod.rs:205-235", "src/pdb/mod.rs:497-760", "src/main.rs:278-321"]}
