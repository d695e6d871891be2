# A formal model of rekordcrate

The subject is the Rust crate in `/repo` (Holzhaus/rekordcrate): readers and writers for the files that rekordbox puts on
a USB device (PDB databases, ANLZ analysis files, settings files), the XML exchange format and a small command line tool.
The model is in Coq 8.16.1, in `rocq/theories`. The properties are in `properties.jsonl`, their status in `MANIFEST.json`.

## Trusted base

1. Coq's kernel (and `vm_compute`, which the kernel includes).
2. `Print Assumptions` follows each property theorem; all are expected to be "Closed under the global context".
   (`coqchk` over the whole development also lists seven constants of `Coq.ssr.ssrunder`, abstract in the standard library and
   loaded with it; no theorem depends on them.)
3. The model itself: it was written by reading the Rust text. Nothing mechanical ties it to the code. Each definition cites the
   lines it models.
4. The semantics given in `Base.v` to Rust integers, `std::io` and `binrw` (a crate whose source is not in `/repo`):
   * Unsigned arithmetic that overflows panics in build mode `Debug` and wraps in `Release`. Theorems that mention a
     mode `b : build` hold for both.
   * A stream is a list of bytes and a position. It never fails except for reads past the end and seeks before the start, it
     grows on writes, and gaps are filled with zeros. Short reads and writes are only modelled for `XorStream` (C44).
   * `binrw` reads the fields of a struct in order; tries the variants of an enum in order, each from the same position; reads
     `count` elements one after another; checks `magic`, `assert` and `pre_assert`; evaluates the `args` of a field before the
     field's magic; restores positions as documented. `NullString` ends at the first zero. `br(try)` on a zero `NonZero<u32>`
     gives `None` and leaves the position behind the 4 bytes (this is what the round-trip test for tag pages in `/repo` needs).
   * Memory exhaustion, stack overflow, and integers above 2^63 as stream positions are not modelled.

## What is modelled and how the properties are proved

The common method: encoders are functions to byte lists, decoders are functions of the whole buffer and a position
(`Base.parser`). `has buf pos bs` says that `bs` is stored at `pos`. For each format two lemmas are proved: *write-read*
(where the encoding is stored, the decoder returns the value) and *read-write* (where the decoder returned a value, its encoding
is stored). They compose along struct fields. Writers with seeks are reduced to a list of segments (position, bytes) written
one after another; reading back needs that segments do not destroy each other.

| Property | Modelled code | How proved |
|---|---|---|
| C01, C02, C07 | string constructors, UTF-8 and UTF-16 coders | induction on strings; decoder inverts encoder |
| C03, C04, C05, C06 | string reader and writer | write-read and read-write lemmas, exact exception |
| C08, C09, C10 | offset arrays, both modes | induction on the item list; segments |
| C11, C12, C13 | all row types | composition of field lemmas |
| C14, C15, C16 | bit fields, index entries | arithmetic |
| C17 | index pages | length arithmetic, write-read lemma |
| C18, C19, C20, C21 | `Page::allocate_row` as a state machine | invariant over operation sequences |
| C22, C23, C24 | page reader and writer | disjoint segments; read-write; frame |
| C25, C26, C27 | `PageIterator::next` as a step function | measure and induction on steps, chain relation |
| C28 – C34 | `Database` operations | case analysis, segments per page |
| C35 – C40 | ANLZ reader and writer | measure; write-read per section type |
| C41, C42, C43, C44 | XOR cipher stream, song structure | phase invariant; all keys modulo 256 |
| C45 – C50 | settings files, CRC | write-read; linear algebra on CRC steps |
| C51 | `load_settings` | case analysis on file states |
| C52, C53 | playlist tree | recursion on depth; fuel-independent divergence |
| C54, C55, C56, C62 | command line: export, guessing, listing | structural induction; listing by way of the tree of C52 |
| C57, C58, C59, C63 | XML documents at the level of elements, attributes and children | tree induction, permutations, attribute lists |
| C64 | success and failure of all writers of databases | case analysis, segments |
| C65 – C68 | where strings, rows, pages and databases store things, against literal tables of offsets | inversion of the readers; write-read for writers |
| C69, C70 | where analysis files and settings files store things, against literal tables (`LayoutAnlz.v`, `LayoutSetting.v`) | inversion of the readers; write-read for writers |
| C71 | components of packed waveform columns (`Columns.v`) | induction over the widths; the colour columns by evaluation of all values |
| C72 | listing of settings: 46 literal lines and the texts of all options (`Show.v`) | tables checked by evaluation (finitely many options), lines by induction |
| C73 | `dump_pdb`: the sequence of printed values (`Dump.v`) | relation between file and output; invariant that loaded pages are those of the file |
| C74 | absence of panics in all readers (`Robust.v`) | compositional: each parser does not panic if its parts do not |
| C75 | programs that open, insert rows, save, any number of times (`Session.v`), against shelves with free space (`shelf`, `place`, `work`) | refinement: pages in memory or readable independently of the rest of the file; saved pages read back to pages that can be used alike (`Reread.v`); writing succeeds (`Progress.v`) |
| C76, C77 | `list_playlists` and `export_playlists` from the bytes of the file (`Listing.v`) | relation between file and rows of a table, independent of earlier reads; composition with C55 and C62 |
| C52, C55, C76 (`PropStored.v`) | which bytes of a row the commands' ids, folder flags, names and paths come from | layout of rows (C66), for every way of reading strings |
| C78 | assigning fields and strings of rows in place, saving in between (`Revise.v`) | refinement of C75's shelves: rows keep their place if the new values take no more bytes; counterexamples for longer texts |
| C79 | saves that stop at any point (`Cut.v`) | the shelves of C78 in memory and those of the last save in the file; changing bytes of one page keeps all other pages; counterexample for atomicity |
| C80 | programs that also assign links and types of pages and change the header (`Relink.v`): `get_header_mut`, `find_table_mut`, public fields of `PageHeader` | the pair of header and shelves; paths through the new links; extending a table by a page; counterexample for links backwards |
| C81 | programs that read a settings file, assign options and write it (`Tune.v`), and the listing afterwards | one assignment changes one byte (split of the field list at the place of the literal table), induction over assignments; composition with C72 |
| C82 | builds with (`Debug`) and without (`Release`) overflow checks give the same results, files and output, except where the former panic (`Builds.v`) | one relation "equal, or the checked one panics", closed under the combinators; one lemma per function; induction over lists, iterators, runs |
| C83 | reading XML documents (`XmlRead.v`: tables of attributes, numbers as text, blocks of children) | equivalence between readers and specification; induction on elements |
| C84 | changes of one row, in particular of strings in offset arrays (`Revise.v`, `PropString.v`) | C78 for changes of fields, strings and offsets: strings at kept offsets shrink in place, rows with reset offsets are one block that fits into the old parts (disjoint segments have room); counterexample for longer strings |
| C85 | changes of analysis files (`PropAnlzEdit.v`) | sizes of sections from the documented structure; the section loop over written sections with an arbitrary announced end, by induction; counterexamples for stale sizes |
| C86 | exports on a file system (`Fs.v`, `FsFacts.v`, `FsExport.v`, `PropExport.v`) | frame relation `changed` for every run with faults, by induction on the run; success characterised by `fits`; repeated runs |
| C87 | all commands on a file system (`Main.v`, `PropMain.v`) | relation `execute`; frame and non-interference by cases over the commands; C54, C55, C77 and C86 composed from the rows in the file to the files on disk |
| C88 | from a change of the database to the exported playlists (`Compose.v`, `PropCompose.v`) | C75 (sessions on shelves), C77 (export from rows) and C87 (commands on a file system) composed: the rows on the shelves determine the export; insertion into the sorted map of entries |
| C89 | what a player finds in an exported playlist (`Player.v`, `PropPlayer.v`) | `Path::display` as in the standard library (wrong UTF-8 is replaced); a reader of lines as the spec; paths opened below the canonical directory; C87 composed |
| C90 | a new playlist in the database and its file (`Graft.v`, `PropGraft.v`) | relation `gained` between the tree before and after; the playlists as a weaving of the old list; composition as in C88 |
| C91 | the pages in memory do not show (`Cache.v`, `PropCache.v`) | refinement of the model of `Database` and `PageIterator` to a machine that reads a page from the file each time it is asked for it, unless the program has changed it; simulation, any sequence of calls |
| C92 | what C75 and the theorems built on it ask of a file is decided by computation (`Check.v`, `PropCheck.v`) | boolean check of pages, proved exact (sound and complete) from what reading guarantees; pieces of rows do not depend on the position; chains of pages found with fuel that always suffices |
| C93 | the text `list-playlists` writes (`ListText.v`, `PropListText.v`) | reading of lines as inductive relations (what is seen, what is told), proved functional; cutting at line feeds by induction; refutations for names with line feeds, artists with dashes and strings that are not UTF-16 |
| C94 | one inserted row and the listing of the playlists afterwards (`ComposeList.v`, `PropComposeList.v`) | composition of C75 and C76 by way of the rows of the four tables; walk with one more leaf by induction on the depth; lines of one node with one more index; assumptions on the file from C92's check |
| C95 | one changed row, the listing of the playlists and the export afterwards (`ComposeEdit.v`, `PropComposeEdit.v`) | composition of C78, C84 with C76, C77 by way of the rows of the tables; walk and tree commute with a change of names (induction on the depth); lines and files with one entry or path replaced; assumptions on the file from C92's check |
| C96 | which orders show in the listing and the export (`PropOrder.v`) | permutations: last row of a key does not depend on the order if keys are distinct; walk and tree of permuted nodes by induction on the depth; files on disk by C86 |
| C97 | the paths that `export-playlists` prints and what is on the disk then (`ExportLog.v`, `PropExportLog.v`) | induction over the runs with faults; names of nodes are texts (units of the strings that were read); lines cut at line feeds as in C89 |
| C98 | deleting rows through the public fields (`Delete.v`, `PropDelete.v`) | a further step of the programs of C78: clearing bits keeps the flags of other slots (bitwise), the footer can only shrink, removing from a sorted map is removing one position; counterexamples for incomplete deletions |
| C99 | one deleted row, the listing of the playlists and the export afterwards (`ComposeDelete.v`, `PropComposeDelete.v`) | composition of C98 with C76, C77 as in C95; the walk without a node is the walk with it and the deeper nodes behind it left out, the tree without it is the pruned tree (induction on the depth); lines of a missing track, artist or entry; insertion undone |
| C100 | default settings of each type with new texts and assigned options, written to a file (`PropFresh.v`) | C81 started from the defaults; `shipped` is the data of the files in data/complete_export/empty, not of src/setting.rs |
| C101 | exactly which byte strings are refused as settings files, and with which error (`PropRefuse.v`) | case analysis along the reader against a list of checks on bytes; the tables are those of C70 |
| C102 | analysis files and settings files with bytes behind them, and cut short (`Local.v`, `PropLocal.v`) | `local` and `short` are shown for each reader and composed; the loop over sections by induction on the rounds |
| C103 | rows, listing and export of a database file that was cut short (`Trunc.v`, `PropTrunc.v`) | readers of the whole and of the part are related (`cutp`); strings by cases of the variants; tables through C76's `table_in`; finding: a wrong ISRC length lets a cut file show another text |
| C104 | bytes of the file after programs as in C80 (`Untouched.v`, `PropUntouched.v`) | invariant `calm`: the bytes of the page are the old ones, and if it is in memory, writing it writes bytes that are there already; C23's read-write lemma for pages that were only looked at |
| C105 | bytes of the rows of a page after programs that insert and delete (`Remains.v`, `PropRemains.v`) | invariant `firm`: rows are those that were there, at the same place, or lie behind the bytes that were in use; segments of the old rows agree with the file, footer and new rows lie elsewhere; a page out of memory is described by the segments that were written last |
| C106 | two histories of programs that do the same to a page (`Saves.v`, `PropSaves.v`) | invariant `tracks`: beside the page in memory stands the page that the changes would have given without any save; both have the same header, slots and rows up to offsets of texts; what only the latter determines (gaps between texts) is in the file already; bytes that neither determines are those of the first file |
| C107 | assignments beside insertions and deletions, bytes of the heap (`Spare.v`, `PropSpare.v`) | invariant `mild`: every row of the page in memory is one of the rows that are left alone, at its place, or its space does not contain the byte; the space of a row (`row_fits`) grows neither by assigning (C78) nor by writing and reading back |
| C108 | interrupted saves of the programs of C80 (`CutLink.v`, `PropCutLink.v`) | `on_file`: the header and pages of the last save, tracked beside those in memory; a save that stops writes the new header first, so the mixture has new links in front and old ones behind; two saves for extending a table, refuted for one save |
| C109 | writing pages behind the last one, counting them in the header, then programs of C80 (`Append.v`, `PropAppend.v`) | the bytes are those of saving a database that has the new pages in memory (`star`): writes to disjoint places commute; then C30/C80 |
| C110 | any sequence of programs (C80) that save, stop or are interrupted (C108), and of appended pages (C109) (`Life.v`, `PropLife.v`) | induction over the events: each leaves a file that opens and `stores` the shelves the spec computes; not events: an interrupted append, a header page that is neither the old nor the new header |
| C111 | readers of cues, cue lists, extended cues, beat grids, song data (`Anlz.v`) against numbers at offsets (`Accept.v`, `PropAccept.v`) | a list of number and enum fields is read iff its bytes are there and its enums have known codes; induction over counts; extended cues with comments are in C113 |
| C112 | readers of VBR, unknown, waveform, path and song sections (`Anlz.v`) against numbers at offsets (`AcceptAll.v`, `PropAcceptAll.v`) | rules for acceptance of each step of a reader (number, check, lifted result, bytes), put together per section; a song with a known mood in clear never looks encrypted, so the two readings exclude each other |
| C113 | readers of extended cues, their comments and lists (`Anlz.v`) against numbers at offsets (`AcceptCue.v`, `PropAcceptCue.v`) | strict UTF-16 decoding succeeds iff surrogates are paired, by induction over units; the number of units without final zeros is unique and gives the size that the code computes; induction over the entries of a list |
| C114 | `rd_anlz`, `rd_section`, `sections_loop` (`Anlz.v`) against an inductive grammar (`Grammar.v`, `PropGrammar.v`) | acceptance of each kind from C111 to C113, its end from C69; induction over the sections; the bound on the rounds of the loop suffices as each section takes 12 bytes or more |
| C115 | `rd_dstr`, `rd_longbody` (`Str.v`), `rd_oarr` (`Oa.v`), `rd_row` (`Rows.v`) against positional descriptions of strings and rows (`AcceptStr.v`, `PropAcceptStr.v`) | case analysis over the alternatives of the string reader, each shown equivalent to its form; induction over the fields of a row and over the offsets |
| C116 | `rd_page`, `rd_phdr`, `rd_icontent`, `rd_dcontent`, `rd_rgroup`, `rd_rows_at` (`Page.v`) against a positional description (`AcceptPage.v`, `PropAcceptPage.v`) | one direction from the layouts of C66 and C67, the other by running the readers on numbers known to be there; the map of rows has one entry for each different offset |
| C117 | `db_open`, `load_page`, `iter_pages_for_table`, `collect`, `iter_rows` (`Db.v`) of files against a positional description (`AcceptDb.v`, `PropAcceptDb.v`) | C115 and C116 composed with the layout of the header (C68), the chain of C26 and the cache invariant `fresh` of C31; the rows of a page are the sorted offsets, which a set determines |
| C118 | `list_playlists` (`Listing.v`) and `export` (`Cli.v`) from the bytes of the file (`PropBytes.v`) | C117 composed with C76 and C77; what the commands use of a row is given by places among its numbers and strings |
| C119 | the descriptions of C115–C117 for a part of a file (`Confine.v`), and the commands (`PropConfine.v`) | the descriptions only speak about bytes that are there, so they carry over from the bytes of a page to every file that has them at the place of the page; the one negative condition (no ISRC can be read) is excluded by a condition on texts and refuted without it |
| C120 | two programs with one file: `do_op`, `alone`, `both` (`Conc.v`) over `load_page` and `flush` (`Db.v`); reading a part of a file (`Window.v`) | saving writes a list of pieces that does not depend on the file, so the file of both programs stays, page by page, next to the files that each would have alone; the programs do not change the header; a save is one step |
| C121 | any number of programs with one file, which also change the header: `many`, `do_step` (`Many.v`) over `do_op` (`Conc.v`) | after a save the pieces of the page are in the file; later saves of programs without the page do not touch its bytes; a page is read from its pieces alone |
| C122 | page sizes below 40: `rd_page`, `load_page`, `iter_rows`, listing and export | the wrapped heap size puts the row groups behind the end of the file, so only pages without groups are accepted (`PropSmall.v`) |
| C123 | `dump_pdb` (`Dump.v`) from the bytes of the file (`PropDumpBytes.v`) | C73 composed with the positional descriptions of C115–C117; a page shows what its bytes show if and only if it can be printed; the description determines the output, so one direction and success give the other |
| C124 | programs that make a database from nothing: `blank`, `filled`, `makes` (`PropScratch.v`) over `run` (`Alloc.v`) and `appended` (`Append.v`) | an empty page satisfies the invariant of allocation; insertion keeps it and never panics; the header alone opens as a database with no shelf, to which the pages are appended as in C109 |
| C125 | listing and export of databases made from nothing (`PropScratchCli.v`) | C124 gives the shelves; C88 and C94 say what the commands make of rows on shelves |
| C126 | `dump_pdb` of databases made or changed by programs (`PropScratchDump.v`) | a chain of shelves is a chain of stored pages, so C73 gives the segment of each table; rows with the same values print the same, and a page is printable if and only if its rows and entries are |
| C127 | databases with any content (`PropScratchAll.v`) | a layout with one page per row gives chains for all tables by induction; C124 makes the file, C126 dumps it |
| C60, C61 | small helpers | arithmetic, case analysis; equality with the page model |

Not modelled: text formatting (`Display`, `Debug`) except the listing of settings (C72), the text of the listing of playlists (C93), the text of paths in exported playlists (C89) and on the standard output of `export-playlists` (C97) and where it can panic (C62, C73), argument parsing, memory limits, the error stream, a closed standard output, file system access beyond `Fs.v` and `Main.v` (C86, C87) and
"a file is absent, unreadable or has these bytes", quick-xml's lexer, the values of floating-point XML attributes.

## Details of the model

* Structs of fixed shape (rows, page headers, section headers) are lists of field descriptions (`Schema.v`) with one generic
  reader and writer; the write-read and read-write lemmas are proved once per field type. Values are lists of `fval`; a list that does
  not fit the description has no counterpart in Rust, and the writer gives `Panic` for it.
* The string reader is a parameter `rs` of the row and page readers. `rd_dstr b` is the reader of the crate. `rd_dstr_strict b` is
  not in the crate: it also rejects ISRC strings with an inconsistent length field. It is used in statements about
  writing back unchanged bytes (C06, C12, C23, C31), where it names the inputs that are written back identically.
* `BTreeMap` is a list sorted by key.
* Writers that seek are shown to be equal to writing a list of segments (`Segs.v`); `dpage_segs`, `page_pieces` are such lists.
* Enum reading: if no variant fits, `binrw` reports its own error; the model reports the error of the last variant or
  `ENoVariant`. Theorems do not depend on which error it is, except where they name it.
* `try_map_polyfill` (src/util.rs:219-229) calls the closure for all items even after an error; the model does so too, which
  matters only for panics.
* Databases (`Db.v`): an iterator is a cursor into the page list. Since the iterator of the crate hands out mutable references, the
  statements about sequences of calls (`trace`) allow arbitrary changes to the pages between calls.
* What a failed `flush` leaves in the file is modelled by `Cut.v` (C79): any bytes in the page that was being written.
* Analysis files (`Anlz.v`): all integers are big endian. Bit fields of waveforms are kept as integers. The encrypted part of a song
  structure is modelled as a read of the decoded bytes; `c43_song_read` shows that this is what reading through `XorStream` does, and
  `c43_write_pieces` the same for writing. `prog` (`Xor.v`) is the type of all programs over a stream, with operations that may depend
  on what was read. Short reads are modelled by the list of sizes that the inner reader delivers.
* `sections_loop` has a bound on the rounds; `c35_ends` shows that it is never reached.

* Settings (`Setting.v`): a value of an option is the name of its variant; the discriminants are computed from the source by Rust's rule.
  The other fields are byte strings, asserted or not. As a check of the model (not a proof), all 82 settings files in `/repo/data` were read
  by the model and written back identically with `vm_compute`; four of them are `Example`s in `PropSetting.v`.
* `crc16` is a crate outside of `/repo`; it is trusted to compute CRC-16/XMODEM. The model's bitwise version is proved to be the
  polynomial remainder (C46).
* `calculate_checksum` serialises again and unwraps; since the assertions on the string lengths come first in field order, the unwrap is not
  reached with strings that are too long. This relies on `binrw` evaluating `calc` at its field.

* Playlists (`Device.v`, `Cli.v`): the recursive functions have a bound on the depth and give `None` when it is reached. A result at one
  depth is the result at all larger depths, so "no result at any depth" is divergence (in the program: a stack overflow).
* Export: the model gives the list of operations on the file system (`create_dir_all`, `File::create` with content). Paths are byte lists, and
  `CliFacts.locate` says where a path leads if there are no symbolic links. `Fs.v` says what the operations do to a file system: a map from
  locations to directories and files, without links, permissions, limits or names that are equal up to case. `create_dir_all` follows the
  standard library (mkdir, on NotFound the parent as `Path::parent` gives it, mkdir again). The relation `run` allows a fault at each
  operation (a directory not or partly made, a file not created or cut), `perform` is the run without faults.
* Listing: the model (`Listing.v`) gives lines with the strings in them, up to a panic of `Display` for strings; `ListText.v` gives their text. A line whose
  printing panics is left out although its beginning may have been printed. `String::from_utf16_lossy` replaces what is not UTF-16 by U+FFFD
  (`utf16_lossy`), written from the documentation of the standard library; the numbers in the remarks are `Debug` of tuple structs, `TrackId(42)`.
* Dump (`Dump.v`): the output is a list of events with the values in them, one for each `println`; a line whose printing panics is left out although its
  beginning may have been printed. Error messages are on another stream; the model keeps them in the order in which they are printed.
* Settings listing (`Show.v`): texts are strings of bytes; the tables of lines, field types, display attributes and documented names were extracted from the
  source by a script. What the derive macro `parse_display::Display` does is trusted: the text of the attribute, or else the name of the variant. Which of
  two attributes on one variant counts is left open (the theorems hold for both).
* XML (`Xml.v`): a document is a tree of elements (tag, attributes, children). What quick-xml 0.40.1 does with serde is trusted, not modelled: a
  struct is offered its attributes first and then its children; neighbouring children of one name form one sequence; an absent option is written as
  an empty attribute unless the field is skipped; an empty attribute is present. Escaping, white space, text content, comments and duplicate attributes are not
  modelled. Tracks and the like are read by a generic reader of attribute lists, driven by a table of the fields of the struct.

## Checks of the model against the crate's test data

These are tests, not proofs; they are the only link from the model to files that real devices wrote. The model was extracted to OCaml in a
scratch directory (with the byte access functions replaced by faster ones) and run on the files in `/repo/data`:

* every settings file and every analysis file is read, and written back byte for byte;
* every `.bin` page of the unit tests is read, and written back byte for byte into an empty buffer;
* the five complete databases are opened, every table is iterated, and `flush` leaves the same bytes;
* the tables of C70 (option, offset, byte) agree with the names of the directories in `data/devsetting`, `data/djmmysetting`, `data/mysetting` and
  `data/mysetting2` and with the bytes in which the files differ (a script compared them);
* the row counts of `data/pdb/num_rows/export.pdb` are the 14 counts that `tests/test_pdb_num_rows.rs` expects.
* the hypotheses of C75, C78, C79, C80, C84, C88, C90 hold of real files: the check of `Check.v` (proved exact, C92) was run on all pages. All 17 pages of the unit tests pass, and
  all pages of the five databases that exist in the file (`dh_next` counts some pages behind the end of the file). Of the data pages all may take rows,
  except those that consist of zeroes only (see Findings). The 2.9 MB database has 680 data pages that may take rows, 20 index pages and 19 pages of zeroes. The pages of every
  table of these files are linked in increasing order.

The unit tests of the crate whose data are literals in the sources were translated into Gallina by a script (values by hand for `string.rs`,
`offset_array.rs` and `anlz.rs`) and hold of the model:

* `ModelTests.v`: the tests of headers and rows of `test_roundtrip.rs`, both directions; the allocation tests of `test_modification.rs`; the tests of
  `string.rs`, of `offset_array.rs` as far as the items are strings, and of `anlz.rs`;
* the 17 page tests of `test_roundtrip.rs` with all their rows, both directions, were checked in the same way in a scratch directory (the file is
  too large for the repository).

## Findings

Behaviour of the code that the proofs brought up. Each is stated in a theorem or an `Example` of the file named.

* A string of 32766 UTF-16 units: writing panics in debug builds, and the predicted size wraps to 0 in release builds (`PropStr.v`, C02, C05).
* A UTF-16 string can be read back as an ISRC string, and ISRC content behind a NUL is dropped (C03, C04).
* A UTF-16 text whose first byte is 3 (U+4E03, for example) is read as ISRC if there is a zero byte anywhere behind it, also in the page of another table, so
  that changing one byte of another page changes the text (`c119_text_refuted`).
* A long string whose length field is below 4 makes the reader panic in debug builds (C07).
* Index pages: more entries than fit make the writer panic; entries with a page index of 2^29 or more lose bits (C15, C16, C17).
* `allocate_row`: sizes above 65528 overflow (panic in debug builds, overlapping rows in release builds); size 0 returns an
  offset that the next allocation gets again; the 13-bit and 11-bit row counters panic when they are full (C21).
* The unused slots of a row group may lie on row bytes and are then read back as arbitrary offsets; equality of groups ignores them (C22).
* Pieces of a page may reach outside of the page (row offsets are not checked), so writing back an unmodified page can need bytes of
  other pages; `c23` therefore speaks about the whole file, `c29` needs `page_inside`.
* An iterator over pages that has returned an error returns errors forever and never `None`; the error can change from a parse error to
  `PageOrderViolation` (C27). A loop that skips errors does not end.
* `load_page` with index 0 panics in debug builds (C28).
* `flush` overwrites the rest of the header page with zeros and the rest of index pages with filler, even if nothing was changed (C31).
  If the header is larger than a page, all pages are written to wrong places (hypothesis of C29).
* Iterating over rows panics if a page of the chain has another type (C32): a corrupt file can crash the reader.
* `XorStream::read` combines the whole buffer of the caller with the key, also the part that the inner reader did not fill. After a short read
  (for example at the edge of a `BufReader`'s buffer) the key is out of step, and everything behind is decoded wrongly (`PropXor.v`, C44).
* The sum of a key byte and the number of phrases is a u16 addition: reading a song structure with more than 65310 phrases, or an encrypted one with more
  than 65285, panics in debug builds (`PropAnlz.v`, C41, C42).
* `total_size < size` in a section header panics in debug builds; in release builds the difference wraps, and sections whose sizes agree only modulo 2^32
  are accepted (C36). Beat grids and cue lists do not look at the sizes at all, headers of cues are not checked.
* The size of the rest of an extended cue is computed from the decoded comment instead of its stored length: with a comment stored without
  terminator (or with more than one) the following entries are read from wrong positions (C38, C113).
* Comments that end with NUL lose it (C37).
* Lists with more than 65535 cues or phrases are written without an error, with a truncated count (C40).
* The checksum of settings files is written but never verified on reading (`PropSetting.v`, C47), though it would detect all errors in a window
  of 16 bits (C48).
* Strings of settings with an interior NUL are cut when read back (C45).
* A playlist folder that is its own ancestor makes `get_playlists` and `list-playlists` recurse until the stack overflows (`PropDevice.v`, `PropCli.v`,
  C53). Only a row that claims id 0, or two rows with one id, can bring this about from the root (C52: distinct ids suffice for termination).
* Rows below a playlist that is no folder are listed by `list-playlists` but missing in `get_playlists`; rows whose parent does not exist are
  dropped silently by both (C52, C62).
* `export-playlists` trusts the names in the database: a leading slash, `..` as a folder or `../` in a name writes outside of the
  output directory (C54). Playlists of one name in one folder overwrite each other (`c54_same_name`).
* Lines of exported playlists: a line feed in the path of a track is written as it is, so a player reads other lines than those of the database (`c89_line_feed_refuted`).
  `Path::display` replaces what is not UTF-8: if a directory above the device has such a name, all lines lead elsewhere (`c89_place_refuted`).
* A track path that begins with two slashes is exported without the export directory (`c55_two_slashes`).
* If the path has no file name (`..`, `/`), the type option is ignored, and the commands end successfully without output (C56).
* `list-playlists` panics at the first name or title that is stored as ASCII but is not UTF-8 (C62).
* `list-playlists` prints names as they are: a name with a line feed shows lines of nodes and tracks that do not exist, and an artist with ` - ` in the name cannot be told
  from the title (`PropListText.v`, `c93_forged_refuted`, `c93_dash_refuted`).
* `sort_order` of playlists and folders is read but not used: siblings are listed and exported in the order in which their rows are stored (`PropOrder.v`, `c96_sort`,
  `c96_sort_refuted`).
* A playlist or folder without children, a collection without tracks and a root without nodes can be written as XML but not read back (`PropXml.v`, C57, C63).
* Most optional attributes of an XML track lack `skip_serializing_if`: an absent text is read back as an empty text, an absent number cannot be read back (C63).
* Unknown attributes of an XML playlist node are an error before the attributes that decide the kind of the node, and ignored behind them (C58).
* Tempos (or position marks) of an XML track with another element in between are an error, not a longer list: quick-xml's feature for overlapped lists is not enabled (C83).
* The XML counts are not compared with the number of children (C59).
* `align_by` with alignment 0 panics, and near the end of the 64-bit range it wraps to 0 in release builds (`PropUtil.v`, C60).
* Columns of tiny waveform previews (PWV2): the getter of the height takes the upper four bits, the documentation of the format puts it in the lower
  four, so the height is always shown as 0. Columns of colour details (PWV5): the two bytes are a big-endian number from the top bits down, but the
  bit field is filled from the least significant bit of the first byte, so the getters return mixtures of red, green, blue and height (`PropFiles.v`, C71).
  "Documented" means the public analysis of the format the crate refers to; nothing in the repository states the bit order. Evidence inside it: all PWV2
  bytes in `/repo/data` are below 16, the two low bits of every big-endian PWV5 value are 0, and `src/pdb/bitfields.rs:75` notes that
  the bit field library starts with the least significant bit. The behaviour of that library is part of the model, not proved.
* `src/setting.rs:856-861`: the attribute `#[display("简体中文")]` stands behind the variant `ChineseSimplified`, so it belongs to `ChineseTraditional`, which
  then has two. `list-settings` shows Simplified Chinese as `ChineseSimplified`, and, if the first attribute counts, Traditional Chinese as Simplified
  (`PropShow.v`, C72). The listing does not end with a line feed.
* `dump-pdb` panics for databases that can be read: `Debug` of an index entry that is neither empty nor valid (src/pdb/mod.rs:300-315 unwraps the page
  index), and of a text stored as ASCII that is not UTF-8 (`PropDump.v`, C73). It exits successfully even if no table could be read.
* Rows can be changed through `&mut`, but nothing checks that they still fit: the end of a longer text is overwritten by the next row when the database is saved,
  or reaches into the footer or the next page; `flush` reports success (`PropRevise.v`, C78).
* A row that is removed from `rows` of a page only is in the file again after `flush`; if its presence flag or `num_rows_valid` is changed as well but not both, `flush` succeeds and the page cannot be read any more. The bytes of deleted rows
  and their slots are never used again, so that a full page without rows still refuses new rows (`PropDelete.v`, C98).
* Rows that were read keep the offsets of their strings when they are written.  A longer title or name, assigned through the public fields, is overwritten by the next string of
  the same row, even if there is room behind the row; no error.  Resetting `offsets` to `Calculated` avoids this (`PropString.v`, C84).
* The sizes in the headers of analysis files are plain fields, and nothing computes them when a file is written.  A program that adds a cue to a list and writes the file gets
  a file that is read without its last sections, without an error; if it removes a beat, or changes the length of a path, waveform or song structure without the sizes, the
  file cannot be read any more (`PropAnlzEdit.v`, C85).
* Names that make `export-playlists` end with an error: a folder called "." when the output directory does not exist, a folder called like the
  file of a playlist beside it ("a" and "a.m3u"), a zero byte in a name. The playlists before it are written, those behind it are not
  (`c86_names_refuted`).
* `export-playlists` prints the path of a playlist before the file is made: the last line of a failed export may name a file that does not exist (`c97_early_refuted`).
  A name with a line feed gives a line that names a file that was never written (`c97_line_feed_refuted`).
* `flush` writes in place, page by page and row by row: a save that is interrupted can leave old and new rows in the same page, and loses the page being written if the
  interruption is within a row or the footer; all other pages stay readable (`PropCut.v`, C79).
* Pages of a table must have increasing numbers for the row iterator (`PageOrder` error): a program that adds a free page in front of the last one to a table runs
  without error, and then the iterator gives no rows of that table (`PropRelink.v`, C80).
* In the databases in `/repo/data`, tables without rows consist of an index page and are followed by a page of zeroes. `allocate_row` refuses every request in such a
  page, because its header says that nothing is free (`c92_blank`): the first row of a table cannot be inserted with `allocate_row` alone.
* An ISRC string ends at its zero byte, and its length field is not looked at, except if there is no zero byte: then the same bytes are read as UTF-16 with that length. If the field
  is wrong, a database file that was cut short can show another text instead of an error (`c103_lengths_refuted`).
* What a deleted row leaves in the file depends on whether the file had been saved between insertion and deletion (`c106_delete_refuted`).
* `flush` writes the header before the pages.  A program that extends a table and saves once can leave a file in which no row of the table can be read, if it is interrupted after
  the header (`c108_one_save_refuted`); two saves, the table in the header last, avoid this (`c108_two_saves`).
* `Database` cannot add pages: raising `next_unused_page` has no effect on the pages of the open database, and saving does not lengthen the file (`c109_header_refuted`); the page has to be
  written separately (`c109_append`).
* `allocate_row` puts the offset of the new slot into the group, but the offset gets lost when the file is saved and opened again before a row is put into this or a later slot: the
  file then has another offset for the unused slot than without the save (`c106_reserve_refuted`).
* `flush` writes every page in memory, also pages that were only read. A program that has looked at a page and saves later undoes what another program has saved to this page in the
  meantime (`c120_shared_refuted`).
* Page sizes below 40 in the header make debug builds panic at every data page; in release builds the size of the heap wraps (`PropRobust.v`, C74), but no rows are shown (C122).
