{"id": "C01", "title": "Loading arbitrary bytes never panics", "statement": "SFrame::load applied to any byte string returns Ok or Err; it never panics, on 64-bit targets in every build profile and on 32-bit targets when overflow checks are off.", "quantifier": "every byte string, both byte orders, every build profile", "why_tests_cant": "the input space is all byte strings; a fuzzer samples it", "anchors": ["crates/sframe/src/read.rs:SFrame::load"]}
{"id": "C02", "title": "Loading accepts exactly the sections whose declared layout fits", "statement": "SFrame::load succeeds iff the string is at least a full header, starts with the magic in the chosen byte order, has version 1 or 2, and the auxiliary header, the FDE table (num_fdes entries of the version's entry size at fdeoff) and the FRE sub-section (fre_len bytes at freoff) all lie inside it; otherwise the error is the documented one (IncorrectEndian for a bad magic, UnsupportedVersion for another version, UnexpectedEof for anything that does not fit).", "quantifier": "every byte string and byte order", "why_tests_cant": "an iff over all byte strings and all 32-bit length/offset fields", "anchors": ["crates/sframe/src/read.rs:SFrame::load", "crates/sframe/src/error.rs:ReadError"]}
{"id": "C03", "title": "Header accessors report the bytes at the specified positions", "statement": "After a successful load, version, flags, abi, fixed offsets, num_fdes, num_fres and raw_aux equal the values stored at the positions the SFrame specification gives them, in the chosen byte order (a fixed offset byte of 0 reads as None).", "quantifier": "every byte string that loads, both byte orders", "why_tests_cant": "all header values and auxiliary headers", "anchors": ["crates/sframe/src/read.rs:SFrame::{version,flags,abi,raw_aux,fixed_fp_offset,fixed_ra_offset,num_fdes,num_fres}", "crates/sframe/src/raw/v2.rs:Header"]}
{"id": "C04", "title": "A section is never read in the wrong byte order", "statement": "A byte string that loads in one byte order is rejected with IncorrectEndian in the other; in particular every built section is.", "quantifier": "every byte string", "why_tests_cant": "all byte strings", "anchors": ["crates/sframe/src/read.rs:SFrame::load", "crates/sframe/src/raw/mod.rs:MAGIC"]}
{"id": "C05", "title": "Bytes after the section do not matter", "statement": "If a byte string loads, the same string followed by any extra bytes loads to the same section contents.", "quantifier": "every loadable byte string and every suffix", "why_tests_cant": "two unbounded byte strings", "anchors": ["crates/sframe/src/read.rs:SFrame::load"]}
{"id": "C06", "title": "A truncated section is rejected", "statement": "Every strict prefix of a section produced by build is rejected by load with UnexpectedEof.", "quantifier": "every builder history, both byte orders, every cut point", "why_tests_cant": "every section times every cut point", "anchors": ["crates/sframe/src/read.rs:SFrame::load", "crates/sframe/src/write.rs:SFrameBuilder::build"]}
{"id": "C07", "title": "The FDE iterator visits every descriptor exactly once in table order", "statement": "For every interleaving of next, next_back and nth, the descriptors delivered are exactly those the slice of num_fdes table entries prescribes (each entry decoded from its table position), and size_hint/len is always the exact number left.", "quantifier": "every loaded section and every finite sequence of iterator calls", "why_tests_cant": "all sections and all call sequences", "anchors": ["crates/sframe/src/read.rs:FuncDescIter", "crates/sframe/src/read.rs:SFrame::fdes"]}
{"id": "C08", "title": "All ways of reaching an FDE give the same rows", "statement": "The FuncDescEntry obtained through nth(n), next_back() or rev() has the same rows as the one obtained by calling next() that many times.", "quantifier": "every loaded section and index", "why_tests_cant": "all sections with a non-zero FRE offset", "anchors": ["crates/sframe/src/read.rs:FuncDescIter::nth", "crates/sframe/src/read.rs:FuncDescIter::next_back"]}
{"id": "C09", "title": "The row iterator is bounded and fused", "statement": "Iterating fres() yields at most num_fres items, at most one of them an error, the error is the last item, and after the end every further call returns None.", "quantifier": "every FDE, every FRE byte string, every number of calls", "why_tests_cant": "all byte strings and call counts", "anchors": ["crates/sframe/src/read.rs:FrameRowIter::next"]}
{"id": "C10", "title": "Row iterator size hints are sound", "statement": "At every point of an iteration, size_hint's lower bound is at most, and its upper bound at least, the number of items still to come.", "quantifier": "every FDE, FRE bytes and iterator state", "why_tests_cant": "all states of the iterator", "anchors": ["crates/sframe/src/read.rs:FrameRowIter::size_hint"]}
{"id": "C11", "title": "Hostile row counts cannot cause unbounded work", "statement": "Whatever num_fres claims (up to 2^32-1), iterating fres() ends after at most half the number of FRE bytes plus one items, and everything decoded comes from the FRE sub-section.", "quantifier": "every FDE header and FRE byte string", "why_tests_cant": "all claimed counts against all byte strings", "anchors": ["crates/sframe/src/read.rs:FrameRowIter", "crates/sframe/src/read.rs:FrameRowEntry::load"]}
{"id": "C12", "title": "Reading the rows of a malformed section returns an error, not a panic", "statement": "Iterating fres() on any loaded section reports malformed rows as Err and never panics.", "quantifier": "every loadable byte string", "why_tests_cant": "all byte strings", "anchors": ["crates/sframe/src/read.rs:FrameRowEntry::load"]}
{"id": "C13", "title": "Row decoding matches the format", "statement": "A decoded row's start offset is the unsigned 1/2/4-byte value selected by the FDE's FRE type, its base register, mangled flag and offset count come from the info byte, its offsets are the sign-extended 1/2/4-byte values that follow, and decoding consumes exactly that many bytes; reserved FRE types, reserved offset sizes, more than 3 offsets and short input give the documented error.", "quantifier": "every FDE and FRE byte string, both byte orders", "why_tests_cant": "all encodings", "anchors": ["crates/sframe/src/read.rs:FrameRowEntry::load"]}
{"id": "C14", "title": "contains is half-open interval membership", "statement": "fde.contains(a) is true exactly when start <= a < start+size in exact arithmetic; with overflow checks on it panics exactly when a - start does not fit an i32.", "quantifier": "every start, size and address", "why_tests_cant": "2^96 input combinations incl. all overflow cases", "anchors": ["crates/sframe/src/read.rs:FuncDescEntry::contains"]}
{"id": "C15", "title": "Address search in an unsorted section finds the first covering FDE", "statement": "When the section is not flagged sorted, fde_for_address(a) returns the first FDE in table order containing a, with that FDE's own rows, and None iff no FDE contains a.", "quantifier": "every loaded section without the sorted flag and every address", "why_tests_cant": "all sections and addresses", "anchors": ["crates/sframe/src/read.rs:SFrame::fde_for_address"]}
{"id": "C16", "title": "Any FDE returned for an address contains it", "statement": "Whenever fde_for_address(a) returns an FDE, it is a table entry and its range contains a, whatever the flags and however the table is ordered.", "quantifier": "every loaded section and address, both standard-library binary search algorithms", "why_tests_cant": "all tables, including unsorted ones flagged sorted", "anchors": ["crates/sframe/src/read.rs:SFrame::fde_for_address"]}
{"id": "C17", "title": "Address search in a sorted section is complete", "statement": "In a section flagged sorted whose FDEs are sorted and disjoint, fde_for_address(a) returns the FDE containing a whenever there is one.", "quantifier": "every sorted disjoint section and covered address", "why_tests_cant": "all table sizes and addresses", "anchors": ["crates/sframe/src/read.rs:SFrame::fde_for_address"]}
{"id": "C18", "title": "The FDE found for an address carries its own rows", "statement": "The rows of the FDE returned by fde_for_address are the rows stored for that FDE.", "quantifier": "every loaded section and address", "why_tests_cant": "all sections", "anchors": ["crates/sframe/src/read.rs:SFrame::fde_for_address", "crates/sframe/src/read.rs:FuncDescIter::nth"]}
{"id": "C19", "title": "Row search outside the function returns None", "statement": "get_fre_for_address(a) returns Ok(None) for every address outside the FDE's range.", "quantifier": "every FDE and address", "why_tests_cant": "all addresses incl. boundaries", "anchors": ["crates/sframe/src/read.rs:FuncDescEntry::get_fre_for_address"]}
{"id": "C20", "title": "Row search returns the row in effect", "statement": "For an address inside a PCINC function whose rows are in ascending order, get_fre_for_address returns the row with the greatest start offset not above the address (for PCMASK, not above the address modulo the block size).", "quantifier": "every FDE, row list and address", "why_tests_cant": "all row lists and addresses", "anchors": ["crates/sframe/src/read.rs:FuncDescEntry::get_fre_for_address"]}
{"id": "C21", "title": "CFA, RA and FP accessors follow the fixed-offset rules", "statement": "cfa_offset is the first stored offset; ra_offset is the section's fixed RA offset if set and else the second; fp_offset is the fixed FP offset if set, else the second stored offset when RA is fixed and the third otherwise; a missing one is MissingFreOffset.", "quantifier": "every row and every section header", "why_tests_cant": "all counts and header combinations", "anchors": ["crates/sframe/src/read.rs:FrameRowEntry::{cfa_offset,ra_offset,fp_offset}"]}
{"id": "C22", "title": "A row's start address is the function start plus its offset", "statement": "fre.start_address() equals the FDE start plus the row offset whenever that fits an i32; otherwise it wraps, or panics when debug assertions are on.", "quantifier": "every FDE start and row offset", "why_tests_cant": "all overflow combinations", "anchors": ["crates/sframe/src/read.rs:FrameRowEntry::start_address"]}
{"id": "C23", "title": "FDE info byte fields are independent", "statement": "Each setter of FdeInfo makes its getter return the value set and changes no other field nor any unused bit, for every starting byte; getters never hit their unreachable arms.", "quantifier": "every byte and every field value", "why_tests_cant": "exhaustive over bytes and all fields", "anchors": ["crates/sframe/src/raw/v2.rs:FdeInfo"]}
{"id": "C24", "title": "FRE info byte fields are independent", "statement": "Each setter of FreInfo makes its getter return the value set and changes no other field, for every starting byte; set_offset_count panics exactly above 15; getters never hit their unreachable arms.", "quantifier": "every byte and every field value", "why_tests_cant": "exhaustive over bytes and all fields", "anchors": ["crates/sframe/src/raw/v2.rs:FreInfo"]}
{"id": "C25", "title": "Info bytes follow the SFrame v2 bit layout", "statement": "The bit positions used for the FDE and FRE info bytes are those of the SFrame version 2 specification (FDE: FRE type bits 0-3, FDE type bit 4, pauth key bit 5; FRE: base register bit 0, offset count bits 1-4, offset size bits 5-6, mangled RA bit 7).", "quantifier": "every info byte", "why_tests_cant": "needs the external format as an oracle over all bytes", "anchors": ["crates/sframe/src/raw/v2.rs:FdeInfo", "crates/sframe/src/raw/v2.rs:FreInfo"]}
{"id": "C26", "title": "row() accepts exactly the admissible rows", "statement": "FuncDescBuilder::row succeeds iff the start is below 0x10000000, below the repeat size if one is set, and below the function size, the RA/FP offsets agree with the fixed ones when those are set, and no row has that start; each failure gives the error documented for the first violated condition.", "quantifier": "every builder history and every row", "why_tests_cant": "all histories and rows", "anchors": ["crates/sframe/src/write.rs:FuncDescBuilder::row"]}
{"id": "C27", "title": "row() adds exactly one row or changes nothing", "statement": "A successful row() adds the given row (with RA/FP offsets equal to the fixed ones dropped) at its start and keeps all other rows; a failing row() leaves the builder unchanged.", "quantifier": "every builder history and row", "why_tests_cant": "all histories", "anchors": ["crates/sframe/src/write.rs:FuncDescBuilder::row"]}
{"id": "C28", "title": "Rows missing a required offset are rejected", "statement": "When no fixed RA (FP) offset is configured, a row with offsets but without an RA (FP) offset is rejected with MissingRaOffset (MissingFpOffset), as the documentation says it must be present.", "quantifier": "every builder and row", "why_tests_cant": "all builders and rows", "anchors": ["crates/sframe/src/write.rs:FrameRowOffsets", "crates/sframe/src/write.rs:FrameRowError"]}
{"id": "C29", "title": "Builder rows always satisfy the format's limits", "statement": "After any sequence of FuncDescBuilder calls, rows have pairwise distinct starts, each below 0x10000000, and build never reaches its unreachable arm; rows equal to fixed offsets are never stored twice.", "quantifier": "every sequence of builder calls", "why_tests_cant": "all call sequences", "anchors": ["crates/sframe/src/write.rs:FuncDescBuilder", "crates/sframe/src/write.rs:SFrameBuilder::build"]}
{"id": "C30", "title": "Adding an FDE replaces only the FDE with the same start", "statement": "SFrameBuilder::fde panics exactly when the FDE's options differ from the section's; otherwise afterwards the builder holds that FDE at its start and all FDEs with other starts as before.", "quantifier": "every builder history and FDE", "why_tests_cant": "all histories", "anchors": ["crates/sframe/src/write.rs:SFrameBuilder::fde"]}
{"id": "C31", "title": "Output does not depend on insertion order", "statement": "Adding rows with distinct starts in any order, or FDEs with distinct starts in any order, gives the same builder and hence the same bytes.", "quantifier": "every permutation of every list of rows / FDEs", "why_tests_cant": "all permutations of all lists", "anchors": ["crates/sframe/src/write.rs:SFrameBuilder", "crates/sframe/src/write.rs:FuncDescBuilder"]}
{"id": "C32", "title": "Overlaps are reported exactly when they exist", "statement": "build returns OverlappingFdes iff the start of some FDE lies inside the range of another; in particular whenever two FDEs share an address.", "quantifier": "every builder history", "why_tests_cant": "the code only compares neighbours; the claim is about all pairs", "anchors": ["crates/sframe/src/write.rs:SFrameBuilder::build", "crates/sframe/src/write.rs:Pairs"]}
{"id": "C33", "title": "build panics only on over-wide gaps in checked builds", "statement": "Without overflow checks build never panics on any reachable builder; with them it panics only if two neighbouring FDE starts are more than i32::MAX apart, so never when all starts are non-negative.", "quantifier": "every builder history, every build profile", "why_tests_cant": "all histories", "anchors": ["crates/sframe/src/write.rs:SFrameBuilder::build"]}
{"id": "C34", "title": "SectionTooLarge is reported exactly when a size field would overflow", "statement": "For a non-overlapping builder build returns SectionTooLarge iff the FRE sub-section or the FDE table is longer than u32::MAX bytes, and otherwise succeeds.", "quantifier": "every builder history", "why_tests_cant": "needs sections above 4 GiB", "anchors": ["crates/sframe/src/write.rs:SFrameBuilder::build"]}
{"id": "C35", "title": "Built sections are canonical", "statement": "A built section is header, then the FDE table in strictly ascending disjoint order, then the FRE rows back to back with nothing in between, padding zero, flagged FDE_SORTED, with counts and lengths equal to the actual ones.", "quantifier": "every builder history, both byte orders", "why_tests_cant": "all histories", "anchors": ["crates/sframe/src/write.rs:SFrameBuilder::build"]}
{"id": "C36", "title": "Function descriptors survive the round trip", "statement": "Loading a built section in the same byte order gives back the flags, ABI, fixed offsets and, in ascending order, each FDE's start, size, type, repeat size, pauth key and row count.", "quantifier": "every builder history, both byte orders", "why_tests_cant": "all histories", "anchors": ["crates/sframe/src/write.rs:SFrameBuilder::build", "crates/sframe/src/read.rs:SFrame::load"]}
{"id": "C37", "title": "Rows survive the round trip", "statement": "Iterating the rows of each loaded FDE gives exactly the rows added (in ascending order): start, base register, mangled flag and the CFA, RA and FP offsets.", "quantifier": "every builder history, both byte orders", "why_tests_cant": "all histories and all offset values", "anchors": ["crates/sframe/src/write.rs:SFrameBuilder::build", "crates/sframe/src/read.rs:FrameRowEntry"]}
{"id": "C38", "title": "The chosen offset width holds every offset of the row", "statement": "The byte width selected for a row's offsets is wide enough that each offset is stored without truncation.", "quantifier": "every triple of i32 offsets", "why_tests_cant": "2^96 triples", "anchors": ["crates/sframe/src/write.rs:FrameRowOffsets::offset_type"]}
{"id": "C39", "title": "Every built section can be read back without panicking", "statement": "Iterating all FDEs and rows of a built section never panics or errors.", "quantifier": "every builder history", "why_tests_cant": "all histories incl. setters called after rows were added", "anchors": ["crates/sframe/src/write.rs:FuncDescBuilder::size", "crates/sframe/src/read.rs:FrameRowEntry::load"]}
{"id": "C40", "title": "Merging identical rows does not change unwinding", "statement": "merge_adjacent_fres leaves, for every address offset, the unwind information in effect (the last row starting at or before it, apart from its start) unchanged.", "quantifier": "every builder history and every offset", "why_tests_cant": "all row lists and addresses", "anchors": ["crates/sframe/src/write.rs:FuncDescBuilder::merge_adjacent_fres"]}
{"id": "C41", "title": "Row merging is minimal, idempotent and terminates", "statement": "After merge_adjacent_fres no two neighbouring rows are identical, the rows kept are a subset of the old ones including the first, merging again changes nothing, and the loop always ends.", "quantifier": "every builder history", "why_tests_cant": "all row lists", "anchors": ["crates/sframe/src/write.rs:FuncDescBuilder::merge_adjacent_fres"]}
{"id": "C42", "title": "Adjacent identical FDEs are merged into a repeated FDE", "statement": "merge_adjacent_fdes merges two FDEs with equal pauth key, size (at most 255) and rows when the second starts where the first ends.", "quantifier": "every pair of adjacent identical FDEs", "why_tests_cant": "all starts and sizes", "anchors": ["crates/sframe/src/write.rs:SFrameBuilder::merge_adjacent_fdes"]}
{"id": "C43", "title": "Merging FDEs does not change unwinding", "statement": "merge_adjacent_fdes leaves the unwind information at every address unchanged.", "quantifier": "every builder history and address", "why_tests_cant": "all FDE tables and addresses", "anchors": ["crates/sframe/src/write.rs:SFrameBuilder::merge_adjacent_fdes"]}
{"id": "C44", "title": "FDE merging terminates and only removes FDEs", "statement": "The merge_adjacent_fdes loop ends on every builder, the first FDE stays first, the surviving starts are a subset of the old ones and rows of survivors are unchanged.", "quantifier": "every builder history, every build profile", "why_tests_cant": "all tables", "anchors": ["crates/sframe/src/write.rs:SFrameBuilder::merge_adjacent_fdes"]}
{"id": "C45", "title": "Section options reach the reader unchanged", "statement": "After any sequence of option setters the built header shows FDE_SORTED, the last frame_pointer value, the last ABI and the last fixed offsets, where setting 0 is the same as None.", "quantifier": "every sequence of option setters", "why_tests_cant": "all sequences", "anchors": ["crates/sframe/src/write.rs:SFrameOptions"]}
{"id": "C46", "title": "The converter labels the section with the right ABI", "statement": "dwarf2sframe sets the ABI identifier from the architecture and the explicit or inferred byte order, INVALID for unsupported pairs, and a fixed RA offset of -8 exactly for little-endian AMD64.", "quantifier": "every architecture, byte order and option", "why_tests_cant": "all combinations, for all inputs", "anchors": ["crates/dwarf2sframe2/src/lib.rs:dwarf2sframe"]}
{"id": "C47", "title": "Row translation is exact or marks the row as having no information", "statement": "A DWARF row with SP- or FP-based CFA, an RA rule of CFA+offset and an FP rule of CFA+offset/same/undefined, all offsets fitting i32, becomes an SFrame row with the same base, offsets and relative start; every other row becomes a row without offsets at the same start.", "quantifier": "every unwind row", "why_tests_cant": "all rule combinations and offsets", "anchors": ["crates/dwarf2sframe2/src/lib.rs:Dwarf2SFrame::convert_row"]}
{"id": "C48", "title": "Conversion covers exactly the functions in .eh_frame", "statement": "On success the builder has one FDE per distinct function start in .eh_frame, with the start and length of the last FDE for that start, and nothing else.", "quantifier": "every .eh_frame entry sequence", "why_tests_cant": "all sequences", "anchors": ["crates/dwarf2sframe2/src/lib.rs:Dwarf2SFrame::convert"]}
{"id": "C49", "title": "Conversion preserves unwinding end to end", "statement": "For every successful conversion of well-formed non-overlapping FDEs, building the section and loading it gives, at every address of every function, the CFA/RA/FP rules of the DWARF row covering it, or no CFA if that row is not representable; and nothing at other addresses.", "quantifier": "every .eh_frame contents, address, byte order and merge option", "why_tests_cant": "all tables and addresses", "anchors": ["crates/dwarf2sframe2/src/lib.rs:dwarf2sframe", "crates/sframe/src/write.rs:SFrameBuilder::build", "crates/sframe/src/read.rs:SFrame"]}
{"id": "C50", "title": "The converter reports bad input as an error, never a panic", "statement": "dwarf2sframe returns Ok or Err for every .eh_frame contents.", "quantifier": "every .eh_frame entry sequence and option", "why_tests_cant": "all inputs", "anchors": ["crates/dwarf2sframe2/src/lib.rs:Dwarf2SFrame::convert"]}
{"id": "C51", "title": "The first unrepresentable entry stops the conversion with its error", "statement": "If any entry fails to parse, or starts or ends beyond i32::MAX, conversion returns the error of the first such entry; on Ok no entry was bad and all were converted.", "quantifier": "every entry sequence", "why_tests_cant": "all sequences", "anchors": ["crates/dwarf2sframe2/src/lib.rs:Dwarf2SFrame::convert", "crates/dwarf2sframe2/src/error.rs"]}
{"id": "C52", "title": "Zero-width rows have no effect", "statement": "Removing every zero-width row from the DWARF tables does not change the result of dwarf2sframe.", "quantifier": "every entry sequence", "why_tests_cant": "all sequences", "anchors": ["crates/dwarf2sframe2/src/lib.rs:Dwarf2SFrame::convert"]}
{"id": "C53", "title": "Merge options are pure optimisations", "statement": "Changing merge_fres or merge_fdes does not change whether conversion succeeds nor the unwind information at any address.", "quantifier": "every entry sequence and address", "why_tests_cant": "all inputs", "anchors": ["crates/dwarf2sframe2/src/lib.rs:Options", "crates/dwarf2sframe2/src/lib.rs:dwarf2sframe"]}
{"id": "C54", "title": "Diagnostics options do not change the result", "statement": "Turning warnings or debugdump on or off does not change the result of dwarf2sframe.", "quantifier": "every entry sequence", "why_tests_cant": "all inputs", "anchors": ["crates/dwarf2sframe2/src/lib.rs:Dwarf2SFrame::warn", "crates/dwarf2sframe2/src/lib.rs:Dwarf2SFrame::convert"]}
{"id": "C55", "title": "The first-generation tool tolerates zero-width rows", "statement": "dwarf2sframe (v1 binary) converts any .eh_frame that dwarf2sframe2 converts.", "quantifier": "every .eh_frame contents", "why_tests_cant": "all inputs", "anchors": ["crates/dwarf2sframe/src/main.rs:main"]}
{"id": "C56", "title": "The first-generation tool never emits a wrong rule", "statement": "Each row the v1 binary emits is either the exact translation of the DWARF row (with FP dropped when its rule is not CFA+offset) or a row without offsets.", "quantifier": "every unwind row", "why_tests_cant": "all rules", "anchors": ["crates/dwarf2sframe/src/main.rs:main"]}
{"id": "C57", "title": "Base addresses are taken from the right sections", "statement": "The text base given to the DWARF parser is the address of .text and the GOT base that of .got.", "quantifier": "every ELF section table", "why_tests_cant": "all section tables", "anchors": ["crates/dwarf2sframe/src/main.rs:main", "crates/dwarf2sframe2/src/main.rs:main"]}
{"id": "C58", "title": "The dwarf2sframe2 tool's output is readable on the target", "statement": "For a supported architecture, the .sframe bytes the tool writes load in the input file's byte order and carry the matching ABI; unsupported architectures and files without .eh_frame are rejected.", "quantifier": "every input file", "why_tests_cant": "all inputs", "anchors": ["crates/dwarf2sframe2/src/main.rs:main"]}
{"id": "C59", "title": "sframedump prints every function and every readable row", "statement": "For a loaded section whose rows do not panic, the dump has one heading per FDE in order, followed by one line per row up to the first undecodable one, with the values the reader reports, and an undecodable row in one function does not suppress later functions.", "quantifier": "every loaded section", "why_tests_cant": "all sections", "anchors": ["crates/sframedump/src/main.rs:dump"]}
{"id": "C60", "title": "The v1 tool labels its output with the input's architecture", "statement": "The ABI byte of the section written by dwarf2sframe (v1 binary) matches the input file's architecture.", "quantifier": "every input file", "why_tests_cant": "all inputs", "anchors": ["crates/dwarf2sframe/src/main.rs:main"]}
{"id": "C61", "title": "Building again what was read gives the same bytes", "statement": "For a section built by the library from rows inside their functions, a reader that takes every option, function and row shown by the reading API and passes them to the builders again gets a builder whose build gives the same bytes.", "quantifier": "every reachable builder, byte order and pair of writing and reading profile", "why_tests_cant": "all builders and row contents", "anchors": ["crates/sframe/src/write.rs:SFrameBuilder::build", "crates/sframe/src/read.rs:SFrame::load"]}
{"id": "C62", "title": "The byte order changes only the representation", "statement": "Building the same builder for the other byte order fails or panics in the same way, and otherwise gives a section of the same length which, read with that byte order, shows the same header values, functions and rows.", "quantifier": "every reachable builder and both byte orders", "why_tests_cant": "all builders", "anchors": ["crates/sframe/src/write.rs:SFrameBuilder::build", "crates/sframe/src/read.rs:SFrame::load"]}
{"id": "C63", "title": "Different contents give different bytes", "statement": "Two builders whose rows mean different things never give the same section.", "quantifier": "every pair of reachable builders", "why_tests_cant": "all pairs of builders", "anchors": ["crates/sframe/src/write.rs:FuncDescBuilder::emit"]}
{"id": "C64", "title": "Size of a section; merging rows never enlarges it", "statement": "A built section has 28 bytes, 20 more per function and 2 to 17 per row, and merging adjacent rows never increases the bytes of a function's rows.", "quantifier": "every reachable builder", "why_tests_cant": "all builders", "anchors": ["crates/sframe/src/write.rs:SFrameBuilder::build", "crates/sframe/src/write.rs:FuncDescBuilder::merge_adjacent_fres"]}
{"id": "C65", "title": "Looking up an address gives what was asked for there", "statement": "In a built and loaded section, looking up an address with fde_for_address and get_fre_for_address gives the unwinding that the builder asked for at that address.", "quantifier": "every reachable builder and address", "why_tests_cant": "all builders and addresses", "anchors": ["crates/sframe/src/read.rs:SFrame::fde_for_address", "crates/sframe/src/read.rs:FuncDescEntry::get_fre_for_address"]}
{"id": "C66", "title": "Version 1 mask rows are searched by mask", "statement": "The kind of a function follows from the version of its descriptor and bit 3 of its info byte; in a version 1 mask function get_fre_for_address returns the first row all of whose start bits are set in the offset of the address, none if there is none, or the first decoding error, and does not panic.", "quantifier": "every version 1 descriptor, row list and address in its range", "why_tests_cant": "all row lists and addresses", "anchors": ["crates/sframe/src/read.rs:FuncDescEntry::get_fre_for_address", "crates/sframe/src/read.rs:FuncDescEntry::fdetype"]}
{"id": "C67", "title": "The text of sframedump can be read back", "statement": "Splitting what sframedump writes to standard output into lines and words, and reading its numbers, gives back the header fields, the functions in order and the rows of each with their addresses, offsets and flags; standard error has one line per row decoding error, in order. Two sections give the same text exactly if the same is shown of them.", "quantifier": "every section that loads", "why_tests_cant": "all sections and all values of every field", "anchors": ["crates/sframedump/src/main.rs:dump"]}
{"id": "C68", "title": "The cells of a row stand under their headings", "statement": "In the output of sframedump the cells of each row begin in the column in which the headings CFA, FP and RA begin.", "quantifier": "every row", "why_tests_cant": "all offsets", "anchors": ["crates/sframedump/src/main.rs:dump"]}
{"id": "C69", "title": "Different errors have different messages", "statement": "No two different values of ReadError, of FrameRowError or of EmitError print the same text.", "quantifier": "every pair of errors", "why_tests_cant": "all payloads", "anchors": ["crates/sframe/src/error.rs:ReadError", "crates/sframe/src/write.rs:FrameRowError", "crates/sframe/src/write.rs:EmitError"]}
{"id": "C70", "title": "An error message is true of the refused input", "statement": "When the writer refuses a row or the converter a section, what the message says of the refused value is the case, and a value for which a message is meant is refused.", "quantifier": "every reachable function builder and row; every .eh_frame contents", "why_tests_cant": "all rows at all limits", "anchors": ["crates/sframe/src/write.rs:FuncDescBuilder::row", "crates/dwarf2sframe2/src/error.rs:Error"]}
{"id": "C71", "title": "One warning for each row left without information", "statement": "With warnings on, a conversion prints, in order, exactly one warning for each row that covers an address and cannot be represented, naming the function's address and the row's offset; with warnings off it prints none; printing does not change the result.", "quantifier": "every .eh_frame contents, option, build mode and text of gimli; conversions that fail included", "why_tests_cant": "all mixtures of representable and unrepresentable rows", "anchors": ["crates/dwarf2sframe2/src/lib.rs:Dwarf2SFrame::warn", "crates/dwarf2sframe2/src/lib.rs:Dwarf2SFrame::convert"]}
{"id": "C72", "title": "The reason a warning gives is true", "statement": "What a warning says of the row (a register, an offset, a rule) is the case for that row.", "quantifier": "every .eh_frame contents and text of gimli", "why_tests_cant": "all rules and offsets", "anchors": ["crates/dwarf2sframe2/src/lib.rs:Dwarf2SFrame::convert_row", "crates/dwarf2sframe2/src/display.rs:RegisterRule"]}
{"id": "C73", "title": "Different rules look different in a warning", "statement": "Two different register rules never print the same text.", "quantifier": "every pair of rules, if names of gimli are unambiguous", "why_tests_cant": "all pairs of rules", "anchors": ["crates/dwarf2sframe2/src/display.rs:RegisterRule"]}
{"id": "C74", "title": "The warnings for one function line up", "statement": "The messages of all warnings for one function begin in the same column.", "quantifier": "every .eh_frame contents", "why_tests_cant": "all function lengths", "anchors": ["crates/dwarf2sframe2/src/lib.rs:Dwarf2SFrame::warn"]}
{"id": "C75", "title": "The debug dump shows every function, instruction and row", "statement": "From the debug dump the start, length and end of every function, the name and operands of every instruction, a line for each operation of an expression, and the bounds, CFA and register rules of every row (zero-width ones too) can be read back; without the option nothing is printed to stdout.", "quantifier": "every .eh_frame contents, every text of gimli that does not look like the dump's own lines", "why_tests_cant": "all tables and instruction sequences", "anchors": ["crates/dwarf2sframe2/src/lib.rs:Dwarf2SFrame::convert", "crates/dwarf2sframe2/src/dump.rs:dump_cfi_instructions"]}
{"id": "C76", "title": "The debug dump calls operations by their DWARF names", "statement": "Each operation of an expression is shown, indented, under a name that DWARF has for it.", "quantifier": "every .eh_frame contents", "why_tests_cant": "all operations", "anchors": ["crates/dwarf2sframe2/src/dump.rs:dump_expression"]}
{"id": "C77", "title": "Different expressions are dumped differently", "statement": "Two expressions with different operations never have the same dump.", "quantifier": "every pair of expressions, if names of gimli are unambiguous", "why_tests_cant": "all expressions", "anchors": ["crates/dwarf2sframe2/src/dump.rs:dump_expression"]}
{"id": "C78", "title": "Builder setters change one thing, and the last call wins", "statement": "After any sequence of calls on a function builder or on the converter's options, each setting has the value of the last call that sets it, or its documented default; setters never touch rows, and the row constructors fill in exactly what their names say.", "quantifier": "every sequence of calls with any arguments", "why_tests_cant": "all call sequences", "anchors": ["crates/sframe/src/write.rs:FuncDescBuilder", "crates/sframe/src/write.rs:RowBuilder", "crates/dwarf2sframe2/src/lib.rs:Options"]}
{"id": "C79", "title": "The parser is set up for the file's architecture", "statement": "The address size and the vendor given to gimli are those of the input file's architecture.", "quantifier": "every architecture, every build", "why_tests_cant": "all architectures and hosts", "anchors": ["crates/dwarf2sframe2/src/main.rs:main", "crates/dwarf2sframe/src/main.rs:main", "crates/dwarf2sframe/src/bin/dwarfdump.rs:dump_file"]}
{"id": "C80", "title": "Signed return addresses are marked", "statement": "Where DWARF says that the return address is signed, the SFrame row has its mangled bit set.", "quantifier": "every .eh_frame contents", "why_tests_cant": "all inputs", "anchors": ["crates/dwarf2sframe2/src/lib.rs:Dwarf2SFrame::convert_row"]}
{"id": "C81", "title": "Frames whose return address is in the link register are converted", "statement": "A row whose return address is still in the link register (leaf functions and prologues on AArch64) is converted to an SFrame row without RA offset.", "quantifier": "every AArch64 .eh_frame contents", "why_tests_cant": "all inputs", "anchors": ["crates/dwarf2sframe2/src/lib.rs:Dwarf2SFrame::convert_row"]}
{"id": "C82", "title": "--no-opt keeps every row, otherwise no row is redundant", "statement": "The flags of dwarf2sframe2 reach the converter as documented. With --no-opt each DWARF row of non-zero width has its own row in the output; without it no two neighbouring rows of a function have the same contents.", "quantifier": "every file and every combination of flags", "why_tests_cant": "all tables", "anchors": ["crates/dwarf2sframe2/src/main.rs:main", "crates/dwarf2sframe2/src/lib.rs:Dwarf2SFrame::convert"]}
{"id": "C83", "title": "The first converter reports input it cannot decode", "statement": "Input that dwarf2sframe (v1) cannot decode makes it print an error; it does not panic.", "quantifier": "every file, every build profile", "why_tests_cant": "all inputs", "anchors": ["crates/dwarf2sframe/src/main.rs:main", "crates/dwarf2sframe/src/fmthelp.rs:RegisterRule::fmt"]}
{"id": "C84", "title": "The first converter reports exactly the rows it drops", "statement": "dwarf2sframe (v1) writes to standard error one message for each row it leaves without information, and nothing else.", "quantifier": "every file", "why_tests_cant": "all inputs", "anchors": ["crates/dwarf2sframe/src/main.rs:main"]}
{"id": "C85", "title": "The first converter names registers by the file's architecture", "statement": "The registers in the output of dwarf2sframe (v1) have the names of the architecture of the file.", "quantifier": "every architecture, every table of names", "why_tests_cant": "all architectures", "anchors": ["crates/dwarf2sframe/src/main.rs:register_name", "crates/dwarf2sframe/src/fmthelp.rs:RegisterRule::regname"]}
{"id": "C86", "title": "The first converter's dump is complete", "statement": "The standard output of a successful run of dwarf2sframe (v1) lists the sections looked up, and every function with its range, instructions and rows. A row has a line about SFrame exactly if it can be represented, with the right offsets. A run that fails has printed this for the functions in front. What is printed has no influence on the result.", "quantifier": "every file", "why_tests_cant": "all inputs", "anchors": ["crates/dwarf2sframe/src/main.rs:main", "crates/dwarf2sframe/src/dump.rs:dump_cfi_instructions", "crates/dwarf2sframe/src/fmthelp.rs:dump_expression"]}
{"id": "C87", "title": "The first converter's dump tells expressions apart", "statement": "If two files with the same architecture and sections give the same standard output, then their functions have the same ranges, and the expressions at the same places of instructions, CFAs and rules have the same operations, including operand types.", "quantifier": "every pair of files", "why_tests_cant": "all pairs of inputs", "anchors": ["crates/dwarf2sframe/src/fmthelp.rs:dump_expression", "crates/dwarf2sframe/src/dump.rs:dump_cfi_instructions"]}
{"id": "C88", "title": "dwarfdump shows every entry", "statement": "The output of dwarfdump can be read back: it has all CIEs and FDEs in order, each with all its fields, instructions and operations, up to the first entry that cannot be shown; if the program succeeds and reports nothing, that is all entries.", "quantifier": "every file and build", "why_tests_cant": "all files", "anchors": ["crates/dwarf2sframe/src/bin/dwarfdump.rs:dump_eh_frame", "crates/dwarf2sframe/src/bin/dwarfdump.rs:dump_cfi_instructions", "crates/dwarf2sframe/src/bin/dwarfdump.rs:dump_pointer"]}
{"id": "C89", "title": "The exit status of dwarfdump tells whether the dump is complete", "statement": "dwarfdump succeeds only if it has printed all entries of the section.", "quantifier": "every file and build", "why_tests_cant": "all files", "anchors": ["crates/dwarf2sframe/src/bin/dwarfdump.rs:main"]}
{"id": "C90", "title": "dwarfdump does not panic", "statement": "Whatever it is given, dwarfdump ends with success or an error message.", "quantifier": "every argument, file and build", "why_tests_cant": "all inputs", "anchors": ["crates/dwarf2sframe/src/bin/dwarfdump.rs:main", "crates/dwarf2sframe/src/bin/dwarfdump.rs:dump_file", "crates/dwarf2sframe/src/bin/dwarfdump.rs:dump_eh_frame"]}
{"id": "C91", "title": "dwarfdump names registers by the file's architecture", "statement": "The registers in the output of dwarfdump have the names of the architecture of the file.", "quantifier": "every architecture, every table of names", "why_tests_cant": "all architectures", "anchors": ["crates/dwarf2sframe/src/bin/dwarfdump.rs:dump_eh_frame"]}
{"id": "C92", "title": "A malformed entry does not hide the others", "statement": "dwarfdump shows all FDEs of the section even if one of them is malformed.", "quantifier": "every file and build", "why_tests_cant": "all files", "anchors": ["crates/dwarf2sframe/src/bin/dwarfdump.rs:dump_eh_frame", "crates/dwarf2sframe/src/bin/dwarfdump.rs:dump_expression"]}
{"id": "C93", "title": "dwarfdump tells entries apart", "statement": "If two files have the same dump, they have the same CIEs and FDEs, as far as these are printed.", "quantifier": "every pair of files", "why_tests_cant": "all pairs of files", "anchors": ["crates/dwarf2sframe/src/bin/dwarfdump.rs:dump_eh_frame", "crates/dwarf2sframe/src/bin/dwarfdump.rs:dump_cfi_instructions"]}
{"id": "C94", "title": "A stack is walked with the converted section as with DWARF", "statement": "Unwinding a stack step by step with a section made by dwarf2sframe2 visits the same return addresses, stack pointers and frame pointers as unwinding it by the rules of .eh_frame. It ends early only at a row that SFrame cannot express.", "quantifier": "every .eh_frame that is converted, every build, and every memory, register content and walk of any length", "why_tests_cant": "all memories and walks", "anchors": ["crates/dwarf2sframe2/src/lib.rs:convert_row", "crates/sframe/src/read.rs:FrameRowEntry"]}
{"id": "C95", "title": "A stack is walked with a section of the first tool as with DWARF", "statement": "Unwinding a stack step by step with a section made by the first-generation tool visits the same return addresses, stack pointers and frame pointers as unwinding it by the rules of .eh_frame, and ends early only at a row that SFrame cannot express.", "quantifier": "every x86-64 .eh_frame that is converted, every build, and every memory, register content and walk of any length", "why_tests_cant": "all memories and walks", "anchors": ["crates/dwarf2sframe/src/main.rs:main", "crates/sframe/src/read.rs:FrameRowEntry"]}
{"id": "C96", "title": "Both converters produce equivalent sections", "statement": "For an x86-64 .eh_frame that both converters accept, the two sections give an unwinder the same at every address.", "quantifier": "every .eh_frame that both accept, every build, byte order and address", "why_tests_cant": "all inputs and addresses", "anchors": ["crates/dwarf2sframe/src/main.rs:main", "crates/dwarf2sframe2/src/lib.rs:convert_row"]}
{"id": "C97", "title": "Different errors of the converter have different messages", "statement": "No two different values of dwarf2sframe2's Error print the same text (given that gimli's errors do not).", "quantifier": "every pair of errors", "why_tests_cant": "all payloads", "anchors": ["crates/dwarf2sframe2/src/error.rs:Error"]}
{"id": "C98", "title": "The reader's messages are true of the rejected bytes", "statement": "When a section or a row is rejected, what the message says of the bytes is the case: the byte order, the version, the FRE type, the width and number of offsets, the missing bytes; and what it calls expected is what is accepted.", "quantifier": "every byte string and function descriptor", "why_tests_cant": "all bytes", "anchors": ["crates/sframe/src/error.rs:ReadError", "crates/sframe/src/read.rs:SFrame::load", "crates/sframe/src/read.rs:FrameRowEntry::load"]}
{"id": "C99", "title": "The messages of build are true of the builder", "statement": "When build fails with a message that functions cover the same addresses, two functions share an address; when it says the section would be too large, the rows or the table exceed what the header can express.", "quantifier": "every builder history", "why_tests_cant": "all builders", "anchors": ["crates/sframe/src/write.rs:EmitError", "crates/sframe/src/write.rs:SFrameBuilder::build"]}
{"id": "C100", "title": "Formatting a loaded section with {:?} does not panic", "statement": "Formatting any section that load accepted with {:?} or {:#?} ends normally.", "quantifier": "every accepted byte string, byte order and layout", "why_tests_cant": "all sections", "anchors": ["crates/sframe/src/read.rs:Debug for SFrame", "crates/sframe/src/read.rs:Debug for FuncDescEntry"]}
{"id": "C101", "title": "Debug output can be read back in both layouts", "statement": "From the text of {:?} or {:#?} of a section a reader that knows only the syntax recovers version, flags, ABI, fixed offsets, counts, and of every function start, size, kind, pauth key, repeat size, row count, row offset and all rows or errors, as the accessors and iterators report them.", "quantifier": "every accepted byte string, byte order, layout and texts of other crates' types", "why_tests_cant": "all sections", "anchors": ["crates/sframe/src/read.rs:Debug for SFrame", "crates/sframe/src/read.rs:Debug for FuncDescEntry", "crates/sframe/src/read.rs:Debug for FrameRowEntry"]}
{"id": "C102", "title": "Sections that print the same answer every lookup the same", "statement": "If two sections have the same debug output then looking up any address gives the same function and the same row or error in both.", "quantifier": "every pair of accepted byte strings and every address", "why_tests_cant": "pairs of sections", "anchors": ["crates/sframe/src/read.rs:Debug for SFrame", "crates/sframe/src/read.rs:SFrame::fde_for_address", "crates/sframe/src/read.rs:FuncDescEntry::get_fre_for_address"]}
{"id": "C103", "title": "Sections that print the same look the same to every accessor", "statement": "If two sections have the same debug output then every accessor gives the same for both.", "quantifier": "every pair of accepted byte strings", "why_tests_cant": "pairs of sections", "anchors": ["crates/sframe/src/read.rs:Debug for SFrame", "crates/sframe/src/read.rs:SFrame::raw_aux"]}
{"id": "C104", "title": "The debug output of an FRE info byte says what each bit says", "statement": "From the debug output of FreInfo the base register, offset count, offset size and mangled bit can be read back, so different info bytes print differently.", "quantifier": "every info byte and layout", "why_tests_cant": "all 256 bytes in both layouts, by an independent reader", "anchors": ["crates/sframe/src/raw/v2.rs:Debug for FreInfo"]}
{"id": "C105", "title": "The repository's own tests pass on every target", "statement": "Transcribed into the model, the tests in tests/roundtrip.rs, in raw/v2.rs and in bpfunwind pass.", "quantifier": "for every build profile (overflow checks, debug assertions), pointer width, binary search of the standard library, and native byte order", "why_tests_cant": "a test run exercises one build profile on one machine", "anchors": ["crates/sframe/tests/roundtrip.rs:6-135", "crates/sframe/src/raw/v2.rs:322-356", "crates/bpfunwind/src/lib.rs:1-14"]}
{"id": "C106", "title": "Mixed iteration delivers every descriptor at most once, in its place", "statement": "Whatever mix of next, next_back and nth is called on the descriptor iterator, the calls deliver the descriptors at the positions that a double-ended queue over the table would deliver, none twice; once a call finds nothing left, so do all later ones; and the size hint is exactly the number of descriptors not yet passed.", "quantifier": "for all sections and all sequences of calls with any arguments", "why_tests_cant": "the number of call sequences is unbounded", "anchors": ["crates/sframe/src/read.rs:723-772"]}
{"id": "C107", "title": "A search in a sorted section looks at few descriptors", "statement": "In a section marked as sorted, the outcome of fde_for_address depends on at most ceil(log2 n) + 1 of the n descriptors: all others could be replaced without changing what is found.", "quantifier": "for all sections marked as sorted, all addresses, both binary search algorithms of the standard library", "why_tests_cant": "a test measures time on particular sections; the bound must hold for hostile ones too", "anchors": ["crates/sframe/src/read.rs:173-214"]}
{"id": "C108", "title": "If sframedump succeeds, its whole output has been written", "statement": "When sframedump exits with success, standard output has taken the complete dump.", "quantifier": "for all sections, all behaviours of standard output (any call may take part of the text, take nothing, or fail), and any splitting of lines into writes", "why_tests_cant": "needs a standard output that fails at chosen moments, and every moment behaves differently", "anchors": ["crates/sframedump/src/main.rs:58-66", "crates/sframedump/src/main.rs:113-117"]}
{"id": "C109", "title": "sframedump's complaints stand where they belong", "statement": "When a message about an undecodable row appears on stderr, standard output has received exactly what was printed before it and has been flushed; when the program panics, the lines of all functions before the offending one have been printed.", "quantifier": "for all sections, build profiles, behaviours of standard output and splittings of lines", "why_tests_cant": "interleaving of two streams depends on buffering and on how much each write takes", "anchors": ["crates/sframedump/src/main.rs:94-153"]}
{"id": "C110", "title": "dwarfdump never loses output silently", "statement": "If dwarfdump prints no message on stderr and does not panic, the dump was successful and standard output has received all of it and was flushed. Otherwise there is exactly one message, it is the last thing printed, it names an I/O error only if standard output refused something and a gimli error only if the dump failed.", "quantifier": "for all files, build profiles, behaviours of standard output and splittings of lines", "why_tests_cant": "needs failing outputs at every position", "anchors": ["crates/dwarf2sframe/src/bin/dwarfdump.rs:58-81", "crates/dwarf2sframe/src/bin/dwarfdump.rs:102-116"]}
{"id": "C111", "title": "A converter leaves its output file complete or as it was", "statement": "After a run of either converter the output file contains the complete object, or what it contained before.", "quantifier": "for all inputs, all results of the conversion, and all ways in which opening or writing the file can fail", "why_tests_cant": "disk-full conditions at each byte", "anchors": ["crates/dwarf2sframe2/src/main.rs:104-113", "crates/dwarf2sframe/src/main.rs:340-349"]}
{"id": "C112", "title": "A failure to print is not blamed on the input", "statement": "If standard output cannot be written, the converters do not report that the DWARF input is invalid.", "quantifier": "for all inputs, options and failures of standard output", "why_tests_cant": "needs a standard output that fails at each line", "anchors": ["crates/dwarf2sframe2/src/lib.rs:206-224", "crates/dwarf2sframe2/src/dump.rs:7-30", "crates/dwarf2sframe/src/main.rs:134-143", "crates/dwarf2sframe/src/dump.rs:5-30"]}
{"id": "C113", "title": "A function is read from its own bytes", "statement": "What the reader says about a function depends only on the header, on the function's descriptor and on the bytes of the rows that descriptor names; a search for an address depends on no row after the one it returns.", "quantifier": "for all pairs of loadable sections (both versions, both byte orders) that agree on those bytes, all function indices and all addresses, in every build profile", "why_tests_cant": "needs pairs of inputs that agree on some bytes and differ arbitrarily elsewhere", "anchors": ["crates/sframe/src/read.rs:707-757", "crates/sframe/src/read.rs:774-825", "crates/sframe/src/read.rs:399-443", "crates/sframe/src/read.rs:520-615"]}
{"id": "C114", "title": "Damage to one function leaves the others alone", "statement": "When bytes of one function's descriptor or rows in a built section are overwritten, the section still loads and iterating over it still delivers all other functions unchanged, with the same rows and the same answers for addresses.", "quantifier": "for all builder states, all functions, all overwrites confined to that function's descriptor and rows, both byte orders, every build profile", "why_tests_cant": "every overwrite of every function would have to be tried", "anchors": ["crates/sframe/src/read.rs:26-120", "crates/sframe/src/read.rs:707-757", "crates/sframe/src/write.rs:165-270"]}
{"id": "C115", "title": "Damage to one function's rows does not reach look-ups in the others", "statement": "Looking up an address of a function gives the same row, whatever is written over the rows of another function.", "quantifier": "for all builder states, all functions, all overwrites confined to one function's rows, all addresses", "why_tests_cant": "every overwrite of every function would have to be tried with every address", "anchors": ["crates/sframe/src/read.rs:173-214", "crates/sframe/src/read.rs:737-755"]}
{"id": "C116", "title": "A section says the same in version 1 and in version 2", "statement": "When a version 1 section and a version 2 section hold the same header values, descriptors and row bytes, the reader delivers the same functions and rows from both and finds the same function for every address; for functions that are not repeated blocks it also finds the same row for every address.", "quantifier": "for all pairs of loadable sections related in this way, both byte orders, all addresses, every build profile", "why_tests_cant": "needs pairs of sections in two versions of the format; the repository's tests contain no version 1 section", "anchors": ["crates/sframe/src/read.rs:26-120", "crates/sframe/src/read.rs:220-309", "crates/sframe/src/read.rs:399-443"]}
{"id": "C117", "title": "The order of the .eh_frame entries does not matter", "statement": "Two .eh_frame sections with the same functions in a different order, and CIEs anywhere, convert to the same section, as long as the function that comes last for each start address is the same.", "quantifier": "for all pairs of sections related in this way, all options of the converter, both converters, every build profile", "why_tests_cant": "the number of orders grows factorially; the tests convert fixed inputs in one order", "anchors": ["crates/dwarf2sframe2/src/lib.rs:142-318", "crates/sframe/src/write.rs:89-103", "crates/dwarf2sframe/src/main.rs:81-316"]}
{"id": "C118", "title": "Every function is converted on its own", "statement": "What is built for a function, and what a reader then finds for it, depends on that function's own entry and not on the other functions of the section; converting two sections one after the other gives the union of their results.", "quantifier": "for all pairs of sections containing the same function, all options with the same byte order, both converters, every build profile", "why_tests_cant": "needs every function in every company", "anchors": ["crates/dwarf2sframe2/src/lib.rs:186-442", "crates/sframe/src/write.rs:165-345", "crates/dwarf2sframe/src/main.rs:98-313"]}
{"id": "C119", "title": "Moving a program changes only the start addresses", "statement": "Adding the same distance to every address of the DWARF adds it to the starts of the functions built and changes nothing else; the built sections differ only in the bytes of the start addresses and read back as the moved section.", "quantifier": "for all sections and builders, all distances that keep the starts in range, both byte orders, both converters, every build profile", "why_tests_cant": "needs all distances; the tests have fixed addresses", "anchors": ["crates/dwarf2sframe2/src/lib.rs:186-442", "crates/sframe/src/write.rs:165-345", "crates/dwarf2sframe/src/main.rs:98-313"]}
{"id": "C120", "title": "Lookups in a moved section give the moved answers", "statement": "When every start address of a section is moved by the same distance, every lookup at an address moved likewise gives the same result: the same function and row up to the distance, the same unwind information, the same miss, error or panic.", "quantifier": "for all sections, both versions and byte orders, sorted or not, all addresses and distances that stay in range, every build profile", "why_tests_cant": "needs all distances and all addresses, for sections no builder makes as well", "anchors": ["crates/sframe/src/read.rs:173-214", "crates/sframe/src/read.rs:380-443", "crates/sframe/src/read.rs:618-635"]}
{"id": "C121", "title": "Tables that say the same convert to the same section", "statement": "Two unwind tables that give the same rule at every address convert to the same section when rows are merged, however they are cut into rows.", "quantifier": "for all pairs of sections whose functions say the same at every address, without gaps or overlaps between rows, both architectures, both converters, every build profile", "why_tests_cant": "needs all ways of cutting every table", "anchors": ["crates/dwarf2sframe2/src/lib.rs:186-442", "crates/sframe/src/write.rs:408-446", "crates/dwarf2sframe/src/main.rs:98-313"]}
{"id": "C122", "title": "A section says what the call frame programs say", "statement": "At every address of a described function, the built section, when read, gives the unwind rule that the DWARF standard assigns to the function's call frame program at that address, as far as SFrame can express it, and nothing else; outside the functions it gives nothing. Rows whose offsets are confused when read (C49) are excepted.", "quantifier": "for all .eh_frame sections and call frame programs, every address, both architectures and byte orders, both converters, every build profile", "why_tests_cant": "needs every program and every address; the tests look at a few converted binaries and never evaluate a program", "anchors": ["crates/dwarf2sframe2/src/lib.rs:142-442", "crates/sframe/src/write.rs:165-345", "crates/sframe/src/read.rs:173-443", "crates/dwarf2sframe/src/main.rs:81-316"]}
{"id": "C123", "title": "Programs with the same effect convert to the same section", "statement": "Two .eh_frame sections whose call frame programs have the same effect at every address convert to the same section when rows are merged, whatever instructions the programs consist of.", "quantifier": "for all pairs of sections with programs of the same effect, both architectures, both converters, every build profile", "why_tests_cant": "needs all pairs of equivalent programs", "anchors": ["crates/dwarf2sframe2/src/lib.rs:142-442", "crates/sframe/src/write.rs:408-446", "crates/dwarf2sframe/src/main.rs:81-316"]}
{"id": "C124", "title": "Ordinary programs are converted, all the way", "statement": "If all functions lie below 2 GiB, are at most 256 MiB long, do not overlap and have call frame programs a section can describe, and there are not too many of them for the header's 32-bit sizes, the conversion succeeds, the build succeeds, the section loads, and it says what the programs say (except for rows whose offsets are confused when read, C49).", "quantifier": "for all .eh_frame sections of this kind, both architectures and byte orders, both converters, every build profile", "why_tests_cant": "success for all inputs of a class cannot be tested; the tests convert a few binaries", "anchors": ["crates/dwarf2sframe2/src/lib.rs:142-442", "crates/sframe/src/write.rs:89-345", "crates/sframe/src/read.rs:60-443", "crates/dwarf2sframe/src/main.rs:81-316"]}
{"id": "C125", "title": "A section is no larger than its DWARF warrants", "statement": "A converted section has at most as many functions and rows as the DWARF has, and its size in bytes is at most 28 plus 20 per function plus 17 per row.", "quantifier": "for all .eh_frame sections that convert, all options of the converter, both converters, every build profile", "why_tests_cant": "needs all inputs; the tests compare no sizes", "anchors": ["crates/dwarf2sframe2/src/lib.rs:186-442", "crates/sframe/src/write.rs:89-345", "crates/dwarf2sframe/src/main.rs:98-313"]}
{"id": "C126", "title": "The dump of a converted file shows what the DWARF says", "statement": "Converting an object file and dumping the result prints a text that, at every address of a described function, shows the unwind rule the DWARF standard assigns to the function's call frame program there, as far as SFrame can express it, and nothing else; at addresses outside the functions the text shows nothing, and nothing is reported on stderr. For ordinary programs every step succeeds.", "quantifier": "for all object files whose functions end below 2 GiB and whose offsets are not confused when read (C49), every address, all flags of the converter, both converters, both byte orders, every build profile of either tool", "why_tests_cant": "needs every program and every address, and the tools run one after the other; no test dumps what it converted", "anchors": ["crates/dwarf2sframe2/src/main.rs:30-114", "crates/dwarf2sframe2/src/lib.rs:142-442", "crates/sframe/src/write.rs:165-345", "crates/sframe/src/read.rs:60-443", "crates/sframedump/src/main.rs:1-156", "crates/dwarf2sframe/src/main.rs:32-316"]}
{"id": "C127", "title": "dump-dirlibs.sh converts every program it finds, once, under its own path", "statement": "The runs of convert are exactly the object files, executables and libraries among the files find prints, each once and under the path find printed.", "quantifier": "for all directories and paths, every order in which xargs -P runs print_if_lib, every result of the tools", "why_tests_cant": "the script has no tests; paths with special characters and orders of parallel runs cannot be enumerated", "anchors": ["dump-dirlibs.sh:8-25", "dump-dirlibs.sh:49-55"]}
{"id": "C128", "title": "dump-dirlibs.sh keeps the results of different programs apart", "statement": "After the script has ended, the output files of every program are what its own run of convert leaves when run alone.", "quantifier": "for all directories, every interleaving of the parallel runs, every result of the tools", "why_tests_cant": "interleavings cannot be enumerated, and the script has no tests", "anchors": ["dump-dirlibs.sh:27-44", "dump-dirlibs.sh:52-55"]}
{"id": "C129", "title": "Exit status 0 of dump-dirlibs.sh means that every program was converted", "statement": "If the script exits with status 0, every program found has its log, object file, both dumps and disassembly in the output directory, and all tools succeeded on it.", "quantifier": "for all directories, every interleaving of the parallel runs, every result of the tools", "why_tests_cant": "needs all directories and tool results; the script has no tests", "anchors": ["dump-dirlibs.sh:8-55"]}
{"id": "C130", "title": "What dump-dirlibs.sh leaves in its directory is of this run", "statement": "Every output file of a converted program that is there after the script has ended was written by this run.", "quantifier": "for all directories, every previous content of the output directory, every interleaving, every result of the tools", "why_tests_cant": "needs all previous contents; the script has no tests", "anchors": ["dump-dirlibs.sh:27-44", "dump-dirlibs.sh:49"]}
{"id": "C131", "title": "The dumps dump-dirlibs.sh leaves show what the DWARF says", "statement": "For a program that converts, the .sframe file shows, at every address of a described function, the unwind rule the DWARF standard assigns to its call frame program there, and nothing else.", "quantifier": "for all directories with paths without special characters and with different last components, every interleaving, every program whose functions end below 2 GiB and whose offsets are not confused when read (C49)", "why_tests_cant": "needs every program, address and interleaving; the script has no tests", "anchors": ["dump-dirlibs.sh:27-55", "crates/dwarf2sframe2/src/main.rs:30-114", "crates/sframedump/src/main.rs:1-156"]}
{"id": "C132", "title": "An unwinder that follows the specification finds in a built section what was asked for", "statement": "At every address an unwinder written from the SFrame version 2 specification finds in a built section the unwind rule and the key the builder was given for it, and nothing where the builder was given nothing.", "quantifier": "for all builders the public interface can make, byte orders, addresses", "why_tests_cant": "needs every section, address and builder, and an unwinder written from the specification; the tests only read sections with this library", "anchors": ["crates/sframe/src/write.rs:165-345", "crates/sframe/src/raw/v2.rs:100-155"]}
{"id": "C133", "title": "An unwinder that follows the specification finds in a converted section what the DWARF says", "statement": "At every address of a described function an unwinder written from the SFrame version 2 specification finds in a converted section the unwind rule the DWARF standard assigns to the call frame program there, with key A, and it finds nothing anywhere else.", "quantifier": "for all .eh_frame sections that convert, addresses, byte orders, build modes, both converters; offsets that are confused when read (C49) excepted", "why_tests_cant": "needs every program and address, and an unwinder written from the specification; the tests only read sections with this library", "anchors": ["crates/dwarf2sframe2/src/lib.rs:142-442", "crates/dwarf2sframe/src/main.rs:81-316", "crates/sframe/src/write.rs:165-345"]}
{"id": "C134", "title": "Sections of other producers are read as the specification says", "statement": "At every address this library, used through its iterators and accessors, finds in an accepted version 2 section what an unwinder written from the specification finds there.", "quantifier": "for all accepted sections of version 2, addresses, byte orders, build modes", "why_tests_cant": "needs every section; the tests only read sections this library has written", "anchors": ["crates/sframe/src/read.rs:173-443", "crates/sframe/src/raw/v2.rs:100-155"]}
{"id": "C135", "title": "Looking up an address in a built section does not fail", "statement": "Looking up an address with fde_for_address and get_fre_for_address in a section this library has built neither gives an error nor panics.", "quantifier": "for all builders the public interface can make, converted or not, byte orders, build modes, addresses", "why_tests_cant": "needs every builder and address; the tests look up addresses in sections with few functions only", "anchors": ["crates/sframe/src/read.rs:165-190", "crates/sframe/src/read.rs:399-440", "crates/sframe/src/read.rs:737-760"]}
{"id": "C136", "title": "A build with more checks gives the same result or panics", "statement": "Compared with a build without them, overflow checks and debug assertions change nothing but whether an operation panics: wherever the checked build does not panic, it returns what the unchecked one returns, and when it panics it has printed the beginning of what the other prints. A narrower pointer width changes nothing but that load panics where the end of the rows does not fit 32 bits and overflow checks are on, and what the converters tell gimli about the size of addresses.", "quantifier": "for all pairs of build profiles where one has all the checks of the other and the same standard library, all inputs of the reading, writing, converting and dumping operations and of the four tools", "why_tests_cant": "a test run compares two builds on the inputs it has; the results have to agree on all of them", "anchors": ["crates/sframe/src/read.rs:SFrame::load", "crates/sframe/src/read.rs:FrameRowEntry::start_address", "crates/sframe/src/write.rs:SFrameBuilder::merge_adjacent_fdes", "crates/sframe/src/write.rs:SFrameBuilder::build", "crates/dwarf2sframe2/src/lib.rs:dwarf2sframe", "crates/dwarf2sframe/src/main.rs:main", "crates/sframedump/src/main.rs:dump"]}
{"id": "C137", "title": "The version of the standard library makes no difference", "statement": "Whether the reader is compiled with the binary search of Rust 1.52-1.81 or with that of 1.82 and later, looking up an address in a section gives the same answer.", "quantifier": "for all sections and addresses, every build profile", "why_tests_cant": "needs builds by two toolchains and all sections", "anchors": ["crates/sframe/src/read.rs:SFrame::fde_for_address"]}
{"id": "C138", "title": "Sections that sframedump shows alike answer every lookup alike", "statement": "If sframedump prints the same for two sections and reports no error, a lookup of any address gives the same answer in both, as far as the dump shows such answers.", "quantifier": "every two sections that load, both byte orders, every address and build profile", "why_tests_cant": "a statement about all pairs of sections; tests compare the text of a few files", "anchors": ["crates/sframedump/src/main.rs:dump", "crates/sframe/src/read.rs:SFrame::fde_for_address", "crates/sframe/src/read.rs:FuncDescEntry::get_fre_for_address"]}
{"id": "C139", "title": "A section copied through the library says the same", "statement": "Reading every option, function and row of an accepted section with the iterators and accessors and passing them to the builders again either is refused or gives an accepted section that says the same at every address.", "quantifier": "for all accepted sections of versions 1 and 2, byte orders of the original and of the copy, build modes, addresses", "why_tests_cant": "Sections made by other producers have layouts the writer never makes (rows out of order, wider fields, reserved bits, equal starts), and tests copy only what the writer itself made.", "anchors": ["crates/sframe/src/read.rs:FuncDescEntry::fres", "crates/sframe/src/read.rs:FrameRowEntry", "crates/sframe/src/write.rs:SFrameBuilder::fde", "crates/sframe/src/write.rs:FuncDescBuilder::row", "crates/sframe/src/write.rs:FrameRowBuilder", "crates/sframe/src/write.rs:FrameRowOffsets::offset_type"]}
{"id": "C140", "title": "A look-up gives the same in both byte orders", "statement": "Of the two sections one builder gives for the two byte orders, looking up any address gives the same function, row, error or panic.", "quantifier": "for all builders, build modes of writer and reader, addresses", "why_tests_cant": "Tests use one byte order, and whether the second agrees depends on the widths the writer chose for the other functions of the section.", "anchors": ["crates/sframe/src/read.rs:SFrame::fde_for_address", "crates/sframe/src/read.rs:FuncDescEntry::get_fre_for_address", "crates/sframe/src/read.rs:FrameRowIter", "crates/sframe/src/read.rs:FdeIter::nth", "crates/sframe/src/write.rs:SFrameBuilder::build"]}
{"id": "C141", "title": "Used through its iterators, the library says of a built section what was asked for", "statement": "An unwinder that walks the functions and rows of a loaded section with the iterators of the library, instead of its look-ups, finds at every address exactly the key and the row asked of the builder there.", "quantifier": "every reachable builder, both byte orders, every profile of writer and reader, every address, key and row", "why_tests_cant": "A test compares some rows of some sections; this is about all builders, including repeated blocks, signed functions, rows whose offsets barely fit and functions resized after rows were added.", "anchors": ["crates/sframe/src/read.rs:FuncDescIter::next", "crates/sframe/src/read.rs:FrameRowIter::next", "crates/sframe/src/write.rs:SFrameBuilder::build", "crates/sframe/src/write.rs:FuncDescBuilder::row"]}
{"id": "C142", "title": "A stack is walked by looking addresses up as with DWARF", "statement": "Unwinding a stack by looking each address up in the converted section with fde_for_address and get_fre_for_address visits the same frames as unwinding it by the rules of .eh_frame, as far as SFrame can express them.", "quantifier": "every program both converters convert, every memory, register content and walk of any length", "why_tests_cant": "Tests look single addresses up; whether whole walks go right depends on every look-up along the way.", "anchors": ["crates/sframe/src/read.rs:SFrame::fde_for_address", "crates/sframe/src/read.rs:FuncDescEntry::get_fre_for_address", "crates/sframe/src/read.rs:FuncDescIter::nth", "crates/dwarf2sframe2/src/lib.rs", "crates/dwarf2sframe/src/main.rs"]}
{"id": "C143", "title": "The debug output of a builder shows everything in it", "statement": "Reading the `{:?}` or `{:#?}` output of an `SFrameBuilder` gives back its options, its functions with their keys and every row; builders that print the same are the same. The names printed for the errors of the builders tell the errors apart.", "quantifier": "for all builders, both layouts, any text other crates print for the ABI that is a tree of words (and, for the second part, that differs between ABIs)", "why_tests_cant": "Whether output can be read back is a statement about every builder and both layouts; tests print one builder, if any.", "anchors": ["crates/sframe/src/write.rs:SFrameOptions", "crates/sframe/src/write.rs:SFrameBuilder", "crates/sframe/src/write.rs:FuncDescBuilder", "crates/sframe/src/write.rs:FrameRowBuilder", "crates/sframe/src/write.rs:FrameRowOffsets", "crates/sframe/src/write.rs:FrameRowError", "crates/sframe/src/write.rs:EmitError"]}
{"id": "C144", "title": "The debug output of a raw header or function entry shows every byte", "statement": "Two raw headers, or two raw function entries of one version, read in the same byte order from different bytes print differently.", "quantifier": "for all byte strings, both byte orders, both layouts, any text other crates print for their integers and enums that is a tree of words and differs between values", "why_tests_cant": "A field left out of the output, or shown without some bits, is only noticed by a pair of values that differ there alone.", "anchors": ["crates/sframe/src/raw/v2.rs:Header", "crates/sframe/src/raw/v2.rs:FuncDescEntry", "crates/sframe/src/raw/v2.rs:FdeInfo", "crates/sframe/src/raw/v1.rs:FuncDescEntry", "crates/sframe/src/raw/mod.rs:Preamble"]}
{"id": "C145", "title": "Copying a copy changes nothing", "statement": "If an accepted section is copied through the library (every option, function and row read and passed to the builders again), then whatever that copy lost, copying the copy, in either byte order, gives exactly what copying the original gives; copied in its own byte order it gives itself.", "quantifier": "for all accepted sections of versions 1 and 2, byte orders of the original and of both copies, profiles of every reader and writer", "why_tests_cant": "A loss that only shows at the second copy needs a section whose first copy is already normal in every other respect; tests copy nothing twice.", "anchors": ["crates/sframe/src/read.rs:SFrame", "crates/sframe/src/read.rs:FrameRowEntry", "crates/sframe/src/write.rs:FuncDescBuilder::row", "crates/sframe/src/write.rs:SFrameBuilder::fde", "crates/sframe/src/write.rs:SFrameBuilder::build"]}
{"id": "C146", "title": "A function says the same in whatever section it is put", "statement": "What the iterators say of a built section at an address inside a function depends only on that function, not on the other functions of the section, the byte order or the build mode; adding a function changes nothing outside it and outside the function it replaces.", "quantifier": "every two reachable builders that contain the function, both byte orders, every profile of writer and reader, every address", "why_tests_cant": "Offsets into the row sub-section and the choice of the entry depend on all other functions; a test sees a few neighbourhoods of a function.", "anchors": ["crates/sframe/src/write.rs:SFrameBuilder::fde", "crates/sframe/src/write.rs:SFrameBuilder::build", "crates/sframe/src/read.rs:FuncDescIter", "crates/sframe/src/read.rs:FrameRowIter"]}
{"id": "C147", "title": "Adding a function changes no look-up elsewhere", "statement": "If a function is added to a builder, then in the section built afterwards a look-up at an address outside that function and outside the function it replaces gives what it gave in the section built before.", "quantifier": "every reachable builder and function, both byte orders, every profile, every address", "why_tests_cant": "Which entries a binary search visits depends on how many there are; a test would have to build sections of every size.", "anchors": ["crates/sframe/src/read.rs:SFrame::fde_for_address", "crates/sframe/src/read.rs:FuncDescEntry::get_fre_for_address", "crates/sframe/src/write.rs:SFrameBuilder::fde"]}
{"id": "C148", "title": "Two sections joined with the builder say what the two say", "statement": "Adding the functions of one builder to another with the same options, when no two of them start at the same address, succeeds, gives the same builder whichever is added to which, and gives the functions of both; if the functions do not overlap and the sizes fit it can be built, into the bytes of both sections less one header; and at every address the iterators of the built section say exactly what those of one of the two sections say. The same holds when the two builders were made from sections that were read.", "quantifier": "every two reachable builders with different starts, every byte order and profile of the three writers and readers, every address", "why_tests_cant": "The layout of the joined section depends on how the addresses of the two interleave; a test joins a few pairs.", "anchors": ["crates/sframe/src/write.rs:SFrameBuilder::fde", "crates/sframe/src/write.rs:SFrameBuilder::build", "crates/sframe/src/read.rs:FuncDescIter", "crates/sframe/src/read.rs:FrameRowIter"]}
{"id": "C149", "title": "The builders that can be made are the same in every profile", "statement": "Whatever sequence of new, fde and merge_adjacent_fdes made a section builder in one build profile, the same builder can be made in every other, by adding its functions, each of which can be made with the methods of FuncDescBuilder, to a new builder.", "quantifier": "every reachable section builder, every two profiles", "why_tests_cant": "merge_adjacent_fdes panics in checked builds for functions that it merges in others; which builders exist is a statement about all sequences of calls.", "anchors": ["crates/sframe/src/write.rs:SFrameBuilder::fde", "crates/sframe/src/write.rs:SFrameBuilder::merge_adjacent_fdes", "crates/sframe/src/write.rs:FuncDescBuilder"]}
{"id": "C150", "title": "Tables converted apart and joined give the section of the tables converted together", "statement": "Take two tables of unwind information that a converter converts on their own, build both sections, in any byte orders and profiles, read both back, and add the functions of the second to those of the first. This succeeds, and building the result gives, in every byte order and profile, exactly what building the conversion of the two tables put one after the other gives: the same bytes, or the same error. Where both tables have a function at the same start, both ways keep that of the second. This holds for both converters.", "quantifier": "every two tables that convert, the first without a reading error, with the same byte order, every byte order and profile of the writers and readers", "why_tests_cant": "The two ways go through entirely different code (writing and reading twice against converting once); tests compare finitely many pairs of programs.", "anchors": ["crates/dwarf2sframe2/src/lib.rs:dwarf2sframe", "crates/dwarf2sframe/src/main.rs:main", "crates/sframe/src/write.rs:SFrameBuilder::fde", "crates/sframe/src/write.rs:SFrameBuilder::build", "crates/sframe/src/read.rs:SFrame"]}
{"id": "C151", "title": "The rows of a function take the fewest bytes that say them", "statement": "In every section the builder writes, the bytes at which the descriptor of a function places its rows are the fewest bytes that say these rows in the format: no choice of the width of the start fields or of the offsets says them shorter.", "quantifier": "every table a builder can reach, every section built from it, every function of it, every other way to write the same rows", "why_tests_cant": "It compares with every byte string that could say the same rows; tests see only the one written.", "anchors": ["crates/sframe/src/write.rs:SFrameBuilder::build", "crates/sframe/src/raw/v2.rs:FrameRowEntry"]}
{"id": "C152", "title": "A section hands out no more rows than it has", "statement": "When every function of an accepted section is iterated once, as sframedump does, the rows handed out altogether are at most as many as the header says the section has, and at most half as many as the bytes of its rows.", "quantifier": "every accepted section of versions 1 and 2, both byte orders, every profile, any number of calls of next on each row iterator", "why_tests_cant": "The excess grows with the square of the file; a test file shows one ratio, not that there is no bound.", "anchors": ["crates/sframe/src/read.rs:SFrame::load", "crates/sframe/src/read.rs:FuncDescIter::next", "crates/sframe/src/read.rs:FrameRowIter::next", "crates/sframedump/src/main.rs:main"]}
{"id": "C153", "title": "A stack is walked with the converted section as its call frame programs say", "statement": "For every .eh_frame section whose call frame programs are evaluated as the DWARF standard says, walking a stack with the converted section, with this library or with an unwinder written from the SFrame specification, visits the frames that the rules of the programs give. It ends early only where SFrame cannot express a rule.", "quantifier": "every .eh_frame section that is converted, every memory, register content and walk of any length, both converters, both byte orders, every build profile", "why_tests_cant": "Walks compose rules of many functions over arbitrary memory; a test walks a few stacks, and with return addresses that are not signed nothing goes wrong.", "anchors": ["crates/dwarf2sframe2/src/lib.rs:convert_row", "crates/dwarf2sframe/src/main.rs:main", "crates/sframe/src/write.rs:SFrameBuilder::build", "crates/sframe/src/read.rs:FrameRowEntry"]}
{"id": "C154", "title": "The stack probe proposed in notes.md can be unwound and does what the other does", "statement": "While the stack probe that notes.md proposes runs, the SFrame section converted from its DWARF leads to the caller's frame at every instruction, and at its end stack pointer and frame pointer are what the usual probe leaves. For the loop of the usual probe no SFrame row is right, and the converted section says nothing there.", "quantifier": "all contents of the registers and of memory, every point of the execution, both byte orders, every build profile, for this library and for an unwinder written from the specification", "why_tests_cant": "The claim is about assembly in a document, which nothing runs; a stack whose contents are the same everywhere hides the mistake.", "anchors": ["notes.md", "crates/dwarf2sframe2/src/lib.rs:convert_row", "crates/sframe/src/write.rs:SFrameBuilder::build"]}
{"id": "C155", "title": "At every moment of a running program a walk with the converted section gives exactly the calls not yet returned", "statement": "A thread runs functions that keep a frame pointer (push rbp; mov rbp, rsp; ..; leave; ret) and functions that do not (sub rsp, n; ..; add rsp, n; ret), which call each other. Their DWARF, as compilers write it, is converted and built without error, by either converter. Between any two instructions a walk with the section gives every call that has not returned, in order, with the address it returns to and the registers as they were before it, and ends at the thread's first caller.", "quantifier": "all programs of such functions (any number, sizes, frame sizes), all runs of any length and depth of calls, all contents of memory, any load address, look-ups of return addresses as they are or one byte before, both byte orders, every build profile, for this library and for an unwinder written from the specification", "why_tests_cant": "An unwinder is interrupted anywhere; tests stop at a few places, seldom between push and mov or before ret, and never at every depth of the stack.", "anchors": ["crates/dwarf2sframe2/src/lib.rs:convert_row", "crates/dwarf2sframe/src/main.rs:main", "crates/sframe/src/write.rs:SFrameBuilder::build", "crates/sframe/src/read.rs:FrameRowIter"]}
{"id": "C156", "title": "At every moment of a running program a walk by looking addresses up gives exactly the calls not yet returned", "statement": "As C155, for an unwinder that finds the row for an address with the library's look-up functions (fde_for_address, get_fre_for_address) instead of its iterators.", "quantifier": "all programs of functions with and without frame pointers whose addresses can be looked up, all runs, all contents of memory, any load address, look-ups of return addresses as they are or one byte before, both byte orders, every build profile", "why_tests_cant": "The look-ups have no tests; a wrong row still leads somewhere, and only the stack of a running program shows that it is the wrong place.", "anchors": ["crates/sframe/src/read.rs:fde_for_address", "crates/sframe/src/read.rs:get_fre_for_address", "crates/dwarf2sframe2/src/lib.rs:convert_row", "crates/sframe/src/write.rs:SFrameBuilder::build"]}
{"id": "C157", "title": "At every moment of a running AArch64 program a walk with the converted section gives exactly the calls not yet returned", "statement": "As C155, for AArch64, where a call leaves the return address in a register: functions that save it (and may sign it first) and functions that do not. The machine, its runs and the call frame programs that compilers write are given independently of the converter; the walk starts from pc, sp, fp and the link register and must give, for every call not yet returned, where it returns to and what the registers were before it.", "quantifier": "all programs of such functions, all runs, all contents of memory, any way of signing addresses that can be undone, any load address below 2^48, look-ups of return addresses as they are or one byte before, both byte orders, every build profile", "why_tests_cant": "There are no AArch64 tests at all; whether a row is right shows only when the stack of a running program is walked from it, at each instruction.", "anchors": ["crates/dwarf2sframe2/src/lib.rs:convert_row", "crates/dwarf2sframe2/src/lib.rs:convert", "crates/sframe/src/write.rs:SFrameBuilder::build", "crates/sframe/src/read.rs:SFrame"]}
{"id": "C158", "title": "If the call frame programs are right about the instructions of a program, a walk with the converted section is right at every moment of every run", "statement": "A program on amd64 is given by its instructions, each known only by what it does to rsp, rbp and the stack (push, pop, sub, add, mov, lea, leave, call, ret, a jump to another function, anything else that may jump anywhere in its function and change rsp, rbp and memory), with what is claimed to be known at each instruction (distance of the CFA from rsp and rbp, where the caller's rbp is, whether rbp still is the caller's). The claims pass a check of each instruction by itself, and the rule of the call frame program at every byte of every instruction follows from them. Then the converted section, looked up by this library or by an unwinder written from the SFrame specification, walks the stack right at every moment: the calls not yet returned, where each returns to and what rsp and rbp were before it.", "quantifier": "all programs, all runs of any length, all memory contents, jumps of any shape, several ends, saved registers, room of unknown size, calls that end in jumps; any load address; look-ups of return addresses as they are or one byte before; both byte orders, every build profile, both converters", "why_tests_cant": "Tests look at a few rows of a few functions. Whether the rows are right at every instruction, and so at every moment at which a profiler may interrupt a program, depends on all runs of all programs.", "anchors": ["crates/dwarf2sframe2/src/lib.rs:convert_row", "crates/dwarf2sframe2/src/lib.rs:convert", "crates/dwarf2sframe/src/main.rs:convert_row", "crates/sframe/src/write.rs:SFrameBuilder::build", "crates/sframe/src/read.rs:SFrame"]}
{"id": "C159", "title": "Right call frame information is always converted, and then the stack is walked right at every moment of every run", "statement": "As C158, with nothing assumed of what the converters do: amd64 code that passes the check of C158 and consists of its instructions, of the size a section can describe, with one entry for each function whose rules are right at every byte. Then conversion and build succeed and a walk by the section gives at every moment of every run exactly the calls not yet returned. In particular no frame layout of such code meets the confusion of offsets of C49.", "quantifier": "all such programs and call frame programs, all frame layouts and sizes, all runs, memory contents and load addresses; both byte orders, every build profile, both converters, and the converter, writer and reader with their repairs", "why_tests_cant": "Code with unusual frame layouts (rbp saved last in a frame of 120 bytes, room of unknown size, several ends) is not in the tests, and the rows for it are never used to walk a stack.", "anchors": ["crates/dwarf2sframe2/src/lib.rs:convert", "crates/dwarf2sframe2/src/lib.rs:convert_row", "crates/dwarf2sframe/src/main.rs:convert_row", "crates/sframe/src/write.rs:SFrameBuilder::build", "crates/sframe/src/read.rs:SFrame"]}
{"id": "C160", "title": "Where the stack grows down no offset is confused with another", "statement": "If the rows are those of a stack that grows down (the CFA at or above its register, the saved return address and frame pointer at or below the CFA), the exception of C37, C38, C49 and C56 does not occur: such rows are written with offsets wide enough, read back as given, and a converted section says what the DWARF says, to the library, to an unwinder that follows the specification and in the dump.", "quantifier": "all such rows, tables and call frame programs of both architectures, fixed return address or not, both converters, both byte orders, every build profile", "why_tests_cant": "The two offsets at the edge of a width (128 and -128, 32768 and -32768) occur together in no test.", "anchors": ["crates/sframe/src/write.rs:FrameRowBuilder", "crates/dwarf2sframe2/src/lib.rs:convert_row", "crates/dwarf2sframe/src/main.rs:convert_row", "crates/sframedump/src/main.rs:main"]}
{"id": "C161", "title": "If the call frame programs are right about the instructions of an AArch64 program, a walk with the converted section is right wherever the return address has been saved unsigned, and with the repairs at every moment", "statement": "As C158, for AArch64: a program is given by its instructions, each known only by what it does to sp, x29, x30 and the stack (moving sp, setting up and taking down x29, storing and loading x29 and x30, signing and authenticating x30, call, ret, a jump to another function, anything else that may jump anywhere in its function and change sp, x29, x30 and memory), with what is claimed to be known at each instruction (distance of the CFA from sp and x29, where the caller's x29 and the return address are and whether it is signed). The claims pass a check of each instruction by itself, and the rule of the call frame program at every byte follows from them. If no return address is saved signed, the converted section walks the stack right at every moment at which the innermost function no longer relies on x30 for its return address: the calls not yet returned, where each returns to and what sp and x29 were before it. The repaired converter's section does so at every moment, with return addresses in x30 or saved, signed or not.", "quantifier": "all programs, all runs of any length, all memory contents, jumps of any shape, several ends, prologues in any number of instructions, room of unknown size, calls that end in jumps; any signing that can be undone; any load address; look-ups of return addresses as they are or one byte before; both byte orders, every build profile", "why_tests_cant": "Tests have a few rows of a few functions and none from AArch64. Whether the rows are right at every instruction depends on all runs of all programs.", "anchors": ["crates/dwarf2sframe2/src/lib.rs:convert_row", "crates/dwarf2sframe2/src/lib.rs:convert", "crates/sframe/src/write.rs:SFrameBuilder::build", "crates/sframe/src/read.rs:SFrame"]}
{"id": "C162", "title": "Right call frame information for every instruction of an AArch64 program is always converted, and the stack walked right wherever the return address has been saved unsigned, with the repairs at every moment", "statement": "As C161, with nothing assumed of what the conversion does. Code that passes the check, whose functions consist of their instructions, do not overlap, lie below 2^31, are of at most 2^28 bytes and are few enough for the header, with one entry for each function and rules that are right at every byte, is always converted and built. If no return address is saved signed and no frame lies upside down, the section walks the stack right at every moment at which the innermost function no longer relies on x30; with the reader repaired (C65), by look-ups too. The repaired converter and writer also succeed, and their section walks it right at every moment.", "quantifier": "all programs, all runs, all memory contents, any signing that can be undone, any load address, look-ups of return addresses as they are or one byte before, both byte orders, every build profile", "why_tests_cant": "A test converts a file and looks at the result; that no right file is refused, and none converted to something wrong, is a statement about all files.", "anchors": ["crates/dwarf2sframe2/src/lib.rs:convert", "crates/dwarf2sframe2/src/lib.rs:convert_row", "crates/sframe/src/write.rs:SFrameBuilder::build", "crates/sframe/src/read.rs:SFrame"]}
{"id": "C163", "title": "A stack walked by what sframedump prints of a converted program with right call frame information is walked right at every moment", "statement": "The tools one after the other. For a program whose call frame information is right at every byte (C159), in a file, the second converter writes a file, and so does the first if its unwind tables have no empty rows; sframedump, given that section in any file, prints it without an error and with nothing on the standard error; and whoever reads the rules off the printed text and walks the stack by them walks it right at every moment of every run. The same for AArch64 programs as in C162, at every moment at which the return address has been saved.", "quantifier": "all such programs and files, all runs, all memory contents, any load address, look-ups of return addresses as they are or one byte before, both byte orders, every build profile and target of the converter and of the dump tool (for the latter, if the section fits in its address space)", "why_tests_cant": "A test compares a dump with an expected text; that every line somebody can read off any such dump is true of the running program is a statement about all of them.", "anchors": ["crates/dwarf2sframe2/src/main.rs:main", "crates/dwarf2sframe/src/main.rs:main", "crates/sframedump/src/main.rs:main", "crates/sframedump/src/main.rs:dump", "crates/sframe/src/write.rs:SFrameBuilder::build"]}
{"id": "C164", "title": "After dump-dirlibs.sh has run, the stack of every program with right call frame information can be walked by the dump it has left", "statement": "If the script can name every program of the directory and keep their results apart (C127, C128), no job ends with status 255 and dwarfdump succeeds, then for each program whose call frame information is right at every byte (C159; for AArch64, C162) there is a dump under its name, and whoever walks the stack by the rules read off that dump walks it right at every moment of every run (for AArch64, at every moment at which the return address has been saved). With five repairs of the script this holds in any directory.", "quantifier": "all directories that can be listed so, with the repairs all of them; all such programs, all runs, all memory contents, every order in which the jobs run, every build profile and target of the two tools", "why_tests_cant": "A test runs the script over some directory; that no program in any directory gets a dump that is wrong at some instruction is a statement about all of them.", "anchors": ["dump-dirlibs.sh:8-55", "crates/dwarf2sframe2/src/main.rs:main", "crates/sframedump/src/main.rs:main"]}
