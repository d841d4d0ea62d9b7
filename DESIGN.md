# Formal model of Phantomical/dwarf2sframe in Rocq (Coq 8.16.1)

## Trusted base

* The Coq kernel (8.16.1), including its `vm_compute` conversion.
* No axioms. `Print Assumptions` stands under every property theorem and answers
  `Closed under the global context` for each of them. (The axioms that a global
  scan of the loaded libraries shows, `Coq.ssr.ssrunder.*`, come with the standard
  library and are not used by any theorem.)
* That the model (the files marked "model" below) says what the code does. Every
  definition there cites the file and lines it transcribes. What is left out or
  simplified is listed under "Not modelled".
* That the specification files say what the English properties mean.

## Layout (rocq/theories)

| file | kind | contents |
|---|---|---|
| `Base.v` | model | outcomes (Ok / Err / Panic), machine integers, bytes, byte orders, build profiles |
| `BTree.v` | model | `BTreeMap` with integer keys as a key-sorted association list |
| `Raw.v` | model | `crates/sframe/src/raw/*`: info bytes, header and descriptor encode/decode |
| `Read.v` | model | `crates/sframe/src/read.rs` |
| `Write.v` | model | `crates/sframe/src/write.rs` |
| `Dwarf.v` | model | the types of gimli that the tools look at or print (inputs) |
| `Convert.v` | model | `crates/dwarf2sframe2/src/lib.rs` (what gimli returns is an input) |
| `Tools.v` | model | `dwarf2sframe` (v1) main, `dwarf2sframe2` main, `sframedump` |
| `Text.v` | model | what is printed: integer formatting, error messages, the text of `sframedump` |
| `Loud.v` | model | what `dwarf2sframe2` prints while it converts: `display.rs`, `dump.rs`, warnings and debug dump of `lib.rs` |
| `V1Loud.v` | model | what `dwarf2sframe` (v1) prints: rules, rows, instructions, errors per row |
| `Dwarfdump.v` | model | `crates/dwarf2sframe/src/bin/dwarfdump.rs` |
| `Debug.v` | model | the `Debug` implementations of `read.rs` and `FreInfo`, and the debug builders of `core::fmt` they call |
| `BuilderDebug.v` | model | the derived `Debug` of the builders, their options, rows and errors (`write.rs`), and of the raw header and function entries (`raw/`) |
| `Io.v` | model | output that can fail: `BufWriter` in front of any standard output, `println!`, the output file |
| `Script.v` | model | `dump-dirlibs.sh`, with the GNU tools it pipes paths through |
| `Repaired.v` | not code of /repo | the look-ups of `read.rs` with four one-line repairs, for `C65_repaired_partial`; without repairs it is the model of `Read.v` by `reflexivity` |
| `MergeRepaired.v` | not code of /repo | `merge_adjacent_fdes` with the operands of write.rs:129 exchanged, for `C42_repaired_partial` and `C43_repaired_partial` |
| `WriteRepaired.v` | not code of /repo | `build` with four small repairs, for `C132_repaired_partial` and its companions; without repairs it is the model of `Write.v` (`C132_unrepaired_partial`) |
| `ReadRepaired.v` | not code of /repo | the look-ups with six small repairs and with the key, for `C134_repaired_partial` and `C65_both_repaired_partial`; without repairs they are those of `Read.v` (`C65_whole_unrepaired_case`) |
| `IterRepaired.v` | not code of /repo | iterators and look-ups in which each repair of the reader can be made on its own, for `C08_repaired_partial` and its companions in `P_IterRepaired.v`; without repairs they are those of `Read.v` and `ReadRepaired.v` (`C08_unrepaired_case`, `C19_unrepaired_case`) |
| `RowRepaired.v` | not code of /repo | `row` with the documented checks, `size` that refuses to leave rows outside, and the text and what the iterators say with repaired iterators, for `P_RowRepaired.v`; without repairs the latter are those of /repo (`C141_unrepaired_case`, `C100_unrepaired_case`) |
| `ConvRepaired.v` | not code of /repo | the second converter with seven small repairs, for `C94_repaired_partial` and its companions; without repairs it is the model of `Convert.v` (`C94_unrepaired_partial`) |
| `V1Repaired.v` | not code of /repo | the first converter with ten small repairs, for `P_V1Repaired.v`; without repairs it is the model of `V1Loud.v` (`C84_unrepaired_partial`) |
| `DdRepaired.v` | not code of /repo | dwarfdump with seven small repairs, for `P_DdRepaired.v`; without repairs it is the model of `Dwarfdump.v` (`C90_unrepaired_partial`) |
| `IoRepaired.v` | not code of /repo | the programs with repairs of what they do when output fails, for `P_IoRepaired.v`; without repairs it is the model of `Io.v` (`C89_output_unrepaired_partial`, `C108_unrepaired_partial`, `C111_unrepaired_partial`, `C112_unrepaired_partial`, `C112_unrepaired_first_partial`) |
| `MsgRepaired.v` | not code of /repo | error messages and dump columns with repairs, for `P_MsgRepaired.v`; without repairs it is the text of `Text.v` (`C68_unrepaired_partial`, `C70_unrepaired_partial`, `C98_unrepaired_partial`, `C99_unrepaired_partial`) |
| `LoudRepaired.v` | not code of /repo | the printing of the second converter with five repairs, for `P_LoudRepaired.v`; without repairs it is the model of `Loud.v` (`C72_unrepaired_partial`) |
| `ScriptRepaired.v` | not code of /repo | `dump-dirlibs.sh` with six repairs, for `P_ScriptRepaired.v`; without repairs it is the model of `Script.v` (`C127_unrepaired_partial`) |
| `SeenRepaired.v` | not code of /repo | the debug output of a section with its auxiliary header and the output of `sframedump` with a line of block sizes, for `P_SeenRepaired.v` (`C103_unrepaired_partial`, `C138_unrepaired_partial`) |
| `Narrow.v` | not code of /repo | the writer with start fields as narrow as they can be, for `P_Small.v` (`C151_unrepaired_partial`) |
| `Counted.v` | not code of /repo | the reader with a look at the row counts, for `P_Count.v` (`C152_unrepaired_partial`) |
| `CopyRepaired.v` | not code of /repo | copying a section with builders that refuse what they do not keep, for `P_CopyRepaired.v` (`C139_unrepaired_partial`) |
| `Probe.v` | model | the assembly of `notes.md` and a machine that runs it, for `P_Probe.v` |
| `RepoTests.v` | model | the tests of the repository (and `add` of `crates/bpfunwind`, a cargo template) |
| `Spec.v`, `ReadSpec.v`, `WriteSpec.v`, `SectionSpec.v`, `ConvSpec.v`, `BuildSpec.v`, `ToolsSpec.v`, `TextSpec.v`, `MessageSpec.v`, `LoudSpec.v`, `OperandSpec.v`, `V1Spec.v`, `DdSpec.v`, `WalkSpec.v`, `V1RepairedSpec.v`, `DebugSpec.v`, `IterSpec.v`, `IoSpec.v`, `LocalSpec.v`, `RelateSpec.v`, `CfiSpec.v`, `PipeSpec.v`, `ScriptSpec.v`, `StdSpec.v`, `MergeSpec.v`, `LookupSpec.v`, `ProfileSpec.v`, `ShownSpec.v`, `CopySpec.v`, `PlaceSpec.v`, `JoinSpec.v`, `SmallSpec.v`, `CountSpec.v`, `ProgramSpec.v`, `RunSpec.v`, `ArmRunSpec.v`, `CodeSpec.v`, `ArmCodeSpec.v`, `WrittenSpec.v`, `ArmWrittenSpec.v`, `DumpedSpec.v`, `WalkScriptSpec.v`, `WholeScriptSpec.v`, `DownSpec.v`, `ProbeSpec.v`, `WalkLookSpec.v`, `BuilderDebugSpec.v`, `MsgRepairedSpec.v`, `LoudRepairedSpec.v`, `ScriptRepairedSpec.v`, `WriteRepairedSpec.v`, `ReadRepairedSpec.v`, `ConvRepairedSpec.v`, `DdRepairedSpec.v` | specification | everything used in theorem statements that is not the model itself |
| `*Facts.v`, `Conv*.v`, `ToolsProps.v`, `LoudDump.v`, `V1Text.v`, `IoTools.v`, `LocalLookup.v`, `V1Relate.v`, `CfiTotal.v`, `ScriptRuns.v`, `ScriptProps.v`, `ScriptTools.v`, `StdConv.v`, `MergeExact.v`, `LookupExact.v`, `LookupConv.v`, `ProfileLookup.v`, `ProfileAll.v`, `IterLook.v`, `WalkLook.v`, `CopyAgain.v` | proofs | |
| `*Witness.v` | proofs | computed counterexamples and the concrete cases |
| `P_*.v` | properties | the property theorems only, each closed by `exact`, each followed by `Print Assumptions`, with `Example`s showing that the hypotheses are met |

## Modelling decisions

* Integers are `Z`; every Rust operation that can overflow is written with its
  check or wrap. A `mode` record carries the build profile: overflow checks,
  debug assertions, pointer width (32/64) and which standard-library binary
  search algorithm is in use (pre-1.82 or 1.82+). Theorems quantify over it.
* `Panic` is an explicit outcome. Loops use fuel and return `OutOfFuel`; theorems
  show that this outcome never occurs.
* `&mut self` methods return the new value. `BTreeMap` is a sorted association
  list; `range(a..)` is a filter on keys.
* Byte strings are `list byte` (`Coq.Init.Byte`), so every list is a legal input.
* zerocopy's `ref_from_prefix`/`slice_from_prefix` are modelled as length check
  plus decoding at fixed positions (decoding is eager in the model, on `.get()`
  in the code).
* "Reachable builder" (`sfb_reach`, `fdb_reach`) means: obtained from `new` by any
  sequence of public calls with any arguments of the right type, including calls
  that return an error or leave the builder half changed.
* gimli is outside the repository. What it returns is an input of the converter
  model: an arbitrary sequence of entries, each CIE, unparsable FDE, or FDE with
  arbitrary start/length and an arbitrary sequence of rows ended by success or an
  error. Nothing is assumed about it, except where a theorem states a
  well-formedness hypothesis (rows contiguous and inside the function).
* `CfiSpec.v` defines call frame programs as DWARF 5 does (6.4.2, 6.4.3): the rules
  in force at an address, and the table. C122-C124 and C126 are about functions whose table,
  as gimli gave it, is the one defined there (`follows_dwarf`); that gimli
  evaluates programs so is not proved, since gimli is not in the repository.
* C126 runs two tools one after the other. That the file the second one opens holds
  the section the first one wrote is a hypothesis (`holds_section`), since writing
  and parsing ELF files is the `object` crate's business.

* The repository has no unwinder (`crates/bpfunwind` is a stub). The stack walks of
  C94-C96 are specification: DWARF's step follows DWARF 5 section 6.4 for any
  memory, any value of expressions and any lookup address; SFrame's follows the
  documentation of `FrameRowEntry` (read.rs:498-511). The machine of C155 (`RunSpec.v`) is
  specification too: the instructions that begin and end functions, calls, and anything in
  between that keeps `rbp` and what lies above the frame; no signals, no other threads. That of
  C157 (`ArmRunSpec.v`) is the same for AArch64; signing is any function that can be undone.
  C158 (`CodeSpec.v`) has any arrangement of instructions; what an instruction other than those named does is any change that leaves
  return addresses and saved frame pointers alone. C161 (`ArmCodeSpec.v`) is its like for AArch64, where an instruction is a list
  of operations on `sp`, `x29` and `x30`.

## Not modelled

* In `dump-dirlibs.sh`: `find`, `file`, `objdump` and the cargo build (their results
  are inputs), options of `echo` and `basename`, pathname expansion in `echo $mime`,
  writing an output file in pieces. `cut`, `uniq`, `xargs` and `basename` are
  modelled from the GNU versions; the argument splitting of `xargs` was compared with
  findutils 4.9.0 on 300 random inputs.
* Opening and mapping files, ELF parsing and writing (`object` crate),
  DWARF parsing (`gimli`), argument parsing (`clap`, `getopts`). An input file is
  what `object::File` reports about it.
* Allocation failure, and on 32-bit targets growth of a `Vec` beyond
  `isize::MAX` bytes.
* Failures of stderr, and the buffer inside standard output (`LineWriter`): what
  standard output does with each call of `write` and `flush`, and whether it takes
  a line of `println!`, are inputs of `Io.v` (C108-C112). All other theorems about
  printed text are about the text that is printed if nothing fails.
* `gimli::BaseAddresses`: only the fields the tools set. Of a CIE, `dwarfdump`'s
  model has what the tool prints; the augmentation is not printed.
* Text that other crates produce (`Debug` and `Display` of gimli's types, its
  register names) is an input of the model of what the converters print; theorems
  state what they assume of it.
* The `Debug` text of `Abi` and `Version`, which the `c_enum` crate generates, and
  of zerocopy's `U16`, `U32` and `I32`: parameters of the text of `sframedump` and of
  the debug output of sections, builders and raw structures.
* The derived `Debug` of private types (`FreAddrSize`, `FdeList`, `Fde`) and of
  `raw::FrameRowEntry`, which nothing prints, and derived `Clone`, `PartialEq` and
  `Hash`, except equality where the code compares options or rows.


## Status

`properties.jsonl` lists the properties, `MANIFEST.json` the theorems for each.
A property is `proved` if its theorems state it in full. It is `partial` if it is
false of the code: then a `…_refuted` theorem gives a witness, computed through
the public API, and the `…_partial` theorems say, for all inputs, what holds
instead (in most cases an exact characterisation).

## Findings: properties that are false of the code

| id | property | what the code does |
|---|---|---|
| C08 | All ways of reaching an FDE give the same rows | nth and next_back attach the whole FRE sub-section instead of the rows at the descriptor's offset. The partial theorem states exactly what each access path attaches. C08_repaired_partial: with nth and next_back taking the rows from the descriptor's own offset (`IterRepaired.v`, not code of the repository) every sequence of next, next_back and nth gives the entries with their own rows. |
| C12 | Reading the rows of a malformed section returns an error, not a panic | A row starting at or past the function size hits an assert. The partial theorem gives the exact panic condition. C12_repaired_partial: without that assertion reading the rows of any entry ends with rows and at most one error, and C12_repaired_same_partial: what is read today is read alike. |
| C17 | Address search in a sorted section is complete | The comparator passed to binary_search_by is reversed. The partial theorem says exactly which entry of a sorted disjoint table is found. C17_repaired_partial: with three repairs (comparison order, own rows, wrapping distance) the function of every address is found in every section that keeps what its sorted flag says. |
| C18 | The FDE found for an address carries its own rows | The sorted search goes through nth, which attaches the whole FRE sub-section. The partial theorem states this for every sorted section; unsorted sections are right (C15). C18_repaired_partial: with the rows taken from the descriptor's own offset it holds in every section. |
| C19 | Row search outside the function returns None | At the single address start+size. The partial theorem covers all other outside addresses. C19_repaired_partial: with start+size refused and the wrapping distance it holds of every entry. |
| C20 | Row search returns the row in effect | The first row with start <= offset is returned, not the last. The partial theorems say exactly what is returned. C20_repaired_partial: with the last instead of the first such row and the wrapping distance it holds. |
| C25 | Info bytes follow the SFrame v2 bit layout | For the FDE info byte (3-bit FRE type, FDE type bit 3, pauth key bit 4). The FRE info byte conforms; the partial theorems give the layout used and where it agrees. C25_repaired_partial: with the setters repaired they write the bits of the specification and no others. |
| C28 | Rows missing a required offset are rejected | Row() accepts rows without an RA or FP offset although none is fixed (no_ra_row, no_fp_row). Proved instead: MissingRaOffset and MissingFpOffset are never returned for any builder and row. With the documented checks added (fdb_row_strict): C28_repaired_partial, all conditions in order with their errors; C28_repaired_rows_partial, every row with offsets then has all three; C28_repaired_converter_partial, the second converter relies on the missing check. |
| C32 | Overlaps are reported exactly when they exist | In overflow-checked builds an over-wide gap (more than i32::MAX between neighbouring starts) panics before the overlap is reported. Proved instead: exact iff without overflow checks or without such a gap; an overlap is never accepted in any profile. C32_repaired_partial: with the distance repaired (WriteRepaired.v) the iff holds in every profile. |
| C34 | SectionTooLarge is reported exactly when a size field would overflow | In overflow-checked builds a non-overlapping small builder with an over-wide gap panics instead of succeeding. Proved instead: the exact iff, and success otherwise, without overflow checks or without such a gap. C34_repaired_partial: with the distance of functions computed in a wider type and nothing else changed, the iff holds in every profile (C34_repaired_release_partial: every profile gives what the release profile gives). |
| C37 | Rows survive the round trip | A row with FP but without RA under an ABI without fixed RA is read with FP as RA; a row whose offsets are -128 and 128 (or -32768 and 32768) is stored in a too small width. Proved instead: exact characterisation of what every row is read as. C37_repaired_partial: with the repaired build every row is read back as asked for; C37_repaired_both_partial: also behind the end, with the repaired iterator; C37_repaired_rows_partial: with strict rows and checked sizes only tied rows are misread by /repo. |
| C38 | The chosen offset width holds every offset of the row | -128 with 128 (-32768 with 32768) picks the width of the negative value. Proved instead: the width holds every offset iff the row has no such tie. C38_repaired_partial: the repaired width is the smallest that holds every offset. |
| C39 | Every built section can be read back without panicking | FuncDescBuilder::size can shrink a function below its rows and reading then panics. Proved instead: exact condition, and full readability for builders that never call size. C39_repaired_size_partial: holds if size refuses to leave rows outside; C39_repaired_partial: holds if the iterator does not assert that rows lie inside. |
| C42 | Adjacent identical FDEs are merged into a repeated FDE | should_merge compares start(a)-start(b) cast to u32 with size(a), so adjacent identical functions are never merged (every build profile). Proved instead: back-to-back functions up to 255 bytes are never merged, and the exact condition under which two functions are merged. C42_repaired_partial, C42_repaired_run_partial: with the operands of the subtraction exchanged (MergeRepaired.v, not code of /repo) exactly the adjacent identical functions are merged, a whole run of them into one. |
| C43 | Merging FDEs does not change unwinding | In a release build identical functions at the two ends of the i32 address range are merged and the second loses its unwind information. Proved instead: nothing changes for non-overlapping functions at non-negative addresses, in checked builds for functions below 2^31 bytes, and in general only mergeable neighbours are merged. C43_repaired_...: with the operands of the subtraction exchanged merging would still be wrong for a repeated function that ends within a block (C43_repaired_blocks_refuted), and right for all others, in particular for converted sections; the section is then smaller and read alike. |
| C49 | Conversion preserves unwinding end to end | An AArch64 row with CFA=SP-128 and RA at CFA+128 converts, builds and loads, but the RA offset read back is -128 (C49_tied_offsets_refuted). For inputs without such a tie the property is proved for every address, byte order, profile and option (C49_end_to_end_partial); a build that succeeds already excludes overlapping functions. With seven small repairs of the converter (ConvRepaired.v), four of the writer and six of the reader it holds of every input, for look-ups (C49_repaired_partial), and a converted section can be written unless functions overlap or it is too large (C49_repaired_builds_partial). |
| C50 | The converter reports bad input as an error, never a panic | Rows the writer rejects (RA not at CFA-8 on AMD64, row outside its function, duplicate start, offset of 0x10000000 or more) are unwrapped and panic. C50_outcome_exact_partial characterises every outcome exactly; C50_no_panic_partial gives a sufficient condition. With the repairs of ConvRepaired.v it holds, with the exact errors (C50_repaired_partial). |
| C51 | The first unrepresentable entry stops the conversion with its error | Start and length are checked separately, so a function may end beyond i32::MAX; and a panic of an earlier function hides the error. With start/length instead of end and fine entries in front, the first error is returned (C51_first_error_partial, C51_end_error_partial), and Ok means no entry was bad. With the repairs of ConvRepaired.v it holds with the end of the function (C51_repaired_partial). |
| C54 | Diagnostics options do not change the result | For debugdump: a malformed expression, which conversion ignores, becomes an error, and computing the end address overflows in checked builds. Warnings are proved harmless for all inputs; debugdump for inputs without those two defects. With the repairs of ConvRepaired.v it holds for all inputs (C54_repaired_partial). |
| C55 | The first-generation tool tolerates zero-width rows | A zero-width row starts where its successor starts, the invalid row put in its place is a duplicate and the tool stops (C55_zero_width_stops_refuted). Every outcome is characterised exactly; without zero-width rows and with printable expressions it converts whatever dwarf2sframe2 converts. C55_repaired_partial: with three small repairs (V1Repaired.v: rows of no width are left out, expressions that cannot be decoded are shown as such, errors while listing end the listing only) it converts whatever dwarf2sframe2 converts; each of the three is needed (C55_repaired_case). C55_both_repaired_partial: the same if all repairs are made in both. |
| C57 | Base addresses are taken from the right sections | .got is passed to set_text, so it replaces the text base and the GOT base is never set. Right exactly for files without .got; dwarfdump gets it right. C57_repaired_partial: right for every file if the first converter sets its parser up as dwarfdump does. |
| C60 | The v1 tool labels its output with the input's architecture | The output always says AMD64 little-endian and is written in the byte order of the machine running the tool. Right exactly for little-endian x86-64 files on little-endian machines. C60_repaired_partial: right for every file and every machine if other files are refused and the section is written in little-endian order. |
| C63 | Different contents give different bytes | An FP offset without RA offset and an RA offset without FP offset are stored alike (C63_collision_refuted). Equality of sections is characterised exactly, and without tied and ambiguous rows building is injective; sections of different byte order are never equal. C63_repaired_partial: with build repaired equal sections mean the same at every address. |
| C65 | Looking up an address gives what was asked for there | The second row of a function is never found (C65_first_row_refuted), and with two functions the first is not found and the second shows the rows of the first (C65_missed_function_refuted). Proved: functions the binary search does not reach and addresses outside all functions give nothing, and the answer is characterised exactly for sections of one function and for functions the search reaches when all starts have the same width (C65_reached_partial: the rows searched are the first of the section). C65_one_answer_partial: if moreover the first row starts its function, all look-ups that find anything give the same answer, whatever the address. C65_repaired_partial: with four one-line repairs to the reader (comparison order, rows taken from the descriptor's own offset, last instead of first row, wrapping distance; `Repaired.v`, which is not code of the repository) the look-up gives exactly what was asked for wherever the rows were stored as asked; C65_needed_refuted: each of the four is needed. C65_both_repaired_partial: with the writer of C132_repaired_partial and the look-ups of C134_repaired_partial the statement holds of every builder and address without exceptions, key included; C65_all_needed_refuted: each of the six repairs of the look-ups is needed. |
| C68 | The cells of a row stand under their headings | A CFA offset of 10 or a frame pointer offset of 9 digits is wider than the column and moves the cells behind it; with narrower values all cells line up, and only then (C68_columns_partial). C68_repaired_partial: with columns of 14 instead of 12 characters the claim holds for every row of every section, and the lines can still be read. |
| C70 | An error message is true of the refused input | A row that starts exactly at 0x10000000 or exactly at the repetition size is refused with a message saying it is larger; the converter names an offset of 2^64-1 for a row in front of its function, and names the limit 0x10000000 but applies i32::MAX. In all other cases the messages are true (C70_row_messages_partial, C70_conversion_messages_partial). Repaired: C70_row_messages_repaired_partial, C70_row_limits_repaired_partial, C70_conversion_messages_repaired_partial and C70_conversion_limits_repaired_partial show that with messages that name the limit that is applied (and the repaired converter of ConvRepaired.v) every message is true and what exceeds a named limit is refused. |
| C72 | The reason a warning gives is true | An offset below -2^31 is shown as a large positive number (0xffffffff7fffffff for -0x80000001). With numbers read as 64-bit patterns every reason is true (C72_reason_partial). C72_repaired_partial: with the sign of the offset printed the claim holds for every section. |
| C73 | Different rules look different in a warning | A register without a name and a constant of the same value print alike. All other rules print differently, except for expressions that gimli itself prints alike (C73_rules_partial). C73_repaired_partial: with a register without a name shown as e.g. reg200 no two rules print alike, except for those that gimli prints, if no name of gimli begins with reg. |
| C74 | The warnings for one function line up | The number of digits is one short for lengths strictly between a power of 16 and its double, e.g. 24. For all other lengths they line up (C74_aligned_partial). C74_repaired_partial: with 16 digits for the offset all warnings of a conversion line up, and the panic for a function of length 0 is gone. |
| C76 | The debug dump calls operations by their DWARF names | DW_OP_plusconstant, DW_OP_uconst, DW_OP_sconst, DW_OP_register, DW_OP_register_offset, DW_OP_frame_offset, DW_OP_call and DW_OP_tls are no DWARF names, and operations without a case (minus, mod, or, shra, ...) are printed as Rust values without indentation. The others have their names and these have not (C76_names_partial). C76_repaired_partial: with other names for eight operations and a case for each of the rest the claim holds for every dump. |
| C77 | Different expressions are dumped differently | The types of DW_OP_deref_type and DW_OP_regval_type are left out. Nothing else is lost (C77_expressions_partial). The operands can be read from the lines (C77_operands_partial). C77_repaired_partial, C77_repaired_dump_partial: with the types printed and names for the operations without a case, different operations have different lines. |
| C79 | The parser is set up for the file's architecture | Neither converter sets the vendor or the address size. An AArch64 file with DW_CFA_AARCH64_negate_ra_state (pointer authentication) is refused, and absolute addresses are taken to have the size of the host's pointers. C79_exact_partial says exactly when the setup is right; dwarfdump's is right. C57_repaired_partial and C79_repaired_partial: set up as in dwarfdump the first converter's setup is right for every file, and the output depends on what the parser makes of the file with that setup only. |
| C80 | Signed return addresses are marked | The rule for the sign state (register 34) is never looked at; the row carries a plain RA offset. No converted row is ever marked (C80_never_marked_partial). With the repairs of ConvRepaired.v it holds (C80_repaired_partial). |
| C81 | Frames whose return address is in the link register are converted | Such rows are written as rows without information, although the writer and the reader support rows without an RA offset. None is ever converted (C81_never_converted_partial). With the repairs of ConvRepaired.v all are (C81_repaired_partial). |
| C83 | The first converter reports input it cannot decode | A row whose CFA or rule is an expression that ends too early stops the program with a panic in every build profile. The partial theorems say exactly when it panics and that it does not if the expressions of all rows can be decoded and no row lies in front of its function (in unchecked builds the latter does not matter). C83_repaired_partial: with the repairs of V1Repaired.v it never panics, in any profile; C83_repaired_outcome_partial says what is converted. |
| C84 | The first converter reports exactly the rows it drops | A row that is converted is reported if the rule for RBP is e.g. same-value, and a row with an odd rule for RBP and RA is reported twice. The partial theorem says exactly what is reported for each row, in order, and that the reasons given are right. C84_repaired_partial: with the repairs of V1Repaired.v there is one message for each row that SFrame cannot express, in order and with a true reason, and nothing else. Without repairs the program is the one that is modelled (C84_unrepaired_partial); each of the ten repairs is needed (C84_needed_refuted). |
| C85 | The first converter names registers by the file's architecture | X86-64 names are used for all architectures except inside rules, so one register has two names in one line. The partial theorems say for which architectures the names are right: x86-64 and x32 outside rules, all but x32 and i386 inside rules. C85_repaired_partial: the names are right in everything that is printed if files for other architectures are refused. |
| C89 | The exit status of dwarfdump tells whether the dump is complete | An error of the dump is printed to standard error and the program still succeeds. The dump is complete exactly if it succeeds and standard error is empty (C89_complete_partial). C89_repaired_partial: it holds once the program fails after an error, and the repair is needed; the same when the output fails (C89_output_repaired_partial). |
| C90 | dwarfdump does not panic | It panics without an argument, if the section cannot be decompressed, and in builds with overflow checks on a function that ends at the very end of the address space. The partial theorems say exactly when, and that it does not otherwise. C90_repaired_partial: with three small repairs (a usage message, the error of the decompression passed on, the end address wrapped) it never panics, and each is needed; C90_repaired_failures_partial says when it fails. |
| C91 | dwarfdump names registers by the file's architecture | AArch64 files get the names of 32-bit Arm. x32, RISC-V and LoongArch files get numbers. C91_names_partial gives the architectures with right names; C91_names_or_numbers_partial: except on AArch64 no register gets a wrong name. C91_repaired_partial: with the register tables of gimli that exist for AArch64, RISC-V, LoongArch and x32 it holds, and the repair is needed. |
| C92 | A malformed entry does not hide the others | An expression that cannot be decoded ends the whole dump, while FDEs that cannot be parsed and instructions that cannot be decoded do not (C92_others_partial). C92_repaired_partial: with expressions that cannot be decoded shown as such it holds, and the repair is needed. |
| C93 | dwarfdump tells entries apart | The indirect bit of the encodings for LSDA, personality and FDE addresses is not shown. Everything else is told apart (C93_apart_partial), given texts of gimli that are. C93_repaired_partial: with the indirect bit shown it holds, and the repair is needed. |
| C94 | A stack is walked with the converted section as with DWARF | In three ways: a rule for the stack pointer, the CIE's return address register and the sign of a return address are ignored. C94_walks_partial proves it for all other rows, for walks of any length in both directions. C94_repaired_partial: with seven small repairs of the converter (ConvRepaired.v), those of the writer (C132) and of the look-ups (C134) the walks are those of DWARF for every program whose rows are disjoint and cover their functions, until SFrame cannot tell, which the look-up then says. Each of the seven is needed (C94_needed_refuted). |
| C95 | A stack is walked with a section of the first tool as with DWARF | A rule for RBP that SFrame cannot express is dropped, so that later frames are found with a wrong frame pointer. C95_walks_partial proves it for rows without such a rule and without those of C94. C95_repaired_partial: with the repairs of V1Repaired.v, of the writer (C132) and of the look-ups (C134) the walks are those of DWARF until SFrame cannot tell, which the look-up then says. |
| C96 | Both converters produce equivalent sections | For a row with a rule for RBP that SFrame cannot express one gives the row without RBP, the other gives no way to unwind. C96_equivalent_partial: this is the only difference, and both cover the same addresses. C96_repaired_partial: with the repairs of both converters, the writer and the look-ups both sections cover the same addresses and agree at each of them, for every program that both convert. |
| C97 | Different errors of the converter have different messages | InvalidRowOffset prints only the offset, so two rows equally far behind the starts of different functions give the same message. C97_conversion_messages_partial: there is no other case. C97_repaired_partial: with the address of the row in the message the claim holds, also for the two further errors of the repaired converter. |
| C98 | The reader's messages are true of the rejected bytes | Any four bytes that are not the magic in either byte order are rejected with "the section endianness does not match that of the reader", and a row without offsets is accepted although the message names "1 to 3" as expected. C98_section_messages_partial and C98_row_messages_partial: everything else that is said is true. C98_offset_messages_partial and C98_lookup_messages_partial: what is said when a row lacks an offset or an address is looked up is true as well. Repaired: with a message of its own for input in neither byte order and "0 to 3" in the message about the number of offsets every message is true and the same sections are accepted (C98_section_messages_repaired_partial, C98_row_messages_repaired_partial); each of the two is needed (C98_magic_needed_refuted, C98_count_needed_refuted). |
| C99 | The messages of build are true of the builder | A function of size 0 inside another shares no address with it but is reported. C99_build_messages_partial: the messages are true if no function is empty; C99_too_large_message_partial: the second message is always true. C99_repaired_partial: with a message of its own for an empty function inside another the claim holds, and the same sections are written. |
| C100 | Formatting a loaded section with {:?} does not panic | A row that starts at or beyond the size of its function makes formatting panic (the assert in FrameRowEntry::load). C100_panics_partial: formatting panics exactly if the rows of some function cannot be iterated. C100_repaired_partial: with the assert removed formatting always succeeds, and prints what it printed (C100_repaired_same_partial). |
| C102 | Sections that print the same answer every lookup the same | In sections with the sorted flag the entry found by fde_for_address carries the row bytes of the whole section (C12), so bytes that the debug output does not show decide the answer. C102_lookups_partial: the same function is found always, the same row without the sorted flag; C102_rows_partial: the same row for functions taken from the iterator. C102_repaired_partial: with the rows taken from the descriptor's own offset it holds of every pair of sections. |
| C103 | Sections that print the same look the same to every accessor | The auxiliary header (raw_aux) is not printed. C103_same_text_partial: texts are equal exactly if everything else the accessors and iterators report is. C103_repaired_partial: with the header printed as one more field texts are equal exactly if everything is, and nothing is missing. |
| C108 | If sframedump succeeds, its whole output has been written | The BufWriter is dropped without a flush, so an error in the last up to 8 KiB is ignored; for a dump below 8 KiB without undecodable rows the program always succeeds. Proved instead: only an end of the output is lost, at most 8 KiB on success, and only if standard output refused something; otherwise everything arrives. Standard output itself and the splitting of lines are inputs; writing to stderr is assumed to succeed. C108_repaired_partial: with a flush at the end of main it holds. |
| C111 | A converter leaves its output file complete or as it was | std::fs::write truncates the file first; if writing fails, the beginning of the new object is left and the old contents are gone. Proved: success means a complete file, every failure before writing leaves the file alone, and a failing write leaves a proper prefix. The bytes object::write emits are an input. C111_repaired_partial: with a second file that is renamed when complete it holds; renaming is assumed to be atomic. |
| C112 | A failure to print is not blamed on the input | io::Error is converted to gimli::Error::Io inside dump_cfi_instructions and reported as an invalid DWARF FDE. Proved: the first line that is not taken ends the run, in that error if it is a line about instructions, in a panic otherwise; if all are taken, the result is the usual one; without --debug-dump dwarf2sframe2 does not depend on standard output. Lines are taken whole or not at all. C112_repaired_partial: with an error of its own for output, and writeln! instead of println!, it holds of both versions, and both changes are needed. |
| C115 | Damage to one function's rows does not reach look-ups in the others | fde_for_address obtains its entry through nth, whose rows start at the beginning of the row sub-section, so an address of the second function is answered from the first function's rows (same cause as C08 and C18). Proved instead: the descriptor found is the same; in a section not marked sorted the rows are the same too, if the header, the descriptors and the rows of the function found are intact. C115_repaired_partial: with the rows taken from the descriptor's own offset every look-up outside the damaged function answers as before. |
| C127 | dump-dirlibs.sh converts every program it finds, once, under its own path | The second xargs splits paths at blanks, takes quotes and backslashes for its own, and stops at an unmatched quote; a path with a colon is not recognised (or a text file is), and without any program convert is run on the empty path. C127_every_program_once_partial: true of paths without these characters; C127_paths_partial: exactly the paths without special characters get through xargs. C127_repaired_partial: with the type asked by itself (file --brief --mime-type), records that end in NUL, xargs -r and a status of at most 1 it is true of all paths; each of these is needed. |
| C128 | dump-dirlibs.sh keeps the results of different programs apart | Files are named after the last component of the path, so of two libraries of the same name in different directories only one set of results is left. C128_results_apart_partial: true if the last components differ, for every interleaving, and other files stay as they are. A run writes each output file in one step after truncating it. C128_repaired_partial: with names made of the whole path, escaped, it is true of all paths (given the type and NUL repairs of C127). |
| C129 | Exit status 0 of dump-dirlibs.sh means that every program was converted | A path with a colon is left out silently, and of two programs of the same name one is lost. C129_success_partial: true for paths without special characters with different last components; C129_failure_partial: for such paths a failure is always that of some program's conversion. That cargo build failed is not noticed by the script (no set -e) and not modelled. C129_repaired_partial: true of all paths with the type, NUL and name repairs; each is needed. |
| C130 | What dump-dirlibs.sh leaves in its directory is of this run | The directory is not emptied, and set -e ends a run at the first tool that fails, so the object, dumps and disassembly of an earlier run stay beside the new log. C130_fresh_partial: true if the directory was empty. C130_repaired_partial: true with the directory removed first (and the repairs of C128), and there is nothing else in it. |
| C132 | An unwinder that follows the specification finds in a built section what was asked for | The FDE type is written to bit 3 of the info byte and the key to bit 4 (specification: bits 4 and 5), so a repeated function has no FRE type that exists and a function signed with key B is a repeated one with blocks of size zero; both say nothing. C132_inside_partial and C132_outside_partial: what it finds, exactly; C132_row_partial: when a written row means what was asked for, exactly; C132_all_partial: true without such functions and rows. C132_repaired_partial: with four small repairs of build (WriteRepaired.v) the statement holds of every section that is built, C132_repaired_outcomes_partial says exactly which are, C132_repaired_same_partial that nothing changes where build is right already, and C132_needed_refuted that each repair is needed. |
| C134 | Sections of other producers are read as the specification says | A repeated function (bit 4) is read as one signed with key B that is not repeated, key B (bit 5) is never seen, and a row that starts at the end of its function makes the iterator panic (C12). C134_same_partial: true at every address whose functions have bits 3 to 5 clear and their rows inside. C134_repaired_partial: with six repairs of the look-ups (ReadRepaired.v, not code of the repository: those of C65 and the bits of the info byte and the assertion on row starts) they say in every accepted version 2 section, of whatever producer, what the specification says, if functions do not overlap, are sorted where the flag says so, and the function at the address has readable ascending rows and no blocks of size zero. In any accepted section every repaired look-up is answered or gives an error (C134_answered_partial), and rows of an unknown format are never read (C134_unknown_partial). |
| C135 | Looking up an address in a built section does not fail | The rows of the function found are read from the beginning of the FRE sub-section with the start width of that function. In a section converted from a short function and a long one the look-up gives InvalidFreOffsetCount(4) (C135_error_refuted) or, with another CFA offset, panics (C135_panic_refuted); with starts of the same width it panics if the first row of the section lies further inside than the function found is long (C135_late_row_refuted). C135_converted_partial: no look-up fails in a section converted from functions whose rows begin where they do and start within 127 bytes; but then there is only one answer (C65_one_answer_partial). C135_repaired_partial: with the reader repaired in five places no look-up in a converted section fails; C135_repaired_built_partial: in every section built it gives the row in effect, as it was written. |
| C137 | The version of the standard library makes no difference | With the reversed comparison the two algorithms go astray differently. In a section of three functions the older library finds the one in the middle and the newer one nothing (C137_library_refuted). C137_small_partial: no difference in any section that is not flagged sorted or has at most two functions, even if its contents are nonsense. C137_three_partial: in every sorted section of three or more functions the newer library finds none of them and the older one exactly the one in the middle. C137_repaired_partial: with the three repairs of C17_repaired_partial both libraries give the same answers in every section that keeps what its sorted flag says. |
| C138 | Sections that sframedump shows alike answer every lookup alike | The block size of functions with repeated rows is not shown, and lookups in sorted sections read bytes that are not shown (see C12). For unsorted sections without repeated rows it is true (C138_lookups_partial), and the function found is always the same (C138_functions_partial). The base register of a CFA whose offset cannot be read is not shown either. C138_repaired_partial: true of all sections with a line of block sizes and with look-ups that take the rows from the offset of the function, whatever else is repaired. |
| C139 | A section copied through the library says the same | Of two functions that begin at the same address the second replaces the first without an error, 128 beside -128 in two bytes each becomes -128 in one (C38), rows without offsets get base register FP, and a version 1 function searched by mask becomes an ordinary one. C139_copyable_partial: when reading and making again succeeds, exactly (whether build then succeeds is the subject of C32 to C34). C139_same_partial: the copy says the same at every address whose functions have none of these, whatever the layout of the original. C139_repaired_partial: with builders that refuse these four, whatever is not refused is copied; C139_repaired_exactly_partial: nothing else is refused in addition. |
| C140 | A look-up gives the same in both byte orders | Look-ups in sorted sections read rows from the start of the row area with the start width of the function found, so where functions differ in this width the fields read straddle those written and the two byte orders read different numbers: for one converted section the little-endian look-up panics and the big-endian one gives a row without CFA offset. C140_found_partial: the function found is always the same. C140_lookup_partial: where all functions have one start width, everything is the same at every address. C140_repaired_partial: with the rows taken from the descriptor's own offset all look-ups are the same in both byte orders. |
| C141 | Used through its iterators, the library says of a built section what was asked for | A tied row (a value and its negation that do not both fit) and an ambiguous row (an FP offset without RA offset) are read back as other rows, and a function made smaller after its rows were added is not readable. C141_inside_partial, C141_row_partial, C141_outside_partial: what is said at every address, exactly. C141_all_partial: apart from those three (and blocks of size 0) the iterators say exactly what was asked for, in contrast to the look-ups (C65). C141_repaired_partial: with the repaired build and the info byte read as specified the iterators say exactly what was asked for. |
| C142 | A stack is walked by looking addresses up as with DWARF | Of a program with two functions the walk from the first stops at once and the walk from the second goes to a wrong address. C142_one_rule_partial: where all rows are within 127 bytes of their function's start, a walk applies one and the same rule in every frame (release builds). C142_one_row_partial: programs of one function with one row are walked as with DWARF. C142_repaired_partial, C142_first_repaired_partial: with the four one-line repairs of the reader (C65) the walks are those of DWARF for all programs of plain rows (as in C94 and C95), whichever converter is used. C142_whole_repaired_partial: with the repairs of the converter, the writer and the look-ups, for all rows. |
| C147 | Adding a function changes no look-up elsewhere | Which functions the reversed binary search reaches depends on how many there are (C17), and the rows searched are the first of the section (C18). C147_outside_partial: outside all functions it holds. C147_repaired_partial: with the reader repaired in five places it holds of every section. |
| C151 | The rows of a function take the fewest bytes that say them | The writer stores starts in one byte only up to 0x7F and in two only up to 0x7FFF (write.rs:200-202), though the fields are unsigned, so a function whose last row starts in 0x80..0xFF takes one byte too many for each row, and one whose last row starts in 0x8000..0xFFFF two. C151_excess_partial gives the exact excess for every function; elsewhere the rows take the fewest bytes (C151_fewest_partial). With the ranges 0..=0xFF and 0..=0xFFFF every function does (C151_repaired_partial). |
| C152 | A section hands out no more rows than it has | Load never looks at num_fres of the header, and descriptors may share rows, so 28+22k bytes whose header counts k rows hand out k*k rows, each with a line in sframedump's output (C152_shared_refuted, C152_dump_refuted, for every k below 2^27). C152_square_partial: 34 times the rows is never more than the square of the section's length less 28. C152_built_partial: built sections hand out no more than they count. With a load that compares the counts it holds of every accepted section (C152_repaired_partial), and no built section is refused. |
| C153 | A stack is walked with the converted section as its call frame programs say | In a function that signs its return address, as compilers make them with branch protection on AArch64, the walk goes to the signed address (C153_signed_refuted; the program is that of such a function). C153_walks_partial, C153_first_walks_partial: it holds for programs whose rules are plain and not confused (C49, C94), for the library and for an unwinder written from the specification. With the repairs of converter, writer and look-ups (C49, C94) it holds of all programs (C153_repaired_partial, C153_first_repaired_partial), and every step succeeds for functions within the range of addresses that do not overlap (C153_repaired_succeeds_partial). That gimli follows the standard is a hypothesis (programs_followed). |
| C154 | The stack probe proposed in notes.md can be unwound and does what the other does | The last instruction in the notes loads rbp from [rsp-0x4000], but it was pushed at [rsp+0x3ff8]; the caller's frame pointer is lost (C154_restore_refuted, for all contents of memory). C154_unwinds_partial: up to that instruction the section leads to the caller. C154_no_row_partial, C154_usual_partial: what the notes say of the usual probe is true. C154_repaired_partial, C154_repaired_alike_partial: with the right displacement all of it is true. The machine of Probe.v has the instructions, registers and the flag the code uses, and memory of words. |
| C156 | At every moment of a running program a walk by looking addresses up gives exactly the calls not yet returned | C156_refuted shows it false of every program of short functions (less than 128 bytes) one of which moves the stack pointer, without overflow checks; C156_astray_refuted shows a program in which one function is not found at all and a walk from the other goes wherever a word of the frame says. C156_repaired_partial, C156_first_repaired_partial: with the look-ups repaired as in C65 it holds of all programs of C155 whose functions end within 2 GiB. C156_code_repaired_partial, C156_code_first_repaired_partial: the same for all programs of C159. |
| C157 | At every moment of a running AArch64 program a walk with the converted section gives exactly the calls not yet returned | C157_refuted shows it false of every program of such functions (first instruction of any function: nothing is said, the walk finds no caller); C157_signed_refuted shows that where a signed return address has been saved the walk gives it with its signature. C157_saved_partial: without functions that sign it holds at every moment at which the innermost function has saved its return address. C157_repaired_partial: with the repairs of C153 it holds at every moment of every run of every such program. |

One more finding outside this table: since `should_merge` never holds for
adjacent functions (C42), `merge_adjacent_fdes` never merges anything in the
converter's output, and no repeated (`PCMASK`) function is ever produced by the
tools.

## Mutation testing

`seeded/LOG.jsonl` has one line per experiment: a definition of the model edited
the way a realistic bug would, the claim it breaks, and the property theorems
that no longer prove. Experiments run in a scratch copy; proofs that fail are
replaced by admitted ones there, and the dependence of each property theorem on
these is read off `Print Assumptions`. Where a property survived an edit that
makes its English claim false, its theorem was strengthened and the line says so.
