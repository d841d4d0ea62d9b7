{
 "claims": [
  {
   "property": "C01",
   "status": "proved",
   "theorems": [
    "C01_load_never_panics",
    "C01_load_panics_only_on_32bit_overflow"
   ],
   "note": "Proved for all byte strings. The second theorem covers the remaining profile (32-bit with overflow checks) by an exact panic condition."
  },
  {
   "property": "C02",
   "status": "proved",
   "theorems": [
    "C02_load_accepts_exactly",
    "C02_load_error_meaning"
   ],
   "note": "Proved: acceptance iff, and the meaning of every error."
  },
  {
   "property": "C03",
   "status": "proved",
   "theorems": [
    "C03_header_accessors"
   ],
   "note": "Proved against byte positions of the SFrame header."
  },
  {
   "property": "C04",
   "status": "proved",
   "theorems": [
    "C04_built",
    "C04_wrong_byte_order"
   ],
   "note": "Proved for every byte string that loads."
  },
  {
   "property": "C05",
   "status": "proved",
   "theorems": [
    "C05_suffix_irrelevant"
   ],
   "note": "Proved."
  },
  {
   "property": "C06",
   "status": "proved",
   "theorems": [
    "C06_truncated_rejected",
    "C06_sections_fit_64_bit"
   ],
   "note": "Proved for every reachable builder, both byte orders and every strict prefix; the built section is at most 28+2*u32::MAX bytes, so the slice hypothesis is free on 64-bit."
  },
  {
   "property": "C07",
   "status": "proved",
   "theorems": [
    "C07_iterator",
    "C07_for_loop",
    "C07_accessors"
   ],
   "note": "Proved for every sequence of next/next_back/nth calls, and for the for loop (with each descriptor's own rows)."
  },
  {
   "property": "C08",
   "status": "partial",
   "theorems": [
    "C08_repaired_partial",
    "C08_unrepaired_case",
    "C08_repaired_case",
    "C08_nth_refuted",
    "C08_next_back_refuted",
    "C08_access_paths_partial"
   ],
   "note": "Refuted: nth and next_back attach the whole FRE sub-section instead of the rows at the descriptor's offset. The partial theorem states exactly what each access path attaches. C08_repaired_partial: with nth and next_back taking the rows from the descriptor's own offset (`IterRepaired.v`, not code of the repository) every sequence of next, next_back and nth gives the entries with their own rows."
  },
  {
   "property": "C09",
   "status": "proved",
   "theorems": [
    "C09_row_iterator_bounded_fused"
   ],
   "note": "Proved for any number of calls."
  },
  {
   "property": "C10",
   "status": "proved",
   "theorems": [
    "C10_size_hint_sound"
   ],
   "note": "Proved for every iterator state."
  },
  {
   "property": "C11",
   "status": "proved",
   "theorems": [
    "C11_bounded_work",
    "C11_rows_inside_section"
   ],
   "note": "Proved."
  },
  {
   "property": "C12",
   "status": "partial",
   "theorems": [
    "C12_repaired_partial",
    "C12_repaired_step_partial",
    "C12_repaired_same_partial",
    "C12_repaired_case",
    "C12_row_panic_refuted",
    "C12_panic_iff_partial"
   ],
   "note": "Refuted: a row starting at or past the function size hits an assert. The partial theorem gives the exact panic condition. C12_repaired_partial: without that assertion reading the rows of any entry ends with rows and at most one error, and C12_repaired_same_partial: what is read today is read alike."
  },
  {
   "property": "C13",
   "status": "proved",
   "theorems": [
    "C13_decode_sound",
    "C13_decode_complete",
    "C13_decode_errors"
   ],
   "note": "Proved: soundness, completeness and the error table."
  },
  {
   "property": "C14",
   "status": "proved",
   "theorems": [
    "C14_contains"
   ],
   "note": "Proved."
  },
  {
   "property": "C15",
   "status": "proved",
   "theorems": [
    "C15_unsorted_search"
   ],
   "note": "Proved."
  },
  {
   "property": "C16",
   "status": "proved",
   "theorems": [
    "C16_search_sound"
   ],
   "note": "Proved for every flag value, table order and both standard-library search algorithms."
  },
  {
   "property": "C17",
   "status": "partial",
   "theorems": [
    "C17_repaired_partial",
    "C17_repaired_case",
    "C17_sorted_search_refuted",
    "C17_sorted_search_exact_partial"
   ],
   "note": "Refuted: the comparator passed to binary_search_by is reversed. The partial theorem says exactly which entry of a sorted disjoint table is found. C17_repaired_partial: with three repairs (comparison order, own rows, wrapping distance) the function of every address is found in every section that keeps what its sorted flag says."
  },
  {
   "property": "C18",
   "status": "partial",
   "theorems": [
    "C18_repaired_partial",
    "C18_repaired_case",
    "C18_found_rows_refuted",
    "C18_sorted_search_rows_partial"
   ],
   "note": "Refuted: the sorted search goes through nth, which attaches the whole FRE sub-section. The partial theorem states this for every sorted section; unsorted sections are right (C15). C18_repaired_partial: with the rows taken from the descriptor's own offset it holds in every section."
  },
  {
   "property": "C19",
   "status": "partial",
   "theorems": [
    "C19_repaired_partial",
    "C19_unrepaired_case",
    "C19_repaired_case",
    "C19_row_search_outside_refuted",
    "C19_row_search_outside_partial"
   ],
   "note": "Refuted at the single address start+size. The partial theorem covers all other outside addresses. C19_repaired_partial: with start+size refused and the wrapping distance it holds of every entry."
  },
  {
   "property": "C20",
   "status": "partial",
   "theorems": [
    "C20_repaired_partial",
    "C20_repaired_case",
    "C20_row_search_refuted",
    "C20_row_search_first_partial",
    "C20_row_search_char_partial",
    "C20_search_stops_partial",
    "C20_zero_block_partial"
   ],
   "note": "Refuted: the first row with start <= offset is returned, not the last. The partial theorems say exactly what is returned. C20_repaired_partial: with the last instead of the first such row and the wrapping distance it holds."
  },
  {
   "property": "C21",
   "status": "proved",
   "theorems": [
    "C21_cfa_offset",
    "C21_ra_offset",
    "C21_fp_offset",
    "C21_decoded",
    "C21_from_the_header"
   ],
   "note": "Proved for every row and section."
  },
  {
   "property": "C22",
   "status": "proved",
   "theorems": [
    "C22_start_address"
   ],
   "note": "Proved for every profile."
  },
  {
   "property": "C23",
   "status": "proved",
   "theorems": [
    "C23_set_fretype",
    "C23_set_fdetype",
    "C23_set_pauth_key",
    "C23_unreachable"
   ],
   "note": "Proved for all 256 bytes and all values (finite domain, complete)."
  },
  {
   "property": "C24",
   "status": "proved",
   "theorems": [
    "C24_set_base",
    "C24_set_offset_size",
    "C24_set_mangled",
    "C24_set_offset_count",
    "C24_unreachable"
   ],
   "note": "Proved for all 256 bytes and all values (finite domain, complete)."
  },
  {
   "property": "C25",
   "status": "partial",
   "theorems": [
    "C25_fde_layout_refuted",
    "C25_fre_layout_partial",
    "C25_fde_layout_actual_partial",
    "C25_fde_layout_agree_partial",
    "C25_repaired_partial"
   ],
   "note": "Refuted for the FDE info byte (3-bit FRE type, FDE type bit 3, pauth key bit 4). The FRE info byte conforms; the partial theorems give the layout used and where it agrees. C25_repaired_partial: with the setters repaired they write the bits of the specification and no others."
  },
  {
   "property": "C26",
   "status": "proved",
   "theorems": [
    "C26_row_accepts_exactly"
   ],
   "note": "For every builder reachable by any call history and every row. row_conditions lists the conditions with their errors in the order the code checks them."
  },
  {
   "property": "C27",
   "status": "proved",
   "theorems": [
    "C27_row_adds_one_or_nothing"
   ],
   "note": "For every reachable builder and row; the builder after a failing call is modelled (fdb_row_st returns it)."
  },
  {
   "property": "C28",
   "status": "partial",
   "theorems": [
    "C28_repaired_partial",
    "C28_repaired_same_partial",
    "C28_repaired_rows_partial",
    "C28_repaired_converter_partial",
    "C28_repaired_case",
    "C28_repaired_rows_case",
    "C28_repaired_converter_case",
    "C28_missing_offsets_accepted_refuted",
    "C28_missing_errors_never_reported_partial"
   ],
   "note": "Refuted: row() accepts rows without an RA or FP offset although none is fixed (no_ra_row, no_fp_row). Proved instead: MissingRaOffset and MissingFpOffset are never returned for any builder and row. With the documented checks added (fdb_row_strict): C28_repaired_partial, all conditions in order with their errors; C28_repaired_rows_partial, every row with offsets then has all three; C28_repaired_converter_partial, the second converter relies on the missing check."
  },
  {
   "property": "C29",
   "status": "proved",
   "theorems": [
    "C29_rows_within_limits"
   ],
   "note": "By induction over call histories (fdb_reach)."
  },
  {
   "property": "C30",
   "status": "proved",
   "theorems": [
    "C30_fde_replaces_same_start"
   ],
   "note": "For every reachable builder, stated on the set of FDEs and their order."
  },
  {
   "property": "C31",
   "status": "proved",
   "theorems": [
    "C31_row_order_irrelevant",
    "C31_fde_order_irrelevant"
   ],
   "note": "Rows: any permutation that succeeds in one order succeeds in the other with the same builder. FDEs: the resulting builder is equal, hence so are the built bytes."
  },
  {
   "property": "C32",
   "status": "partial",
   "theorems": [
    "C32_gap_hides_overlap_refuted",
    "C32_overlap_exact_partial",
    "C32_overlap_never_accepted_partial",
    "C32_shared_address_reported_partial",
    "C32_repaired_partial"
   ],
   "note": "Refuted: in overflow-checked builds an over-wide gap (more than i32::MAX between neighbouring starts) panics before the overlap is reported. Proved instead: exact iff without overflow checks or without such a gap; an overlap is never accepted in any profile. C32_repaired_partial: with the distance repaired (WriteRepaired.v) the iff holds in every profile."
  },
  {
   "property": "C33",
   "status": "proved",
   "theorems": [
    "C33_build_panics_only",
    "C33_nonnegative_starts_never_panic",
    "C33_wide_gap_panics"
   ],
   "note": "Proved, and the panic is shown to occur whenever the exception applies."
  },
  {
   "property": "C34",
   "status": "partial",
   "theorems": [
    "C34_gap_stops_build_refuted",
    "C34_too_large_exact_partial",
    "C34_repaired_release_partial",
    "C34_repaired_partial",
    "C34_repaired_case"
   ],
   "note": "Refuted: in overflow-checked builds a non-overlapping small builder with an over-wide gap panics instead of succeeding. Proved instead: the exact iff, and success otherwise, without overflow checks or without such a gap. C34_repaired_partial: with the distance of functions computed in a wider type and nothing else changed, the iff holds in every profile (C34_repaired_release_partial: every profile gives what the release profile gives)."
  },
  {
   "property": "C35",
   "status": "proved",
   "theorems": [
    "C35_header",
    "C35_table_and_rows",
    "C35_ascending_disjoint"
   ],
   "note": "Proved: header fields, each table entry with its padding, row bytes back to back, strict ascending disjoint order, total length."
  },
  {
   "property": "C36",
   "status": "proved",
   "theorems": [
    "C36_descriptors_round_trip"
   ],
   "note": "Proved for every reachable builder and every pair of writing and reading profile."
  },
  {
   "property": "C37",
   "status": "partial",
   "theorems": [
    "C37_fp_without_ra_misread_refuted",
    "C37_tied_offsets_misread_refuted",
    "C37_rows_round_trip_exact_partial",
    "C37_rows_round_trip_partial",
    "C37_repaired_partial",
    "C37_repaired_both_partial",
    "C37_repaired_rows_partial",
    "C37_repaired_case"
   ],
   "note": "Refuted: a row with FP but without RA under an ABI without fixed RA is read with FP as RA; a row whose offsets are -128 and 128 (or -32768 and 32768) is stored in a too small width. Proved instead: exact characterisation of what every row is read as. C37_repaired_partial: with the repaired build every row is read back as asked for; C37_repaired_both_partial: also behind the end, with the repaired iterator; C37_repaired_rows_partial: with strict rows and checked sizes only tied rows are misread by /repo."
  },
  {
   "property": "C38",
   "status": "partial",
   "theorems": [
    "C38_width_too_small_refuted",
    "C38_width_exact_partial",
    "C38_repaired_partial"
   ],
   "note": "Refuted: -128 with 128 (-32768 with 32768) picks the width of the negative value. Proved instead: the width holds every offset iff the row has no such tie. C38_repaired_partial: the repaired width is the smallest that holds every offset."
  },
  {
   "property": "C39",
   "status": "partial",
   "theorems": [
    "C39_shrunk_function_panics_refuted",
    "C39_readable_exact_partial",
    "C39_readable_partial",
    "C39_repaired_size_partial",
    "C39_repaired_partial",
    "C39_repaired_case"
   ],
   "note": "Refuted: FuncDescBuilder::size can shrink a function below its rows and reading then panics. Proved instead: exact condition, and full readability for builders that never call size. C39_repaired_size_partial: holds if size refuses to leave rows outside; C39_repaired_partial: holds if the iterator does not assert that rows lie inside."
  },
  {
   "property": "C40",
   "status": "proved",
   "theorems": [
    "C40_row_merge_preserves_unwinding"
   ],
   "note": "For every reachable function builder and every offset."
  },
  {
   "property": "C41",
   "status": "proved",
   "theorems": [
    "C41_row_merge_minimal"
   ],
   "note": "Includes termination: the fuelled loop returns Ok for every reachable builder."
  },
  {
   "property": "C42",
   "status": "partial",
   "theorems": [
    "C42_repaired_partial",
    "C42_repaired_run_partial",
    "C42_adjacent_fdes_not_merged_refuted",
    "C42_back_to_back_fdes_never_merged_partial",
    "C42_merge_condition_partial"
   ],
   "note": "Refuted: should_merge compares start(a)-start(b) cast to u32 with size(a), so adjacent identical functions are never merged (every build profile). Proved instead: back-to-back functions up to 255 bytes are never merged, and the exact condition under which two functions are merged. C42_repaired_partial, C42_repaired_run_partial: with the operands of the subtraction exchanged (MergeRepaired.v, not code of /repo) exactly the adjacent identical functions are merged, a whole run of them into one."
  },
  {
   "property": "C43",
   "status": "partial",
   "theorems": [
    "C43_repaired_blocks_refuted",
    "C43_repaired_partial",
    "C43_repaired_converted_partial",
    "C43_repaired_first_partial",
    "C43_repaired_smaller_partial",
    "C43_repaired_read_partial",
    "C43_repaired_case",
    "C43_merge_loses_unwinding_refuted",
    "C43_merge_changes_nothing_partial",
    "C43_merge_changes_nothing_checked_partial",
    "C43_only_mergeable_partial"
   ],
   "note": "Refuted: in a release build identical functions at the two ends of the i32 address range are merged and the second loses its unwind information. Proved instead: nothing changes for non-overlapping functions at non-negative addresses, in checked builds for functions below 2^31 bytes, and in general only mergeable neighbours are merged. C43_repaired_...: with the operands of the subtraction exchanged merging would still be wrong for a repeated function that ends within a block (C43_repaired_blocks_refuted), and right for all others, in particular for converted sections; the section is then smaller and read alike."
  },
  {
   "property": "C44",
   "status": "proved",
   "theorems": [
    "C44_result",
    "C44_one_result",
    "C44_fde_merge_terminates"
   ],
   "note": "For every reachable builder: no fuel exhaustion; a panic only in checked builds with two starts more than i32::MAX apart. C44_result gives the result and the panics exactly: from the lowest address up each function takes in its successor as long as the two are mergeable (C42)."
  },
  {
   "property": "C45",
   "status": "proved",
   "theorems": [
    "C45_options_reach_reader"
   ],
   "note": "Proved for every sequence of setter calls."
  },
  {
   "property": "C46",
   "status": "proved",
   "theorems": [
    "C46_labels",
    "C46_labels_as_read"
   ],
   "note": "For every architecture, byte order and option, on the builder and again after building and loading the section."
  },
  {
   "property": "C47",
   "status": "proved",
   "theorems": [
    "C47_rows_translated",
    "C47_rows_translated_any"
   ],
   "note": "One for one without row merging (C47_rows_translated); with merging every row is still a translation and the row in effect where a DWARF row starts says what that row says."
  },
  {
   "property": "C48",
   "status": "proved",
   "theorems": [
    "C48_functions",
    "C48_every_start_has_a_last"
   ],
   "note": "Exactly the last FDE for each start, with its length, in ascending order."
  },
  {
   "property": "C49",
   "status": "partial",
   "theorems": [
    "C49_tied_offsets_refuted",
    "C49_end_to_end_partial",
    "C49_repaired_partial",
    "C49_repaired_builds_partial",
    "C49_repaired_case",
    "C49_repaired_builds_case"
   ],
   "note": "Refuted: an AArch64 row with CFA=SP-128 and RA at CFA+128 converts, builds and loads, but the RA offset read back is -128 (C49_tied_offsets_refuted). For inputs without such a tie the property is proved for every address, byte order, profile and option (C49_end_to_end_partial); a build that succeeds already excludes overlapping functions. With seven small repairs of the converter (ConvRepaired.v), four of the writer and six of the reader it holds of every input, for look-ups (C49_repaired_partial), and a converted section can be written unless functions overlap or it is too large (C49_repaired_builds_partial)."
  },
  {
   "property": "C50",
   "status": "partial",
   "theorems": [
    "C50_rejected_rows_panic_refuted",
    "C50_panic_exact_partial",
    "C50_outcome_exact_partial",
    "C50_no_panic_partial",
    "C50_repaired_partial",
    "C50_repaired_case"
   ],
   "note": "Refuted: rows the writer rejects (RA not at CFA-8 on AMD64, row outside its function, duplicate start, offset of 0x10000000 or more) are unwrapped and panic. C50_outcome_exact_partial characterises every outcome exactly; C50_no_panic_partial gives a sufficient condition. With the repairs of ConvRepaired.v it holds, with the exact errors (C50_repaired_partial)."
  },
  {
   "property": "C51",
   "status": "partial",
   "theorems": [
    "C51_end_beyond_accepted_refuted",
    "C51_panic_hides_error_refuted",
    "C51_first_error_partial",
    "C51_end_error_partial",
    "C51_ok_means_clean_partial",
    "C51_repaired_partial",
    "C51_repaired_case"
   ],
   "note": "Refuted: start and length are checked separately, so a function may end beyond i32::MAX; and a panic of an earlier function hides the error. With start/length instead of end and fine entries in front, the first error is returned (C51_first_error_partial, C51_end_error_partial), and Ok means no entry was bad. With the repairs of ConvRepaired.v it holds with the end of the function (C51_repaired_partial)."
  },
  {
   "property": "C52",
   "status": "proved",
   "theorems": [
    "C52_zero_width_ignored"
   ],
   "note": "Equality of results for all inputs."
  },
  {
   "property": "C53",
   "status": "proved",
   "theorems": [
    "C53_merging_harmless",
    "C53_function_merging_does_nothing"
   ],
   "note": "Same success, error, functions and unwind information at every address. Also shown: on converter output merge_fdes never merges anything."
  },
  {
   "property": "C54",
   "status": "partial",
   "theorems": [
    "C54_warnings_harmless_partial",
    "C54_dumping_changes_result_refuted",
    "C54_dumping_harmless_partial",
    "C54_repaired_partial",
    "C54_repaired_case"
   ],
   "note": "Refuted for debugdump: a malformed expression, which conversion ignores, becomes an error, and computing the end address overflows in checked builds. Warnings are proved harmless for all inputs; debugdump for inputs without those two defects. With the repairs of ConvRepaired.v it holds for all inputs (C54_repaired_partial)."
  },
  {
   "property": "C55",
   "status": "partial",
   "theorems": [
    "C55_zero_width_stops_refuted",
    "C55_follows_second_generation_partial",
    "C55_outcome_exact_partial",
    "C55_repaired_partial",
    "C55_repaired_case",
    "C55_both_repaired_partial",
    "C55_both_repaired_case"
   ],
   "note": "Refuted: a zero-width row starts where its successor starts, the invalid row put in its place is a duplicate and the tool stops (C55_zero_width_stops_refuted). Every outcome is characterised exactly; without zero-width rows and with printable expressions it converts whatever dwarf2sframe2 converts. C55_repaired_partial: with three small repairs (V1Repaired.v: rows of no width are left out, expressions that cannot be decoded are shown as such, errors while listing end the listing only) it converts whatever dwarf2sframe2 converts; each of the three is needed (C55_repaired_case). C55_both_repaired_partial: the same if all repairs are made in both."
  },
  {
   "property": "C56",
   "status": "proved",
   "theorems": [
    "C56_rows_translated",
    "C56_functions",
    "C56_end_to_end"
   ],
   "note": "For every row of every function, the row in effect at each DWARF row's start (C56_rows_translated), and as the section is read back (C56_end_to_end)."
  },
  {
   "property": "C57",
   "status": "partial",
   "theorems": [
    "C57_got_replaces_text_refuted",
    "C57_right_without_got_partial",
    "C57_bases_exact_partial",
    "C57_dwarfdump_right_partial",
    "C57_repaired_partial",
    "C57_repaired_case"
   ],
   "note": "Refuted: .got is passed to set_text, so it replaces the text base and the GOT base is never set. Right exactly for files without .got; dwarfdump gets it right. C57_repaired_partial: right for every file if the first converter sets its parser up as dwarfdump does."
  },
  {
   "property": "C58",
   "status": "proved",
   "theorems": [
    "C58_output_readable",
    "C58_rejected",
    "C58_success_exact"
   ],
   "note": "Input values are those the Rust types allow; ELF parsing and writing are inputs and outputs of the model."
  },
  {
   "property": "C59",
   "status": "proved",
   "theorems": [
    "C59_dump_exact",
    "C59_no_function_suppressed",
    "C59_program"
   ],
   "note": "Also exactly when the dump panics. Lines are modelled by the values formatted into them."
  },
  {
   "property": "C60",
   "status": "partial",
   "theorems": [
    "C60_mislabelled_refuted",
    "C60_right_on_amd64_partial",
    "C60_label_partial",
    "C60_repaired_partial",
    "C60_repaired_case"
   ],
   "note": "Refuted: the output always says AMD64 little-endian and is written in the byte order of the machine running the tool. Right exactly for little-endian x86-64 files on little-endian machines. C60_repaired_partial: right for every file and every machine if other files are refused and the section is written in little-endian order."
  },
  {
   "property": "C61",
   "status": "proved",
   "theorems": [
    "C61_rebuilt"
   ],
   "note": "Proved for every reachable builder whose rows lie inside their functions, including tied and ambiguous rows, whose meaning changes but whose bytes do not."
  },
  {
   "property": "C62",
   "status": "proved",
   "theorems": [
    "C62_byte_order"
   ],
   "note": "Proved for every reachable builder and every pair of writing and reading profile."
  },
  {
   "property": "C63",
   "status": "partial",
   "theorems": [
    "C63_collision_refuted",
    "C63_same_bytes_partial",
    "C63_injective_partial",
    "C63_orders_differ_partial",
    "C63_repaired_partial"
   ],
   "note": "Refuted: an FP offset without RA offset and an RA offset without FP offset are stored alike (C63_collision_refuted). Equality of sections is characterised exactly, and without tied and ambiguous rows building is injective; sections of different byte order are never equal. C63_repaired_partial: with build repaired equal sections mean the same at every address."
  },
  {
   "property": "C64",
   "status": "proved",
   "theorems": [
    "C64_size_bounds",
    "C64_merge_not_larger"
   ],
   "note": "Proved; both bounds are attained."
  },
  {
   "property": "C65",
   "status": "partial",
   "theorems": [
    "C65_reached_partial",
    "C65_one_answer_partial",
    "C65_both_repaired_partial",
    "C65_whole_unrepaired_case",
    "C65_all_needed_refuted",
    "C65_both_repaired_case",
    "C65_repaired_partial",
    "C65_needed_refuted",
    "C65_unrepaired_case",
    "C65_repaired_case",
    "C65_first_row_refuted",
    "C65_missed_function_refuted",
    "C65_missed_partial",
    "C65_outside_partial",
    "C65_single_partial"
   ],
   "note": "Refuted: the second row of a function is never found (C65_first_row_refuted), and with two functions the first is not found and the second shows the rows of the first (C65_missed_function_refuted). Proved: functions the binary search does not reach and addresses outside all functions give nothing, and the answer is characterised exactly for sections of one function and for functions the search reaches when all starts have the same width (C65_reached_partial: the rows searched are the first of the section). C65_one_answer_partial: if moreover the first row starts its function, all look-ups that find anything give the same answer, whatever the address. C65_repaired_partial: with four one-line repairs to the reader (comparison order, rows taken from the descriptor's own offset, last instead of first row, wrapping distance; `Repaired.v`, which is not code of the repository) the look-up gives exactly what was asked for wherever the rows were stored as asked; C65_needed_refuted: each of the four is needed. C65_both_repaired_partial: with the writer of C132_repaired_partial and the look-ups of C134_repaired_partial the statement holds of every builder and address without exceptions, key included; C65_all_needed_refuted: each of the six repairs of the look-ups is needed."
  },
  {
   "property": "C66",
   "status": "proved",
   "theorems": [
    "C66_kind",
    "C66_mask_search"
   ],
   "note": "Proved."
  },
  {
   "property": "C67",
   "status": "proved",
   "theorems": [
    "C67_text_read_back",
    "C67_text_injective"
   ],
   "note": "For every section that loads and every build profile. The name of the ABI is a parameter without newline; the reader of the text (TextSpec.v) uses none of the formatting functions."
  },
  {
   "property": "C68",
   "status": "partial",
   "theorems": [
    "C68_unrepaired_partial",
    "C68_repaired_partial",
    "C68_width_needed_refuted",
    "C68_repaired_case",
    "C68_columns_refuted",
    "C68_columns_partial"
   ],
   "note": "Refuted: a CFA offset of 10 or a frame pointer offset of 9 digits is wider than the column and moves the cells behind it; with narrower values all cells line up, and only then (C68_columns_partial). C68_repaired_partial: with columns of 14 instead of 12 characters the claim holds for every row of every section, and the lines can still be read."
  },
  {
   "property": "C69",
   "status": "proved",
   "theorems": [
    "C69_read_messages",
    "C69_row_messages",
    "C69_emit_messages"
   ],
   "note": "For all payloads."
  },
  {
   "property": "C70",
   "status": "partial",
   "theorems": [
    "C70_unrepaired_partial",
    "C70_row_messages_repaired_partial",
    "C70_row_limits_repaired_partial",
    "C70_conversion_messages_repaired_partial",
    "C70_conversion_limits_repaired_partial",
    "C70_limits_needed_refuted",
    "C70_repaired_case",
    "C70_row_messages_refuted",
    "C70_row_messages_partial",
    "C70_conversion_messages_refuted",
    "C70_conversion_messages_partial"
   ],
   "note": "Refuted: a row that starts exactly at 0x10000000 or exactly at the repetition size is refused with a message saying it is larger; the converter names an offset of 2^64-1 for a row in front of its function, and names the limit 0x10000000 but applies i32::MAX. In all other cases the messages are true (C70_row_messages_partial, C70_conversion_messages_partial). Repaired: C70_row_messages_repaired_partial, C70_row_limits_repaired_partial, C70_conversion_messages_repaired_partial and C70_conversion_limits_repaired_partial show that with messages that name the limit that is applied (and the repaired converter of ConvRepaired.v) every message is true and what exceeds a named limit is refused."
  },
  {
   "property": "C71",
   "status": "proved",
   "theorems": [
    "C71_warnings",
    "C71_warnings_off",
    "C71_result"
   ],
   "note": "The text is read back with a reader that does not use the formatting code; text of gimli is an input."
  },
  {
   "property": "C72",
   "status": "partial",
   "theorems": [
    "C72_reason_refuted",
    "C72_reason_partial",
    "C72_unrepaired_partial",
    "C72_repaired_result_partial",
    "C72_repaired_partial",
    "C72_sign_needed_refuted"
   ],
   "note": "Refuted: an offset below -2^31 is shown as a large positive number (0xffffffff7fffffff for -0x80000001). With numbers read as 64-bit patterns every reason is true (C72_reason_partial). C72_repaired_partial: with the sign of the offset printed the claim holds for every section."
  },
  {
   "property": "C73",
   "status": "partial",
   "theorems": [
    "C73_rules_refuted",
    "C73_rules_partial",
    "C73_repaired_registers_partial",
    "C73_repaired_partial",
    "C73_repaired_warnings_partial",
    "C73_repaired_same_partial",
    "C73_unnamed_needed_refuted"
   ],
   "note": "Refuted: a register without a name and a constant of the same value print alike. All other rules print differently, except for expressions that gimli itself prints alike (C73_rules_partial). C73_repaired_partial: with a register without a name shown as e.g. reg200 no two rules print alike, except for those that gimli prints, if no name of gimli begins with reg."
  },
  {
   "property": "C74",
   "status": "partial",
   "theorems": [
    "C74_aligned_refuted",
    "C74_aligned_partial",
    "C74_repaired_partial",
    "C74_digits_needed_refuted",
    "C74_repaired_empty_partial"
   ],
   "note": "Refuted: the number of digits is one short for lengths strictly between a power of 16 and its double, e.g. 24. For all other lengths they line up (C74_aligned_partial). C74_repaired_partial: with 16 digits for the offset all warnings of a conversion line up, and the panic for a function of length 0 is gone."
  },
  {
   "property": "C75",
   "status": "proved",
   "theorems": [
    "C75_debug_dump",
    "C75_debug_dump_off"
   ],
   "note": "Conversions that fail have shown all functions in front of the failing one."
  },
  {
   "property": "C76",
   "status": "partial",
   "theorems": [
    "C76_names_refuted",
    "C76_missing_refuted",
    "C76_names_partial",
    "C76_repaired_partial",
    "C76_names_needed_refuted"
   ],
   "note": "Refuted: DW_OP_plusconstant, DW_OP_uconst, DW_OP_sconst, DW_OP_register, DW_OP_register_offset, DW_OP_frame_offset, DW_OP_call and DW_OP_tls are no DWARF names, and operations without a case (minus, mod, or, shra, ...) are printed as Rust values without indentation. The others have their names and these have not (C76_names_partial). C76_repaired_partial: with other names for eight operations and a case for each of the rest the claim holds for every dump."
  },
  {
   "property": "C77",
   "status": "partial",
   "theorems": [
    "C77_expressions_refuted",
    "C77_expressions_partial",
    "C77_operands_partial",
    "C77_repaired_partial",
    "C77_repaired_dump_partial",
    "C77_types_needed_refuted"
   ],
   "note": "Refuted: the types of DW_OP_deref_type and DW_OP_regval_type are left out. Nothing else is lost (C77_expressions_partial). The operands can be read from the lines (C77_operands_partial). C77_repaired_partial, C77_repaired_dump_partial: with the types printed and names for the operations without a case, different operations have different lines."
  },
  {
   "property": "C78",
   "status": "proved",
   "theorems": [
    "C78_function_setters",
    "C78_setters_keep_rows",
    "C78_row_constructors",
    "C78_converter_options"
   ],
   "note": "The setters, the row constructors and the converter's Options."
  },
  {
   "property": "C79",
   "status": "partial",
   "theorems": [
    "C79_vendor_refuted",
    "C79_address_size_refuted",
    "C79_exact_partial",
    "C79_dwarfdump_partial",
    "C79_repaired_partial"
   ],
   "note": "Refuted: neither converter sets the vendor or the address size. An AArch64 file with DW_CFA_AARCH64_negate_ra_state (pointer authentication) is refused, and absolute addresses are taken to have the size of the host's pointers. C79_exact_partial says exactly when the setup is right; dwarfdump's is right. C57_repaired_partial and C79_repaired_partial: set up as in dwarfdump the first converter's setup is right for every file, and the output depends on what the parser makes of the file with that setup only."
  },
  {
   "property": "C80",
   "status": "partial",
   "theorems": [
    "C80_repaired_partial",
    "C80_signing_lost_refuted",
    "C80_never_marked_partial"
   ],
   "note": "Refuted: the rule for the sign state (register 34) is never looked at; the row carries a plain RA offset. No converted row is ever marked (C80_never_marked_partial). With the repairs of ConvRepaired.v it holds (C80_repaired_partial)."
  },
  {
   "property": "C81",
   "status": "partial",
   "theorems": [
    "C81_repaired_partial",
    "C81_leaf_lost_refuted",
    "C81_never_converted_partial"
   ],
   "note": "Refuted: such rows are written as rows without information, although the writer and the reader support rows without an RA offset. None is ever converted (C81_never_converted_partial). With the repairs of ConvRepaired.v all are (C81_repaired_partial)."
  },
  {
   "property": "C82",
   "status": "proved",
   "theorems": [
    "C82_flags",
    "C82_irredundant",
    "C82_tool"
   ],
   "note": "Flags, converter and tool."
  },
  {
   "property": "C83",
   "status": "partial",
   "theorems": [
    "C83_cut_expression_refuted",
    "C83_crashes_partial",
    "C83_no_crash_partial",
    "C83_repaired_partial",
    "C83_repaired_outcome_partial",
    "C83_repaired_case"
   ],
   "note": "Refuted: a row whose CFA or rule is an expression that ends too early stops the program with a panic in every build profile. The partial theorems say exactly when it panics and that it does not if the expressions of all rows can be decoded and no row lies in front of its function (in unchecked builds the latter does not matter). C83_repaired_partial: with the repairs of V1Repaired.v it never panics, in any profile; C83_repaired_outcome_partial says what is converted."
  },
  {
   "property": "C84",
   "status": "partial",
   "theorems": [
    "C84_reports_refuted",
    "C84_reports_partial",
    "C84_unrepaired_partial",
    "C84_needed_refuted",
    "C84_repaired_partial",
    "C84_repaired_case"
   ],
   "note": "Refuted: a row that is converted is reported if the rule for RBP is e.g. same-value, and a row with an odd rule for RBP and RA is reported twice. The partial theorem says exactly what is reported for each row, in order, and that the reasons given are right. C84_repaired_partial: with the repairs of V1Repaired.v there is one message for each row that SFrame cannot express, in order and with a true reason, and nothing else. Without repairs the program is the one that is modelled (C84_unrepaired_partial); each of the ten repairs is needed (C84_needed_refuted)."
  },
  {
   "property": "C85",
   "status": "partial",
   "theorems": [
    "C85_names_refuted",
    "C85_registers_partial",
    "C85_rules_partial",
    "C85_repaired_partial"
   ],
   "note": "Refuted: x86-64 names are used for all architectures except inside rules, so one register has two names in one line. The partial theorems say for which architectures the names are right: x86-64 and x32 outside rules, all but x32 and i386 inside rules. C85_repaired_partial: the names are right in everything that is printed if files for other architectures are refused."
  },
  {
   "property": "C86",
   "status": "proved",
   "theorems": [
    "C86_dump",
    "C86_result"
   ],
   "note": "The dump is read back line by line by a small reader that does not use the formatting functions; the text of gimli types is an input with stated requirements."
  },
  {
   "property": "C87",
   "status": "proved",
   "theorems": [
    "C87_dumps",
    "C87_expressions"
   ],
   "note": "Operations that the tool prints with gimli's Debug are equal as far as that text tells them apart."
  },
  {
   "property": "C88",
   "status": "proved",
   "theorems": [
    "C88_dump_shown"
   ],
   "note": "The reader in DdSpec.v does not use the formatting functions."
  },
  {
   "property": "C89",
   "status": "partial",
   "theorems": [
    "C89_repaired_partial",
    "C89_repaired_case",
    "C89_needed_refuted",
    "C89_status_refuted",
    "C89_complete_partial",
    "C89_output_unrepaired_partial",
    "C89_output_repaired_partial",
    "C89_output_needed_refuted"
   ],
   "note": "Refuted: an error of the dump is printed to standard error and the program still succeeds. The dump is complete exactly if it succeeds and standard error is empty (C89_complete_partial). C89_repaired_partial: it holds once the program fails after an error, and the repair is needed; the same when the output fails (C89_output_repaired_partial)."
  },
  {
   "property": "C90",
   "status": "partial",
   "theorems": [
    "C90_unrepaired_partial",
    "C90_repaired_partial",
    "C90_repaired_failures_partial",
    "C90_needed_refuted",
    "C90_crashes_refuted",
    "C90_crash_iff_partial",
    "C90_no_crash_partial"
   ],
   "note": "Refuted: it panics without an argument, if the section cannot be decompressed, and in builds with overflow checks on a function that ends at the very end of the address space. The partial theorems say exactly when, and that it does not otherwise. C90_repaired_partial: with three small repairs (a usage message, the error of the decompression passed on, the end address wrapped) it never panics, and each is needed; C90_repaired_failures_partial says when it fails."
  },
  {
   "property": "C91",
   "status": "partial",
   "theorems": [
    "C91_repaired_partial",
    "C91_needed_refuted",
    "C91_names_refuted",
    "C91_names_partial",
    "C91_names_or_numbers_partial"
   ],
   "note": "Refuted: AArch64 files get the names of 32-bit Arm. x32, RISC-V and LoongArch files get numbers. C91_names_partial gives the architectures with right names; C91_names_or_numbers_partial: except on AArch64 no register gets a wrong name. C91_repaired_partial: with the register tables of gimli that exist for AArch64, RISC-V, LoongArch and x32 it holds, and the repair is needed."
  },
  {
   "property": "C92",
   "status": "partial",
   "theorems": [
    "C92_repaired_partial",
    "C92_needed_refuted",
    "C92_repaired_case",
    "C92_others_refuted",
    "C92_others_partial"
   ],
   "note": "Refuted: an expression that cannot be decoded ends the whole dump, while FDEs that cannot be parsed and instructions that cannot be decoded do not (C92_others_partial). C92_repaired_partial: with expressions that cannot be decoded shown as such it holds, and the repair is needed."
  },
  {
   "property": "C93",
   "status": "partial",
   "theorems": [
    "C93_repaired_partial",
    "C93_repaired_case",
    "C93_needed_refuted",
    "C93_bit_refuted",
    "C93_apart_partial"
   ],
   "note": "Refuted: the indirect bit of the encodings for LSDA, personality and FDE addresses is not shown. Everything else is told apart (C93_apart_partial), given texts of gimli that are. C93_repaired_partial: with the indirect bit shown it holds, and the repair is needed."
  },
  {
   "property": "C94",
   "status": "partial",
   "theorems": [
    "C94_repaired_partial",
    "C94_repaired_case",
    "C94_unrepaired_partial",
    "C94_repaired_same_partial",
    "C94_repaired_same_case",
    "C94_needed_refuted",
    "C94_sp_rule_refuted",
    "C94_column_refuted",
    "C94_signed_refuted",
    "C94_walks_partial"
   ],
   "note": "Refuted in three ways: a rule for the stack pointer, the CIE's return address register and the sign of a return address are ignored. C94_walks_partial proves it for all other rows, for walks of any length in both directions. C94_repaired_partial: with seven small repairs of the converter (ConvRepaired.v), those of the writer (C132) and of the look-ups (C134) the walks are those of DWARF for every program whose rows are disjoint and cover their functions, until SFrame cannot tell, which the look-up then says. Each of the seven is needed (C94_needed_refuted)."
  },
  {
   "property": "C95",
   "status": "partial",
   "theorems": [
    "C95_repaired_partial",
    "C95_repaired_case",
    "C95_fp_rule_refuted",
    "C95_walks_partial"
   ],
   "note": "Refuted: a rule for RBP that SFrame cannot express is dropped, so that later frames are found with a wrong frame pointer. C95_walks_partial proves it for rows without such a rule and without those of C94. C95_repaired_partial: with the repairs of V1Repaired.v, of the writer (C132) and of the look-ups (C134) the walks are those of DWARF until SFrame cannot tell, which the look-up then says."
  },
  {
   "property": "C96",
   "status": "partial",
   "theorems": [
    "C96_repaired_partial",
    "C96_repaired_case",
    "C96_equivalent_refuted",
    "C96_equivalent_partial"
   ],
   "note": "Refuted: for a row with a rule for RBP that SFrame cannot express one gives the row without RBP, the other gives no way to unwind. C96_equivalent_partial: this is the only difference, and both cover the same addresses. C96_repaired_partial: with the repairs of both converters, the writer and the look-ups both sections cover the same addresses and agree at each of them, for every program that both convert."
  },
  {
   "property": "C97",
   "status": "partial",
   "theorems": [
    "C97_repaired_partial",
    "C97_errors_typed_repaired_partial",
    "C97_row_needed_refuted",
    "C97_repaired_case",
    "C97_conversion_messages_refuted",
    "C97_conversion_messages_partial"
   ],
   "note": "Refuted: InvalidRowOffset prints only the offset, so two rows equally far behind the starts of different functions give the same message. C97_conversion_messages_partial: there is no other case. C97_repaired_partial: with the address of the row in the message the claim holds, also for the two further errors of the repaired converter."
  },
  {
   "property": "C98",
   "status": "partial",
   "theorems": [
    "C98_unrepaired_partial",
    "C98_section_messages_repaired_partial",
    "C98_same_sections_repaired_partial",
    "C98_row_messages_repaired_partial",
    "C98_lookup_messages_repaired_partial",
    "C98_offset_messages_repaired_partial",
    "C98_distinct_repaired_partial",
    "C98_magic_needed_refuted",
    "C98_count_needed_refuted",
    "C98_repaired_case",
    "C98_reader_messages_refuted",
    "C98_section_messages_partial",
    "C98_row_messages_partial",
    "C98_offset_messages_partial",
    "C98_lookup_messages_partial"
   ],
   "note": "Refuted: any four bytes that are not the magic in either byte order are rejected with \"the section endianness does not match that of the reader\", and a row without offsets is accepted although the message names \"1 to 3\" as expected. C98_section_messages_partial and C98_row_messages_partial: everything else that is said is true. C98_offset_messages_partial and C98_lookup_messages_partial: what is said when a row lacks an offset or an address is looked up is true as well. Repaired: with a message of its own for input in neither byte order and \"0 to 3\" in the message about the number of offsets every message is true and the same sections are accepted (C98_section_messages_repaired_partial, C98_row_messages_repaired_partial); each of the two is needed (C98_magic_needed_refuted, C98_count_needed_refuted)."
  },
  {
   "property": "C99",
   "status": "partial",
   "theorems": [
    "C99_unrepaired_partial",
    "C99_repaired_partial",
    "C99_same_sections_repaired_partial",
    "C99_empty_needed_refuted",
    "C99_repaired_case",
    "C99_build_messages_refuted",
    "C99_build_messages_partial",
    "C99_too_large_message_partial"
   ],
   "note": "Refuted: a function of size 0 inside another shares no address with it but is reported. C99_build_messages_partial: the messages are true if no function is empty; C99_too_large_message_partial: the second message is always true. C99_repaired_partial: with a message of its own for an empty function inside another the claim holds, and the same sections are written."
  },
  {
   "property": "C100",
   "status": "partial",
   "theorems": [
    "C100_no_panic_refuted",
    "C100_panics_partial",
    "C100_repaired_partial",
    "C100_repaired_same_partial",
    "C100_repaired_case",
    "C100_unrepaired_case"
   ],
   "note": "Refuted: a row that starts at or beyond the size of its function makes formatting panic (the assert in FrameRowEntry::load). C100_panics_partial: formatting panics exactly if the rows of some function cannot be iterated. C100_repaired_partial: with the assert removed formatting always succeeds, and prints what it printed (C100_repaired_same_partial)."
  },
  {
   "property": "C101",
   "status": "proved",
   "theorems": [
    "C101_read_back"
   ],
   "note": "The Debug text of U16, Version and Abi (other crates) is an input, assumed to be a tree of words. Rust's debug builders are modelled."
  },
  {
   "property": "C102",
   "status": "partial",
   "theorems": [
    "C102_lookups_refuted",
    "C102_lookups_partial",
    "C102_rows_partial",
    "C102_repaired_partial",
    "C102_repaired_case"
   ],
   "note": "Refuted: in sections with the sorted flag the entry found by fde_for_address carries the row bytes of the whole section (C12), so bytes that the debug output does not show decide the answer. C102_lookups_partial: the same function is found always, the same row without the sorted flag; C102_rows_partial: the same row for functions taken from the iterator. C102_repaired_partial: with the rows taken from the descriptor's own offset it holds of every pair of sections."
  },
  {
   "property": "C103",
   "status": "partial",
   "theorems": [
    "C103_accessors_refuted",
    "C103_same_text_partial",
    "C103_unrepaired_partial",
    "C103_repaired_partial",
    "C103_aux_needed_refuted"
   ],
   "note": "Refuted: the auxiliary header (raw_aux) is not printed. C103_same_text_partial: texts are equal exactly if everything else the accessors and iterators report is. C103_repaired_partial: with the header printed as one more field texts are equal exactly if everything is, and nothing is missing."
  },
  {
   "property": "C104",
   "status": "proved",
   "theorems": [
    "C104_info_read_back",
    "C104_info_told_apart"
   ],
   "note": "Every bit of the byte is covered by one of the four fields."
  },
  {
   "property": "C105",
   "status": "proved",
   "theorems": [
    "C105_tests"
   ],
   "note": "The tests are transcribed in RepoTests.v; they also serve as a check of the model."
  },
  {
   "property": "C106",
   "status": "proved",
   "theorems": [
    "C106_mixed_iteration"
   ],
   "note": "About which descriptors are delivered. The rows attached to them are the subject of C08."
  },
  {
   "property": "C107",
   "status": "proved",
   "theorems": [
    "C107_search_cost"
   ],
   "note": "Stated without instrumenting the model: there is a set of positions of that size such that every section with the same descriptors there gives the same outcome. Whether the outcome is right is C17."
  },
  {
   "property": "C108",
   "status": "partial",
   "theorems": [
    "C108_lost_output_refuted",
    "C108_never_fails_refuted",
    "C108_end_lost_partial",
    "C108_arrives_partial",
    "C108_unrepaired_partial",
    "C108_repaired_partial",
    "C108_flush_needed_refuted"
   ],
   "note": "Refuted: the BufWriter is dropped without a flush, so an error in the last up to 8 KiB is ignored; for a dump below 8 KiB without undecodable rows the program always succeeds. Proved instead: only an end of the output is lost, at most 8 KiB on success, and only if standard output refused something; otherwise everything arrives. Standard output itself and the splitting of lines are inputs; writing to stderr is assumed to succeed. C108_repaired_partial: with a flush at the end of main it holds."
  },
  {
   "property": "C109",
   "status": "proved",
   "theorems": [
    "C109_in_order",
    "C109_before_panic"
   ],
   "note": "For panics, for a standard output that takes something of whatever it is given."
  },
  {
   "property": "C110",
   "status": "proved",
   "theorems": [
    "C110_not_silent"
   ],
   "note": "The exit status is success in both cases; only the message tells."
  },
  {
   "property": "C111",
   "status": "partial",
   "theorems": [
    "C111_cut_refuted",
    "C111_file_partial",
    "C111_unrepaired_partial",
    "C111_repaired_partial",
    "C111_atomic_needed_refuted"
   ],
   "note": "Refuted: std::fs::write truncates the file first; if writing fails, the beginning of the new object is left and the old contents are gone. Proved: success means a complete file, every failure before writing leaves the file alone, and a failing write leaves a proper prefix. The bytes object::write emits are an input. C111_repaired_partial: with a second file that is renamed when complete it holds; renaming is assumed to be atomic."
  },
  {
   "property": "C112",
   "status": "partial",
   "theorems": [
    "C112_blamed_refuted",
    "C112_dwarf2sframe2_partial",
    "C112_dwarf2sframe_partial",
    "C112_silent_partial",
    "C112_unrepaired_partial",
    "C112_unrepaired_first_partial",
    "C112_repaired_partial",
    "C112_needed_refuted",
    "C112_repaired_case"
   ],
   "note": "Refuted: io::Error is converted to gimli::Error::Io inside dump_cfi_instructions and reported as an invalid DWARF FDE. Proved: the first line that is not taken ends the run, in that error if it is a line about instructions, in a panic otherwise; if all are taken, the result is the usual one; without --debug-dump dwarf2sframe2 does not depend on standard output. Lines are taken whole or not at all. C112_repaired_partial: with an error of its own for output, and writeln! instead of println!, it holds of both versions, and both changes are needed."
  },
  {
   "property": "C113",
   "status": "proved",
   "theorems": [
    "C113_read_from_its_own_bytes",
    "C113_search_reads_no_further"
   ],
   "note": "Functions are taken as the iterator delivers them. For the first theorem all rows have to decode; panics for rows outside the function are covered."
  },
  {
   "property": "C114",
   "status": "proved",
   "theorems": [
    "C114_damage_stays_in_one_function"
   ],
   "note": "Functions are taken as the iterator delivers them; the case shows a section whose first descriptor no longer makes sense."
  },
  {
   "property": "C115",
   "status": "partial",
   "theorems": [
    "C115_repaired_partial",
    "C115_repaired_case",
    "C115_lookup_reads_other_rows_refuted",
    "C115_descriptor_found_partial",
    "C115_unsorted_lookup_partial"
   ],
   "note": "Refuted: fde_for_address obtains its entry through nth, whose rows start at the beginning of the row sub-section, so an address of the second function is answered from the first function's rows (same cause as C08 and C18). Proved instead: the descriptor found is the same; in a section not marked sorted the rows are the same too, if the header, the descriptors and the rows of the function found are intact. C115_repaired_partial: with the rows taken from the descriptor's own offset every look-up outside the damaged function answers as before."
  },
  {
   "property": "C116",
   "status": "proved",
   "theorems": [
    "C116_versions_read_the_same"
   ],
   "note": "Repeated blocks are left out on purpose: version 1 takes the start of a row as a bit mask, version 2 has a block size."
  },
  {
   "property": "C117",
   "status": "proved",
   "theorems": [
    "C117_order_does_not_matter",
    "C117_order_up_to_the_last",
    "C117_first_converter",
    "C117_same_start_matters",
    "C117_errors_follow_the_order"
   ],
   "note": "Successful conversions are compared; which error is reported does follow the order (shown), and of two functions with one start the later is kept (shown)."
  },
  {
   "property": "C118",
   "status": "proved",
   "theorems": [
    "C118_converted_on_its_own",
    "C118_read_on_its_own",
    "C118_joined_sections",
    "C118_first_converter",
    "C118_first_converter_joined"
   ],
   "note": "Of functions with the same start the last counts, as everywhere."
  },
  {
   "property": "C119",
   "status": "proved",
   "theorems": [
    "C119_moved_conversion",
    "C119_moved_section",
    "C119_moved_failure",
    "C119_first_converter"
   ],
   "note": "For the first converter, whether a row can be printed is assumed not to depend on where it is."
  },
  {
   "property": "C120",
   "status": "proved",
   "theorems": [
    "C120_moved_lookup",
    "C120_moved_function",
    "C120_moved_row",
    "C120_moved_lists",
    "C120_only_starts_move",
    "C120_row_addresses_move"
   ],
   "note": "The distances keep all starts and the address within i32."
  },
  {
   "property": "C121",
   "status": "proved",
   "theorems": [
    "C121_same_meaning_same_section",
    "C121_first_converter",
    "C121_merging_is_needed"
   ],
   "note": "Rows count as saying the same if an SFrame row expresses them alike, or neither. Without merging the cuts show (shown)."
  },
  {
   "property": "C122",
   "status": "proved",
   "theorems": [
    "C122_program_preserved",
    "C122_first_converter"
   ],
   "note": "The meaning of a program is defined as in DWARF 5, 6.4.2 and 6.4.3. That gimli's tables follow it is a hypothesis (follows_dwarf), and offsets an SFrame row confuses (C49) are excluded."
  },
  {
   "property": "C123",
   "status": "proved",
   "theorems": [
    "C123_same_effect_same_section",
    "C123_first_converter"
   ],
   "note": "Hypothesis: gimli's tables follow the standard. The first converter keeps rows of no width, so programs that do not advance are excluded for it."
  },
  {
   "property": "C124",
   "status": "proved",
   "theorems": [
    "C124_ordinary_programs",
    "C124_ordinary_converts",
    "C124_first_converter"
   ],
   "note": "Describable: gimli's tables follow the standard and, where the header fixes the return address offset, the rules have it. Sizes are bounded by 20 bytes per function and 17 per row."
  },
  {
   "property": "C125",
   "status": "proved",
   "theorems": [
    "C125_no_more_rows",
    "C125_size",
    "C125_builds",
    "C125_first_converter"
   ],
   "note": "Merging and repeated start addresses only make it smaller; both bounds on the counts are reached (shown)."
  },
  {
   "property": "C126",
   "status": "proved",
   "theorems": [
    "C126_dump_shows_programs",
    "C126_first_converter",
    "C126_ordinary",
    "C126_ordinary_first_converter",
    "C126_dump_says_section"
   ],
   "note": "Hypotheses: gimli's tables follow the standard (follows_dwarf), and the dumped file holds the section that was written. Functions that reach beyond 2 GiB are excluded: dumping them panics in a debug build (C126_range_needed)."
  },
  {
   "property": "C127",
   "status": "partial",
   "theorems": [
    "C127_refuted",
    "C127_quote_refuted",
    "C127_every_program_once_partial",
    "C127_only_programs_partial",
    "C127_paths_partial",
    "C127_no_programs_partial",
    "C127_unrepaired_partial",
    "C127_repaired_partial",
    "C127_type_needed_refuted",
    "C127_impostor_needed_refuted",
    "C127_zero_needed_refuted",
    "C127_skip_needed_refuted",
    "C127_status_needed_refuted"
   ],
   "note": "Refuted: the second xargs splits paths at blanks, takes quotes and backslashes for its own, and stops at an unmatched quote; a path with a colon is not recognised (or a text file is), and without any program convert is run on the empty path. C127_every_program_once_partial: true of paths without these characters; C127_paths_partial: exactly the paths without special characters get through xargs. C127_repaired_partial: with the type asked by itself (file --brief --mime-type), records that end in NUL, xargs -r and a status of at most 1 it is true of all paths; each of these is needed."
  },
  {
   "property": "C128",
   "status": "partial",
   "theorems": [
    "C128_refuted",
    "C128_results_apart_partial",
    "C128_name_partial",
    "C128_named_partial",
    "C128_side_by_side_partial",
    "C128_runs_end_partial",
    "C128_script_total_partial",
    "C128_repaired_partial",
    "C128_repaired_others_partial",
    "C128_repaired_names_partial",
    "C128_repaired_flat_partial",
    "C128_repaired_total_partial",
    "C128_name_needed_refuted"
   ],
   "note": "Refuted: files are named after the last component of the path, so of two libraries of the same name in different directories only one set of results is left. C128_results_apart_partial: true if the last components differ, for every interleaving, and other files stay as they are. A run writes each output file in one step after truncating it. C128_repaired_partial: with names made of the whole path, escaped, it is true of all paths (given the type and NUL repairs of C127)."
  },
  {
   "property": "C129",
   "status": "partial",
   "theorems": [
    "C129_refuted",
    "C129_names_refuted",
    "C129_success_partial",
    "C129_failure_partial",
    "C129_repaired_partial",
    "C129_repaired_failure_partial",
    "C129_type_needed_refuted",
    "C129_zero_needed_refuted",
    "C129_name_needed_refuted"
   ],
   "note": "Refuted: a path with a colon is left out silently, and of two programs of the same name one is lost. C129_success_partial: true for paths without special characters with different last components; C129_failure_partial: for such paths a failure is always that of some program's conversion. That cargo build failed is not noticed by the script (no set -e) and not modelled. C129_repaired_partial: true of all paths with the type, NUL and name repairs; each is needed."
  },
  {
   "property": "C130",
   "status": "partial",
   "theorems": [
    "C130_refuted",
    "C130_fresh_partial",
    "C130_repaired_partial",
    "C130_repaired_nothing_else_partial",
    "C130_fresh_needed_refuted"
   ],
   "note": "Refuted: the directory is not emptied, and set -e ends a run at the first tool that fails, so the object, dumps and disassembly of an earlier run stay beside the new log. C130_fresh_partial: true if the directory was empty. C130_repaired_partial: true with the directory removed first (and the repairs of C128), and there is nothing else in it."
  },
  {
   "property": "C131",
   "status": "proved",
   "theorems": [
    "C131_script_shows_programs"
   ],
   "note": "The tools are the modelled ones (hypothesis modelled): what a path holds, the bytes of the object file and what the object crate makes of them are inputs. Builds on C126."
  },
  {
   "property": "C132",
   "status": "partial",
   "theorems": [
    "C132_repeated_refuted",
    "C132_key_refuted",
    "C132_inside_partial",
    "C132_row_partial",
    "C132_outside_partial",
    "C132_all_partial",
    "C132_repaired_partial",
    "C132_repaired_outcomes_partial",
    "C132_unrepaired_partial",
    "C132_repaired_same_partial",
    "C132_needed_refuted",
    "C132_repaired_case",
    "C132_repaired_outcomes_case",
    "C132_repaired_same_case"
   ],
   "note": "Refuted: the FDE type is written to bit 3 of the info byte and the key to bit 4 (specification: bits 4 and 5), so a repeated function has no FRE type that exists and a function signed with key B is a repeated one with blocks of size zero; both say nothing. C132_inside_partial and C132_outside_partial: what it finds, exactly; C132_row_partial: when a written row means what was asked for, exactly; C132_all_partial: true without such functions and rows. C132_repaired_partial: with four small repairs of build (WriteRepaired.v) the statement holds of every section that is built, C132_repaired_outcomes_partial says exactly which are, C132_repaired_same_partial that nothing changes where build is right already, and C132_needed_refuted that each repair is needed."
  },
  {
   "property": "C133",
   "status": "proved",
   "theorems": [
    "C133_program_preserved",
    "C133_rows_preserved",
    "C133_first_converter"
   ],
   "note": "In terms of call frame programs (C133_program_preserved, C133_first_converter) and of the rows that gimli delivers (C133_rows_preserved). No reader of this library occurs in the statements."
  },
  {
   "property": "C134",
   "status": "partial",
   "theorems": [
    "C134_repaired_partial",
    "C134_repaired_case",
    "C134_answered_partial",
    "C134_unknown_partial",
    "C134_unknown_case",
    "C134_repeated_refuted",
    "C134_key_refuted",
    "C134_row_at_end_refuted",
    "C134_same_partial"
   ],
   "note": "Refuted: a repeated function (bit 4) is read as one signed with key B that is not repeated, key B (bit 5) is never seen, and a row that starts at the end of its function makes the iterator panic (C12). C134_same_partial: true at every address whose functions have bits 3 to 5 clear and their rows inside. C134_repaired_partial: with six repairs of the look-ups (ReadRepaired.v, not code of the repository: those of C65 and the bits of the info byte and the assertion on row starts) they say in every accepted version 2 section, of whatever producer, what the specification says, if functions do not overlap, are sorted where the flag says so, and the function at the address has readable ascending rows and no blocks of size zero. In any accepted section every repaired look-up is answered or gives an error (C134_answered_partial), and rows of an unknown format are never read (C134_unknown_partial)."
  },
  {
   "property": "C135",
   "status": "partial",
   "theorems": [
    "C135_repaired_built_partial",
    "C135_repaired_partial",
    "C135_repaired_case",
    "C135_error_refuted",
    "C135_panic_refuted",
    "C135_late_row_refuted",
    "C135_converted_partial"
   ],
   "note": "Refuted: the rows of the function found are read from the beginning of the FRE sub-section with the start width of that function. In a section converted from a short function and a long one the look-up gives InvalidFreOffsetCount(4) (C135_error_refuted) or, with another CFA offset, panics (C135_panic_refuted); with starts of the same width it panics if the first row of the section lies further inside than the function found is long (C135_late_row_refuted). C135_converted_partial: no look-up fails in a section converted from functions whose rows begin where they do and start within 127 bytes; but then there is only one answer (C65_one_answer_partial). C135_repaired_partial: with the reader repaired in five places no look-up in a converted section fails; C135_repaired_built_partial: in every section built it gives the row in effect, as it was written."
  },
  {
   "property": "C136",
   "status": "proved",
   "theorems": [
    "C136_reading",
    "C136_writing",
    "C136_converting",
    "C136_tools",
    "C136_dumping",
    "C136_width"
   ],
   "note": "The converters are compared at the same pointer width (C136_tools), because they pass that of the machine they run on to gimli; C136_tools_case shows that a 32-bit build may then give something else."
  },
  {
   "property": "C137",
   "status": "partial",
   "theorems": [
    "C137_repaired_partial",
    "C137_repaired_case",
    "C137_library_refuted",
    "C137_small_partial",
    "C137_three_partial"
   ],
   "note": "Refuted: with the reversed comparison the two algorithms go astray differently. In a section of three functions the older library finds the one in the middle and the newer one nothing (C137_library_refuted). C137_small_partial: no difference in any section that is not flagged sorted or has at most two functions, even if its contents are nonsense. C137_three_partial: in every sorted section of three or more functions the newer library finds none of them and the older one exactly the one in the middle. C137_repaired_partial: with the three repairs of C17_repaired_partial both libraries give the same answers in every section that keeps what its sorted flag says."
  },
  {
   "property": "C138",
   "status": "partial",
   "theorems": [
    "C138_unrepaired_partial",
    "C138_unrepaired_lookups_partial",
    "C138_repaired_partial",
    "C138_blocks_needed_refuted",
    "C138_rows_needed_refuted",
    "C138_lookups_refuted",
    "C138_blocks_refuted",
    "C138_sorted_refuted",
    "C138_lookups_partial",
    "C138_functions_partial"
   ],
   "note": "Refuted: the block size of functions with repeated rows is not shown, and lookups in sorted sections read bytes that are not shown (see C12). For unsorted sections without repeated rows it is true (C138_lookups_partial), and the function found is always the same (C138_functions_partial). The base register of a CFA whose offset cannot be read is not shown either. C138_repaired_partial: true of all sections with a line of block sizes and with look-ups that take the rows from the offset of the function, whatever else is repaired."
  },
  {
   "property": "C139",
   "status": "partial",
   "theorems": [
    "C139_same_start_refuted",
    "C139_offset_refuted",
    "C139_base_refuted",
    "C139_mask_refuted",
    "C139_copyable_partial",
    "C139_same_partial",
    "C139_same_case",
    "C139_unrepaired_partial",
    "C139_repaired_partial",
    "C139_repaired_exactly_partial",
    "C139_same_needed_refuted",
    "C139_tied_needed_refuted",
    "C139_base_needed_refuted",
    "C139_mask_needed_refuted"
   ],
   "note": "Refuted: of two functions that begin at the same address the second replaces the first without an error, 128 beside -128 in two bytes each becomes -128 in one (C38), rows without offsets get base register FP, and a version 1 function searched by mask becomes an ordinary one. C139_copyable_partial: when reading and making again succeeds, exactly (whether build then succeeds is the subject of C32 to C34). C139_same_partial: the copy says the same at every address whose functions have none of these, whatever the layout of the original. C139_repaired_partial: with builders that refuse these four, whatever is not refused is copied; C139_repaired_exactly_partial: nothing else is refused in addition."
  },
  {
   "property": "C140",
   "status": "partial",
   "theorems": [
    "C140_repaired_partial",
    "C140_repaired_case",
    "C140_refuted",
    "C140_found_partial",
    "C140_lookup_partial",
    "C140_case"
   ],
   "note": "Refuted: look-ups in sorted sections read rows from the start of the row area with the start width of the function found, so where functions differ in this width the fields read straddle those written and the two byte orders read different numbers: for one converted section the little-endian look-up panics and the big-endian one gives a row without CFA offset. C140_found_partial: the function found is always the same. C140_lookup_partial: where all functions have one start width, everything is the same at every address. C140_repaired_partial: with the rows taken from the descriptor's own offset all look-ups are the same in both byte orders."
  },
  {
   "property": "C141",
   "status": "partial",
   "theorems": [
    "C141_refuted",
    "C141_inside_partial",
    "C141_row_partial",
    "C141_outside_partial",
    "C141_all_partial",
    "C141_case",
    "C141_repaired_partial",
    "C141_repaired_case",
    "C141_unrepaired_case"
   ],
   "note": "Refuted: a tied row (a value and its negation that do not both fit) and an ambiguous row (an FP offset without RA offset) are read back as other rows, and a function made smaller after its rows were added is not readable. C141_inside_partial, C141_row_partial, C141_outside_partial: what is said at every address, exactly. C141_all_partial: apart from those three (and blocks of size 0) the iterators say exactly what was asked for, in contrast to the look-ups (C65). C141_repaired_partial: with the repaired build and the info byte read as specified the iterators say exactly what was asked for."
  },
  {
   "property": "C142",
   "status": "partial",
   "theorems": [
    "C142_whole_repaired_partial",
    "C142_refuted",
    "C142_one_rule_partial",
    "C142_one_rule_case",
    "C142_one_row_partial",
    "C142_one_row_case",
    "C142_repaired_partial",
    "C142_first_repaired_partial",
    "C142_repaired_case"
   ],
   "note": "Refuted: of a program with two functions the walk from the first stops at once and the walk from the second goes to a wrong address. C142_one_rule_partial: where all rows are within 127 bytes of their function's start, a walk applies one and the same rule in every frame (release builds). C142_one_row_partial: programs of one function with one row are walked as with DWARF. C142_repaired_partial, C142_first_repaired_partial: with the four one-line repairs of the reader (C65) the walks are those of DWARF for all programs of plain rows (as in C94 and C95), whichever converter is used. C142_whole_repaired_partial: with the repairs of the converter, the writer and the look-ups, for all rows."
  },
  {
   "property": "C143",
   "status": "proved",
   "theorems": [
    "C143_read_back",
    "C143_same",
    "C143_row_errors",
    "C143_emit_errors"
   ],
   "note": "Proved for any texts the library versions in use print for the foreign types, as long as these are plain words (plain_texts): {:?} and {:#?} of a builder are read back by an independent reader to the same options, functions and rows, and where the texts tell ABIs apart different builders print differently; both error types are read back."
  },
  {
   "property": "C144",
   "status": "proved",
   "theorems": [
    "C144_header",
    "C144_fde1",
    "C144_fde2"
   ],
   "note": "Proved: equal prints of two headers, or of two descriptors of either layout, mean equal bytes, where the texts of the endian-aware integers tell numbers apart (telling)."
  },
  {
   "property": "C145",
   "status": "proved",
   "theorems": [
    "C145_copied_again",
    "C145_build_again"
   ],
   "note": "Proved for every accepted section whose copy can be built, including those the first copy changes (C139)."
  },
  {
   "property": "C146",
   "status": "proved",
   "theorems": [
    "C146_placed",
    "C146_added"
   ],
   "note": "Proved for the iterators, between any two sections that contain the function, and for adding a function."
  },
  {
   "property": "C147",
   "status": "partial",
   "theorems": [
    "C147_added_refuted",
    "C147_outside_partial",
    "C147_repaired_partial"
   ],
   "note": "Refuted: which functions the reversed binary search reaches depends on how many there are (C17), and the rows searched are the first of the section (C18). C147_outside_partial: outside all functions it holds. C147_repaired_partial: with the reader repaired in five places it holds of every section."
  },
  {
   "property": "C148",
   "status": "proved",
   "theorems": [
    "C148_joins",
    "C148_builds",
    "C148_says",
    "C148_read",
    "C148_readable"
   ],
   "note": "Joining is adding the functions one after the other with SFrameBuilder::fde; without different starts the later takes the place of the earlier (C148_same_start)."
  },
  {
   "property": "C149",
   "status": "proved",
   "theorems": [
    "C149_profiles",
    "C149_functions"
   ],
   "note": "Reachability is that of WriteSpec.v (fdb_reach, sfb_reach); the merged function is the first with a block size and another size."
  },
  {
   "property": "C150",
   "status": "proved",
   "theorems": [
    "C150_linked",
    "C150_first_converter",
    "C150_join_is_union",
    "C150_case",
    "C150_first_converter_case"
   ],
   "note": "Putting the tables one after the other is that of C118 (joined); joining builders is adding the functions one after the other with SFrameBuilder::fde (JoinSpec.v)."
  },
  {
   "property": "C151",
   "status": "partial",
   "theorems": [
    "C151_starts_refuted",
    "C151_shorter_refuted",
    "C151_excess_partial",
    "C151_fewest_partial",
    "C151_fewest_partial_case",
    "C151_repaired_partial",
    "C151_repaired_result_partial",
    "C151_unrepaired_partial"
   ],
   "note": "Refuted: the writer stores starts in one byte only up to 0x7F and in two only up to 0x7FFF (write.rs:200-202), though the fields are unsigned, so a function whose last row starts in 0x80..0xFF takes one byte too many for each row, and one whose last row starts in 0x8000..0xFFFF two. C151_excess_partial gives the exact excess for every function; elsewhere the rows take the fewest bytes (C151_fewest_partial). With the ranges 0..=0xFF and 0..=0xFFFF every function does (C151_repaired_partial)."
  },
  {
   "property": "C152",
   "status": "partial",
   "theorems": [
    "C152_shared_refuted",
    "C152_dump_refuted",
    "C152_square_partial",
    "C152_dump_partial",
    "C152_built_partial",
    "C152_repaired_partial",
    "C152_repaired_accepts_partial",
    "C152_repaired_built_partial",
    "C152_unrepaired_partial",
    "C152_repaired_case"
   ],
   "note": "Refuted: load never looks at num_fres of the header, and descriptors may share rows, so 28+22k bytes whose header counts k rows hand out k*k rows, each with a line in sframedump's output (C152_shared_refuted, C152_dump_refuted, for every k below 2^27). C152_square_partial: 34 times the rows is never more than the square of the section's length less 28. C152_built_partial: built sections hand out no more than they count. With a load that compares the counts it holds of every accepted section (C152_repaired_partial), and no built section is refused."
  },
  {
   "property": "C153",
   "status": "partial",
   "theorems": [
    "C153_signed_refuted",
    "C153_walks_partial",
    "C153_first_walks_partial",
    "C153_walks_case",
    "C153_repaired_rules_partial",
    "C153_repaired_partial",
    "C153_repaired_succeeds_partial",
    "C153_repaired_case",
    "C153_first_repaired_partial",
    "C153_first_repaired_case"
   ],
   "note": "Refuted: in a function that signs its return address, as compilers make them with branch protection on AArch64, the walk goes to the signed address (C153_signed_refuted; the program is that of such a function). C153_walks_partial, C153_first_walks_partial: it holds for programs whose rules are plain and not confused (C49, C94), for the library and for an unwinder written from the specification. With the repairs of converter, writer and look-ups (C49, C94) it holds of all programs (C153_repaired_partial, C153_first_repaired_partial), and every step succeeds for functions within the range of addresses that do not overlap (C153_repaired_succeeds_partial). That gimli follows the standard is a hypothesis (programs_followed)."
  },
  {
   "property": "C154",
   "status": "partial",
   "theorems": [
    "C154_restore_refuted",
    "C154_unwinds_partial",
    "C154_no_row_partial",
    "C154_usual_partial",
    "C154_repaired_partial",
    "C154_repaired_alike_partial",
    "C154_case"
   ],
   "note": "Refuted: the last instruction in the notes loads rbp from [rsp-0x4000], but it was pushed at [rsp+0x3ff8]; the caller's frame pointer is lost (C154_restore_refuted, for all contents of memory). C154_unwinds_partial: up to that instruction the section leads to the caller. C154_no_row_partial, C154_usual_partial: what the notes say of the usual probe is true. C154_repaired_partial, C154_repaired_alike_partial: with the right displacement all of it is true. The machine of Probe.v has the instructions, registers and the flag the code uses, and memory of words."
  },
  {
   "property": "C155",
   "status": "proved",
   "theorems": [
    "C155_compiled",
    "C155_first_compiled",
    "C155_described",
    "C155_first_described",
    "C155_case"
   ],
   "note": "C155_compiled, C155_first_compiled: nothing is assumed but the sizes and that gimli follows the standard. C155_described, C155_first_described: any call frame programs that describe the functions right, provided they are converted and not confused (C49). What instructions in between do is left open, except that they keep rbp (and rsp where there is no frame pointer) and what lies above the frame; signals and other threads are not modelled."
  },
  {
   "property": "C156",
   "status": "partial",
   "theorems": [
    "C156_refuted",
    "C156_astray_refuted",
    "C156_repaired_partial",
    "C156_first_repaired_partial",
    "C156_case",
    "C156_code_repaired_partial",
    "C156_code_first_repaired_partial"
   ],
   "note": "Refuted: C156_refuted shows it false of every program of short functions (less than 128 bytes) one of which moves the stack pointer, without overflow checks; C156_astray_refuted shows a program in which one function is not found at all and a walk from the other goes wherever a word of the frame says. C156_repaired_partial, C156_first_repaired_partial: with the look-ups repaired as in C65 it holds of all programs of C155 whose functions end within 2 GiB. C156_code_repaired_partial, C156_code_first_repaired_partial: the same for all programs of C159."
  },
  {
   "property": "C157",
   "status": "partial",
   "theorems": [
    "C157_refuted",
    "C157_signed_refuted",
    "C157_saved_partial",
    "C157_repaired_partial",
    "C157_case",
    "C157_saved_case",
    "C157_wide_case"
   ],
   "note": "Refuted: C157_refuted shows it false of every program of such functions (first instruction of any function: nothing is said, the walk finds no caller); C157_signed_refuted shows that where a signed return address has been saved the walk gives it with its signature. C157_saved_partial: without functions that sign it holds at every moment at which the innermost function has saved its return address. C157_repaired_partial: with the repairs of C153 it holds at every moment of every run of every such program."
  },
  {
   "property": "C158",
   "status": "proved",
   "theorems": [
    "C158_described",
    "C158_first_described",
    "C158_converted",
    "C158_check",
    "C158_case"
   ],
   "note": "C158_described and C158_first_described for the two converters; C158_converted for the ordinary programs of C124, which are always converted and built; C158_check makes the check by computing. The instructions are modelled by their effect on rsp, rbp and the stack; that stores of other instructions leave return addresses and saved frame pointers alone is part of the machine (`guarded`)."
  },
  {
   "property": "C159",
   "status": "proved",
   "theorems": [
    "C159_converted",
    "C159_first_converted",
    "C159_case",
    "C159_repaired",
    "C159_repaired_case",
    "C159_first_repaired",
    "C159_first_repaired_case"
   ],
   "note": "C159_converted; C159_first_converted for the first converter (rows of no width excluded, which it refuses). C159_repaired: the repaired programs keep it, with look-ups. The number of rows is bounded by the size of the code, so no bound on the programs themselves is needed. `upright`: claims do not put the CFA below the stack or frame pointer. C159_first_repaired (P_WrittenFirst.v): with its repairs (V1Repaired.v) the first converter converts all these programs, those with empty rows in their unwind tables too, and stacks are walked right by the section, by look-ups and by what sframedump prints; C159_first_repaired_case is a program with an empty row, which the first converter of /repo does not convert."
  },
  {
   "property": "C160",
   "status": "proved",
   "theorems": [
    "C160_rows",
    "C160_written",
    "C160_round_trip",
    "C160_end_to_end",
    "C160_first_end_to_end",
    "C160_standard",
    "C160_programs",
    "C160_first_programs",
    "C160_dumped",
    "C160_walked",
    "C160_table"
   ],
   "note": "The writer decides the width by the first offset of greatest magnitude, and the CFA comes first; only a negative CFA offset can bring about the confusion. C160_table: whether a program is such a one is seen from its rows. C160_case has a row with 128 and -128 and one with 32768 and -32768."
  },
  {
   "property": "C161",
   "status": "proved",
   "theorems": [
    "C161_described",
    "C161_downward",
    "C161_converted",
    "C161_repaired",
    "C161_repaired_converted",
    "C161_check",
    "C161_case",
    "C161_plain_case"
   ],
   "note": "C161_described and C161_converted are about the converter as it is and need C37's exception excluded, which C161_downward shows for every stack that grows down. At the remaining moments the converter as it is says nothing or the wrong thing (C157). C161_repaired has no exceptions. C161_check: whether code passes is decidable by computing. C161_case: a signing and a non-signing function, a jump between them, three calls deep; C161_plain_case: the non-signing one alone with the converter as it is."
  },
  {
   "property": "C162",
   "status": "proved",
   "theorems": [
    "C162_converted",
    "C162_looked_up",
    "C162_repaired",
    "C162_case",
    "C162_repaired_case"
   ],
   "note": "C162_converted, C162_looked_up and C162_repaired put C161 and the totality of the conversion (C124) together; the restrictions on size are those of C124. C162_case and C162_repaired_case: a function that saves x30 and x29 in two instructions, by itself and called by one that signs."
  },
  {
   "property": "C163",
   "status": "proved",
   "theorems": [
    "C163_second_converter",
    "C163_first_converter",
    "C163_aarch64",
    "C163_case",
    "C163_first_case",
    "C163_aarch64_case",
    "C163_repaired",
    "C163_repaired_aarch64",
    "C163_repaired_case",
    "C163_repaired_aarch64_case"
   ],
   "note": "C163_second_converter, C163_first_converter and C163_aarch64 put the pipeline of C126 and the walks of C159 and C162 together: the dump says the same as the section of each address, and nothing of others. The rules are read from the text by read_dump (C67), not taken from the printing function. C163_case, C163_first_case and C163_aarch64_case: the programs of C158 and C162 in files, converted for one target and dumped on another. C163_repaired and C163_repaired_aarch64 (P_DumpedRepaired.v): sections of the repaired converter and writer (as in C159_repaired and C162_repaired) are printed by the sframedump of /repo, unrepaired, just as well, and then AArch64 stacks are walked right at every moment, signed return addresses included. C163_repaired_case and C163_repaired_aarch64_case: the programs that C159 and C162 show the repairs with."
  },
  {
   "property": "C164",
   "status": "proved",
   "theorems": [
    "C164_script",
    "C164_script_aarch64",
    "C164_repaired",
    "C164_repaired_aarch64",
    "C164_case",
    "C164_whole",
    "C164_whole_aarch64",
    "C164_whole_case"
   ],
   "note": "C164_script and C164_script_aarch64 put C127, C128 and C163 together; C164_repaired and C164_repaired_aarch64 use the script with the repairs of C127 and C128. C164_case: a directory with an AMD64 and an AArch64 program and a text file. C164_whole and C164_whole_aarch64 (P_WholeScript.v): the repaired script with the repaired converter and writer; on AArch64 stacks are then walked right by the dumps at every moment, signed return addresses included. C164_whole_case: one directory with a program of each architecture."
  }
 ]
}
