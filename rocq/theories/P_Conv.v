(** Property theorems of the DWARF converter: C46-C54. *)
From Verif Require Import ConvWitness.

(** * C46 The converter labels the section with the right ABI *)

Theorem C46_labels : forall md op eh s,
  eh_typed eh -> dwarf2sframe md op eh = Ok s ->
  so_abi (sb_options s) = abi_number (op_arch op) (effective_endian op eh) /\
  so_fixed_ra (sb_options s) = header_ra (op_arch op) (effective_endian op eh) /\
  so_fixed_fp (sb_options s) = None /\ so_flags (sb_options s) = 1.
Proof. exact conv_labels. Qed.
Print Assumptions C46_labels.

(** The same after building ([md']) and loading ([md'']) the section. *)
Theorem C46_labels_as_read : forall md md' md'' op eh s e bs,
  eh_typed eh -> dwarf2sframe md op eh = Ok s -> build md' e s = Ok bs -> wf_mode md'' -> rust_slice md'' bs ->
  exists sf, load md'' e bs = Ok sf /\ flags sf = 1 /\
    abi sf = abi_number (op_arch op) (effective_endian op eh) /\
    fixed_ra_offset sf = header_ra (op_arch op) (effective_endian op eh) /\ fixed_fp_offset sf = None.
Proof. exact conv_labels_read. Qed.
Print Assumptions C46_labels_as_read.

Example C46_case : forall md e,
  eh_typed sample /\ dwarf2sframe md amd sample = Ok sample_sfb /\ build rel64 e sample_sfb = Ok (sample_bytes e) /\
  rust_slice dev32 (sample_bytes e) /\
  abi_number (op_arch amd) (effective_endian amd sample) = 3 /\
  header_ra (op_arch amd) (effective_endian amd sample) = Some (-8) /\ header_ra Aarch64 RtLittle = None.
Proof.
  intros md e. split; [apply sample_typed|]. split; [apply sample_converts|]. split; [apply sample_builds|].
  split; [apply sample_slice, wf_dev32|]. auto.
Qed.

(** * C47 Row translation is exact or marks the row as having no information *)

(** Without row merging: the rows of a function are the translations of its DWARF
    rows, one for one ([l] is the order of their starts). *)
Theorem C47_rows_translated : forall md op eh s b,
  eh_typed eh -> dwarf2sframe md op eh = Ok s -> op_merge_fres op = false -> In b (fdes_of s) ->
  exists f l, last_at eh f /\ fb_start b = df_start f /\ Permutation l (wide_rows f) /\
    Forall2 (translated (op_arch op) (sb_options s) (df_start f)) l (rows_of b).
Proof. exact conv_rows_exact. Qed.
Print Assumptions C47_rows_translated.

(** With or without it: every row is the translation of a DWARF row, and where a
    DWARF row starts the row in effect says the same. *)
Theorem C47_rows_translated_any : forall md op eh s b,
  eh_typed eh -> dwarf2sframe md op eh = Ok s -> In b (fdes_of s) ->
  exists f, last_at eh f /\ fb_start b = df_start f /\
    (forall x, In x (rows_of b) -> exists r, In r (wide_rows f) /\
       translated (op_arch op) (sb_options s) (df_start f) r x) /\
    (forall r, In r (wide_rows f) -> exists x, in_effect (rows_of b) (off f r) x /\
       matches (op_arch op) r (intended (sb_options s) x) /\
       (unrepresentable (op_arch op) r -> r_offsets x = None)).
Proof. exact conv_rows_any. Qed.
Print Assumptions C47_rows_translated_any.

(** Both kinds of rows occur. *)
Example C47_case : forall md,
  (exists s b, dwarf2sframe md (set_merge_fres false amd) sample = Ok s /\ In b (fdes_of s) /\
     length (rows_of b) = 4%nat) /\
  representable Amd64 (amd_row 0x1001 0x1004 7 16 (ROffset (-16))) Sp 16 (-8) (Some (-16)) /\
  unrepresentable Amd64 (DwRow 0x2010 0x2040 (CfaExpression plt_expr) [(16, ROffset (-8))]).
Proof.
  intros md. split.
  - destruct md as [[] [] ? ?]; do 2 eexists; (split; [vm_compute; reflexivity|]); (split; [left; reflexivity|reflexivity]).
  - split; [apply classify_spec; reflexivity|apply classify_none; reflexivity].
Qed.

(** * C48 Conversion covers exactly the functions in .eh_frame *)

Theorem C48_functions : forall md op eh s,
  eh_typed eh -> dwarf2sframe md op eh = Ok s ->
  (forall f, last_at eh f -> exists b, In b (fdes_of s) /\ fb_start b = df_start f /\ fb_size b = df_len f) /\
  (forall b, In b (fdes_of s) -> exists f, last_at eh f /\ fb_start b = df_start f /\ fb_size b = df_len f /\
     fb_rep_size b = None /\ fb_pauth b = KeyA) /\
  StronglySorted Z.lt (map fb_start (fdes_of s)).
Proof. exact conv_functions. Qed.
Print Assumptions C48_functions.

Theorem C48_every_start_has_a_last : forall eh f,
  In f (functions (entries_of eh)) -> exists g, last_at eh g /\ df_start g = df_start f.
Proof. exact last_at_exists. Qed.
Print Assumptions C48_every_start_has_a_last.

Example C48_case : forall md,
  eh_typed sample /\ dwarf2sframe md amd sample = Ok sample_sfb /\ last_at sample fn_plt /\
  map fb_start (fdes_of sample_sfb) = [0x1000; 0x2000] /\ map fb_size (fdes_of sample_sfb) = [0x20; 0x40].
Proof.
  intros md. split; [apply sample_typed|]. split; [apply sample_converts|]. split; [apply sample_last_plt|].
  vm_compute. auto.
Qed.

(** * C49 Conversion preserves unwinding end to end: false *)

(** CFA = SP-128, RA at CFA+128: the RA offset is read back as -128. *)
Theorem C49_tied_offsets_refuted :
  eh_typed tied_eh /\ dwarf2sframe rel64 arm tied_eh = Ok tied_sfb /\
  (forall f, last_at tied_eh f -> rows_disjoint f) /\
  build rel64 LE tied_sfb = Ok tied_bytes /\ load rel64 LE tied_bytes = Ok tied_sf /\
  dwarf_says tied_eh 0x1000 tied_dw /\
  (exists u, section_says rel64 LE tied_sf 0x1000 u) /\
  forall u, section_says rel64 LE tied_sf 0x1000 u -> ~ matches Aarch64 tied_dw u.
Proof. exact tied_not_preserved. Qed.
Print Assumptions C49_tied_offsets_refuted.

(** Apart from such rows it holds: the section says what DWARF says, only inside
    functions, and never two things. *)
Theorem C49_end_to_end_partial : forall md md' md'' op eh s e bs,
  eh_typed eh -> dwarf2sframe md op eh = Ok s ->
  build md' e s = Ok bs -> wf_mode md'' -> rust_slice md'' bs ->
  (forall f, last_at eh f -> rows_disjoint f /\
     forall r, In r (wide_rows f) -> ~ clash (op_arch op) (fixed_ra_of op eh) r) ->
  exists sf, load md'' e bs = Ok sf /\
    (forall a r, dwarf_says eh a r -> exists u, section_says md'' e sf a u /\ matches (op_arch op) r u) /\
    (forall a u, section_says md'' e sf a u ->
       exists f r, last_at eh f /\ in_range (df_start f) (df_len f) a /\ In r (wide_rows f) /\ dr_start r <= a) /\
    (forall a u u', section_says md'' e sf a u -> section_says md'' e sf a u' -> u = u').
Proof. exact conv_end_to_end. Qed.
Print Assumptions C49_end_to_end_partial.

Example C49_case : forall md e,
  eh_typed sample /\ dwarf2sframe md amd sample = Ok sample_sfb /\ build rel64 e sample_sfb = Ok (sample_bytes e) /\
  rust_slice dev32 (sample_bytes e) /\
  (forall f, last_at sample f -> rows_disjoint f /\
     forall r, In r (wide_rows f) -> ~ clash (op_arch amd) (fixed_ra_of amd sample) r) /\
  dwarf_says sample 0x1002 (amd_row 0x1001 0x1004 7 16 (ROffset (-16))).
Proof.
  intros md e. split; [apply sample_typed|]. split; [apply sample_converts|]. split; [apply sample_builds|].
  split; [apply sample_slice, wf_dev32|]. split; [apply sample_rows|apply sample_says].
Qed.

(** * C50 The converter reports bad input as an error, never a panic: false *)

Theorem C50_rejected_rows_panic_refuted :
  Forall eh_typed [ra_elsewhere; row_outside; row_twice; row_far; row_in_front] /\
  Forall (fun eh => dwarf2sframe rel64 amd eh = Panic) [ra_elsewhere; row_outside; row_twice; row_far] /\
  dwarf2sframe dev64 amd row_in_front = Panic /\
  dwarf2sframe rel64 amd row_in_front = Err (InvalidRowOffset 0xfff (2 ^ 64 - 1)).
Proof. exact rejected_rows_panic. Qed.
Print Assumptions C50_rejected_rows_panic_refuted.

(** Exactly when it panics, and how it ends otherwise. *)
Theorem C50_panic_exact_partial : forall md op eh,
  eh_typed eh -> (dwarf2sframe md op eh = Panic <-> section_problem md op eh Panic).
Proof. exact conv_panic_exact. Qed.
Print Assumptions C50_panic_exact_partial.

Theorem C50_outcome_exact_partial : forall md op eh q,
  eh_typed eh ->
  (forget (dwarf2sframe md op eh) = q <->
   (q = Ok tt /\ section_fine md op eh) \/ section_problem md op eh q).
Proof. exact dwarf2sframe_exact. Qed.
Print Assumptions C50_outcome_exact_partial.

(** Rows inside their function, in distinct places, with the fixed RA offset. *)
Theorem C50_no_panic_partial : forall md op eh,
  eh_typed eh -> (forall f, In f (functions (entries_of eh)) -> tame md op (fixed_ra_of op eh) f) ->
  dwarf2sframe md op eh <> Panic.
Proof. exact conv_no_panic. Qed.
Print Assumptions C50_no_panic_partial.

Example C50_case : forall md,
  eh_typed sample /\ (forall f, In f (functions (entries_of sample)) -> tame md amd (fixed_ra_of amd sample) f) /\
  length (functions (entries_of sample)) = 2%nat.
Proof. intros md. split; [apply sample_typed|]. split; [apply sample_tame|reflexivity]. Qed.

(** * C51 The first unrepresentable entry stops the conversion with its error: false *)

Theorem C51_end_beyond_accepted_refuted :
  eh_typed long_eh /\ i32_max < df_start long_fn + df_len long_fn /\
  entries_of long_eh = [DwCie; DwGoodFde long_fn] /\
  exists s, dwarf2sframe rel64 amd long_eh = Ok s /\ length (fdes_of s) = 1%nat.
Proof. exact end_beyond_accepted. Qed.
Print Assumptions C51_end_beyond_accepted_refuted.

Theorem C51_panic_hides_error_refuted :
  eh_typed panic_first /\ In (DwBadFde (GimliError 1)) (entries_of panic_first) /\
  dwarf2sframe rel64 amd panic_first = Panic.
Proof. exact panic_hides_error. Qed.
Print Assumptions C51_panic_hides_error_refuted.

(** The first entry that does not parse or whose start or length is beyond
    [i32::MAX] does stop it, if the entries in front of it are fine. *)
Theorem C51_first_error_partial : forall md op eh pre x post er,
  eh_typed eh -> entries_of eh = pre ++ x :: post -> Forall (entry_fine md op (fixed_ra_of op eh)) pre ->
  entry_error x er -> (forall f, x = DwGoodFde f -> dump_fine md op f) ->
  dwarf2sframe md op eh = Err er.
Proof. exact conv_first_error. Qed.
Print Assumptions C51_first_error_partial.

Theorem C51_end_error_partial : forall md op eh g,
  eh_typed eh -> Forall (entry_fine md op (fixed_ra_of op eh)) (entries_of eh) ->
  ents_end (eh_entries eh) = Some g ->
  dwarf2sframe md op eh = Err (InvalidEhFrameEntry g).
Proof. exact conv_end_error. Qed.
Print Assumptions C51_end_error_partial.

Theorem C51_ok_means_clean_partial : forall md op eh s,
  eh_typed eh -> dwarf2sframe md op eh = Ok s ->
  ents_end (eh_entries eh) = None /\
  (forall g, ~ In (DwBadFde g) (entries_of eh)) /\
  forall f, In (DwGoodFde f) (entries_of eh) ->
    df_start f <= i32_max /\ df_len f <= i32_max /\ exists l, df_rows f = inl (DwRows l None) /\
    forall r, In r l -> wide r -> 0 <= dr_start r - df_start f < df_len f.
Proof. exact conv_ok_clean. Qed.
Print Assumptions C51_ok_means_clean_partial.

Example C51_case : forall md,
  let eh := EhFrame false (DwEntries (entries_of sample ++ [DwBadFde (GimliError 3); DwGoodFde long_fn]) None) in
  eh_typed eh /\ Forall (entry_fine md amd (fixed_ra_of amd eh)) (entries_of sample) /\
  entry_error (DwBadFde (GimliError 3)) (InvalidDwarfFde (GimliError 3)) /\
  dwarf2sframe rel64 amd eh = Err (InvalidDwarfFde (GimliError 3)).
Proof.
  intros md eh. split; [|split; [|split; [constructor|vm_compute; reflexivity]]].
  - unfold eh. typed_eh.
  - destruct (dwarf2sframe_converted md amd sample sample_sfb sample_typed (sample_converts md)) as [[H _] _ _]. exact H.
Qed.

(** * C52 Zero-width rows have no effect *)

Theorem C52_zero_width_ignored : forall md op eh,
  dwarf2sframe md op (strip eh) = dwarf2sframe md op eh.
Proof. exact zero_width_ignored. Qed.
Print Assumptions C52_zero_width_ignored.

(** [strip] removes something here. *)
Example C52_case : length (dw_rows_of fn_prologue) = 5%nat /\ length (dw_rows_of (strip_fde fn_prologue)) = 4%nat /\
  Forall wide (dw_rows_of (strip_fde fn_prologue)).
Proof.
  split; [reflexivity|]. split; [reflexivity|]. repeat (apply Forall_cons || apply Forall_nil); unfold wide; cbn; lia.
Qed.

(** * C53 Merge options are pure optimisations *)

Theorem C53_merging_harmless : forall md op eh v w,
  eh_typed eh ->
  same_unwinding (dwarf2sframe md op eh) (dwarf2sframe md (set_merge_fres v (set_merge_fdes w op)) eh).
Proof. exact merging_harmless. Qed.
Print Assumptions C53_merging_harmless.

(** Merging functions never does anything. *)
Theorem C53_function_merging_does_nothing : forall md op eh v,
  eh_typed eh -> dwarf2sframe md (set_merge_fdes v op) eh = dwarf2sframe md op eh.
Proof. exact function_merging_does_nothing. Qed.
Print Assumptions C53_function_merging_does_nothing.

(** Merging rows does. *)
Example C53_case : eh_typed merge_eh /\
  (exists s s', dwarf2sframe rel64 amd merge_eh = Ok s /\ dwarf2sframe rel64 (set_merge_fres false amd) merge_eh = Ok s' /\
     map (fun b => length (rows_of b)) (fdes_of s) = [1%nat] /\ map (fun b => length (rows_of b)) (fdes_of s') = [2%nat]).
Proof.
  split; [typed_eh|]. do 2 eexists. split; [vm_compute; reflexivity|]. split; [vm_compute; reflexivity|]. split; reflexivity.
Qed.

(** * C54 Diagnostics options do not change the result: false for debugdump *)

Theorem C54_warnings_harmless_partial : forall md op eh v,
  eh_typed eh -> dwarf2sframe md (set_warnings v op) eh = dwarf2sframe md op eh.
Proof. exact warnings_harmless. Qed.
Print Assumptions C54_warnings_harmless_partial.

Theorem C54_dumping_changes_result_refuted :
  eh_typed bad_expression /\ eh_typed dump_overflow /\
  (exists s, dwarf2sframe rel64 amd bad_expression = Ok s) /\
  dwarf2sframe rel64 (set_debugdump true amd) bad_expression = Err (InvalidDwarfFde (GimliError 7)) /\
  dwarf2sframe dev64 amd dump_overflow = Err (InvalidStartAddress (2 ^ 64 - 1)) /\
  dwarf2sframe dev64 (set_debugdump true amd) dump_overflow = Panic.
Proof. exact dumping_changes_result. Qed.
Print Assumptions C54_dumping_changes_result_refuted.

Theorem C54_dumping_harmless_partial : forall md op eh v,
  eh_typed eh -> (forall f, In f (functions (entries_of eh)) -> dumpable md f) ->
  dwarf2sframe md (set_debugdump v op) eh = dwarf2sframe md op eh.
Proof. exact debugdump_harmless. Qed.
Print Assumptions C54_dumping_harmless_partial.

Example C54_case : forall md,
  eh_typed sample /\ (forall f, In f (functions (entries_of sample)) -> dumpable md f).
Proof.
  intros md. split; [apply sample_typed|]. intros f [<-|[<-|[]]]; (split; [reflexivity|cbn; lia]).
Qed.
