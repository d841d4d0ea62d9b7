(** Properties C83 to C87: what the first-generation converter prints. *)
From Coq Require Import String.
From Verif Require Import V1Witness.
Local Open Scope string_scope.

(** * C83 Input that cannot be decoded is an error: false *)

(** An expression of a row that ends too early stops the program, in all
    builds. *)
Theorem C83_cut_expression_refuted :
  (forall m, file_typed (file_of m [cut_cfa])) /\ (forall m, file_typed (file_of m [cut_rule])) /\
  (forall md m, snd (v1_said md m [cut_cfa]) = Panic) /\ (forall md m, snd (v1_said md m [cut_rule]) = Panic).
Proof. exact cut_expression_crashes. Qed.
Print Assumptions C83_cut_expression_refuted.

(** When it crashes. *)
Theorem C83_crashes_partial : forall p md native file, file_typed file ->
  (snd (v1_main_loud p md native (Some file)) = Panic <->
   (exists addr, has_section (elf_sections file) ".eh_frame" addr) /\
   exists parse, elf_eh_frame file = Some parse /\ v1_crash md (parse (tool_setup md (elf_sections file)))).
Proof. exact v1_crashes. Qed.
Print Assumptions C83_crashes_partial.

Theorem C83_no_crash_partial : forall p md native file, file_typed file ->
  Forall (fun r => row_printable r = true) (all_rows (v1_entries_of md file)) ->
  (overflow_checks md = false \/
   forall f r, In f (functions (v1_entries_of md file)) -> In r (dw_rows_of f) -> df_start f <= dr_start r) ->
  snd (v1_main_loud p md native (Some file)) <> Panic.
Proof. exact v1_no_crash. Qed.
Print Assumptions C83_no_crash_partial.

(** The same expression in the instructions of a function is reported. *)
Example C83_instruction_case : forall md m, exists e, snd (v1_said md m [cut_insn]) = Err e.
Proof. exact cut_instruction_reported. Qed.

Example C83_case : forall md m, file_typed (file_of m [fn_plt]) /\
  Forall (fun r => row_printable r = true) (all_rows (v1_entries_of md (file_of m [fn_plt]))) /\
  (forall f r, In f (functions (v1_entries_of md (file_of m [fn_plt]))) -> In r (dw_rows_of f) -> df_start f <= dr_start r) /\
  exists r x, In r (all_rows (v1_entries_of md (file_of m [fn_plt]))) /\ dr_cfa r = CfaExpression x /\ ex_ops x <> [].
Proof. exact plt_no_crash. Qed.

(** * C84 One report for each row left without information: false *)

(** A row that is converted is reported, and a row is reported twice. *)
Theorem C84_reports_refuted : forall m,
  file_typed (file_of m [odd_only]) /\ finished (snd (v1_said rel64 m [odd_only])) /\
  Forall (fun r => ~ v1_lost r) (all_rows (v1_entries_of rel64 (file_of m [odd_only]))) /\
  stderr_of (fst (v1_said rel64 m [odd_only])) = ["unsupported recovery rule for RBP: <same>"] /\
  file_typed (file_of m [odd_both]) /\ finished (snd (v1_said rel64 m [odd_both])) /\
  Datatypes.length (all_rows (v1_entries_of rel64 (file_of m [odd_both]))) = 1%nat /\
  Datatypes.length (stderr_of (fst (v1_said rel64 m [odd_both]))) = 2%nat.
Proof. exact v1_reports_wrongly. Qed.
Print Assumptions C84_reports_refuted.

(** For each row: a note if the rule of the frame pointer is odd, then the reason
    if the row is left without information. *)
Theorem C84_reports_partial : forall p md native file ev o,
  tidy_texts (p1 p) (rule_table (elf_architecture file)) ->
  Forall row_payload_typed (all_rows (v1_entries_of md file)) ->
  v1_main_loud p md native (Some file) = (ev, o) ->
  exists pre post notes rest, all_rows (v1_entries_of md file) = (pre ++ post)%list /\
    stderr_of ev = (concat notes ++ rest)%list /\ Forall2 (v1_reported p (elf_architecture file)) pre notes /\
    (Datatypes.length rest <= 2)%nat /\ (finished o -> post = [] /\ rest = []).
Proof. exact v1_reports. Qed.
Print Assumptions C84_reports_partial.

Example C84_case : tidy_texts (p1 some_texts1) (rule_table ElfX86_64) /\
  Forall row_payload_typed (all_rows (v1_entries_of rel64 v1_file)) /\
  finished (snd (v1_main_loud some_texts1 rel64 LE (Some v1_file))) /\
  stderr_of (fst (v1_main_loud some_texts1 rel64 LE (Some v1_file))) =
    ["unsupported recovery rule for RBP: <same>";
     "DWARF FDE unwind table row requires evaluating a DWARF expression: Evaluation";
     "unsupported recovery rule for RBP: 3"].
Proof. split; [apply some_tidy|exact v1_sample_reports]. Qed.

(** * C85 Registers have the names of the file's architecture: false *)

(** The same register has two names in one line. *)
Theorem C85_names_refuted :
  pr_register some_texts TAArch64 31 = Some "SP" /\ pr_register some_texts TAArch64 29 = Some "X29" /\
  file_typed (file_of ElfAarch64 [arm_fde]) /\ finished (snd (v1_said rel64 ElfAarch64 [arm_fde])) /\
  In "    cfa:    31+16" (stdout_of (fst (v1_said rel64 ElfAarch64 [arm_fde]))) /\
  In "    reg:    29 = X29" (stdout_of (fst (v1_said rel64 ElfAarch64 [arm_fde]))).
Proof. exact names_confused. Qed.
Print Assumptions C85_names_refuted.

(** Registers in instructions, of the CFA and those that are recovered. *)
Theorem C85_registers_partial : forall m,
  names_right m (fun pr r => v1_register (Printers1 pr (fun _ => "") (fun _ => "")) r) <-> m = ElfX86_64 \/ m = ElfX86_64_X32.
Proof. exact v1_names. Qed.
Print Assumptions C85_registers_partial.

(** Registers in rules. *)
Theorem C85_rules_partial : forall m,
  names_right m (fun pr r => rule_register (Printers1 pr (fun _ => "") (fun _ => "")) m r) <-> m <> ElfX86_64_X32 /\ m <> ElfI386.
Proof. exact rule_names. Qed.
Print Assumptions C85_rules_partial.

(** * C86 The dump shows every section, function, instruction and row *)

Theorem C86_dump : forall p md native file ev o,
  plain_texts (p1 p) (Some TX86_64) -> tidy_texts (p1 p) (Some TX86_64) -> tidy_texts (p1 p) (rule_table (elf_architecture file)) ->
  Forall (fun s => in_u64 (snd s)) (elf_sections file) ->
  Forall function_full_typed (functions (v1_entries_of md file)) ->
  v1_main_loud p md native (Some file) = (ev, o) ->
  stdout_of ev = [] /\ ~ finished o \/
  exists sections pre post whole rest views,
    functions (v1_entries_of md file) = (pre ++ post)%list /\ stdout_of ev = (sections ++ whole ++ rest)%list /\
    sections_shown (elf_sections file) sections /\
    read_dump1 whole = Some views /\ Forall2 (function_shown1 p (elf_architecture file)) pre views /\
    (finished o -> post = [] /\ rest = []).
Proof. exact v1_dump_shown. Qed.
Print Assumptions C86_dump.

(** What is printed has no influence on the result. *)
Theorem C86_result : forall p md native file,
  snd (v1_main_loud p md native (Some file)) = v1_main md native row_printable (Some file).
Proof. exact (fun p md native file => v1_main_result p md native (Some file)). Qed.
Print Assumptions C86_result.

Example C86_case : plain_texts (p1 some_texts1) (Some TX86_64) /\ tidy_texts (p1 some_texts1) (Some TX86_64) /\
  Forall (fun s => in_u64 (snd s)) (elf_sections (file_of ElfX86_64 [fn_plt])) /\
  Forall function_full_typed (functions (v1_entries_of rel64 (file_of ElfX86_64 [fn_plt]))) /\
  finished (snd (v1_said rel64 ElfX86_64 [fn_plt])) /\
  exists views, read_dump1 (skipn 3 (stdout_of (fst (v1_said rel64 ElfX86_64 [fn_plt])))) = Some [views] /\
    fw_start views = 0x2000 /\ fw_end views = 0x2040 /\ Datatypes.length (fw_insns views) = 6%nat /\
    map rw_sframe (fw_rows views) = [Some (16, Some (-8), None); Some (24, Some (-8), None); None] /\
    map (fun r => expression_lines (rv_cfa (rw_row r))) (skipn 2 (fw_rows views)) =
      [["DW_OP_register_offset RSP 8 0"; "DW_OP_register_offset RA 0 0"; "DW_OP_uconst 15"; "DW_OP_and"; "DW_OP_uconst 11";
        "DW_OP_ge"; "DW_OP_uconst 3"; "DW_OP_shl"; "DW_OP_plus"]].
Proof. split; [apply some_plain|]. split; [apply some_tidy|exact v1_dump_case]. Qed.

(** * C87 Different expressions are dumped differently *)

(** Whole dumps: the instructions are the same, and where both inputs have an
    expression in a CFA or rule, it is the same. *)
Theorem C87_dumps : forall p md md' native native' file file' ev ev' o o',
  (forall t, t = Some TX86_64 \/ t = rule_table (elf_architecture file) -> clear_texts (p1 p) t /\ plain_texts (p1 p) t /\ tidy_texts (p1 p) t) ->
  insn_texts (p1 p) -> (forall d d', pr_die (p1 p) d = pr_die (p1 p) d' -> d = d') ->
  elf_architecture file' = elf_architecture file -> elf_sections file' = elf_sections file ->
  Forall function_full_typed (functions (v1_entries_of md file)) -> Forall function_full_typed (functions (v1_entries_of md' file')) ->
  v1_main_loud p md native (Some file) = (ev, o) -> finished o ->
  v1_main_loud p md' native' (Some file') = (ev', o') -> finished o' ->
  stdout_of ev = stdout_of ev' ->
  Forall2 (function_alike (p1 p)) (functions (v1_entries_of md file)) (functions (v1_entries_of md' file')).
Proof. exact v1_dumps_apart. Qed.
Print Assumptions C87_dumps.

(** The text of an expression, with any indentation. *)
Theorem C87_expressions : forall p t n x y s,
  clear_texts (p1 p) t -> plain_texts (p1 p) t -> tidy_texts (p1 p) t ->
  (forall d d', pr_die (p1 p) d = pr_die (p1 p) d' -> d = d') ->
  expression_text p (register_text (p1 p) t) (spaces n) x = Some s ->
  expression_text p (register_text (p1 p) t) (spaces n) y = Some s ->
  Forall2 (same_operation (p1 p)) (ex_ops x) (ex_ops y).
Proof. exact expressions_apart. Qed.
Print Assumptions C87_expressions.

Example C87_case :
  (forall t, clear_texts some_texts t /\ plain_texts some_texts t /\ tidy_texts some_texts t) /\
  insn_texts some_texts /\ (forall d d', pr_die some_texts d = pr_die some_texts d' -> d = d') /\
  stdout_of (fst (v1_said rel64 ElfX86_64 [typed_fde_dw 0x2a])) <> stdout_of (fst (v1_said rel64 ElfX86_64 [typed_fde_dw 0x31])) /\
  finished (snd (v1_said rel64 ElfX86_64 [typed_fde_dw 0x2a])) /\ finished (snd (v1_said rel64 ElfX86_64 [typed_fde_dw 0x31])) /\
  Forall function_full_typed (functions (v1_entries_of rel64 (file_of ElfX86_64 [typed_fde_dw 0x2a]))) /\
  Forall function_full_typed (functions (v1_entries_of rel64 (file_of ElfX86_64 [typed_fde_dw 0x31]))).
Proof. split; [exact some_readable|]. split; [exact (fun _ => eq_refl)|]. split; [exact some_die|exact v1_types_apart]. Qed.
