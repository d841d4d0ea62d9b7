(** C89 to C93 with seven small repairs of [dwarfdump]: what would have to be changed. *)
From Coq Require Import String.
From Verif Require Import DdRepairedProps.
Local Open Scope string_scope.

(** Without the repairs this is the program as it is. *)
Theorem C90_unrepaired_partial : forall p object md path,
  dwarfdump_main_with dd_as_is p object md path = loud_err as_was (dwarfdump_main p md path).
Proof. exact as_is_main. Qed.
Print Assumptions C90_unrepaired_partial.

(** * C89 The exit status of dwarfdump says whether the dump is complete *)

(** The program fails after an error, and says which; otherwise everything is shown. *)
Theorem C89_repaired_partial : forall r p object md path file ents ev o,
  rd_status r = true -> plain_texts (pd p) (dd_table_with r (dd_arch file)) -> pe_plain p -> noteless (pd p) ->
  dd_entries_of md file = Some ents -> Forall dd_typed (dde_list ents) ->
  dwarfdump_main_with r p object md (Some (path, Some file)) = (ev, o) ->
  (o = Ok tt <-> Forall (printable_with r md) (dde_list ents) /\ dde_end ents = None) /\
  (o = Ok tt -> stderr_of ev = [] /\ exists lines views, stdout_of ev = dd_title :: lines /\
     read_dwarfdump (besides_notes lines) = Some views /\
     Forall2 (entry_shown_by (encoding_shown_with r p) p (dd_table_with r (dd_arch file))) (dde_list ents) views) /\
  (forall f, o = Err f -> exists f', f = DdDump f' /\
     stderr_of ev = ["Failed to dump '" ++ path ++ "': " ++ failure_text p object f']).
Proof. exact repaired_status. Qed.
Print Assumptions C89_repaired_partial.

Theorem C89_repaired_case :
  forall md,
  Forall dd_typed [cut_dd_fde; last_dd_fde] /\
  dd_said_with dd_all_repairs md ElfX86_64 [cut_dd_fde; last_dd_fde] (Some (GimliError 7)) =
  ([ Out "Exception handling frame information for section .eh_frame"; Out ""; Out "0x0000007c: FDE";
     Out "        length: 0x0000001c"; Out "   CIE_pointer: 0x00000000"; Out "    start_addr: 0x0000000000001020";
     Out "    range_size: 0x0000000000000010 (end_addr = 0x0000000000001030)"; Out "  Instructions:";
     Out "                DW_CFA_def_cfa_expression (...)"; Out "                  DW_OP_register_offset RSP 8 0";
     Out "Failed to decode expression: error 19"; Out "                DW_CFA_nop"; Out "";
     Out ""; Out "0x0000009c: FDE"; Out "        length: 0x0000001c"; Out "   CIE_pointer: 0x00000000";
     Out "    start_addr: 0xfffffffffffffff0";
     Out "    range_size: 0x0000000000000010 (end_addr = 0x0000000000000000)"; Out "  Instructions:";
     Out "                DW_CFA_nop"; Out "";
     ErrOut "Failed to dump 'a.out': GimliError(Error7)" ], Err (DdDump (DumpGimli (GimliError 7)))).
Proof. exact repaired_cut_dump. Qed.
Print Assumptions C89_repaired_case.

(** All other repairs, and a file that gimli cannot read to the end. *)
Theorem C89_needed_refuted :
  forall md,
  dwarfdump_main_with but_status some_dd "e" md (Some ("a.out", Some (dd_of ElfX86_64 [] (Some (GimliError 7))))) =
  ([ Out "Exception handling frame information for section .eh_frame"; ErrOut "Failed to dump 'a.out': GimliError(Error7)" ], Ok tt).
Proof. exact status_needed. Qed.
Print Assumptions C89_needed_refuted.

(** * C90 dwarfdump never crashes *)

(** For every file, typed or not. *)
Theorem C90_repaired_partial : forall r p object md path,
  rd_usage r = true -> rd_unwrap r = true -> rd_wrap r = true ->
  snd (dwarfdump_main_with r p object md path) <> Panic.
Proof. exact repaired_no_crash. Qed.
Print Assumptions C90_repaired_partial.

(** What a missing argument and a section that cannot be decompressed lead to. *)
Theorem C90_repaired_failures_partial : forall r p object md path m,
  rd_usage r = true -> rd_unwrap r = true -> rd_status r = true ->
  dwarfdump_main_with r p object md None = ([], Err DdUsage) /\
  dwarfdump_main_with r p object md (Some (path, Some {| dd_elf := file_of m []; dd_parse := None |})) =
  ([ErrOut ("Failed to dump '" ++ path ++ "': ObjectError(" ++ object ++ ")")], Err (DdDump DumpObject)).
Proof. exact repaired_failures. Qed.
Print Assumptions C90_repaired_failures_partial.

(** Each of the three is needed. *)
Theorem C90_needed_refuted :
  snd (dwarfdump_main_with but_usage some_dd "e" rel64 None) = Panic /\
  snd (dwarfdump_main_with but_unwrap some_dd "e" rel64 (Some ("a.out", Some {| dd_elf := file_of ElfX86_64 []; dd_parse := None |}))) = Panic /\
  snd (dwarfdump_main_with but_wrap some_dd "e" dev64 (Some ("a.out", Some (dd_of ElfX86_64 [last_dd_fde] None)))) = Panic.
Proof. exact crash_repairs_needed. Qed.
Print Assumptions C90_needed_refuted.

(** * C91 dwarfdump names registers by the file's architecture *)

Theorem C91_repaired_partial : forall r m,
  rd_names r = true -> dd_table_with r m = names_for m /\
  names_right m (fun pr reg => dd_register_with r (bare_dd pr) m reg).
Proof. exact repaired_names. Qed.
Print Assumptions C91_repaired_partial.

Theorem C91_needed_refuted :
  ~ names_right ElfAarch64 (fun pr reg => dd_register_with but_names (bare_dd pr) ElfAarch64 reg).
Proof. exact names_needed. Qed.
Print Assumptions C91_needed_refuted.

(** * C92 A malformed entry does not hide the others *)

(** All entries are shown up to the place where gimli cannot go on.  For each expression that
    cannot be decoded there is one line more. *)
Theorem C92_repaired_partial : forall r p object md path file ents ev o,
  rd_block r = true -> rd_wrap r = true -> plain_texts (pd p) (dd_table_with r (dd_arch file)) -> pe_plain p -> noteless (pd p) ->
  dd_entries_of md file = Some ents -> Forall dd_typed (dde_list ents) ->
  dwarfdump_main_with r p object md (Some (path, Some file)) = (ev, o) ->
  exists lines views, stdout_of ev = dd_title :: lines /\
    read_dwarfdump (besides_notes lines) = Some views /\
    Forall2 (entry_shown_by (encoding_shown_with r p) p (dd_table_with r (dd_arch file))) (dde_list ents) views /\
    notes lines = flat_map (entry_notes (pd p)) (dde_list ents).
Proof. exact repaired_others. Qed.
Print Assumptions C92_repaired_partial.

(** Both are needed. *)
Theorem C92_needed_refuted :
  In some_dd_fde [cut_dd_fde; some_dd_fde] /\
  ~ In "0x0000001c: FDE" (stdout_of (fst (dd_said_with but_block rel64 ElfX86_64 [cut_dd_fde; some_dd_fde] None))) /\
  ~ In "0x0000001c: FDE" (stdout_of (fst (dd_said_with but_wrap dev64 ElfX86_64 [last_dd_fde; some_dd_fde] None))) /\
  In "0x0000001c: FDE" (stdout_of (fst (dd_said_with dd_all_repairs rel64 ElfX86_64 [cut_dd_fde; some_dd_fde] None))) /\
  In "0x0000001c: FDE" (stdout_of (fst (dd_said_with dd_all_repairs dev64 ElfX86_64 [last_dd_fde; some_dd_fde] None))).
Proof. exact others_repairs_needed. Qed.
Print Assumptions C92_needed_refuted.

(** The texts used in the cases. *)
Theorem C92_repaired_case : forall t,
  clear_texts (pd some_dd) t /\ plain_texts (pd some_dd) t /\ tidy_texts (pd some_dd) t /\
  insn_texts (pd some_dd) /\ pe_plain some_dd /\ pe_apart some_dd /\ (forall d d', pr_die (pd some_dd) d = pr_die (pd some_dd) d' -> d = d') /\
  noteless (pd some_dd).
Proof. exact some_dd_all. Qed.
Print Assumptions C92_repaired_case.

(** * C93 dwarfdump tells entries apart *)

Theorem C93_repaired_partial : forall r p object md md' path path' file file' ents ents' ev ev',
  let t := dd_table_with r (dd_arch file) in
  rd_bit r = true ->
  clear_texts (pd p) t -> plain_texts (pd p) t -> tidy_texts (pd p) t -> insn_texts (pd p) -> noteless (pd p) -> pe_plain p -> pe_apart p ->
  (forall d d', pr_die (pd p) d = pr_die (pd p) d' -> d = d') -> dd_table_with r (dd_arch file') = t ->
  dd_entries_of md file = Some ents -> Forall dd_typed (dde_list ents) ->
  dd_entries_of md' file' = Some ents' -> Forall dd_typed (dde_list ents') ->
  dwarfdump_main_with r p object md (Some (path, Some file)) = (ev, Ok tt) -> stderr_of ev = [] ->
  dwarfdump_main_with r p object md' (Some (path', Some file')) = (ev', Ok tt) -> stderr_of ev' = [] ->
  stdout_of ev = stdout_of ev' -> Forall2 (dd_same_by eq (pd p)) (dde_list ents) (dde_list ents').
Proof. exact repaired_apart. Qed.
Print Assumptions C93_repaired_partial.

Theorem C93_repaired_case :
  forall md,
  Forall dd_typed [cie_enc 0x1b] /\ Forall dd_typed [cie_enc 0x9b] /\
  In " lsda_encoding: DW_EH_PE_pcrel/DW_EH_PE_sdata4" (stdout_of (fst (dd_said_with dd_all_repairs md ElfX86_64 [cie_enc 0x1b] None))) /\
  In " lsda_encoding: DW_EH_PE_pcrel/DW_EH_PE_sdata4/Unknown DwEhPe: 128" (stdout_of (fst (dd_said_with dd_all_repairs md ElfX86_64 [cie_enc 0x9b] None))).
Proof. exact repaired_bit_shown. Qed.
Print Assumptions C93_repaired_case.

Theorem C93_needed_refuted :
  forall md m,
  dd_said_with but_bit md m [cie_enc 0x1b] None = dd_said_with but_bit md m [cie_enc 0x9b] None /\
  snd (dd_said_with but_bit md m [cie_enc 0x1b] None) = Ok tt /\ stderr_of (fst (dd_said_with but_bit md m [cie_enc 0x1b] None)) = [].
Proof. exact bit_needed. Qed.
Print Assumptions C93_needed_refuted.
