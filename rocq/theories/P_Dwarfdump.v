(** Properties C88 to C93: what [dwarfdump] prints. *)
From Coq Require Import String.
From Verif Require Import DdWitness.
Local Open Scope string_scope.

(** * C88 dwarfdump shows every entry *)

Theorem C88_dump_shown :
  forall p md path file ents ev o,
  plain_texts (pd p) (dd_table (dd_arch file)) -> pe_plain p ->
  dd_entries_of md file = Some ents -> Forall dd_typed (dde_list ents) ->
  dwarfdump_main p md (Some (path, Some file)) = (ev, o) ->
  exists pre post whole rest views, dde_list ents = (pre ++ post)%list /\ stdout_of ev = (dd_title :: whole ++ rest)%list /\
    read_dwarfdump whole = Some views /\ Forall2 (entry_shown p (dd_table (dd_arch file))) pre views /\
    (post = [] /\ rest = [] \/ exists e post', post = e :: post' /\ ~ printable md e) /\
    (o = Ok tt -> stderr_of ev = [] -> post = [] /\ rest = []).
Proof. exact dd_dump_shown. Qed.
Print Assumptions C88_dump_shown.

Example C88_case :
  Forall dd_typed [DdCie some_cie; some_dd_fde; bad_dd_fde; odd_dd_fde] /\
  forall md, dd_said md ElfX86_64 [DdCie some_cie; some_dd_fde; bad_dd_fde; odd_dd_fde] None =
  (map Out
    [ "Exception handling frame information for section .eh_frame"; ""; "0x00000000: CIE"; "        length: 0x00000018";
      "       version: 0x01"; "    code_align: 1"; "    data_align: -8"; "   ra_register: RA";
      " lsda_encoding: DW_EH_PE_pcrel/DW_EH_PE_sdata4";
      "   personality: DW_EH_PE_pcrel/DW_EH_PE_sdata4 (0x0000000000004020)";
      "  fde_encoding: DW_EH_PE_pcrel/DW_EH_PE_sdata4";
      "                DW_CFA_def_cfa (RSP, 8)"; "                DW_CFA_offset (RA, 1)"; "                DW_CFA_nop";
      "  Instructions: Init State:"; "";
      ""; "0x0000001c: FDE"; "        length: 0x0000001c"; "   CIE_pointer: 0x00000000";
      "    start_addr: 0x0000000000001000";
      "    range_size: 0x0000000000000010 (end_addr = 0x0000000000001010)";
      "          lsda: 0x0000000000002000"; "  Instructions:";
      "                DW_CFA_advance_loc (1)"; "                DW_CFA_def_cfa_offset (16)";
      "                DW_CFA_def_cfa_expression (...)";
      "                  DW_OP_register_offset RSP 8 0"; "                  DW_OP_register_offset RA 0 0";
      "                  DW_OP_uconst 15"; "                  DW_OP_and"; "                  DW_OP_uconst 11";
      "                  DW_OP_ge"; "                  DW_OP_uconst 3"; "                  DW_OP_shl"; "                  DW_OP_plus";
      "                Other"; "";
      ""; "0x0000003c: FDE"; "        length: 0x0000001c"; "   CIE_pointer: 0x00000077";
      "Failed to parse FDE: error 5";
      ""; "0x0000005c: FDE"; "        length: 0x0000001c"; "   CIE_pointer: 0x00000000";
      "    start_addr: 0x0000000000001010";
      "    range_size: 0x0000000000000010 (end_addr = 0x0000000000001020)";
      "  Instructions:"; "                DW_CFA_advance_loc (1)"; "Failed to decode CFI instruction: error 6"; "" ], Ok tt).
Proof. exact sample_dump. Qed.

Example C88_texts_case :
  forall t,
  clear_texts (pd some_dd) t /\ plain_texts (pd some_dd) t /\ tidy_texts (pd some_dd) t /\
  insn_texts (pd some_dd) /\ pe_plain some_dd /\ pe_apart some_dd /\ (forall d d', pr_die (pd some_dd) d = pr_die (pd some_dd) d' -> d = d').
Proof. exact some_dd_readable. Qed.

(** * C89 The exit status tells whether the dump is complete: false *)

Theorem C89_status_refuted :
  ~ (forall p md path file ents ev, dd_entries_of md file = Some ents -> Forall dd_typed (dde_list ents) ->
       dwarfdump_main p md (Some (path, Some file)) = (ev, Ok tt) -> Forall (printable md) (dde_list ents) /\ dde_end ents = None).
Proof. exact dd_status_silent. Qed.
Print Assumptions C89_status_refuted.

(** Complete dumps are those that report nothing. *)
Theorem C89_complete_partial :
  forall p md path file ents ev o,
  dd_entries_of md file = Some ents -> Forall dd_typed (dde_list ents) ->
  dwarfdump_main p md (Some (path, Some file)) = (ev, o) ->
  (o = Ok tt /\ stderr_of ev = [] <-> Forall (printable md) (dde_list ents) /\ dde_end ents = None).
Proof. exact dd_complete_iff. Qed.
Print Assumptions C89_complete_partial.

Example C89_stopped_case :
  forall md,
  dd_said md ElfX86_64 [] (Some (GimliError 7)) =
  ([ Out "Exception handling frame information for section .eh_frame"; ErrOut "Failed to dump 'a.out': GimliError(Error7)" ], Ok tt).
Proof. exact stopped_dump. Qed.
Example C89_case : forall md, Forall (printable md) [DdCie some_cie; some_dd_fde; bad_dd_fde; odd_dd_fde].
Proof. exact some_printable. Qed.

(** * C90 dwarfdump does not panic: false *)

Theorem C90_crashes_refuted :
  (forall p md, snd (dwarfdump_main p md None) = Panic) /\
  (forall p md path m, snd (dwarfdump_main p md (Some (path, Some {| dd_elf := file_of m []; dd_parse := None |}))) = Panic) /\
  Forall dd_typed [last_dd_fde] /\ dd_said dev64 ElfX86_64 [last_dd_fde] None =
    ([ Out "Exception handling frame information for section .eh_frame"; Out ""; Out "0x0000009c: FDE";
       Out "        length: 0x0000001c"; Out "   CIE_pointer: 0x00000000"; Out "    start_addr: 0xfffffffffffffff0" ], Panic) /\
  snd (dd_said rel64 ElfX86_64 [last_dd_fde] None) = Ok tt.
Proof. exact dd_crashes. Qed.
Print Assumptions C90_crashes_refuted.

Theorem C90_crash_iff_partial :
  forall p md path file,
  dd_file_typed md file ->
  (snd (dwarfdump_main p md (Some (path, Some file))) = Panic <->
   dd_entries_of md file = None \/
   exists ents pre e post, dd_entries_of md file = Some ents /\ dde_list ents = (pre ++ e :: post)%list /\
     Forall decodable pre /\ past_end md e).
Proof. exact dd_crash_iff. Qed.
Print Assumptions C90_crash_iff_partial.

Theorem C90_no_crash_partial :
  forall p md path file,
  dd_file_typed md file -> dd_entries_of md file <> None ->
  (overflow_checks md = false \/
   forall ents o n ci f, dd_entries_of md file = Some ents -> In (DdPartial o n ci (inl f)) (dde_list ents) -> dd_start f + dd_len f < 2 ^ 64) ->
  snd (dwarfdump_main p md (Some (path, Some file))) <> Panic.
Proof. exact dd_no_crash. Qed.
Print Assumptions C90_no_crash_partial.

(** * C91 dwarfdump names registers by the file's architecture: false *)

(** AArch64 registers get 32-bit Arm names. *)
Theorem C91_names_refuted :
  pr_register table_names TAArch64 0 = Some "x0" /\ pr_register table_names TArm 0 = Some "r0" /\
  dd_register (bare_dd table_names) ElfAarch64 0 = "r0".
Proof. exact dd_names_confused. Qed.
Print Assumptions C91_names_refuted.

(** The architectures whose registers are named right. *)
Theorem C91_names_partial :
  forall m,
  names_right m (fun pr r => dd_register (bare_dd pr) m r) <->
  match m with ElfX86_64 | ElfI386 | ElfArm | ElfOther _ _ => True | _ => False end.
Proof. exact dd_names. Qed.
Print Assumptions C91_names_partial.

Theorem C91_names_or_numbers_partial :
  forall p m r,
  m <> ElfAarch64 -> 0 <= r < 2 ^ 16 ->
  register_shown (pd p) (names_for m) r (dd_register p m r) \/ number 10 (dd_register p m r) = Some r.
Proof. exact dd_names_or_numbers. Qed.
Print Assumptions C91_names_or_numbers_partial.

(** * C92 A malformed entry does not hide the others: false *)

(** An expression that ends too early ends the dump. *)
Theorem C92_others_refuted :
  ~ (forall p md path file ents ev o, plain_texts (pd p) (dd_table (dd_arch file)) -> pe_plain p ->
       dd_entries_of md file = Some ents -> Forall dd_typed (dde_list ents) ->
       dwarfdump_main p md (Some (path, Some file)) = (ev, o) ->
       forall off n ci f, In (DdPartial off n ci f) (dde_list ents) -> In (fmt_hex_alt_pad 64 10 off ++ ": FDE") (stdout_of ev)).
Proof. exact dd_others_hidden. Qed.
Print Assumptions C92_others_refuted.

(** Entries that cannot be parsed and instructions that cannot be decoded do not. *)
Theorem C92_others_partial :
  forall p md path file ents ev o,
  plain_texts (pd p) (dd_table (dd_arch file)) -> pe_plain p ->
  dd_entries_of md file = Some ents -> Forall dd_typed (dde_list ents) ->
  Forall (printable md) (dde_list ents) ->
  dwarfdump_main p md (Some (path, Some file)) = (ev, o) ->
  o = Ok tt /\ exists whole views, stdout_of ev = dd_title :: whole /\ read_dwarfdump whole = Some views /\
    Forall2 (entry_shown p (dd_table (dd_arch file))) (dde_list ents) views.
Proof. exact dd_others_shown. Qed.
Print Assumptions C92_others_partial.

Example C92_case :
  forall md,
  Forall dd_typed [cut_dd_fde; some_dd_fde] /\
  dd_said md ElfX86_64 [cut_dd_fde; some_dd_fde] None =
  ([ Out "Exception handling frame information for section .eh_frame"; Out ""; Out "0x0000007c: FDE";
     Out "        length: 0x0000001c"; Out "   CIE_pointer: 0x00000000"; Out "    start_addr: 0x0000000000001020";
     Out "    range_size: 0x0000000000000010 (end_addr = 0x0000000000001030)"; Out "  Instructions:";
     Out "                DW_CFA_def_cfa_expression (...)"; Out "                  DW_OP_register_offset RSP 8 0";
     ErrOut "Failed to dump 'a.out': GimliError(Error19)" ], Ok tt).
Proof. exact cut_dump. Qed.

(** * C93 dwarfdump tells entries apart: false *)

(** The highest bit of encodings is not shown. *)
Theorem C93_bit_refuted :
  forall md m,
  Forall dd_typed [cie_enc 0x1b] /\ Forall dd_typed [cie_enc 0x9b] /\
  dd_said md m [cie_enc 0x1b] None = dd_said md m [cie_enc 0x9b] None /\ snd (dd_said md m [cie_enc 0x1b] None) = Ok tt /\
  stderr_of (fst (dd_said md m [cie_enc 0x1b] None)) = [] /\ 0x1b <> 0x9b.
Proof. exact dd_bit_lost. Qed.
Print Assumptions C93_bit_refuted.

(** Everything else is. *)
Theorem C93_apart_partial :
  forall p md md' path path' file file' ents ents' ev ev',
  let t := dd_table (dd_arch file) in
  clear_texts (pd p) t -> plain_texts (pd p) t -> tidy_texts (pd p) t -> insn_texts (pd p) -> pe_plain p -> pe_apart p ->
  (forall d d', pr_die (pd p) d = pr_die (pd p) d' -> d = d') -> dd_table (dd_arch file') = t ->
  dd_entries_of md file = Some ents -> Forall dd_typed (dde_list ents) ->
  dd_entries_of md' file' = Some ents' -> Forall dd_typed (dde_list ents') ->
  dwarfdump_main p md (Some (path, Some file)) = (ev, Ok tt) -> stderr_of ev = [] ->
  dwarfdump_main p md' (Some (path', Some file')) = (ev', Ok tt) -> stderr_of ev' = [] ->
  stdout_of ev = stdout_of ev' -> Forall2 (dd_same (pd p)) (dde_list ents) (dde_list ents').
Proof. exact dd_dumps_apart. Qed.
Print Assumptions C93_apart_partial.

(** A file that meets the conditions, with the sample above. *)
Example C93_case : forall md, Forall dd_typed [DdCie some_cie; some_dd_fde; bad_dd_fde; odd_dd_fde] /\
  dd_entries_of md (dd_of ElfX86_64 [DdCie some_cie; some_dd_fde; bad_dd_fde; odd_dd_fde] None) =
  Some (DdEntries [DdCie some_cie; some_dd_fde; bad_dd_fde; odd_dd_fde] None).
Proof. intros md. exact (conj (proj1 sample_dump) (dd_of_entries md _ _ _)). Qed.
