(** Property theorems about the tools run one after the other: C126. *)
From Coq Require Import String ZArith List.
From Verif Require Import PipeFacts PipeWitness.
Import ListNotations.
Open Scope Z_scope.
Open Scope list_scope.

(** * C126 The dump of a converted file shows what the DWARF says *)

(** The text [sframedump] prints of a section [dwarf2sframe2] wrote can be read back;
    it shows at every address of a function what the function's call frame program
    means there, and nothing else; at other addresses it shows nothing. *)
Theorem C126_dump_shows_programs : forall md md' args file out a parse dumped abi_name,
  let eh := file_eh md file parse in let op := cli_options args a (elf_endian file) in
  file_typed file -> dwarf2sframe2_main md args (Some file) = Ok out ->
  arch_of (elf_architecture file) = Some a -> elf_eh_frame file = Some parse ->
  holds_section dumped out -> wf_mode md' -> rust_slice md' (out_sframe out) -> (forall n, without newline_char (abi_name n)) ->
  (forall f, last_at eh f -> ends_in_range f /\ (exists c, follows_dwarf c f) /\
     forall r, In r (wide_rows f) -> ~ clash a (fixed_ra_of op eh) r) ->
  exists l h rest, sframedump_main md' (endian_of (elf_endian file)) (Some dumped) = Ok l /\
    read_dump (stdout_text abi_name l) = Some (h, rest) /\ stderr_text l = ""%string /\
    (forall c f x, last_at eh f -> follows_dwarf c f -> in_range (df_start f) (df_len f) x ->
       exists st u, cfi_at c f x = Some st /\ matches a (as_row st) u /\ dump_says rest x (looks u) /\
         forall v, dump_says rest x v -> v = looks u) /\
    forall x v, dump_says rest x v -> exists f, last_at eh f /\ in_range (df_start f) (df_len f) x.
Proof. exact dump_shows_programs. Qed.
Print Assumptions C126_dump_shows_programs.

(** The first converter. *)
Theorem C126_first_converter : forall md md' native p file out parse dumped abi_name,
  let ents := parse (tool_setup md (elf_sections file)) in
  file_typed file -> v1_main md native p (Some file) = Ok out -> elf_eh_frame file = Some parse ->
  holds_section dumped out -> wf_mode md' -> rust_slice md' (out_sframe out) -> (forall n, without newline_char (abi_name n)) ->
  (forall f, v1_last ents f -> ends_in_range f /\ (exists c, follows_dwarf c f) /\ forall r, In r (dw_rows_of f) -> ~ v1_clash r) ->
  exists l h rest, sframedump_main md' native (Some dumped) = Ok l /\
    read_dump (stdout_text abi_name l) = Some (h, rest) /\ stderr_text l = ""%string /\
    (forall c f x, v1_last ents f -> follows_dwarf c f -> in_range (df_start f) (df_len f) x ->
       exists st v, cfi_at c f x = Some st /\ dump_says rest x v /\
         (forall base cfa ra fp, v1_representable (as_row st) base cfa ra fp -> v = looks (Unwind base false (Some cfa) (Some ra) fp)) /\
         ((forall base cfa ra fp, ~ v1_representable (as_row st) base cfa ra fp) -> sh_cfa v = CellUnknown /\ sh_mangled v = false) /\
         forall v', dump_says rest x v' -> v' = v) /\
    forall x v, dump_says rest x v -> exists f, v1_last ents f /\ in_range (df_start f) (df_len f) x.
Proof. exact dump_shows_programs_v1. Qed.
Print Assumptions C126_first_converter.

(** For ordinary programs every step succeeds. *)
Theorem C126_ordinary : forall md md' args file a parse addr abi_name,
  let eh := file_eh md file parse in let op := cli_options args a (elf_endian file) in
  file_typed file -> arch_of (elf_architecture file) = Some a -> elf_eh_frame file = Some parse ->
  has_section (elf_sections file) ".eh_frame"%string addr -> ents_end (eh_entries eh) = None ->
  (forall x, In x (entries_of eh) -> match x with DwCie => True | DwBadFde _ => False
     | DwGoodFde f => ordinary op eh f /\ dump_fine md op f /\ ends_in_range f end) ->
  apart eh -> countable (function_count eh) (table_rows eh) ->
  (forall c f, last_at eh f -> follows_dwarf c f -> unconfused a (fixed_ra_of op eh) c f) ->
  wf_mode md' -> (forall n, without newline_char (abi_name n)) ->
  exists out, dwarf2sframe2_main md args (Some file) = Ok out /\
    zlen (out_sframe out) <= 28 + 20 * function_count eh + 17 * table_rows eh /\
    forall dumped, holds_section dumped out -> rust_slice md' (out_sframe out) ->
    exists l h rest, sframedump_main md' (endian_of (elf_endian file)) (Some dumped) = Ok l /\
      read_dump (stdout_text abi_name l) = Some (h, rest) /\ stderr_text l = ""%string /\
      (forall c f x, last_at eh f -> follows_dwarf c f -> in_range (df_start f) (df_len f) x ->
         exists st u, cfi_at c f x = Some st /\ matches a (as_row st) u /\ dump_says rest x (looks u) /\
           forall v, dump_says rest x v -> v = looks u) /\
      forall x v, dump_says rest x v -> exists f, last_at eh f /\ in_range (df_start f) (df_len f) x.
Proof. exact ordinary_pipeline. Qed.
Print Assumptions C126_ordinary.

Theorem C126_ordinary_first_converter : forall md md' native p file parse addr abi_name,
  let ents := parse (tool_setup md (elf_sections file)) in
  file_typed file -> elf_eh_frame file = Some parse ->
  has_section (elf_sections file) ".eh_frame"%string addr -> ents_end ents = None ->
  (forall x, In x (ents_list ents) -> match x with DwCie => True | DwBadFde _ => False
     | DwGoodFde f => v1_ordinary p f /\ ends_in_range f end) ->
  apart (in_eh ents) -> countable (function_count (in_eh ents)) (v1_rows_total ents) ->
  (forall c f, v1_last ents f -> follows_dwarf c f -> v1_unconfused c f) ->
  wf_mode md' -> (forall n, without newline_char (abi_name n)) ->
  exists out, v1_main md native p (Some file) = Ok out /\
    zlen (out_sframe out) <= 28 + 20 * function_count (in_eh ents) + 17 * v1_rows_total ents /\
    forall dumped, holds_section dumped out -> rust_slice md' (out_sframe out) ->
    exists l h rest, sframedump_main md' native (Some dumped) = Ok l /\
      read_dump (stdout_text abi_name l) = Some (h, rest) /\ stderr_text l = ""%string /\
      (forall c f x, v1_last ents f -> follows_dwarf c f -> in_range (df_start f) (df_len f) x ->
         exists st v, cfi_at c f x = Some st /\ dump_says rest x v /\
           (forall base cfa ra fp, v1_representable (as_row st) base cfa ra fp -> v = looks (Unwind base false (Some cfa) (Some ra) fp)) /\
           ((forall base cfa ra fp, ~ v1_representable (as_row st) base cfa ra fp) -> sh_cfa v = CellUnknown /\ sh_mangled v = false) /\
           forall v', dump_says rest x v' -> v' = v) /\
      forall x v, dump_says rest x v -> exists f, v1_last ents f /\ in_range (df_start f) (df_len f) x.
Proof. exact ordinary_pipeline_v1. Qed.
Print Assumptions C126_ordinary_first_converter.

(** Whatever wrote it: a dump says what its section says, as long as the functions
    are ordinary, decode and lie within the range of addresses. *)
Theorem C126_dump_says_section : forall md e sf out x v,
  wf_mode md -> Forall (fun en => fde_ok (en_fde en) /\ plain_function md e en) (all_fdes sf) ->
  all_func_lines md e sf 0 (all_fdes sf) out ->
  (dump_says out x v <-> exists u, section_says md e sf x u /\ v = looks u).
Proof. exact dump_says_section. Qed.
Print Assumptions C126_dump_says_section.

Example C126_case :
  let eh := file_eh rel64 two_file (fun _ => eh_entries eh_two) in let op := cli_options no_flags Amd64 RtLittle in
  file_typed two_file /\ (exists addr, has_section (elf_sections two_file) ".eh_frame"%string addr) /\ ents_end (eh_entries eh) = None /\
  (forall x, In x (entries_of eh) -> match x with DwCie => True | DwBadFde _ => False
     | DwGoodFde f => ordinary op eh f /\ dump_fine rel64 op f /\ ends_in_range f end) /\
  apart eh /\ countable (function_count eh) (table_rows eh) /\
  (forall c f, last_at eh f -> follows_dwarf c f -> unconfused Amd64 (fixed_ra_of op eh) c f) /\
  (forall n, without newline_char (some_abi n)) /\
  dwarf2sframe2_main rel64 no_flags (Some two_file) = Ok two_out /\ holds_section (object_file two_out) two_out /\
  wf_mode dev32 /\ rust_slice dev32 (out_sframe two_out) /\
  last_at eh fn_push /\ follows_dwarf cie_amd fn_push /\ in_range (df_start fn_push) (df_len fn_push) 0x1010 /\
  sframedump_main dev32 LE (Some (object_file two_out)) = Ok two_dump /\ stdout_text some_abi two_dump = two_text /\
  dump_says (skipn 3 two_dump) 0x1010 (Shown (CellBase Fp 16) (CellCfa (-16)) (CellCfa (-8)) false).
Proof. exact pipe_case. Qed.

Example C126_first_converter_case :
  let ents := eh_entries eh_two in
  elf_eh_frame two_file = Some (fun _ => ents) /\
  (forall x, In x (ents_list ents) -> match x with DwCie => True | DwBadFde _ => False
     | DwGoodFde f => v1_ordinary v1_any f /\ ends_in_range f end) /\
  apart (in_eh ents) /\ countable (function_count (in_eh ents)) (v1_rows_total ents) /\
  (forall c f, v1_last ents f -> follows_dwarf c f -> v1_unconfused c f) /\
  v1_main rel64 LE v1_any (Some two_file) = Ok two_v1_out /\ out_sframe two_v1_out <> out_sframe two_out /\
  v1_last ents fn_push /\
  exists rest, read_dump (stdout_text some_abi two_v1_dump) = Some (two_v1_head, rest) /\
    sframedump_main dev32 LE (Some (object_file two_v1_out)) = Ok two_v1_dump /\
    dump_says rest 0x1010 (Shown (CellBase Fp 16) (CellCfa (-16)) (CellCfa (-8)) false).
Proof. exact pipe_case_v1. Qed.

(** Why the functions have to end within the range of addresses. *)
Example C126_range_needed : file_typed edge_file /\ follows_dwarf cie_amd fn_edge /\ ~ ends_in_range fn_edge /\
  exists out, dwarf2sframe2_main dev64 no_flags (Some edge_file) = Ok out /\
    sframedump_main dev64 LE (Some (object_file out)) = Panic.
Proof. exact edge_case. Qed.
