(** Property theorems of the command line tools: C55-C60. *)
From Coq Require Import String.
From Verif Require Import ToolsWitness.
Local Open Scope string_scope.
Local Open Scope list_scope.

(** * C55 The first-generation tool tolerates zero-width rows: false *)

(** A row of no width starts where the next row starts, and is rejected as a
    duplicate. *)
Theorem C55_zero_width_stops_refuted :
  eh_typed sample /\ (forall md, dwarf2sframe md amd sample = Ok sample_sfb) /\
  (forall md, v1_convert md all_print (eh_entries sample) = Err (V1InvalidRow DuplicateRow)) /\
  In (amd_row 0x1004 0x1004 7 24 (ROffset (-16))) (dw_rows_of fn_prologue).
Proof. exact zero_width_stops_v1. Qed.
Print Assumptions C55_zero_width_stops_refuted.

(** Without rows of no width, and if everything can be printed, it does convert. *)
Theorem C55_follows_second_generation_partial : forall md md' op eh s p,
  eh_typed eh -> dwarf2sframe md op eh = Ok s ->
  (forall f, In f (functions (entries_of eh)) -> df_dump f = None /\
     forall r, In r (dw_rows_of f) -> wide r /\ p r = true) ->
  exists s', v1_convert md' p (eh_entries eh) = Ok s'.
Proof. exact v1_follows_v2. Qed.
Print Assumptions C55_follows_second_generation_partial.

(** Every outcome, exactly. *)
Theorem C55_outcome_exact_partial : forall md p ents q,
  ents_typed ents ->
  (forget (v1_convert md p ents) = q <-> (q = Ok tt /\ v1_fine p ents) \/ v1_problem md p ents q).
Proof. exact v1_exact. Qed.
Print Assumptions C55_outcome_exact_partial.

Example C55_case : forall md,
  eh_typed (strip sample) /\ dwarf2sframe md amd (strip sample) = Ok sample_sfb /\
  (forall f, In f (functions (entries_of (strip sample))) -> df_dump f = None /\
     forall r, In r (dw_rows_of f) -> wide r /\ all_print r = true) /\
  ents_typed v1_sample /\ v1_fine all_print v1_sample.
Proof.
  intros md. split; [apply strip_sample_typed|]. split; [destruct md as [[] [] ? ?]; vm_compute; reflexivity|].
  split; [apply strip_sample_wide|]. split; [apply v1_sample_typed|apply v1_sample_fine].
Qed.

(** * C56 The first-generation tool never emits a wrong rule *)

Theorem C56_rows_translated : forall md p ents s b,
  ents_typed ents -> v1_convert md p ents = Ok s -> In b (fdes_of s) ->
  exists f, v1_last ents f /\ fb_start b = df_start f /\ fb_size b = df_len f /\
    (forall x, In x (rows_of b) -> exists r, In r (dw_rows_of f) /\
       v1_translated (sb_options s) (df_start f) r x) /\
    (forall r, In r (dw_rows_of f) -> exists x, in_effect (rows_of b) (off f r) x /\
       v1_matches r (intended (sb_options s) x)).
Proof. exact v1_rows_exact. Qed.
Print Assumptions C56_rows_translated.

Theorem C56_functions : forall md p ents s,
  ents_typed ents -> v1_convert md p ents = Ok s ->
  (forall f, v1_last ents f -> exists b, In b (fdes_of s) /\ fb_start b = df_start f /\ fb_size b = df_len f) /\
  StronglySorted Z.lt (map fb_start (fdes_of s)).
Proof. exact v1_functions. Qed.
Print Assumptions C56_functions.

(** As the section is read back. *)
Theorem C56_end_to_end : forall md md' md'' p ents s e bs, ents_typed ents -> v1_convert md p ents = Ok s ->
  build md' e s = Ok bs -> wf_mode md'' -> rust_slice md'' bs ->
  (forall f r, v1_last ents f -> In r (dw_rows_of f) -> ~ v1_clash r) ->
  exists sf, load md'' e bs = Ok sf /\
    (forall a f r, v1_last ents f -> in_range (df_start f) (df_len f) a -> In r (dw_rows_of f) -> dr_start r <= a ->
       (forall r', In r' (dw_rows_of f) -> dr_start r' <= a -> dr_start r' <= dr_start r) ->
       exists u, section_says md'' e sf a u /\
         (forall base cfa ra fp, v1_representable r base cfa ra fp -> u = Unwind base false (Some cfa) (Some ra) fp) /\
         ((forall base cfa ra fp, ~ v1_representable r base cfa ra fp) -> uw_cfa u = None /\ uw_mangled u = false)) /\
    (forall a u, section_says md'' e sf a u ->
       exists f r, v1_last ents f /\ in_range (df_start f) (df_len f) a /\ In r (dw_rows_of f) /\ dr_start r <= a) /\
    (forall a u u', section_says md'' e sf a u -> section_says md'' e sf a u' -> u = u').
Proof. exact v1_end_to_end. Qed.
Print Assumptions C56_end_to_end.

(** Rows of all three kinds: exact, without FP, without offsets. *)
Example C56_case : forall md,
  ents_typed v1_sample /\ v1_convert md all_print v1_sample = Ok v1_sfb /\
  map (fun b => zlen (rows_of b)) (fdes_of v1_sfb) = [4; 3; 1] /\
  v1_representable (amd_row 0x1001 0x1004 7 16 (ROffset (-16))) Sp 16 (-8) (Some (-16)) /\
  v1_representable odd_fp Sp 8 (-8) None /\
  (forall base cfa ra fp, ~ v1_representable (DwRow 0x2010 0x2040 (CfaExpression plt_expr) [(16, ROffset (-8))]) base cfa ra fp).
Proof.
  intros md. split; [apply v1_sample_typed|]. split; [apply v1_sample_converts|]. split; [vm_compute; reflexivity|].
  split; [apply norm_representable, classify_spec; reflexivity|].
  split; [apply norm_representable, classify_spec; reflexivity|].
  intros base cfa ra fp H. destruct H as (H & _). discriminate.
Qed.

Example C56_end_to_end_case :
  ents_typed v1_sample /\ v1_convert rel64 all_print v1_sample = Ok v1_sfb /\
  build rel64 LE v1_sfb = Ok (v1_bytes LE) /\ wf_mode rel64 /\ rust_slice rel64 (v1_bytes LE) /\
  (forall f r, v1_last v1_sample f -> In r (dw_rows_of f) -> ~ v1_clash r) /\ zlen (v1_bytes LE) = 120.
Proof.
  split; [apply v1_sample_typed|]. split; [apply v1_sample_converts|]. split; [vm_compute; reflexivity|].
  split; [right; reflexivity|]. split; [apply v1_slice; right; reflexivity|].
  split; [exact v1_sample_no_clash|vm_compute; reflexivity].
Qed.

(** * C57 Base addresses are taken from the right sections: false *)

(** A [.got] replaces the text base, and the GOT base is never set. *)
Theorem C57_got_replaces_text_refuted :
  has_section two_sections ".text" 0x1000 /\ has_section two_sections ".got" 0x4000 /\
  ba_text (tool_bases two_sections) = Some 0x4000 /\ ba_got (tool_bases two_sections) = None /\
  ~ right_bases two_sections (tool_bases two_sections).
Proof. exact got_replaces_text. Qed.
Print Assumptions C57_got_replaces_text_refuted.

(** Right exactly for files without a [.got]. *)
Theorem C57_right_without_got_partial : forall l,
  right_bases l (tool_bases l) <-> no_section l ".got".
Proof. exact right_bases_iff. Qed.
Print Assumptions C57_right_without_got_partial.

Theorem C57_bases_exact_partial : forall l,
  base_from l ".eh_frame_hdr" (ba_eh_frame_hdr (tool_bases l)) /\
  base_from l ".eh_frame" (ba_eh_frame (tool_bases l)) /\
  (no_section l ".got" -> base_from l ".text" (ba_text (tool_bases l))) /\
  (forall a, has_section l ".got" a -> ba_text (tool_bases l) = Some a) /\
  ba_got (tool_bases l) = None.
Proof. exact bases_exact. Qed.
Print Assumptions C57_bases_exact_partial.

(** The third program that does this, dwarfdump, gets it right. *)
Theorem C57_dwarfdump_right_partial : forall l, right_bases l (dwarfdump_bases l).
Proof. exact dwarfdump_bases_right. Qed.
Print Assumptions C57_dwarfdump_right_partial.

Example C57_case :
  no_section [(".text", 0x1000); (".eh_frame", 0x2000)] ".got" /\
  has_section [(".text", 0x1000); (".eh_frame", 0x2000)] ".text" 0x1000 /\
  ba_text (tool_bases [(".text", 0x1000); (".eh_frame", 0x2000)]) = Some 0x1000.
Proof.
  split; [apply section_absent; reflexivity|]. split; [apply section_found; reflexivity|reflexivity].
Qed.

(** * C58 The dwarf2sframe2 tool's output is readable on the target *)

Theorem C58_output_readable : forall md md' args file out,
  file_typed file -> dwarf2sframe2_main md args (Some file) = Ok out ->
  wf_mode md' -> rust_slice md' (out_sframe out) ->
  out_arch out = elf_architecture file /\ out_endian out = elf_endian file /\
  exists a sf, arch_of (elf_architecture file) = Some a /\
    load md' (endian_of (elf_endian file)) (out_sframe out) = Ok sf /\
    abi sf = abi_number a (elf_endian file).
Proof. exact v2_readable. Qed.
Print Assumptions C58_output_readable.

Theorem C58_rejected : forall md args file,
  (arch_of (elf_architecture file) = None -> dwarf2sframe2_main md args (Some file) = Err ToolUnsupportedArch) /\
  (arch_of (elf_architecture file) <> None -> no_section (elf_sections file) ".eh_frame" ->
     dwarf2sframe2_main md args (Some file) = Err ToolNoEhFrame).
Proof. exact v2_rejects. Qed.
Print Assumptions C58_rejected.

(** The tool is the converter followed by the writer, and nothing else. *)
Theorem C58_success_exact : forall md args file out,
  dwarf2sframe2_main md args (Some file) = Ok out <->
  exists a addr parse s bs, arch_of (elf_architecture file) = Some a /\
    has_section (elf_sections file) ".eh_frame" addr /\ elf_eh_frame file = Some parse /\
    dwarf2sframe md (cli_options args a (elf_endian file)) (file_eh md file parse) = Ok s /\
    build md (endian_of (elf_endian file)) s = Ok bs /\
    out = OutFile (elf_architecture file) (elf_endian file) bs.
Proof. exact v2_main_ok. Qed.
Print Assumptions C58_success_exact.

Example C58_case : forall md,
  file_typed (file_with ElfX86_64 RtLittle (eh_entries sample)) /\
  dwarf2sframe2_main md no_flags (Some (file_with ElfX86_64 RtLittle (eh_entries sample)))
    = Ok (OutFile ElfX86_64 RtLittle (sample_bytes LE)) /\
  rust_slice dev32 (sample_bytes LE) /\ abi_number Amd64 RtLittle = 3 /\
  arch_of (ElfOther 3 None) = None /\ no_section [(".text", 0x1000)] ".eh_frame".
Proof.
  intros md. split; [apply file_sample_typed|]. split; [apply v2_sample; reflexivity|].
  split; [apply sample_slice, wf_dev32|]. split; [reflexivity|]. split; [reflexivity|].
  apply section_absent. reflexivity.
Qed.

(** * C59 sframedump prints every function and every readable row *)

Theorem C59_dump_exact : forall md e bs sf,
  wf_mode md -> rust_slice md bs -> load md e bs = Ok sf ->
  (dump md e sf = Panic <-> exists en, In en (all_fdes sf) /\ panics_in md e en) /\
  (dump md e sf <> Panic -> exists out,
     dump md e sf = Ok (LineHeader (version sf) (flags sf) (num_fdes sf) (num_fres sf) (abi sf)
                          (fixed_fp_offset sf) (fixed_ra_offset sf) :: LineBlank :: LineIndex :: out) /\
     all_func_lines md e sf 0 (all_fdes sf) out).
Proof. exact dump_exact. Qed.
Print Assumptions C59_dump_exact.

(** Every function has its lines, whatever happens in the others. *)
Theorem C59_no_function_suppressed : forall md e sf ens idx out,
  all_func_lines md e sf idx ens out ->
  forall i en, nth_error ens i = Some en ->
  exists before l after, out = before ++ l ++ after /\ func_lines md e sf (idx + Z.of_nat i) en l.
Proof. exact dump_functions. Qed.
Print Assumptions C59_no_function_suppressed.

Theorem C59_program : forall md native file out,
  wf_mode md -> (forall bs, elf_sframe file = Some bs -> rust_slice md bs) ->
  (sframedump_main md native (Some file) = Ok out <->
   exists addr bs sf, has_section (elf_sections file) ".sframe" addr /\ elf_sframe file = Some bs /\
     load md native bs = Ok sf /\ dump md native sf = Ok out) /\
  sframedump_main md native (Some file) <> Err DumpOutOfFuel.
Proof. exact dump_main_ok. Qed.
Print Assumptions C59_program.

Example C59_case :
  (load rel64 LE (sample_bytes LE) = Ok sample_sf /\ exists l, dump rel64 LE sample_sf = Ok l /\ zlen l = 16) /\
  load rel64 LE damaged = Ok damaged_sf /\
  exists l er, dump rel64 LE damaged_sf = Ok l /\ In (LineErr er) l /\ In (LineFunc 1 0x2000 0x40) l /\
    In (LineRow 0x2006 (CellBase Sp 24) CellUnknown (CellCfa (-8)) false) l.
Proof.
  split; [|exact damaged_dump]. destruct sample_dump as [H1 H2]. split; [exact H1|]. eexists. split; [exact H2|reflexivity].
Qed.

(** * C60 The v1 tool labels its output with the input's architecture: false *)

(** Every output says AMD64, in the byte order of the machine running the tool. *)
Theorem C60_mislabelled_refuted :
  (forall m en, file_typed (file_with m en v1_sample)) /\
  (forall m en, exists out sf, v1_main rel64 LE all_print (Some (file_with m en v1_sample)) = Ok out /\
     out_arch out = m /\ load rel64 LE (out_sframe out) = Ok sf /\ abi sf = 3) /\
  abi_number Aarch64 RtLittle = 2 /\
  (exists out, v1_main rel64 LE all_print (Some (file_with ElfAarch64 RtBig v1_sample)) = Ok out /\
     load rel64 BE (out_sframe out) = Err IncorrectEndian).
Proof. exact v1_mislabels. Qed.
Print Assumptions C60_mislabelled_refuted.

(** The label is right exactly for little-endian x86-64 files converted on a
    little-endian machine. *)
Theorem C60_right_on_amd64_partial : forall md md' native p file out a,
  file_typed file -> v1_main md native p (Some file) = Ok out ->
  wf_mode md' -> rust_slice md' (out_sframe out) -> arch_of (elf_architecture file) = Some a ->
  ((exists sf, load md' (endian_of (elf_endian file)) (out_sframe out) = Ok sf /\
      abi sf = abi_number a (elf_endian file)) <->
   a = Amd64 /\ elf_endian file = RtLittle /\ native = LE).
Proof. exact v1_label_right. Qed.
Print Assumptions C60_right_on_amd64_partial.

Theorem C60_label_partial : forall md md' native p file out,
  file_typed file -> v1_main md native p (Some file) = Ok out -> wf_mode md' -> rust_slice md' (out_sframe out) ->
  (exists sf, load md' native (out_sframe out) = Ok sf /\ abi sf = 3 /\
     fixed_ra_offset sf = None /\ fixed_fp_offset sf = None) /\
  (endian_of (elf_endian file) <> native ->
     load md' (endian_of (elf_endian file)) (out_sframe out) = Err IncorrectEndian).
Proof. exact v1_label. Qed.
Print Assumptions C60_label_partial.

Example C60_case : forall md,
  file_typed (file_with ElfX86_64 RtLittle v1_sample) /\
  v1_main md LE all_print (Some (file_with ElfX86_64 RtLittle v1_sample)) = Ok (OutFile ElfX86_64 RtLittle (v1_bytes LE)) /\
  rust_slice dev32 (v1_bytes LE).
Proof.
  intros md. split; [apply file_v1_typed|]. split; [apply v1_sample_main|apply v1_slice, wf_dev32].
Qed.
