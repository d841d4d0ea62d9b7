(** Properties C79 and C80: how the parser is set up, and signed return
    addresses. *)
From Coq Require Import String.
From Verif Require Import SetupFacts.

(** * C79 The parser is set up for the file's architecture: false *)

(** The converter does not tell gimli that the file is for AArch64.  A file with
    [DW_CFA_AARCH64_negate_ra_state] is refused, although the library converts it
    when gimli is told. *)
Theorem C79_vendor_refuted :
  file_typed pac_file /\ (forall md, ~ right_setup ElfAarch64 (tool_setup md two_sections)) /\
  right_setup ElfAarch64 right_arm_setup /\
  (exists s, dwarf2sframe rel64 (cli_options no_flags Aarch64 RtLittle) (EhFrame false (pac_entries right_arm_setup)) = Ok s /\
     zlen (fdes_of s) = 1) /\
  dwarf2sframe2_main rel64 no_flags (Some pac_file) = Err (ToolConvert (InvalidUnwindTable unknown_instruction)).
Proof. exact vendor_not_set. Qed.
Print Assumptions C79_vendor_refuted.

(** Absolute addresses are taken to have the size of the machine's pointers. *)
Theorem C79_address_size_refuted :
  (forall l, ~ right_setup ElfX86_64 (tool_setup rel32 l)) /\ (forall l, ~ right_setup ElfX86_64_X32 (tool_setup rel64 l)).
Proof. exact address_size_of_host. Qed.
Print Assumptions C79_address_size_refuted.

(** Exactly when the converters' setup is right. *)
Theorem C79_exact_partial : forall md m l,
  wf_mode md -> pointer_size m <> None ->
  (right_setup m (tool_setup md l) <-> m <> ElfAarch64 /\ pointer_size m = Some (usize_bits md / 8)).
Proof. exact tool_setup_right. Qed.
Print Assumptions C79_exact_partial.

Theorem C79_dwarfdump_partial : forall md m l, right_setup m (dwarfdump_setup md m l).
Proof. exact dwarfdump_setup_right. Qed.
Print Assumptions C79_dwarfdump_partial.

Example C79_case : wf_mode rel64 /\ pointer_size ElfX86_64 <> None /\ right_setup ElfX86_64 (tool_setup rel64 two_sections) /\
  right_setup ElfAarch64 (dwarfdump_setup rel64 ElfAarch64 two_sections).
Proof.
  split; [exact wf_rel64|]. split; [discriminate|]. split; [|apply dwarfdump_setup_right].
  apply tool_setup_right; [exact wf_rel64|discriminate|]. split; [discriminate|reflexivity].
Qed.

(** * C80 Signed return addresses are marked: false *)

Theorem C80_signing_lost_refuted :
  eh_typed pac_eh /\ dwarf2sframe rel64 arm pac_eh = Ok pac_sfb /\
  build rel64 LE pac_sfb = Ok pac_bytes /\ load rel64 LE pac_bytes = Ok pac_sf /\
  dwarf_says pac_eh 0x1010 pac_row /\ ra_signed pac_row /\
  (exists u, section_says rel64 LE pac_sf 0x1010 u /\ uw_ra u = Some (-8) /\ uw_mangled u = false).
Proof. exact signing_lost. Qed.
Print Assumptions C80_signing_lost_refuted.

(** No row is ever marked. *)
Theorem C80_never_marked_partial : forall md op eh s b x,
  eh_typed eh -> dwarf2sframe md op eh = Ok s -> In b (fdes_of s) -> In x (rows_of b) -> r_mangled x = false.
Proof. exact conv_never_mangled. Qed.
Print Assumptions C80_never_marked_partial.

Example C80_case : exists b x, In b (fdes_of pac_sfb) /\ In x (rows_of b) /\ dwarf2sframe rel64 arm pac_eh = Ok pac_sfb /\
  r_offsets x = Some (RowOffsets 16 (Some (-8)) (Some (-16))).
Proof.
  do 2 eexists. split; [left; reflexivity|]. split; [right; left; reflexivity|]. split; vm_compute; reflexivity.
Qed.

(** * C81 Frames whose return address is in the link register are converted: false *)

(** The leaf functions and prologues of AArch64.  Their rows are left empty,
    although SFrame can express them: the writer accepts them and the reader
    shows them. *)
Theorem C81_leaf_lost_refuted :
  eh_typed leaf_eh /\ dwarf2sframe rel64 arm leaf_eh = Ok leaf_sfb /\
  build rel64 LE leaf_sfb = Ok leaf_bytes /\ load rel64 LE leaf_bytes = Ok leaf_sf /\
  dwarf_says leaf_eh 0x1010 leaf_row /\ link_row leaf_row Sp 16 /\
  (exists u, section_says rel64 LE leaf_sf 0x1010 u /\ uw_cfa u = None) /\
  build rel64 LE leaf_by_hand = Ok hand_bytes /\ load rel64 LE hand_bytes = Ok hand_sf /\
  (exists u, section_says rel64 LE hand_sf 0x1010 u /\ u = Unwind Sp false (Some 16) None None).
Proof. exact leaf_lost. Qed.
Print Assumptions C81_leaf_lost_refuted.

(** No such row is ever converted. *)
Theorem C81_never_converted_partial : forall md op eh s b,
  eh_typed eh -> op_arch op = Aarch64 -> dwarf2sframe md op eh = Ok s -> In b (fdes_of s) ->
  exists f, last_at eh f /\ fb_start b = df_start f /\
    forall r base cfa, In r (wide_rows f) -> link_row r base cfa ->
      exists x, in_effect (rows_of b) (off f r) x /\ r_offsets x = None.
Proof. exact link_rows_empty. Qed.
Print Assumptions C81_never_converted_partial.

Example C81_case : op_arch arm = Aarch64 /\ In leaf_row (wide_rows leaf_fn) /\ exists b, In b (fdes_of leaf_sfb).
Proof. split; [reflexivity|]. split; [right; left; reflexivity|]. eexists. left. reflexivity. Qed.
