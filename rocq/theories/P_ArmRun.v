(** C157: the stack of a running AArch64 program. *)
From Verif Require Import ArmRunWitness ProgramWitness.
From Verif Require Import ConvWitness V1Witness ConvRepairedWitness.

(** * C157 At every moment of a run of an AArch64 program a walk with the converted section gives the calls that have not returned *)

(** Not so: of the first instruction of any function, where the return address is still in its
    register, the section says nothing.  For every program of such functions, however they are
    converted, there is a run and a moment at which no walk finds the caller. *)
Theorem C157_refuted : forall fs eh md md' op e, eh_typed eh -> acompiled fs (eh_entries eh) -> amoderate fs -> fs <> [] ->
  op_arch op = Aarch64 ->
  exists s bs, dwarf2sframe md op eh = Ok s /\ build md' e s = Ok bs /\ ~ aalways_walked eh fs anywhere (std_tells e bs) /\
    forall md'', wf_mode md'' -> rust_slice md'' bs -> exists sf, load md'' e bs = Ok sf /\ ~ aalways_walked eh fs anywhere (section_says md'' e sf).
Proof. exact arm_first. Qed.
Print Assumptions C157_refuted.

(** Nor where the return address has been saved, if a function signs it. *)
Theorem C157_signed_refuted : forall fs eh md md' op e f k n,
  eh_typed eh -> acompiled fs (eh_entries eh) -> amoderate fs ->
  In f fs -> af_kind f = AFrame true k n -> op_arch op = Aarch64 ->
  exists s bs, dwarf2sframe md op eh = Ok s /\ build md' e s = Ok bs /\ ~ aalways_walked eh fs saved (std_tells e bs) /\
    forall md'', wf_mode md'' -> rust_slice md'' bs -> exists sf, load md'' e bs = Ok sf /\ ~ aalways_walked eh fs saved (section_says md'' e sf).
Proof. exact arm_signed. Qed.
Print Assumptions C157_signed_refuted.

(** What is true: if no function signs, then at every moment at which the innermost function has
    saved its return address a walk gives exactly the calls that have not returned. *)
Theorem C157_saved_partial : forall fs eh md md' op e, eh_typed eh -> acompiled fs (eh_entries eh) -> amoderate fs ->
  (forall f k n, In f fs -> af_kind f <> AFrame true k n) -> op_arch op = Aarch64 ->
  exists s bs, dwarf2sframe md op eh = Ok s /\ build md' e s = Ok bs /\ aalways_walked eh fs saved (std_tells e bs) /\
    forall md'', wf_mode md'' -> rust_slice md'' bs -> exists sf, load md'' e bs = Ok sf /\ aalways_walked eh fs saved (section_says md'' e sf).
Proof. exact arm_saved. Qed.
Print Assumptions C157_saved_partial.

(** With the repairs of C153, at every moment, frames of any size and signed functions included. *)
Theorem C157_repaired_partial : forall fs eh, eh_typed eh -> acompiled fs (eh_entries eh) -> amoderate fs ->
  forall md md' op c e, op_arch op = Aarch64 -> (forall d, c d = 30) ->
  exists s bs, dwarf2sframe_repaired md op c eh = Ok s /\ build_repaired md' e s = Ok bs /\
    aalways_walked eh fs anywhere (std_tells e bs) /\
    forall md'', wf_mode md'' -> rust_slice md'' bs ->
      exists sf, load md'' e bs = Ok sf /\ aalways_walked eh fs anywhere (looked_up_whole md'' e sf).
Proof. exact acompiled_repaired. Qed.
Print Assumptions C157_repaired_partial.

(** In a leaf, called from a function that does not sign, called from one that does. *)
Theorem C157_case : eh_typed ar_eh /\ acompiled ar_fs (eh_entries ar_eh) /\ amoderate ar_fs /\
  signs ar_sign ar_strip /\ loaded_low 0x100000 ar_fs /\ astarts 0x100000 ar_fs 0x400000 ar_begin /\
  aruns ar_sign ar_strip 0x100000 ar_fs ar_begin (ar_frames, ar_now) /\ asees ar_strip 0x100000 ar_world ar_now /\
  (forall d, last_at ar_eh d ->
     ~ in_range (df_start d) (df_len d) (0x400000 - 0x100000) /\ ~ in_range (df_start d) (df_len d) (0x400000 - 0x100000 - 1)) /\
  dwarf2sframe_repaired rel64 arm column_30 ar_eh = Ok ar_sfb /\ build_repaired rel64 LE ar_sfb = Ok ar_bytes /\
  walk (lk_step ar_world (std_tells LE ar_bytes)) (frame_of_athread ar_now) ar_frames /\
  map lx_pc ar_frames = [0x10110c; 0x101014; 0x400000] /\ ar_mem2 0x7fe8 = 0x77000000400000.
Proof. exact ar_case. Qed.
Print Assumptions C157_case.

(** A program without functions that sign, after [stp]. *)
Theorem C157_saved_case : eh_typed ar_plain_eh /\ acompiled ar_plain (eh_entries ar_plain_eh) /\ amoderate ar_plain /\
  (forall f k n, In f ar_plain -> af_kind f <> AFrame true k n) /\ loaded_low 0x100000 ar_plain /\
  astarts 0x100000 ar_plain 0x400000 ar_plain_begin /\ aruns ar_sign ar_strip 0x100000 ar_plain ar_plain_begin (fst ar_plain_begin, ar_plain_now) /\
  saved ar_mid 4 /\ at_pc ar_plain_now = 0x100000 + af_start ar_mid + 4.
Proof. exact ar_plain_case. Qed.
Print Assumptions C157_saved_case.

(** A frame of 128 bytes, with offsets at the edge of a width, is no exception (C160). *)
Theorem C157_wide_case : eh_typed ar_wide_eh /\ acompiled [ar_wide] (eh_entries ar_wide_eh) /\ amoderate [ar_wide] /\
  forall k n, af_kind ar_wide <> AFrame true k n.
Proof. exact ar_wide_case. Qed.
Print Assumptions C157_wide_case.
