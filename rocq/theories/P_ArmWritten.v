(** C162: right call frame information is enough on AArch64. *)
From Verif Require Import ArmWrittenWitness ArmRunWitness ProgramWitness.
From Verif Require Import ConvWitness V1Witness ConvRepairedWitness.
From Verif Require Import WalkLookSpec.

(** * C162 Right call frame information for every instruction of an AArch64 program is always converted, and the stack walked right *)

(** As C161, with nothing assumed of what the conversion does: for code of ordinary size that passes
    the check, with one entry for each function whose rules are right at every byte, the conversion and the
    build succeed; and the stack is walked right wherever the return address has been saved, if not
    signed. *)
Theorem C162_converted : forall fs eh cie, eh_typed eh -> acode_written fs eh cie -> aof_size fs ->
  forall md md' op e, op_arch op = Aarch64 -> (forall f, In f fs -> aupright f) -> saved_unsigned fs ->
  exists s bs, dwarf2sframe md op eh = Ok s /\ build md' e s = Ok bs /\ acode_walked eh fs on_stack (std_tells e bs) /\
    forall md'', wf_mode md'' -> rust_slice md'' bs -> exists sf, load md'' e bs = Ok sf /\ acode_walked eh fs on_stack (section_says md'' e sf).
Proof. exact awritten_walks. Qed.
Print Assumptions C162_converted.

(** By look-ups too, with the repairs of the reader (C65). *)
Theorem C162_looked_up : forall fs eh cie, eh_typed eh -> acode_written fs eh cie -> aof_size fs ->
  forall md md' op e, op_arch op = Aarch64 -> (forall f, In f fs -> aupright f) -> saved_unsigned fs ->
  exists s bs, dwarf2sframe md op eh = Ok s /\ build md' e s = Ok bs /\
    forall md'', wf_mode md'' -> rust_slice md'' bs ->
    exists sf, load md'' e bs = Ok sf /\ acode_walked eh fs on_stack (looked_up all_repairs md'' e sf).
Proof. exact awritten_looks. Qed.
Print Assumptions C162_looked_up.

(** With the repairs of the converter and the writer as well, at every moment, for code that signs too. *)
Theorem C162_repaired : forall fs eh cie, eh_typed eh -> acode_written fs eh cie -> aof_size fs ->
  forall md md' op c e, op_arch op = Aarch64 -> (forall d, c d = 30) ->
  exists s bs, dwarf2sframe_repaired md op c eh = Ok s /\ build_repaired md' e s = Ok bs /\ acode_walked eh fs everywhere (std_tells e bs) /\
    forall md'', wf_mode md'' -> rust_slice md'' bs -> exists sf, load md'' e bs = Ok sf /\ acode_walked eh fs everywhere (looked_up_whole md'' e sf).
Proof. exact awritten_repaired. Qed.
Print Assumptions C162_repaired.

(** The second function of C161 by itself. *)
Theorem C162_case :
  eh_typed ac_plain_eh /\ acode_written [ac_plain] ac_plain_eh (fun _ => ausual_cie) /\ aof_size [ac_plain] /\
  (forall f, In f [ac_plain] -> aupright f) /\ saved_unsigned [ac_plain] /\
  agoes ar_sign ar_strip 0x100000 [ac_plain] ap_begin (ap_frames, ap_now) /\
  dwarf2sframe rel64 arm ac_plain_eh = Ok ap_sfb /\ build rel64 LE ap_sfb = Ok ap_bytes /\
  walk (lk_step ap_world (std_tells LE ap_bytes)) (frame_of_athread ap_now) ap_frames.
Proof. exact awritten_case. Qed.
Print Assumptions C162_case.

(** With one that signs, up to the first instruction of the function it calls. *)
Theorem C162_repaired_case :
  eh_typed aw_eh /\ acode_written aw_fs aw_eh (fun _ => ausual_cie) /\ aof_size aw_fs /\ ~ saved_unsigned aw_fs /\
  signs ar_sign ar_strip /\ aroutines_low 0x100000 aw_fs /\ abegins 0x100000 aw_fs 0x400000 ac_begin /\
  agoes ar_sign ar_strip 0x100000 aw_fs ac_begin (aw_frames, aw_now) /\ asees ar_strip 0x100000 aw_world aw_now /\
  (forall d, last_at aw_eh d ->
     ~ in_range (df_start d) (df_len d) (0x400000 - 0x100000) /\ ~ in_range (df_start d) (df_len d) (0x400000 - 0x100000 - 1)) /\
  dwarf2sframe_repaired rel64 arm column_30 aw_eh = Ok aw_sfb /\ build_repaired rel64 LE aw_sfb = Ok aw_bytes /\
  walk (lk_step aw_world (std_tells LE aw_bytes)) (frame_of_athread aw_now) aw_frames /\
  map lx_pc aw_frames = [0x101018; 0x400000] /\ map lx_fp aw_frames = [Some 0x7fe0; Some 0x1234].
Proof. exact awritten_repaired_case. Qed.
Print Assumptions C162_repaired_case.
