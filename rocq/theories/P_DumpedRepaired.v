(** * C163 Stacks walked by dumps, with the repaired converter and writer *)
From Coq Require Import String.
From Verif Require Import DumpedSpec DumpedRepaired DumpedRepairedWitness.
From Verif Require Import BaseFacts CfiFacts WalkFacts RelateFacts RunFacts ConvWitness CfiWitness V1Witness ProgramWitness RunWitness ConvRepairedWitness ArmRunWitness CodeWitness ToolsWitness.
Open Scope Z_scope.
Open Scope list_scope.

(** For a program as in C159 and a section of the repaired converter and writer, the
    [sframedump] of /repo, as it is, prints what stacks are walked right by, whatever file holds the section. *)
Theorem C163_repaired : forall fs eh cie md md' op c e, eh_typed eh -> code_written fs eh cie -> of_size fs -> op_arch op = Amd64 -> (forall d, c d = 16) ->
  exists s bs, dwarf2sframe_repaired md op c eh = Ok s /\ build_repaired md' e s = Ok bs /\ code_always_walked eh fs (std_tells e bs) /\
    forall md'' arch en, wf_mode md'' -> dumped_well md'' e (OutFile arch en bs) (code_always_walked eh fs).
Proof. exact dumped_repaired. Qed.
Print Assumptions C163_repaired.

(** For AArch64 as in C162: at every moment of every run, signed return addresses and those in the link register included. *)
Theorem C163_repaired_aarch64 : forall fs eh cie md md' op c e, eh_typed eh -> acode_written fs eh cie -> aof_size fs -> op_arch op = Aarch64 -> (forall d, c d = 30) ->
  exists s bs, dwarf2sframe_repaired md op c eh = Ok s /\ build_repaired md' e s = Ok bs /\ acode_walked eh fs everywhere (std_tells e bs) /\
    forall md'' arch en, wf_mode md'' -> dumped_well md'' e (OutFile arch en bs) (acode_walked eh fs everywhere).
Proof. exact dumped_arm_repaired. Qed.
Print Assumptions C163_repaired_aarch64.

(** The program that C159 shows the repairs with. *)
Theorem C163_repaired_case :
  eh_typed cf_eh /\ code_written cf_fs cf_eh (fun _ => usual_cie) /\ of_size cf_fs /\ (forall d, column_16 d = 16) /\
  dwarf2sframe_repaired rel64 amd column_16 cf_eh = Ok cf_whole /\ build_repaired rel64 LE cf_whole = Ok cf_whole_bytes /\
  holds_section (object_file cf_whole_out) cf_whole_out /\ rust_slice dev32 (out_sframe cf_whole_out) /\
  sframedump_main dev32 LE (Some (object_file cf_whole_out)) = Ok cf_whole_dump /\
  (exists h, read_dump (stdout_text some_abi cf_whole_dump) = Some (h, rest_of cf_whole_dump)) /\
  walk (sf_step cf_world (shown_by (rest_of cf_whole_dump))) (frame_of_thread cf_now) [cf_frame0].
Proof. exact dumped_repaired_case. Qed.
Print Assumptions C163_repaired_case.

(** The program of C162 that signs its return address. *)
Theorem C163_repaired_aarch64_case :
  eh_typed aw_eh /\ acode_written aw_fs aw_eh (fun _ => ausual_cie) /\ aof_size aw_fs /\ ~ saved_unsigned aw_fs /\ (forall d, column_30 d = 30) /\
  dwarf2sframe_repaired rel64 arm column_30 aw_eh = Ok aw_sfb /\ build_repaired rel64 LE aw_sfb = Ok aw_bytes /\
  holds_section (object_file aw_out) aw_out /\ rust_slice dev32 (out_sframe aw_out) /\
  sframedump_main dev32 LE (Some (object_file aw_out)) = Ok aw_dump /\
  (exists h, read_dump (stdout_text some_abi aw_dump) = Some (h, rest_of aw_dump)) /\
  agoes ar_sign ar_strip 0x100000 aw_fs ac_begin (aw_frames, aw_now) /\
  walk (lk_step aw_world (shown_by (rest_of aw_dump))) (frame_of_athread aw_now) aw_frames /\
  map lx_pc aw_frames = [0x101018; 0x400000].
Proof. exact dumped_arm_repaired_case. Qed.
Print Assumptions C163_repaired_aarch64_case.
