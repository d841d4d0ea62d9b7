(** The programs of C159 and C162 which the repairs are needed for, dumped and walked by the text of the dump. *)
From Coq Require Import String.
From Verif Require Export DumpedRepaired DumpedWitness.
From Verif Require Import BaseFacts CfiFacts WalkFacts RelateFacts RunFacts ConvWitness CfiWitness V1Witness ProgramWitness RunWitness ConvRepairedWitness ArmRunWitness CodeWitness ToolsWitness.
Open Scope Z_scope.
Open Scope list_scope.

Definition cf_whole_out : out_file := OutFile ElfX86_64 RtLittle cf_whole_bytes.
Definition cf_whole_dump : list dump_line := Eval vm_compute in
  match sframedump_main dev32 LE (Some (object_file cf_whole_out)) with Ok l => l | _ => [] end.
Definition aw_out : out_file := OutFile ElfAarch64 RtLittle aw_bytes.
Definition aw_dump : list dump_line := Eval vm_compute in
  match sframedump_main dev32 LE (Some (object_file aw_out)) with Ok l => l | _ => [] end.

Theorem dumped_repaired_case :
  eh_typed cf_eh /\ code_written cf_fs cf_eh (fun _ => usual_cie) /\ of_size cf_fs /\ (forall d, column_16 d = 16) /\
  dwarf2sframe_repaired rel64 amd column_16 cf_eh = Ok cf_whole /\ build_repaired rel64 LE cf_whole = Ok cf_whole_bytes /\
  holds_section (object_file cf_whole_out) cf_whole_out /\ rust_slice dev32 (out_sframe cf_whole_out) /\
  sframedump_main dev32 LE (Some (object_file cf_whole_out)) = Ok cf_whole_dump /\
  (exists h, read_dump (stdout_text some_abi cf_whole_dump) = Some (h, rest_of cf_whole_dump)) /\
  walk (sf_step cf_world (shown_by (rest_of cf_whole_dump))) (frame_of_thread cf_now) [cf_frame0].
Proof.
  assert (H1 : dwarf2sframe_repaired rel64 amd column_16 cf_eh = Ok cf_whole) by (vm_compute; reflexivity).
  assert (H2 : build_repaired rel64 LE cf_whole = Ok cf_whole_bytes) by (vm_compute; reflexivity).
  assert (S : rust_slice dev32 (out_sframe cf_whole_out)) by (vm_compute; reflexivity).
  assert (D : sframedump_main dev32 LE (Some (object_file cf_whole_out)) = Ok cf_whole_dump) by (vm_compute; reflexivity).
  split; [exact cf_typed|]. split; [exact cf_written|]. split; [exact cf_of_size|]. split; [reflexivity|].
  split; [exact H1|]. split; [exact H2|]. split; [apply object_holds|]. split; [exact S|]. split; [exact D|].
  destruct (dumped_repaired cf_fs cf_eh (fun _ => usual_cie) rel64 rel64 amd column_16 LE cf_typed cf_written cf_of_size eq_refl (fun _ => eq_refl)) as (s & bs & Hc & Hb & _ & Hw).
  assert (s = cf_whole) as -> by congruence. assert (bs = cf_whole_bytes) as -> by congruence.
  destruct (Hw dev32 ElfX86_64 RtLittle ltac:(vm_compute; intuition discriminate) (object_file cf_whole_out) some_abi (object_holds _) S some_abi_line) as (l & h & rest & D1 & D2 & _ & W).
  assert (l = cf_whole_dump) as -> by congruence.
  assert (rest_of cf_whole_dump = rest) as -> by (unfold rest_of; rewrite D2; reflexivity).
  split; [eexists; exact D2|].
  apply (W _ _ _ _ _ _ cf_begins cf_reaches cf_sees cf_outside). exists []. reflexivity.
Qed.

Theorem dumped_arm_repaired_case :
  eh_typed aw_eh /\ acode_written aw_fs aw_eh (fun _ => ausual_cie) /\ aof_size aw_fs /\ ~ saved_unsigned aw_fs /\ (forall d, column_30 d = 30) /\
  dwarf2sframe_repaired rel64 arm column_30 aw_eh = Ok aw_sfb /\ build_repaired rel64 LE aw_sfb = Ok aw_bytes /\
  holds_section (object_file aw_out) aw_out /\ rust_slice dev32 (out_sframe aw_out) /\
  sframedump_main dev32 LE (Some (object_file aw_out)) = Ok aw_dump /\
  (exists h, read_dump (stdout_text some_abi aw_dump) = Some (h, rest_of aw_dump)) /\
  agoes ar_sign ar_strip 0x100000 aw_fs ac_begin (aw_frames, aw_now) /\
  walk (lk_step aw_world (shown_by (rest_of aw_dump))) (frame_of_athread aw_now) aw_frames /\
  map lx_pc aw_frames = [0x101018; 0x400000].
Proof.
  assert (S : rust_slice dev32 (out_sframe aw_out)) by (vm_compute; reflexivity).
  assert (D : sframedump_main dev32 LE (Some (object_file aw_out)) = Ok aw_dump) by (vm_compute; reflexivity).
  destruct awritten_repaired_case as (T & W0 & Z0 & N & G & L & B & R & E & O & H1 & H2 & _ & M & _).
  do 4 (split; [assumption|]). split; [reflexivity|]. split; [exact H1|]. split; [exact H2|]. split; [apply object_holds|]. split; [exact S|]. split; [exact D|].
  destruct (dumped_arm_repaired aw_fs aw_eh (fun _ => ausual_cie) rel64 rel64 arm column_30 LE T W0 Z0 eq_refl (fun _ => eq_refl)) as (s & bs & Hc & Hb & _ & Hw).
  assert (s = aw_sfb) as -> by congruence. assert (bs = aw_bytes) as -> by congruence.
  destruct (Hw dev32 ElfAarch64 RtLittle ltac:(vm_compute; intuition discriminate) (object_file aw_out) some_abi (object_holds _) S some_abi_line) as (l & h & rest & D1 & D2 & _ & W).
  assert (l = aw_dump) as -> by congruence.
  assert (rest_of aw_dump = rest) as -> by (unfold rest_of; rewrite D2; reflexivity).
  split; [eexists; exact D2|]. split; [exact R|]. split; [|exact M].
  refine (proj2 (W _ _ _ _ _ _ _ _ G L _ B R E O _ aw_frames) _); [unfold canonical; lia|intros f i _ _ _; exact I|].
  exists []. symmetry. apply app_nil_r.
Qed.
