(** * C163 Stacks walked by what the dump of a converted program says *)
From Coq Require Import String.
From Verif Require Import DumpedSpec DumpedFacts DumpedWitness.
From Verif Require Import BaseFacts CfiFacts WalkFacts RelateFacts RunFacts ConvWitness CfiWitness V1Witness ProgramWitness RunWitness ConvRepairedWitness ArmRunWitness CodeWitness ToolsWitness.
Open Scope Z_scope.
Open Scope list_scope.

(** For a program as in C159 in a file: the converter writes a file; [sframedump], built for any
    target and given that section in any file, prints it without a complaint; and by what its output says
    the stack is walked right at every moment of every run, as it is by the section. *)
Theorem C163_second_converter : forall md args file parse addr fs cie,
  let eh := file_eh md file parse in let e := endian_of (elf_endian file) in
  file_typed file -> elf_architecture file = ElfX86_64 -> elf_eh_frame file = Some parse ->
  has_section (elf_sections file) ".eh_frame"%string addr -> code_written fs eh cie -> of_size fs ->
  exists out, dwarf2sframe2_main md args (Some file) = Ok out /\ code_always_walked eh fs (std_tells e (out_sframe out)) /\
    forall md', wf_mode md' -> dumped_well md' e out (code_always_walked eh fs).
Proof. exact dumped_walks. Qed.
Print Assumptions C163_second_converter.

(** By the first converter, on a host of the byte order [native]. *)
Theorem C163_first_converter : forall md native p file parse addr fs cie,
  let eh := in_eh (parse (tool_setup md (elf_sections file))) in
  file_typed file -> elf_eh_frame file = Some parse ->
  has_section (elf_sections file) ".eh_frame"%string addr -> code_written fs eh cie -> of_size fs -> no_empty_rows eh cie -> (forall r, p r = true) ->
  exists out, v1_main md native p (Some file) = Ok out /\ code_always_walked eh fs (std_tells native (out_sframe out)) /\
    forall md', wf_mode md' -> dumped_well md' native out (code_always_walked eh fs).
Proof. exact dumped_v1_walks. Qed.
Print Assumptions C163_first_converter.

(** For AArch64 as in C162, wherever the return address has been saved. *)
Theorem C163_aarch64 : forall md args file parse addr fs cie,
  let eh := file_eh md file parse in let e := endian_of (elf_endian file) in
  file_typed file -> elf_architecture file = ElfAarch64 -> elf_eh_frame file = Some parse ->
  has_section (elf_sections file) ".eh_frame"%string addr -> acode_written fs eh cie -> aof_size fs ->
  (forall f, In f fs -> aupright f) -> saved_unsigned fs ->
  exists out, dwarf2sframe2_main md args (Some file) = Ok out /\ acode_walked eh fs on_stack (std_tells e (out_sframe out)) /\
    forall md', wf_mode md' -> dumped_well md' e out (acode_walked eh fs on_stack).
Proof. exact dumped_arm_walks. Qed.
Print Assumptions C163_aarch64.

(** The programs of C158 in a file. *)
Theorem C163_case :
  file_typed cd_file /\ elf_eh_frame cd_file = Some (fun _ => eh_entries cd_eh) /\
  (exists addr, has_section (elf_sections cd_file) ".eh_frame"%string addr) /\
  file_eh rel64 cd_file (fun _ => eh_entries cd_eh) = cd_eh /\
  in_eh (eh_entries cd_eh) = cd_eh /\
  code_written cd_fs cd_eh (fun _ => usual_cie) /\ of_size cd_fs /\ no_empty_rows cd_eh (fun _ => usual_cie) /\
  dwarf2sframe2_main rel64 no_flags (Some cd_file) = Ok cd_out /\
  holds_section (object_file cd_out) cd_out /\ rust_slice dev32 (out_sframe cd_out) /\
  sframedump_main dev32 LE (Some (object_file cd_out)) = Ok cd_dump /\ (exists h, read_dump (stdout_text some_abi cd_dump) = Some (h, rest_of cd_dump)) /\
  goes 0x100000 cd_fs cd_begin (cd_frames, cd_now) /\
  walk (sf_step cd_world (shown_by (rest_of cd_dump))) (frame_of_thread cd_now) cd_frames.
Proof. exact dumped_case. Qed.
Print Assumptions C163_case.

(** By the first converter. *)
Theorem C163_first_case :
  v1_main rel64 LE (fun _ => true) (Some cd_file) = Ok cd_v1_out /\
  holds_section (object_file cd_v1_out) cd_v1_out /\ rust_slice dev32 (out_sframe cd_v1_out) /\
  sframedump_main dev32 LE (Some (object_file cd_v1_out)) = Ok cd_v1_dump /\
  (exists h, read_dump (stdout_text some_abi cd_v1_dump) = Some (h, rest_of cd_v1_dump)) /\
  walk (sf_step cd_world (shown_by (rest_of cd_v1_dump))) (frame_of_thread cd_now) cd_frames.
Proof. exact dumped_v1_case. Qed.
Print Assumptions C163_first_case.

(** The program of C162 in a file. *)
Theorem C163_aarch64_case :
  file_typed ap_file /\ elf_eh_frame ap_file = Some (fun _ => eh_entries ac_plain_eh) /\
  (exists addr, has_section (elf_sections ap_file) ".eh_frame"%string addr) /\
  file_eh rel64 ap_file (fun _ => eh_entries ac_plain_eh) = ac_plain_eh /\
  acode_written [ac_plain] ac_plain_eh (fun _ => ausual_cie) /\ aof_size [ac_plain] /\
  (forall f, In f [ac_plain] -> aupright f) /\ saved_unsigned [ac_plain] /\
  dwarf2sframe2_main rel64 no_flags (Some ap_file) = Ok ap_out /\
  holds_section (object_file ap_out) ap_out /\ rust_slice dev32 (out_sframe ap_out) /\
  sframedump_main dev32 LE (Some (object_file ap_out)) = Ok ap_dump /\
  (exists h, read_dump (stdout_text some_abi ap_dump) = Some (h, rest_of ap_dump)) /\
  agoes ar_sign ar_strip 0x100000 [ac_plain] ap_begin (ap_frames, ap_now) /\
  walk (lk_step ap_world (shown_by (rest_of ap_dump))) (frame_of_athread ap_now) ap_frames.
Proof. exact dumped_arm_case. Qed.
Print Assumptions C163_aarch64_case.
