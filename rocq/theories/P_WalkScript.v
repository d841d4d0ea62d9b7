(** * C164 Stacks walked by the dumps that dump-dirlibs.sh leaves *)
From Coq Require Import String Ascii ZArith List Permutation Bool.
From Verif Require Import WalkScriptSpec WalkScript WalkScriptWitness.
From Verif Require Import BaseFacts CfiFacts WalkFacts RelateFacts RunFacts ConvWitness CfiWitness V1Witness ProgramWitness RunWitness ConvRepairedWitness ArmRunWitness CodeWitness ToolsWitness.
Import ListNotations.
Open Scope Z_scope.
Open Scope list_scope.

(** For a directory of which the script can name every program and keep the results apart (C127, C128),
    and a program in it as in C163: the script leaves a dump under its name, and by what the dump says the
    stack is walked right at every moment of every run. *)
Theorem C164_script : forall T md md' abi_name input emit parse found d sts d' ok p file eh0 addr fs cie,
  let eh := file_eh md file eh0 in
  modelled T md md' (endian_of (elf_endian file)) abi_name input emit parse ->
  listing found -> (forall q, In q (map fst found) -> plain_path q) -> NoDup (map basename (programs found)) ->
  script T found d sts d' ok -> none_aborts sts -> In p (programs found) -> fst (t_dwarfdump T p) = 0 ->
  wf_mode md' -> (forall n, without newline_char (abi_name n)) ->
  input p = Some file -> file_typed file -> elf_architecture file = ElfX86_64 -> elf_eh_frame file = Some eh0 ->
  has_section (elf_sections file) ".eh_frame"%string addr -> code_written fs eh cie -> of_size fs ->
  (forall out, dwarf2sframe2_main md script_flags (Some file) = Ok out -> rust_slice md' (out_sframe out)) ->
  left_dump basename d' p (code_always_walked eh fs).
Proof. exact script_walks. Qed.
Print Assumptions C164_script.

(** For AArch64 as in C162, wherever the return address has been saved. *)
Theorem C164_script_aarch64 : forall T md md' abi_name input emit parse found d sts d' ok p file eh0 addr fs cie,
  let eh := file_eh md file eh0 in
  modelled T md md' (endian_of (elf_endian file)) abi_name input emit parse ->
  listing found -> (forall q, In q (map fst found) -> plain_path q) -> NoDup (map basename (programs found)) ->
  script T found d sts d' ok -> none_aborts sts -> In p (programs found) -> fst (t_dwarfdump T p) = 0 ->
  wf_mode md' -> (forall n, without newline_char (abi_name n)) ->
  input p = Some file -> file_typed file -> elf_architecture file = ElfAarch64 -> elf_eh_frame file = Some eh0 ->
  has_section (elf_sections file) ".eh_frame"%string addr -> acode_written fs eh cie -> aof_size fs ->
  (forall f, In f fs -> aupright f) -> saved_unsigned fs ->
  (forall out, dwarf2sframe2_main md script_flags (Some file) = Ok out -> rust_slice md' (out_sframe out)) ->
  left_dump basename d' p (acode_walked eh fs on_stack).
Proof. exact script_arm_walks. Qed.
Print Assumptions C164_script_aarch64.

(** With five repairs of the script (C127, C128), for any directory. *)
Theorem C164_repaired : forall fx T md md' abi_name input emit parse found d sts d' ok p file eh0 addr fs cie,
  let eh := file_eh md file eh0 in
  sf_type fx = true -> sf_zero fx = true -> sf_skip fx = true -> sf_status fx = true -> sf_name fx = true ->
  modelled T md md' (endian_of (elf_endian file)) abi_name input emit parse -> listing_of_paths found ->
  script_asked fx T found d sts d' ok -> In p (programs found) -> fst (t_dwarfdump T p) = 0 ->
  wf_mode md' -> (forall n, without newline_char (abi_name n)) ->
  input p = Some file -> file_typed file -> elf_architecture file = ElfX86_64 -> elf_eh_frame file = Some eh0 ->
  has_section (elf_sections file) ".eh_frame"%string addr -> code_written fs eh cie -> of_size fs ->
  (forall out, dwarf2sframe2_main md script_flags (Some file) = Ok out -> rust_slice md' (out_sframe out)) ->
  left_dump escaped d' p (code_always_walked eh fs).
Proof. exact script_walks_asked. Qed.
Print Assumptions C164_repaired.

(** The same for AArch64. *)
Theorem C164_repaired_aarch64 : forall fx T md md' abi_name input emit parse found d sts d' ok p file eh0 addr fs cie,
  let eh := file_eh md file eh0 in
  sf_type fx = true -> sf_zero fx = true -> sf_skip fx = true -> sf_status fx = true -> sf_name fx = true ->
  modelled T md md' (endian_of (elf_endian file)) abi_name input emit parse -> listing_of_paths found ->
  script_asked fx T found d sts d' ok -> In p (programs found) -> fst (t_dwarfdump T p) = 0 ->
  wf_mode md' -> (forall n, without newline_char (abi_name n)) ->
  input p = Some file -> file_typed file -> elf_architecture file = ElfAarch64 -> elf_eh_frame file = Some eh0 ->
  has_section (elf_sections file) ".eh_frame"%string addr -> acode_written fs eh cie -> aof_size fs ->
  (forall f, In f fs -> aupright f) -> saved_unsigned fs ->
  (forall out, dwarf2sframe2_main md script_flags (Some file) = Ok out -> rust_slice md' (out_sframe out)) ->
  left_dump escaped d' p (acode_walked eh fs on_stack).
Proof. exact script_arm_walks_asked. Qed.
Print Assumptions C164_repaired_aarch64.

(** A directory with the programs of C158 and C162 and a file that is none. *)
Theorem C164_case :
  modelled lib_tools rel64 dev32 LE some_abi lib_input lib_emit lib_parse /\
  listing fine /\ (forall p, In p (map fst fine) -> plain_path p) /\ NoDup (map basename (programs fine)) /\
  listing_of_paths fine /\ programs fine = [path_a; path_b] /\
  script lib_tools fine empty_dir [(path_a, 0); (path_b, 0)] lib_dir true /\ none_aborts [(path_a, 0); (path_b, 0)] /\
  (forall d, script_asked sf_all lib_tools fine d [(path_a, 0); (path_b, 0)] lib_dir_all true) /\
  lib_input path_a = Some cd_file /\ lib_input path_b = Some ap_file /\
  (forall out, dwarf2sframe2_main rel64 script_flags (Some cd_file) = Ok out -> rust_slice dev32 (out_sframe out)) /\
  (forall out, dwarf2sframe2_main rel64 script_flags (Some ap_file) = Ok out -> rust_slice dev32 (out_sframe out)) /\
  (exists s, lib_dir (chars "liba.so.sframe"%string) = Some (chars s) /\ s = stdout_text some_abi cd_dump) /\
  left_dump basename lib_dir path_a (fun tells => walk (sf_step cd_world tells) (frame_of_thread cd_now) cd_frames) /\
  left_dump basename lib_dir path_b (fun tells => walk (lk_step ap_world tells) (frame_of_athread ap_now) ap_frames) /\
  left_dump escaped lib_dir_all path_a (fun tells => walk (sf_step cd_world tells) (frame_of_thread cd_now) cd_frames).
Proof. exact script_walk_case. Qed.
Print Assumptions C164_case.
