(** * C164 Stacks walked by the dumps of the repaired dump-dirlibs.sh, with the repaired converter *)
From Coq Require Import String Ascii ZArith List Permutation Lia Bool.
From Verif Require Import WholeScriptSpec WholeScript WholeScriptWitness.
From Verif Require Import BaseFacts CfiFacts WalkFacts RelateFacts RunFacts ConvWitness CfiWitness V1Witness ProgramWitness RunWitness ConvRepairedWitness ArmRunWitness CodeWitness ToolsWitness.
Import ListNotations.
Open Scope Z_scope.
Open Scope list_scope.

(** The repaired script with the repaired converter and the [sframedump] of /repo: for every program as in
    C159, whatever else is in the directories, the dump it leaves is one that stacks are walked right by. *)
Theorem C164_whole : forall fx T md md' column abi_name input emit parse found d sts d' ok p file eh0 fs cie,
  let eh := file_eh md file eh0 in
  sf_type fx = true -> sf_zero fx = true -> sf_skip fx = true -> sf_status fx = true -> sf_name fx = true ->
  fitted (whole_output md column) T md' (endian_of (elf_endian file)) abi_name input emit parse -> listing_of_paths found ->
  script_asked fx T found d sts d' ok -> In p (programs found) -> fst (t_dwarfdump T p) = 0 ->
  wf_mode md' -> (forall n, without newline_char (abi_name n)) -> (forall f, column file f = 16) ->
  input p = Some file -> file_typed file -> elf_architecture file = ElfX86_64 -> elf_eh_frame file = Some eh0 ->
  code_written fs eh cie -> of_size fs ->
  (forall out, whole_output md column file out -> rust_slice md' (out_sframe out)) ->
  left_dump escaped d' p (code_always_walked eh fs).
Proof. exact whole_script. Qed.
Print Assumptions C164_whole.

(** For AArch64 as in C162, at every moment of every run. *)
Theorem C164_whole_aarch64 : forall fx T md md' column abi_name input emit parse found d sts d' ok p file eh0 fs cie,
  let eh := file_eh md file eh0 in
  sf_type fx = true -> sf_zero fx = true -> sf_skip fx = true -> sf_status fx = true -> sf_name fx = true ->
  fitted (whole_output md column) T md' (endian_of (elf_endian file)) abi_name input emit parse -> listing_of_paths found ->
  script_asked fx T found d sts d' ok -> In p (programs found) -> fst (t_dwarfdump T p) = 0 ->
  wf_mode md' -> (forall n, without newline_char (abi_name n)) -> (forall f, column file f = 30) ->
  input p = Some file -> file_typed file -> elf_architecture file = ElfAarch64 -> elf_eh_frame file = Some eh0 ->
  acode_written fs eh cie -> aof_size fs ->
  (forall out, whole_output md column file out -> rust_slice md' (out_sframe out)) ->
  left_dump escaped d' p (acode_walked eh fs everywhere).
Proof. exact whole_script_arm. Qed.
Print Assumptions C164_whole_aarch64.

(** A directory with the programs that C159 and C162 show the repairs with. *)
Theorem C164_whole_case :
  fitted (whole_output rel64 whole_column) whole_tools dev32 LE some_abi whole_input lib_emit whole_parse /\
  whole_output rel64 whole_column cf_file cf_whole_out /\ whole_output rel64 whole_column aw_file aw_out /\
  listing_of_paths fine /\ programs fine = [path_a; path_b] /\
  (forall d, script_asked sf_all whole_tools fine d [(path_a, 0); (path_b, 0)] whole_dir true) /\
  whole_input path_a = Some cf_file /\ whole_input path_b = Some aw_file /\
  (forall out, whole_output rel64 whole_column cf_file out -> rust_slice dev32 (out_sframe out)) /\
  (forall out, whole_output rel64 whole_column aw_file out -> rust_slice dev32 (out_sframe out)) /\
  left_dump escaped whole_dir path_a (fun tells => walk (sf_step cf_world tells) (frame_of_thread cf_now) [cf_frame0]) /\
  left_dump escaped whole_dir path_b (fun tells => walk (lk_step aw_world tells) (frame_of_athread aw_now) aw_frames).
Proof. exact whole_script_case. Qed.
Print Assumptions C164_whole_case.
