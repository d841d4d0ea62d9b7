(** The repaired dump-dirlibs.sh with a repaired converter (C164). *)
From Coq Require Import String.
From Verif Require Export WalkScriptSpec.
Open Scope Z_scope.
Open Scope list_scope.

(** What the second converter writes for [file] once it and the writer are repaired, called as the script
    calls it; [column] is the return address register of each function of each file. *)
Definition whole_output (md : mode) (column : elf_file -> dw_fde -> Z) (file : elf_file) (out : out_file) : Prop :=
  exists a parse s bs, arch_of (elf_architecture file) = Some a /\ elf_eh_frame file = Some parse /\
    dwarf2sframe_repaired md (cli_options script_flags a (elf_endian file)) (column file) (file_eh md file parse) = Ok s /\
    build_repaired md (endian_of (elf_endian file)) s = Ok bs /\ out = OutFile (elf_architecture file) (elf_endian file) bs.

(** As [modelled], with a converter that writes what [makes] says; [sframedump] is that of /repo. *)
Record fitted (makes : elf_file -> out_file -> Prop) (T : tools) (md' : mode) (native : endian) (abi_name : Z -> string)
  (input : text -> option elf_file) (emit : out_file -> text) (parse : text -> option elf_file) : Prop := {
  f_convert : forall p file out, input p = Some file -> makes file out -> exists log, t_convert T p = (0%Z, log, Some (emit out));
  f_emit : forall p file out, input p = Some file -> makes file out -> exists dumped, parse (emit out) = Some dumped /\ holds_section dumped out;
  f_dump : forall o l, sframedump_main md' native (parse o) = Ok l -> t_sframedump T (Some o) = (0%Z, chars (stdout_text abi_name l)) }.
