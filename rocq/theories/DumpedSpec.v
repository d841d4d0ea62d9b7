(** Stacks walked by what somebody reads off the output of [sframedump] (C163). *)
From Coq Require Import String.
From Verif Require Export WrittenSpec ArmWrittenSpec PipeSpec.
Open Scope Z_scope.
Open Scope list_scope.

(** The dump says [u] of the address [a]. *)
Definition shown_by (l : list dump_line) (a : Z) (u : unwind) : Prop := dump_says l a (looks u).

(** What [sframedump] prints of the section of [out], in whatever file it is, and without any complaint,
    says something that satisfies [P]. *)
Definition dumped_well (md : mode) (e : endian) (out : out_file) (P : (Z -> unwind -> Prop) -> Prop) : Prop :=
  forall file abi_name, holds_section file out -> rust_slice md (out_sframe out) -> (forall n, without newline_char (abi_name n)) ->
    exists l h rest, sframedump_main md e (Some file) = Ok l /\ read_dump (stdout_text abi_name l) = Some (h, rest) /\
      stderr_text l = ""%string /\ P (shown_by rest).
