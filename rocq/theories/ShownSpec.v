(** What somebody who has only the output of [sframedump] knows about lookups. *)
From Coq Require Import String ZArith List.
From Verif Require Export PipeSpec DebugSpec SectionSpec.
Open Scope Z_scope.
Open Scope list_scope.

(** The answer to a lookup, as a dump would show it. *)
Definition shown_answer {E} (r : outcome E (option unwind)) : outcome E (option shown_rule) :=
  match r with Ok o => Ok (option_map looks o) | Err er => Err er | Panic => Panic end.
(** No function of a dump repeats its rows in blocks. *)
Definition unmasked (l : list dump_line) : Prop := forall ty, In (LineColumns ty) l -> ty <> PPcMask.
