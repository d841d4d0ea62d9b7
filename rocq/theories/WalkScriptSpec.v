(** Walks by the dumps that dump-dirlibs.sh leaves (C164). *)
From Coq Require Import String.
From Verif Require Export DumpedSpec ScriptSpec.
Open Scope list_scope.

(** What the script has left in the directory for the program [p] (under a name made with [base]) is
    a dump, and what it says satisfies [P]. *)
Definition left_dump (base : text -> text) (d : dir) (p : text) (P : (Z -> unwind -> Prop) -> Prop) : Prop :=
  exists s h rest, d (name (base p) ".sframe"%string) = Some (chars s) /\ read_dump s = Some (h, rest) /\ P (shown_by rest).
