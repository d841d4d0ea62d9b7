(** * What a build with more checks may do differently

    Nothing but panic: where it does not panic its result is the one of the build
    with fewer checks.  A program that prints has, when it panics, printed the
    beginning of what the other prints. *)

From Verif Require Import Base Spec.

(** [md] is built with all the checks of [md'] and from the same standard library. *)
Record stricter (md md' : mode) : Prop := {
  st_overflow : overflow_checks md' = true -> overflow_checks md = true;
  st_asserts : debug_asserts md' = true -> debug_asserts md = true;
  st_library : bsearch md = bsearch md';
  st_target : wf_mode md /\ wf_mode md' }.

Definition same_or_panic {E A} (a b : outcome E A) : Prop := a = Panic \/ a = b.

(** The same for what is printed and returned. *)
Definition same_or_cut {T E A} (a b : list T * outcome E A) : Prop :=
  snd a = Panic /\ (exists rest, fst b = (fst a ++ rest)%list) \/ a = b.

(** Built with the same checks and library; the pointer widths may differ. *)
Definition same_checks (md md' : mode) : Prop :=
  overflow_checks md = overflow_checks md' /\ debug_asserts md = debug_asserts md' /\ bsearch md = bsearch md' /\
  wf_mode md /\ wf_mode md'.

(** The same build from another version of the standard library. *)
Definition with_library (i : bsearch_impl) (md : mode) : mode :=
  Mode (overflow_checks md) (debug_asserts md) (usize_bits md) i.
