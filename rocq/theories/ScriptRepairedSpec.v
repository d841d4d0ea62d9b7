(** What the repaired [dump-dirlibs.sh] promises. *)
From Coq Require Import String Ascii ZArith List Permutation.
From Verif Require Export ScriptSpec ScriptRepaired.
Import ListNotations.
Open Scope list_scope.

Definition sf_none : sfixes := SFixes false false false false false false.
Definition sf_all : sfixes := SFixes true true true true true true.

(** All repairs but one. *)
Definition but_type : sfixes := SFixes false true true true true true.
Definition but_zero : sfixes := SFixes true false true true true true.
Definition but_skip : sfixes := SFixes true true false true true true.
Definition but_status : sfixes := SFixes true true true false true true.
Definition but_name : sfixes := SFixes true true true true false true.
Definition but_fresh : sfixes := SFixes true true true true true false.

(** A path has no NUL in it. *)
Definition is_path (p : text) : Prop := lacks nul p.

(** The files of [p] when the names begin with [base p]. *)
Definition files_as (base : text -> text) (p : text) : list text := map (name (base p)) extensions.

(** As [left_by], [complete] and [from_run] of ScriptSpec.v. *)
Definition left_as (base : text -> text) (T : tools) (p : text) (d d' : dir) (st : Z) : Prop :=
  let file ext := name (base p) ext in
  let '(c, log, obj) := t_convert T p in
  let o := match obj with Some o => Some o | None => d (file ".o"%string) end in
  d' (file ".log"%string) = Some log /\ d' (file ".o"%string) = o /\
  if Z.eqb c 0 then
    d' (file ".dwarf"%string) = Some (snd (t_dwarfdump T p)) /\
    if Z.eqb (fst (t_dwarfdump T p)) 0 then
      d' (file ".sframe"%string) = Some (snd (t_sframedump T o)) /\
      if Z.eqb (fst (t_sframedump T o)) 0 then
        d' (file ".asm"%string) = Some (snd (t_objdump T p)) /\ st = fst (t_objdump T p)
      else d' (file ".asm"%string) = d (file ".asm"%string) /\ st = fst (t_sframedump T o)
    else d' (file ".sframe"%string) = d (file ".sframe"%string) /\ d' (file ".asm"%string) = d (file ".asm"%string) /\
         st = fst (t_dwarfdump T p)
  else d' (file ".dwarf"%string) = d (file ".dwarf"%string) /\ d' (file ".sframe"%string) = d (file ".sframe"%string) /\
       d' (file ".asm"%string) = d (file ".asm"%string) /\ st = c.

Definition complete_as (base : text -> text) (T : tools) (p : text) (d' : dir) : Prop :=
  let file ext := name (base p) ext in
  exists log o dwarf dump asm,
    t_convert T p = (0%Z, log, Some o) /\ t_dwarfdump T p = (0%Z, dwarf) /\ t_sframedump T (Some o) = (0%Z, dump) /\
    t_objdump T p = (0%Z, asm) /\
    d' (file ".log"%string) = Some log /\ d' (file ".o"%string) = Some o /\ d' (file ".dwarf"%string) = Some dwarf /\
    d' (file ".sframe"%string) = Some dump /\ d' (file ".asm"%string) = Some asm.

(** The listing of a directory: paths as [find] prints them. *)
Definition listing_of_paths (found : list (text * file_report)) : Prop :=
  listing found /\ Forall (fun x => is_path (fst x)) found.
