(** What [dump-dirlibs.sh] is for: convert every program below a directory, and keep
    the results apart. *)
From Coq Require Import String Ascii ZArith List Permutation.
From Verif Require Export PipeSpec Script.
Import ListNotations.
Open Scope list_scope.

(** [file] names the path and gives one type, on one line. *)
Definition lacks (c : ascii) (s : text) : Prop := ~ In c s.
(** Words with one blank between two of them, and no other white space. *)
Definition single_spaced (s : text) : Prop :=
  lacks (ascii_of_nat 9) s /\
  forall a b, s <> " "%char :: a /\ s <> a ++ [" "%char] /\ s <> a ++ " "%char :: " "%char :: b.
Definition reports (p : text) (r : file_report) : Prop :=
  fr_shown r = p /\ single_spaced (fr_mime r) /\
  (forall c, c = nl \/ c = colon \/ c = semicolon -> lacks c (fr_mime r)) /\ lacks nl (fr_charset r).

Definition elf_types : list text :=
  map chars ["application/x-sharedlib"; "application/x-pie-executable"; "application/x-executable"; "application/x-object"]%string.
Definition is_program (r : file_report) : bool := existsb (text_eqb (fr_mime r)) elf_types.
Definition programs (found : list (text * file_report)) : list text := map fst (filter (fun x => is_program (snd x)) found).

(** What [find] prints: different paths, none of them empty. *)
Definition listing (found : list (text * file_report)) : Prop :=
  NoDup (map fst found) /\ Forall (fun x => fst x <> [] /\ reports (fst x) (snd x)) found.

(** Characters that mean something to xargs: tab, newline, blank, the two quotes and
    the backslash; in front of an argument also the other white space. *)
Definition special (c : ascii) : bool := existsb (Nat.eqb (nat_of_ascii c)) [9; 10; 32; 34; 39; 92]%nat.
Definition white (c : ascii) : bool := existsb (Nat.eqb (nat_of_ascii c)) [9; 10; 11; 12; 13; 32]%nat.
Definition safe (p : text) : Prop :=
  p <> [] /\ Forall (fun c => special c = false) p /\ match p with c :: _ => white c = false | [] => True end.

(** Paths the pipeline handles. *)
Definition plain_path (p : text) : Prop := safe p /\ lacks colon p.

(** What follows the last slash. *)
Definition last_component (p b : text) : Prop :=
  b <> [] /\ lacks slash b /\ (p = b \/ exists above, p = above ++ slash :: b).

(** The files a run of [convert] on [p] has to itself. *)
Definition extensions : list string := [".log"; ".o"; ".dwarf"; ".sframe"; ".asm"]%string.
Definition files_of (p : text) : list text := map (name (basename p)) extensions.

(** What a run on [p] leaves behind: [d] before, [d'] afterwards. *)
Definition left_by (T : tools) (p : text) (d d' : dir) (st : Z) : Prop :=
  let file ext := name (basename p) ext in
  let '(c, log, obj) := t_convert T p in
  let o := match obj with Some o => Some o | None => d (file ".o"%string) end in
  d' (file ".log"%string) = Some log /\ d' (file ".o"%string) = o /\
  if Z.eqb c 0 then
    d' (file ".dwarf"%string) = Some (snd (t_dwarfdump T p)) /\
    if Z.eqb (fst (t_dwarfdump T p)) 0 then
      d' (file ".sframe"%string) = Some (snd (t_sframedump T o)) /\
      if Z.eqb (fst (t_sframedump T o)) 0 then
        d' (file ".asm"%string) = Some (snd (t_objdump T p)) /\ st = fst (t_objdump T p)
      else d' (file ".asm"%string) = d (file ".asm"%string) /\ st = fst (t_sframedump T o)
    else d' (file ".sframe"%string) = d (file ".sframe"%string) /\ d' (file ".asm"%string) = d (file ".asm"%string) /\
         st = fst (t_dwarfdump T p)
  else d' (file ".dwarf"%string) = d (file ".dwarf"%string) /\ d' (file ".sframe"%string) = d (file ".sframe"%string) /\
       d' (file ".asm"%string) = d (file ".asm"%string) /\ st = c.

(** A conversion that succeeds has written its object file (C111). *)
Definition writes_object (T : tools) : Prop := forall p log obj, t_convert T p = (0%Z, log, obj) -> obj <> None.

(** Everything went well for [p], and its five files are there. *)
Definition complete (T : tools) (p : text) (d' : dir) : Prop :=
  let file ext := name (basename p) ext in
  exists log o dwarf dump asm,
    t_convert T p = (0%Z, log, Some o) /\ t_dwarfdump T p = (0%Z, dwarf) /\ t_sframedump T (Some o) = (0%Z, dump) /\
    t_objdump T p = (0%Z, asm) /\
    d' (file ".log"%string) = Some log /\ d' (file ".o"%string) = Some o /\ d' (file ".dwarf"%string) = Some dwarf /\
    d' (file ".sframe"%string) = Some dump /\ d' (file ".asm"%string) = Some asm.

(** A file's contents come from this run on [p]. *)
Definition from_run (T : tools) (p : text) (ext : string) (v : text) : Prop :=
  let '(c, log, obj) := t_convert T p in
  (ext = ".log"%string /\ v = log) \/ (ext = ".o"%string /\ obj = Some v) \/
  (ext = ".dwarf"%string /\ v = snd (t_dwarfdump T p)) \/ (ext = ".sframe"%string /\ v = snd (t_sframedump T obj)) \/
  (ext = ".asm"%string /\ v = snd (t_objdump T p)).

(** No run returned the status that makes xargs stop. *)
Definition none_aborts (sts : list (text * Z)) : Prop := forall p, ~ In (p, 255%Z) sts.

(** [--debug-dump --warnings], lines 37-38 *)
Definition script_flags : cli_args := {| ca_debug_dump := true; ca_warnings := true; ca_no_opt := false |}.

(** The tools of the script are the modelled ones: [input] is what a path holds,
    [emit] the object file written, [parse] what [object] makes of its bytes. *)
Record modelled (T : tools) (md md' : mode) (native : endian) (abi_name : Z -> string)
  (input : text -> option elf_file) (emit : out_file -> text) (parse : text -> option elf_file) : Prop := {
  m_convert : forall p out, dwarf2sframe2_main md script_flags (input p) = Ok out ->
    exists log, t_convert T p = (0%Z, log, Some (emit out));
  m_emit : forall p out, dwarf2sframe2_main md script_flags (input p) = Ok out ->
    exists file, parse (emit out) = Some file /\ holds_section file out;
  m_dump : forall o l, sframedump_main md' native (parse o) = Ok l ->
    t_sframedump T (Some o) = (0%Z, chars (stdout_text abi_name l)) }.
