(** [dump-dirlibs.sh] with repairs that can be switched on one by one.

    With all of them off this is [script] of Script.v (lemma [script_none]).  What is
    changed, by lines of dump-dirlibs.sh:
    - [sf_type]: line 9 asks [file --brief --mime-type] and does not cut;
    - [sf_zero]: line 24 is [printf '%s\0' "$1"], line 54 [uniq -z] and line 55
      [xargs -0];
    - [sf_skip]: line 55 has [xargs -r];
    - [sf_status]: line 55 ends in status 1 whenever [convert] fails;
    - [sf_name]: line 31 takes the whole path, with ["%"] written ["%25"] and ["/"]
      written ["%2F"];
    - [sf_fresh]: line 49 removes the output directory first.
    Nothing is assumed about the length of file names, as in Script.v. *)
From Coq Require Import String Ascii ZArith List Permutation.
From Verif Require Export Script.
Import ListNotations.
Open Scope list_scope.

Record sfixes : Type := SFixes {
  sf_type : bool; sf_zero : bool; sf_skip : bool; sf_status : bool; sf_name : bool; sf_fresh : bool }.

Definition nul : ascii := ascii_of_nat 0.
Definition percent : ascii := "%"%char.

(** ** Records that end in [c] *)

Definition lines_by (c : ascii) (s : text) : list text :=
  match rev (split_on c s) with
  | [] :: r => rev r
  | r => rev r
  end.
Definition unlines_by (c : ascii) (l : list text) : text := flat_map (fun x => x ++ [c]) l.
Definition uniq_by (c : ascii) (s : text) : text := unlines_by c (uniq_lines (lines_by c s)).
Definition record_end (fx : sfixes) : ascii := if sf_zero fx then nul else nl.

(** ** print_if_lib, lines 8-25 *)

(** [file --brief --mime-type]: the type on a line by itself. *)
Definition mime_asked (fx : sfixes) (r : file_report) : text :=
  if sf_type fx then substituted (fr_mime r ++ [nl]) else mime_seen r.
Definition accepted_asked (fx : sfixes) (r : file_report) : bool := existsb (text_eqb (mime_asked fx r)) program_types.
Definition print_asked (fx : sfixes) (p : text) (r : file_report) : text :=
  if accepted_asked fx r then (if sf_zero fx then p ++ [nul] else echo [p]) else [].

(** ** The second xargs, line 55 *)

(** [-0]: the arguments are the records as they are. *)
Definition xargs_asked (fx : sfixes) (s : text) : list text * bool :=
  let r := if sf_zero fx then (lines_by nul s, false) else scan XSpace [] s in
  match r with
  | ([], false) => if sf_skip fx then ([], false) else ([[]], false)
  | _ => r
  end.

(** The status xargs sees. *)
Definition status_asked (fx : sfixes) (st : Z) : Z := if sf_status fx then (if Z.eqb st 0 then 0 else 1)%Z else st.

(** ** convert, lines 27-44 *)

Definition escape (c : ascii) : text :=
  if Ascii.eqb c percent then chars "%25" else if Ascii.eqb c slash then chars "%2F" else [c].
Definition escaped (p : text) : text := flat_map escape p.
Definition base_asked (fx : sfixes) (p : text) : text := if sf_name fx then escaped p else basename p.

(** As [convert_step], with any choice of names. *)
Definition step_as (base : text -> text) (T : tools) (p : text) (at_ : place) (d : dir) : option (place * dir) :=
  let b := base p in
  match at_ with
  | AtLog => Some (AtConvert, put (name b ".log") [] d)
  | AtConvert =>
      let '(st, log, obj) := t_convert T p in
      let d := match obj with Some o => put (name b ".o") o d | None => d end in
      Some (unless st AtDwarf, put (name b ".log") log d)
  | AtDwarf => Some (AtDwarfdump, put (name b ".dwarf") [] d)
  | AtDwarfdump => let (st, out) := t_dwarfdump T p in Some (unless st AtSframe, put (name b ".dwarf") out d)
  | AtSframe => Some (AtSframedump, put (name b ".sframe") [] d)
  | AtSframedump =>
      let (st, out) := t_sframedump T (d (name b ".o")) in Some (unless st AtAsm, put (name b ".sframe") out d)
  | AtAsm => Some (AtObjdump, put (name b ".asm") [] d)
  | AtObjdump => let (st, out) := t_objdump T p in Some (AtEnd st, put (name b ".asm") out d)
  | AtEnd _ => None
  end.

Inductive runs_as (base : text -> text) (T : tools) : jobs -> dir -> jobs -> dir -> Prop :=
  | runs_as_stay : forall js d, runs_as base T js d js d
  | runs_as_step : forall js1 p a js2 d a' d' js' d'',
      step_as base T p a d = Some (a', d') ->
      runs_as base T (js1 ++ (p, a') :: js2) d' js' d'' ->
      runs_as base T (js1 ++ (p, a) :: js2) d js' d''.

(** ** The pipeline, lines 49-55 *)

Definition dir_asked (fx : sfixes) (d : dir) : dir := if sf_fresh fx then (fun _ => None) else d.

Definition handed_asked (fx : sfixes) (found : list (text * file_report)) (input : text) : Prop :=
  exists outs, Permutation (map (fun x => print_asked fx (fst x) (snd x)) found) outs /\
    input = uniq_by (record_end fx) (concat outs).

Inductive script_asked (fx : sfixes) (T : tools) (found : list (text * file_report)) (d : dir) : list (text * Z) -> dir -> bool -> Prop :=
  | script_asked_run : forall input args bad args' rest sts d',
      handed_asked fx found input ->
      xargs_asked fx input = (args, bad) ->
      args = args' ++ rest ->
      runs_as (base_asked fx) T (map start_of args') (dir_asked fx d) (map (fun x => (fst x, AtEnd (snd x))) sts) d' ->
      (rest <> [] -> exists p st, In (p, st) sts /\ status_asked fx st = 255%Z) ->
      script_asked fx T found d sts d' (negb bad && forallb (fun x => Z.eqb (status_asked fx (snd x)) 0) sts)%bool.
