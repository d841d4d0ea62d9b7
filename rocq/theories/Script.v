(** Model of [dump-dirlibs.sh]: which files it converts, and what it leaves in its
    output directory.

    The programs it calls are inputs: what [file] reports about a path, and what
    [dwarf2sframe2], [dwarfdump], [sframedump] and [objdump] print and return.
    [cut], [uniq], [xargs], [basename] and [bash] are modelled as the GNU versions
    behave in the C locale.  Not modelled: options of [echo] and [basename]
    (arguments that begin with a dash), pathname expansion in [echo $mime], NUL
    bytes, outputs that cannot be written, and paths longer than a pipe writes in
    one piece. *)
From Coq Require Import String Ascii ZArith List Permutation.
Import ListNotations.
Open Scope list_scope.

Notation text := (list ascii).
Definition chars (s : string) : text := list_ascii_of_string s.
Definition nl : ascii := ascii_of_nat 10.
Definition tab : ascii := ascii_of_nat 9.
Definition colon : ascii := ":"%char.
Definition semicolon : ascii := ";"%char.
Definition slash : ascii := "/"%char.
Definition backslash : ascii := ascii_of_nat 92.
Definition single_quote : ascii := ascii_of_nat 39.
Definition double_quote : ascii := ascii_of_nat 34.

Definition text_eqb (a b : text) : bool := if list_eq_dec ascii_dec a b then true else false.

(** ** Text tools *)

(** The pieces of [s] between occurrences of [c]; never empty. *)
Fixpoint split_on (c : ascii) (s : text) : list text :=
  match s with
  | [] => [[]]
  | x :: t =>
      if Ascii.eqb x c then [] :: split_on c t
      else match split_on c t with
           | p :: ps => (x :: p) :: ps
           | [] => [[x]]
           end
  end.

(** Lines; the last one may lack its newline. *)
Definition lines_of (s : text) : list text :=
  match rev (split_on nl s) with
  | [] :: r => rev r
  | r => rev r
  end.
Definition unlines_of (l : list text) : text := flat_map (fun x => x ++ [nl]) l.

(** [cut -d c -f 2]: a line without the delimiter is kept whole. [-f 1] likewise. *)
Definition cut_line (n : nat) (c : ascii) (l : text) : text :=
  match split_on c l with
  | [_] => l
  | fs => nth n fs []
  end.
Definition cut (n : nat) (c : ascii) (s : text) : text := unlines_of (map (cut_line n c) (lines_of s)).

(** [uniq]: of equal adjacent lines the first. *)
Fixpoint uniq_lines (l : list text) : list text :=
  match l with
  | x :: ((y :: _) as t) => if text_eqb x y then uniq_lines t else x :: uniq_lines t
  | _ => l
  end.
Definition uniq (s : text) : text := unlines_of (uniq_lines (lines_of s)).

(** ** bash *)

(** [$( )]: without trailing newlines. *)
Fixpoint drop_newlines (r : text) : text :=
  match r with
  | x :: t => if Ascii.eqb x nl then drop_newlines t else r
  | [] => []
  end.
Definition substituted (s : text) : text := rev (drop_newlines (rev s)).

(** Splitting of an unquoted expansion at blanks, tabs and newlines. *)
Definition is_ifs (c : ascii) : bool := Ascii.eqb c " " || Ascii.eqb c tab || Ascii.eqb c nl.
Fixpoint words_from (cur : text) (s : text) : list text :=
  match s with
  | [] => match cur with [] => [] | _ => [rev cur] end
  | x :: t =>
      if is_ifs x then match cur with [] => words_from [] t | _ => rev cur :: words_from [] t end
      else words_from (x :: cur) t
  end.
Definition words_of (s : text) : list text := words_from [] s.

Fixpoint joined (l : list text) : text :=
  match l with
  | [] => []
  | [w] => w
  | w :: t => w ++ " "%char :: joined t
  end.
(** [echo] *)
Definition echo (l : list text) : text := joined l ++ [nl].

(** [basename p]: without trailing slashes, what follows the last slash. *)
Fixpoint drop_slashes (r : text) : text :=
  match r with
  | x :: t => if Ascii.eqb x slash then drop_slashes t else r
  | [] => []
  end.
Definition basename (p : text) : text :=
  match rev (drop_slashes (rev p)) with
  | [] => match p with [] => [] | _ => [slash] end
  | q => last (split_on slash q) []
  end.

(** ** print_if_lib, lines 8-25 *)

(** [file p --mime]: the path as [file] shows it, the type, the character set. *)
Record file_report : Type := FileReport {
  fr_shown : text;
  fr_mime : text;
  fr_charset : text }.
Definition file_text (r : file_report) : text :=
  fr_shown r ++ chars ": " ++ fr_mime r ++ chars "; charset=" ++ fr_charset r ++ [nl].

Definition program_types : list text :=
  map chars ["application/x-object"; "application/x-pie-executable"; "application/x-executable";
             "application/x-sharedlib"]%string.

Definition mime_seen (r : file_report) : text :=
  let mime := substituted (cut 0 semicolon (cut 1 colon (file_text r))) in
  substituted (echo (words_of mime)).
Definition accepted (r : file_report) : bool := existsb (text_eqb (mime_seen r)) program_types.
(** What one run prints. *)
Definition print_if_lib (p : text) (r : file_report) : text := if accepted r then echo [p] else [].

(** ** The second xargs, line 55 *)

(** [isspace], [isblank] *)
Definition is_space (c : ascii) : bool :=
  let n := nat_of_ascii c in (Nat.eqb n 32 || (Nat.leb 9 n && Nat.leb n 13))%bool.
Definition is_blank (c : ascii) : bool := Ascii.eqb c " " || Ascii.eqb c tab.
Definition is_quote (c : ascii) : bool := Ascii.eqb c single_quote || Ascii.eqb c double_quote.

(** The states of [read_line] in findutils' xargs.c. *)
Inductive xstate : Type := XSpace | XNorm | XQuote (q : ascii) | XBackslash.

(** The arguments xargs makes of its input, and whether it then stops because of an
    unmatched quote; [cur] is the argument so far, backwards. *)
Fixpoint scan (st : xstate) (cur : text) (s : text) : list text * bool :=
  match s with
  | [] =>
      match cur, st with
      | [], _ => ([], false)
      | _, XQuote _ => ([], true)
      | _, _ => ([rev cur], false)
      end
  | c :: t =>
      let norm :=
        if Ascii.eqb c nl then let (l, b) := scan XSpace [] t in (rev cur :: l, b)
        else if is_blank c then let (l, b) := scan XSpace [] t in (rev cur :: l, b)
        else if Ascii.eqb c backslash then scan XBackslash cur t
        else if is_quote c then scan (XQuote c) cur t
        else scan XNorm (c :: cur) t in
      match st with
      | XSpace => if is_space c then scan XSpace cur t else norm
      | XNorm => norm
      | XQuote q =>
          if Ascii.eqb c nl then ([], true)
          else if Ascii.eqb c q then scan XNorm cur t
          else scan (XQuote q) (c :: cur) t
      | XBackslash => scan XNorm (c :: cur) t
      end
  end.

(** With nothing to read the command is run once, and [$1] expands to nothing. *)
Definition xargs (s : text) : list text * bool :=
  match scan XSpace [] s with
  | ([], false) => ([[]], false)
  | r => r
  end.

(** ** convert, lines 27-44 *)

(** The output directory: contents by name. *)
Definition dir := text -> option text.
Definition put (n : text) (v : text) (d : dir) : dir := fun m => if text_eqb m n then Some v else d m.

(** What the programs do.  [dwarf2sframe2] returns its status, its log and, if it
    writes it, the object file; [sframedump] is given the object file. *)
Record tools : Type := Tools {
  t_convert : text -> Z * text * option text;
  t_dwarfdump : text -> Z * text;
  t_sframedump : option text -> Z * text;
  t_objdump : text -> Z * text }.

Definition name (base : text) (ext : string) : text := base ++ chars ext.

(** Where a run of [convert] is: the redirections truncate their files before the
    program runs; under [set -e] a status other than 0 ends the run. *)
Inductive place : Type :=
  | AtLog | AtConvert | AtDwarf | AtDwarfdump | AtSframe | AtSframedump | AtAsm | AtObjdump | AtEnd (status : Z).

Definition unless (status : Z) (next : place) : place := if Z.eqb status 0 then next else AtEnd status.

Definition convert_step (T : tools) (p : text) (at_ : place) (d : dir) : option (place * dir) :=
  let b := basename p in
  match at_ with
  | AtLog => Some (AtConvert, put (name b ".log") [] d)
  | AtConvert =>
      let '(st, log, obj) := t_convert T p in
      let d := match obj with Some o => put (name b ".o") o d | None => d end in
      Some (unless st AtDwarf, put (name b ".log") log d)
  | AtDwarf => Some (AtDwarfdump, put (name b ".dwarf") [] d)
  | AtDwarfdump => let (st, out) := t_dwarfdump T p in Some (unless st AtSframe, put (name b ".dwarf") out d)
  | AtSframe => Some (AtSframedump, put (name b ".sframe") [] d)
  | AtSframedump =>
      let (st, out) := t_sframedump T (d (name b ".o")) in Some (unless st AtAsm, put (name b ".sframe") out d)
  | AtAsm => Some (AtObjdump, put (name b ".asm") [] d)
  | AtObjdump => let (st, out) := t_objdump T p in Some (AtEnd st, put (name b ".asm") out d)
  | AtEnd _ => None
  end.

(** Several runs at once: steps in any order ([-P]). *)
Definition jobs := list (text * place).
Inductive runs (T : tools) : jobs -> dir -> jobs -> dir -> Prop :=
  | runs_stay : forall js d, runs T js d js d
  | runs_step : forall js1 p a js2 d a' d' js' d'',
      convert_step T p a d = Some (a', d') ->
      runs T (js1 ++ (p, a') :: js2) d' js' d'' ->
      runs T (js1 ++ (p, a) :: js2) d js' d''.

Definition ended (j : text * place) : Prop := exists st, snd j = AtEnd st.
Definition start_of (p : text) : text * place := (p, AtLog).

(** ** The pipeline, lines 52-55 *)

(** [found] are the paths [find] prints with what [file] says about each.  The first
    xargs runs [print_if_lib] in any order.  The second starts [convert] on its
    arguments in order, and starts no more once a run has ended with status 255;
    its own status is 0 if no run failed and no quote was unmatched. *)
Definition handed_on (found : list (text * file_report)) (input : text) : Prop :=
  exists outs, Permutation (map (fun x => print_if_lib (fst x) (snd x)) found) outs /\ input = uniq (concat outs).

Inductive script (T : tools) (found : list (text * file_report)) (d : dir) : list (text * Z) -> dir -> bool -> Prop :=
  | script_run : forall input args bad args' rest sts d',
      handed_on found input ->
      xargs input = (args, bad) ->
      args = args' ++ rest ->
      runs T (map start_of args') d (map (fun x => (fst x, AtEnd (snd x))) sts) d' ->
      (rest <> [] -> exists p, In (p, 255%Z) sts) ->
      script T found d sts d' (negb bad && forallb (fun x => Z.eqb (snd x) 0) sts)%bool.
