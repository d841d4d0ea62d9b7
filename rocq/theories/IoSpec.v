(** Specification of what is left when output fails. *)
From Coq Require Import String Ascii.
From Verif Require Export LoudSpec V1Loud Io.
Local Open Scope string_scope.

(** ** Standard output *)

(** Everything standard output took, and the lines on stderr. *)
Fixpoint received (l : list seen) : string :=
  match l with
  | [] => ""
  | Took s :: t => s ++ received t
  | _ :: t => received t
  end.
Fixpoint complaints (l : list seen) : list string :=
  match l with
  | [] => []
  | ErrLine s :: t => s :: complaints t
  | _ :: t => complaints t
  end.

(** Standard output sometimes refuses text (fails, or takes none of it), or fails
    to flush. *)
Definition refuses (sk : sink) : Prop :=
  (exists n s, s <> "" /\ (sk_write sk n s = None \/ sk_write sk n s = Some O)) \/
  (exists n, sk_flush sk n = false).
(** It takes at least something of whatever it is given. *)
Definition willing (sk : sink) : Prop :=
  (forall n s, s <> "" -> exists k, sk_write sk n s = Some (S k)) /\ (forall n, sk_flush sk n = true).

(** [writeln!] writes the line, in any number of pieces. *)
Definition cuts (pieces : string -> list string) : Prop := forall s, String.concat "" (pieces s) = s.

(** The end of what happened is a flush. *)
Definition just_flushed (l : list seen) : Prop := exists l', l = (l' ++ [Flushed])%list.

(** A line of the dump that is a complaint. *)
Definition undecodable (ln : dump_line) : Prop := exists er, ln = LineErr er.

(** What dwarfdump says when its output fails. *)
Definition io_message (path : string) : string := "Failed to dump '" ++ path ++ "': IoError".

(** ** The output file *)

(** [a] is the beginning of [b]. *)
Definition starts (a b : bytes) : Prop := exists rest, b = (a ++ rest)%list.

(** ** Lines *)

(** The run that prints [ev] and ends in [o], but the lines from number [n] on go to
    [sk]: either all of them are taken, or [l] is what was printed before the first
    line that is not, and the run ends there: in a panic if it is one of [P], in the
    error [er] if it is one of [Q]. *)
Inductive outcome_of {E A} (P Q : string -> Prop) (er : E) (sk : line_sink) (n : nat) (ev : list event) (o : outcome E A)
  : list event -> nat -> outcome E A -> Prop :=
| all_lines :
    (forall k, (k < List.length (stdout_of ev))%nat -> sk (n + k)%nat = true) ->
    outcome_of P Q er sk n ev o ev (n + List.length (stdout_of ev)) o
| cut_short l s rest r :
    ev = (l ++ Out s :: rest)%list ->
    (forall k, (k < List.length (stdout_of l))%nat -> sk (n + k)%nat = true) ->
    sk (n + List.length (stdout_of l))%nat = false ->
    (r = Panic /\ P s) \/ (r = Err er /\ Q s) ->
    outcome_of P Q er sk n ev o l (S (n + List.length (stdout_of l))) r.

(** The lines about a function and its rows, and the others. *)
Definition begins (p s : string) : Prop := exists t, s = p ++ t.
Definition frame_line (s : string) : Prop :=
  s = "" \/ s = "FDE:" \/ s = "Rows:" \/ begins " start_address: 0x" s \/ begins "    range_size: 0x" s \/
  begins "  - offset: 0x" s \/ begins "    cfa:    " s \/ begins "    reg:    " s.
Definition frame_line1 (s : string) : Prop := frame_line s \/ begins "    sframe: " s \/ begins "." s.

(** A line about the instructions of some function of the file. *)
Definition insn_line (lines : insns -> list string) (l : list dw_entry) (s : string) : Prop :=
  exists f, In f (functions l) /\ In s (lines (df_insns f)).
Definition entries_in (md : mode) (input : option elf_file) : list dw_entry :=
  match input with
  | Some file =>
      match elf_eh_frame file with
      | Some parse => ents_list (parse (tool_setup md (elf_sections file)))
      | None => []
      end
  | None => []
  end.

(** The lines of the instructions in the two dumps. *)
Definition lines2 (pr : printers) (a : arch) (is : insns) : list string := stdout_of (fst (dump_cfi_instructions pr a is)).
Definition lines1 (p : printers1) (is : insns) : list string := stdout_of (fst (v1_dump_insns p is)).
Definition main2_line (pr : printers) (md : mode) (input : option elf_file) (s : string) : Prop :=
  exists a, insn_line (lines2 pr a) (entries_in md input) s.

(** The lines of a function whose rows make the program panic: those of the rows
    delivered before, and nothing more. *)
Definition lines_till_panic (md : mode) (e : endian) (sf : sframe) (en : entry) (l : list dump_line) : Prop :=
  exists good rows it, fri_calls (List.length good) md e (fres en) = Ok (map (fun fr => Some (inl fr)) good, it) /\
    Forall2 (row_line md sf) good rows /\ l = (LineColumns (en_fdetype en) :: rows)%list /\
    (fri_next md e it = Panic \/
     exists fr it', fri_next md e it = Ok (Some (inl fr), it') /\ @fre_start_address never md fr = Panic).
