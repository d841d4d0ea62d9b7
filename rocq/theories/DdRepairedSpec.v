(** What the repaired [dwarfdump] has to print. *)
From Coq Require Import String Ascii.
From Verif Require Export DdSpec DdRepaired.
Local Open Scope string_scope.

(** A line which says that an expression cannot be decoded. *)
Definition is_note (s : string) : bool :=
  match after "Failed to decode expression: " s with Some _ => true | None => false end.
Definition notes (l : list string) : list string := filter is_note l.
Definition besides_notes (l : list string) : list string := filter (fun s => negb (is_note s)) l.
(** The text of an operation is no note. *)
Definition noteless (pr : printers) : Prop := forall c, is_note (pr_op pr (OpOther c)) = false.
(** Why the expression of an instruction cannot be decoded. *)
Definition insn_notes (pr : printers) (i : insn) : list string :=
  match block_of i with
  | Some x => match ex_end x with Some g => ["Failed to decode expression: " ++ pr_gimli pr g] | None => [] end
  | None => []
  end.
Definition entry_notes (pr : printers) (e : dd_entry) : list string :=
  match e with
  | DdCie c => flat_map (insn_notes pr) (is_list (ci_insns c))
  | DdPartial _ _ _ (inl f) => flat_map (insn_notes pr) (is_list (dd_insns f))
  | DdPartial _ _ _ (inr _) => []
  end.

(** Bit 7 of an encoding says that the pointer is the address of a pointer. *)
Definition encoding_shown_full (p : printers_dd) (e : Z) (v : string * string) : Prop :=
  fst v = pr_pe p (16 * (e / 16 mod 8)) /\
  snd v = if (128 <=? e)%Z then pr_pe p (e mod 16) ++ "/" ++ pr_pe p 128 else pr_pe p (e mod 16).
Definition encoding_shown_with (r : dd_repairs) (p : printers_dd) : Z -> string * string -> Prop :=
  if rd_bit r then encoding_shown_full p else encoding_shown p.

(** The entry can be shown. *)
Definition printable_with (r : dd_repairs) (md : mode) (e : dd_entry) : Prop :=
  (rd_block r = true \/ decodable e) /\ (rd_wrap r = true \/ ~ past_end md e).
