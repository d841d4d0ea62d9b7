(** Specification of the operands of expression operations: how a person reads
    them from a line of a dump.  Nothing here uses the formatting functions of
    [Text.v] and [Loud.v]. *)
From Coq Require Import String Ascii.
From Verif Require Export LoudSpec.
Local Open Scope string_scope.

(** What stands in front of and behind the last [c]. *)
Fixpoint upto_last (c : ascii) (s : string) : option (string * string) :=
  match s with
  | "" => None
  | String x t =>
      match upto_last c t with
      | Some (a, b) => Some (String x a, b)
      | None => if Ascii.eqb x c then Some ("", t) else None
      end
  end.

(** Operands of operations. *)
Inductive op_operand : Type :=
| OpReg (reg : Z)
| OpNum (z : Z)
| OpFlag (b : bool)
| OpDie (die : Z).
(** Those of each operation, in order; [full]: with the types of values.  For
    the operations without a case of the dumps there is nothing to say. *)
Definition op_operands (full : bool) (o : operation) : option (list op_operand) :=
  match o with
  | OpDeref ty size space => Some ((if full then [OpNum ty] else []) ++ [OpNum size; OpFlag space])%list
  | OpPick n | OpPlusConstant n | OpBra n | OpSkip n | OpUnsignedConstant n | OpSignedConstant n | OpFrameOffset n =>
      Some [OpNum n]
  | OpRegister r => Some [OpReg r]
  | OpRegisterOffset r n ty => Some ([OpReg r; OpNum n] ++ (if full then [OpNum ty] else []))%list
  | OpCall d => Some [OpDie d]
  | OpOther _ => None
  | _ => Some []
  end.

Definition op_operand_shown (pr : printers) (t : option reg_table) (o : op_operand) (s : string) : Prop :=
  match o with
  | OpReg r => match reg_name pr t r with Some n => s = n | None => integer s = Some r end
  | OpNum z => integer s = Some z
  | OpFlag b => s = if b then "true" else "false"
  | OpDie d => s = pr_die pr d
  end.
(** The operands, the last one first, separated by blanks.  The first operand
    may have blanks itself. *)
Fixpoint read_back (pr : printers) (t : option reg_table) (l : list op_operand) (s : string) : Prop :=
  match l with
  | [] => False
  | [o] => op_operand_shown pr t o s
  | o :: l => exists a b, upto_last " " s = Some (a, b) /\ op_operand_shown pr t o b /\ read_back pr t l a
  end.
(** A line without its indentation: a name, then the operands. *)
Definition operands_shown (pr : printers) (t : option reg_table) (full : bool) (o : operation) (s : string) : Prop :=
  match op_operands full o with
  | Some [] => upto " " s = None
  | Some l => exists name u, upto " " s = Some (name, u) /\ read_back pr t (rev l) u
  | None => True
  end.
(** An indented line. *)
Definition op_spelled (pr : printers) (t : option reg_table) (full : bool) (o : operation) (line : string) : Prop :=
  (renamed o = false -> op_shown o line) /\
  match op_operands full o with
  | Some _ => exists s, after "                  " line = Some s /\ operands_shown pr t full o s
  | None => True
  end.
(** An instruction, with the operations of its expression below it. *)
Definition insn_spelled (pr : printers) (t : option reg_table) (full : bool) (i : insn) (v : insn_view) : Prop :=
  insn_shown pr t i v /\
  match block_of i with
  | Some x => Forall2 (op_spelled pr t full) (ex_ops x) (iv_below v)
  | None => iv_below v = []
  end.
