(** What gimli, the DWARF parser, returns.  gimli is not part of the repository;
    what its calls return is an input of the model.  Only values that the
    programs look at or print are kept. *)
From Verif Require Import Base.

(** [gimli::Error], opaque. *)
Inductive gimli_error : Type := GimliError (code : Z).

(** [gimli::Operation], an operation of a DWARF expression: those that the
    dumps name, with the payloads they print, and any other. *)
Inductive operation : Type :=
| OpDeref (base_type size : Z) (space : bool)
| OpDrop
| OpPick (index : Z)
| OpSwap
| OpRot
| OpAbs
| OpAnd
| OpDiv
| OpMul
| OpNeg
| OpNot
| OpPlus
| OpPlusConstant (value : Z)
| OpShl
| OpShr
| OpXor
| OpBra (target : Z)
| OpEq
| OpGe
| OpLt
| OpGt
| OpLe
| OpNe
| OpSkip (target : Z)
| OpUnsignedConstant (value : Z)
| OpSignedConstant (value : Z)
| OpRegister (register : Z)
| OpRegisterOffset (register offset base_type : Z)
| OpFrameOffset (offset : Z)
| OpNop
| OpPushObjectAddress
| OpCall (die : Z)
| OpTLS
| OpStackValue
| OpOther (code : Z).

(** [gimli::Expression]: its bytes, and what [operations] makes of them:
    operations, then the end or an error. *)
Record expression : Type := Expression {
  ex_bytes : bytes;
  ex_ops : list operation;
  ex_end : option gimli_error }.

(** [gimli::CallFrameInstruction]; [IOther] is any that the dumps do not name. *)
Inductive insn : Type :=
| ISetLoc (address : Z)
| IAdvanceLoc (delta : Z)
| IDefCfa (register offset : Z)
| IDefCfaSf (register factored_offset : Z)
| IDefCfaRegister (register : Z)
| IDefCfaOffset (offset : Z)
| IDefCfaOffsetSf (factored_offset : Z)
| IDefCfaExpression (x : expression)
| IUndefined (register : Z)
| ISameValue (register : Z)
| IOffset (register factored_offset : Z)
| IOffsetExtendedSf (register factored_offset : Z)
| IValOffset (register factored_offset : Z)
| IValOffsetSf (register factored_offset : Z)
| IRegister (dest_register src_register : Z)
| IExpression (register : Z) (x : expression)
| IValExpression (register : Z) (x : expression)
| IRestore (register : Z)
| IRememberState
| IRestoreState
| IArgsSize (size : Z)
| INegateRaState
| INop
| IOther (code : Z).

(** [gimli::CallFrameInstructionIter]: the results of successive [next] calls. *)
Record insns : Type := Insns {
  is_list : list insn;
  is_end : option gimli_error }.

(** [gimli::RegisterRule]. *)
Inductive reg_rule : Type :=
| RUndefined
| RSameValue
| ROffset (o : Z)
| RValOffset (o : Z)
| RRegister (r : Z)
| RExpression (x : expression)
| RValExpression (x : expression)
| RArchitectural
| RConstant (c : Z).

(** [gimli::CfaRule]. *)
Inductive cfa_rule : Type :=
| CfaReg (register offset : Z)
| CfaExpression (x : expression).

(** [gimli::UnwindTableRow]: [u64] bounds, CFA rule, register rules. *)
Record dw_row : Type := DwRow {
  dr_start : Z;
  dr_end : Z;
  dr_cfa : cfa_rule;
  dr_regs : list (Z * reg_rule) }.

(** [UnwindTableRow::register]: [Undefined] when there is no rule. *)
Fixpoint rule_lookup (reg : Z) (l : list (Z * reg_rule)) : reg_rule :=
  match l with
  | [] => RUndefined
  | (r, rule) :: t => if r =? reg then rule else rule_lookup reg t
  end.
Definition dr_register (r : dw_row) (reg : Z) : reg_rule := rule_lookup reg (dr_regs r).

(** The results of successive [next_row] calls: rows, then [Ok(None)] or an
    error. *)
Record dw_rows : Type := DwRows {
  rows_list : list dw_row;
  rows_end : option gimli_error }.

(** A parsed [FrameDescriptionEntry]: [initial_address], [len] ([u64]), its
    instructions, and what [fde.rows] returns. *)
Record dw_fde : Type := DwFde {
  df_start : Z;
  df_len : Z;
  df_insns : insns;
  df_rows : dw_rows + gimli_error }.

(** An item of [eh_frame.entries()]: a CIE, an FDE that [parse] rejects, or an
    FDE. *)
Inductive dw_entry : Type :=
| DwCie
| DwBadFde (er : gimli_error)
| DwGoodFde (f : dw_fde).

(** The results of successive [entries.next()] calls. *)
Record dw_entries : Type := DwEntries {
  ents_list : list dw_entry;
  ents_end : option gimli_error }.

(** [gimli::EhFrame] as far as the converter is concerned: the byte order of
    its reader and its entries (for the given base addresses). *)
Record eh_frame : Type := EhFrame {
  eh_big_endian : bool;
  eh_entries : dw_entries }.
