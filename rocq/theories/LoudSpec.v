(** Specification of what the converter prints: how a person reads it.  Nothing
    here uses the formatting functions of [Text.v] and [Loud.v]. *)
From Coq Require Import String Ascii.
From Verif Require Export TextSpec Loud.
Local Open Scope string_scope.

(** ** Which rows are reported *)

(** [l'] is [l] without the elements for which [P] does not hold. *)
Inductive sieve {A} (P : A -> Prop) : list A -> list A -> Prop :=
| sieve_nil : sieve P [] []
| sieve_keep x l l' : P x -> sieve P l l' -> sieve P (x :: l) (x :: l')
| sieve_drop x l l' : ~ P x -> sieve P l l' -> sieve P (x :: l) l'.

(** The rows of all functions that cover some address, in order. *)
Definition rows_met (eh : eh_frame) : list (dw_fde * dw_row) :=
  flat_map (fun f => map (pair f) (wide_rows f)) (functions (entries_of eh)).
Definition row_lost (a : arch) (p : dw_fde * dw_row) : Prop := unrepresentable a (snd p).

(** ** Reading a warning *)

(** [s] without its last character, which is [c]. *)
Fixpoint drop_end (c : ascii) (s : string) : option string :=
  match s with
  | "" => None
  | String x "" => if Ascii.eqb x c then Some "" else None
  | String x t => option_map (String x) (drop_end c t)
  end.

(** [warning: FDE for 0x00401000+0x1f: message] *)
Definition read_warning (s : string) : option (Z * Z * string) :=
  match after "warning: FDE for 0x" s with
  | None => None
  | Some s =>
      match upto "+" s with
      | None => None
      | Some (a, s) =>
          match after "0x" s with
          | None => None
          | Some s =>
              match upto ":" s with
              | None => None
              | Some (o, s) =>
                  match after " " s, number 16 a, number 16 o with
                  | Some m, Some a, Some o => Some (a, o, m)
                  | _, _, _ => None
                  end
              end
          end
      end
  end.

(** Why a row is reported, as the message says. *)
Inductive reason : Type :=
| ReasonExpression
| ReasonRegister (name : string)
| ReasonCfaOffset (o : Z)
| ReasonFpOffset (o : Z)
| ReasonRaOffset (o : Z)
| ReasonFpRule (rule : string)
| ReasonRaRule (rule : string).

(** A number in front of " too large …". *)
Definition read_large (rest s : string) : option Z :=
  match upto " " s with
  | Some (n, t) => if String.eqb t rest then number 16 n else None
  | None => None
  end.
Definition read_reason (s : string) : option reason :=
  if String.eqb s "CFA recovery rule requires evaluating a DWARF expression" then Some ReasonExpression
  else match after "unsupported CFA source register `" s with
  | Some t => option_map ReasonRegister (drop_end "`" t)
  | None =>
  match after "CFA register offset 0x" s with
  | Some t => option_map ReasonCfaOffset (read_large "too large to be represented in the SFrame format" t)
  | None =>
  match after "FP register offset 0x" s with
  | Some t => option_map ReasonFpOffset (read_large "too large to represented in the SFrame format" t)
  | None =>
  match after "RA register offset 0x" s with
  | Some t => option_map ReasonRaOffset (read_large "too large to represented in the SFrame format" t)
  | None =>
  match after "Unsupport FP recovery rule: `" s with
  | Some t => option_map ReasonFpRule (drop_end "`" t)
  | None =>
  match after "Unsupport RA recovery rule: `" s with
  | Some t => option_map ReasonRaRule (drop_end "`" t)
  | None => None
  end end end end end end.

(** ** What the message claims *)

(** Names for the architecture. *)
Definition names_of (a : arch) : option reg_table := Some match a with Amd64 => TX86_64 | Aarch64 => TAArch64 end.
Definition reg_name (pr : printers) (t : option reg_table) (reg : Z) : option string :=
  match t with Some t => pr_register pr t reg | None => None end.

(** The register is shown by its name if it has one, by its number otherwise. *)
Definition register_shown (pr : printers) (t : option reg_table) (reg : Z) (s : string) : Prop :=
  match reg_name pr t reg with
  | Some n => s = n
  | None => number 10 s = Some reg
  end.
(** A rule: the value, where it is saved, or which register holds it. *)
Definition rule_shown (pr : printers) (t : option reg_table) (rule : reg_rule) (s : string) : Prop :=
  match rule with
  | RUndefined => s = "<undefined>"
  | RSameValue => s = "<same>"
  | ROffset o => exists u n, after "*(CFA" s = Some u /\ drop_end ")" u = Some n /\ integer n = Some o
  | RValOffset o => exists n, after "CFA" s = Some n /\ integer n = Some o
  | RRegister r => register_shown pr t r s
  | RConstant c => integer s = Some c
  | RExpression _ | RValExpression _ | RArchitectural => s = pr_rule pr rule
  end.

(** The message holds of the row, with numbers read as [rd] says. *)
Definition reason_holds (rd : Z -> Z) (pr : printers) (a : arch) (r : dw_row) (why : reason) : Prop :=
  match why with
  | ReasonExpression => exists x, dr_cfa r = CfaExpression x
  | ReasonRegister s => exists reg o, dr_cfa r = CfaReg reg o /\ reg <> reg_sp a /\ reg <> reg_fp a /\
      register_shown pr (names_of a) reg s
  | ReasonCfaOffset n => exists reg, dr_cfa r = CfaReg reg (rd n) /\ ~ in_i32 (rd n)
  | ReasonFpOffset n => dr_register r (reg_fp a) = ROffset (rd n) /\ ~ in_i32 (rd n)
  | ReasonRaOffset n => dr_register r (reg_ra a) = ROffset (rd n) /\ ~ in_i32 (rd n)
  | ReasonFpRule s => rule_shown pr (names_of a) (dr_register r (reg_fp a)) s /\
      (forall o, dr_register r (reg_fp a) <> ROffset o) /\
      dr_register r (reg_fp a) <> RSameValue /\ dr_register r (reg_fp a) <> RUndefined
  | ReasonRaRule s => rule_shown pr (names_of a) (dr_register r (reg_ra a)) s /\
      (forall o, dr_register r (reg_ra a) <> ROffset o)
  end.
(** A 64-bit pattern as a signed number. *)
Definition signed64 (n : Z) : Z := if (n <? 2 ^ 63)%Z then n else n - 2 ^ 64.

(** The conversion gives a section. *)
Definition finished {E A} (o : outcome E A) : Prop := exists a, o = Ok a.

(** The line [w] names the function and the row, and gives a reason that holds. *)
Definition warned (rd : Z -> Z) (pr : printers) (a : arch) (p : dw_fde * dw_row) (w : string) : Prop :=
  exists m why, read_warning w = Some (df_start (fst p), off (fst p) (snd p), m) /\
    read_reason m = Some why /\ reason_holds rd pr a (snd p) why.
(** The line [w] names the function and the row. *)
Definition located (p : dw_fde * dw_row) (w : string) : Prop :=
  exists m, read_warning w = Some (df_start (fst p), off (fst p) (snd p), m).

(** Offsets are 64-bit numbers, registers 16-bit ones. *)
Definition in_i64 (z : Z) : Prop := - 2 ^ 63 <= z < 2 ^ 63.
Definition rule_typed (rule : reg_rule) : Prop :=
  match rule with
  | ROffset o | RValOffset o => in_i64 o
  | RRegister r => 0 <= r < 2 ^ 16
  | RConstant c => 0 <= c < 2 ^ 64
  | _ => True
  end.
Definition row_payload_typed (r : dw_row) : Prop :=
  match dr_cfa r with CfaReg reg o => 0 <= reg < 2 ^ 16 /\ in_i64 o | CfaExpression _ => True end /\
  forall reg, rule_typed (dr_register r reg).
Definition eh_payload_typed (eh : eh_frame) : Prop :=
  forall f r, In f (functions (entries_of eh)) -> In r (dw_rows_of f) -> row_payload_typed r.

(** ** Telling rules apart *)

(** Text that means something else than a register or an opaque rule. *)
Definition taken (s : string) : Prop :=
  s = "<undefined>" \/ s = "<same>" \/ after "*(CFA" s <> None \/ after "CFA" s <> None \/ integer s <> None.
Definition opaque (rule : reg_rule) : bool :=
  match rule with RExpression _ | RValExpression _ | RArchitectural => true | _ => false end.
(** The text that other crates provide is not mistaken for something else.  Text
    for expressions need not tell expressions apart: gimli abbreviates long ones. *)
Record clear_texts (pr : printers) (t : option reg_table) : Prop := ClearTexts {
  ct_names : forall r r' n, reg_name pr t r = Some n -> reg_name pr t r' = Some n -> r = r';
  ct_apart : forall r n x, reg_name pr t r = Some n -> opaque x = true -> n <> pr_rule pr x;
  ct_names_free : forall r n, reg_name pr t r = Some n -> ~ taken n;
  ct_opaque_free : forall x, opaque x = true -> ~ taken (pr_rule pr x) }.

(** ** Columns *)

(** Where the message begins: behind the first colon after [warning:]. *)
Definition message_column (w : string) : option nat :=
  match after "warning: " w with
  | Some t => option_map (fun p => String.length (fst p)) (upto ":" t)
  | None => None
  end.
(** The length of a function just above a power of 16. *)
Definition odd_length (len : Z) : Prop := exists j, 0 <= j /\ 16 ^ j < len < 2 * 16 ^ j.

(** ** The debug dump *)

(** What the dump shows of a row, an instruction and a function. *)
Record row_view : Type := RowView {
  rv_start : Z;
  rv_end : Z;
  rv_cfa : string;
  rv_regs : list (string * string) }.
Record insn_view : Type := InsnView {
  iv_text : string;
  iv_below : list string (* the lines under it *) }.
Record fde_view : Type := FdeView {
  fv_start : Z;
  fv_len : Z;
  fv_end : Z;
  fv_insns : list insn_view;
  fv_broken : option string; (* why the instructions break off *)
  fv_rows : list row_view }.

(** A number between the text [p] and the text [q]. *)
Definition enclosed (p : string) (q : ascii) (s : string) : option (Z * string) :=
  match after p s with
  | Some t =>
      match upto q t with
      | Some (n, rest) => match number 16 n with Some n => Some (n, rest) | None => None end
      | None => None
      end
  | None => None
  end.

(** The lines in front of and behind the first empty line. *)
Fixpoint paragraph (l : list string) : option (list string * list string) :=
  match l with
  | [] => None
  | x :: t =>
      if String.eqb x "" then Some ([], t)
      else match paragraph t with Some (a, b) => Some (x :: a, b) | None => None end
  end.

(** An instruction stands behind 16 spaces; what belongs to it does not. *)
Definition read_insn (s : string) : option string :=
  match after "                " s with
  | Some (String c t) => if Ascii.eqb c " " then None else Some (String c t)
  | _ => None
  end.
Fixpoint read_insns (l : list string) : list string * list insn_view * option string :=
  match l with
  | [] => ([], [], None)
  | x :: t =>
      match read_insns t with
      | (lead, is, broken) =>
          match after "Failed to decode CFI instruction: " x, t with
          | Some m, [] => ([], [], Some m)
          | _, _ =>
              match read_insn x with
              | Some s => ([], InsnView s lead :: is, broken)
              | None => (x :: lead, is, broken)
              end
          end
      end
  end.

(** [    reg:    RBP = *(CFA-16)] *)
Definition read_reg (s : string) : option (string * string) :=
  match after "    reg:    " s with
  | Some t =>
      match upto " " t with
      | Some (n, t) => match after "= " t with Some rule => Some (n, rule) | None => None end
      | None => None
      end
  | None => None
  end.
(** [  - offset: 0x00001000 (end = 0x00001001)], [    cfa:    RSP+8] *)
Definition read_row_head (s : string) : option (Z * Z) :=
  match enclosed "  - offset: 0x" " " s with
  | Some (a, t) => match enclosed "(end = 0x" ")" t with Some (b, "") => Some (a, b) | _ => None end
  | None => None
  end.
Fixpoint read_rows (l : list string) : option (list (string * string) * list row_view) :=
  match l with
  | [] => Some ([], [])
  | x :: t =>
      match read_reg x with
      | Some p => match read_rows t with Some (regs, rows) => Some (p :: regs, rows) | None => None end
      | None =>
          match read_row_head x, t with
          | Some (a, b), c :: t =>
              match after "    cfa:    " c, read_rows t with
              | Some cfa, Some (regs, rows) => Some ([], RowView a b cfa regs :: rows)
              | _, _ => None
              end
          | _, _ => None
          end
      end
  end.

(** A function, and the lines behind it. *)
Definition read_function (l : list string) : option (fde_view * list string) :=
  match l with
  | fde :: a :: b :: t =>
      if String.eqb fde "FDE:" then
        match after " start_address: 0x" a, enclosed "    range_size: 0x" " " b with
        | Some start, Some (len, e) =>
            match number 16 start, enclosed "(end_addr = 0x" ")" e, paragraph t with
            | Some start, Some (e, ""), Some (body, heading :: t) =>
                if String.eqb heading "Rows:" then
                  match read_insns body, paragraph t with
                  | ([], is, broken), Some (body, rest) =>
                      match read_rows body with
                      | Some ([], rows) => Some (FdeView start len e is broken rows, rest)
                      | _ => None
                      end
                  | _, _ => None
                  end
                else None
            | _, _, _ => None
            end
        | _, _ => None
        end
      else None
  | _ => None
  end.
Fixpoint read_functions (n : nat) (l : list string) : option (list fde_view) :=
  match l, n with
  | [], _ => Some []
  | _, O => None
  | _, S n =>
      match read_function l with
      | Some (v, rest) => option_map (cons v) (read_functions n rest)
      | None => None
      end
  end.
Definition read_debug (l : list string) : option (list fde_view) := read_functions (Datatypes.length l) l.

(** *** Names of DWARF *)

(** Operands of an instruction. *)
Inductive operand : Type := OReg (r : Z) | ONum (z : Z) | OAddress (a : Z) | OBlock.
(** DWARF 5, section 6.4.2, and the extensions that compilers use. *)
Definition dwarf_insn (i : insn) : option (string * list operand) :=
  match i with
  | ISetLoc a => Some ("DW_CFA_set_loc", [OAddress a])
  | IAdvanceLoc d => Some ("DW_CFA_advance_loc", [ONum d])
  | IDefCfa r o => Some ("DW_CFA_def_cfa", [OReg r; ONum o])
  | IDefCfaSf r o => Some ("DW_CFA_def_cfa_sf", [OReg r; ONum o])
  | IDefCfaRegister r => Some ("DW_CFA_def_cfa_register", [OReg r])
  | IDefCfaOffset o => Some ("DW_CFA_def_cfa_offset", [ONum o])
  | IDefCfaOffsetSf o => Some ("DW_CFA_def_cfa_offset_sf", [ONum o])
  | IDefCfaExpression _ => Some ("DW_CFA_def_cfa_expression", [OBlock])
  | IUndefined r => Some ("DW_CFA_undefined", [OReg r])
  | ISameValue r => Some ("DW_CFA_same_value", [OReg r])
  | IOffset r o => Some ("DW_CFA_offset", [OReg r; ONum o])
  | IOffsetExtendedSf r o => Some ("DW_CFA_offset_extended_sf", [OReg r; ONum o])
  | IValOffset r o => Some ("DW_CFA_val_offset", [OReg r; ONum o])
  | IValOffsetSf r o => Some ("DW_CFA_val_offset_sf", [OReg r; ONum o])
  | IRegister d s => Some ("DW_CFA_register", [OReg d; OReg s])
  | IExpression r _ => Some ("DW_CFA_expression", [OReg r; OBlock])
  | IValExpression r _ => Some ("DW_CFA_val_expression", [OReg r; OBlock])
  | IRestore r => Some ("DW_CFA_restore", [OReg r])
  | IRememberState => Some ("DW_CFA_remember_state", [])
  | IRestoreState => Some ("DW_CFA_restore_state", [])
  | IArgsSize n => Some ("DW_CFA_GNU_args_size", [ONum n])
  | INegateRaState => Some ("DW_CFA_AARCH64_negate_ra_state", [])
  | INop => Some ("DW_CFA_nop", [])
  | IOther _ => None
  end.
(** The expression that an instruction carries. *)
Definition block_of (i : insn) : option expression :=
  match i with IDefCfaExpression x | IExpression _ x | IValExpression _ x => Some x | _ => None end.

(** [NAME (a, b)] or [NAME] *)
Fixpoint arguments (n : nat) (s : string) : list string :=
  match n, upto "," s with
  | S n, Some (a, String " " t) => a :: arguments n t
  | _, _ => [s]
  end.
Definition read_call (s : string) : option (string * list string) :=
  match upto " " s with
  | None => Some (s, [])
  | Some (name, String "(" t) =>
      option_map (fun a => (name, arguments (String.length a) a)) (drop_end ")" t)
  | _ => None
  end.
Definition operand_shown (pr : printers) (t : option reg_table) (o : operand) (s : string) : Prop :=
  match o with
  | OReg r => register_shown pr t r s
  | ONum z => integer s = Some z
  | OAddress n => exists u, after "0x" s = Some u /\ number 16 u = Some n
  | OBlock => s = "..."
  end.

(** *** What a view says *)

Definition insn_shown (pr : printers) (t : option reg_table) (i : insn) (v : insn_view) : Prop :=
  match dwarf_insn i with
  | Some (name, ops) => exists args, read_call (iv_text v) = Some (name, args) /\ Forall2 (operand_shown pr t) ops args
  | None => iv_text v = pr_insn pr i
  end /\
  Datatypes.length (iv_below v) = match block_of i with Some x => Datatypes.length (ex_ops x) | None => O end.
Definition cfa_shown (pr : printers) (t : option reg_table) (c : cfa_rule) (s : string) : Prop :=
  match c with
  | CfaReg reg o => exists n u, s = n ++ u /\ register_shown pr t reg n /\ integer u = Some o
  | CfaExpression x => s = pr_expression pr x
  end.
Definition reg_rule_shown (pr : printers) (t : option reg_table) (p : Z * reg_rule) (v : string * string) : Prop :=
  register_shown pr t (fst p) (fst v) /\ rule_shown pr t (snd p) (snd v).
Definition row_shown (pr : printers) (t : option reg_table) (r : dw_row) (v : row_view) : Prop :=
  rv_start v = dr_start r /\ rv_end v = dr_end r /\ cfa_shown pr t (dr_cfa r) (rv_cfa v) /\
  Forall2 (reg_rule_shown pr t) (dr_regs r) (rv_regs v).
Definition function_shown (pr : printers) (t : option reg_table) (f : dw_fde) (v : fde_view) : Prop :=
  fv_start v = df_start f /\ fv_len v = df_len f /\ fv_end v = df_start f + df_len f /\
  Forall2 (insn_shown pr t) (is_list (df_insns f)) (fv_insns v) /\
  fv_broken v = option_map (pr_gimli pr) (is_end (df_insns f)) /\
  Forall2 (row_shown pr t) (dw_rows_of f) (fv_rows v).

(** What the text of other crates must not look like. *)
Definition begins_clean (s : string) : Prop :=
  exists c t, s = String c t /\ c <> " "%char /\ after "Failed to decode CFI instruction: " s = None.
Record plain_texts (pr : printers) (t : option reg_table) : Prop := PlainTexts {
  pt_names : forall r n, reg_name pr t r = Some n -> without " " n /\ without "," n;
  pt_insn : forall i, begins_clean (pr_insn pr i);
  pt_op : forall o, begins_clean (pr_op pr o) }.

(** Numbers of the instructions and rules fit their types. *)
Definition operand_typed (o : operand) : Prop :=
  match o with OReg r => 0 <= r < 2 ^ 16 | OAddress n => 0 <= n < 2 ^ 64 | _ => True end.
Definition insn_typed (i : insn) : Prop :=
  match dwarf_insn i with Some (_, ops) => Forall operand_typed ops | None => True end.
Definition row_full_typed (r : dw_row) : Prop :=
  in_u64 (dr_start r) /\ in_u64 (dr_end r) /\
  match dr_cfa r with CfaReg reg _ => 0 <= reg < 2 ^ 16 | CfaExpression _ => True end /\
  Forall (fun p => 0 <= fst p < 2 ^ 16 /\ rule_typed (snd p)) (dr_regs r).
Definition function_full_typed (f : dw_fde) : Prop :=
  in_u64 (df_start f) /\ in_u64 (df_len f) /\
  Forall insn_typed (is_list (df_insns f)) /\ Forall row_full_typed (dw_rows_of f).

(** *** Operations of expressions *)

(** A name made of [p] and a number below [n]. *)
Definition numbered (p : string) (n : Z) (s : string) : Prop :=
  exists t k, after p s = Some t /\ number 10 t = Some k /\ k < n.
(** The names that DWARF 5 (section 7.7.1) has for what gimli reports as one
    operation; any other operation has some name as well. *)
Definition dwarf_op (o : operation) (s : string) : Prop :=
  match o with
  | OpDeref _ _ _ => In s ["DW_OP_deref"; "DW_OP_xderef"; "DW_OP_deref_size"; "DW_OP_xderef_size"; "DW_OP_deref_type"; "DW_OP_xderef_type"]
  | OpDrop => s = "DW_OP_drop"
  | OpPick _ => In s ["DW_OP_pick"; "DW_OP_dup"; "DW_OP_over"]
  | OpSwap => s = "DW_OP_swap"
  | OpRot => s = "DW_OP_rot"
  | OpAbs => s = "DW_OP_abs"
  | OpAnd => s = "DW_OP_and"
  | OpDiv => s = "DW_OP_div"
  | OpMul => s = "DW_OP_mul"
  | OpNeg => s = "DW_OP_neg"
  | OpNot => s = "DW_OP_not"
  | OpPlus => s = "DW_OP_plus"
  | OpPlusConstant _ => s = "DW_OP_plus_uconst"
  | OpShl => s = "DW_OP_shl"
  | OpShr => s = "DW_OP_shr"
  | OpXor => s = "DW_OP_xor"
  | OpBra _ => s = "DW_OP_bra"
  | OpEq => s = "DW_OP_eq"
  | OpGe => s = "DW_OP_ge"
  | OpLt => s = "DW_OP_lt"
  | OpGt => s = "DW_OP_gt"
  | OpLe => s = "DW_OP_le"
  | OpNe => s = "DW_OP_ne"
  | OpSkip _ => s = "DW_OP_skip"
  | OpUnsignedConstant _ =>
      In s ["DW_OP_const1u"; "DW_OP_const2u"; "DW_OP_const4u"; "DW_OP_const8u"; "DW_OP_constu"] \/ numbered "DW_OP_lit" 32 s
  | OpSignedConstant _ => In s ["DW_OP_const1s"; "DW_OP_const2s"; "DW_OP_const4s"; "DW_OP_const8s"; "DW_OP_consts"]
  | OpRegister _ => s = "DW_OP_regx" \/ numbered "DW_OP_reg" 32 s
  | OpRegisterOffset _ _ _ => In s ["DW_OP_bregx"; "DW_OP_regval_type"] \/ numbered "DW_OP_breg" 32 s
  | OpFrameOffset _ => s = "DW_OP_fbreg"
  | OpNop => s = "DW_OP_nop"
  | OpPushObjectAddress => s = "DW_OP_push_object_address"
  | OpCall _ => In s ["DW_OP_call2"; "DW_OP_call4"; "DW_OP_call_ref"]
  | OpTLS => In s ["DW_OP_form_tls_address"; "DW_OP_GNU_push_tls_address"]
  | OpStackValue => s = "DW_OP_stack_value"
  | OpOther _ => exists t, after "DW_OP_" s = Some t
  end.
(** Those that the dump calls otherwise. *)
Definition renamed (o : operation) : bool :=
  match o with
  | OpPlusConstant _ | OpUnsignedConstant _ | OpSignedConstant _ | OpRegister _ | OpRegisterOffset _ _ _
  | OpFrameOffset _ | OpCall _ | OpTLS | OpOther _ => true
  | _ => false
  end.
(** The operation stands, indented, under its instruction. *)
Definition op_shown (o : operation) (line : string) : Prop :=
  exists t, after "                  " line = Some t /\
    dwarf_op o (match upto " " t with Some (name, _) => name | None => t end).
(** [R] holds of the operations of every instruction and the lines below it. *)
Definition ops_shown (R : operation -> string -> Prop) (f : dw_fde) (v : fde_view) : Prop :=
  Forall2 (fun i w => match block_of i with Some x => Forall2 R (ex_ops x) (iv_below w) | None => iv_below w = [] end)
    (is_list (df_insns f)) (fv_insns v).

(** An operation without the type of its operand. *)
Definition untyped (o : operation) : operation :=
  match o with
  | OpDeref _ size space => OpDeref 0 size space
  | OpRegisterOffset r off _ => OpRegisterOffset r off 0
  | _ => o
  end.
