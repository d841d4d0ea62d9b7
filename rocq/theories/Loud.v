(** What the converters print while they run: [crates/dwarf2sframe2/src]
    ([display.rs], [dump.rs] and the printing in [lib.rs]).

    Printing is a list of lines, in the order in which they are written; that
    writing to stdout can fail is modelled in [Io.v].  Text made by other crates
    ([Display] and [Debug] of gimli's types, its register names) is an input: see
    [printers]. *)
From Coq Require Import String Ascii.
From Verif Require Import Base BTree Raw Read Write Convert Tools Text.
Local Open Scope string_scope.

(** ** Runs that print *)

(** A [println!] or an [eprintln!]. *)
Inductive event : Type := Out (s : string) | ErrOut (s : string).

(** The lines printed, and the result. *)
Definition loud (E A : Type) : Type := (list event * outcome E A)%type.
Definition quiet {E A} (o : outcome E A) : loud E A := ([], o).
Definition say {E} (l : list event) : loud E unit := (l, Ok tt).
Definition lbind {E A B} (m : loud E A) (k : A -> loud E B) : loud E B :=
  match snd m with
  | Ok a => let r := k a in ((fst m ++ fst r)%list, snd r)
  | Err er => (fst m, Err er)
  | Panic => (fst m, Panic)
  end.
Notation "'let!' x ':=' m 'in' k" := (lbind m (fun x => k))
  (at level 200, x name, m at level 100, k at level 200).
Notation "'let!' '_' ':=' m 'in' k" := (lbind m (fun _ => k))
  (at level 200, m at level 100, k at level 200).
Definition loud_err {E F A} (f : E -> F) (m : loud E A) : loud F A := (fst m, map_err f (snd m)).

(** ** Text of other crates *)

(** gimli's register name tables. *)
Inductive reg_table : Type := TX86_64 | TX86 | TAArch64 | TArm | TRiscV | TLoongArch.

Record printers : Type := Printers {
  pr_gimli : gimli_error -> string; (* Display for gimli::Error *)
  pr_register : reg_table -> Z -> option string; (* register_name *)
  pr_rule : reg_rule -> string; (* Debug for gimli::RegisterRule *)
  pr_expression : expression -> string; (* Debug for gimli::Expression *)
  pr_insn : insn -> string; (* Debug for gimli::CallFrameInstruction *)
  pr_op : operation -> string; (* Debug for gimli::Operation *)
  pr_die : Z -> string (* Debug for gimli::DieReference *) }.

(** ** display.rs *)

(** A register: its name in the table if it has one, its number otherwise. *)
Definition register_text (pr : printers) (t : option reg_table) (reg : Z) : string :=
  match t with
  | Some t => match pr_register pr t reg with Some n => n | None => fmt_dec reg end
  | None => fmt_dec reg
  end.

(** [DisplayRegister], display.rs:7-30. *)
Definition arch_table (a : arch) : reg_table := match a with Amd64 => TX86_64 | Aarch64 => TAArch64 end.
Definition display_register (pr : printers) (a : arch) (reg : Z) : string :=
  register_text pr (Some (arch_table a)) reg.

(** [RegisterRule], display.rs:32-57. *)
Definition display_rule (pr : printers) (a : arch) (rule : reg_rule) : string :=
  match rule with
  | RUndefined => "<undefined>"
  | RSameValue => "<same>"
  | ROffset o => "*(CFA" ++ fmt_plus o ++ ")"
  | RValOffset o => "CFA" ++ fmt_plus o
  | RRegister r => display_register pr a r
  | RConstant c => fmt_dec c
  | RExpression _ | RValExpression _ | RArchitectural => pr_rule pr rule
  end.

(** ** dump.rs *)

(** [dump_expression], dump.rs:202-259: the line for an operation.  [full] is
    false here; the copies in crates/dwarf2sframe (dump.rs:208-274,
    fmthelp.rs:70-138, bin/dwarfdump.rs:478-545) are the same except that they
    print the base types too.  The last case has no indentation. *)
Definition op_text (pr : printers) (reg : Z -> string) (full : bool) (i : string) (o : operation) : string :=
  match o with
  | OpDeref bt size space =>
      i ++ "DW_OP_deref " ++ (if full then fmt_dec bt ++ " " else "") ++ fmt_dec size ++ " " ++
      (if space then "true" else "false")
  | OpDrop => i ++ "DW_OP_drop"
  | OpPick index => i ++ "DW_OP_pick " ++ fmt_dec index
  | OpSwap => i ++ "DW_OP_swap"
  | OpRot => i ++ "DW_OP_rot"
  | OpAbs => i ++ "DW_OP_abs"
  | OpAnd => i ++ "DW_OP_and"
  | OpDiv => i ++ "DW_OP_div"
  | OpMul => i ++ "DW_OP_mul"
  | OpNeg => i ++ "DW_OP_neg"
  | OpNot => i ++ "DW_OP_not"
  | OpPlus => i ++ "DW_OP_plus"
  | OpPlusConstant v => i ++ "DW_OP_plusconstant " ++ fmt_dec v
  | OpShl => i ++ "DW_OP_shl"
  | OpShr => i ++ "DW_OP_shr"
  | OpXor => i ++ "DW_OP_xor"
  | OpBra t => i ++ "DW_OP_bra " ++ fmt_dec t
  | OpEq => i ++ "DW_OP_eq"
  | OpGe => i ++ "DW_OP_ge"
  | OpLt => i ++ "DW_OP_lt"
  | OpGt => i ++ "DW_OP_gt"
  | OpLe => i ++ "DW_OP_le"
  | OpNe => i ++ "DW_OP_ne"
  | OpSkip t => i ++ "DW_OP_skip " ++ fmt_dec t
  | OpUnsignedConstant v => i ++ "DW_OP_uconst " ++ fmt_dec v
  | OpSignedConstant v => i ++ "DW_OP_sconst " ++ fmt_dec v
  | OpRegister r => i ++ "DW_OP_register " ++ reg r
  | OpRegisterOffset r off bt =>
      i ++ "DW_OP_register_offset " ++ reg r ++ " " ++ fmt_dec off ++ (if full then " " ++ fmt_dec bt else "")
  | OpFrameOffset off => i ++ "DW_OP_frame_offset " ++ fmt_dec off
  | OpNop => i ++ "DW_OP_nop"
  | OpPushObjectAddress => i ++ "DW_OP_push_object_address"
  | OpCall die => i ++ "DW_OP_call " ++ pr_die pr die
  | OpTLS => i ++ "DW_OP_tls"
  | OpStackValue => i ++ "DW_OP_stack_value"
  | OpOther _ => pr_op pr o
  end.

Definition dump_expression (pr : printers) (reg : Z -> string) (full : bool) (i : string) (x : expression)
  : loud gimli_error unit :=
  (map (fun o => Out (op_text pr reg full i o)) (ex_ops x),
   match ex_end x with Some g => Err g | None => Ok tt end).

(** The line for an instruction, dump.rs:33-197. *)
Definition insn_text (pr : printers) (reg : Z -> string) (i : insn) : string :=
  "                " ++
  match i with
  | ISetLoc a => "DW_CFA_set_loc (" ++ fmt_hex_alt 64 a ++ ")"
  | IAdvanceLoc d => "DW_CFA_advance_loc (" ++ fmt_dec d ++ ")"
  | IDefCfa r o => "DW_CFA_def_cfa (" ++ reg r ++ ", " ++ fmt_dec o ++ ")"
  | IDefCfaSf r o => "DW_CFA_def_cfa_sf (" ++ reg r ++ ", " ++ fmt_dec o ++ ")"
  | IDefCfaRegister r => "DW_CFA_def_cfa_register (" ++ reg r ++ ")"
  | IDefCfaOffset o => "DW_CFA_def_cfa_offset (" ++ fmt_dec o ++ ")"
  | IDefCfaOffsetSf o => "DW_CFA_def_cfa_offset_sf (" ++ fmt_dec o ++ ")"
  | IDefCfaExpression _ => "DW_CFA_def_cfa_expression (...)"
  | IUndefined r => "DW_CFA_undefined (" ++ reg r ++ ")"
  | ISameValue r => "DW_CFA_same_value (" ++ reg r ++ ")"
  | IOffset r o => "DW_CFA_offset (" ++ reg r ++ ", " ++ fmt_dec o ++ ")"
  | IOffsetExtendedSf r o => "DW_CFA_offset_extended_sf (" ++ reg r ++ ", " ++ fmt_dec o ++ ")"
  | IValOffset r o => "DW_CFA_val_offset (" ++ reg r ++ ", " ++ fmt_dec o ++ ")"
  | IValOffsetSf r o => "DW_CFA_val_offset_sf (" ++ reg r ++ ", " ++ fmt_dec o ++ ")"
  | IRegister d s => "DW_CFA_register (" ++ reg d ++ ", " ++ reg s ++ ")"
  | IExpression r _ => "DW_CFA_expression (" ++ reg r ++ ", ...)"
  | IValExpression r _ => "DW_CFA_val_expression (" ++ reg r ++ ", ...)"
  | IRestore r => "DW_CFA_restore (" ++ reg r ++ ")"
  | IRememberState => "DW_CFA_remember_state"
  | IRestoreState => "DW_CFA_restore_state"
  | IArgsSize n => "DW_CFA_GNU_args_size (" ++ fmt_dec n ++ ")"
  | INegateRaState => "DW_CFA_AARCH64_negate_ra_state"
  | INop => "DW_CFA_nop"
  | IOther _ => pr_insn pr i
  end.

(** The loop, dump.rs:24-199; [finish] is what the end of the instructions
    prints (nothing here). *)
Fixpoint dump_insn_list (pr : printers) (reg : Z -> string) (full : bool) (l : list insn) (en : option gimli_error)
    (finish : list event) : loud gimli_error unit :=
  match l with
  | [] =>
      match en with
      | Some g => say [Out ("Failed to decode CFI instruction: " ++ pr_gimli pr g)]
      | None => say finish
      end
  | i :: t =>
      let! _ := say [Out (insn_text pr reg i)] in
      let! _ :=
        match insn_expression i with
        | Some x => dump_expression pr reg full "                  " x
        | None => say []
        end in
      dump_insn_list pr reg full t en finish
  end.
Definition dump_cfi_instructions (pr : printers) (a : arch) (is : insns) : loud gimli_error unit :=
  dump_insn_list pr (display_register pr a) false (is_list is) (is_end is) [].

(** ** lib.rs *)

(** The text of a warning, lib.rs:457-463. *)
Definition warn_digits (len : Z) : nat := Z.to_nat ((Z.log2 len + 3) / 4 + 2).
Definition warn_text (start offset len : Z) (message : string) : string :=
  "FDE for " ++ fmt_hex_alt_pad 64 10 start ++ "+" ++ fmt_hex_alt_pad 64 (warn_digits len) offset ++ ": " ++ message.

(** [ConvertRowError] with its text. *)
Inductive row_outcome : Type :=
| RoOk (r : row)
| RoWarning (text : string)
| RoFatal (er : conv_error).

(** [Dwarf2SFrame::warn], lib.rs:443-464. *)
Definition warn_loud (md : mode) (op : options) (f : dw_fde) (r : dw_row) (message : string)
  : outcome never row_outcome :=
  if negb (op_warnings op) then Ok (RoWarning "")
  else
    let* o := sub_u64 md (dr_start r) (df_start f) in
    if (df_len f =? 0)%Z then Panic else Ok (RoWarning (warn_text (df_start f) o (df_len f) message)).

(** [Dwarf2SFrame::convert_row], lib.rs:320-441. *)
Definition convert_row_loud (pr : printers) (md : mode) (op : options) (f : dw_fde) (r : dw_row)
  : outcome never row_outcome :=
  let a := op_arch op in
  let fp := arch_fp a in
  let sp := arch_sp a in
  let ra := arch_ra a in
  match dr_cfa r with
  | CfaExpression _ => warn_loud md op f r "CFA recovery rule requires evaluating a DWARF expression"
  | CfaReg reg offset =>
      let base :=
        if (reg =? sp)%Z then Some Sp
        else if (reg =? fp)%Z then Some Fp
        else None in
      match base with
      | None => warn_loud md op f r ("unsupported CFA source register `" ++ display_register pr a reg ++ "`")
      | Some base =>
          let* d := sub_u64 md (dr_start r) (df_start f) in
          if negb (row_start_ok d) then Ok (RoFatal (InvalidRowOffset (dr_start r) d))
          else if negb (in_i32b offset) then
            warn_loud md op f r ("CFA register offset " ++ fmt_hex_alt 64 offset ++
              " too large to be represented in the SFrame format")
          else
            match
              match dr_register r fp with
              | ROffset o =>
                  if in_i32b o then inl (Some o)
                  else inr ("FP register offset " ++ fmt_hex_alt 64 o ++
                         " too large to represented in the SFrame format")
              | RSameValue => inl None
              | RUndefined => inl None
              | rule => inr ("Unsupport FP recovery rule: `" ++ display_rule pr a rule ++ "`")
              end
            with
            | inr message => warn_loud md op f r message
            | inl fp_offset =>
                match
                  match dr_register r ra with
                  | ROffset o =>
                      if in_i32b o then inl o
                      else inr ("RA register offset " ++ fmt_hex_alt 64 o ++
                             " too large to represented in the SFrame format")
                  | rule => inr ("Unsupport RA recovery rule: `" ++ display_rule pr a rule ++ "`")
                  end
                with
                | inr message => warn_loud md op f r message
                | inl ra_offset =>
                    Ok (RoOk (row_new base d
                      {| ro_cfa := offset; ro_ra := Some ra_offset; ro_fp := fp_offset |}))
                end
            end
      end
  end.

(** The row as the debug dump shows it, lib.rs:246-265. *)
Definition row_dump (pr : printers) (a : arch) (r : dw_row) : list event :=
  (Out ("  - offset: " ++ fmt_hex_alt_pad 64 10 (dr_start r) ++ " (end = " ++ fmt_hex_alt_pad 64 10 (dr_end r) ++ ")") ::
   Out ("    cfa:    " ++
     match dr_cfa r with
     | CfaReg reg o => display_register pr a reg ++ fmt_plus o
     | CfaExpression x => pr_expression pr x
     end) ::
   map (fun p => Out ("    reg:    " ++ display_register pr a (fst p) ++ " = " ++ display_rule pr a (snd p))) (dr_regs r))%list.

(** The row loop, lib.rs:244-304. *)
Fixpoint convert_rows_loud (pr : printers) (md : mode) (op : options) (f : dw_fde) (l : list dw_row) (b : fdb)
  : loud conv_error fdb :=
  match l with
  | [] => quiet (Ok b)
  | r :: t =>
      let! _ := if op_debugdump op then say (row_dump pr (op_arch op) r) else say [] in
      if (dr_start r =? dr_end r)%Z then convert_rows_loud pr md op f t b
      else
        let! d := quiet (sub_u64 md (dr_start r) (df_start f)) in
        if negb (row_start_ok d) then quiet (Err (InvalidRowOffset (dr_start r) d))
        else
          let! res := quiet (lift (convert_row_loud pr md op f r)) in
          let! nr :=
            match res with
            | RoOk nr => quiet (Ok nr)
            | RoWarning w =>
                let! _ := if op_warnings op then say [ErrOut ("warning: " ++ w)] else say [] in
                quiet (Ok (row_invalid d))
            | RoFatal er => quiet (Err er)
            end in
          match fdb_row b nr with
          | Ok b' => convert_rows_loud pr md op f t b'
          | Err _ => quiet Panic
          | Panic => quiet Panic
          end
  end.

(** One FDE, lib.rs:203-315. *)
Definition convert_fde_loud (pr : printers) (md : mode) (op : options) (s : sfb) (f : dw_fde) : loud conv_error sfb :=
  let! _ :=
    if op_debugdump op then
      let! _ := say [ Out "FDE:"; Out (" start_address: " ++ fmt_hex_alt_pad 64 10 (df_start f)) ] in
      let! e := quiet (add_u64 md (df_start f) (df_len f)) in
      let! _ := say [ Out ("    range_size: " ++ fmt_hex_alt_pad 64 10 (df_len f) ++
                        " (end_addr = " ++ fmt_hex_alt_pad 64 10 e ++ ")") ] in
      let! _ := loud_err InvalidDwarfFde (dump_cfi_instructions pr (op_arch op) (df_insns f)) in
      say [ Out ""; Out "Rows:" ]
    else say [] in
  if (i32_max <? df_start f)%Z then quiet (Err (InvalidStartAddress (df_start f)))
  else if (i32_max <? df_len f)%Z then quiet (Err (InvalidFunctionLength (df_start f) (df_len f)))
  else
    let b := fdb_new (sb_options s) (as_s 32 (df_start f)) (as_u 32 (df_len f)) in
    match df_rows f with
    | inr g => quiet (Err (InvalidUnwindTable g))
    | inl rows =>
        let! b := convert_rows_loud pr md op f (rows_list rows) b in
        match rows_end rows with
        | Some g => quiet (Err (InvalidUnwindTable g))
        | None =>
            let! b := quiet (if op_merge_fres op then of_fuel (merge_adjacent_fres b) else Ok b) in
            let! s' := quiet (lift (sfb_fde s b)) in
            let! _ := if op_debugdump op then say [ Out "" ] else say [] in
            quiet (Ok s')
        end
    end.

(** [Dwarf2SFrame::convert], lib.rs:186-318. *)
Fixpoint convert_entries_loud (pr : printers) (md : mode) (op : options) (l : list dw_entry) (s : sfb)
  : loud conv_error sfb :=
  match l with
  | [] => quiet (Ok s)
  | DwCie :: t => convert_entries_loud pr md op t s
  | DwBadFde g :: _ => quiet (Err (InvalidDwarfFde g))
  | DwGoodFde f :: t =>
      let! s' := convert_fde_loud pr md op s f in
      convert_entries_loud pr md op t s'
  end.

(** [dwarf2sframe], lib.rs:142-178. *)
Definition dwarf2sframe_loud (pr : printers) (md : mode) (op : options) (eh : eh_frame) : loud conv_error sfb :=
  let! s := convert_entries_loud pr md op (ents_list (eh_entries eh)) (sfb_new (conv_sfoptions op eh)) in
  match ents_end (eh_entries eh) with
  | Some g => quiet (Err (InvalidEhFrameEntry g))
  | None => quiet (if op_merge_fdes op then of_fuel (merge_adjacent_fdes md s) else Ok s)
  end.

(** What goes to stdout and to stderr. *)
Definition stdout_of (l : list event) : list string :=
  flat_map (fun ev => match ev with Out s => [s] | ErrOut _ => [] end) l.
Definition stderr_of (l : list event) : list string :=
  flat_map (fun ev => match ev with Out _ => [] | ErrOut s => [s] end) l.
