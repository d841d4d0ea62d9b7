(** The printing of the second converter with five repairs, each under a switch
    (C72-C74, C76, C77).  With no switch on, this is [Loud.v]
    ([dwarf2sframe_said_none], LoudRepairedFacts.v); the lines of /repo are the
    same.  The repairs are:

    - [lf_sign]: an offset that does not fit is shown with its sign
      (lib.rs:371, 385 and 414);
    - [lf_unnamed]: a register that gimli has no name for is shown as [reg200],
      not as [200] (display.rs:25-28);
    - [lf_digits]: the offset in a warning always has 16 digits
      (lib.rs:459-462), which needs no logarithm of the length, so that a function
      of length 0 is no panic there;
    - [lf_names]: operations are shown under names of DWARF, also those without
      a case, which get the text given (dump.rs:215-258);
    - [lf_types]: the types of operands are shown (dump.rs:217 and 244-250). *)
From Coq Require Import String Ascii.
From Verif Require Import Base BTree Raw Read Write Convert Tools Text.
From Verif Require Export Loud.
Local Open Scope string_scope.

Record lfixes : Type := LFixes {
  lf_sign : bool;
  lf_unnamed : bool;
  lf_digits : bool;
  lf_names : option (Z -> string);
  lf_types : bool }.

(** ** display.rs *)

(** [DisplayRegister]: the register tables, with a text for what they lack. *)
Definition voice (fx : lfixes) (pr : printers) : printers :=
  if lf_unnamed fx then
    {| pr_gimli := pr_gimli pr;
       pr_register := fun t r => Some match pr_register pr t r with Some n => n | None => "reg" ++ fmt_dec r end;
       pr_rule := pr_rule pr; pr_expression := pr_expression pr; pr_insn := pr_insn pr; pr_op := pr_op pr;
       pr_die := pr_die pr |}
  else pr.

(** ** dump.rs *)

(** The line for an operation. *)
Definition op_text_said (fx : lfixes) (pr : printers) (reg : Z -> string) (i : string) (o : operation) : string :=
  match lf_names fx with
  | None => op_text pr reg (lf_types fx) i o
  | Some other =>
      match o with
      | OpPlusConstant v => i ++ "DW_OP_plus_uconst " ++ fmt_dec v
      | OpUnsignedConstant v => i ++ "DW_OP_constu " ++ fmt_dec v
      | OpSignedConstant v => i ++ "DW_OP_consts " ++ fmt_dec v
      | OpRegister r => i ++ "DW_OP_regx " ++ reg r
      | OpRegisterOffset r off bt =>
          i ++ "DW_OP_bregx " ++ reg r ++ " " ++ fmt_dec off ++ (if lf_types fx then " " ++ fmt_dec bt else "")
      | OpFrameOffset off => i ++ "DW_OP_fbreg " ++ fmt_dec off
      | OpCall die => i ++ "DW_OP_call_ref " ++ pr_die pr die
      | OpTLS => i ++ "DW_OP_form_tls_address"
      | OpOther c => i ++ other c
      | _ => op_text pr reg (lf_types fx) i o
      end
  end.

Definition dump_expression_said (fx : lfixes) (pr : printers) (reg : Z -> string) (i : string) (x : expression)
  : loud gimli_error unit :=
  (map (fun o => Out (op_text_said fx pr reg i o)) (ex_ops x),
   match ex_end x with Some g => Err g | None => Ok tt end).
Fixpoint dump_insns_said (fx : lfixes) (pr : printers) (reg : Z -> string) (l : list insn) (en : option gimli_error)
    (finish : list event) : loud gimli_error unit :=
  match l with
  | [] =>
      match en with
      | Some g => say [Out ("Failed to decode CFI instruction: " ++ pr_gimli pr g)]
      | None => say finish
      end
  | i :: t =>
      let! _ := say [Out (insn_text pr reg i)] in
      let! _ :=
        match insn_expression i with
        | Some x => dump_expression_said fx pr reg "                  " x
        | None => say []
        end in
      dump_insns_said fx pr reg t en finish
  end.
Definition dump_cfi_said (fx : lfixes) (pr : printers) (a : arch) (is : insns) : loud gimli_error unit :=
  dump_insns_said fx pr (display_register pr a) (is_list is) (is_end is) [].

(** ** lib.rs *)

(** An offset that does not fit 32 bits. *)
Definition offset_said (fx : lfixes) (o : Z) : string :=
  if lf_sign fx then (if (o <? 0)%Z then "-0x" ++ digits 16 (- o) else "0x" ++ digits 16 o) else fmt_hex_alt 64 o.

(** The text of a warning. *)
Definition warn_digits_said (fx : lfixes) (len : Z) : nat := if lf_digits fx then 18%nat else warn_digits len.
Definition warn_text_said (fx : lfixes) (start offset len : Z) (message : string) : string :=
  "FDE for " ++ fmt_hex_alt_pad 64 10 start ++ "+" ++ fmt_hex_alt_pad 64 (warn_digits_said fx len) offset ++ ": " ++ message.

(** [Dwarf2SFrame::warn]. *)
Definition warn_said (fx : lfixes) (md : mode) (op : options) (f : dw_fde) (r : dw_row) (message : string)
  : outcome never row_outcome :=
  if negb (op_warnings op) then Ok (RoWarning "")
  else
    let* o := sub_u64 md (dr_start r) (df_start f) in
    if negb (lf_digits fx) && (df_len f =? 0)%Z then Panic else Ok (RoWarning (warn_text_said fx (df_start f) o (df_len f) message)).

(** [Dwarf2SFrame::convert_row]. *)
Definition convert_row_said (fx : lfixes) (pr : printers) (md : mode) (op : options) (f : dw_fde) (r : dw_row)
  : outcome never row_outcome :=
  let a := op_arch op in
  let fp := arch_fp a in
  let sp := arch_sp a in
  let ra := arch_ra a in
  match dr_cfa r with
  | CfaExpression _ => warn_said fx md op f r "CFA recovery rule requires evaluating a DWARF expression"
  | CfaReg reg offset =>
      let base :=
        if (reg =? sp)%Z then Some Sp
        else if (reg =? fp)%Z then Some Fp
        else None in
      match base with
      | None => warn_said fx md op f r ("unsupported CFA source register `" ++ display_register pr a reg ++ "`")
      | Some base =>
          let* d := sub_u64 md (dr_start r) (df_start f) in
          if negb (row_start_ok d) then Ok (RoFatal (InvalidRowOffset (dr_start r) d))
          else if negb (in_i32b offset) then
            warn_said fx md op f r ("CFA register offset " ++ offset_said fx offset ++
              " too large to be represented in the SFrame format")
          else
            match
              match dr_register r fp with
              | ROffset o =>
                  if in_i32b o then inl (Some o)
                  else inr ("FP register offset " ++ offset_said fx o ++
                         " too large to represented in the SFrame format")
              | RSameValue => inl None
              | RUndefined => inl None
              | rule => inr ("Unsupport FP recovery rule: `" ++ display_rule pr a rule ++ "`")
              end
            with
            | inr message => warn_said fx md op f r message
            | inl fp_offset =>
                match
                  match dr_register r ra with
                  | ROffset o =>
                      if in_i32b o then inl o
                      else inr ("RA register offset " ++ offset_said fx o ++
                             " too large to represented in the SFrame format")
                  | rule => inr ("Unsupport RA recovery rule: `" ++ display_rule pr a rule ++ "`")
                  end
                with
                | inr message => warn_said fx md op f r message
                | inl ra_offset =>
                    Ok (RoOk (row_new base d
                      {| ro_cfa := offset; ro_ra := Some ra_offset; ro_fp := fp_offset |}))
                end
            end
      end
  end.

(** The row loop. *)
Fixpoint convert_rows_said (fx : lfixes) (pr : printers) (md : mode) (op : options) (f : dw_fde) (l : list dw_row) (b : fdb)
  : loud conv_error fdb :=
  match l with
  | [] => quiet (Ok b)
  | r :: t =>
      let! _ := if op_debugdump op then say (row_dump pr (op_arch op) r) else say [] in
      if (dr_start r =? dr_end r)%Z then convert_rows_said fx pr md op f t b
      else
        let! d := quiet (sub_u64 md (dr_start r) (df_start f)) in
        if negb (row_start_ok d) then quiet (Err (InvalidRowOffset (dr_start r) d))
        else
          let! res := quiet (lift (convert_row_said fx pr md op f r)) in
          let! nr :=
            match res with
            | RoOk nr => quiet (Ok nr)
            | RoWarning w =>
                let! _ := if op_warnings op then say [ErrOut ("warning: " ++ w)] else say [] in
                quiet (Ok (row_invalid d))
            | RoFatal er => quiet (Err er)
            end in
          match fdb_row b nr with
          | Ok b' => convert_rows_said fx pr md op f t b'
          | Err _ => quiet Panic
          | Panic => quiet Panic
          end
  end.

(** One FDE. *)
Definition convert_fde_said (fx : lfixes) (pr : printers) (md : mode) (op : options) (s : sfb) (f : dw_fde) : loud conv_error sfb :=
  let! _ :=
    if op_debugdump op then
      let! _ := say [ Out "FDE:"; Out (" start_address: " ++ fmt_hex_alt_pad 64 10 (df_start f)) ] in
      let! e := quiet (add_u64 md (df_start f) (df_len f)) in
      let! _ := say [ Out ("    range_size: " ++ fmt_hex_alt_pad 64 10 (df_len f) ++
                        " (end_addr = " ++ fmt_hex_alt_pad 64 10 e ++ ")") ] in
      let! _ := loud_err InvalidDwarfFde (dump_cfi_said fx pr (op_arch op) (df_insns f)) in
      say [ Out ""; Out "Rows:" ]
    else say [] in
  if (i32_max <? df_start f)%Z then quiet (Err (InvalidStartAddress (df_start f)))
  else if (i32_max <? df_len f)%Z then quiet (Err (InvalidFunctionLength (df_start f) (df_len f)))
  else
    let b := fdb_new (sb_options s) (as_s 32 (df_start f)) (as_u 32 (df_len f)) in
    match df_rows f with
    | inr g => quiet (Err (InvalidUnwindTable g))
    | inl rows =>
        let! b := convert_rows_said fx pr md op f (rows_list rows) b in
        match rows_end rows with
        | Some g => quiet (Err (InvalidUnwindTable g))
        | None =>
            let! b := quiet (if op_merge_fres op then of_fuel (merge_adjacent_fres b) else Ok b) in
            let! s' := quiet (lift (sfb_fde s b)) in
            let! _ := if op_debugdump op then say [ Out "" ] else say [] in
            quiet (Ok s')
        end
    end.

(** [Dwarf2SFrame::convert]. *)
Fixpoint convert_entries_said (fx : lfixes) (pr : printers) (md : mode) (op : options) (l : list dw_entry) (s : sfb)
  : loud conv_error sfb :=
  match l with
  | [] => quiet (Ok s)
  | DwCie :: t => convert_entries_said fx pr md op t s
  | DwBadFde g :: _ => quiet (Err (InvalidDwarfFde g))
  | DwGoodFde f :: t =>
      let! s' := convert_fde_said fx pr md op s f in
      convert_entries_said fx pr md op t s'
  end.

(** [dwarf2sframe]. *)
Definition dwarf2sframe_run (fx : lfixes) (pr : printers) (md : mode) (op : options) (eh : eh_frame) : loud conv_error sfb :=
  let! s := convert_entries_said fx pr md op (ents_list (eh_entries eh)) (sfb_new (conv_sfoptions op eh)) in
  match ents_end (eh_entries eh) with
  | Some g => quiet (Err (InvalidEhFrameEntry g))
  | None => quiet (if op_merge_fdes op then of_fuel (merge_adjacent_fdes md s) else Ok s)
  end.
Definition dwarf2sframe_said (fx : lfixes) (pr : printers) : mode -> options -> eh_frame -> loud conv_error sfb :=
  dwarf2sframe_run fx (voice fx pr).
