(** What the repaired printing of the second converter is to say (C72-C74, C76,
    C77), besides LoudSpec.v. *)
From Coq Require Import String Ascii.
From Verif Require Export LoudSpec LoudRepaired.
Local Open Scope string_scope.

(** No repair, and all of them. *)
Definition lf_none : lfixes := LFixes false false false None false.
Definition lf_all (other : Z -> string) : lfixes := LFixes true true true (Some other) true.

(** ** Messages (C72) *)

(** A number with its sign in front of " too large …". *)
Definition read_offset (rest s : string) : option Z :=
  match after "-0x" s with
  | Some t => option_map Z.opp (read_large rest t)
  | None => match after "0x" s with Some t => read_large rest t | None => None end
  end.
Definition read_signed (s : string) : option reason :=
  if String.eqb s "CFA recovery rule requires evaluating a DWARF expression" then Some ReasonExpression
  else match after "unsupported CFA source register `" s with
  | Some t => option_map ReasonRegister (drop_end "`" t)
  | None =>
  match after "CFA register offset " s with
  | Some t => option_map ReasonCfaOffset (read_offset "too large to be represented in the SFrame format" t)
  | None =>
  match after "FP register offset " s with
  | Some t => option_map ReasonFpOffset (read_offset "too large to represented in the SFrame format" t)
  | None =>
  match after "RA register offset " s with
  | Some t => option_map ReasonRaOffset (read_offset "too large to represented in the SFrame format" t)
  | None =>
  match after "Unsupport FP recovery rule: `" s with
  | Some t => option_map ReasonFpRule (drop_end "`" t)
  | None =>
  match after "Unsupport RA recovery rule: `" s with
  | Some t => option_map ReasonRaRule (drop_end "`" t)
  | None => None
  end end end end end end.
(** The line names the function and the row, and gives a reason that holds of the
    row as the message has it. *)
Definition warned_signed (pr : printers) (a : arch) (p : dw_fde * dw_row) (w : string) : Prop :=
  exists m why, read_warning w = Some (df_start (fst p), off (fst p) (snd p), m) /\
    read_signed m = Some why /\ reason_holds (fun n => n) pr a (snd p) why.

(** ** Registers (C73) *)

(** The register is shown by its name if it has one, by its number behind [reg]
    otherwise. *)
Definition register_marked (pr : printers) (t : option reg_table) (reg : Z) (s : string) : Prop :=
  match reg_name pr t reg with
  | Some n => s = n
  | None => exists u, after "reg" s = Some u /\ number 10 u = Some reg
  end.
(** The text of gimli does not begin with [reg]. *)
Record unmarked (pr : printers) (t : option reg_table) : Prop := Unmarked {
  um_names : forall r n, reg_name pr t r = Some n -> after "reg" n = None;
  um_opaque : forall x, opaque x = true -> after "reg" (pr_rule pr x) = None }.

(** The rule or register that the message gives as its reason. *)
Definition rule_marked (pr : printers) (t : option reg_table) (rule : reg_rule) (s : string) : Prop :=
  match rule with RRegister reg => register_marked pr t reg s | _ => rule_shown pr t rule s end.
Definition reason_marked (pr : printers) (a : arch) (r : dw_row) (why : reason) : Prop :=
  match why with
  | ReasonRegister s => exists reg o, dr_cfa r = CfaReg reg o /\ register_marked pr (names_of a) reg s
  | ReasonFpRule s => rule_marked pr (names_of a) (dr_register r (reg_fp a)) s
  | ReasonRaRule s => rule_marked pr (names_of a) (dr_register r (reg_ra a)) s
  | _ => True
  end.
(** The line names the function and the row, and the register or rule of the row. *)
Definition warned_marked (pr : printers) (a : arch) (p : dw_fde * dw_row) (w : string) : Prop :=
  exists m why, read_warning w = Some (df_start (fst p), off (fst p) (snd p), m) /\
    read_signed m = Some why /\ reason_marked pr a (snd p) why.

(** The same rule, as far as the text of gimli tells. *)
Definition alike_rule (pr : printers) (x y : reg_rule) : Prop :=
  x = y \/ (opaque x = true /\ opaque y = true /\ pr_rule pr x = pr_rule pr y).
(** What the message complains about is the same in both rows. *)
Definition same_cause (pr : printers) (a : arch) (r r' : dw_row) (why : reason) : Prop :=
  match why with
  | ReasonExpression => exists x x', dr_cfa r = CfaExpression x /\ dr_cfa r' = CfaExpression x'
  | ReasonRegister _ => exists reg o o', dr_cfa r = CfaReg reg o /\ dr_cfa r' = CfaReg reg o'
  | ReasonCfaOffset n => exists reg reg', dr_cfa r = CfaReg reg n /\ dr_cfa r' = CfaReg reg' n
  | ReasonFpOffset n => dr_register r (reg_fp a) = ROffset n /\ dr_register r' (reg_fp a) = ROffset n
  | ReasonRaOffset n => dr_register r (reg_ra a) = ROffset n /\ dr_register r' (reg_ra a) = ROffset n
  | ReasonFpRule _ => alike_rule pr (dr_register r (reg_fp a)) (dr_register r' (reg_fp a))
  | ReasonRaRule _ => alike_rule pr (dr_register r (reg_ra a)) (dr_register r' (reg_ra a))
  end.
(** The line is about both rows, and its reason is the same in them. *)
Definition warned_alike (pr : printers) (a : arch) (pq : (dw_fde * dw_row) * (dw_fde * dw_row)) (w : string) : Prop :=
  let (p, q) := pq in
  exists m why, read_warning w = Some (df_start (fst p), off (fst p) (snd p), m) /\
    read_warning w = Some (df_start (fst q), off (fst q) (snd q), m) /\
    read_signed m = Some why /\ same_cause pr a (snd p) (snd q) why.

(** ** Operations (C76, C77) *)

(** The first word. *)
Definition lead_word (s : string) : string := match upto " " s with Some (a, _) => a | None => s end.
(** The names that the dump gives to the operations it has a case for. *)
Definition dump_names : list string :=
  [ "DW_OP_deref"; "DW_OP_drop"; "DW_OP_pick"; "DW_OP_swap"; "DW_OP_rot"; "DW_OP_abs"; "DW_OP_and"; "DW_OP_div";
    "DW_OP_mul"; "DW_OP_neg"; "DW_OP_not"; "DW_OP_plus"; "DW_OP_plus_uconst"; "DW_OP_shl"; "DW_OP_shr"; "DW_OP_xor";
    "DW_OP_bra"; "DW_OP_eq"; "DW_OP_ge"; "DW_OP_lt"; "DW_OP_gt"; "DW_OP_le"; "DW_OP_ne"; "DW_OP_skip"; "DW_OP_constu";
    "DW_OP_consts"; "DW_OP_regx"; "DW_OP_bregx"; "DW_OP_fbreg"; "DW_OP_nop"; "DW_OP_push_object_address";
    "DW_OP_call_ref"; "DW_OP_form_tls_address"; "DW_OP_stack_value" ].
(** The texts for the other operations: other names of DWARF, and no two alike. *)
Record more_names (other : Z -> string) : Prop := MoreNames {
  mn_dwarf : forall c, exists t, other c = "DW_OP_" ++ t;
  mn_new : forall c, ~ In (lead_word (other c)) dump_names;
  mn_apart : forall c c', other c = other c' -> c = c' }.

(** ** Results *)

(** The same, unless the second is a panic. *)
Definition same_or_panic {E A} (o o' : outcome E A) : Prop := o' = Panic \/ o = o'.
