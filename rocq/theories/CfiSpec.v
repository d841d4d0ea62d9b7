(** Call frame programs as the DWARF standard (version 5, 6.4.2 and 6.4.3) defines
    them: which rules are in force at an address, and the table of all of them.
    gimli, which evaluates them for the converters, is not part of the repository;
    theorems that use this file say where they assume that it follows the standard. *)
From Verif Require Export RelateSpec.
Open Scope Z_scope.
Open Scope list_scope.

(** What a CIE fixes for its functions. *)
Record cie_info : Type := Cie {
  ci_code_align : Z;
  ci_data_align : Z;
  ci_initial : list insn }.

(** The current row: how to find the CFA, if that has been said, and the rules of
    the registers.  A register without a rule is undefined. *)
Record cfi_state : Type := CfiState {
  cs_cfa : option cfa_rule;
  cs_regs : list (Z * reg_rule) }.

Definition set_cfa (c : cfa_rule) (st : cfi_state) : option cfi_state := Some (CfiState (Some c) (cs_regs st)).
Definition set_rule (reg : Z) (rule : reg_rule) (st : cfi_state) : option cfi_state :=
  Some (CfiState (cs_cfa st) ((reg, rule) :: cs_regs st)).

(** [DW_CFA_advance_loc] and [DW_CFA_set_loc] end a row; where the next begins. *)
Definition next_loc (c : cie_info) (loc : Z) (i : insn) : option Z :=
  match i with
  | IAdvanceLoc delta => Some (loc + delta * ci_code_align c)
  | ISetLoc a => Some a
  | _ => None
  end.

(** RA_SIGN_STATE, a pseudo-register of AArch64. *)
Definition ra_sign_state : Z := 34.

(** Any other instruction changes the row or the stack of remembered rows.
    [initial] are the rules after the CIE's instructions. *)
Definition cfi_step (c : cie_info) (initial : option cfi_state) (i : insn)
    (stack : list cfi_state) (st : cfi_state) : option (list cfi_state * cfi_state) :=
  let keep := option_map (fun st' => (stack, st')) in
  match i with
  | IDefCfa r o => keep (set_cfa (CfaReg r o) st)
  | IDefCfaSf r o => keep (set_cfa (CfaReg r (o * ci_data_align c)) st)
  | IDefCfaRegister r =>
      match cs_cfa st with Some (CfaReg _ o) => keep (set_cfa (CfaReg r o) st) | _ => None end
  | IDefCfaOffset o =>
      match cs_cfa st with Some (CfaReg r _) => keep (set_cfa (CfaReg r o) st) | _ => None end
  | IDefCfaOffsetSf o =>
      match cs_cfa st with
      | Some (CfaReg r _) => keep (set_cfa (CfaReg r (o * ci_data_align c)) st)
      | _ => None
      end
  | IDefCfaExpression x => keep (set_cfa (CfaExpression x) st)
  | IUndefined r => keep (set_rule r RUndefined st)
  | ISameValue r => keep (set_rule r RSameValue st)
  | IOffset r o | IOffsetExtendedSf r o => keep (set_rule r (ROffset (o * ci_data_align c)) st)
  | IValOffset r o | IValOffsetSf r o => keep (set_rule r (RValOffset (o * ci_data_align c)) st)
  | IRegister r r' => keep (set_rule r (RRegister r') st)
  | IExpression r x => keep (set_rule r (RExpression x) st)
  | IValExpression r x => keep (set_rule r (RValExpression x) st)
  | IRestore r =>
      match initial with Some st0 => keep (set_rule r (rule_lookup r (cs_regs st0)) st) | None => None end
  | IRememberState => Some (st :: stack, st)
  | IRestoreState => match stack with st' :: stack' => Some (stack', st') | [] => None end
  | INegateRaState =>
      match rule_lookup ra_sign_state (cs_regs st) with
      | RUndefined => keep (set_rule ra_sign_state (RConstant 1) st)
      | RConstant v => keep (set_rule ra_sign_state (RConstant (Z.lxor v 1)) st)
      | _ => None
      end
  | IArgsSize _ | INop => keep (Some st)
  | ISetLoc _ | IAdvanceLoc _ | IOther _ => None
  end.

(** The CIE's instructions. *)
Fixpoint cfi_initial (c : cie_info) (l : list insn) (stack : list cfi_state) (st : cfi_state) : option cfi_state :=
  match l with
  | [] => Some st
  | i :: t =>
      match cfi_step c None i stack st with
      | Some (stack', st') => cfi_initial c t stack' st'
      | None => None
      end
  end.

(** The rules in force at [x] (6.4.3): carry out instructions until one would
    move beyond [x]. *)
Fixpoint cfi_until (c : cie_info) (initial : cfi_state) (x : Z) (l : list insn) (loc : Z)
    (stack : list cfi_state) (st : cfi_state) : option cfi_state :=
  match l with
  | [] => Some st
  | i :: t =>
      match next_loc c loc i with
      | Some loc' => if x <? loc' then Some st else cfi_until c initial x t loc' stack st
      | None =>
          match cfi_step c (Some initial) i stack st with
          | Some (stack', st') => cfi_until c initial x t loc stack' st'
          | None => None
          end
      end
  end.
Definition cfi_at (c : cie_info) (f : dw_fde) (x : Z) : option cfi_state :=
  match cfi_initial c (ci_initial c) [] (CfiState None []) with
  | Some st0 => cfi_until c st0 x (is_list (df_insns f)) (df_start f) [] st0
  | None => None
  end.

(** The table: one row per stretch between two moves.  Locations may not go
    back nor leave the function, and every row must say where the CFA is. *)
Definition row_at (a b : Z) (st : cfi_state) : option dw_row :=
  option_map (fun c => DwRow a b c (cs_regs st)) (cs_cfa st).
Fixpoint cfi_rows (c : cie_info) (initial : cfi_state) (last : Z) (l : list insn) (loc : Z)
    (stack : list cfi_state) (st : cfi_state) : option (list dw_row) :=
  match l with
  | [] => option_map (fun r => [r]) (row_at loc last st)
  | i :: t =>
      match next_loc c loc i with
      | Some loc' =>
          if (loc <=? loc') && (loc' <=? last) then
            match row_at loc loc' st, cfi_rows c initial last t loc' stack st with
            | Some r, Some rows => Some (r :: rows)
            | _, _ => None
            end
          else None
      | None =>
          match cfi_step c (Some initial) i stack st with
          | Some (stack', st') => cfi_rows c initial last t loc stack' st'
          | None => None
          end
      end
  end.
Definition cfi_table (c : cie_info) (f : dw_fde) : option (list dw_row) :=
  match is_end (df_insns f), cfi_initial c (ci_initial c) [] (CfiState None []) with
  | None, Some st0 => cfi_rows c st0 (df_start f + df_len f) (is_list (df_insns f)) (df_start f) [] st0
  | _, _ => None
  end.

(** Rows that agree, whatever the order in which they list their registers. *)
Definition same_row (r r' : dw_row) : Prop :=
  dr_start r = dr_start r' /\ dr_end r = dr_end r' /\ dr_cfa r = dr_cfa r' /\
  forall reg, dr_register r reg = dr_register r' reg.

(** gimli evaluated the program of [f] as the standard says. *)
Definition follows_dwarf (c : cie_info) (f : dw_fde) : Prop :=
  exists l rows, df_rows f = inl (DwRows l None) /\ cfi_table c f = Some rows /\ Forall2 same_row l rows.

(** The rules of a state as a row. *)
Definition as_row (st : cfi_state) : dw_row :=
  DwRow 0 1 match cs_cfa st with Some c => c | None => CfaReg 0 0 end (cs_regs st).

(** Two programs for the same addresses with the same effect everywhere, as far
    as an SFrame row can express it. *)
Definition effect_alike (same : dw_row -> dw_row -> Prop) (c c' : cie_info) (f f' : dw_fde) : Prop :=
  df_start f' = df_start f /\ df_len f' = df_len f /\
  forall x st st', in_range (df_start f) (df_len f) x ->
    cfi_at c f x = Some st -> cfi_at c' f' x = Some st' -> same (as_row st) (as_row st').
Definition same_effect (a : arch) : cie_info -> cie_info -> dw_fde -> dw_fde -> Prop := effect_alike (same_rule a).

(** Every move goes forward: needed by the first converter. *)
Definition advances (c : cie_info) (f : dw_fde) : Prop :=
  exists rows, cfi_table c f = Some rows /\ forall r, In r rows -> dr_start r < dr_end r.

(** The functions of two sections correspond, and so do their programs. *)
Definition same_programs (same : dw_row -> dw_row -> Prop) (ok : cie_info -> dw_fde -> Prop) (eh eh' : eh_frame) : Prop :=
  (forall f, last_at eh f -> exists c f' c', ok c f /\ last_at eh' f' /\ ok c' f' /\ effect_alike same c c' f f') /\
  (forall f', last_at eh' f' -> exists c' f c, ok c' f' /\ last_at eh f /\ ok c f /\ effect_alike same c c' f f').

(** Wherever the program gives a rule an SFrame row can express, the return address
    is where the section's header says, if it says. *)
Definition ra_fixed (a : arch) (fixed : option Z) (c : cie_info) (f : dw_fde) : Prop :=
  forall x st base cfa ra fp o, in_range (df_start f) (df_len f) x -> cfi_at c f x = Some st ->
    representable a (as_row st) base cfa ra fp -> fixed = Some o -> ra = o.

(** A function of ordinary size that a section can describe. *)
Definition ordinary (op : options) (eh : eh_frame) (f : dw_fde) : Prop :=
  df_start f <= i32_max /\ df_len f <= 0x10000000 /\
  exists c, follows_dwarf c f /\ ra_fixed (op_arch op) (fixed_ra_of op eh) c f.

(** ** Counting *)

Definition function_count (eh : eh_frame) : Z := zlen (functions (entries_of eh)).
(** Rows of some width in all tables. *)
Definition table_rows (eh : eh_frame) : Z := sumz (map (fun f => zlen (wide_rows f)) (functions (entries_of eh))).

(** Small enough for the header's sizes. *)
Definition countable (functions rows : Z) : Prop := 20 * functions <= u32_max /\ 17 * rows <= u32_max.
(** No function starts inside another. *)
Definition apart (eh : eh_frame) : Prop :=
  forall f f', last_at eh f -> last_at eh f' -> df_start f <> df_start f' -> ~ in_range (df_start f) (df_len f) (df_start f').
(** No rule of the program has offsets that an SFrame row confuses (C49). *)
Definition unconfused (a : arch) (fixed : option Z) (c : cie_info) (f : dw_fde) : Prop :=
  forall x st, in_range (df_start f) (df_len f) x -> cfi_at c f x = Some st -> ~ clash a fixed (as_row st).

(** The same for the first converter, which keeps rows of no width and whose header
    fixes no return address. *)
Definition v1_rows_total (ents : dw_entries) : Z := sumz (map (fun f => zlen (dw_rows_of f)) (functions (ents_list ents))).
Definition v1_ordinary (print_ok : dw_row -> bool) (f : dw_fde) : Prop :=
  df_start f <= i32_max /\ df_len f <= 0x10000000 /\ df_dump f = None /\
  (exists c, follows_dwarf c f /\ advances c f) /\ forall r, In r (dw_rows_of f) -> print_ok r = true.
Definition v1_unconfused (c : cie_info) (f : dw_fde) : Prop :=
  forall x st, in_range (df_start f) (df_len f) x -> cfi_at c f x = Some st -> ~ v1_clash (as_row st).
