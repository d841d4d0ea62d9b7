(** Specification of stack walks: what a return address, a stack pointer and a
    frame pointer become when a stack is unwound by the rules of DWARF, and when
    it is unwound with an SFrame section as the documentation of
    [FrameRowEntry] says (sframe/src/read.rs:498-511). *)
From Verif Require Export ToolsSpec.

(** ** The machine *)

(** 64-bit addition. *)
Definition plus64 (x o : Z) : Z := as_u 64 (x + o).

(** What does not change during a walk.  Nothing is assumed of any of it. *)
Record world : Type := World {
  (** the word at an address, if it can be read *)
  w_mem : Z -> option Z;
  (** the value of a DWARF expression, given what is on the stack in the
      beginning and the registers *)
  w_eval : expression -> option Z -> (Z -> option Z) -> option Z;
  (** a signed return address without its signature *)
  w_strip : Z -> Z;
  (** the address that is looked up for a frame: [true] for the innermost.  For
      the others it is usually one less, as the call may be the last instruction
      of a function; and the file may be loaded anywhere. *)
  w_look : bool -> Z -> Z;
  (** whether a register without a rule keeps its value, or is unknown *)
  w_keep : bool }.

(** ** Unwinding with DWARF *)

Record dw_frame : Type := DwFrame {
  dx_first : bool;
  dx_pc : Z;
  dx_regs : Z -> option Z }.

Definition bind_opt {A B} (o : option A) (f : A -> option B) : option B :=
  match o with Some a => f a | None => None end.

Definition cfa_value (w : world) (r : dw_row) (regs : Z -> option Z) : option Z :=
  match dr_cfa r with
  | CfaReg reg o => option_map (fun v => plus64 v o) (regs reg)
  | CfaExpression x => w_eval w x None regs
  end.

(** The caller's value of a register (DWARF 5, section 6.4.1). *)
Definition rule_value (w : world) (cfa : Z) (regs : Z -> option Z) (reg : Z) (rule : reg_rule) : option Z :=
  match rule with
  | RUndefined => if w_keep w then regs reg else None
  | RSameValue => regs reg
  | ROffset o => w_mem w (plus64 cfa o)
  | RValOffset o => Some (plus64 cfa o)
  | RRegister r => regs r
  | RExpression x => bind_opt (w_eval w x (Some cfa) regs) (w_mem w)
  | RValExpression x => w_eval w x (Some cfa) regs
  | RArchitectural => None
  | RConstant c => Some c
  end.

(** The CFA is the caller's stack pointer, unless a rule says otherwise. *)
Definition caller_value (w : world) (a : arch) (r : dw_row) (cfa : Z) (regs : Z -> option Z) (reg : Z) : option Z :=
  match dr_register r reg with
  | RUndefined => if reg =? reg_sp a then Some cfa else rule_value w cfa regs reg RUndefined
  | rule => rule_value w cfa regs reg rule
  end.

(** On AArch64 the return address can be signed. *)
Definition signed_row (a : arch) (r : dw_row) : Prop := a = Aarch64 /\ ra_signed r.

(** From a frame to its caller.  [says] gives the row for an address, and the
    register that holds the return address (which is named by the CIE). *)
Definition dw_step (w : world) (a : arch) (says : Z -> dw_row -> Z -> Prop) (x y : dw_frame) : Prop :=
  exists r column cfa v,
    says (w_look w (dx_first x) (dx_pc x)) r column /\
    cfa_value w r (dx_regs x) = Some cfa /\
    caller_value w a r cfa (dx_regs x) column = Some v /\
    dx_first y = false /\
    (signed_row a r -> dx_pc y = w_strip w v) /\ (~ signed_row a r -> dx_pc y = v) /\
    forall reg, dx_regs y reg = caller_value w a r cfa (dx_regs x) reg.

(** The rows of [.eh_frame], and the return address register of each function's
    CIE ([gimli::CommonInformationEntry::return_address_register]), which none
    of the converters looks at. *)
Definition dw_says (eh : eh_frame) (column : dw_fde -> Z) (a : Z) (r : dw_row) (c : Z) : Prop :=
  exists f, last_at eh f /\ in_range (df_start f) (df_len f) a /\ In r (dw_rows_of f) /\
    dr_start r <= a < dr_end r /\ c = column f.

(** ** Unwinding with SFrame *)

Record sf_frame : Type := SfFrame {
  sx_first : bool;
  sx_pc : Z;
  sx_sp : Z;
  sx_fp : option Z }.

Definition sf_base (x : sf_frame) (b : base_reg) : option Z := match b with Sp => Some (sx_sp x) | Fp => sx_fp x end.

(** From a frame to its caller; [tells] gives the unwinding for an address. *)
Definition sf_step (w : world) (tells : Z -> unwind -> Prop) (x y : sf_frame) : Prop :=
  exists u b c o v,
    tells (w_look w (sx_first x) (sx_pc x)) u /\
    sf_base x (uw_base u) = Some b /\ uw_cfa u = Some c /\ uw_ra u = Some o /\
    w_mem w (plus64 (plus64 b c) o) = Some v /\
    sx_first y = false /\
    sx_pc y = (if uw_mangled u then w_strip w v else v) /\
    sx_sp y = plus64 b c /\
    sx_fp y = match uw_fp u with Some f => w_mem w (plus64 (plus64 b c) f) | None => sx_fp x end.

(** ** Walks *)

(** [walk step x l]: [l] are the frames after [x], one step each. *)
Inductive walk {A} (step : A -> A -> Prop) : A -> list A -> Prop :=
| walk_end x : walk step x []
| walk_step x y l : step x y -> walk step y l -> walk step x (y :: l).

(** The two walks are at the same point: same address, same stack pointer, and
    what DWARF knows of the frame pointer. *)
Definition same_point (a : arch) (x : dw_frame) (y : sf_frame) : Prop :=
  sx_first y = dx_first x /\ sx_pc y = dx_pc x /\
  dx_regs x (reg_sp a) = Some (sx_sp y) /\
  forall v, dx_regs x (reg_fp a) = Some v -> sx_fp y = Some v.
(** The same with everything known to both or to none. *)
Definition same_point_exact (a : arch) (x : dw_frame) (y : sf_frame) : Prop :=
  sx_first y = dx_first x /\ sx_pc y = dx_pc x /\
  dx_regs x (reg_sp a) = Some (sx_sp y) /\ dx_regs x (reg_fp a) = sx_fp y.

(** A walk with [tells] goes the way that [says] goes, and stops early only at a
    row that SFrame cannot express. *)
Definition same_walks (w : world) (a : arch) (says : Z -> dw_row -> Z -> Prop) (tells : Z -> unwind -> Prop) : Prop :=
  (forall x y l, same_point a x y -> walk (dw_step w a says) x l ->
     exists l1 l2 m, l = l1 ++ l2 /\ walk (sf_step w tells) y m /\ Forall2 (same_point a) l1 m /\
       (l2 = [] \/
        exists r c, says (w_look w (sx_first (last m y)) (sx_pc (last m y))) r c /\ unrepresentable a r /\
          forall z, ~ sf_step w tells (last m y) z)) /\
  (w_keep w = true -> forall x y m, same_point_exact a x y -> walk (sf_step w tells) y m ->
     exists l, walk (dw_step w a says) x l /\ Forall2 (same_point_exact a) l m).

(** ** Rows for which SFrame says all there is to say *)

(** If the row is converted at all: no rule for the stack pointer, the return
    address in the usual register and not signed. *)
Definition plain_row (a : arch) (r : dw_row) (column : Z) : Prop :=
  (exists base cfa ra fp, representable a r base cfa ra fp) ->
  (dr_register r (reg_sp a) = RUndefined \/ dr_register r (reg_sp a) = RValOffset 0) /\
  column = reg_ra a /\ ~ signed_row a r.

(** The rows of a function cover it. *)
Definition rows_cover (f : dw_fde) : Prop :=
  forall x, in_range (df_start f) (df_len f) x -> exists r, In r (dw_rows_of f) /\ dr_start r <= x < dr_end r.

(** The rule for the frame pointer is one that SFrame can express, or anything
    if the row is not converted. *)
Definition plain_fp (r : dw_row) : Prop :=
  forall base cfa ra, v1_representable r base cfa ra None ->
    dr_register r (reg_fp Amd64) = RSameValue \/ dr_register r (reg_fp Amd64) = RUndefined.

(** ** The two converters *)

(** The row in effect at an address: the last one that starts there or before. *)
Definition current_row (f : dw_fde) (a : Z) (r : dw_row) : Prop :=
  In r (dw_rows_of f) /\ dr_start r <= a /\ forall r', In r' (dw_rows_of f) -> dr_start r' <= a -> dr_start r' <= dr_start r.

(** An unwinder does the same with both: it is told the same, or cannot go on. *)
Definition agree (u1 u2 : unwind) : Prop := u1 = u2 \/ uw_cfa u1 = None /\ uw_cfa u2 = None.

(** The frame pointer is neither unchanged nor saved at an offset. *)
Definition odd_fp_rule (r : dw_row) : Prop :=
  match dr_register r (reg_fp Amd64) with
  | RUndefined | RSameValue | ROffset _ => False
  | _ => True
  end.
