(** What the repaired converter of ConvRepaired.v is meant to do. *)
From Verif Require Export WalkSpec StdSpec ConvRepaired WriteRepaired ReadRepaired.

(** ** Rows *)

(** All that SFrame can say of a DWARF row: CFA = SP or FP plus [cfa]; the caller's SP is the
    CFA; RA is saved at CFA+[ra] or, on AArch64, in its register; FP is saved at CFA+[fp] or
    not saved; and whether RA is signed. *)
Definition expressible (a : arch) (r : dw_row) (column : Z) (base : base_reg) (mangled : bool) (cfa : Z)
  (ra fp : option Z) : Prop :=
  dr_cfa r = CfaReg (reg_base a base) cfa /\ in_i32 cfa /\
  (dr_register r (reg_sp a) = RUndefined \/ dr_register r (reg_sp a) = RValOffset 0) /\
  column = reg_ra a /\
  (mangled = true <-> signed_row a r) /\
  match fp with
  | Some o => dr_register r (reg_fp a) = ROffset o /\ in_i32 o
  | None => dr_register r (reg_fp a) = RSameValue \/ dr_register r (reg_fp a) = RUndefined
  end /\
  match ra with
  | Some o => dr_register r (reg_ra a) = ROffset o /\ in_i32 o
  | None => a = Aarch64 /\ fp = None /\
      (dr_register r (reg_ra a) = RSameValue \/ dr_register r (reg_ra a) = RUndefined)
  end.
Definition inexpressible (a : arch) (r : dw_row) (column : Z) : Prop :=
  forall base mangled cfa ra fp, ~ expressible a r column base mangled cfa ra fp.

(** What an unwinder must be told for it. *)
Definition conveys (a : arch) (r : dw_row) (column : Z) (u : unwind) : Prop :=
  (forall base mangled cfa ra fp, expressible a r column base mangled cfa ra fp ->
     u = Unwind base mangled (Some cfa) ra fp) /\
  (inexpressible a r column -> uw_cfa u = None /\ uw_mangled u = false).

(** ** What is at fault *)

(** The first of these that holds of a row after the rows [before] of the same function;
    [fixed] is the RA offset of the header. *)
Definition row_faults (a : arch) (fixed : option Z) (column : Z) (f : dw_fde) (before : list dw_row) (r : dw_row)
  : list (Prop * repair_error) :=
  [ (dr_start r < df_start f, RowInFront (dr_start r));
    (i32_max <= off f r, AsBefore (InvalidRowOffset (dr_start r) (off f r)));
    (0x10000000 <= off f r, RowRefused (dr_start r) StartAddressTooLarge);
    (df_len f <= off f r, RowRefused (dr_start r) StartAddressOutsideFde);
    (exists base mangled cfa ra fp x, expressible a r column base mangled cfa (Some ra) fp /\ fixed = Some x /\ ra <> x,
       RowRefused (dr_start r) UnexpectedRaOffset);
    (exists r', In r' before /\ wide r' /\ dr_start r' = dr_start r, RowRefused (dr_start r) DuplicateRow) ].

(** [er] belongs to the first fault. *)
Fixpoint first_fault (l : list (Prop * repair_error)) (er : repair_error) : Prop :=
  match l with
  | [] => False
  | (p, x) :: t => p /\ er = x \/ ~ p /\ first_fault t er
  end.
Definition no_fault (l : list (Prop * repair_error)) : Prop := Forall (fun p => ~ fst p) l.

Definition rows_faultless (a : arch) (fixed : option Z) (column : Z) (f : dw_fde) (l : list dw_row) : Prop :=
  forall pre r post, l = pre ++ r :: post -> wide r -> no_fault (row_faults a fixed column f pre r).

Definition fits_section (f : dw_fde) : Prop := df_start f <= i32_max /\ df_start f + df_len f <= i32_max.

Inductive fde_fault (a : arch) (fixed : option Z) (column : dw_fde -> Z) (f : dw_fde) : repair_error -> Prop :=
| ff_start : i32_max < df_start f -> fde_fault a fixed column f (AsBefore (InvalidStartAddress (df_start f)))
| ff_end : df_start f <= i32_max -> i32_max < df_start f + df_len f ->
    fde_fault a fixed column f (AsBefore (InvalidFunctionLength (df_start f) (df_len f)))
| ff_table g : fits_section f -> df_rows f = inr g -> fde_fault a fixed column f (AsBefore (InvalidUnwindTable g))
| ff_row pre r post en er : fits_section f -> df_rows f = inl (DwRows (pre ++ r :: post) en) ->
    rows_faultless a fixed (column f) f pre -> wide r -> first_fault (row_faults a fixed (column f) f pre r) er ->
    fde_fault a fixed column f er
| ff_rest l g : fits_section f -> df_rows f = inl (DwRows l (Some g)) -> rows_faultless a fixed (column f) f l ->
    fde_fault a fixed column f (AsBefore (InvalidUnwindTable g)).
Definition fde_faultless (a : arch) (fixed : option Z) (column : dw_fde -> Z) (f : dw_fde) : Prop :=
  fits_section f /\ exists l, df_rows f = inl (DwRows l None) /\ rows_faultless a fixed (column f) f l.

Inductive entry_fault (a : arch) (fixed : option Z) (column : dw_fde -> Z) : dw_entry -> repair_error -> Prop :=
| ef_bad g : entry_fault a fixed column (DwBadFde g) (AsBefore (InvalidDwarfFde g))
| ef_fde f er : fde_fault a fixed column f er -> entry_fault a fixed column (DwGoodFde f) er.
Definition entry_faultless (a : arch) (fixed : option Z) (column : dw_fde -> Z) (x : dw_entry) : Prop :=
  match x with DwCie => True | DwBadFde _ => False | DwGoodFde f => fde_faultless a fixed column f end.

Inductive section_fault (op : options) (column : dw_fde -> Z) (eh : eh_frame) : repair_error -> Prop :=
| sf_entry pre x post er : entries_of eh = pre ++ x :: post ->
    Forall (entry_faultless (op_arch op) (fixed_ra_of op eh) column) pre ->
    entry_fault (op_arch op) (fixed_ra_of op eh) column x er -> section_fault op column eh er
| sf_rest g : Forall (entry_faultless (op_arch op) (fixed_ra_of op eh) column) (entries_of eh) ->
    ents_end (eh_entries eh) = Some g -> section_fault op column eh (AsBefore (InvalidEhFrameEntry g)).
Definition section_faultless (op : options) (column : dw_fde -> Z) (eh : eh_frame) : Prop :=
  Forall (entry_faultless (op_arch op) (fixed_ra_of op eh) column) (entries_of eh) /\ ents_end (eh_entries eh) = None.

(** The functions that count overlap. *)
Definition functions_overlap (eh : eh_frame) : Prop :=
  exists f g, last_at eh f /\ last_at eh g /\ df_start f <> df_start g /\ in_range (df_start f) (df_len f) (df_start g).

(** ** Walks *)

(** The section as it is used: look-ups with all repairs. *)
Definition looked_up_whole (md : mode) (e : endian) (sf : sframe) (a : Z) (u : unwind) : Prop :=
  in_i32 a /\ exists k, lookup_key all_rfixes md e sf a = Ok (Some (k, u)).

(** As [sf_frame], with the link register, which is known in the innermost frame only. *)
Record lk_frame : Type := LkFrame {
  lx_first : bool;
  lx_pc : Z;
  lx_sp : Z;
  lx_fp : option Z;
  lx_lr : option Z }.
Definition lk_base (x : lk_frame) (b : base_reg) : option Z := match b with Sp => Some (lx_sp x) | Fp => lx_fp x end.

(** As [sf_step]; without an RA offset the return address is in the link register. *)
Definition lk_step (w : world) (tells : Z -> unwind -> Prop) (x y : lk_frame) : Prop :=
  exists u b c v,
    tells (w_look w (lx_first x) (lx_pc x)) u /\
    lk_base x (uw_base u) = Some b /\ uw_cfa u = Some c /\
    match uw_ra u with Some o => w_mem w (plus64 (plus64 b c) o) | None => lx_lr x end = Some v /\
    lx_first y = false /\
    lx_pc y = (if uw_mangled u then w_strip w v else v) /\
    lx_sp y = plus64 b c /\
    lx_fp y = match uw_fp u with Some f => w_mem w (plus64 (plus64 b c) f) | None => lx_fp x end /\
    lx_lr y = None.

Definition same_link_point (a : arch) (x : dw_frame) (y : lk_frame) : Prop :=
  lx_first y = dx_first x /\ lx_pc y = dx_pc x /\
  dx_regs x (reg_sp a) = Some (lx_sp y) /\
  (forall v, dx_regs x (reg_fp a) = Some v -> lx_fp y = Some v) /\
  (dx_first x = true -> forall v, dx_regs x (reg_ra a) = Some v -> lx_lr y = Some v) /\
  (dx_first x = false -> lx_lr y = None).
Definition same_link_point_exact (a : arch) (x : dw_frame) (y : lk_frame) : Prop :=
  lx_first y = dx_first x /\ lx_pc y = dx_pc x /\
  dx_regs x (reg_sp a) = Some (lx_sp y) /\ dx_regs x (reg_fp a) = lx_fp y /\
  lx_lr y = (if dx_first x then dx_regs x (reg_ra a) else None).

(** SFrame cannot tell: the row is inexpressible, or the return address of a frame that is
    not the innermost is said to be in a register. *)
Definition cannot_tell (a : arch) (first : bool) (r : dw_row) (column : Z) : Prop :=
  inexpressible a r column \/
  first = false /\ exists base mangled cfa fp, expressible a r column base mangled cfa None fp.

(** As [same_walks]. *)
Definition same_link_walks (w : world) (a : arch) (says : Z -> dw_row -> Z -> Prop) (tells : Z -> unwind -> Prop) : Prop :=
  (forall x y l, same_link_point a x y -> walk (dw_step w a says) x l ->
     exists l1 l2 m, l = l1 ++ l2 /\ walk (lk_step w tells) y m /\ Forall2 (same_link_point a) l1 m /\
       (l2 = [] \/
        exists r c, says (w_look w (lx_first (last m y)) (lx_pc (last m y))) r c /\ cannot_tell a (lx_first (last m y)) r c /\
          forall z, ~ lk_step w tells (last m y) z)) /\
  (w_keep w = true -> forall x y m, same_link_point_exact a x y -> walk (lk_step w tells) y m ->
     exists l, walk (dw_step w a says) x l /\ Forall2 (same_link_point_exact a) l m).

(** ** Where the converter is right already, and where it is not *)

(** No function ends beyond [i32::MAX], rows that are converted are plain, and no row is one
    that only [fix_link] converts. *)
Definition conv_untouched (op : options) (c : dw_fde -> Z) (eh : eh_frame) : Prop :=
  forall f, In (DwGoodFde f) (entries_of eh) ->
    fits_section f /\
    forall r, In r (wide_rows f) -> plain_row (op_arch op) r (c f) /\
      forall base m cfa fp, ~ expressible (op_arch op) r (c f) base m cfa None fp.

(** Something is converted, written and read, but does not say what the row says. *)
Definition missaid (fx : cfixes) (md : mode) (e : endian) (op : options) (c : dw_fde -> Z) (eh : eh_frame) (x : Z) (r : dw_row) : Prop :=
  eh_typed eh /\ (forall f, last_at eh f -> rows_disjoint f /\ rows_cover f) /\
  exists k s bs sf, dw_says eh c x r k /\ dwarf2sframe_with fx md op c eh = Ok s /\ build_repaired md e s = Ok bs /\
    load md e bs = Ok sf /\ forall u, looked_up_whole md e sf x u -> ~ conveys (op_arch op) r k u.
