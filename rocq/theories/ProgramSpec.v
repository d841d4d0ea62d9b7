(** Walking a stack by call frame programs: the rules that the DWARF standard gives
    (CfiSpec.v) in the place of the rows that gimli makes of them. *)
From Verif Require Export CfiSpec WalkSpec ConvRepairedSpec.
Open Scope Z_scope.
Open Scope list_scope.

(** The rules in force at [x], and the return address register; [cie] and [column] are what
    the CIE of a function says. *)
Definition cfi_says (eh : eh_frame) (cie : dw_fde -> cie_info) (column : dw_fde -> Z) (x : Z) (r : dw_row) (k : Z) : Prop :=
  exists f st, last_at eh f /\ in_range (df_start f) (df_len f) x /\ cfi_at (cie f) f x = Some st /\
    r = as_row st /\ k = column f.

(** gimli evaluated every program as the standard says. *)
Definition programs_followed (eh : eh_frame) (cie : dw_fde -> cie_info) : Prop :=
  forall f, last_at eh f -> follows_dwarf (cie f) f.

(** The rules of a program are plain and not confused (C49, C94). *)
Definition plain_program (op : options) (eh : eh_frame) (cie : dw_fde -> cie_info) (column : dw_fde -> Z) (f : dw_fde) : Prop :=
  unconfused (op_arch op) (fixed_ra_of op eh) (cie f) f /\
  forall x st, in_range (df_start f) (df_len f) x -> cfi_at (cie f) f x = Some st -> plain_row (op_arch op) (as_row st) (column f).
Definition v1_plain_program (cie : dw_fde -> cie_info) (column : dw_fde -> Z) (f : dw_fde) : Prop :=
  v1_unconfused (cie f) f /\ advances (cie f) f /\
  forall x st, in_range (df_start f) (df_len f) x -> cfi_at (cie f) f x = Some st ->
    plain_row Amd64 (as_row st) (column f) /\ plain_fp (as_row st).

(** What an unwinder that follows the SFrame specification finds (StdSpec.v). *)
Definition std_tells (e : endian) (bs : bytes) (x : Z) (u : unwind) : Prop := std_says e bs x KeyA u.

(** A function that the repaired converter takes, in terms of its program. *)
Definition takeable (op : options) (eh : eh_frame) (cie : dw_fde -> cie_info) (column : dw_fde -> Z) (f : dw_fde) : Prop :=
  fits_section f /\ df_len f <= 0x10000000 /\ follows_dwarf (cie f) f /\
  forall x st base mangled cfa ra fp o, in_range (df_start f) (df_len f) x -> cfi_at (cie f) f x = Some st ->
    expressible (op_arch op) (as_row st) (column f) base mangled cfa (Some ra) fp -> fixed_ra_of op eh = Some o -> ra = o.
