(** Programs with right call frame information for every instruction (C159): everything that a
    conversion of the code of C158 could need. *)
From Verif Require Export CodeSpec.
Open Scope Z_scope.
Open Scope list_scope.

(** A function consists of its instructions. *)
Definition tiled (f : routine) : Prop :=
  forall b, 0 <= b < rt_len f -> exists i, In i (rt_items f) /\ it_at i <= b < it_at i + it_len i.

(** An entry for every function and no others; gimli can print them and evaluates their programs as
    the standard says; none has a rule for the stack pointer, which is the CFA (6.4.4). *)
Definition entry_for (cie : dw_fde -> cie_info) (f : routine) (d : dw_fde) : Prop :=
  df_start d = rt_start f /\ df_len d = rt_len f /\ df_dump d = None /\ follows_dwarf (cie d) d /\
  forall x st, in_range (df_start d) (df_len d) x -> cfi_at (cie d) d x = Some st -> dr_register (as_row st) 7 = RUndefined.
Definition code_written (fs : list routine) (eh : eh_frame) (cie : dw_fde -> cie_info) : Prop :=
  ents_end (eh_entries eh) = None /\ (forall g, ~ In (DwBadFde g) (entries_of eh)) /\
  Forall2 (entry_for cie) fs (functions (entries_of eh)) /\ code_described eh cie fs.

(** The CFA is claimed to be nowhere below the stack or frame pointer. *)
Definition upright (f : routine) : Prop :=
  forall i d, In i (rt_items f) -> vw_sp (rt_view f (it_at i)) = Some d \/ vw_fp (rt_view f (it_at i)) = Some d -> 0 <= d.

(** Code that passes the check, of the size that a section can describe. *)
Definition of_size (fs : list routine) : Prop :=
  (forall f, In f fs -> checked f /\ tiled f /\ upright f /\ rt_start f + rt_len f <= i32_max /\ rt_len f <= 0x10000000) /\
  NoDup fs /\ routines_apart fs /\ 20 * zlen fs <= u32_max /\ 17 * sumz (map rt_len fs) <= u32_max.

(** Every row of a program has some width (needed by the first converter). *)
Definition no_empty_rows (eh : eh_frame) (cie : dw_fde -> cie_info) : Prop := forall d, last_at eh d -> advances (cie d) d.
