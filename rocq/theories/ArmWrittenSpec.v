(** AArch64 programs with right call frame information for every instruction (C162): everything that
    a conversion of the code of C161 could need, as WrittenSpec.v for C158. *)
From Verif Require Export ArmCodeSpec.
Open Scope Z_scope.
Open Scope list_scope.

(** A function consists of its instructions. *)
Definition atiled (f : aroutine) : Prop :=
  forall b, 0 <= b < ar_len f -> exists i, In i (ar_items f) /\ ai_at i <= b < ai_at i + 4.

(** An entry for every function and no others; gimli can print them and evaluates their programs as
    the standard says. *)
Definition aentry_for (cie : dw_fde -> cie_info) (f : aroutine) (d : dw_fde) : Prop :=
  df_start d = ar_start f /\ df_len d = ar_len f /\ df_dump d = None /\ follows_dwarf (cie d) d.
Definition acode_written (fs : list aroutine) (eh : eh_frame) (cie : dw_fde -> cie_info) : Prop :=
  ents_end (eh_entries eh) = None /\ (forall g, ~ In (DwBadFde g) (entries_of eh)) /\
  Forall2 (aentry_for cie) fs (functions (entries_of eh)) /\ acode_described eh cie fs.

(** The CFA is claimed to be nowhere below the stack or frame pointer, and nothing saved above it. *)
Definition aupright (f : aroutine) : Prop :=
  forall i, In i (ar_items f) ->
    (forall a, av_sp (ar_view f (ai_at i)) = Some a \/ av_fp (ar_view f (ai_at i)) = Some a -> 0 <= a) /\
    (forall k, In k (slots (ar_view f (ai_at i))) -> k <= 0).

(** Code that passes the check, of the size that a section can describe. *)
Definition aof_size (fs : list aroutine) : Prop :=
  (forall f, In f fs -> achecked f /\ atiled f /\ ar_start f + ar_len f <= i32_max /\ ar_len f <= 0x10000000) /\
  NoDup fs /\ aroutines_apart fs /\ 20 * zlen fs <= u32_max /\ 17 * sumz (map ar_len fs) <= u32_max.
