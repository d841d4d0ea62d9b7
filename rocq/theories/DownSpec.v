(** Rows of stacks that grow down: the frame begins at or above the register it is
    reckoned from, and what was saved lies at or below its beginning. *)
From Verif Require Export CfiSpec.

(** A row of DWARF: .eh_frame as compilers write it for AMD64 and AArch64, where
    the stack grows down. *)
Definition downward_row (a : arch) (r : dw_row) : Prop :=
  (forall n k, dr_cfa r = CfaReg n k -> 0 <= k) /\
  forall n k, n = reg_ra a \/ n = reg_fp a -> dr_register r n = ROffset k -> k <= 0.

(** Wherever a call frame program applies, it leaves such a row. *)
Definition downward_program (a : arch) (c : cie_info) (f : dw_fde) : Prop :=
  forall x st, in_range (df_start f) (df_len f) x -> cfi_at c f x = Some st -> downward_row a (as_row st).

(** A row given to the writer of the library (write.rs:547-573). *)
Definition downward_written (r : row) : Prop :=
  forall o, r_offsets r = Some o -> 0 <= ro_cfa o /\
    (forall k, ro_ra o = Some k -> k <= 0) /\ (forall k, ro_fp o = Some k -> k <= 0).
