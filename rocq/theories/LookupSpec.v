(** What occurs in the statements about look-ups in sections of several functions
    (C65, C135). *)
From Verif Require Export SectionSpec ConvSpec.

(** The rows of all functions, in the order in which they are stored. *)
Definition stored_rows (s : sfb) : list row := flat_map rows_of (fdes_of s).
(** All functions store the starts of their rows in the same number of bytes as [b]. *)
Definition uniform (s : sfb) (b : fdb) : Prop :=
  forall c, In c (fdes_of s) -> start_width (rows_of c) = start_width (rows_of b).

(** The first row of the section starts its function; no function has blocks of size 0. *)
Definition plainly_built (s : sfb) : Prop :=
  (forall b c, In b (fdes_of s) -> In c (fdes_of s) -> start_width (rows_of b) = start_width (rows_of c)) /\
  (forall b, In b (fdes_of s) -> fb_rep_size b <> Some 0) /\
  (forall r rest, stored_rows s = r :: rest -> r_start r = 0).

(** The rows of the function begin where it begins, and start within 127 bytes. *)
Definition rows_near (f : dw_fde) : Prop :=
  (wide_rows f = [] \/ exists r, In r (wide_rows f) /\ dr_start r = df_start f) /\
  forall r, In r (wide_rows f) -> dr_start r - df_start f <= 127.
