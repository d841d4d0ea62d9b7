(** What the repaired [build] of WriteRepaired.v is meant to write. *)
From Verif Require Export StdSpec WriteRepaired.

(** The smallest width that holds every offset of a row. *)
Definition all_storable (w : Z) (r : row) : Prop := Forall (storable w) (stored_values r).
Definition smallest_width (r : row) (w : Z) : Prop :=
  In w [1; 2; 4] /\ all_storable w r /\ forall w', In w' [1; 2; 4] -> all_storable w' r -> w <= w'.

(** A row as it was given. *)
Definition exact_row (r : row) : spec_row :=
  {| sr_start := r_start r;
     sr_base_is_sp := match r_base r with Sp => true | Fp => false end;
     sr_mangled := r_mangled r;
     sr_offsets := stored_values r |}.

(** The sizes. *)
Definition needed (r : row) : Z :=
  if forallb (storableb 1) (stored_values r) then 1
  else if forallb (storableb 2) (stored_values r) then 2 else 4.
Definition exact_row_size (aw : Z) (r : row) : Z := aw + 1 + zlen (stored_values r) * needed r.
Definition exact_fde_size (b : fdb) : Z := sumz (map (exact_row_size (start_width (rows_of b))) (rows_of b)).
Definition exact_fre_size (s : sfb) : Z := sumz (map exact_fde_size (fdes_of s)).
Definition exact_off (l : list fdb) (i : nat) : Z := sumz (map exact_fde_size (firstn i l)).
Definition exact_too_large (s : sfb) : Prop := u32_max < exact_fre_size s \/ u32_max < 20 * zlen (fdes_of s).

(** The info byte of the specification: FRE type in bits 0-3, FDE type in bit 4, key
    in bit 5. *)
Definition std_info_of (b : fdb) : Z :=
  (match fb_pauth b with KeyA => 0 | KeyB => 32 end) +
  (match fb_rep_size b with Some _ => 16 | None => 0 end) +
  (if start_width (rows_of b) =? 1 then 0 else if start_width (rows_of b) =? 2 then 1 else 2).
Definition exact_descriptor (l : list fdb) (i : nat) (b : fdb) : spec_fde :=
  {| sd_start := fb_start b; sd_size := fb_size b; sd_fre_off := exact_off l i;
     sd_num_fres := zlen (rows_of b); sd_info := std_info_of b;
     sd_rep := Some (match fb_rep_size b with Some rep => rep | None => 0 end) |}.

(** What the format cannot say. *)
Definition unsayable (s : sfb) : Prop :=
  exists b, In b (fdes_of s) /\
    (fb_rep_size b = Some 0 \/ exists r, In r (rows_of b) /\ ambiguous (sb_options s) r).

(** Sections for which [build] is right already. *)
Definition untouched (s : sfb) : Prop :=
  ~ unsayable s /\ (forall b, In b (fdes_of s) -> ordinary_function b) /\
  forall b r, In b (fdes_of s) -> In r (rows_of b) -> ~ tied r.
