(** Sections in which an unwinder that follows the specification can tell what holds at an
    address. *)
From Coq Require Import Sorted.
From Verif Require Export StdSpec ReadSpec ReadRepaired.

Definition starts_ascend (rows : list spec_row) : Prop := StronglySorted (fun r r' => sr_start r < sr_start r') rows.

(** The functions at [a] have readable rows with ascending starts, and blocks of size
    other than zero. *)
Definition legible (e : endian) (bs : bytes) (a : Z) : Prop :=
  forall i, 0 <= i < spec_num_fdes e bs -> in_range (sd_start (spec_entry e bs i)) (sd_size (spec_entry e bs i)) a ->
    (exists rows, std_rows e bs (spec_entry e bs i) rows /\ starts_ascend rows) /\
    std_offset (spec_entry e bs i) a <> None.

(** Functions are not on top of each other, and are in order if the flag says so. *)
Definition laid_out (e : endian) (bs : bytes) : Prop :=
  if is_sorted_flag bs then sorted_disjoint e bs
  else forall i j a, 0 <= i < spec_num_fdes e bs -> 0 <= j < spec_num_fdes e bs ->
    in_range (sd_start (spec_entry e bs i)) (sd_size (spec_entry e bs i)) a ->
    in_range (sd_start (spec_entry e bs j)) (sd_size (spec_entry e bs j)) a -> i = j.

(** An answer or an error of the section. *)
Definition answered {A} (o : outcome (fuel_error + read_error) A) : Prop :=
  match o with Ok _ | Err (inr _) => True | _ => False end.
