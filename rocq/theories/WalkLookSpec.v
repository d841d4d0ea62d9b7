(** Walking a stack by looking addresses up (C142). *)
From Verif Require Export Repaired WalkSpec.

(** What looking an address up gives, with the repairs [rp] made to the reader. *)
Definition looked_up (rp : repairs) (md : mode) (e : endian) (sf : sframe) (a : Z) (u : unwind) : Prop :=
  in_i32 a /\ lookup_with rp md e sf a = Ok (Some u).

(** No function reaches beyond the addresses that can be looked up. *)
Definition within_i32 (s : sfb) : Prop := forall b, In b (fdes_of s) -> fb_start b + fb_size b <= i32_max + 1.

(** A section of one function with one row from its start on. *)
Definition only_one_row (s : sfb) : Prop := exists b r, fdes_of s = [b] /\ rows_of b = [r] /\ r_start r = 0 /\
  ~ tied r /\ ~ ambiguous (sb_options s) r.
