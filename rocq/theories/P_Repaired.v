(** C65 with the look-ups repaired: what would have to be changed. *)
From Verif Require Import RepairedWitness.
From Verif Require Import EmitWitness LookupWitness StdSpec.

(** * C65 Looking up an address in a built section gives the row asked for *)

(** With the four repairs of [Repaired.v] to the reader the statement holds wherever the
    writer stored the rows asked for. *)
Theorem C65_repaired_partial : forall md md' e s bs sf a,
  sfb_reach md s -> build md e s = Ok bs -> wf_mode md' -> rust_slice md' bs -> load md' e bs = Ok sf -> in_i32 a ->
  (forall b, In b (fdes_of s) -> in_range (fb_start b) (fb_size b) a ->
     rows_inside b /\ fb_rep_size b <> Some 0 /\ forall r, In r (rows_of b) -> ~ tied r /\ ~ ambiguous (sb_options s) r) ->
  (forall u, lookup_with all_repairs md' e sf a = Ok (Some u) <-> asked_at s a u) /\
  (lookup_with all_repairs md' e sf a = Ok None <-> forall u, ~ asked_at s a u).
Proof. exact repaired_built. Qed.
Print Assumptions C65_repaired_partial.

(** Each repair is needed though the other three are made. *)
Theorem C65_needed_refuted : forall e,
  (sfb_reach rel64 demo_sfb /\ build rel64 e demo_sfb = Ok (demo e) /\ load rel64 e (demo e) = Ok (demo_sf e)) /\
  (asked_at demo_sfb 0x100 first_row /\ lookup_with but_order rel64 e (demo_sf e) 0x100 = Ok None /\
     lookup_with all_repairs rel64 e (demo_sf e) 0x100 = Ok (Some first_row)) /\
  (asked_at demo_sfb 0x204 (Unwind Sp false (Some 24) (Some (-8)) (Some (-16))) /\
     lookup_with but_rows rel64 e (demo_sf e) 0x204 = Ok (Some first_row) /\
     lookup_with all_repairs rel64 e (demo_sf e) 0x204 = Ok (Some (Unwind Sp false (Some 24) (Some (-8)) (Some (-16))))) /\
  (asked_at demo_sfb 0x104 second_row /\ lookup_with but_pick rel64 e (demo_sf e) 0x104 = Ok (Some first_row) /\
     lookup_with all_repairs rel64 e (demo_sf e) 0x104 = Ok (Some second_row)) /\
  (sfb_reach rel64 gap_sfb /\ build rel64 e gap_sfb = Ok (section e gap_sfb) /\
     load dev64 e (section e gap_sfb) = Ok (sf_of e (section e gap_sfb)) /\
     lookup_with but_sub dev64 e (sf_of e (section e gap_sfb)) 0x50 = Panic /\
     lookup_with all_repairs dev64 e (sf_of e (section e gap_sfb)) 0x50 = Ok None).
Proof. exact repairs_needed. Qed.
Print Assumptions C65_needed_refuted.

(** Without repairs it is the reader as it is. *)
Theorem C65_unrepaired_case : forall md e sf a, lookup_with no_repairs md e sf a = lookup md e sf a.
Proof. exact lookup_unrepaired. Qed.

Theorem C65_repaired_case : forall e,
  sfb_reach rel64 stub_sfb /\ build rel64 e stub_sfb = Ok (stub_bytes e) /\
  wf_mode rel64 /\ rust_slice rel64 (stub_bytes e) /\ load rel64 e (stub_bytes e) = Ok (stub_sf e) /\
  (forall b, In b (fdes_of stub_sfb) ->
     rows_inside b /\ fb_rep_size b <> Some 0 /\ forall r, In r (rows_of b) -> ~ tied r /\ ~ ambiguous (sb_options stub_sfb) r) /\
  lookup_with all_repairs rel64 e (stub_sf e) 0x104 = Ok (Some second_row) /\
  lookup_with all_repairs rel64 e (stub_sf e) 0x41b = Ok (Some first_row) /\
  lookup_with all_repairs rel64 e (stub_sf e) 0x41d = Ok (Some second_row) /\
  lookup_with all_repairs rel64 e (stub_sf e) 0x420 = Ok None.
Proof. exact repaired_case. Qed.
