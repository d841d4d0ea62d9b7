(** The repairs of the look-ups on concrete sections. *)
From Verif Require Export RepairedFacts IterLookWitness.
From Verif Require Import LookupWitness EmitWitness.

Definition but_order : repairs := Repairs false true true true.
Definition but_rows : repairs := Repairs true false true true.
Definition but_pick : repairs := Repairs true true false true.
Definition but_sub : repairs := Repairs true true true false.

Ltac repeat_asked :=
  split; [vm_compute; auto|]; split; [vm_compute; split; [discriminate|reflexivity]|]; split; [in_effect_by_cases|reflexivity].

(** Each of the repairs is needed though the other three are made. *)
Theorem repairs_needed e :
  (sfb_reach rel64 demo_sfb /\ build rel64 e demo_sfb = Ok (demo e) /\ load rel64 e (demo e) = Ok (demo_sf e)) /\
  (asked_at demo_sfb 0x100 first_row /\ lookup_with but_order rel64 e (demo_sf e) 0x100 = Ok None /\
     lookup_with all_repairs rel64 e (demo_sf e) 0x100 = Ok (Some first_row)) /\
  (asked_at demo_sfb 0x204 (Unwind Sp false (Some 24) (Some (-8)) (Some (-16))) /\ lookup_with but_rows rel64 e (demo_sf e) 0x204 = Ok (Some first_row) /\
     lookup_with all_repairs rel64 e (demo_sf e) 0x204 = Ok (Some (Unwind Sp false (Some 24) (Some (-8)) (Some (-16))))) /\
  (asked_at demo_sfb 0x104 second_row /\ lookup_with but_pick rel64 e (demo_sf e) 0x104 = Ok (Some first_row) /\
     lookup_with all_repairs rel64 e (demo_sf e) 0x104 = Ok (Some second_row)) /\
  (sfb_reach rel64 gap_sfb /\ build rel64 e gap_sfb = Ok (section e gap_sfb) /\
     load dev64 e (section e gap_sfb) = Ok (sf_of e (section e gap_sfb)) /\
     lookup_with but_sub dev64 e (sf_of e (section e gap_sfb)) 0x50 = Panic /\
     lookup_with all_repairs dev64 e (sf_of e (section e gap_sfb)) 0x50 = Ok None).
Proof.
  split; [split; [apply demo_reach|split; [apply demo_built|destruct e; vm_compute; reflexivity]]|].
  split; [split; [exists demo_f1, (row3 0 8 (-8) (-16)); repeat_asked|destruct e; vm_compute; auto]|].
  split; [split; [exists demo_f2, (row3 2 24 (-8) (-16)); repeat_asked|destruct e; vm_compute; auto]|].
  split; [split; [exists demo_f1, (row3 4 16 (-8) (-16)); repeat_asked|destruct e; vm_compute; auto]|].
  split; [apply gap_reach|]. repeat split; destruct e; vm_compute; reflexivity.
Qed.

(** A section with ordinary, repeated and signed functions, looked up with all repairs. *)
Theorem repaired_case e :
  sfb_reach rel64 stub_sfb /\ build rel64 e stub_sfb = Ok (stub_bytes e) /\
  wf_mode rel64 /\ rust_slice rel64 (stub_bytes e) /\ load rel64 e (stub_bytes e) = Ok (stub_sf e) /\
  (forall b, In b (fdes_of stub_sfb) ->
     rows_inside b /\ fb_rep_size b <> Some 0 /\ forall r, In r (rows_of b) -> ~ tied r /\ ~ ambiguous (sb_options stub_sfb) r) /\
  lookup_with all_repairs rel64 e (stub_sf e) 0x104 = Ok (Some second_row) /\
  lookup_with all_repairs rel64 e (stub_sf e) 0x41b = Ok (Some first_row) /\
  lookup_with all_repairs rel64 e (stub_sf e) 0x41d = Ok (Some second_row) /\
  lookup_with all_repairs rel64 e (stub_sf e) 0x420 = Ok None.
Proof.
  destruct (iter_case e) as (H1 & H2 & H3 & H4 & H5 & H6 & _). do 6 (split; [assumption|]). destruct e; vm_compute; auto.
Qed.
