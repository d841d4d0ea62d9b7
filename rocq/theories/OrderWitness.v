(** Sections of both byte orders looked up (C140). *)
From Verif Require Export OrderFacts.
From Verif Require Import LookupWitness EmitWitness.

(** The section of a short and of a long function: little-endian it makes the look-up
    panic, big-endian the look-up gives a row without a CFA offset. *)
Theorem order_matters :
  dwarf2sframe rel64 amd (short_long 32) = Ok (sl_sfb 32) /\
  (forall e, build rel64 e (sl_sfb 32) = Ok (sl_bytes e 32) /\ load rel64 e (sl_bytes e 32) = Ok (sl_sf e 32)) /\
  Forall (fun md => lookup md LE (sl_sf LE 32) 0x2010 = Panic /\
    exists u, lookup md BE (sl_sf BE 32) 0x2010 = Ok (Some u) /\ uw_cfa u = None) [rel64; rel64old; dev64; rel32; dev32] /\
  Forall (fun md => lookup md LE (sl_sf LE 200) 0x2010 = Err (inr (InvalidFreOffsetCount 4)) /\
    lookup md BE (sl_sf BE 200) 0x2010 = Panic) [rel64; rel64old; dev64; rel32; dev32].
Proof.
  split; [vm_compute; reflexivity|]. split; [intros []; split; vm_compute; reflexivity|].
  split; repeat (apply Forall_cons || apply Forall_nil).
  all: split; try (vm_compute; reflexivity).
  all: exists {| uw_base := Fp; uw_mangled := false; uw_cfa := None; uw_ra := Some (-8); uw_fp := None |}.
  all: split; vm_compute; reflexivity.
Qed.

Theorem order_case : forall e, sfb_reach rel64 demo_sfb /\ build rel64 e demo_sfb = Ok (demo e) /\
  wf_mode dev32 /\ rust_slice dev32 (demo e) /\ load dev32 e (demo e) = Ok (demo_sf e) /\
  (forall b c, In b (fdes_of demo_sfb) -> In c (fdes_of demo_sfb) -> start_width (rows_of b) = start_width (rows_of c)) /\
  demo LE <> demo BE /\
  exists u, lookup dev32 e (demo_sf e) 0x204 = Ok (Some u) /\ uw_cfa u = Some 8.
Proof.
  intros e. split; [apply demo_reach|]. split; [apply demo_built|]. split; [apply wf_dev32|]. split; [apply demo_slice, wf_dev32|].
  split; [destruct e; vm_compute; reflexivity|]. split.
  { intros b c Hb Hc. revert Hb Hc. unfold fdes_of. vm_compute. intuition (subst; reflexivity). }
  split; [vm_compute; discriminate|].
  exists {| uw_base := Sp; uw_mangled := false; uw_cfa := Some 8; uw_ra := Some (-8); uw_fp := Some (-16) |}.
  destruct e; vm_compute; auto.
Qed.
