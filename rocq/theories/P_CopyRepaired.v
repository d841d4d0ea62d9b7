(** C139 with builders that refuse what they do not keep. *)
From Verif Require Import CopyRepairedFacts.

(** * C139 A section copied through the library says the same *)

(** Without refusals this is the copying of C139. *)
Theorem C139_unrepaired_partial : forall md e sf,
  section_read_with no_kfixes md e sf = section_read md e sf.
Proof. exact section_read_unrepaired. Qed.
Print Assumptions C139_unrepaired_partial.

(** With all four refusals, whatever is not refused is copied. *)
Theorem C139_repaired_partial : forall md e bs sf,
  wf_mode md -> rust_slice md bs -> load md e bs = Ok sf -> forall md1 md2 e' s bs',
  section_read_with all_kfixes md e sf = Some s -> build md1 e' s = Ok bs' -> wf_mode md2 -> rust_slice md2 bs' ->
  exists sf', load md2 e' bs' = Ok sf' /\ forall a k u, lib_says md e sf a k u <-> lib_says md2 e' sf' a k u.
Proof. exact checked_copy_same. Qed.
Print Assumptions C139_repaired_partial.

(** Nothing else is refused in addition. *)
Theorem C139_repaired_exactly_partial : forall md e bs sf,
  wf_mode md -> rust_slice md bs -> load md e bs = Ok sf -> forall s,
  section_read_with all_kfixes md e sf = Some s <->
  section_read md e sf = Some s /\ NoDup (map en_start_address (all_fdes sf)) /\ Forall (rows_kept md e sf) (all_fdes sf).
Proof. exact section_read_checked. Qed.
Print Assumptions C139_repaired_exactly_partial.

Example C139_repaired_case : forall e,
  rust_slice rel64 (swapped e) /\ load rel64 e (swapped e) = Ok (sf_of e (swapped e)) /\
  section_read_with all_kfixes rel64 e (sf_of e (swapped e)) = Some (copy_sfb e (sf_of e (swapped e))) /\
  build rel64 e (copy_sfb e (sf_of e (swapped e))) = Ok (single e) /\ rust_slice rel64 (single e) /\ single e <> swapped e /\
  lib_says rel64 e (sf_of e (swapped e)) 0x104 KeyA second_row.
Proof. exact swapped_checked. Qed.

Example C139_repaired_refused_case : forall e,
  section_read_with all_kfixes rel64 e (sf_of e (doubled e)) = None /\ section_read_with all_kfixes rel64 e (sf_of e (wide e)) = None /\
  section_read_with all_kfixes rel64 e (sf_of e (empty_sp e)) = None /\
  section_read_with all_kfixes rel64 e (sf_of e (in_v1 e (LocalWitness.masked e))) = None.
Proof. exact others_refused. Qed.

(** Each of them is needed, all others being there. *)
Theorem C139_same_needed_refuted : forall e,
  refusing_hides (KFixes false true true true) e (doubled e) 0x101 (Some first_row) None.
Proof. exact same_needed. Qed.
Print Assumptions C139_same_needed_refuted.

Theorem C139_tied_needed_refuted : forall e,
  refusing_hides (KFixes true false true true) e (wide e) 0x100
  (Some (Unwind Sp false (Some (-128)) (Some 128) None)) (Some (Unwind Sp false (Some (-128)) (Some (-128)) None)).
Proof. exact tied_needed. Qed.
Print Assumptions C139_tied_needed_refuted.

Theorem C139_base_needed_refuted : forall e,
  refusing_hides (KFixes true true false true) e (empty_sp e) 0x100
  (Some (Unwind Sp false None None None)) (Some (Unwind Fp false None None None)).
Proof. exact base_needed. Qed.
Print Assumptions C139_base_needed_refuted.

Theorem C139_mask_needed_refuted : forall e,
  refusing_hides (KFixes true true true false) e (in_v1 e (LocalWitness.masked e)) 0x204
  None (Some (Unwind Sp false (Some 24) (Some (-8)) (Some (-16)))).
Proof. exact mask_needed. Qed.
Print Assumptions C139_mask_needed_refuted.
