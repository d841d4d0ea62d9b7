(** Property C139: copying a section through the library. *)
From Verif Require Import CopyWitness.

(** * C139 A section copied through the library says the same *)

(** Of two functions that begin at the same address only the second is kept. *)
Theorem C139_same_start_refuted : forall e,
  copy_differs e (doubled e) 0x101 (Some first_row) None.
Proof. exact doubled_copy. Qed.
Print Assumptions C139_same_start_refuted.

(** 128 beside -128 becomes -128 (C38). *)
Theorem C139_offset_refuted : forall e,
  copy_differs e (wide e) 0x100
    (Some (Unwind Sp false (Some (-128)) (Some 128) None)) (Some (Unwind Sp false (Some (-128)) (Some (-128)) None)).
Proof. exact wide_copy. Qed.
Print Assumptions C139_offset_refuted.

(** A row without offsets always has base register FP in the copy. *)
Theorem C139_base_refuted : forall e,
  copy_differs e (empty_sp e) 0x100 (Some (Unwind Sp false None None None)) (Some (Unwind Fp false None None None)).
Proof. exact empty_copy. Qed.
Print Assumptions C139_base_refuted.

(** A version 1 function whose rows are masks becomes an ordinary one. *)
Theorem C139_mask_refuted : forall e,
  copy_differs e (in_v1 e (LocalWitness.masked e)) 0x204 None (Some (Unwind Sp false (Some 24) (Some (-8)) (Some (-16)))).
Proof. exact mask_copy. Qed.
Print Assumptions C139_mask_refuted.

(** Reading and making again succeeds exactly if the rows of every function can be
    read, start at different offsets and below 2^28. *)
Theorem C139_copyable_partial : forall md e bs sf,
  wf_mode md -> rust_slice md bs -> load md e bs = Ok sf ->
  ((exists s, section_read md e sf = Some s) <-> Forall (rows_copyable md e) (all_fdes sf)).
Proof. exact section_copyable. Qed.
Print Assumptions C139_copyable_partial.

(** If the functions begin at different addresses, a copy in either byte order is
    accepted and says the same at every address whose functions keep their rows. *)
Theorem C139_same_partial : forall md e bs sf,
  wf_mode md -> rust_slice md bs -> load md e bs = Ok sf -> forall md1 md2 e' s bs',
  section_read md e sf = Some s -> build md1 e' s = Ok bs' -> wf_mode md2 -> rust_slice md2 bs' ->
  NoDup (map en_start_address (all_fdes sf)) ->
  exists sf', load md2 e' bs' = Ok sf' /\ forall a,
    (forall en, In en (all_fdes sf) -> in_range (en_start_address en) (en_size en) a -> rows_kept md e sf en) ->
    forall k u, lib_says md e sf a k u <-> lib_says md2 e' sf' a k u.
Proof. exact copy_same. Qed.
Print Assumptions C139_same_partial.

(** A section with its rows in reverse order and a reserved bit set. *)
Theorem C139_same_case : forall e,
  rust_slice rel64 (swapped e) /\ load rel64 e (swapped e) = Ok (sf_of e (swapped e)) /\
  section_read rel64 e (sf_of e (swapped e)) = Some (copy_sfb e (sf_of e (swapped e))) /\
  build rel64 e (copy_sfb e (sf_of e (swapped e))) = Ok (single e) /\ single e <> swapped e /\
  Forall (rows_copyable rel64 e) (all_fdes (sf_of e (swapped e))) /\
  NoDup (map en_start_address (all_fdes (sf_of e (swapped e)))) /\
  Forall (rows_kept rel64 e (sf_of e (swapped e))) (all_fdes (sf_of e (swapped e))) /\
  lib_says rel64 e (sf_of e (swapped e)) 0x104 KeyA second_row /\ lib_says rel64 e (single_sf e) 0x104 KeyA second_row.
Proof. exact swapped_copy. Qed.
Print Assumptions C139_same_case.
