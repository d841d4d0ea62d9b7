(** Property C151: how many bytes the rows of a function take. *)
From Verif Require Import WriteWitness SmallWitness.

(** * C151 The rows of a function take the fewest bytes that say them *)

(** In full: for every table a builder can reach and every section built from it, the bytes at
    which a descriptor places its rows are the fewest that say these rows, whatever width the
    start fields have.  This is false where the last row starts in 0x80..0xFF or in
    0x8000..0xFFFF: lines 200-202 of write.rs keep the top bit of the unsigned field unused. *)
Theorem C151_starts_refuted : forall e, exists b aw seg,
  sfb_reach rel64 late_sfb /\ build rel64 e late_sfb = Ok (late_bytes e) /\ nth_error (fdes_of late_sfb) 1 = Some b /\
  rows_stored e (late_bytes e) 1 aw seg /\ says_rows e aw seg (map written (rows_of b)) /\
  zlen seg = 12 /\ fewest 10 (map written (rows_of b)) /\ ~ fewest (zlen seg) (map written (rows_of b)).
Proof. exact late_not_fewest. Qed.
Print Assumptions C151_starts_refuted.

(** A shorter section of which a reader makes the same. *)
Theorem C151_shorter_refuted : forall e,
  build_narrow rel64 e late_sfb = Ok (late_small e) /\ zlen (late_small e) = zlen (late_bytes e) - 2 /\
  read_all e (late_small e) = read_all e (late_bytes e) /\
  read_all e (late_small e) =
    Some [(0x100, 16, Some (map inl (map written (rows_of demo_f1)))); (0x1000, 0x100, Some (map inl (map written (rows_of late))))].
Proof. exact late_shorter. Qed.
Print Assumptions C151_shorter_refuted.

(** By exactly how much: one or two bytes for each row there, and nothing elsewhere. *)
Theorem C151_excess_partial : forall md e s bs i b,
  sfb_reach md s -> build md e s = Ok bs -> nth_error (fdes_of s) i = Some b ->
  exists aw seg, rows_stored e bs i aw seg /\ says_rows e aw seg (map written (rows_of b)) /\
    fewest (zlen seg - excess (rows_of b) * zlen (rows_of b)) (map written (rows_of b)).
Proof. exact rows_excess. Qed.
Print Assumptions C151_excess_partial.

Theorem C151_fewest_partial : forall md e s bs i b,
  sfb_reach md s -> build md e s = Ok bs -> nth_error (fdes_of s) i = Some b -> excess (rows_of b) = 0 ->
  exists aw seg, rows_stored e bs i aw seg /\ says_rows e aw seg (map written (rows_of b)) /\
    fewest (zlen seg) (map written (rows_of b)).
Proof. exact rows_fewest. Qed.
Print Assumptions C151_fewest_partial.

Theorem C151_fewest_partial_case : forall e, exists b,
  sfb_reach rel64 late_sfb /\ build rel64 e late_sfb = Ok (late_bytes e) /\ nth_error (fdes_of late_sfb) 0 = Some b /\
  excess (rows_of b) = 0 /\ zlen (rows_of b) = 2 /\ rust_slice rel64 (late_small e) /\ Forall rows_inside (fdes_of late_sfb).
Proof. exact fewest_case. Qed.
Print Assumptions C151_fewest_partial_case.

(** With the ranges 0..=0xFF and 0..=0xFFFF the section is read the same, and the rows of every
    function take the fewest bytes. *)
Theorem C151_repaired_partial : forall md md' e s bs,
  sfb_reach md s -> build_narrow md e s = Ok bs -> wf_mode md' -> rust_slice md' bs ->
  exists sf, load md' e bs = Ok sf /\
    flags sf = so_flags (sb_options s) /\ fixed_fp_offset sf = so_fixed_fp (sb_options s) /\ fixed_ra_offset sf = so_fixed_ra (sb_options s) /\
    length (all_fdes sf) = length (fdes_of s) /\
    (forall i b, nth_error (fdes_of s) i = Some b -> exists en, nth_error (all_fdes sf) i = Some en /\ same_descriptor b en /\
       (rows_inside b -> exists good, all_fres md' e en = Ok (map inl good) /\ Forall2 (fun r fr => view_fre fr = written r) (rows_of b) good)) /\
    exists sizes, Forall2 (fun b n => fewest n (map written (rows_of b))) (fdes_of s) sizes /\
      zlen bs = 28 + 20 * zlen (fdes_of s) + sumz sizes.
Proof. exact narrow_reads. Qed.
Print Assumptions C151_repaired_partial.

(** It refuses what [build] refuses, except what is too large only because of the wide fields. *)
Theorem C151_repaired_result_partial : forall md e s, sfb_reach md s ->
  (forall bs, build md e s = Ok bs -> exists bs', build_narrow md e s = Ok bs' /\ zlen bs' <= zlen bs) /\
  (build_narrow md e s = Panic <-> build md e s = Panic) /\
  (build_narrow md e s = Err OverlappingFdes <-> build md e s = Err OverlappingFdes) /\
  (build_narrow md e s = Err SectionTooLarge -> build md e s = Err SectionTooLarge).
Proof. exact narrow_result. Qed.
Print Assumptions C151_repaired_result_partial.

Theorem C151_unrepaired_partial : forall md e s, build_sized false md e s = build md e s.
Proof. exact unsized. Qed.
Print Assumptions C151_unrepaired_partial.
