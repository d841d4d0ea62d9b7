(** Claims about the builder, the round trip and the printed text that /repo does not meet,
    repaired in as few places as the claim needs. *)
From Verif Require Import RowRepairedWitness.
From Verif Require Import ReadSpec WriteSpec ConvSpec.

(** * C28 Rows missing a required offset are rejected *)

(** With the checks that the documentation of the two errors describes. *)
Theorem C28_repaired_partial : forall b r, fdb_reach b ->
  (snd (fdb_row_strict b r) = Ok tt <-> Forall (fun p => fst p) (strict_conditions b r)) /\
  (forall er, snd (fdb_row_strict b r) = Err er <-> first_violated (strict_conditions b r) er) /\
  snd (fdb_row_strict b r) <> Panic.
Proof. exact strict_accepts. Qed.
Print Assumptions C28_repaired_partial.

(** What is accepted then has the same effect as before. *)
Theorem C28_repaired_same_partial : forall b r, fdb_reach b -> snd (fdb_row_strict b r) = Ok tt -> fdb_row_strict b r = fdb_row_st b r.
Proof. exact strict_same. Qed.
Print Assumptions C28_repaired_same_partial.

(** Every row with offsets then has all three. *)
Theorem C28_repaired_rows_partial : forall b r, fdb_checked true b -> In r (rows_of b) -> r_offsets r <> None ->
  let u := intended (fb_options b) r in uw_cfa u <> None /\ uw_ra u <> None /\ uw_fp u <> None.
Proof. exact strict_whole. Qed.
Print Assumptions C28_repaired_rows_partial.

(** The second converter relies on the missing check: it gives no FP offset where RBP keeps
    its value or is undefined, which the strict [row] refuses. *)
Theorem C28_repaired_converter_partial : forall md op eh f r nr b, fdb_reach b -> fb_options b = conv_sfoptions op eh ->
  convert_row md op f r = Ok (RowOk nr) -> snd (fdb_row_st b nr) = Ok tt ->
  ((exists o, dr_register r (arch_fp (op_arch op)) = ROffset o) /\ snd (fdb_row_strict b nr) = Ok tt) \/
  ((dr_register r (arch_fp (op_arch op)) = RSameValue \/ dr_register r (arch_fp (op_arch op)) = RUndefined) /\
   snd (fdb_row_strict b nr) = Err MissingFpOffset).
Proof. exact strict_converter. Qed.
Print Assumptions C28_repaired_converter_partial.

Theorem C28_repaired_case :
  fdb_reach blank /\ snd (fdb_row_st blank no_ra_row) = Ok tt /\ snd (fdb_row_st blank no_fp_row) = Ok tt /\
  snd (fdb_row_strict blank no_ra_row) = Err MissingRaOffset /\
  snd (fdb_row_strict blank no_fp_row) = Err MissingFpOffset /\
  snd (fdb_row_strict blank (row3 0 16 (-8) (-16))) = Ok tt /\
  snd (fdb_row_strict blank (row3 16 16 (-8) (-16))) = Err StartAddressOutsideFde /\
  snd (fdb_row_strict (fdb_new (options_fixed_ra (Some (-8)) options_new) 0x100 16) no_ra_row) = Ok tt /\
  snd (fdb_row_strict (fdb_new (options_fixed_ra (Some (-8)) options_new) 0x100 16) (row3 0 16 (-16) (-16))) = Err UnexpectedRaOffset.
Proof. exact strict_case. Qed.
Print Assumptions C28_repaired_case.

Theorem C28_repaired_rows_case : fdb_checked true plain_fdb /\ rows_of plain_fdb = [row3 4 16 (-8) (-16)].
Proof. exact strict_whole_case. Qed.
Print Assumptions C28_repaired_rows_case.

Theorem C28_repaired_converter_case : exists nr nr',
  fdb_reach (fdb_new (conv_sfoptions amd sample) 0x1000 0x20) /\
  convert_row rel64 amd fn_prologue (amd_row 0x1000 0x1004 7 8 RSameValue) = Ok (RowOk nr) /\
  snd (fdb_row_st (fdb_new (conv_sfoptions amd sample) 0x1000 0x20) nr) = Ok tt /\
  snd (fdb_row_strict (fdb_new (conv_sfoptions amd sample) 0x1000 0x20) nr) = Err MissingFpOffset /\
  convert_row rel64 amd fn_prologue (amd_row 0x1004 0x1008 7 16 (ROffset (-16))) = Ok (RowOk nr') /\
  snd (fdb_row_strict (fdb_new (conv_sfoptions amd sample) 0x1000 0x20) nr') = Ok tt.
Proof. exact strict_converter_case. Qed.
Print Assumptions C28_repaired_converter_case.

(** * C34 SectionTooLarge is reported exactly when a size field would overflow *)

(** With the distance of functions computed in a type that holds it, and nothing else
    changed, every profile gives what the release profile gives ... *)
Theorem C34_repaired_release_partial : forall md e s, sfb_reach md s -> build_with gap_only md e s = emitted (build rel64 e s).
Proof. exact gap_release. Qed.
Print Assumptions C34_repaired_release_partial.

(** ... which is decided by overlaps and sizes alone. *)
Theorem C34_repaired_partial : forall md e s, sfb_reach md s ->
  (build_with gap_only md e s = Err (Emitting OverlappingFdes) <-> overlapping s) /\
  (build_with gap_only md e s = Err (Emitting SectionTooLarge) <-> ~ overlapping s /\ too_large s) /\
  ((exists bs, build_with gap_only md e s = Ok bs) <-> ~ overlapping s /\ ~ too_large s) /\
  build_with gap_only md e s <> Panic.
Proof. exact gap_exact. Qed.
Print Assumptions C34_repaired_partial.

Theorem C34_repaired_case : sfb_reach dev64 gap_sfb /\ ~ overlapping gap_sfb /\ ~ too_large gap_sfb /\ build dev64 LE gap_sfb = Panic /\
  build_with gap_only dev64 LE gap_sfb = emitted (build rel64 LE gap_sfb).
Proof. exact gap_case. Qed.
Print Assumptions C34_repaired_case.

(** * C37 Rows survive the round trip *)

(** Written by the repaired [build] and read by the iterator of /repo, if all rows lie in
    their function. *)
Theorem C37_repaired_partial : forall md md' e s bs, sfb_reach md s -> Forall rows_inside (fdes_of s) -> build_repaired md e s = Ok bs ->
  wf_mode md' -> rust_slice md' bs -> exists sf, load md' e bs = Ok sf /\
    Forall2 (fun b en => exists good, all_fres md' e en = Ok (map inl good) /\
      Forall2 (fun r fr => fre_start_address_offset fr = r_start r /\ observed sf fr = intended (sb_options s) r) (rows_of b) good)
      (fdes_of s) (all_fdes sf).
Proof. exact repaired_round_reader. Qed.
Print Assumptions C37_repaired_partial.

(** With the iterator repaired as well, without that condition. *)
Theorem C37_repaired_both_partial : forall fx md md' e s bs, sfb_reach md s -> build_repaired md e s = Ok bs ->
  wf_mode md' -> rust_slice md' bs -> (fix_tail fx = true \/ Forall rows_inside (fdes_of s)) ->
  exists sf, load md' e bs = Ok sf /\
    Forall2 (fun b en => exists good, all_fres_with fx md' e en = Ok (map inl good) /\
      Forall2 (fun r fr => fre_start_address_offset fr = r_start r /\ observed sf fr = intended (sb_options s) r) (rows_of b) good)
      (fdes_of s) (all_fdes sf).
Proof. exact repaired_round. Qed.
Print Assumptions C37_repaired_both_partial.

(** With the strict [row] and a checked [size], and [build] as it is, only tied rows are
    misread. *)
Theorem C37_repaired_rows_partial : forall md md' e s bs, sfb_checked true md s -> build md e s = Ok bs -> wf_mode md' -> rust_slice md' bs ->
  exists sf, load md' e bs = Ok sf /\
    Forall2 (fun b en => exists good, all_fres md' e en = Ok (map inl good) /\
      Forall2 (fun r fr => fre_start_address_offset fr = r_start r /\ (observed sf fr = intended (sb_options s) r <-> ~ tied r))
        (rows_of b) good) (fdes_of s) (all_fdes sf).
Proof. exact strict_round. Qed.
Print Assumptions C37_repaired_rows_partial.

Theorem C37_repaired_case : forall e,
  sfb_reach rel64 tie_sfb /\ Forall rows_inside (fdes_of tie_sfb) /\ build_repaired rel64 e tie_sfb = Ok (mended e tie_sfb) /\
  rust_slice rel64 (mended e tie_sfb) /\
  intended (sb_options tie_sfb) tie_row = Unwind Sp false (Some (-128)) (Some 128) None /\
  only_row e (mended e tie_sfb) = Some (Unwind Sp false (Some (-128)) (Some 128) None).
Proof. exact round_case. Qed.
Print Assumptions C37_repaired_case.

(** * C39 Every built section can be read back without panicking *)

(** Either [size] refuses to leave rows outside ... *)
Theorem C39_repaired_size_partial : forall strict md md' e s bs, sfb_checked strict md s -> build md e s = Ok bs -> wf_mode md' -> rust_slice md' bs ->
  exists sf, load md' e bs = Ok sf /\ Forall (reads_well md' e) (all_fdes sf).
Proof. exact checked_readable. Qed.
Print Assumptions C39_repaired_size_partial.

(** ... or the iterator reads them. *)
Theorem C39_repaired_partial : forall md md' e s bs, sfb_reach md s -> build md e s = Ok bs -> wf_mode md' -> rust_slice md' bs ->
  exists sf, load md' e bs = Ok sf /\
    Forall2 (fun b en => exists good, all_fres_with tail_only md' e en = Ok (map inl good) /\ map view_fre good = map written (rows_of b))
      (fdes_of s) (all_fdes sf).
Proof. exact tail_readable. Qed.
Print Assumptions C39_repaired_partial.

Theorem C39_repaired_case : forall e,
  sfb_checked true rel64 checked_sfb /\ map fb_size (fdes_of checked_sfb) = [8] /\ map fb_size (fdes_of shrunk_sfb) = [2] /\
  (exists bs, build rel64 e checked_sfb = Ok bs /\ rust_slice rel64 bs) /\
  load rel64 e (shrunk e) = Ok (shrunk_sf e) /\
  map (all_fres rel64 e) (all_fdes (shrunk_sf e)) = [Panic] /\
  exists fr, map (all_fres_with tail_only rel64 e) (all_fdes (shrunk_sf e)) = [Ok [inl fr]] /\ fre_start_address_offset fr = 4.
Proof. exact checked_case. Qed.
Print Assumptions C39_repaired_case.

(** * C100 Formatting a loaded section with [{:?}] does not panic *)

Theorem C100_repaired_partial : forall fx alt dt md e bs sf, fix_tail fx = true -> wf_mode md -> rust_slice md bs -> load md e bs = Ok sf ->
  exists text, section_text_with fx alt dt md e sf = Ok text.
Proof. exact text_total. Qed.
Print Assumptions C100_repaired_partial.

(** What is printed today stays the same. *)
Theorem C100_repaired_same_partial : forall alt dt md e sf text,
  section_text alt dt md e sf = Ok text -> section_text_with tail_only alt dt md e sf = Ok text.
Proof. exact text_same. Qed.
Print Assumptions C100_repaired_same_partial.

Theorem C100_repaired_case : load rel64 LE (shrunk LE) = Ok (shrunk_sf LE) /\ rust_slice rel64 (shrunk LE) /\
  section_text false some_texts rel64 LE (shrunk_sf LE) = Panic /\
  exists text, section_text_with tail_only false some_texts rel64 LE (shrunk_sf LE) = Ok text.
Proof. exact text_case. Qed.
Print Assumptions C100_repaired_case.

(** * C141 Used through its iterators, the library says of a built section what was asked for *)

Theorem C141_repaired_partial : forall fx md md' e s bs, sfb_reach md s -> build_repaired md e s = Ok bs -> wf_mode md' -> rust_slice md' bs ->
  (fix_tail fx = true \/ Forall rows_inside (fdes_of s)) ->
  forall sf, fix_bits fx = true -> load md' e bs = Ok sf ->
  forall a k u, lib_says_with fx md' e sf a k u <-> asked_with_key s a k u.
Proof. exact repaired_iter_says. Qed.
Print Assumptions C141_repaired_partial.

Theorem C141_repaired_case : forall e,
  sfb_reach dev64 mixed_sfb /\ build_repaired dev64 e mixed_sfb = Ok (mixed_bytes e) /\ wf_mode dev64 /\ rust_slice dev64 (mixed_bytes e) /\
  load dev64 e (mixed_bytes e) = Ok (mixed_sf e) /\
  lib_says_with all_rfixes dev64 e (mixed_sf e) 0x41d KeyB second_row /\
  lib_says_with all_rfixes dev64 e (mixed_sf e) 0x508 KeyA (Unwind Sp false (Some (-128)) (Some 128) None).
Proof. exact iter_says_case. Qed.
Print Assumptions C141_repaired_case.

(** * Without repairs the definitions are those of /repo *)

Theorem C141_unrepaired_case : forall md e sf a k u, lib_says_with no_rfixes md e sf a k u <-> lib_says md e sf a k u.
Proof. exact says_unrepaired. Qed.
Print Assumptions C141_unrepaired_case.

Theorem C100_unrepaired_case : forall alt dt md e sf, section_text_with no_rfixes alt dt md e sf = section_text alt dt md e sf.
Proof. exact text_unrepaired. Qed.
Print Assumptions C100_unrepaired_case.
