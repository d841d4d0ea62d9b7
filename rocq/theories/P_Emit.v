(** Property theorems of [build] and of reading its output back: C06, C32-C39,
    C45. *)
From Verif Require Import EmitWitness.

(** * C06 A truncated section is rejected *)

(** [md] is the profile that built the section and [md'] the one that reads it. *)
Theorem C06_truncated_rejected : forall md md' e s bs m,
  sfb_reach md s -> build md e s = Ok bs ->
  wf_mode md' -> rust_slice md' bs -> (m < length bs)%nat ->
  load md' e (firstn m bs) = Err UnexpectedEof.
Proof. exact trip_truncated. Qed.
Print Assumptions C06_truncated_rejected.

(** [rust_slice] is no restriction on 64-bit targets. *)
Theorem C06_sections_fit_64_bit : forall md e s bs,
  sfb_reach md s -> build md e s = Ok bs -> zlen bs <= 28 + 2 * u32_max.
Proof. exact built_fits_64. Qed.
Print Assumptions C06_sections_fit_64_bit.

Example C06_case : forall e,
  sfb_reach rel64 demo_sfb /\ build rel64 e demo_sfb = Ok (demo e) /\ rust_slice dev32 (demo e) /\
  length (demo e) = 83%nat /\ (exists sf, load dev32 e (demo e) = Ok sf) /\
  load dev32 e (firstn 82 (demo e)) = Err UnexpectedEof.
Proof.
  intros e. split; [apply demo_reach|]. split; [apply demo_built|]. split; [apply demo_slice, wf_dev32|].
  destruct e; (split; [vm_compute; reflexivity|]); (split; [eexists; vm_compute; reflexivity|vm_compute; reflexivity]).
Qed.

(** * C32 Overlaps are reported exactly when they exist: false in checked builds *)

(** With overflow checks an over-wide gap in front of the overlap panics first. *)
Theorem C32_gap_hides_overlap_refuted :
  sfb_reach dev64 gap_over_sfb /\ overlapping gap_over_sfb /\
  build dev64 LE gap_over_sfb = Panic /\ build rel64 LE gap_over_sfb = Err OverlappingFdes.
Proof. exact gap_hides_overlap. Qed.
Print Assumptions C32_gap_hides_overlap_refuted.

Theorem C32_overlap_exact_partial : forall md e s,
  sfb_reach md s -> (overflow_checks md = false \/ ~ wide_gap (fdes_of s)) ->
  (build md e s = Err OverlappingFdes <-> overlapping s).
Proof. exact overlap_exact. Qed.
Print Assumptions C32_overlap_exact_partial.

Theorem C32_overlap_never_accepted_partial : forall md e s,
  sfb_reach md s ->
  (build md e s = Err OverlappingFdes -> overlapping s) /\
  (overlapping s -> build md e s = Err OverlappingFdes \/
     (build md e s = Panic /\ overflow_checks md = true /\ wide_gap (fdes_of s))).
Proof. exact overlap_sound. Qed.
Print Assumptions C32_overlap_never_accepted_partial.

Theorem C32_shared_address_reported_partial : forall md e s a b x,
  sfb_reach md s -> (overflow_checks md = false \/ ~ wide_gap (fdes_of s)) ->
  In a (fdes_of s) -> In b (fdes_of s) -> a <> b ->
  in_range (fb_start a) (fb_size a) x -> in_range (fb_start b) (fb_size b) x ->
  build md e s = Err OverlappingFdes.
Proof. exact shared_address_reported. Qed.
Print Assumptions C32_shared_address_reported_partial.

Example C32_case : forall md,
  sfb_reach md over_sfb /\ overlapping over_sfb /\ ~ wide_gap (fdes_of over_sfb) /\
  build dev64 LE over_sfb = Err OverlappingFdes /\ build rel64 BE demo_sfb = Ok (demo BE).
Proof.
  intros md. split; [apply over_reach|]. split; [apply over_overlapping|]. split.
  - intros (a & b & Hn & Hw). apply neighbours_in in Hn. destruct Hn as [Ha Hb]. vm_compute in Ha, Hb.
    destruct Ha as [<-|[<-|[]]], Hb as [<-|[<-|[]]]; vm_compute in Hw; discriminate.
  - vm_compute. auto.
Qed.

(** * C33 build panics only on over-wide gaps in checked builds *)

Theorem C33_build_panics_only : forall md e s,
  sfb_reach md s -> build md e s = Panic -> overflow_checks md = true /\ wide_gap (fdes_of s).
Proof. exact build_panics_only. Qed.
Print Assumptions C33_build_panics_only.

Theorem C33_nonnegative_starts_never_panic : forall md e s,
  sfb_reach md s -> (forall b, In b (fdes_of s) -> 0 <= fb_start b) -> build md e s <> Panic.
Proof. exact build_no_panic_nonneg. Qed.
Print Assumptions C33_nonnegative_starts_never_panic.

(** The exception is real. *)
Theorem C33_wide_gap_panics : forall md e s,
  sfb_reach md s -> overflow_checks md = true -> ~ overlapping s -> wide_gap (fdes_of s) ->
  build md e s = Panic.
Proof. exact build_wide_gap_panics. Qed.
Print Assumptions C33_wide_gap_panics.

Example C33_case : sfb_reach dev64 gap_sfb /\ wide_gap (fdes_of gap_sfb) /\ ~ overlapping gap_sfb /\
  overflow_checks dev64 = true /\ build dev64 LE gap_sfb = Panic /\
  (forall b, In b (fdes_of demo_sfb) -> 0 <= fb_start b).
Proof.
  split; [apply gap_reach|]. split; [apply gap_wide|]. split; [apply gap_wide|]. split; [reflexivity|].
  split; [vm_compute; reflexivity|]. intros b Hb. vm_compute in Hb. destruct Hb as [<-|[<-|[]]]; cbn; lia.
Qed.

(** * C34 SectionTooLarge is reported exactly when a size field would overflow:
    false in checked builds *)

Theorem C34_gap_stops_build_refuted :
  sfb_reach dev64 gap_sfb /\ ~ overlapping gap_sfb /\ ~ too_large gap_sfb /\
  build dev64 LE gap_sfb = Panic /\ (exists bs, build rel64 LE gap_sfb = Ok bs).
Proof. exact gap_stops_build. Qed.
Print Assumptions C34_gap_stops_build_refuted.

Theorem C34_too_large_exact_partial : forall md e s,
  sfb_reach md s -> ~ overlapping s -> (overflow_checks md = false \/ ~ wide_gap (fdes_of s)) ->
  (build md e s = Err SectionTooLarge <-> too_large s) /\
  (~ too_large s -> exists bs, build md e s = Ok bs).
Proof. exact too_large_exact. Qed.
Print Assumptions C34_too_large_exact_partial.

Example C34_case : forall md,
  (exists s, sfb_reach md s /\ ~ overlapping s /\ ~ wide_gap (fdes_of s) /\ too_large s) /\
  ~ too_large demo_sfb.
Proof. intros md. split; [apply too_large_exists|]. intros [H|H]; vm_compute in H; discriminate. Qed.

(** * C35 Built sections are canonical *)

(** Header, and the total length: nothing besides header, table and rows. *)
Theorem C35_header : forall md e s bs,
  sfb_reach md s -> build md e s = Ok bs ->
  zlen bs = 28 + 20 * zlen (fdes_of s) + fre_size s /\
  good_magic e bs /\ spec_version bs = 2 /\
  spec_flags bs = so_flags (sb_options s) /\ bits 0 1 (spec_flags bs) = 1 /\
  spec_abi bs = so_abi (sb_options s) /\
  spec_fixed_fp bs = opt_or_zero (so_fixed_fp (sb_options s)) /\
  spec_fixed_ra bs = opt_or_zero (so_fixed_ra (sb_options s)) /\
  spec_aux_len bs = 0 /\
  spec_num_fdes e bs = zlen (fdes_of s) /\ spec_num_fres e bs = row_count (fdes_of s) /\
  spec_fre_len e bs = fre_size s /\ spec_fdeoff e bs = 0 /\ spec_freoff e bs = 20 * zlen (fdes_of s).
Proof. exact trip_header. Qed.
Print Assumptions C35_header.

(** Each descriptor, its padding, and its rows, which start where those of the
    previous function end and fill exactly the space counted for them. *)
Theorem C35_table_and_rows : forall md e s bs i b,
  sfb_reach md s -> build md e s = Ok bs -> nth_error (fdes_of s) i = Some b ->
  spec_entry e bs (Z.of_nat i) = descriptor (fdes_of s) i b /\
  u_at e (spec_entry_pos e bs (Z.of_nat i) + 18) 2 bs = 0 /\
  spec_rows_at e (start_width (rows_of b)) (slice (rows_off (fdes_of s) i) (fde_fre_size b) (spec_fre_bytes e bs))
    (map written (rows_of b)) [].
Proof. exact trip_table. Qed.
Print Assumptions C35_table_and_rows.

Theorem C35_ascending_disjoint : forall md e s bs a b,
  sfb_reach md s -> build md e s = Ok bs -> neighbours (fdes_of s) a b ->
  fb_start a < fb_start b /\ fb_start a + fb_size a <= fb_start b.
Proof. exact trip_order. Qed.
Print Assumptions C35_ascending_disjoint.

Example C35_case : forall e,
  sfb_reach rel64 demo_sfb /\ build rel64 e demo_sfb = Ok (demo e) /\
  fdes_of demo_sfb = [demo_f1; demo_f2] /\ rows_off (fdes_of demo_sfb) 1 = 10 /\ fre_size demo_sfb = 15.
Proof.
  intros e. split; [apply demo_reach|]. split; [apply demo_built|]. vm_compute. auto.
Qed.

(** * C36 Function descriptors survive the round trip *)

Theorem C36_descriptors_round_trip : forall md md' e s bs,
  sfb_reach md s -> build md e s = Ok bs -> wf_mode md' -> rust_slice md' bs ->
  exists sf, load md' e bs = Ok sf /\
    version sf = 2 /\ flags sf = so_flags (sb_options s) /\ abi sf = so_abi (sb_options s) /\
    fixed_fp_offset sf = so_fixed_fp (sb_options s) /\ fixed_ra_offset sf = so_fixed_ra (sb_options s) /\
    num_fdes sf = zlen (fdes_of s) /\ num_fres sf = row_count (fdes_of s) /\ raw_aux sf = [] /\
    Forall2 same_descriptor (fdes_of s) (all_fdes sf).
Proof. exact trip_descriptors. Qed.
Print Assumptions C36_descriptors_round_trip.

Example C36_case : forall e,
  sfb_reach rel64 demo_sfb /\ build rel64 e demo_sfb = Ok (demo e) /\ rust_slice dev32 (demo e) /\
  map en_start_address (all_fdes (demo_sf e)) = [0x100; 0x200].
Proof.
  intros e. split; [apply demo_reach|]. split; [apply demo_built|]. split; [apply demo_slice, wf_dev32|].
  destruct e; vm_compute; reflexivity.
Qed.

(** * C37 Rows survive the round trip: false *)

Theorem C37_fp_without_ra_misread_refuted :
  sfb_sized rel64 amb_sfb /\ build rel64 LE amb_sfb = Ok (section LE amb_sfb) /\
  map rows_of (fdes_of amb_sfb) = [[no_ra_row]] /\
  intended (sb_options amb_sfb) no_ra_row = Unwind Sp false (Some 16) None (Some (-16)) /\
  only_row LE (section LE amb_sfb) = Some (Unwind Sp false (Some 16) (Some (-16)) None).
Proof. exact ambiguous_misread. Qed.
Print Assumptions C37_fp_without_ra_misread_refuted.

Theorem C37_tied_offsets_misread_refuted :
  sfb_sized rel64 tie_sfb /\ build rel64 LE tie_sfb = Ok (section LE tie_sfb) /\
  map rows_of (fdes_of tie_sfb) = [[tie_row]] /\
  intended (sb_options tie_sfb) tie_row = Unwind Sp false (Some (-128)) (Some 128) None /\
  only_row LE (section LE tie_sfb) = Some (Unwind Sp false (Some (-128)) (Some (-128)) None).
Proof. exact tied_misread. Qed.
Print Assumptions C37_tied_offsets_misread_refuted.

(** Everything else survives: for every function, all rows are read, in order,
    with start, base, mangled flag and wrapped offsets as written, and a row
    means what was asked for exactly when it is neither tied nor ambiguous. *)
Theorem C37_rows_round_trip_exact_partial : forall md md' e s bs sf,
  sfb_reach md s -> build md e s = Ok bs ->
  wf_mode md' -> rust_slice md' bs -> load md' e bs = Ok sf ->
  Forall2 (rows_result md' e (sb_options s) sf) (fdes_of s) (all_fdes sf).
Proof. exact trip_rows. Qed.
Print Assumptions C37_rows_round_trip_exact_partial.

Theorem C37_rows_round_trip_partial : forall md md' e s bs,
  sfb_sized md s -> build md e s = Ok bs -> wf_mode md' -> rust_slice md' bs ->
  (forall b r, In b (fdes_of s) -> In r (rows_of b) -> ~ tied r /\ ~ ambiguous (sb_options s) r) ->
  exists sf, load md' e bs = Ok sf /\
    Forall2 (fun b en => exists good, all_fres md' e en = Ok (map inl good) /\
      Forall2 (fun r fr => fre_start_address_offset fr = r_start r /\ observed sf fr = intended (sb_options s) r)
        (rows_of b) good) (fdes_of s) (all_fdes sf).
Proof. exact trip_rows_good. Qed.
Print Assumptions C37_rows_round_trip_partial.

Example C37_case : forall e,
  sfb_sized rel64 demo_sfb /\ build rel64 e demo_sfb = Ok (demo e) /\
  (forall b r, In b (fdes_of demo_sfb) -> In r (rows_of b) -> ~ tied r /\ ~ ambiguous (sb_options demo_sfb) r) /\
  (exists b r, In b (fdes_of demo_sfb) /\ In r (rows_of b)).
Proof.
  intros e. split; [apply demo_sized|]. split; [apply demo_built|]. split.
  - intros b r Hb Hr. vm_compute in Hb. destruct Hb as [<-|[<-|[]]]; vm_compute in Hr;
      repeat (destruct Hr as [<-|Hr]; [split;
        [intros (m & Hm & [->| ->] & _); vm_compute in Hm; discriminate
        |intros (_ & x & [= <-] & Hx & _); discriminate]|]); destruct Hr.
  - exists demo_f1, (row3 0 8 (-8) (-16)). vm_compute. auto.
Qed.

(** * C38 The chosen offset width holds every offset of the row: false *)

Theorem C38_width_too_small_refuted :
  row_typed tie_row /\ row_offset_type tie_row = SzU8 /\ In 128 (row_values tie_row) /\ ~ storable 1 128.
Proof. exact width_too_small. Qed.
Print Assumptions C38_width_too_small_refuted.

(** The only exception is a value -128 or -32768 of greatest magnitude that comes
    with its own negation. *)
Theorem C38_width_exact_partial : forall r,
  row_typed r ->
  (Forall (storable (Z.of_nat (addr_bytes (row_offset_type r)))) (row_values r) <-> ~ tied r).
Proof. exact width_exact. Qed.
Print Assumptions C38_width_exact_partial.

Example C38_case : row_typed (row3 0 300 (-8) (-16)) /\ row_offset_type (row3 0 300 (-8) (-16)) = SzU16 /\ tied tie_row.
Proof.
  split; [unfold row_typed, offsets_typed; cbn; in_range|]. split; [reflexivity|].
  exists (-128). vm_compute. auto.
Qed.

(** * C39 Every built section can be read back without panicking: false *)

Theorem C39_shrunk_function_panics_refuted :
  sfb_reach rel64 shrunk_sfb /\ build rel64 LE shrunk_sfb = Ok (shrunk LE) /\
  load rel64 LE (shrunk LE) = Ok (shrunk_sf LE) /\
  map (all_fres rel64 LE) (all_fdes (shrunk_sf LE)) = [Panic].
Proof. exact shrunk_unreadable. Qed.
Print Assumptions C39_shrunk_function_panics_refuted.

Theorem C39_readable_exact_partial : forall md md' e s bs sf,
  sfb_reach md s -> build md e s = Ok bs ->
  wf_mode md' -> rust_slice md' bs -> load md' e bs = Ok sf ->
  (Forall (reads_well md' e) (all_fdes sf) <-> Forall rows_inside (fdes_of s)) /\
  Forall (fun en => reads_well md' e en \/ all_fres md' e en = Panic) (all_fdes sf).
Proof. exact trip_readable. Qed.
Print Assumptions C39_readable_exact_partial.

(** Without [FuncDescBuilder::size] everything can be read back. *)
Theorem C39_readable_partial : forall md md' e s bs,
  sfb_sized md s -> build md e s = Ok bs -> wf_mode md' -> rust_slice md' bs ->
  exists sf, load md' e bs = Ok sf /\ Forall (reads_well md' e) (all_fdes sf).
Proof. exact trip_readable_sized. Qed.
Print Assumptions C39_readable_partial.

Example C39_case : forall e,
  sfb_sized rel64 demo_sfb /\ build rel64 e demo_sfb = Ok (demo e) /\ rust_slice dev32 (demo e) /\
  length (all_fdes (demo_sf e)) = 2%nat.
Proof.
  intros e. split; [apply demo_sized|]. split; [apply demo_built|]. split; [apply demo_slice, wf_dev32|].
  destruct e; vm_compute; reflexivity.
Qed.

(** * C45 Section options reach the reader unchanged *)

Theorem C45_options_reach_reader : forall md md' e s bs calls,
  sfb_reach md s -> build md e s = Ok bs -> wf_mode md' -> rust_slice md' bs ->
  Forall call_typed calls -> sb_options s = run_calls calls ->
  exists sf, load md' e bs = Ok sf /\
    flags sf = 1 + (if asked_frame_pointer calls then 2 else 0) /\
    abi sf = asked_abi calls /\
    fixed_fp_offset sf = zero_is_none (asked_fixed_fp calls) /\
    fixed_ra_offset sf = zero_is_none (asked_fixed_ra calls).
Proof. exact trip_options. Qed.
Print Assumptions C45_options_reach_reader.

Example C45_case : sfb_reach rel64 calls_sfb /\ sb_options calls_sfb = run_calls demo_calls /\
  Forall call_typed demo_calls /\ (exists bs, build rel64 LE calls_sfb = Ok bs) /\
  asked_frame_pointer demo_calls = true /\ asked_abi demo_calls = 3 /\
  zero_is_none (asked_fixed_fp demo_calls) = None /\ zero_is_none (asked_fixed_ra demo_calls) = Some (-8).
Proof.
  split; [apply calls_reach|]. split; [reflexivity|]. split; [apply demo_calls_typed|].
  split; [eexists; vm_compute; reflexivity|]. vm_compute. auto.
Qed.
