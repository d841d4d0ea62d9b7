(** Property theorems of the builders: C26-C31, C40-C44. *)
From Verif Require Import WriteWitness.

(** * C26 row() accepts exactly the admissible rows *)

Theorem C26_row_accepts_exactly : forall b r,
  fdb_reach b ->
  (snd (fdb_row_st b r) = Ok tt <-> Forall (fun p => fst p) (row_conditions b r)) /\
  (forall er, snd (fdb_row_st b r) = Err er <-> first_violated (row_conditions b r) er) /\
  snd (fdb_row_st b r) <> Panic.
Proof. exact reach_row_accepts. Qed.
Print Assumptions C26_row_accepts_exactly.

Example C26_case : fdb_reach sample /\
  snd (fdb_row_st sample (row3 12 8 (-8) (-16))) = Ok tt /\
  snd (fdb_row_st sample (row3 4 8 (-8) (-16))) = Err DuplicateRow /\
  snd (fdb_row_st sample (row3 12 8 (-16) (-16))) = Err UnexpectedRaOffset /\
  snd (fdb_row_st sample (row3 64 8 (-8) (-16))) = Err StartAddressOutsideFde /\
  snd (fdb_row_st (fdb_pcmask 8 sample) (row3 12 8 (-8) (-16))) = Err StartAddressLargerThanRepSize /\
  snd (fdb_row_st sample (row3 0x10000000 8 (-8) (-16))) = Err StartAddressTooLarge.
Proof. split; [apply sample_reach|]. vm_compute. repeat split. Qed.

(** * C27 row() adds exactly one row or changes nothing *)

Theorem C27_row_adds_one_or_nothing : forall b r,
  fdb_reach b ->
  let b' := fst (fdb_row_st b r) in
  match snd (fdb_row_st b r) with
  | Ok _ =>
      fb_options b' = fb_options b /\ fb_start b' = fb_start b /\ fb_size b' = fb_size b /\
      fb_rep_size b' = fb_rep_size b /\ fb_pauth b' = fb_pauth b /\
      Permutation (rows_of b') (kept_row (fb_options b) r :: rows_of b)
  | _ => b' = b
  end.
Proof. exact reach_row_effect. Qed.
Print Assumptions C27_row_adds_one_or_nothing.

Example C27_case : fdb_reach sample0 /\
  rows_of (fst (fdb_row_st sample0 (row3 4 16 (-8) (-16)))) =
    [row_new Sp 4 {| ro_cfa := 16; ro_ra := None; ro_fp := Some (-16) |}].
Proof. split; [apply sample0_reach|]. vm_compute. reflexivity. Qed.

(** * C28 Rows missing a required offset are rejected: false *)

Theorem C28_missing_offsets_accepted_refuted :
  fdb_reach blank /\ row_typed no_ra_row /\ row_typed no_fp_row /\
  so_fixed_ra (fb_options blank) = None /\ so_fixed_fp (fb_options blank) = None /\
  snd (fdb_row_st blank no_ra_row) = Ok tt /\ snd (fdb_row_st blank no_fp_row) = Ok tt.
Proof. exact missing_accepted. Qed.
Print Assumptions C28_missing_offsets_accepted_refuted.

(** The two errors are never reported at all. *)
Theorem C28_missing_errors_never_reported_partial : forall b r,
  snd (fdb_row_st b r) <> Err MissingRaOffset /\ snd (fdb_row_st b r) <> Err MissingFpOffset.
Proof. exact row_never_missing. Qed.
Print Assumptions C28_missing_errors_never_reported_partial.

(** * C29 Builder rows always satisfy the format's limits *)

Theorem C29_rows_within_limits : forall b,
  fdb_reach b ->
  NoDup (map r_start (rows_of b)) /\
  Forall (fun r => 0 <= r_start r < 0x10000000) (rows_of b) /\
  (forall r o, In r (rows_of b) -> r_offsets r = Some o ->
     (so_fixed_ra (fb_options b) <> None -> ro_ra o = None) /\
     (so_fixed_fp (fb_options b) <> None -> ro_fp o = None)) /\
  (forall E, @addr_type E (max_offset b) <> Panic).
Proof. exact reach_rows. Qed.
Print Assumptions C29_rows_within_limits.

Example C29_case : fdb_reach sample /\ length (rows_of sample) = 4%nat /\
  so_fixed_ra (fb_options sample) = Some (-8).
Proof. split; [apply sample_reach|]. vm_compute. auto. Qed.

(** * C30 Adding an FDE replaces only the FDE with the same start *)

Theorem C30_fde_replaces_same_start : forall md s b,
  sfb_reach md s -> fdb_reach b ->
  (fb_options b <> sb_options s <-> sfb_fde s b = Panic) /\
  (fb_options b = sb_options s ->
   exists s', sfb_fde s b = Ok s' /\ sb_options s' = sb_options s /\
     (forall c, In c (fdes_of s') <-> c = b \/ (In c (fdes_of s) /\ fb_start c <> fb_start b)) /\
     StronglySorted Z.lt (map fb_start (fdes_of s'))).
Proof. exact reach_fde_effect. Qed.
Print Assumptions C30_fde_replaces_same_start.

Example C30_case :
  sfb_reach dev64 demo_sfb /\ fdb_reach blank /\ fb_start blank = fb_start demo_f1 /\
  fb_options blank = sb_options demo_sfb /\ fb_options sample <> sb_options demo_sfb /\
  fdes_of (get_ok demo_sfb (sfb_fde demo_sfb blank)) = [blank; demo_f2].
Proof.
  split; [apply demo_reach|]. split; [apply blank_reach|]. split; [reflexivity|]. split; [reflexivity|].
  split; [discriminate|vm_compute; reflexivity].
Qed.

(** * C31 Output does not depend on insertion order *)

Theorem C31_row_order_irrelevant : forall b l1 l2 b',
  fdb_reach b -> Permutation l1 l2 -> NoDup (map r_start l1) ->
  (add_rows b l1 = Ok b' <-> add_rows b l2 = Ok b').
Proof. exact reach_rows_order. Qed.
Print Assumptions C31_row_order_irrelevant.

Theorem C31_fde_order_irrelevant : forall md s l1 l2,
  sfb_reach md s -> Permutation l1 l2 -> NoDup (map fb_start l1) ->
  add_fdes s l1 = add_fdes s l2.
Proof. exact reach_fdes_order. Qed.
Print Assumptions C31_fde_order_irrelevant.

Example C31_case :
  add_rows sample0 (rev sample_rows) = Ok sample /\ add_rows sample0 sample_rows = Ok sample /\
  add_fdes (sfb_new options_new) [demo_f1; demo_f2] = Ok demo_sfb /\
  add_fdes (sfb_new options_new) [demo_f2; demo_f1] = Ok demo_sfb.
Proof. vm_compute. repeat split. Qed.

(** * C40 Merging identical rows does not change unwinding *)

Theorem C40_row_merge_preserves_unwinding : forall b b' x p,
  fdb_reach b -> merge_adjacent_fres b = Ok b' ->
  fb_options b' = fb_options b /\ fb_start b' = fb_start b /\ fb_size b' = fb_size b /\
  fb_rep_size b' = fb_rep_size b /\ fb_pauth b' = fb_pauth b /\
  (says (rows_of b') x p <-> says (rows_of b) x p).
Proof. exact reach_merge_rows. Qed.
Print Assumptions C40_row_merge_preserves_unwinding.

(** * C41 Row merging is minimal, idempotent and terminates *)

Theorem C41_row_merge_minimal : forall b,
  fdb_reach b ->
  exists b', merge_adjacent_fres b = Ok b' /\
    (forall r1 r2, neighbours (rows_of b') r1 r2 -> payload r1 <> payload r2) /\
    incl (rows_of b') (rows_of b) /\
    hd_error (rows_of b') = hd_error (rows_of b) /\
    merge_adjacent_fres b' = Ok b'.
Proof. exact reach_merge_minimal. Qed.
Print Assumptions C41_row_merge_minimal.

Example C41_case : fdb_reach sample /\ length (rows_of sample) = 4%nat /\
  map r_start (rows_of (get_ok sample (merge_adjacent_fres sample))) = [0; 4; 20].
Proof. split; [apply sample_reach|]. vm_compute. auto. Qed.

(** * C42 Adjacent identical FDEs are merged into a repeated FDE: false *)

Theorem C42_adjacent_fdes_not_merged_refuted : forall md,
  exists s a b,
    sfb_reach md s /\ fdes_of s = [a; b] /\
    fb_pauth a = fb_pauth b /\ fb_size a = fb_size b /\ fb_size a <= 255 /\ rows_of a = rows_of b /\
    fb_rep_size a = None /\ fb_rep_size b = None /\
    fb_start b = fb_start a + fb_size a /\
    merge_adjacent_fdes md s = Ok s.
Proof. exact adjacent_not_merged. Qed.
Print Assumptions C42_adjacent_fdes_not_merged_refuted.

(** It is false of every builder, not only of that one. *)
Theorem C42_back_to_back_fdes_never_merged_partial : forall md s,
  sfb_reach md s ->
  (forall a b, neighbours (fdes_of s) a b -> fb_start b = fb_start a + fb_size a /\ fb_size a <= 255) ->
  merge_adjacent_fdes md s = Ok s.
Proof. exact back_to_back_never_merged. Qed.
Print Assumptions C42_back_to_back_fdes_never_merged_partial.

(** Exactly when two functions are merged. *)
Theorem C42_merge_condition_partial : forall md s a b,
  sfb_reach md s -> fdes_of s = [a; b] ->
  (mergeable md a b <-> exists s', merge_adjacent_fdes md s = Ok s' /\ length (fdes_of s') = 1%nat).
Proof. exact merge_two. Qed.
Print Assumptions C42_merge_condition_partial.

(** * C43 Merging FDEs does not change unwinding: false *)

Theorem C43_merge_loses_unwinding_refuted :
  exists s s' a k p,
    sfb_reach rel64 s /\ ~ overlapping s /\ merge_adjacent_fdes rel64 s = Ok s' /\
    unwind_at s a k p /\ forall k' p', ~ unwind_at s' a k' p'.
Proof. exact merge_changes_unwinding. Qed.
Print Assumptions C43_merge_loses_unwinding_refuted.

(** It holds when no function starts below address 0: nothing is merged. *)
Theorem C43_merge_changes_nothing_partial : forall md s,
  sfb_reach md s -> ~ overlapping s ->
  (forall b, In b (fdes_of s) -> 0 <= fb_start b) ->
  merge_adjacent_fdes md s = Ok s.
Proof. exact merge_fdes_nonneg. Qed.
Print Assumptions C43_merge_changes_nothing_partial.

(** And in checked builds for functions smaller than 2^31 bytes. *)
Theorem C43_merge_changes_nothing_checked_partial : forall md s s',
  sfb_reach md s -> overflow_checks md = true ->
  (forall b, In b (fdes_of s) -> fb_size b < 2 ^ 31) ->
  merge_adjacent_fdes md s = Ok s' -> s' = s.
Proof. exact merge_fdes_checked. Qed.
Print Assumptions C43_merge_changes_nothing_checked_partial.

(** In general nothing but [mergeable] neighbours is merged. *)
Theorem C43_only_mergeable_partial : forall md s,
  sfb_reach md s ->
  (forall a b, neighbours (fdes_of s) a b -> ~ mergeable md a b) ->
  merge_adjacent_fdes md s = Ok s \/ merge_adjacent_fdes md s = Panic.
Proof. exact merge_fdes_only_mergeable. Qed.
Print Assumptions C43_only_mergeable_partial.

(** * C44 FDE merging terminates and only removes FDEs *)

Theorem C44_fde_merge_terminates : forall md s,
  sfb_reach md s ->
  match merge_adjacent_fdes md s with
  | Ok s' =>
      sb_options s' = sb_options s /\
      option_map fb_start (hd_error (fdes_of s')) = option_map fb_start (hd_error (fdes_of s)) /\
      Sorted Z.lt (map fb_start (fdes_of s')) /\
      forall b', In b' (fdes_of s') ->
        exists b, In b (fdes_of s) /\ fb_start b' = fb_start b /\ rows_of b' = rows_of b /\
          fb_pauth b' = fb_pauth b
  | Err _ => False
  | Panic => overflow_checks md = true /\
      exists a b, In a (fdes_of s) /\ In b (fdes_of s) /\ i32_max < fb_start b - fb_start a
  end.
Proof. exact merge_fdes_terminates. Qed.
Print Assumptions C44_fde_merge_terminates.

Example C44_case :
  sfb_reach rel64 (plt_pair (-2147483648) 2147483632) /\
  length (fdes_of (get_ok (sfb_new options_new) (merge_adjacent_fdes rel64 (plt_pair (-2147483648) 2147483632)))) = 1%nat.
Proof.
  split; [apply plt_pair_reach; unfold in_i32, i32_min, i32_max; lia|]. vm_compute. reflexivity.
Qed.
