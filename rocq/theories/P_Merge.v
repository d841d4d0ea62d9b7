(** Further property theorems of built sections (C04) and of merging functions (C44). *)
From Verif Require Import MergeExact.

(** * C04 The wrong byte order is detected *)

(** In particular every built section is rejected when it is read in the other
    byte order. *)
Theorem C04_built : forall md md' e s bs,
  sfb_reach md s -> build md e s = Ok bs -> wf_mode md' -> rust_slice md' bs ->
  load md' (swap e) bs = Err IncorrectEndian.
Proof. exact built_other_order. Qed.
Print Assumptions C04_built.

(** * C44 FDE merging terminates and only removes FDEs *)

(** The result and the panics, exactly. *)
Theorem C44_result : forall md s, sfb_reach md s ->
  (forall s', merge_adjacent_fdes md s = Ok s' -> sb_options s' = sb_options s /\ merges md (fdes_of s) (fdes_of s')) /\
  (merge_adjacent_fdes md s = Panic <-> jams md (fdes_of s)).
Proof. exact merge_exact. Qed.
Print Assumptions C44_result.

Theorem C44_one_result : forall md l l1 l2, merges md l l1 -> merges md l l2 -> l1 = l2.
Proof. exact merges_fun. Qed.
Print Assumptions C44_one_result.

(** Two functions at the two ends of the address range: merged in a release build,
    a panic in a checked one. *)
Example C44_result_case : let a := plt_fde (-2147483648) in let b := plt_fde 2147483632 in
  fdes_of (plt_pair (-2147483648) 2147483632) = [a; b] /\ mergeable rel64 a b /\ too_far dev64 a b /\
  merges rel64 [a; b] [join a b] /\ fb_size (join a b) = 32 /\ fb_rep_size (join a b) = Some 16 /\
  merge_adjacent_fdes rel64 (plt_pair (-2147483648) 2147483632) =
    Ok {| sb_options := options_new; sb_fdes := [(-2147483648, join a b)] |} /\
  merge_adjacent_fdes dev64 (plt_pair (-2147483648) 2147483632) = Panic.
Proof. exact ends_merge. Qed.
