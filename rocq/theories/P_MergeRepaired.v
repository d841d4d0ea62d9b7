(** C42 and C43 with the distance of the merge repaired: what would have to be changed. *)
From Verif Require Import MergeRepairedWitness.
From Verif Require Import EmitWitness StdSpec.

(** * C42 Adjacent identical FDEs are merged into a repeated FDE *)

(** With write.rs:129 repaired ([MergeRepaired.v]) two functions are merged exactly if the
    second goes on where the first ends, with the same key, rows and blocks. *)
Theorem C42_repaired_partial : forall md s a b, sfb_reach md s -> fdes_of s = [a; b] ->
  (continues a b <-> exists s', merge_repaired md s = Ok s' /\ fdes_of s' = [MergeSpec.join a b]).
Proof. exact repaired_two. Qed.
Print Assumptions C42_repaired_partial.

(** A run of identical functions of at most 255 bytes becomes one function. *)
Theorem C42_repaired_run_partial : forall md s a n,
  sfb_reach md s -> fdes_of s = in_a_row a (S (S n)) -> fb_rep_size a = None -> 0 < fb_size a <= 255 ->
  Z.of_nat (S (S n)) * fb_size a <= u32_max ->
  exists s' b, merge_repaired md s = Ok s' /\ fdes_of s' = [b] /\ fb_start b = fb_start a /\
    fb_size b = Z.of_nat (S (S n)) * fb_size a /\ fb_rep_size b = Some (fb_size a) /\ rows_of b = rows_of a /\ fb_pauth b = fb_pauth a.
Proof. exact repaired_run. Qed.
Print Assumptions C42_repaired_run_partial.

(** * C43 Merging FDEs does not change unwinding *)

(** Also with that repair it is false: of a function that ends within a block the next one
    would not begin with a block. *)
Theorem C43_repaired_blocks_refuted :
  sfb_reach rel64 half_sfb /\ ~ overlapping half_sfb /\ merge_repaired rel64 half_sfb = Ok half_merged /\
  unwind_at half_sfb 0x118 KeyA plt_first /\ unwind_at half_merged 0x118 KeyA plt_second /\
  ~ unwind_at half_merged 0x118 KeyA plt_first.
Proof. exact half_lost. Qed.
Print Assumptions C43_repaired_blocks_refuted.

(** But it is true where repeated functions end with a whole block, and merging does not
    panic in any profile. *)
Theorem C43_repaired_partial : forall md s, sfb_reach md s ->
  exists s', merge_repaired md s = Ok s' /\ sb_options s' = sb_options s /\ joins (fdes_of s) (fdes_of s') /\
    (Forall whole_blocks (fdes_of s) -> forall a k p, unwind_at s' a k p <-> unwind_at s a k p).
Proof. exact repaired_both. Qed.
Print Assumptions C43_repaired_partial.

(** In particular in every converted section. *)
Theorem C43_repaired_converted_partial : forall md op eh s, eh_typed eh -> dwarf2sframe md op eh = Ok s ->
  exists s', merge_repaired md s = Ok s' /\ forall a k p, unwind_at s' a k p <-> unwind_at s a k p.
Proof. exact conv_repaired. Qed.
Print Assumptions C43_repaired_converted_partial.

Theorem C43_repaired_first_partial : forall md p ents s, ents_typed ents -> v1_convert md p ents = Ok s ->
  exists s', merge_repaired md s = Ok s' /\ forall a k q, unwind_at s' a k q <-> unwind_at s a k q.
Proof. exact v1_repaired. Qed.
Print Assumptions C43_repaired_first_partial.

(** The section built after merging has one descriptor less for each function merged away,
    and the library reads in it what it reads in the other. *)
Theorem C43_repaired_smaller_partial : forall md md1 md2 e e' s s' bs bs',
  sfb_reach md s -> merge_repaired md s = Ok s' -> build md1 e s = Ok bs -> build md2 e' s' = Ok bs' ->
  zlen (fdes_of s') <= zlen (fdes_of s) /\ zlen bs' + 20 * (zlen (fdes_of s) - zlen (fdes_of s')) <= zlen bs.
Proof. exact repaired_smaller. Qed.
Print Assumptions C43_repaired_smaller_partial.

Theorem C43_repaired_read_partial : forall md md1 md2 md1' md2' e e' s s' bs bs' sf sf',
  sfb_reach md s -> merge_repaired md s = Ok s' -> Forall (kept_whole (sb_options s)) (fdes_of s) ->
  build md1 e s = Ok bs -> wf_mode md1' -> rust_slice md1' bs -> load md1' e bs = Ok sf ->
  build md2 e' s' = Ok bs' -> wf_mode md2' -> rust_slice md2' bs' -> load md2' e' bs' = Ok sf' ->
  forall a k u, lib_says md2' e' sf' a k u <-> lib_says md1' e sf a k u.
Proof. exact repaired_read. Qed.
Print Assumptions C43_repaired_read_partial.

(** A linkage table of three entries: as it is nothing is merged, with the repair one
    function remains, and 118 bytes become 58. *)
Theorem C43_repaired_case : forall e,
  sfb_reach rel64 plt3_sfb /\ fdes_of plt3_sfb = in_a_row (plt_fde 0x100) 3 /\
  merge_adjacent_fdes rel64 plt3_sfb = Ok plt3_sfb /\ merge_repaired rel64 plt3_sfb = Ok plt3_merged /\
  map (fun b => (fb_start b, fb_size b, fb_rep_size b)) (fdes_of plt3_merged) = [(0x100, 48, Some 16)] /\
  Forall (kept_whole (sb_options plt3_sfb)) (fdes_of plt3_sfb) /\
  build rel64 e plt3_sfb = Ok (section e plt3_sfb) /\ build rel64 e plt3_merged = Ok (section e plt3_merged) /\
  load rel64 e (section e plt3_sfb) = Ok (sf_of e (section e plt3_sfb)) /\
  load rel64 e (section e plt3_merged) = Ok (sf_of e (section e plt3_merged)) /\
  rust_slice rel64 (section e plt3_sfb) /\ rust_slice rel64 (section e plt3_merged) /\
  zlen (section e plt3_sfb) = 118 /\ zlen (section e plt3_merged) = 58 /\
  says_at rel64 e (sf_of e (section e plt3_sfb)) 0x127 = [(KeyA, Unwind Sp false (Some 16) (Some (-8)) (Some (-16)))] /\
  says_at rel64 e (sf_of e (section e plt3_merged)) 0x127 = [(KeyA, Unwind Sp false (Some 16) (Some (-8)) (Some (-16)))].
Proof. exact plt3_case. Qed.
