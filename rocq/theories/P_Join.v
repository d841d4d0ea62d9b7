(** Properties C148 and C149: sections made into one, and the builders there are. *)
From Verif Require Import MergeExact JoinWitness.

(** * C148 Two sections joined with the builder say what the two say *)

(** Joining: with the same options and different starts it succeeds, in whichever order,
    and the result has the functions of both. *)
Theorem C148_joins : forall md1 md2 md s1 s2,
  sfb_reach md1 s1 -> sfb_reach md2 s2 -> distinct s1 s2 -> sb_options s1 = sb_options s2 ->
  exists s, joined_sfb s1 s2 s /\ joined_sfb s2 s1 s /\ sfb_reach md s /\ sb_options s = sb_options s1 /\
    Permutation (fdes_of s) (fdes_of s1 ++ fdes_of s2).
Proof. exact joins. Qed.
Print Assumptions C148_joins.

(** It can be built when the two do not overlap and the sizes fit, and the section has
    one header less than the two. *)
Theorem C148_builds : forall md1 md2 md s1 s2,
  sfb_reach md1 s1 -> sfb_reach md2 s2 -> distinct s1 s2 ->
  forall e s, joined_sfb s1 s2 s -> separate s1 s2 -> ~ overlapping s1 -> ~ overlapping s2 ->
  fre_size s1 + fre_size s2 <= u32_max -> 20 * (zlen (fdes_of s1) + zlen (fdes_of s2)) <= u32_max ->
  (overflow_checks md = false \/ ~ wide_gap (fdes_of s)) ->
  exists bs, build md e s = Ok bs /\
    zlen bs = 28 + 20 * (zlen (fdes_of s1) + zlen (fdes_of s2)) + (fre_size s1 + fre_size s2).
Proof. exact joins_build. Qed.
Print Assumptions C148_builds.

(** At every address the joined section says what one of the two says. *)
Theorem C148_says : forall md1 md2 md md1' md2' md' e1 e2 e s1 s2 s bs1 bs2 bs sf1 sf2 sf,
  sfb_reach md1 s1 -> build md1 e1 s1 = Ok bs1 -> wf_mode md1' -> rust_slice md1' bs1 -> load md1' e1 bs1 = Ok sf1 ->
  sfb_reach md2 s2 -> build md2 e2 s2 = Ok bs2 -> wf_mode md2' -> rust_slice md2' bs2 -> load md2' e2 bs2 = Ok sf2 ->
  distinct s1 s2 -> joined_sfb s1 s2 s ->
  build md e s = Ok bs -> wf_mode md' -> rust_slice md' bs -> load md' e bs = Ok sf ->
  forall a k u, lib_says md' e sf a k u <-> lib_says md1' e1 sf1 a k u \/ lib_says md2' e2 sf2 a k u.
Proof. exact joined_says. Qed.
Print Assumptions C148_says.

(** The same starting from bytes: the builders are those of two sections that were read. *)
Theorem C148_read : forall md1 md2 md md1' md2' md' e1 e2 e bs1 bs2 bs sf1 sf2 sf s1 s2 s,
  read_again md1 md1' e1 bs1 sf1 s1 -> read_again md2 md2' e2 bs2 sf2 s2 -> distinct s1 s2 -> joined_sfb s1 s2 s ->
  build md e s = Ok bs -> wf_mode md' -> rust_slice md' bs -> load md' e bs = Ok sf ->
  forall a k u, lib_says md' e sf a k u <-> lib_says md1' e1 sf1 a k u \/ lib_says md2' e2 sf2 a k u.
Proof. exact joined_read. Qed.
Print Assumptions C148_read.

(** The sections the library builds are read so, with the functions they were made from. *)
Theorem C148_readable : forall md md' e s bs,
  sfb_reach md s -> build md e s = Ok bs -> wf_mode md' -> rust_slice md' bs ->
  Forall rows_inside (fdes_of s) -> (forall b r, In b (fdes_of s) -> In r (rows_of b) -> made_invalid r) ->
  exists sf s', read_again md md' e bs sf s' /\
    map fb_start (fdes_of s') = map fb_start (fdes_of s) /\ map fb_size (fdes_of s') = map fb_size (fdes_of s).
Proof. exact built_read_again. Qed.
Print Assumptions C148_readable.

(** The two functions of the sample, each in a section of its own, in different byte orders. *)
Example C148_case : forall e,
  sfb_reach rel64 single_sfb /\ sfb_reach rel64 second_sfb /\ sb_options single_sfb = sb_options second_sfb /\
  distinct single_sfb second_sfb /\ separate single_sfb second_sfb /\ ~ overlapping single_sfb /\ ~ overlapping second_sfb /\
  ~ wide_gap (fdes_of demo_sfb) /\ joined_sfb single_sfb second_sfb demo_sfb /\ joined_sfb second_sfb single_sfb demo_sfb /\
  read_again rel64 rel64 e (single e) (single_sf e) single_sfb /\
  read_again rel64 rel64 (flip e) (second (flip e)) (second_sf (flip e)) second_sfb /\
  build rel64 e demo_sfb = Ok (demo e) /\ rust_slice rel64 (demo e) /\ load rel64 e (demo e) = Ok (demo_sf e) /\
  says_at rel64 e (single_sf e) 0x104 = [(KeyA, second_row)] /\ says_at rel64 (flip e) (second_sf (flip e)) 0x104 = [] /\
  says_at rel64 e (demo_sf e) 0x104 = [(KeyA, second_row)] /\
  says_at rel64 e (single_sf e) 0x204 = [] /\ says_at rel64 (flip e) (second_sf (flip e)) 0x204 = [(KeyA, third_row)] /\
  says_at rel64 e (demo_sf e) 0x204 = [(KeyA, third_row)].
Proof. exact join_case. Qed.

(** With a common start the function added later takes the place of the other. *)
Example C148_same_start :
  sfb_reach rel64 single_sfb /\ sfb_reach rel64 rival_sfb /\ ~ distinct single_sfb rival_sfb /\
  joined_sfb single_sfb rival_sfb rival_sfb /\ joined_sfb rival_sfb single_sfb single_sfb /\ rival_sfb <> single_sfb.
Proof. exact same_start. Qed.

(** * C149 The profile in which a builder was made does not matter *)

(** Merging functions differs between the profiles, but the builders that can be made are
    the same: those that have their functions added one after the other. *)
Theorem C149_profiles : forall md md' s, sfb_reach md s -> sfb_reach md' s.
Proof. exact reach_anywhere. Qed.
Print Assumptions C149_profiles.

Theorem C149_functions : forall md s, sfb_reach md s ->
  Forall fdb_reach (fdes_of s) /\ add_fdes (sfb_new (sb_options s)) (fdes_of s) = Ok s.
Proof. exact made_of_functions. Qed.
Print Assumptions C149_functions.

(** Two functions at the two ends of the address range are merged in a release build only. *)
Example C149_case : exists s,
  sfb_reach rel64 (plt_pair (-2147483648) 2147483632) /\ merge_adjacent_fdes rel64 (plt_pair (-2147483648) 2147483632) = Ok s /\
  merge_adjacent_fdes dev64 (plt_pair (-2147483648) 2147483632) = Panic /\
  fdes_of s = [MergeSpec.join (plt_fde (-2147483648)) (plt_fde 2147483632)] /\ sfb_reach dev64 s.
Proof. exact profile_case. Qed.
