(** C25, C32, C38, C63 and C132 with four small repairs of [build]: what would have to be
    changed. *)
From Verif Require Import WriteRepairedWitness.
From Verif Require Import EmitWitness StdSpec.

(** * C132 An unwinder that follows the specification finds in a built section what was asked for *)

(** With the repairs of [WriteRepaired.v] the statement holds of every section that is
    built: repeated functions, key B and all offsets included. *)
Theorem C132_repaired_partial : forall md e s bs, sfb_reach md s -> build_repaired md e s = Ok bs ->
  forall a k u, std_says e bs a k u <-> asked_with_key s a k u.
Proof. exact repaired_says. Qed.
Print Assumptions C132_repaired_partial.

(** It is built exactly if the format can say it, the functions do not overlap, and the
    sizes fit; otherwise the reason is reported.  It never panics. *)
Theorem C132_repaired_outcomes_partial : forall md e s, sfb_reach md s ->
  (build_repaired md e s = Err CannotBeSaid <-> unsayable s) /\
  (build_repaired md e s = Err (Emitting OverlappingFdes) <-> ~ unsayable s /\ overlapping s) /\
  (build_repaired md e s = Err (Emitting SectionTooLarge) <-> ~ unsayable s /\ ~ overlapping s /\ exact_too_large s) /\
  ((exists bs, build_repaired md e s = Ok bs) <-> ~ unsayable s /\ ~ overlapping s /\ ~ exact_too_large s) /\
  build_repaired md e s <> Panic.
Proof. exact repaired_outcomes. Qed.
Print Assumptions C132_repaired_outcomes_partial.

(** Without the repairs this is [build] as it is, and where [build] is right already the
    repairs change nothing. *)
Theorem C132_unrepaired_partial : forall md e s, build_with no_fixes md e s = emitted (build md e s).
Proof. exact unrepaired. Qed.
Print Assumptions C132_unrepaired_partial.

Theorem C132_repaired_same_partial : forall md e s, sfb_reach md s -> untouched s -> build md e s <> Panic ->
  build_repaired md e s = emitted (build md e s).
Proof. exact repaired_same. Qed.
Print Assumptions C132_repaired_same_partial.

(** Each of the four is needed. *)
Theorem C132_needed_refuted : forall e,
  (sfb_reach dev64 gap_sfb /\ build_with but_gap dev64 e gap_sfb = Panic /\ exists bs, build_repaired dev64 e gap_sfb = Ok bs) /\
  (sfb_reach rel64 tie_sfb /\ asked_with_key tie_sfb 0x100 KeyA (Unwind Sp false (Some (-128)) (Some 128) None) /\
   exists bs, build_with but_width rel64 e tie_sfb = Ok bs /\
     forall k, ~ std_says e bs 0x100 k (Unwind Sp false (Some (-128)) (Some 128) None)) /\
  (sfb_reach rel64 blocks_sfb /\ asked_with_key blocks_sfb 0x104 KeyA second_row /\
   exists bs, build_with but_info rel64 e blocks_sfb = Ok bs /\ forall a k u, ~ std_says e bs a k u) /\
  (sfb_reach rel64 amb_sfb /\ asked_with_key amb_sfb 0x100 KeyA (Unwind Sp false (Some 16) None (Some (-16))) /\
   exists bs, build_with but_refuse rel64 e amb_sfb = Ok bs /\
     forall k, ~ std_says e bs 0x100 k (Unwind Sp false (Some 16) None (Some (-16)))).
Proof. exact each_needed. Qed.
Print Assumptions C132_needed_refuted.

(** A section with a far function, one signed with key B, an ordinary one, one with blocks
    and key B, and one with a tied row. *)
Theorem C132_repaired_case : forall e,
  sfb_reach dev64 mixed_sfb /\ build_repaired dev64 e mixed_sfb = Ok (mixed_bytes e) /\
  std_says e (mixed_bytes e) 0x104 KeyB second_row /\
  std_says e (mixed_bytes e) 0x204 KeyA (Unwind Sp false (Some 24) (Some (-8)) (Some (-16))) /\
  std_says e (mixed_bytes e) 0x41b KeyB first_row /\
  std_says e (mixed_bytes e) 0x41d KeyB second_row /\
  std_says e (mixed_bytes e) 0x508 KeyA (Unwind Sp false (Some (-128)) (Some 128) None) /\
  forall k u, ~ std_says e (mixed_bytes e) 0x420 k u.
Proof. exact mixed_case. Qed.
Print Assumptions C132_repaired_case.

Theorem C132_repaired_outcomes_case :
  (sfb_reach rel64 amb_sfb /\ unsayable amb_sfb) /\ (sfb_reach rel64 empty_blocks_sfb /\ unsayable empty_blocks_sfb) /\
  (sfb_reach dev64 mixed_sfb /\ ~ unsayable mixed_sfb /\ ~ overlapping mixed_sfb /\ ~ exact_too_large mixed_sfb) /\
  (sfb_reach rel64 over_sfb /\ ~ unsayable over_sfb /\ overlapping over_sfb).
Proof. exact refused_case. Qed.
Print Assumptions C132_repaired_outcomes_case.

Theorem C132_repaired_same_case : sfb_reach rel64 demo_sfb /\ untouched demo_sfb /\ build rel64 LE demo_sfb = Ok (demo LE) /\
  build_repaired rel64 LE demo_sfb = Ok (demo LE).
Proof. exact same_case. Qed.
Print Assumptions C132_repaired_same_case.

(** * C25 Info bytes follow the SFrame v2 bit layout *)

(** The repaired setters: each writes the bits of the specification and no others. *)
Theorem C25_repaired_partial : forall t f k i, in_u8 i ->
  (bits 0 4 (set_fretype_with all_fixes t i) = fre_type_u8 t /\ bits 4 4 (set_fretype_with all_fixes t i) = bits 4 4 i) /\
  (bits 4 1 (set_fdetype_with all_fixes f i) = fde_type_u8 f /\ bits 0 4 (set_fdetype_with all_fixes f i) = bits 0 4 i /\
     bits 5 3 (set_fdetype_with all_fixes f i) = bits 5 3 i) /\
  (bits 5 1 (set_pauth_key_with all_fixes k i) = pauth_u8 k /\ bits 0 5 (set_pauth_key_with all_fixes k i) = bits 0 5 i /\
     bits 6 2 (set_pauth_key_with all_fixes k i) = bits 6 2 i).
Proof. exact repaired_info. Qed.
Print Assumptions C25_repaired_partial.

(** * C32 Overlaps are reported exactly when they exist *)

(** With the distance repaired, in every profile and over any gap. *)
Theorem C32_repaired_partial : forall md e s, sfb_reach md s -> ~ unsayable s ->
  (build_repaired md e s = Err (Emitting OverlappingFdes) <-> overlapping s).
Proof. exact repaired_gap. Qed.
Print Assumptions C32_repaired_partial.

(** * C38 The chosen offset width holds every offset of the row *)

(** The repaired width is the smallest that does. *)
Theorem C38_repaired_partial : forall r, row_typed r -> smallest_width r (Z.of_nat (addr_bytes (row_type_with all_fixes r))).
Proof. exact repaired_width. Qed.
Print Assumptions C38_repaired_partial.

(** * C63 Different contents give different bytes *)

Theorem C63_repaired_partial : forall md md' e s s' bs, sfb_reach md s -> sfb_reach md' s' ->
  build_repaired md e s = Ok bs -> build_repaired md' e s' = Ok bs ->
  forall a k u, asked_with_key s a k u <-> asked_with_key s' a k u.
Proof. exact repaired_injective. Qed.
Print Assumptions C63_repaired_partial.
