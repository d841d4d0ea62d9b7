(** C65 and C134 with the look-ups repaired in six places: what would have to be changed. *)
From Verif Require Import ReadRepairedWitness.
From Verif Require Import EmitWitness StdWitness.

(** * C134 Sections of other producers are read as the specification says *)

(** With the repairs of [ReadRepaired.v] the look-ups say in every accepted section of
    version 2, of whatever producer, what the specification says there. *)
Theorem C134_repaired_partial : forall md e bs sf, wf_mode md -> rust_slice md bs -> load md e bs = Ok sf ->
  forall a, in_i32 a -> spec_version bs = 2 -> laid_out e bs -> legible e bs a ->
  (forall k u, lookup_key all_rfixes md e sf a = Ok (Some (k, u)) <-> std_says e bs a k u) /\
  (lookup_key all_rfixes md e sf a = Ok None <-> forall k u, ~ std_says e bs a k u).
Proof. exact whole_says. Qed.
Print Assumptions C134_repaired_partial.

(** The three sections that refute C134. *)
Theorem C134_repaired_case : forall e,
  (load rel64 e (masked e) = Ok (masked_sf e) /\ spec_version (masked e) = 2 /\ laid_out e (masked e) /\ legible e (masked e) 0x108 /\
   std_says e (masked e) 0x108 KeyA first_row /\
   lookup_key all_rfixes rel64 e (masked_sf e) 0x108 = Ok (Some (KeyA, first_row))) /\
  (load rel64 e (keyed_b e) = Ok (keyed_b_sf e) /\ spec_version (keyed_b e) = 2 /\ laid_out e (keyed_b e) /\ legible e (keyed_b e) 0x104 /\
   std_says e (keyed_b e) 0x104 KeyB second_row /\
   lookup_key all_rfixes rel64 e (keyed_b_sf e) 0x104 = Ok (Some (KeyB, second_row))) /\
  (load rel64 e (cut_short e) = Ok (cut_short_sf e) /\ spec_version (cut_short e) = 2 /\ laid_out e (cut_short e) /\
   legible e (cut_short e) 0x102 /\ std_says e (cut_short e) 0x102 KeyA first_row /\
   lookup_key all_rfixes rel64 e (cut_short_sf e) 0x102 = Ok (Some (KeyA, first_row))).
Proof. exact other_case. Qed.
Print Assumptions C134_repaired_case.

(** In any accepted section, legible or not, of either version, every look-up gives an
    answer or an error of the section. *)
Theorem C134_answered_partial : forall md e bs sf, wf_mode md -> rust_slice md bs -> load md e bs = Ok sf ->
  forall a, in_i32 a -> answered (lookup_key all_rfixes md e sf a).
Proof. exact whole_answers. Qed.
Print Assumptions C134_answered_partial.

(** Rows of an unknown format are not read. *)
Theorem C134_unknown_partial : forall md e bs sf, wf_mode md -> rust_slice md bs -> load md e bs = Ok sf ->
  forall a i, in_i32 a -> spec_version bs = 2 -> laid_out e bs -> 0 <= i < spec_num_fdes e bs ->
  in_range (sd_start (spec_entry e bs i)) (sd_size (spec_entry e bs i)) a ->
  width_of (std_fre_type (spec_entry e bs i)) = None -> 0 < sd_num_fres (spec_entry e bs i) ->
  std_offset (spec_entry e bs i) a <> None ->
  exists ty, lookup_key all_rfixes md e sf a = Err (inr (UnsupportedFreType ty)) /\
    fre_type_u8 ty = Z.min 7 (std_fre_type (spec_entry e bs i)).
Proof. exact whole_unknown. Qed.
Print Assumptions C134_unknown_partial.

(** Formats 3 and 11. *)
Theorem C134_unknown_case : forall e t, (t = x03 \/ t = x0b) ->
  load rel64 e (set_byte 44 t (single e)) = Ok (unknown_sf e t) /\ spec_version (set_byte 44 t (single e)) = 2 /\
  laid_out e (set_byte 44 t (single e)) /\
  0 <= 0 < spec_num_fdes e (set_byte 44 t (single e)) /\
  in_range (sd_start (spec_entry e (set_byte 44 t (single e)) 0)) (sd_size (spec_entry e (set_byte 44 t (single e)) 0)) 0x104 /\
  width_of (std_fre_type (spec_entry e (set_byte 44 t (single e)) 0)) = None /\
  0 < sd_num_fres (spec_entry e (set_byte 44 t (single e)) 0) /\
  std_offset (spec_entry e (set_byte 44 t (single e)) 0) 0x104 <> None /\
  rust_slice rel64 (set_byte 44 t (single e)).
Proof. exact unknown_case. Qed.
Print Assumptions C134_unknown_case.

(** * C65 Looking up an address gives what was asked for there *)

(** With writer and reader repaired the statement holds of every builder and address,
    and the key is right as well. *)
Theorem C65_both_repaired_partial : forall md e s bs, sfb_reach md s -> build_repaired md e s = Ok bs ->
  forall md', wf_mode md' -> rust_slice md' bs ->
  exists sf, load md' e bs = Ok sf /\ forall a, in_i32 a ->
    (forall k u, lookup_key all_rfixes md' e sf a = Ok (Some (k, u)) <-> asked_with_key s a k u) /\
    (lookup_key all_rfixes md' e sf a = Ok None <-> forall k u, ~ asked_with_key s a k u).
Proof. exact both_repaired. Qed.
Print Assumptions C65_both_repaired_partial.

(** Without repairs it is the reader as it is. *)
Theorem C65_whole_unrepaired_case : forall md e sf a, without_key (lookup_key no_rfixes md e sf a) = lookup md e sf a.
Proof. exact whole_unrepaired. Qed.
Print Assumptions C65_whole_unrepaired_case.

(** Each of the six repairs is needed though the writer is repaired. *)
Theorem C65_all_needed_refuted : forall e,
  (asked_with_key mixed_sfb 0x104 KeyB second_row /\
     lookup_key (RFixes but_order true true) dev64 e (mixed_sf e) 0x104 = Ok None) /\
  (asked_with_key mixed_sfb 0x204 KeyA (Unwind Sp false (Some 24) (Some (-8)) (Some (-16))) /\
     lookup_key (RFixes but_rows true true) dev64 e (mixed_sf e) 0x204 = Ok (Some (KeyA, first_row))) /\
  (asked_with_key mixed_sfb 0x104 KeyB second_row /\
     lookup_key (RFixes but_pick true true) dev64 e (mixed_sf e) 0x104 = Ok (Some (KeyB, first_row))) /\
  (sfb_reach dev64 gap_sfb /\ build_repaired dev64 e gap_sfb = Ok (gap_bytes e) /\ load dev64 e (gap_bytes e) = Ok (gap_sf e) /\
     lookup_key (RFixes but_sub true true) dev64 e (gap_sf e) 0x50 = Panic /\
     lookup_key all_rfixes dev64 e (gap_sf e) 0x50 = Ok None) /\
  (asked_with_key mixed_sfb 0x41b KeyB first_row /\
     lookup_key (RFixes all_repairs false true) dev64 e (mixed_sf e) 0x41b = Ok (Some (KeyB, second_row))) /\
  (sfb_reach rel64 tail_sfb /\ build_repaired rel64 e tail_sfb = Ok (tail_bytes e) /\ load rel64 e (tail_bytes e) = Ok (tail_sf e) /\
     asked_with_key tail_sfb 0x102 KeyA first_row /\
     lookup_key (RFixes all_repairs true false) rel64 e (tail_sf e) 0x102 = Panic /\
     lookup_key all_rfixes rel64 e (tail_sf e) 0x102 = Ok (Some (KeyA, first_row))).
Proof. exact six_needed. Qed.
Print Assumptions C65_all_needed_refuted.

Theorem C65_both_repaired_case : forall e,
  sfb_reach dev64 mixed_sfb /\ build_repaired dev64 e mixed_sfb = Ok (mixed_bytes e) /\
  wf_mode dev64 /\ rust_slice dev64 (mixed_bytes e) /\ load dev64 e (mixed_bytes e) = Ok (mixed_sf e) /\
  asked_with_key mixed_sfb 0x104 KeyB second_row /\ lookup_key all_rfixes dev64 e (mixed_sf e) 0x104 = Ok (Some (KeyB, second_row)) /\
  asked_with_key mixed_sfb 0x41b KeyB first_row /\ lookup_key all_rfixes dev64 e (mixed_sf e) 0x41b = Ok (Some (KeyB, first_row)) /\
  asked_with_key mixed_sfb 0x508 KeyA (Unwind Sp false (Some (-128)) (Some 128) None) /\
  lookup_key all_rfixes dev64 e (mixed_sf e) 0x508 = Ok (Some (KeyA, Unwind Sp false (Some (-128)) (Some 128) None)) /\
  lookup_key all_rfixes dev64 e (mixed_sf e) 0x420 = Ok None.
Proof. exact both_case. Qed.
Print Assumptions C65_both_repaired_case.
