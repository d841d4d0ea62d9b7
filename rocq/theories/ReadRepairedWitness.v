(** Concrete cases for [P_ReadRepaired]. *)
From Verif Require Export ReadRepairedBuilt ReadRepairedTotal WriteRepairedWitness RepairedWitness.
From Verif Require Import EmitWitness.

Definition mixed_sf (e : endian) : sframe := get_ok dummy_sf (load dev64 e (mixed_bytes e)).

(** A function with a row that starts at its end. *)
Definition tail_f : fdb := fdb_set_size 4 demo_f1.
Definition tail_sfb : sfb := get_ok (sfb_new options_new) (add_fdes (sfb_new options_new) [tail_f]).
Lemma tail_reach md : sfb_reach md tail_sfb.
Proof.
  eapply (sr_fde md (sfb_new options_new) tail_f); [apply sr_new, or_new| |vm_compute; reflexivity].
  apply br_size; [in_range|]. apply fdb_sized_reach, demo_f1_sized.
Qed.
Definition tail_bytes (e : endian) : bytes := get_ok [] (build_repaired rel64 e tail_sfb).
Definition tail_sf (e : endian) : sframe := get_ok dummy_sf (load rel64 e (tail_bytes e)).
Definition gap_bytes (e : endian) : bytes := get_ok [] (build_repaired dev64 e gap_sfb).
Definition gap_sf (e : endian) : sframe := get_ok dummy_sf (load dev64 e (gap_bytes e)).

(** Both repaired: everything comes out as it was asked for. *)
Theorem both_case e :
  sfb_reach dev64 mixed_sfb /\ build_repaired dev64 e mixed_sfb = Ok (mixed_bytes e) /\
  wf_mode dev64 /\ rust_slice dev64 (mixed_bytes e) /\ load dev64 e (mixed_bytes e) = Ok (mixed_sf e) /\
  asked_with_key mixed_sfb 0x104 KeyB second_row /\ lookup_key all_rfixes dev64 e (mixed_sf e) 0x104 = Ok (Some (KeyB, second_row)) /\
  asked_with_key mixed_sfb 0x41b KeyB first_row /\ lookup_key all_rfixes dev64 e (mixed_sf e) 0x41b = Ok (Some (KeyB, first_row)) /\
  asked_with_key mixed_sfb 0x508 KeyA (Unwind Sp false (Some (-128)) (Some 128) None) /\
  lookup_key all_rfixes dev64 e (mixed_sf e) 0x508 = Ok (Some (KeyA, Unwind Sp false (Some (-128)) (Some 128) None)) /\
  lookup_key all_rfixes dev64 e (mixed_sf e) 0x420 = Ok None.
Proof.
  split; [apply mixed_reach|]. split; [destruct e; vm_compute; reflexivity|]. split; [right; reflexivity|].
  split; [destruct e; vm_compute; reflexivity|]. split; [destruct e; vm_compute; reflexivity|].
  split; [asked_key signed (row3 4 16 (-8) (-16))|]. split; [destruct e; vm_compute; reflexivity|].
  split; [asked_key stub_f (row3 0 8 (-8) (-16))|]. split; [destruct e; vm_compute; reflexivity|].
  split; [asked_key tie_f tie_row|]. split; destruct e; vm_compute; reflexivity.
Qed.

(** Each of the six repairs of the reader is needed though the writer and the other five
    are repaired. *)
Theorem six_needed e :
  (asked_with_key mixed_sfb 0x104 KeyB second_row /\
     lookup_key (RFixes but_order true true) dev64 e (mixed_sf e) 0x104 = Ok None) /\
  (asked_with_key mixed_sfb 0x204 KeyA (Unwind Sp false (Some 24) (Some (-8)) (Some (-16))) /\
     lookup_key (RFixes but_rows true true) dev64 e (mixed_sf e) 0x204 = Ok (Some (KeyA, first_row))) /\
  (asked_with_key mixed_sfb 0x104 KeyB second_row /\
     lookup_key (RFixes but_pick true true) dev64 e (mixed_sf e) 0x104 = Ok (Some (KeyB, first_row))) /\
  (sfb_reach dev64 gap_sfb /\ build_repaired dev64 e gap_sfb = Ok (gap_bytes e) /\ load dev64 e (gap_bytes e) = Ok (gap_sf e) /\
     lookup_key (RFixes but_sub true true) dev64 e (gap_sf e) 0x50 = Panic /\
     lookup_key all_rfixes dev64 e (gap_sf e) 0x50 = Ok None) /\
  (asked_with_key mixed_sfb 0x41b KeyB first_row /\
     lookup_key (RFixes all_repairs false true) dev64 e (mixed_sf e) 0x41b = Ok (Some (KeyB, second_row))) /\
  (sfb_reach rel64 tail_sfb /\ build_repaired rel64 e tail_sfb = Ok (tail_bytes e) /\ load rel64 e (tail_bytes e) = Ok (tail_sf e) /\
     asked_with_key tail_sfb 0x102 KeyA first_row /\
     lookup_key (RFixes all_repairs true false) rel64 e (tail_sf e) 0x102 = Panic /\
     lookup_key all_rfixes rel64 e (tail_sf e) 0x102 = Ok (Some (KeyA, first_row))).
Proof.
  split; [split; [asked_key signed (row3 4 16 (-8) (-16))|destruct e; vm_compute; reflexivity]|].
  split; [split; [asked_key demo_f2 (row3 2 24 (-8) (-16))|destruct e; vm_compute; reflexivity]|].
  split; [split; [asked_key signed (row3 4 16 (-8) (-16))|destruct e; vm_compute; reflexivity]|].
  split; [split; [apply gap_reach|]; repeat split; destruct e; vm_compute; reflexivity|].
  split; [split; [asked_key stub_f (row3 0 8 (-8) (-16))|destruct e; vm_compute; reflexivity]|].
  split; [apply tail_reach|]. split; [destruct e; vm_compute; reflexivity|]. split; [destruct e; vm_compute; reflexivity|].
  split; [asked_key tail_f (row3 0 8 (-8) (-16))|]. split; destruct e; vm_compute; reflexivity.
Qed.

(** The sections of another producer that C134 is refuted with. *)
Lemma single_laid_out e bs : spec_num_fdes e bs = 1 -> laid_out e bs.
Proof.
  intros H. unfold laid_out. destruct (is_sorted_flag bs); [intros i j H1 H2; lia|]. intros i j a H1 H2. lia.
Qed.
Lemma two_rows_ascend : starts_ascend [SpecRow 0 true false [8; -8; -16]; SpecRow 4 true false [16; -8; -16]].
Proof. repeat constructor. Qed.
Lemma two_rows_legible e bs a : spec_num_fdes e bs = 1 -> std_fre_type (spec_entry e bs 0) = 0 -> sd_num_fres (spec_entry e bs 0) = 2 ->
  spec_rows_of e bs (spec_entry e bs 0) = [x00; x07; x08; xf8; xf0; x04; x07; x10; xf8; xf0] ->
  std_offset (spec_entry e bs 0) a <> None -> legible e bs a.
Proof.
  intros N T F R O i Hi _. assert (i = 0) by lia. subst i. split; [|exact O].
  exists [SpecRow 0 true false [8; -8; -16]; SpecRow 4 true false [16; -8; -16]]. split; [|apply two_rows_ascend].
  destruct (std_two_rows e) as [rest H]. exists 1, rest. rewrite T, F, R. split; [reflexivity|]. split; [reflexivity|exact H].
Qed.

Theorem other_case e :
  (load rel64 e (masked e) = Ok (masked_sf e) /\ spec_version (masked e) = 2 /\ laid_out e (masked e) /\ legible e (masked e) 0x108 /\
   std_says e (masked e) 0x108 KeyA first_row /\
   lookup_key all_rfixes rel64 e (masked_sf e) 0x108 = Ok (Some (KeyA, first_row))) /\
  (load rel64 e (keyed_b e) = Ok (keyed_b_sf e) /\ spec_version (keyed_b e) = 2 /\ laid_out e (keyed_b e) /\ legible e (keyed_b e) 0x104 /\
   std_says e (keyed_b e) 0x104 KeyB second_row /\
   lookup_key all_rfixes rel64 e (keyed_b_sf e) 0x104 = Ok (Some (KeyB, second_row))) /\
  (load rel64 e (cut_short e) = Ok (cut_short_sf e) /\ spec_version (cut_short e) = 2 /\ laid_out e (cut_short e) /\
   legible e (cut_short e) 0x102 /\ std_says e (cut_short e) 0x102 KeyA first_row /\
   lookup_key all_rfixes rel64 e (cut_short_sf e) 0x102 = Ok (Some (KeyA, first_row))).
Proof.
  split; [|split].
  - destruct (masked_misread e) as (H1 & H2 & _). split; [exact H1|]. split; [destruct e; vm_compute; reflexivity|].
    split; [apply single_laid_out; destruct e; vm_compute; reflexivity|].
    split; [apply two_rows_legible; destruct e; vm_compute; first [reflexivity|discriminate]|].
    split; [exact H2|destruct e; vm_compute; reflexivity].
  - destruct (key_misread e) as (H1 & H2 & _). split; [exact H1|]. split; [destruct e; vm_compute; reflexivity|].
    split; [apply single_laid_out; destruct e; vm_compute; reflexivity|].
    split; [apply two_rows_legible; destruct e; vm_compute; first [reflexivity|discriminate]|].
    split; [exact H2|destruct e; vm_compute; reflexivity].
  - destruct (cut_unread e) as (H1 & H2 & _). split; [exact H1|]. split; [destruct e; vm_compute; reflexivity|].
    split; [apply single_laid_out; destruct e; vm_compute; reflexivity|].
    split; [apply two_rows_legible; destruct e; vm_compute; first [reflexivity|discriminate]|].
    split; [exact H2|destruct e; vm_compute; reflexivity].
Qed.

(** Rows of unknown formats. *)
Definition unknown_sf (e : endian) (t : byte) : sframe := get_ok dummy_sf (load rel64 e (set_byte 44 t (single e))).
Theorem unknown_case e t : (t = x03 \/ t = x0b) ->
  load rel64 e (set_byte 44 t (single e)) = Ok (unknown_sf e t) /\ spec_version (set_byte 44 t (single e)) = 2 /\
  laid_out e (set_byte 44 t (single e)) /\
  0 <= 0 < spec_num_fdes e (set_byte 44 t (single e)) /\
  in_range (sd_start (spec_entry e (set_byte 44 t (single e)) 0)) (sd_size (spec_entry e (set_byte 44 t (single e)) 0)) 0x104 /\
  width_of (std_fre_type (spec_entry e (set_byte 44 t (single e)) 0)) = None /\
  0 < sd_num_fres (spec_entry e (set_byte 44 t (single e)) 0) /\
  std_offset (spec_entry e (set_byte 44 t (single e)) 0) 0x104 <> None /\
  rust_slice rel64 (set_byte 44 t (single e)).
Proof.
  intros [-> | ->]; destruct e;
    (split; [vm_compute; reflexivity|]; split; [vm_compute; reflexivity|]; split; [apply single_laid_out; vm_compute; reflexivity|];
     split; [vm_compute; split; [discriminate|reflexivity]|]; split; [vm_compute; split; [discriminate|reflexivity]|];
     split; [vm_compute; reflexivity|]; split; [vm_compute; reflexivity|]; split; [vm_compute; discriminate|vm_compute; reflexivity]).
Qed.
