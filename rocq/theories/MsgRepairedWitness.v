(** Each repair of the messages is needed; cases. *)
From Coq Require Import String Ascii.
From Verif Require Export MsgRepairedConv.
From Verif Require Import Witness ConvWitness ConvRepairedSection.
Local Open Scope string_scope.

Definition no_limit : mfixes := MFixes false true true true true true.
Definition no_row : mfixes := MFixes true false true true true true.
Definition no_magic : mfixes := MFixes true true false true true true.
Definition no_count : mfixes := MFixes true true true false true true.
Definition no_empty : mfixes := MFixes true true true true false true.
Definition no_wide : mfixes := MFixes true true true true true false.

(** The column of the return address. *)
Definition ra_column (f : dw_fde) : Z := 16.

(** ** Limits *)

Theorem limit_needed :
  (fdb_reach big_fdb /\ row_typed (row3 0x10000000 8 (-8) (-16)) /\
   snd (fdb_row_st big_fdb (row3 0x10000000 8 (-8) (-16))) = Err StartAddressTooLarge /\
   forall claim, row_text_claims (row_error_text_with no_limit StartAddressTooLarge) claim -> ~ claim big_fdb (row3 0x10000000 8 (-8) (-16))) /\
  (fdb_reach rep_fdb /\ row_typed (row3 8 8 (-8) (-16)) /\
   snd (fdb_row_st rep_fdb (row3 8 8 (-8) (-16))) = Err StartAddressLargerThanRepSize /\
   forall claim, row_text_claims (row_error_text_with no_limit StartAddressLargerThanRepSize) claim -> ~ claim rep_fdb (row3 8 8 (-8) (-16))) /\
  (eh_typed beyond /\ (exists s, dwarf2sframe_repaired rel64 amd ra_column beyond = Ok s) /\
   (forall g, limit_named (conv_error_text_with no_limit g (AsBefore (InvalidStartAddress 0x80000000))) 0x10000000) /\
   ~ within_limits 0x10000000 0x10000000 beyond).
Proof.
  destruct message_false as [(A1 & A2 & A3 & _) (B1 & B2 & B3 & _)]. split; [|split].
  - split; [exact A1|]. split; [exact A2|]. split; [exact A3|]. intros claim HC. cbn in HC. injection HC as <-. cbn. lia.
  - split; [exact B1|]. split; [exact B2|]. split; [exact B3|]. intros claim HC. cbn in HC. injection HC as <-. intros (rep & [= <-] & H). cbn in H. lia.
  - split; [apply conv_message_false|]. split; [eexists; vm_compute; reflexivity|]. split.
    + intros g. left. exists 0x80000000. vm_compute. reflexivity.
    + intros H. destruct (H _ (or_introl eq_refl)) as [H' _]. cbn in H'. lia.
Qed.
Theorem limit_case :
  (row_error_text_with all_mfixes StartAddressTooLarge = "FRE start offset was 0x10000000 or larger" /\
   exists claim, row_text_claims (row_error_text_with all_mfixes StartAddressTooLarge) claim /\ claim big_fdb (row3 0x10000000 8 (-8) (-16))) /\
  (eh_typed row_in_front /\ dwarf2sframe_repaired rel64 amd ra_column row_in_front = Err (RowInFront 0xfff) /\
   forall g, conv_error_text_with all_mfixes g (RowInFront 0xfff) = "DWARF FDE row 0xfff lies in front of its function") /\
  (forall g, conv_error_text_with all_mfixes g (RowRefused 0x1010 DuplicateRow) =
     "DWARF FDE row 0x1010 refused: FDE already contains a row with the same start address").
Proof.
  split; [split; [reflexivity|]|split; [split; [apply conv_message_false|split; [vm_compute; reflexivity|intros g; vm_compute; reflexivity]]|
    intros g; vm_compute; reflexivity]].
  eexists. split; [reflexivity|]. cbn. lia.
Qed.

(** ** Rows *)

Theorem row_needed :
  eh_typed far_row_low /\ eh_typed far_row_high /\
  dwarf2sframe_repaired rel64 amd ra_column far_row_low = Err (AsBefore (InvalidRowOffset 0x80001000 0x80000000)) /\
  dwarf2sframe_repaired rel64 amd ra_column far_row_high = Err (AsBefore (InvalidRowOffset 0x80002000 0x80000000)) /\
  forall g, conv_error_text_with no_row g (AsBefore (InvalidRowOffset 0x80001000 0x80000000)) =
            conv_error_text_with no_row g (AsBefore (InvalidRowOffset 0x80002000 0x80000000)).
Proof.
  split; [typed_eh|]. split; [typed_eh|]. split; [vm_compute; reflexivity|]. split; [vm_compute; reflexivity|]. intros g. reflexivity.
Qed.
Theorem row_case : forall g,
  conv_error_text_with all_mfixes g (AsBefore (InvalidRowOffset 0x80001000 0x80000000)) =
    "DWARF FDE row 0x80001000 at offset 0x80000000 not below 0x7fffffff".
Proof. intros g. vm_compute. reflexivity. Qed.

(** ** The reader *)

Theorem magic_needed :
  load_told no_magic rel64 LE junk = Err (Loading IncorrectEndian) /\ rust_slice rel64 junk /\
  ~ load_told_true LE junk (load_error_text no_magic (Loading IncorrectEndian)).
Proof.
  destruct reader_messages_false as [(H1 & H2 & H3) _]. split; [vm_compute; reflexivity|]. split; [exact H2|].
  intros [H|(H & _)]; [exact (H3 H)|discriminate H].
Qed.
Theorem count_needed :
  fde_ok bare_fde /\ exists er, fre_load rel64 LE bare_fde [x00; x1e] = Err er /\
    ~ row_told_true rel64 LE bare_fde [x00; x1e] (read_error_text_with no_count er).
Proof.
  destruct reader_messages_false as [_ (HF & HO & fr & HB)]. split; [exact HF|]. eexists. split; [vm_compute; reflexivity|].
  intros [(n & (w & H & _) & _)|[(n & c & (w & H & _) & _)|[(lo & hi & HM & HC)|(H & _)]]]; try discriminate H.
  destruct HM as (los & his & ns & n & w & HT & HL & _).
  assert (lo = 1).
  { cbn in HT. injection HT as HT. destruct los as [|c1 los]; [discriminate HT|]. cbn [append] in HT. injection HT as <- HT.
    destruct los as [|c2 los]; [now injection HL as <-|]. cbn [append] in HT. injection HT as <- _. discriminate HL. }
  subst lo. specialize (HC bare_fde bare_row 0 0 HF HO). destruct HC as [_ HC].
  - discriminate.
  - intros (aw & HA & HX). vm_compute in HA. injection HA as <-. destruct HX as [HX|(ow & HW & HX)].
    + vm_compute in HX. discriminate HX.
    + vm_compute in HW. injection HW as <-. vm_compute in HX. discriminate HX.
  - destruct HC as [er HC]; [lia|]. rewrite HB in HC. discriminate HC.
Qed.
Theorem reader_texts_case :
  (load_told all_mfixes rel64 LE junk = Err NoSection /\ ~ good_magic LE junk /\ ~ other_order LE junk) /\
  (exists er, load_told all_mfixes rel64 LE [xde; xe2; x02; x00] = Err er /\
     load_error_text all_mfixes er = "the section endianness does not match that of the reader") /\
  (exists er, fre_load rel64 LE bare_fde [x00; x1e] = Err er /\
     read_error_text_with all_mfixes er = "FRE had too many offset values (expected 0 to 3, got 15 instead)").
Proof.
  split; [|split; eexists; (split; [vm_compute; reflexivity|reflexivity])].
  split; [vm_compute; reflexivity|]. split; intros H; vm_compute in H; try discriminate H.
Qed.

(** ** Building *)

Theorem empty_needed : forall md e,
  sfb_reach md hollow_sfb /\ build_told no_empty md e hollow_sfb = Err (Told OverlappingFdes) /\
  ~ told_true hollow_sfb (told_text (Told OverlappingFdes)).
Proof.
  intros md e. destruct (emit_messages_false md e) as (H1 & H2 & H3). split; [exact H1|]. split.
  - destruct md as [[] [] ub bs]; vm_compute; reflexivity.
  - intros [H|(H & _)]; [exact (H3 H)|discriminate H].
Qed.
Theorem build_texts_case : forall md e,
  build_told all_mfixes md e hollow_sfb = Err EmptyInside /\ build_told all_mfixes md e over_sfb = Err (Told OverlappingFdes).
Proof. intros md e. split; destruct md as [[] [] ub bs]; vm_compute; reflexivity. Qed.

(** ** Columns *)

Theorem wide_needed :
  load rel64 LE wide_bytes = Ok wide_sf /\ exists l heading row, dump rel64 LE wide_sf = Ok l /\
    In (LineColumns PPcInc) l /\ In wide_row l /\
    (forall abi_name, line_text_with no_wide abi_name (LineColumns PPcInc) = [heading] /\ line_text_with no_wide abi_name wide_row = [row]) /\
    ~ lined_up heading row.
Proof.
  destruct columns_not_lined_up as (_ & HL & l & h & r & HD & H1 & H2 & HT & HN). split; [exact HL|]. exists l, h, r.
  split; [exact HD|]. split; [exact H1|]. split; [exact H2|]. split; [|exact HN]. intros abi_name. exact (HT abi_name).
Qed.
Theorem wide_case : forall abi_name,
  line_text_with all_mfixes abi_name (LineColumns PPcInc) = ["  STARTPC          CFA            FP             RA"] /\
  line_text_with all_mfixes abi_name wide_row = ["  0000000000000104 sp+16          cfa-100000000  cfa-8"].
Proof. intros abi_name. split; reflexivity. Qed.

(** ** Without the repairs *)

Theorem unrepaired_columns abi_name ln : line_text_with no_mfixes abi_name ln = line_text abi_name ln.
Proof. apply texts_unrepaired. Qed.
Theorem unrepaired_refusals :
  (forall er, row_error_text_with no_mfixes er = row_error_text er) /\
  (forall g er, conv_error_text_with no_mfixes g (AsBefore er) = conv_error_text g er).
Proof. destruct texts_unrepaired as (H1 & _ & H3 & _). auto. Qed.
Theorem unrepaired_reader :
  (forall er, read_error_text_with no_mfixes er = read_error_text er) /\
  (forall md e bs, load_told no_mfixes md e bs = map_err Loading (load md e bs)).
Proof. destruct texts_unrepaired as (_ & H2 & _ & _ & _ & H6). auto. Qed.
Theorem unrepaired_build md e s : build_told no_mfixes md e s = map_err Told (build md e s).
Proof. apply texts_unrepaired. Qed.
