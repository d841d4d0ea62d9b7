(** C68, C70, C97, C98 and C99 with small repairs of the messages and of the columns of
    sframedump. *)
From Coq Require Import String Ascii.
From Verif Require Import MsgRepairedWitness.
Local Open Scope string_scope.

(** * C68 The cells of a row stand under their headings *)

(** Without the repair these are the lines as they are. *)
Theorem C68_unrepaired_partial : forall abi_name ln,
  line_text_with no_mfixes abi_name ln = line_text abi_name ln.
Proof. exact unrepaired_columns. Qed.
Print Assumptions C68_unrepaired_partial.

(** With columns of 14 instead of 12 characters every row of every section lines up, and
    the lines can still be read. *)
Theorem C68_repaired_partial : forall md e bs sf l abi_name,
  wf_mode md -> rust_slice md bs -> load md e bs = Ok sf -> dump md e sf = Ok l ->
  forall ty start cfa fp ra m, In (LineRow start cfa fp ra m) l ->
  exists heading row, line_text_with all_mfixes abi_name (LineColumns ty) = [heading] /\
    line_text_with all_mfixes abi_name (LineRow start cfa fp ra m) = [row] /\ lined_up heading row /\
    read_columns heading = Some (LineColumns ty) /\ read_row row = Some (LineRow start cfa fp ra m).
Proof. exact columns_repaired. Qed.
Print Assumptions C68_repaired_partial.

Theorem C68_width_needed_refuted :
  load rel64 LE wide_bytes = Ok wide_sf /\ exists l heading row, dump rel64 LE wide_sf = Ok l /\
    In (LineColumns PPcInc) l /\ In wide_row l /\
    (forall abi_name, line_text_with no_wide abi_name (LineColumns PPcInc) = [heading] /\ line_text_with no_wide abi_name wide_row = [row]) /\
    ~ lined_up heading row.
Proof. exact wide_needed. Qed.
Print Assumptions C68_width_needed_refuted.

Theorem C68_repaired_case :
  forall abi_name,
  line_text_with all_mfixes abi_name (LineColumns PPcInc) = ["  STARTPC          CFA            FP             RA"] /\
  line_text_with all_mfixes abi_name wide_row = ["  0000000000000104 sp+16          cfa-100000000  cfa-8"].
Proof. exact wide_case. Qed.
Print Assumptions C68_repaired_case.

(** * C70 An error message is true of the refused input *)

Theorem C70_unrepaired_partial :
  (forall er, row_error_text_with no_mfixes er = row_error_text er) /\
  (forall g er, conv_error_text_with no_mfixes g (AsBefore er) = conv_error_text g er).
Proof. exact unrepaired_refusals. Qed.
Print Assumptions C70_unrepaired_partial.

(** With messages that name the limit that is applied, every message about a row is true. *)
Theorem C70_row_messages_repaired_partial : forall b r er,
  fdb_reach b -> snd (fdb_row_st b r) = Err er ->
  exists claim, row_text_claims (row_error_text_with all_mfixes er) claim /\ claim b r.
Proof. exact row_texts_true. Qed.
Print Assumptions C70_row_messages_repaired_partial.

(** A row of which a message that is used would be true is refused. *)
Theorem C70_row_limits_repaired_partial : forall b r er claim,
  fdb_reach b -> row_typed r -> row_error_used er = true ->
  row_text_claims (row_error_text_with all_mfixes er) claim -> claim b r ->
  exists er', snd (fdb_row_st b r) = Err er'.
Proof. exact row_texts_meant. Qed.
Print Assumptions C70_row_limits_repaired_partial.

(** So is every message of the converter as repaired in ConvRepaired.v. *)
Theorem C70_conversion_messages_repaired_partial : forall g md op c eh er,
  eh_typed eh -> dwarf2sframe_repaired md op c eh = Err er ->
  conv_told_true g op eh (conv_error_text_with all_mfixes g er).
Proof. exact conv_texts_true. Qed.
Print Assumptions C70_conversion_messages_repaired_partial.

(** What exceeds a limit that a message names is refused. *)
Theorem C70_conversion_limits_repaired_partial : forall g er m md op c eh s,
  repair_error_typed er -> limit_named (conv_error_text_with all_mfixes g er) m ->
  eh_typed eh -> dwarf2sframe_repaired md op c eh = Ok s -> within_limits m m eh.
Proof. exact limits_applied. Qed.
Print Assumptions C70_conversion_limits_repaired_partial.

(** Without that repair neither holds. *)
Theorem C70_limits_needed_refuted :
  (fdb_reach big_fdb /\ row_typed (row3 0x10000000 8 (-8) (-16)) /\
   snd (fdb_row_st big_fdb (row3 0x10000000 8 (-8) (-16))) = Err StartAddressTooLarge /\
   forall claim, row_text_claims (row_error_text_with no_limit StartAddressTooLarge) claim -> ~ claim big_fdb (row3 0x10000000 8 (-8) (-16))) /\
  (fdb_reach rep_fdb /\ row_typed (row3 8 8 (-8) (-16)) /\
   snd (fdb_row_st rep_fdb (row3 8 8 (-8) (-16))) = Err StartAddressLargerThanRepSize /\
   forall claim, row_text_claims (row_error_text_with no_limit StartAddressLargerThanRepSize) claim -> ~ claim rep_fdb (row3 8 8 (-8) (-16))) /\
  (eh_typed beyond /\ (exists s, dwarf2sframe_repaired rel64 amd ra_column beyond = Ok s) /\
   (forall g, limit_named (conv_error_text_with no_limit g (AsBefore (InvalidStartAddress 0x80000000))) 0x10000000) /\
   ~ within_limits 0x10000000 0x10000000 beyond).
Proof. exact limit_needed. Qed.
Print Assumptions C70_limits_needed_refuted.

Theorem C70_repaired_case :
  (row_error_text_with all_mfixes StartAddressTooLarge = "FRE start offset was 0x10000000 or larger" /\
   exists claim, row_text_claims (row_error_text_with all_mfixes StartAddressTooLarge) claim /\ claim big_fdb (row3 0x10000000 8 (-8) (-16))) /\
  (eh_typed row_in_front /\ dwarf2sframe_repaired rel64 amd ra_column row_in_front = Err (RowInFront 0xfff) /\
   forall g, conv_error_text_with all_mfixes g (RowInFront 0xfff) = "DWARF FDE row 0xfff lies in front of its function") /\
  (forall g, conv_error_text_with all_mfixes g (RowRefused 0x1010 DuplicateRow) =
     "DWARF FDE row 0x1010 refused: FDE already contains a row with the same start address").
Proof. exact limit_case. Qed.
Print Assumptions C70_repaired_case.

(** * C97 Different errors of the converter have different messages *)

(** With the address of the row in the message they have. *)
Theorem C97_repaired_partial : forall g x y,
  (forall a b, g a = g b -> a = b) ->
  repair_error_typed x -> repair_error_typed y ->
  conv_error_text_with all_mfixes g x = conv_error_text_with all_mfixes g y -> x = y.
Proof. exact conv_told_distinct. Qed.
Print Assumptions C97_repaired_partial.

(** The condition is met by every error of the converter. *)
Theorem C97_errors_typed_repaired_partial : forall md op c eh er,
  eh_typed eh -> dwarf2sframe_repaired md op c eh = Err er -> repair_error_typed er.
Proof. exact conv_errors_typed. Qed.
Print Assumptions C97_errors_typed_repaired_partial.

(** Without it they have not. *)
Theorem C97_row_needed_refuted :
  eh_typed far_row_low /\ eh_typed far_row_high /\
  dwarf2sframe_repaired rel64 amd ra_column far_row_low = Err (AsBefore (InvalidRowOffset 0x80001000 0x80000000)) /\
  dwarf2sframe_repaired rel64 amd ra_column far_row_high = Err (AsBefore (InvalidRowOffset 0x80002000 0x80000000)) /\
  forall g, conv_error_text_with no_row g (AsBefore (InvalidRowOffset 0x80001000 0x80000000)) =
            conv_error_text_with no_row g (AsBefore (InvalidRowOffset 0x80002000 0x80000000)).
Proof. exact row_needed. Qed.
Print Assumptions C97_row_needed_refuted.

Theorem C97_repaired_case :
  forall g,
  conv_error_text_with all_mfixes g (AsBefore (InvalidRowOffset 0x80001000 0x80000000)) =
    "DWARF FDE row 0x80001000 at offset 0x80000000 not below 0x7fffffff".
Proof. exact row_case. Qed.
Print Assumptions C97_repaired_case.

(** * C98 The reader's messages are true of the rejected bytes *)

Theorem C98_unrepaired_partial :
  (forall er, read_error_text_with no_mfixes er = read_error_text er) /\
  (forall md e bs, load_told no_mfixes md e bs = map_err Loading (load md e bs)).
Proof. exact unrepaired_reader. Qed.
Print Assumptions C98_unrepaired_partial.

(** With a message of its own for input that is in neither byte order. *)
Theorem C98_section_messages_repaired_partial : forall md e bs er,
  wf_mode md -> rust_slice md bs -> load_told all_mfixes md e bs = Err er ->
  load_told_true e bs (load_error_text all_mfixes er).
Proof. exact load_texts_true. Qed.
Print Assumptions C98_section_messages_repaired_partial.

(** The same sections are accepted. *)
Theorem C98_same_sections_repaired_partial : forall fx md e bs sf,
  load_told fx md e bs = Ok sf <-> load md e bs = Ok sf.
Proof. exact load_told_same. Qed.
Print Assumptions C98_same_sections_repaired_partial.

(** With "0 to 3" in the message about the number of offsets, what is called expected is
    what is accepted. *)
Theorem C98_row_messages_repaired_partial : forall md e f bs er,
  wf_mode md -> fde_ok f -> fre_load md e f bs = Err er ->
  row_told_true md e f bs (read_error_text_with all_mfixes er).
Proof. exact row_read_texts_true. Qed.
Print Assumptions C98_row_messages_repaired_partial.

Theorem C98_lookup_messages_repaired_partial : forall md e en a er,
  wf_mode md -> fde_ok (en_fde en) -> get_fre_for_address md e en a = Err (inr er) ->
  lookup_told_true md e en (read_error_text_with all_mfixes er).
Proof. exact lookup_texts_true. Qed.
Print Assumptions C98_lookup_messages_repaired_partial.

Theorem C98_offset_messages_repaired_partial : forall fr sf er,
  (fre_cfa_offset fr = Err er -> offset_message_true fr 0 (read_error_text_with all_mfixes er)) /\
  (fre_ra_offset fr sf = Err er -> fixed_ra_offset sf = None /\ offset_message_true fr 1 (read_error_text_with all_mfixes er)) /\
  (fre_fp_offset fr sf = Err er -> fixed_fp_offset sf = None /\
     offset_message_true fr (match fixed_ra_offset sf with Some _ => 1 | None => 2 end) (read_error_text_with all_mfixes er)).
Proof. exact offset_texts_true. Qed.
Print Assumptions C98_offset_messages_repaired_partial.

(** The messages still tell errors apart. *)
Theorem C98_distinct_repaired_partial :
  (forall x y, row_error_text_with all_mfixes x = row_error_text_with all_mfixes y -> x = y) /\
  (forall x y, told_text x = told_text y -> x = y) /\
  (forall x y, load_error_text all_mfixes x = load_error_text all_mfixes y -> x = y).
Proof. exact told_texts_distinct. Qed.
Print Assumptions C98_distinct_repaired_partial.

Theorem C98_magic_needed_refuted :
  load_told no_magic rel64 LE junk = Err (Loading IncorrectEndian) /\ rust_slice rel64 junk /\
  ~ load_told_true LE junk (load_error_text no_magic (Loading IncorrectEndian)).
Proof. exact magic_needed. Qed.
Print Assumptions C98_magic_needed_refuted.

Theorem C98_count_needed_refuted :
  fde_ok bare_fde /\ exists er, fre_load rel64 LE bare_fde [x00; x1e] = Err er /\
    ~ row_told_true rel64 LE bare_fde [x00; x1e] (read_error_text_with no_count er).
Proof. exact count_needed. Qed.
Print Assumptions C98_count_needed_refuted.

Theorem C98_repaired_case :
  (load_told all_mfixes rel64 LE junk = Err NoSection /\ ~ good_magic LE junk /\ ~ other_order LE junk) /\
  (exists er, load_told all_mfixes rel64 LE [xde; xe2; x02; x00] = Err er /\
     load_error_text all_mfixes er = "the section endianness does not match that of the reader") /\
  (exists er, fre_load rel64 LE bare_fde [x00; x1e] = Err er /\
     read_error_text_with all_mfixes er = "FRE had too many offset values (expected 0 to 3, got 15 instead)").
Proof. exact reader_texts_case. Qed.
Print Assumptions C98_repaired_case.

(** * C99 The messages of build are true of the builder *)

Theorem C99_unrepaired_partial : forall md e s,
  build_told no_mfixes md e s = map_err Told (build md e s).
Proof. exact unrepaired_build. Qed.
Print Assumptions C99_unrepaired_partial.

(** With a message of its own for an empty function inside another. *)
Theorem C99_repaired_partial : forall md e s er,
  sfb_reach md s -> build_told all_mfixes md e s = Err er -> told_true s (told_text er).
Proof. exact build_texts_true. Qed.
Print Assumptions C99_repaired_partial.

(** The same sections are written. *)
Theorem C99_same_sections_repaired_partial : forall fx md e s bs,
  build_told fx md e s = Ok bs <-> build md e s = Ok bs.
Proof. exact build_told_same. Qed.
Print Assumptions C99_same_sections_repaired_partial.

Theorem C99_empty_needed_refuted :
  forall md e,
  sfb_reach md hollow_sfb /\ build_told no_empty md e hollow_sfb = Err (Told OverlappingFdes) /\
  ~ told_true hollow_sfb (told_text (Told OverlappingFdes)).
Proof. exact empty_needed. Qed.
Print Assumptions C99_empty_needed_refuted.

Theorem C99_repaired_case :
  forall md e,
  build_told all_mfixes md e hollow_sfb = Err EmptyInside /\ build_told all_mfixes md e over_sfb = Err (Told OverlappingFdes).
Proof. exact build_texts_case. Qed.
Print Assumptions C99_repaired_case.

