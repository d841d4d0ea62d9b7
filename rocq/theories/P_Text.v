(** Properties C67 to C70 and C97 to C99: what is printed. *)
From Coq Require Import String.
From Verif Require Import MessageFacts.
Local Open Scope string_scope.

(** * C67 The text of sframedump can be read back *)

Theorem C67_text_read_back : forall md e bs sf abi_name l,
  wf_mode md -> rust_slice md bs -> load md e bs = Ok sf ->
  dump md e sf = Ok l -> without newline_char (abi_name (abi sf)) ->
  exists rest,
    l = LineHeader (version sf) (flags sf) (num_fdes sf) (num_fres sf) (abi sf) (fixed_fp_offset sf) (fixed_ra_offset sf)
          :: LineBlank :: LineIndex :: rest /\
    all_func_lines md e sf 0 (all_fdes sf) rest /\
    read_dump (stdout_text abi_name l) =
      Some (HeaderShown (version sf) (flags sf) (num_fdes sf) (num_fres sf) (abi_name (abi sf)) (fixed_fp_offset sf) (fixed_ra_offset sf),
            filter on_stdout rest) /\
    lines (stderr_text l) = Some (map (fun er => "  error decoding FRE: " ++ read_error_text er) (errors_in rest)).
Proof. exact dump_text_read. Qed.
Print Assumptions C67_text_read_back.

(** Two sections have the same text exactly if the same is shown of them. *)
Theorem C67_text_injective : forall md e bs bs' sf sf' abi_name l l',
  wf_mode md -> rust_slice md bs -> rust_slice md bs' -> load md e bs = Ok sf -> load md e bs' = Ok sf' ->
  dump md e sf = Ok l -> dump md e sf' = Ok l' ->
  (forall n, without newline_char (abi_name n)) -> (forall m n, abi_name m = abi_name n -> m = n) ->
  (stdout_text abi_name l = stdout_text abi_name l' <-> filter on_stdout l = filter on_stdout l').
Proof. exact same_text. Qed.
Print Assumptions C67_text_injective.

Example C67_case :
  load rel64 LE (sample_bytes LE) = Ok sample_sf /\ rust_slice rel64 (sample_bytes LE) /\
  (exists l, dump rel64 LE sample_sf = Ok l /\ stdout_text some_abi l = sample_output) /\
  without newline_char (some_abi (abi sample_sf)) /\
  exists l, dump rel64 LE damaged_sf = Ok l /\
    stderr_text l = "  error decoding FRE: unsupported FRE offset type (3)" ++ nl.
Proof. exact text_case. Qed.

(** * C68 The cells of a row stand under their headings: false *)

Theorem C68_columns_refuted :
  build rel64 LE wide_sfb = Ok wide_bytes /\ load rel64 LE wide_bytes = Ok wide_sf /\
  exists l heading row, dump rel64 LE wide_sf = Ok l /\ In (LineColumns PPcInc) l /\ In wide_row l /\
    (forall abi_name, line_text abi_name (LineColumns PPcInc) = [heading] /\ line_text abi_name wide_row = [row]) /\
    ~ lined_up heading row.
Proof. exact columns_not_lined_up. Qed.
Print Assumptions C68_columns_refuted.

(** Exactly when they do. *)
Theorem C68_columns_partial : forall abi_name ty start cfa fp ra m,
  exists heading row, line_text abi_name (LineColumns ty) = [heading] /\ line_text abi_name (LineRow start cfa fp ra m) = [row] /\
    (lined_up heading row <-> narrow cfa /\ narrow fp).
Proof. exact columns_line_up. Qed.
Print Assumptions C68_columns_partial.

Example C68_case : narrow (CellBase Sp 16) /\ narrow CellUnknown /\ narrow (CellCfa (-99999999)) /\ ~ narrow (CellCfa 100000000).
Proof. cbn. lia. Qed.

(** * C69 Different errors have different messages *)

Theorem C69_read_messages : forall a b, read_error_text a = read_error_text b -> a = b.
Proof. exact read_messages_distinct. Qed.
Print Assumptions C69_read_messages.

Theorem C69_row_messages : forall a b, row_error_text a = row_error_text b -> a = b.
Proof. exact row_messages_distinct. Qed.
Print Assumptions C69_row_messages.

Theorem C69_emit_messages : forall a b, emit_error_text a = emit_error_text b -> a = b.
Proof. exact emit_messages_distinct. Qed.
Print Assumptions C69_emit_messages.

Example C69_case : read_error_text (InvalidFreOffsetCount 15) =
  "FRE had too many offset values (expected 1 to 3, got 15 instead)".
Proof. reflexivity. Qed.

(** * C70 An error message is true of the refused input: false *)

(** The limits themselves are refused, but the messages say "larger than". *)
Theorem C70_row_messages_refuted :
  (fdb_reach big_fdb /\ row_typed (row3 0x10000000 8 (-8) (-16)) /\
   snd (fdb_row_st big_fdb (row3 0x10000000 8 (-8) (-16))) = Err StartAddressTooLarge /\
   ~ message_true big_fdb (row3 0x10000000 8 (-8) (-16)) (row_error_text StartAddressTooLarge)) /\
  (fdb_reach rep_fdb /\ row_typed (row3 8 8 (-8) (-16)) /\
   snd (fdb_row_st rep_fdb (row3 8 8 (-8) (-16))) = Err StartAddressLargerThanRepSize /\
   ~ message_true rep_fdb (row3 8 8 (-8) (-16)) (row_error_text StartAddressLargerThanRepSize)).
Proof. exact message_false. Qed.
Print Assumptions C70_row_messages_refuted.

(** In every other case the message is true. *)
Theorem C70_row_messages_partial : forall b r er,
  fdb_reach b -> snd (fdb_row_st b r) = Err er ->
  r_start r <> 0x10000000 -> fb_rep_size b <> Some (r_start r) -> message_true b r (row_error_text er).
Proof. exact message_holds. Qed.
Print Assumptions C70_row_messages_partial.

(** The converter names an offset that no row has, and a limit that it does not
    apply. *)
Theorem C70_conversion_messages_refuted :
  (eh_typed row_in_front /\ dwarf2sframe rel64 amd row_in_front = Err (InvalidRowOffset 0xfff (2 ^ 64 - 1)) /\
   forall g, ~ conv_message_true g amd row_in_front (conv_error_text g (InvalidRowOffset 0xfff (2 ^ 64 - 1)))) /\
  (eh_typed beyond /\ (forall g, conv_message_true g amd beyond (conv_error_text g (InvalidStartAddress 0x10000001))) /\
   exists s, dwarf2sframe rel64 amd beyond = Ok s).
Proof. exact conv_message_false. Qed.
Print Assumptions C70_conversion_messages_refuted.

(** Its messages are true if no row lies in front of its function. *)
Theorem C70_conversion_messages_partial : forall g md op eh er,
  eh_typed eh -> dwarf2sframe md op eh = Err er ->
  (forall f r, In f (functions (entries_of eh)) -> In r (dw_rows_of f) -> df_start f <= dr_start r) ->
  conv_message_true g op eh (conv_error_text g er).
Proof. exact conv_message_holds. Qed.
Print Assumptions C70_conversion_messages_partial.

Example C70_case :
  snd (fdb_row_st big_fdb (row3 0x10000001 8 (-8) (-16))) = Err StartAddressTooLarge /\ fdb_reach big_fdb.
Proof. split; [vm_compute; reflexivity|apply big_reach]. Qed.
Example C70_conversion_case : forall g,
  eh_typed too_long /\ dwarf2sframe rel64 amd too_long = Err (InvalidFunctionLength 0x1000 0x80000000) /\
  (forall f r, In f (functions (entries_of too_long)) -> In r (dw_rows_of f) -> df_start f <= dr_start r) /\
  conv_error_text g (InvalidFunctionLength 0x1000 0x80000000) =
    "DWARF FDE for address 0x1000 had length 0x80000000 larger than 0x10000000" /\
  numbers_in "DWARF FDE for address # had length # larger than #"
    "DWARF FDE for address 0x1000 had length 0x80000000 larger than 0x10000000" = Some [0x1000; 0x80000000; 0x10000000].
Proof. exact conv_message_case. Qed.

(** * C97 Different errors of the converter have different messages: false *)

(** The function of a row that lies too far in is not named. *)
Theorem C97_conversion_messages_refuted : forall g,
  dwarf2sframe rel64 amd far_row_low = Err (InvalidRowOffset 0x80001000 0x80000000) /\
  dwarf2sframe rel64 amd far_row_high = Err (InvalidRowOffset 0x80002000 0x80000000) /\
  conv_error_text g (InvalidRowOffset 0x80001000 0x80000000) = conv_error_text g (InvalidRowOffset 0x80002000 0x80000000).
Proof. exact row_offset_messages_equal. Qed.
Print Assumptions C97_conversion_messages_refuted.

(** There is no other such case. *)
Theorem C97_conversion_messages_partial : forall g x y,
  (forall a b, g a = g b -> a = b) -> conv_error_typed x -> conv_error_typed y ->
  conv_error_text g x = conv_error_text g y ->
  x = y \/ exists a b o, x = InvalidRowOffset a o /\ y = InvalidRowOffset b o.
Proof. exact conv_messages_distinct. Qed.
Print Assumptions C97_conversion_messages_partial.

Example C97_case : forall g,
  conv_error_typed (InvalidFunctionLength 0x1000 0x80000000) /\
  conv_error_text g (InvalidFunctionLength 0x1000 0x80000000) <> conv_error_text g (InvalidStartAddress 0x80000000).
Proof. split; [cbn; lia|discriminate]. Qed.

(** * C98 The messages of the reader are true: false *)

(** Bytes in neither byte order are said to have the wrong one, and rows without
    offsets are read though one to three offsets are said to be expected. *)
Theorem C98_reader_messages_refuted :
  (load rel64 LE junk = Err IncorrectEndian /\ rust_slice rel64 junk /\
   ~ load_message_true LE junk (read_error_text IncorrectEndian)) /\
  (fde_ok bare_fde /\ offsets_declared LE bare_fde bare_row 0 0 /\ exists fr, fre_load rel64 LE bare_fde bare_row = Ok (fr, [])).
Proof. exact reader_messages_false. Qed.
Print Assumptions C98_reader_messages_refuted.

(** Otherwise what is said of a section is true. *)
Theorem C98_section_messages_partial : forall md e bs er,
  wf_mode md -> rust_slice md bs -> load md e bs = Err er ->
  load_message_true e bs (read_error_text er) \/
  (er = IncorrectEndian /\ ~ good_magic e bs /\ ~ other_order e bs).
Proof. exact load_messages. Qed.
Print Assumptions C98_section_messages_partial.

(** So is what is said of a row. *)
Theorem C98_row_messages_partial : forall md e f bs er,
  wf_mode md -> fde_ok f -> fre_load md e f bs = Err er -> row_message_true e f bs (read_error_text er).
Proof. exact row_read_messages. Qed.
Print Assumptions C98_row_messages_partial.

(** So is what is said when a row has no such offset, and what is said when an address
    is looked up. *)
Theorem C98_offset_messages_partial : forall fr sf er,
  (fre_cfa_offset fr = Err er -> offset_message_true fr 0 (read_error_text er)) /\
  (fre_ra_offset fr sf = Err er -> fixed_ra_offset sf = None /\ offset_message_true fr 1 (read_error_text er)) /\
  (fre_fp_offset fr sf = Err er -> fixed_fp_offset sf = None /\
     offset_message_true fr (match fixed_ra_offset sf with Some _ => 1 | None => 2 end) (read_error_text er)).
Proof. exact offset_messages. Qed.
Print Assumptions C98_offset_messages_partial.
Theorem C98_lookup_messages_partial : forall md e en a er,
  wf_mode md -> fde_ok (en_fde en) -> get_fre_for_address md e en a = Err (inr er) -> lookup_message_true e en (read_error_text er).
Proof. exact lookup_messages. Qed.
Print Assumptions C98_lookup_messages_partial.

Example C98_use_case :
  (exists fr, fre_load rel64 LE bare_fde bare_row = Ok (fr, []) /\ fre_cfa_offset fr = Err MissingFreOffset) /\
  (fde_ok zero_block /\ get_fre_for_address rel64 LE (Entry zero_block bare_row) 4 = Err (inr InvalidFdeRepBlockSize)) /\
  (fde_ok bare_fde /\ get_fre_for_address rel64 LE (Entry bare_fde [x00]) 4 = Err (inr UnexpectedEof)).
Proof. exact use_messages_case. Qed.

Example C98_case :
  (exists er, load rel64 LE [xe2; xde; x03; x00] = Err er /\ read_error_text er = "unsupported sframe version (3)") /\
  (exists er, load rel64 LE [xde; xe2; x02; x00] = Err er /\ other_order LE [xde; xe2; x02; x00] /\
     read_error_text er = "the section endianness does not match that of the reader") /\
  (exists er, fre_load rel64 LE bare_fde [x00; x1e] = Err er /\
     read_error_text er = "FRE had too many offset values (expected 1 to 3, got 15 instead)") /\
  (exists er, fre_load rel64 LE bare_fde [x00; x62; x00] = Err er /\ read_error_text er = "unsupported FRE offset type (3)").
Proof. exact reader_messages_case. Qed.

(** * C99 The messages of build are true: false *)

(** A function of size 0 inside another covers no address. *)
Theorem C99_build_messages_refuted : forall md e,
  sfb_reach md hollow_sfb /\ build md e hollow_sfb = Err OverlappingFdes /\
  ~ emit_message_true hollow_sfb (emit_error_text OverlappingFdes).
Proof. exact emit_messages_false. Qed.
Print Assumptions C99_build_messages_refuted.

(** The messages are true if no function is empty. *)
Theorem C99_build_messages_partial : forall md e s er,
  sfb_reach md s -> build md e s = Err er ->
  (forall b, In b (fdes_of s) -> 0 < fb_size b) -> emit_message_true s (emit_error_text er).
Proof. exact emit_messages. Qed.
Print Assumptions C99_build_messages_partial.

Theorem C99_too_large_message_partial : forall md e s,
  sfb_reach md s -> build md e s = Err SectionTooLarge -> emit_message_true s (emit_error_text SectionTooLarge).
Proof. exact emit_too_large_message. Qed.
Print Assumptions C99_too_large_message_partial.

Example C99_case : forall md e,
  sfb_reach md over_sfb /\ build md e over_sfb = Err OverlappingFdes /\ (forall b, In b (fdes_of over_sfb) -> 0 < fb_size b).
Proof. exact emit_messages_case. Qed.
