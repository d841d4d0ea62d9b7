(** Properties C143 and C144: what the derived [Debug] implementations of the
    builders and of the raw structures print. *)
From Coq Require Import String.
From Verif Require Import BuilderDebugWitness.
Local Open Scope string_scope.

(** * C143 The debug output of a builder shows everything in it *)

Theorem C143_read_back : forall alt dt s, plain_texts dt ->
  exists v, read_builder (builder_text alt dt s) = Some v /\ sfb_is_seen dt s v.
Proof. exact builder_read. Qed.
Print Assumptions C143_read_back.

Theorem C143_same : forall alt dt s s', plain_texts dt -> telling (dt_abi dt) ->
  builder_text alt dt s = builder_text alt dt s' -> s = s'.
Proof. exact builder_same. Qed.
Print Assumptions C143_same.

Theorem C143_row_errors : forall alt er,
  exists t, read_text (print_debug alt (row_error_debug er)) = Some t /\ read_row_error_of t = Some er.
Proof. exact row_error_read. Qed.
Print Assumptions C143_row_errors.

Theorem C143_emit_errors : forall alt er,
  exists t, read_text (print_debug alt (emit_error_debug er)) = Some t /\ read_emit_error_of t = Some er.
Proof. exact emit_error_read. Qed.
Print Assumptions C143_emit_errors.

Example C143_case : builder_text false told_texts demo_sfb = demo_debug.
Proof. exact demo_shown. Qed.
Example C143_case_indented :
  (builder_text true told_texts bare_sfb = bare_pretty /\ bare_sfb <> sfb_new options_new) /\ read_builder bare_pretty = Some bare_seen.
Proof. exact (conj bare_shown bare_read). Qed.
Example C143_texts : plain_texts told_texts /\ telling_texts told_texts.
Proof. exact told_plain. Qed.

(** * C144 The debug output of a raw header or function entry shows every byte *)

Theorem C144_header : forall alt dt wt e bs bs' h h',
  plain_texts dt -> plain_words wt -> telling_texts dt -> telling (wt_u32 wt) ->
  header_from_prefix e bs = Some h -> header_from_prefix e bs' = Some h' ->
  print_debug alt (header_debug dt wt h) = print_debug alt (header_debug dt wt h') ->
  firstn HEADER_SIZE bs = firstn HEADER_SIZE bs'.
Proof. exact header_bytes_shown. Qed.
Print Assumptions C144_header.

Theorem C144_fde1 : forall alt wt e bs bs',
  plain_words wt -> telling (wt_u32 wt) -> telling (wt_i32 wt) ->
  List.length bs = FDE1_SIZE -> List.length bs' = FDE1_SIZE ->
  print_debug alt (fde1_debug wt (fde1_decode e bs)) = print_debug alt (fde1_debug wt (fde1_decode e bs')) -> bs = bs'.
Proof. exact fde1_bytes_shown. Qed.
Print Assumptions C144_fde1.

Theorem C144_fde2 : forall alt dt wt e bs bs',
  plain_texts dt -> plain_words wt -> telling (dt_u16 dt) -> telling (wt_u32 wt) -> telling (wt_i32 wt) ->
  List.length bs = FDE2_SIZE -> List.length bs' = FDE2_SIZE ->
  print_debug alt (fde2_debug dt wt (fde2_decode e bs)) = print_debug alt (fde2_debug dt wt (fde2_decode e bs')) -> bs = bs'.
Proof. exact fde2_bytes_shown. Qed.
Print Assumptions C144_fde2.

Example C144_words : plain_words told_words /\ telling (wt_u32 told_words) /\ telling (wt_i32 told_words).
Proof. exact told_words_plain. Qed.
Example C144_case_header :
  header_from_prefix LE (demo LE) = Some demo_header /\
  print_debug false (header_debug told_texts told_words demo_header) =
    "Header { preamble: Preamble { magic: U16(57058), version: Version(2), flags: Flags(1) }, abi_arch: Abi(0), fixed_fp_offset: 0, " ++
    "fixed_ra_offset: 0, auxhdr_len: 0, num_fdes: U32(2), num_fres: U32(3), fre_len: U32(15), fdeoff: U32(0), freoff: U32(40) }".
Proof. exact header_case. Qed.
Example C144_case_fde :
  List.length demo_fde = FDE2_SIZE /\
  print_debug false (fde2_debug told_texts told_words (fde2_decode LE demo_fde)) =
    "FuncDescEntry { start_address: I32(256), size: U32(16), start_fre_off: U32(0), num_fres: U32(2), info: FdeInfo(0), rep_size: 0, _padding2: U16(0) }".
Proof. exact fde_case. Qed.
