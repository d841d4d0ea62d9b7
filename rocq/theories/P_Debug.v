(** Properties C100 to C104: what the [Debug] implementations of the reader print. *)
From Coq Require Import String.
From Verif Require Import DebugWitness.
Local Open Scope string_scope.

(** * C100 Formatting a loaded section with [{:?}] does not panic: false *)

Theorem C100_no_panic_refuted :
  ~ (forall alt dt md e bs sf, wf_mode md -> rust_slice md bs -> load md e bs = Ok sf -> section_text alt dt md e sf <> Panic).
Proof. exact debug_panics. Qed.
Print Assumptions C100_no_panic_refuted.

(** Missing: nothing is printed if the rows of a function cannot be iterated;
    that is the only reason. *)
Theorem C100_panics_partial : forall alt dt md e bs sf,
  wf_mode md -> rust_slice md bs -> load md e bs = Ok sf ->
  (section_text alt dt md e sf = Panic <-> exists en, In en (all_fdes sf) /\ all_fres md e en = Panic) /\
  (forall er, section_text alt dt md e sf <> Err er).
Proof. exact section_text_panics. Qed.
Print Assumptions C100_panics_partial.

Example C100_case : load rel64 LE (shrunk LE) = Ok (shrunk_sf LE) /\ rust_slice rel64 (shrunk LE) /\
  section_text false some_texts rel64 LE (shrunk_sf LE) = Panic.
Proof. exact (shrunk_debug_panics LE). Qed.

(** * C101 Debug output can be read back, in both layouts *)

Theorem C101_read_back : forall alt dt md e bs sf text,
  plain_texts dt -> wf_mode md -> rust_slice md bs -> load md e bs = Ok sf ->
  section_text alt dt md e sf = Ok text ->
  exists s, read_debug text = Some s /\ is_seen dt md e sf s.
Proof. exact section_read. Qed.
Print Assumptions C101_read_back.

Example C101_case :
  load rel64 LE damaged = Ok damaged_sf /\ rust_slice rel64 damaged /\
  section_text false some_texts rel64 LE damaged_sf = Ok sample_debug /\ read_debug sample_debug = Some sample_seen /\
  section_text true some_texts rel64 LE damaged_sf = Ok sample_pretty /\ read_debug sample_pretty = Some sample_seen /\
  sample_pretty <> sample_debug.
Proof. exact debug_case. Qed.
Example C101_texts : plain_texts some_texts.
Proof. exact some_texts_plain. Qed.

(** * C102 Sections that print the same answer every lookup the same: false *)

Theorem C102_lookups_refuted :
  ~ (forall alt dt md e bs bs' sf sf' text, plain_texts dt -> wf_mode md -> rust_slice md bs -> rust_slice md bs' ->
     load md e bs = Ok sf -> load md e bs' = Ok sf' ->
     section_text alt dt md e sf = Ok text -> section_text alt dt md e sf' = Ok text ->
     forall a, in_i32 a -> lookup md e sf a = lookup md e sf' a).
Proof. exact hidden_lookups. Qed.
Print Assumptions C102_lookups_refuted.

(** Missing: rows found through [fde_for_address] in sections with the sorted
    flag.  There the entry found carries the wrong row bytes (see C12). *)
Theorem C102_lookups_partial : forall alt alt' dt md e e' bs bs' sf sf' text,
  plain_texts dt -> wf_mode md -> rust_slice md bs -> rust_slice md bs' ->
  load md e bs = Ok sf -> load md e' bs' = Ok sf' ->
  section_text alt dt md e sf = Ok text -> section_text alt' dt md e' sf' = Ok text ->
  forall a, same_place sf sf' (fde_for_address md sf a) (fde_for_address md sf' a) /\
    (~ sorted_flag sf -> lookup md e sf a = lookup md e' sf' a).
Proof. exact same_text_lookups. Qed.
Print Assumptions C102_lookups_partial.

(** Rows found through the iterator. *)
Theorem C102_rows_partial : forall alt alt' dt md e e' bs bs' sf sf' text,
  plain_texts dt -> wf_mode md -> rust_slice md bs -> rust_slice md bs' ->
  load md e bs = Ok sf -> load md e' bs' = Ok sf' ->
  section_text alt dt md e sf = Ok text -> section_text alt' dt md e' sf' = Ok text ->
  length (all_fdes sf) = length (all_fdes sf') /\
  forall i en en' a, nth_error (all_fdes sf) i = Some en -> nth_error (all_fdes sf') i = Some en' ->
    row_found (get_fre_for_address md e en a) = row_found (get_fre_for_address md e' en' a).
Proof. exact same_text_rows. Qed.
Print Assumptions C102_rows_partial.

Example C102_case : load rel64 LE (hidden x08) = Ok (hidden_sf x08) /\ load rel64 LE (hidden x09) = Ok (hidden_sf x09) /\
  rust_slice rel64 (hidden x08) /\ rust_slice rel64 (hidden x09) /\
  (exists text, section_text false some_texts rel64 LE (hidden_sf x08) = Ok text /\ section_text false some_texts rel64 LE (hidden_sf x09) = Ok text) /\
  (exists u u', lookup rel64 LE (hidden_sf x08) 0x1000 = Ok (Some u) /\ lookup rel64 LE (hidden_sf x09) 0x1000 = Ok (Some u') /\
     uw_cfa u = Some 8%Z /\ uw_cfa u' = Some 9%Z).
Proof. exact hidden_case. Qed.

(** * C103 Sections that print the same show the same through every accessor: false *)

Theorem C103_accessors_refuted :
  ~ (forall alt dt md e bs bs' sf sf' text, plain_texts dt -> wf_mode md -> rust_slice md bs -> rust_slice md bs' ->
     load md e bs = Ok sf -> load md e bs' = Ok sf' ->
     section_text alt dt md e sf = Ok text -> section_text alt dt md e sf' = Ok text -> raw_aux sf = raw_aux sf').
Proof. exact aux_hidden. Qed.
Print Assumptions C103_accessors_refuted.

(** Missing: the auxiliary header. *)
Theorem C103_same_text_partial : forall alt dt md e e' bs bs' sf sf' text text',
  plain_texts dt -> wf_mode md -> rust_slice md bs -> rust_slice md bs' ->
  load md e bs = Ok sf -> load md e' bs' = Ok sf' ->
  section_text alt dt md e sf = Ok text -> section_text alt dt md e' sf' = Ok text' ->
  (text = text' <-> exists s, is_seen dt md e sf s /\ is_seen dt md e' sf' s).
Proof. exact same_text_iff. Qed.
Print Assumptions C103_same_text_partial.

Example C103_case : load rel64 LE (with_aux x01) = Ok (with_aux_sf x01) /\ load rel64 LE (with_aux x02) = Ok (with_aux_sf x02) /\
  rust_slice rel64 (with_aux x01) /\ rust_slice rel64 (with_aux x02) /\
  (exists text, section_text false some_texts rel64 LE (with_aux_sf x01) = Ok text /\ section_text false some_texts rel64 LE (with_aux_sf x02) = Ok text) /\
  raw_aux (with_aux_sf x01) = [x01] /\ raw_aux (with_aux_sf x02) = [x02].
Proof. exact aux_case. Qed.

(** * C104 The debug output of an FRE info byte tells what each bit says *)

Theorem C104_info_read_back : forall alt i, in_u8 i ->
  exists t o, read_text (print_debug alt (fre_info_debug i)) = Some t /\
    read_info_of t = Some (bits 0 1 i =? 1, bits 1 4 i, o, bits 7 1 i =? 1)%Z /\ fre_offset_u8 o = bits 5 2 i.
Proof. exact info_read_back. Qed.
Print Assumptions C104_info_read_back.

Theorem C104_info_told_apart : forall alt alt' i j, in_u8 i -> in_u8 j ->
  print_debug alt (fre_info_debug i) = print_debug alt' (fre_info_debug j) -> i = j.
Proof. exact info_told_apart. Qed.
Print Assumptions C104_info_told_apart.

Example C104_case : print_debug false (fre_info_debug 0xA5) =
  "FreInfo { cfa_base_reg_id: Sp, offset_count: 2, offset_size: _2B, mangled_ra_p: true }".
Proof. vm_compute. reflexivity. Qed.
