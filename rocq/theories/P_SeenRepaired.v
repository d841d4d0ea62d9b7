(** C103 and C138 with one thing more shown each. *)
From Coq Require Import String Ascii ZArith List.
From Verif Require Import SeenRepairedWitness.
Import ListNotations.
Open Scope Z_scope.
Open Scope list_scope.

(** * C103 Sections that print the same look the same to every accessor *)

(** Without the auxiliary header this is the debug output as it is. *)
Theorem C103_unrepaired_partial : forall alt dt md e sf,
  section_text_with false alt dt md e sf = section_text alt dt md e sf.
Proof. exact section_text_unrepaired. Qed.
Print Assumptions C103_unrepaired_partial.

(** With it nothing is missing. *)
Theorem C103_repaired_partial : forall alt dt md e e' bs bs' sf sf' text text',
  plain_texts dt -> wf_mode md -> rust_slice md bs -> rust_slice md bs' ->
  load md e bs = Ok sf -> load md e' bs' = Ok sf' ->
  section_text_with true alt dt md e sf = Ok text -> section_text_with true alt dt md e' sf' = Ok text' ->
  (text = text' <-> (exists s, is_seen dt md e sf s /\ is_seen dt md e' sf' s) /\ raw_aux sf = raw_aux sf').
Proof. exact same_text_aux_iff. Qed.
Print Assumptions C103_repaired_partial.

Example C103_repaired_case :
  load rel64 LE (with_aux x01) = Ok (with_aux_sf x01) /\ load rel64 LE (with_aux x02) = Ok (with_aux_sf x02) /\
  rust_slice rel64 (with_aux x01) /\ rust_slice rel64 (with_aux x02) /\
  section_text_with false false some_texts rel64 LE (with_aux_sf x01) = section_text_with false false some_texts rel64 LE (with_aux_sf x02) /\
  exists t, 
    section_text_with true false some_texts rel64 LE (with_aux_sf x01) = Ok (t ++ ", aux: [1] }")%string /\
    section_text_with true false some_texts rel64 LE (with_aux_sf x02) = Ok (t ++ ", aux: [2] }")%string.
Proof. exact aux_seen_case. Qed.

Theorem C103_aux_needed_refuted :
  ~ (forall alt dt md e bs bs' sf sf' text, plain_texts dt -> wf_mode md -> rust_slice md bs -> rust_slice md bs' ->
  load md e bs = Ok sf -> load md e bs' = Ok sf' ->
  section_text_with false alt dt md e sf = Ok text -> section_text_with false alt dt md e sf' = Ok text -> raw_aux sf = raw_aux sf').
Proof. exact aux_needed. Qed.
Print Assumptions C103_aux_needed_refuted.

(** * C138 Sections that sframedump shows alike answer every lookup alike *)

(** Without the line of block sizes this is the output as it is, and without repairs the look-ups are. *)
Theorem C138_unrepaired_partial : forall abi_name sf l,
  stdout_text_with false abi_name sf l = stdout_text abi_name l.
Proof. exact stdout_unrepaired. Qed.
Print Assumptions C138_unrepaired_partial.

Theorem C138_unrepaired_lookups_partial : forall md e sf a,
  lookup_with no_repairs md e sf a = lookup md e sf a.
Proof. exact lookup_unrepaired. Qed.
Print Assumptions C138_unrepaired_lookups_partial.

(** With the line, and look-ups that take the rows from the offset of the function. *)
Theorem C138_repaired_partial : forall rp md e e' bs bs' sf sf' abi_name l l' a,
  fix_rows rp = true ->
  wf_mode md -> rust_slice md bs -> rust_slice md bs' -> load md e bs = Ok sf -> load md e' bs' = Ok sf' ->
  dump md e sf = Ok l -> dump md e' sf' = Ok l' -> (forall n, without newline_char (abi_name n)) ->
  stdout_text_with true abi_name sf l = stdout_text_with true abi_name sf' l' -> stderr_text l = ""%string -> stderr_text l' = ""%string ->
  shown_answer (lookup_with rp md e sf a) = shown_answer (lookup_with rp md e' sf' a).
Proof. exact same_dump_lookups_with. Qed.
Print Assumptions C138_repaired_partial.

Example C138_repaired_case :
  load rel64 LE short_starts = Ok short_sf /\ load rel64 BE long_starts = Ok long_sf /\ sf_fres short_sf <> sf_fres long_sf /\
  rust_slice rel64 short_starts /\ rust_slice rel64 long_starts /\
  exists l, dump rel64 LE short_sf = Ok l /\ dump rel64 BE long_sf = Ok l /\ stderr_text l = ""%string /\
    stdout_text_with true some_abi short_sf l = stdout_text_with true some_abi long_sf l /\
    shown_answer (lookup_with all_repairs rel64 LE short_sf 0x1006) = Ok (Some (Shown (CellBase Sp 16) CellUnknown (CellCfa (-8)) false)) /\
    shown_answer (lookup_with all_repairs rel64 BE long_sf 0x1006) = Ok (Some (Shown (CellBase Sp 16) CellUnknown (CellCfa (-8)) false)).
Proof. exact starts_seen_case. Qed.

Example C138_repaired_blocks_case :
  load rel64 LE (blocks x08) = Ok (blocks_sf x08) /\ load rel64 LE (blocks x10) = Ok (blocks_sf x10) /\
  rust_slice rel64 (blocks x08) /\ rust_slice rel64 (blocks x10) /\
  exists l, dump rel64 LE (blocks_sf x08) = Ok l /\ dump rel64 LE (blocks_sf x10) = Ok l /\
    stdout_text_with true some_abi (blocks_sf x08) l = ("Block sizes: 8" ++ newline ++ stdout_text some_abi l)%string /\
    stdout_text_with true some_abi (blocks_sf x10) l = ("Block sizes: 16" ++ newline ++ stdout_text some_abi l)%string.
Proof. exact blocks_seen_case. Qed.

Theorem C138_blocks_needed_refuted :
  ~ (forall md e bs bs' sf sf' abi_name l l' a,
  wf_mode md -> rust_slice md bs -> rust_slice md bs' -> load md e bs = Ok sf -> load md e bs' = Ok sf' ->
  dump md e sf = Ok l -> dump md e sf' = Ok l' -> (forall n, without newline_char (abi_name n)) ->
  stdout_text_with false abi_name sf l = stdout_text_with false abi_name sf' l' -> stderr_text l = ""%string -> stderr_text l' = ""%string ->
  shown_answer (lookup_with all_repairs md e sf a) = shown_answer (lookup_with all_repairs md e sf' a)).
Proof. exact blocks_needed. Qed.
Print Assumptions C138_blocks_needed_refuted.

Theorem C138_rows_needed_refuted :
  ~ (forall md e bs bs' sf sf' abi_name l l' a,
  wf_mode md -> rust_slice md bs -> rust_slice md bs' -> load md e bs = Ok sf -> load md e bs' = Ok sf' ->
  dump md e sf = Ok l -> dump md e sf' = Ok l' -> (forall n, without newline_char (abi_name n)) ->
  stdout_text_with true abi_name sf l = stdout_text_with true abi_name sf' l' -> stderr_text l = ""%string -> stderr_text l' = ""%string ->
  shown_answer (lookup_with all_but_rows md e sf a) = shown_answer (lookup_with all_but_rows md e sf' a)).
Proof. exact rows_needed. Qed.
Print Assumptions C138_rows_needed_refuted.
