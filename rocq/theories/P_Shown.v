(** Property C138: what the output of [sframedump] tells about lookups. *)
From Coq Require Import String ZArith List.
From Verif Require Import DebugWitness TextWitness ShownWitness.
Import ListNotations.
Open Scope Z_scope.

(** * C138 Sections that sframedump shows alike answer every lookup alike: false *)

Theorem C138_lookups_refuted : ~ (forall md e bs bs' sf sf' abi_name l l' a,
  wf_mode md -> rust_slice md bs -> rust_slice md bs' -> load md e bs = Ok sf -> load md e bs' = Ok sf' ->
  dump md e sf = Ok l -> dump md e sf' = Ok l' -> (forall n, without newline_char (abi_name n)) ->
  stdout_text abi_name l = stdout_text abi_name l' -> stderr_text l = ""%string -> stderr_text l' = ""%string ->
  shown_answer (lookup md e sf a) = shown_answer (lookup md e sf' a)).
Proof. exact dumps_hide. Qed.
Print Assumptions C138_lookups_refuted.

(** The size of repeated blocks is not shown. *)
Theorem C138_blocks_refuted :
  load rel64 LE (blocks x08) = Ok (blocks_sf x08) /\ load rel64 LE (blocks x10) = Ok (blocks_sf x10) /\
  rust_slice rel64 (blocks x08) /\ rust_slice rel64 (blocks x10) /\ ~ sorted_flag (blocks_sf x08) /\
  exists l, dump rel64 LE (blocks_sf x08) = Ok l /\ dump rel64 LE (blocks_sf x10) = Ok l /\ stderr_text l = ""%string /\
    shown_answer (lookup rel64 LE (blocks_sf x08) 0x1008) = Ok (Some (Shown (CellBase Sp 8) CellUnknown (CellCfa (-8)) false)) /\
    shown_answer (lookup rel64 LE (blocks_sf x10) 0x1008) = Ok (Some (Shown (CellBase Sp 16) CellUnknown (CellCfa (-8)) false)).
Proof. exact blocks_case. Qed.
Print Assumptions C138_blocks_refuted.

(** Lookups in sorted sections read bytes that are not shown. *)
Theorem C138_sorted_refuted :
  load rel64 LE (hidden x08) = Ok (hidden_sf x08) /\ load rel64 LE (hidden x09) = Ok (hidden_sf x09) /\
  rust_slice rel64 (hidden x08) /\ rust_slice rel64 (hidden x09) /\
  exists l, dump rel64 LE (hidden_sf x08) = Ok l /\ dump rel64 LE (hidden_sf x09) = Ok l /\ stderr_text l = ""%string /\ unmasked l /\
    shown_answer (lookup rel64 LE (hidden_sf x08) 0x1000) = Ok (Some (Shown (CellBase Sp 8) CellUnknown (CellCfa (-8)) false)) /\
    shown_answer (lookup rel64 LE (hidden_sf x09) 0x1000) = Ok (Some (Shown (CellBase Sp 9) CellUnknown (CellCfa (-8)) false)).
Proof. exact hidden_dump_case. Qed.
Print Assumptions C138_sorted_refuted.

(** Without these two: whatever the byte orders. *)
Theorem C138_lookups_partial : forall md e e' bs bs' sf sf' abi_name l l',
  wf_mode md -> rust_slice md bs -> rust_slice md bs' -> load md e bs = Ok sf -> load md e' bs' = Ok sf' ->
  dump md e sf = Ok l -> dump md e' sf' = Ok l' -> (forall n, without newline_char (abi_name n)) ->
  stdout_text abi_name l = stdout_text abi_name l' ->
  forall a, ~ sorted_flag sf -> unmasked l -> stderr_text l = ""%string -> stderr_text l' = ""%string ->
  shown_answer (lookup md e sf a) = shown_answer (lookup md e' sf' a).
Proof. exact same_dump_lookups. Qed.
Print Assumptions C138_lookups_partial.

(** The function that is found is always the same one. *)
Theorem C138_functions_partial : forall md e e' bs bs' sf sf' abi_name l l',
  wf_mode md -> rust_slice md bs -> rust_slice md bs' -> load md e bs = Ok sf -> load md e' bs' = Ok sf' ->
  dump md e sf = Ok l -> dump md e' sf' = Ok l' -> (forall n, without newline_char (abi_name n)) ->
  stdout_text abi_name l = stdout_text abi_name l' ->
  forall a, same_place sf sf' (fde_for_address md sf a) (fde_for_address md sf' a).
Proof. exact same_dump_place. Qed.
Print Assumptions C138_functions_partial.

Example C138_case :
  load rel64 LE short_starts = Ok short_sf /\ load rel64 BE long_starts = Ok long_sf /\ sf_fres short_sf <> sf_fres long_sf /\
  rust_slice rel64 short_starts /\ rust_slice rel64 long_starts /\ ~ sorted_flag short_sf /\
  exists l, dump rel64 LE short_sf = Ok l /\ dump rel64 BE long_sf = Ok l /\ stderr_text l = ""%string /\ unmasked l /\
    length l = 8%nat /\
    shown_answer (lookup rel64 LE short_sf 0x1002) = Ok (Some (Shown (CellBase Sp 8) CellUnknown (CellCfa (-8)) false)) /\
    shown_answer (lookup rel64 BE long_sf 0x1002) = Ok (Some (Shown (CellBase Sp 8) CellUnknown (CellCfa (-8)) false)).
Proof. exact starts_case. Qed.
Example C138_names : forall n, without newline_char (some_abi n).
Proof. exact abi_plain. Qed.
