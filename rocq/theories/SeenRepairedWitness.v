(** Cases for [SeenRepairedFacts.v]. *)
From Coq Require Import String ZArith List.
From Verif Require Export SeenRepairedFacts.
From Verif Require Export DebugWitness TextWitness ShownWitness.
Import ListNotations.
Open Scope Z_scope.
Open Scope list_scope.

(** The auxiliary headers that were hidden are now seen. *)
Lemma aux_seen_case : load rel64 LE (with_aux x01) = Ok (with_aux_sf x01) /\ load rel64 LE (with_aux x02) = Ok (with_aux_sf x02) /\
  rust_slice rel64 (with_aux x01) /\ rust_slice rel64 (with_aux x02) /\
  section_text_with false false some_texts rel64 LE (with_aux_sf x01) = section_text_with false false some_texts rel64 LE (with_aux_sf x02) /\
  exists t, 
    section_text_with true false some_texts rel64 LE (with_aux_sf x01) = Ok (t ++ ", aux: [1] }")%string /\
    section_text_with true false some_texts rel64 LE (with_aux_sf x02) = Ok (t ++ ", aux: [2] }")%string.
Proof.
  destruct aux_case as (L & L' & S & S' & _). split; [exact L|]. split; [exact L'|]. split; [exact S|]. split; [exact S'|].
  split; [vm_compute; reflexivity|].
  exists (match section_text_with true false some_texts rel64 LE (with_aux_sf x01) with
          | Ok s => substring 0 (String.length s - String.length ", aux: [1] }") s | _ => ""%string end).
  vm_compute. split; reflexivity.
Qed.
Lemma aux_needed : ~ (forall alt dt md e bs bs' sf sf' text, plain_texts dt -> wf_mode md -> rust_slice md bs -> rust_slice md bs' ->
  load md e bs = Ok sf -> load md e bs' = Ok sf' ->
  section_text_with false alt dt md e sf = Ok text -> section_text_with false alt dt md e sf' = Ok text -> raw_aux sf = raw_aux sf').
Proof.
  intros H. apply aux_hidden. intros alt dt md e bs bs' sf sf' text H1 H2 H3 H4 H5 H6 H7 H8.
  apply (H alt dt md e bs bs' sf sf' text); rewrite ?section_text_unrepaired; assumption.
Qed.

(** The block sizes that were hidden are now seen. *)
Lemma blocks_seen_case :
  load rel64 LE (blocks x08) = Ok (blocks_sf x08) /\ load rel64 LE (blocks x10) = Ok (blocks_sf x10) /\
  rust_slice rel64 (blocks x08) /\ rust_slice rel64 (blocks x10) /\
  exists l, dump rel64 LE (blocks_sf x08) = Ok l /\ dump rel64 LE (blocks_sf x10) = Ok l /\
    stdout_text_with true some_abi (blocks_sf x08) l = ("Block sizes: 8" ++ newline ++ stdout_text some_abi l)%string /\
    stdout_text_with true some_abi (blocks_sf x10) l = ("Block sizes: 16" ++ newline ++ stdout_text some_abi l)%string.
Proof.
  destruct blocks_case as (L & L' & S & S' & _ & l & D & D' & _). split; [exact L|]. split; [exact L'|]. split; [exact S|]. split; [exact S'|].
  exists l. split; [exact D|]. split; [exact D'|]. split; reflexivity.
Qed.
(** Sections that print the same and answer the same. *)
Lemma starts_seen_case :
  load rel64 LE short_starts = Ok short_sf /\ load rel64 BE long_starts = Ok long_sf /\ sf_fres short_sf <> sf_fres long_sf /\
  rust_slice rel64 short_starts /\ rust_slice rel64 long_starts /\
  exists l, dump rel64 LE short_sf = Ok l /\ dump rel64 BE long_sf = Ok l /\ stderr_text l = ""%string /\
    stdout_text_with true some_abi short_sf l = stdout_text_with true some_abi long_sf l /\
    shown_answer (lookup_with all_repairs rel64 LE short_sf 0x1006) = Ok (Some (Shown (CellBase Sp 16) CellUnknown (CellCfa (-8)) false)) /\
    shown_answer (lookup_with all_repairs rel64 BE long_sf 0x1006) = Ok (Some (Shown (CellBase Sp 16) CellUnknown (CellCfa (-8)) false)).
Proof.
  destruct starts_case as (L & L' & N & S & S' & _ & l & D & D' & E & _).
  split; [exact L|]. split; [exact L'|]. split; [exact N|]. split; [exact S|]. split; [exact S'|].
  exists l. split; [exact D|]. split; [exact D'|]. split; [exact E|]. split; [|split; vm_compute; reflexivity].
  unfold stdout_text_with. f_equal; vm_compute; reflexivity.
Qed.

Lemma blocks_needed : ~ (forall md e bs bs' sf sf' abi_name l l' a,
  wf_mode md -> rust_slice md bs -> rust_slice md bs' -> load md e bs = Ok sf -> load md e bs' = Ok sf' ->
  dump md e sf = Ok l -> dump md e sf' = Ok l' -> (forall n, without newline_char (abi_name n)) ->
  stdout_text_with false abi_name sf l = stdout_text_with false abi_name sf' l' -> stderr_text l = ""%string -> stderr_text l' = ""%string ->
  shown_answer (lookup_with all_repairs md e sf a) = shown_answer (lookup_with all_repairs md e sf' a)).
Proof.
  intros H. destruct blocks_case as (L & L' & S & S' & _ & l & D & D' & E & _).
  specialize (H rel64 LE _ _ _ _ some_abi l l 0x1008 wf_rel64 S S' L L' D D' abi_plain eq_refl E E). vm_compute in H. discriminate H.
Qed.
Definition all_but_rows : repairs := Repairs true false true true.
Lemma rows_needed : ~ (forall md e bs bs' sf sf' abi_name l l' a,
  wf_mode md -> rust_slice md bs -> rust_slice md bs' -> load md e bs = Ok sf -> load md e bs' = Ok sf' ->
  dump md e sf = Ok l -> dump md e sf' = Ok l' -> (forall n, without newline_char (abi_name n)) ->
  stdout_text_with true abi_name sf l = stdout_text_with true abi_name sf' l' -> stderr_text l = ""%string -> stderr_text l' = ""%string ->
  shown_answer (lookup_with all_but_rows md e sf a) = shown_answer (lookup_with all_but_rows md e sf' a)).
Proof.
  intros H. destruct hidden_dump_case as (L & L' & S & S' & l & D & D' & E & _).
  specialize (H rel64 LE _ _ _ _ some_abi l l 0x1000 wf_rel64 S S' L L' D D' abi_plain).
  specialize (H ltac:(unfold stdout_text_with; f_equal; vm_compute; reflexivity) E E). vm_compute in H. discriminate H.
Qed.
