(** Sections with the same output of [sframedump] and different answers (C138). *)
From Coq Require Import String ZArith List.
From Verif Require Export ShownFacts.
From Verif Require Import DebugWitness TextWitness.
Import ListNotations.
Open Scope Z_scope.
Open Scope list_scope.

(** One function of 32 bytes whose rows repeat in blocks of [b] bytes: a row at 8
    and, behind it, one at 0. *)
Definition blocks (b : byte) : bytes :=
  [xe2; xde; x02; x00; x03; x00; xf8; x00;  x01; x00; x00; x00;  x02; x00; x00; x00;
   x06; x00; x00; x00;  x00; x00; x00; x00;  x14; x00; x00; x00;
   x00; x10; x00; x00;  x20; x00; x00; x00;  x00; x00; x00; x00;  x02; x00; x00; x00;  x08; b; x00; x00;
   x08; x03; x10; x00; x03; x08].
Definition blocks_sf (b : byte) : sframe := get_ok dummy_sf (load rel64 LE (blocks b)).

Lemma blocks_case :
  load rel64 LE (blocks x08) = Ok (blocks_sf x08) /\ load rel64 LE (blocks x10) = Ok (blocks_sf x10) /\
  rust_slice rel64 (blocks x08) /\ rust_slice rel64 (blocks x10) /\ ~ sorted_flag (blocks_sf x08) /\
  exists l, dump rel64 LE (blocks_sf x08) = Ok l /\ dump rel64 LE (blocks_sf x10) = Ok l /\ stderr_text l = ""%string /\
    shown_answer (lookup rel64 LE (blocks_sf x08) 0x1008) = Ok (Some (Shown (CellBase Sp 8) CellUnknown (CellCfa (-8)) false)) /\
    shown_answer (lookup rel64 LE (blocks_sf x10) 0x1008) = Ok (Some (Shown (CellBase Sp 16) CellUnknown (CellCfa (-8)) false)).
Proof.
  split; [vm_compute; reflexivity|]. split; [vm_compute; reflexivity|]. split; [vm_compute; intuition discriminate|].
  split; [vm_compute; intuition discriminate|]. split; [vm_compute; discriminate|].
  exists (get_ok [] (dump rel64 LE (blocks_sf x08))). vm_compute. repeat split.
Qed.
(** In a sorted section a lookup reads bytes that belong to no row of the function. *)
Lemma hidden_dump_case :
  load rel64 LE (hidden x08) = Ok (hidden_sf x08) /\ load rel64 LE (hidden x09) = Ok (hidden_sf x09) /\
  rust_slice rel64 (hidden x08) /\ rust_slice rel64 (hidden x09) /\
  exists l, dump rel64 LE (hidden_sf x08) = Ok l /\ dump rel64 LE (hidden_sf x09) = Ok l /\ stderr_text l = ""%string /\ unmasked l /\
    shown_answer (lookup rel64 LE (hidden_sf x08) 0x1000) = Ok (Some (Shown (CellBase Sp 8) CellUnknown (CellCfa (-8)) false)) /\
    shown_answer (lookup rel64 LE (hidden_sf x09) 0x1000) = Ok (Some (Shown (CellBase Sp 9) CellUnknown (CellCfa (-8)) false)).
Proof.
  destruct hidden_case as (L & L' & S & S' & _). split; [exact L|]. split; [exact L'|]. split; [exact S|]. split; [exact S'|].
  exists (get_ok [] (dump rel64 LE (hidden_sf x08))).
  split; [vm_compute; reflexivity|]. split; [vm_compute; reflexivity|]. split; [vm_compute; reflexivity|].
  split; [|split; vm_compute; reflexivity].
  intros ty Hin. vm_compute in Hin. intuition (try discriminate). match goal with H : LineColumns _ = _ |- _ => injection H as <- end. discriminate.
Qed.

(** The same function, little-endian with short row starts and big-endian with longer ones. *)
Definition short_starts : bytes :=
  [xe2; xde; x02; x00; x03; x00; xf8; x00;  x01; x00; x00; x00;  x02; x00; x00; x00;
   x06; x00; x00; x00;  x00; x00; x00; x00;  x14; x00; x00; x00;
   x00; x10; x00; x00;  x20; x00; x00; x00;  x00; x00; x00; x00;  x02; x00; x00; x00;  x00; x00; x00; x00;
   x00; x03; x08; x04; x03; x10].
Definition long_starts : bytes :=
  [xde; xe2; x02; x00; x03; x00; xf8; x00;  x00; x00; x00; x01;  x00; x00; x00; x02;
   x00; x00; x00; x08;  x00; x00; x00; x00;  x00; x00; x00; x14;
   x00; x00; x10; x00;  x00; x00; x00; x20;  x00; x00; x00; x00;  x00; x00; x00; x02;  x01; x00; x00; x00;
   x00; x00; x03; x08; x00; x04; x03; x10].
Definition short_sf : sframe := get_ok dummy_sf (load rel64 LE short_starts).
Definition long_sf : sframe := get_ok dummy_sf (load rel64 BE long_starts).
Lemma starts_case :
  load rel64 LE short_starts = Ok short_sf /\ load rel64 BE long_starts = Ok long_sf /\ sf_fres short_sf <> sf_fres long_sf /\
  rust_slice rel64 short_starts /\ rust_slice rel64 long_starts /\ ~ sorted_flag short_sf /\
  exists l, dump rel64 LE short_sf = Ok l /\ dump rel64 BE long_sf = Ok l /\ stderr_text l = ""%string /\ unmasked l /\
    length l = 8%nat /\
    shown_answer (lookup rel64 LE short_sf 0x1002) = Ok (Some (Shown (CellBase Sp 8) CellUnknown (CellCfa (-8)) false)) /\
    shown_answer (lookup rel64 BE long_sf 0x1002) = Ok (Some (Shown (CellBase Sp 8) CellUnknown (CellCfa (-8)) false)).
Proof.
  split; [vm_compute; reflexivity|]. split; [vm_compute; reflexivity|]. split; [vm_compute; discriminate|].
  split; [vm_compute; intuition discriminate|]. split; [vm_compute; intuition discriminate|]. split; [vm_compute; discriminate|].
  exists (get_ok [] (dump rel64 LE short_sf)).
  split; [vm_compute; reflexivity|]. split; [vm_compute; reflexivity|]. split; [vm_compute; reflexivity|].
  split; [|repeat split; vm_compute; reflexivity].
  intros ty Hin. vm_compute in Hin. intuition (try discriminate). match goal with H : LineColumns _ = _ |- _ => injection H as <- end. discriminate.
Qed.

Lemma abi_plain n : without newline_char (some_abi n).
Proof. unfold some_abi. destruct (n =? 3); repeat (split; [discriminate|]); exact I. Qed.
Theorem dumps_hide : ~ (forall md e bs bs' sf sf' abi_name l l' a,
  wf_mode md -> rust_slice md bs -> rust_slice md bs' -> load md e bs = Ok sf -> load md e bs' = Ok sf' ->
  dump md e sf = Ok l -> dump md e sf' = Ok l' -> (forall n, without newline_char (abi_name n)) ->
  stdout_text abi_name l = stdout_text abi_name l' -> stderr_text l = ""%string -> stderr_text l' = ""%string ->
  shown_answer (lookup md e sf a) = shown_answer (lookup md e sf' a)).
Proof.
  intros H. destruct blocks_case as (L & L' & S & S' & _ & l & D & D' & E & A & A').
  specialize (H rel64 LE _ _ _ _ some_abi l l 0x1008 wf_rel64 S S' L L' D D' abi_plain eq_refl E E). rewrite A, A' in H. discriminate H.
Qed.
