(** C156: the stack of a running program, walked by looking addresses up. *)
From Verif Require Import RunLookWitness.
From Verif Require Import ConvWitness WalkLookSpec.

(** * C156 At every moment of a run a walk by looking addresses up gives the calls that have not returned *)

(** The full statement: as C155, with [fde_for_address] and [get_fre_for_address] in the place of
    the iterators.  It is false of every program whose functions are short (less than 128
    bytes) if one of them moves the stack pointer: there is a run, and a moment of it, at which
    the walk does not give the calls. *)
Theorem C156_refuted : forall fs eh, eh_typed eh -> compiled fs (eh_entries eh) -> moderate fs ->
  (forall f, In f fs -> fn_start f + fn_len f <= i32_max + 1) -> (forall f, In f fs -> fn_ret f <= 127) ->
  forall md md' op e s bs md'' f, op_arch op = Amd64 -> dwarf2sframe md op eh = Ok s -> build md' e s = Ok bs ->
  wf_mode md'' -> rust_slice md'' bs -> overflow_checks md'' = false -> In f fs ->
  match fn_kind f with WithFp _ => True | WithoutFp room _ => 0 < room end ->
  exists sf, load md'' e bs = Ok sf /\ ~ always_walked eh fs (looked_up no_repairs md'' e sf).
Proof. exact compiled_astray. Qed.
Print Assumptions C156_refuted.

(** What goes wrong: in one function nothing is found, and in the other the walk goes wherever
    a word of its frame says. *)
Theorem C156_astray_refuted : eh_typed run_eh /\ compiled run_fs (eh_entries run_eh) /\ moderate run_fs /\
  dwarf2sframe rel64 amd run_eh = Ok run_sfb /\ build rel64 LE run_sfb = Ok run_section /\ load rel64 LE run_section = Ok run_sf /\
  starts 0x100000 run_fs 0x400000 run_begin /\
  (runs 0x100000 run_fs run_begin (run_frames, run_now) /\ sees 0x100000 run_world run_now /\
   forall y, ~ sf_step run_world (looked_up no_repairs rel64 LE run_sf) (frame_of_thread run_now) y) /\
  (forall v, runs 0x100000 run_fs run_begin (tl run_frames, run_inner_now v) /\ sees 0x100000 (inner_world v) (run_inner_now v) /\
   sf_step (inner_world v) (looked_up no_repairs rel64 LE run_sf) (frame_of_thread (run_inner_now v)) (SfFrame false v 0x6fa0 (Some 0x6ff8))).
Proof. exact run_astray. Qed.
Print Assumptions C156_astray_refuted.

(** With the repairs of [Repaired.v] made to the reader (see C65) it holds of all programs whose
    functions lie within the addresses that can be looked up. *)
Theorem C156_repaired_partial : forall fs eh, eh_typed eh -> compiled fs (eh_entries eh) -> moderate fs ->
  (forall f, In f fs -> fn_start f + fn_len f <= i32_max + 1) ->
  forall md md' op e, op_arch op = Amd64 ->
  exists s bs, dwarf2sframe md op eh = Ok s /\ build md' e s = Ok bs /\
    forall md'', wf_mode md'' -> rust_slice md'' bs ->
    exists sf, load md'' e bs = Ok sf /\ always_walked eh fs (looked_up all_repairs md'' e sf).
Proof. exact compiled_looks. Qed.
Print Assumptions C156_repaired_partial.

Theorem C156_first_repaired_partial : forall fs eh, eh_typed eh -> compiled fs (eh_entries eh) -> moderate fs ->
  (forall f, In f fs -> fn_start f + fn_len f <= i32_max + 1) ->
  forall md md' p e, (forall r, p r = true) ->
  exists s bs, v1_convert md p (eh_entries eh) = Ok s /\ build md' e s = Ok bs /\
    forall md'', wf_mode md'' -> rust_slice md'' bs ->
    exists sf, load md'' e bs = Ok sf /\ always_walked eh fs (looked_up all_repairs md'' e sf).
Proof. exact v1_compiled_looks. Qed.
Print Assumptions C156_first_repaired_partial.

(** The program of C155. *)
Theorem C156_case : eh_typed run_eh /\ compiled run_fs (eh_entries run_eh) /\ moderate run_fs /\
  (forall f, In f run_fs -> fn_start f + fn_len f <= i32_max + 1 /\ fn_ret f <= 127) /\
  dwarf2sframe rel64 amd run_eh = Ok run_sfb /\ build rel64 LE run_sfb = Ok run_section /\
  wf_mode rel64 /\ rust_slice rel64 run_section /\ overflow_checks rel64 = false /\ In run_outer run_fs /\ load rel64 LE run_section = Ok run_sf /\
  walk (sf_step run_world (looked_up all_repairs rel64 LE run_sf)) (frame_of_thread run_now) run_frames.
Proof. exact run_look_case. Qed.
Print Assumptions C156_case.
