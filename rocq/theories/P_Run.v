(** C155: the stack of a running program can be walked at every moment. *)
From Verif Require Import RunWitness.
From Verif Require Import ConvWitness V1Witness.

(** * C155 At every moment of a run a walk with the converted section gives the calls that have not returned *)

(** Programs of functions with and without frame pointers, and the call frame programs that
    compilers write for them: the conversion and the build succeed, and at every moment of
    every run, between any two instructions, a walk by the section gives exactly the calls not
    yet returned, where each returns to and what the registers were before it.  So it is for this
    library and for an unwinder written from the SFrame specification. *)
Theorem C155_compiled : forall fs eh, eh_typed eh -> compiled fs (eh_entries eh) -> moderate fs ->
  forall md md' op e, op_arch op = Amd64 ->
  exists s bs, dwarf2sframe md op eh = Ok s /\ build md' e s = Ok bs /\
    always_walked eh fs (std_tells e bs) /\
    forall md'', wf_mode md'' -> rust_slice md'' bs -> exists sf, load md'' e bs = Ok sf /\ always_walked eh fs (section_says md'' e sf).
Proof. exact compiled_walks. Qed.
Print Assumptions C155_compiled.

Theorem C155_first_compiled : forall fs eh, eh_typed eh -> compiled fs (eh_entries eh) -> moderate fs ->
  forall md md' p e, (forall r, p r = true) ->
  exists s bs, v1_convert md p (eh_entries eh) = Ok s /\ build md' e s = Ok bs /\
    always_walked eh fs (std_tells e bs) /\
    forall md'', wf_mode md'' -> rust_slice md'' bs -> exists sf, load md'' e bs = Ok sf /\ always_walked eh fs (section_says md'' e sf).
Proof. exact v1_compiled_walks. Qed.
Print Assumptions C155_first_compiled.

(** The same with any call frame programs that describe the functions, if they are converted and
    built and no offsets are confused (C49). *)
Theorem C155_described : forall md md' md'' op eh s e bs cie fs,
  eh_typed eh -> dwarf2sframe md op eh = Ok s -> op_arch op = Amd64 -> build md' e s = Ok bs -> wf_mode md'' -> rust_slice md'' bs ->
  programs_followed eh cie -> (forall d, last_at eh d -> unconfused Amd64 (fixed_ra_of op eh) (cie d) d) ->
  (forall f, In f fs -> fn_wf f) -> functions_apart fs -> describes eh cie fs ->
  (exists sf, load md'' e bs = Ok sf /\ always_walked eh fs (section_says md'' e sf)) /\ always_walked eh fs (std_tells e bs).
Proof. exact run_walks. Qed.
Print Assumptions C155_described.

Theorem C155_first_described : forall md md' md'' p eh s e bs cie fs,
  eh_typed eh -> v1_convert md p (eh_entries eh) = Ok s -> build md' e s = Ok bs -> wf_mode md'' -> rust_slice md'' bs ->
  programs_followed eh cie -> (forall d, last_at eh d -> v1_unconfused (cie d) d /\ advances (cie d) d) ->
  (forall f, In f fs -> fn_wf f) -> functions_apart fs -> describes eh cie fs ->
  (exists sf, load md'' e bs = Ok sf /\ always_walked eh fs (section_says md'' e sf)) /\ always_walked eh fs (std_tells e bs).
Proof. exact v1_run_walks. Qed.
Print Assumptions C155_first_described.

(** Two functions that call each other, three calls deep, after the frame pointer has been pushed. *)
Theorem C155_case : eh_typed run_eh /\ compiled run_fs (eh_entries run_eh) /\ moderate run_fs /\
  starts 0x100000 run_fs 0x400000 run_begin /\ runs 0x100000 run_fs run_begin (run_frames, run_now) /\ sees 0x100000 run_world run_now /\
  (forall d, last_at run_eh d ->
     ~ in_range (df_start d) (df_len d) (0x400000 - 0x100000) /\ ~ in_range (df_start d) (df_len d) (0x400000 - 0x100000 - 1)) /\
  dwarf2sframe rel64 amd run_eh = Ok run_sfb /\ build rel64 LE run_sfb = Ok run_section /\
  walk (sf_step run_world (std_tells LE run_section)) (frame_of_thread run_now) run_frames /\
  map sx_pc run_frames = [0x10102c; 0x10100d; 0x400000].
Proof. exact run_case. Qed.
Print Assumptions C155_case.
