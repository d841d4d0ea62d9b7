(** C158: the stack of a program given by its instructions can be walked at every moment. *)
From Verif Require Import CodeWitness.
From Verif Require Import ConvWitness V1Witness.

(** * C158 If the call frame programs are right about the instructions, a walk with the converted section is right at every moment *)

(** A program given by its instructions, each known only by what it does to the stack pointer, the
    frame pointer and the words of the stack that matter, and for each of its functions what is to be
    known at each instruction.  If that is checked instruction by instruction, and the rules of the
    call frame programs fit it at every byte, then at every moment of every run a walk by the
    converted section gives exactly the calls not yet returned. *)
Theorem C158_described : forall md md' md'' op eh s e bs cie fs,
  eh_typed eh -> dwarf2sframe md op eh = Ok s -> op_arch op = Amd64 -> build md' e s = Ok bs -> wf_mode md'' -> rust_slice md'' bs ->
  programs_followed eh cie -> (forall d, last_at eh d -> unconfused Amd64 (fixed_ra_of op eh) (cie d) d) ->
  (forall f, In f fs -> checked f) -> routines_apart fs -> code_described eh cie fs ->
  (exists sf, load md'' e bs = Ok sf /\ code_always_walked eh fs (section_says md'' e sf)) /\ code_always_walked eh fs (std_tells e bs).
Proof. exact code_walks. Qed.
Print Assumptions C158_described.

Theorem C158_first_described : forall md md' md'' p eh s e bs cie fs,
  eh_typed eh -> v1_convert md p (eh_entries eh) = Ok s -> build md' e s = Ok bs -> wf_mode md'' -> rust_slice md'' bs ->
  programs_followed eh cie -> (forall d, last_at eh d -> v1_unconfused (cie d) d /\ advances (cie d) d) ->
  (forall f, In f fs -> checked f) -> routines_apart fs -> code_described eh cie fs ->
  (exists sf, load md'' e bs = Ok sf /\ code_always_walked eh fs (section_says md'' e sf)) /\ code_always_walked eh fs (std_tells e bs).
Proof. exact v1_code_walks. Qed.
Print Assumptions C158_first_described.

(** For ordinary programs (C124) the conversion and the build succeed too. *)
Theorem C158_converted : forall md md' op eh e cie fs,
  eh_typed eh -> op_arch op = Amd64 -> ents_end (eh_entries eh) = None ->
  (forall x, In x (entries_of eh) -> match x with DwCie => True | DwBadFde _ => False
     | DwGoodFde f => ordinary op eh f /\ dump_fine md op f end) ->
  apart eh -> countable (function_count eh) (table_rows eh) ->
  (forall c d, last_at eh d -> follows_dwarf c d -> unconfused Amd64 (fixed_ra_of op eh) c d) ->
  programs_followed eh cie -> (forall f, In f fs -> checked f) -> routines_apart fs -> code_described eh cie fs ->
  exists s bs, dwarf2sframe md op eh = Ok s /\ build md' e s = Ok bs /\ code_always_walked eh fs (std_tells e bs) /\
    forall md'', wf_mode md'' -> rust_slice md'' bs -> exists sf, load md'' e bs = Ok sf /\ code_always_walked eh fs (section_says md'' e sf).
Proof. exact code_converted. Qed.
Print Assumptions C158_converted.

(** The check can be made by computing. *)
Theorem C158_check : forall f, checkedb f = true -> checked f.
Proof. exact checkedb_ok. Qed.
Print Assumptions C158_check.

(** A function that saves registers, makes room and gives up its frame pointer, one that makes room of
    a size not known beforehand, a jump from the first to the second, and three calls deep. *)
Theorem C158_case : eh_typed cd_eh /\ ents_end (eh_entries cd_eh) = None /\
  (forall x, In x (entries_of cd_eh) -> match x with DwCie => True | DwBadFde _ => False
     | DwGoodFde f => ordinary amd cd_eh f /\ dump_fine rel64 amd f end) /\
  apart cd_eh /\ countable (function_count cd_eh) (table_rows cd_eh) /\
  (forall c d, last_at cd_eh d -> follows_dwarf c d -> unconfused Amd64 (fixed_ra_of amd cd_eh) c d) /\
  programs_followed cd_eh (fun _ => usual_cie) /\ (forall f, In f cd_fs -> checked f) /\ routines_apart cd_fs /\
  code_described cd_eh (fun _ => usual_cie) cd_fs /\
  begins 0x100000 cd_fs 0x400000 cd_begin /\ goes 0x100000 cd_fs cd_begin (cd_frames, cd_now) /\ sees 0x100000 cd_world cd_now /\
  (forall d, last_at cd_eh d ->
     ~ in_range (df_start d) (df_len d) (0x400000 - 0x100000) /\ ~ in_range (df_start d) (df_len d) (0x400000 - 0x100000 - 1)) /\
  dwarf2sframe rel64 amd cd_eh = Ok cd_sfb /\ build rel64 LE cd_sfb = Ok cd_section /\
  walk (sf_step cd_world (std_tells LE cd_section)) (frame_of_thread cd_now) cd_frames /\
  map sx_pc cd_frames = [0x10104e; 0x101010; 0x400000] /\ map sx_fp cd_frames = [Some 0x6fc8; Some 0x55; Some 0x1234].
Proof. exact cd_case. Qed.
Print Assumptions C158_case.
