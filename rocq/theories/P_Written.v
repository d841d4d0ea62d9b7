(** C159: right call frame information is enough. *)
From Verif Require Import WrittenWitness.
From Verif Require Import ConvWitness V1Witness ConvRepairedWitness.
From Verif Require Import WalkLookSpec.

(** * C159 Right call frame information for every instruction is always converted, and the stack walked right at every moment *)

(** As C158, with nothing assumed of what the conversion does: for code of ordinary size that passes
    the check, with one entry for each function whose rules are right at every byte, the conversion and the
    build succeed. *)
Theorem C159_converted : forall fs eh cie, eh_typed eh -> code_written fs eh cie -> of_size fs ->
  forall md md' op e, op_arch op = Amd64 ->
  exists s bs, dwarf2sframe md op eh = Ok s /\ build md' e s = Ok bs /\ code_always_walked eh fs (std_tells e bs) /\
    forall md'', wf_mode md'' -> rust_slice md'' bs -> exists sf, load md'' e bs = Ok sf /\ code_always_walked eh fs (section_says md'' e sf).
Proof. exact written_walks. Qed.
Print Assumptions C159_converted.

Theorem C159_first_converted : forall fs eh cie, eh_typed eh -> code_written fs eh cie -> of_size fs ->
  forall md md' p e, (forall r, p r = true) -> no_empty_rows eh cie ->
  exists s bs, v1_convert md p (eh_entries eh) = Ok s /\ build md' e s = Ok bs /\ code_always_walked eh fs (std_tells e bs) /\
    forall md'', wf_mode md'' -> rust_slice md'' bs -> exists sf, load md'' e bs = Ok sf /\ code_always_walked eh fs (section_says md'' e sf).
Proof. exact v1_written_walks. Qed.
Print Assumptions C159_first_converted.

(** The programs of C158, and a function that saves the frame pointer at the end of a big frame,
    where the two offsets of a row are 128 and -128 and only one of them fits in a byte. *)
Theorem C159_case :
  (eh_typed cd_eh /\ code_written cd_fs cd_eh (fun _ => usual_cie) /\ of_size cd_fs /\ no_empty_rows cd_eh (fun _ => usual_cie) /\
   goes 0x100000 cd_fs cd_begin (cd_frames, cd_now) /\
   walk (sf_step cd_world (std_tells LE cd_section)) (frame_of_thread cd_now) cd_frames) /\
  (eh_typed cf_eh /\ code_written cf_fs cf_eh (fun _ => usual_cie) /\ of_size cf_fs /\ no_empty_rows cf_eh (fun _ => usual_cie) /\
   begins 0x100000 cf_fs 0x400000 cf_begin /\ goes 0x100000 cf_fs cf_begin ([cf_frame0], cf_now) /\ sees 0x100000 cf_world cf_now /\
   (forall d, last_at cf_eh d ->
      ~ in_range (df_start d) (df_len d) (0x400000 - 0x100000) /\ ~ in_range (df_start d) (df_len d) (0x400000 - 0x100000 - 1)) /\
   dwarf2sframe rel64 amd cf_eh = Ok cf_sfb /\ build rel64 LE cf_sfb = Ok cf_section /\
   std_tells LE cf_section 0x2009 (Unwind Sp false (Some 128) (Some (-8)) (Some (-128))) /\
   walk (sf_step cf_world (std_tells LE cf_section)) (frame_of_thread cf_now) [cf_frame0]).
Proof. exact written_case. Qed.
Print Assumptions C159_case.

(** The repairs of the converter, the writer and the reader (C49, C132, C65) keep it so, and then
    it holds of look-ups too. *)
Theorem C159_repaired : forall fs eh cie, eh_typed eh -> code_written fs eh cie -> of_size fs ->
  forall md md' op c e, op_arch op = Amd64 -> (forall d, c d = 16) ->
  exists s bs, dwarf2sframe_repaired md op c eh = Ok s /\ build_repaired md' e s = Ok bs /\ code_always_walked eh fs (std_tells e bs) /\
    forall md'', wf_mode md'' -> rust_slice md'' bs -> exists sf, load md'' e bs = Ok sf /\ code_always_walked eh fs (looked_up_whole md'' e sf).
Proof. exact written_repaired. Qed.
Print Assumptions C159_repaired.

Theorem C159_repaired_case :
  (forall d, column_16 d = 16) /\
  dwarf2sframe_repaired rel64 amd column_16 cf_eh = Ok cf_whole /\ build_repaired rel64 LE cf_whole = Ok cf_whole_bytes /\
  walk (sf_step cf_world (std_tells LE cf_whole_bytes)) (frame_of_thread cf_now) [cf_frame0].
Proof. exact written_repaired_case. Qed.
Print Assumptions C159_repaired_case.

(** * C156 Look-ups, with the repairs of the reader alone, in all such programs *)

Theorem C156_code_repaired_partial : forall fs eh cie, eh_typed eh -> code_written fs eh cie -> of_size fs ->
  forall md md' op e, op_arch op = Amd64 ->
  exists s bs, dwarf2sframe md op eh = Ok s /\ build md' e s = Ok bs /\
    forall md'', wf_mode md'' -> rust_slice md'' bs ->
    exists sf, load md'' e bs = Ok sf /\ code_always_walked eh fs (looked_up all_repairs md'' e sf).
Proof. exact written_looks. Qed.
Print Assumptions C156_code_repaired_partial.

Theorem C156_code_first_repaired_partial : forall fs eh cie, eh_typed eh -> code_written fs eh cie -> of_size fs ->
  forall md md' p e, (forall r, p r = true) -> no_empty_rows eh cie ->
  exists s bs, v1_convert md p (eh_entries eh) = Ok s /\ build md' e s = Ok bs /\
    forall md'', wf_mode md'' -> rust_slice md'' bs ->
    exists sf, load md'' e bs = Ok sf /\ code_always_walked eh fs (looked_up all_repairs md'' e sf).
Proof. exact v1_written_looks. Qed.
Print Assumptions C156_code_first_repaired_partial.
