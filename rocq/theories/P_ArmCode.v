(** C161: the stack of an AArch64 program given by its instructions. *)
From Verif Require Import ArmCodeWitness ArmRunWitness ProgramWitness.
From Verif Require Import ConvWitness V1Witness ConvRepairedWitness.
From Verif Require Import WalkLookSpec.

(** * C161 If the call frame programs are right about the instructions of an AArch64 program, a walk with the converted section is right *)
(** A program given by its instructions, each known only by what it does to [sp], [x29], [x30] and the
    words of the stack that matter, and for each of its functions what is to be known at each
    instruction.  If that is checked instruction by instruction, if the rules of the call frame programs
    fit it at every byte and no return address is saved signed, then at every moment at which the
    innermost function has its return address on the stack, a walk by the converted section gives
    exactly the calls not yet returned.  (At other moments it does not: C157.) *)
Theorem C161_described : forall md md' md'' op eh s e bs cie fs,
  eh_typed eh -> dwarf2sframe md op eh = Ok s -> op_arch op = Aarch64 -> build md' e s = Ok bs -> wf_mode md'' -> rust_slice md'' bs ->
  programs_followed eh cie -> (forall d, last_at eh d -> unconfused Aarch64 None (cie d) d) ->
  (forall f, In f fs -> achecked f) -> aroutines_apart fs -> acode_described eh cie fs -> saved_unsigned fs ->
  (exists sf, load md'' e bs = Ok sf /\ acode_walked eh fs on_stack (section_says md'' e sf)) /\ acode_walked eh fs on_stack (std_tells e bs).
Proof. exact acode_walks. Qed.
Print Assumptions C161_described.

(** The hypothesis on confused offsets holds for every stack that grows down (C160). *)
Theorem C161_downward : forall md md' md'' op eh s e bs cie fs,
  eh_typed eh -> dwarf2sframe md op eh = Ok s -> op_arch op = Aarch64 -> build md' e s = Ok bs -> wf_mode md'' -> rust_slice md'' bs ->
  programs_followed eh cie -> (forall d, last_at eh d -> downward_program Aarch64 (cie d) d) ->
  (forall f, In f fs -> achecked f) -> aroutines_apart fs -> acode_described eh cie fs -> saved_unsigned fs ->
  (exists sf, load md'' e bs = Ok sf /\ acode_walked eh fs on_stack (section_says md'' e sf)) /\ acode_walked eh fs on_stack (std_tells e bs).
Proof. exact acode_down. Qed.
Print Assumptions C161_downward.

(** For ordinary programs (C124) the conversion and the build succeed too. *)
Theorem C161_converted : forall md md' op eh e cie fs,
  eh_typed eh -> op_arch op = Aarch64 -> ents_end (eh_entries eh) = None ->
  (forall x, In x (entries_of eh) -> match x with DwCie => True | DwBadFde _ => False
     | DwGoodFde f => ordinary op eh f /\ dump_fine md op f end) ->
  apart eh -> countable (function_count eh) (table_rows eh) ->
  (forall c d, last_at eh d -> follows_dwarf c d -> downward_program Aarch64 c d) ->
  programs_followed eh cie ->
  (forall f, In f fs -> achecked f) -> aroutines_apart fs -> acode_described eh cie fs -> saved_unsigned fs ->
  exists s bs, dwarf2sframe md op eh = Ok s /\ build md' e s = Ok bs /\ acode_walked eh fs on_stack (std_tells e bs) /\
    forall md'', wf_mode md'' -> rust_slice md'' bs -> exists sf, load md'' e bs = Ok sf /\ acode_walked eh fs on_stack (section_says md'' e sf).
Proof. exact acode_converted. Qed.
Print Assumptions C161_converted.

(** With the repairs of C151 it is so at every moment, in whatever register or word the return address is,
    signed or not, and nothing is asked about offsets. *)
Theorem C161_repaired : forall md md' md'' op c eh s e bs cie fs,
  eh_typed eh -> dwarf2sframe_repaired md op c eh = Ok s -> op_arch op = Aarch64 -> (forall d, c d = 30) ->
  build_repaired md' e s = Ok bs -> wf_mode md'' -> rust_slice md'' bs -> programs_followed eh cie ->
  (forall f, In f fs -> achecked f) -> aroutines_apart fs -> acode_described eh cie fs ->
  (exists sf, load md'' e bs = Ok sf /\ acode_walked eh fs everywhere (looked_up_whole md'' e sf)) /\ acode_walked eh fs everywhere (std_tells e bs).
Proof. exact acode_repaired. Qed.
Print Assumptions C161_repaired.

Theorem C161_repaired_converted : forall md md' op c eh e cie fs,
  eh_typed eh -> op_arch op = Aarch64 -> (forall d, c d = 30) -> ents_end (eh_entries eh) = None ->
  (forall x, In x (entries_of eh) -> match x with DwCie => True | DwBadFde _ => False
     | DwGoodFde f => fits_section f /\ df_len f <= 0x10000000 /\ follows_dwarf (cie f) f end) ->
  ~ functions_overlap eh -> countable (function_count eh) (table_rows eh) ->
  (forall f, In f fs -> achecked f) -> aroutines_apart fs -> acode_described eh cie fs ->
  exists s bs, dwarf2sframe_repaired md op c eh = Ok s /\ build_repaired md' e s = Ok bs /\ acode_walked eh fs everywhere (std_tells e bs) /\
    forall md'', wf_mode md'' -> rust_slice md'' bs -> exists sf, load md'' e bs = Ok sf /\ acode_walked eh fs everywhere (looked_up_whole md'' e sf).
Proof. exact acode_repaired_converted. Qed.
Print Assumptions C161_repaired_converted.

(** The check can be made by computing. *)
Theorem C161_check : forall f,
  acheckedb f = true -> achecked f.
Proof. exact acheckedb_ok. Qed.
Print Assumptions C161_check.

(** A function that signs its return address and saves it, makes room of a size not known beforehand, and
    may instead jump to another; one that saves it in two instructions and gives up its frame pointer; three
    calls deep after such a jump. *)
Theorem C161_case : eh_typed ac_eh /\ ents_end (eh_entries ac_eh) = None /\
  (forall x, In x (entries_of ac_eh) -> match x with DwCie => True | DwBadFde _ => False
     | DwGoodFde f => fits_section f /\ df_len f <= 0x10000000 /\ follows_dwarf ausual_cie f end) /\
  ~ functions_overlap ac_eh /\ countable (function_count ac_eh) (table_rows ac_eh) /\
  (forall f, In f ac_fs -> achecked f) /\ aroutines_apart ac_fs /\ acode_described ac_eh (fun _ => ausual_cie) ac_fs /\
  signs ar_sign ar_strip /\ aroutines_low 0x100000 ac_fs /\ abegins 0x100000 ac_fs 0x400000 ac_begin /\
  agoes ar_sign ar_strip 0x100000 ac_fs ac_begin (ac_frames, ac_now) /\ asees ar_strip 0x100000 ac_world ac_now /\
  (forall d, last_at ac_eh d ->
     ~ in_range (df_start d) (df_len d) (0x400000 - 0x100000) /\ ~ in_range (df_start d) (df_len d) (0x400000 - 0x100000 - 1)) /\
  dwarf2sframe_repaired rel64 arm column_30 ac_eh = Ok ac_sfb /\ build_repaired rel64 LE ac_sfb = Ok ac_bytes /\
  walk (lk_step ac_world (std_tells LE ac_bytes)) (frame_of_athread ac_now) ac_frames /\
  map lx_pc ac_frames = [0x101110; 0x101018; 0x400000] /\ map lx_fp ac_frames = [Some 0x99; Some 0x7fe0; Some 0x1234].
Proof. exact ac_case. Qed.
Print Assumptions C161_case.

(** The second of them by itself, for the converter as it is. *)
Theorem C161_plain_case : eh_typed ac_plain_eh /\ ents_end (eh_entries ac_plain_eh) = None /\
  (forall x, In x (entries_of ac_plain_eh) -> match x with DwCie => True | DwBadFde _ => False
     | DwGoodFde f => ordinary arm ac_plain_eh f /\ dump_fine rel64 arm f end) /\
  apart ac_plain_eh /\ countable (function_count ac_plain_eh) (table_rows ac_plain_eh) /\
  (forall c d, last_at ac_plain_eh d -> follows_dwarf c d -> downward_program Aarch64 c d) /\
  programs_followed ac_plain_eh (fun _ => ausual_cie) /\
  (forall f, In f [ac_plain] -> achecked f) /\ aroutines_apart [ac_plain] /\ acode_described ac_plain_eh (fun _ => ausual_cie) [ac_plain] /\
  saved_unsigned [ac_plain] /\ signs ar_sign ar_strip /\ aroutines_low 0x100000 [ac_plain] /\ abegins 0x100000 [ac_plain] 0x400000 ap_begin /\
  agoes ar_sign ar_strip 0x100000 [ac_plain] ap_begin (ap_frames, ap_now) /\ asees ar_strip 0x100000 ap_world ap_now /\
  (forall d, last_at ac_plain_eh d ->
     ~ in_range (df_start d) (df_len d) (0x400000 - 0x100000) /\ ~ in_range (df_start d) (df_len d) (0x400000 - 0x100000 - 1)) /\
  (forall f i, In f [ac_plain] -> In i (ar_items f) -> at_pc ap_now = 0x100000 + ar_start f + ai_at i -> on_stack f i) /\
  dwarf2sframe rel64 arm ac_plain_eh = Ok ap_sfb /\ build rel64 LE ap_sfb = Ok ap_bytes /\
  walk (lk_step ap_world (std_tells LE ap_bytes)) (frame_of_athread ap_now) ap_frames /\
  map lx_pc ap_frames = [0x101110; 0x400000] /\ map lx_fp ap_frames = [Some 0x99; Some 0x1234].
Proof. exact ap_case. Qed.
Print Assumptions C161_plain_case.
