(** * C159 Right call frame information and the repaired first converter *)
From Coq Require Import String.
From Verif Require Import DumpedSpec WrittenFirst WrittenFirstWitness.
From Verif Require Import BaseFacts CfiFacts WalkFacts RelateFacts RunFacts ConvWitness CfiWitness V1Witness ProgramWitness RunWitness ConvRepairedWitness ArmRunWitness CodeWitness ToolsWitness.
Open Scope Z_scope.
Open Scope list_scope.

(** With the repairs of the first converter and of the writer: neither need the unwind tables be without
    empty rows, nor does it matter what can be printed. Stacks are walked right by the
    section, by the look-ups of the repaired library and by what the [sframedump] of /repo prints. *)
Theorem C159_first_repaired : forall fs eh cie, eh_typed eh -> code_written fs eh cie -> of_size fs ->
  forall fx p m md md' c e, repairs_rows fx -> (forall d, c d = 16) ->
  exists s bs, snd (v1_convert_with fx p m md c (eh_entries eh)) = Ok s /\ build_repaired md' e s = Ok bs /\ code_always_walked eh fs (std_tells e bs) /\
    (forall md'', wf_mode md'' -> rust_slice md'' bs -> exists sf, load md'' e bs = Ok sf /\ code_always_walked eh fs (looked_up_whole md'' e sf)) /\
    forall md'' arch en, wf_mode md'' -> dumped_well md'' e (OutFile arch en bs) (code_always_walked eh fs).
Proof. exact first_repaired. Qed.
Print Assumptions C159_first_repaired.

(** A program with an empty row, which the first converter does not convert without the repairs. *)
Theorem C159_first_repaired_case :
  eh_typed ce_eh /\ code_written cf_fs ce_eh (fun _ => usual_cie) /\ of_size cf_fs /\ ~ no_empty_rows ce_eh (fun _ => usual_cie) /\
  (forall s, v1_convert rel64 (fun _ => true) (eh_entries ce_eh) <> Ok s) /\
  repairs_rows all_v1fixes /\ (forall d, column_16 d = 16) /\
  snd (v1_convert_with all_v1fixes some_texts1 ElfX86_64 rel64 column_16 (eh_entries ce_eh)) = Ok ce_whole /\ build_repaired rel64 LE ce_whole = Ok ce_bytes /\
  begins 0x100000 cf_fs 0x400000 cf_begin /\ goes 0x100000 cf_fs cf_begin ([cf_frame0], cf_now) /\
  walk (sf_step cf_world (std_tells LE ce_bytes)) (frame_of_thread cf_now) [cf_frame0] /\
  rust_slice dev32 (out_sframe ce_out) /\ sframedump_main dev32 LE (Some (object_file ce_out)) = Ok ce_dump /\
  (exists h, read_dump (stdout_text some_abi ce_dump) = Some (h, rest_of ce_dump)) /\
  walk (sf_step cf_world (shown_by (rest_of ce_dump))) (frame_of_thread cf_now) [cf_frame0].
Proof. exact first_repaired_case. Qed.
Print Assumptions C159_first_repaired_case.
