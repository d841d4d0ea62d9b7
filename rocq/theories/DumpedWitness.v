(** The programs of C159 and C162 in files, converted, dumped and walked by the text of the dump. *)
From Coq Require Import String.
From Verif Require Export DumpedFacts.
From Verif Require Export WrittenWitness ArmWrittenWitness PipeWitness.
From Verif Require Import BaseFacts CfiFacts WalkFacts RelateFacts RunFacts ConvWitness CfiWitness V1Witness ProgramWitness RunWitness ConvRepairedWitness ArmRunWitness CodeWitness ToolsWitness.
Open Scope Z_scope.
Open Scope list_scope.

Definition cd_file : elf_file := file_with ElfX86_64 RtLittle (eh_entries cd_eh).
Definition cd_out : out_file := OutFile ElfX86_64 RtLittle cd_section.
Definition cd_dump : list dump_line := Eval vm_compute in
  match sframedump_main dev32 LE (Some (object_file cd_out)) with Ok l => l | _ => [] end.
Definition ap_file : elf_file := file_with ElfAarch64 RtLittle (eh_entries ac_plain_eh).
Definition ap_out : out_file := Eval vm_compute in
  match dwarf2sframe2_main rel64 no_flags (Some ap_file) with Ok o => o | _ => cd_out end.
Definition ap_dump : list dump_line := Eval vm_compute in
  match sframedump_main dev32 LE (Some (object_file ap_out)) with Ok l => l | _ => [] end.

Definition rest_of (l : list dump_line) : list dump_line :=
  match read_dump (stdout_text some_abi l) with Some (_, rest) => rest | None => [] end.

Lemma some_abi_line n : without newline_char (some_abi n).
Proof. apply pipe_case. Qed.

Theorem dumped_case :
  file_typed cd_file /\ elf_eh_frame cd_file = Some (fun _ => eh_entries cd_eh) /\
  (exists addr, has_section (elf_sections cd_file) ".eh_frame"%string addr) /\
  file_eh rel64 cd_file (fun _ => eh_entries cd_eh) = cd_eh /\
  in_eh (eh_entries cd_eh) = cd_eh /\
  code_written cd_fs cd_eh (fun _ => usual_cie) /\ of_size cd_fs /\ no_empty_rows cd_eh (fun _ => usual_cie) /\
  dwarf2sframe2_main rel64 no_flags (Some cd_file) = Ok cd_out /\
  holds_section (object_file cd_out) cd_out /\ rust_slice dev32 (out_sframe cd_out) /\
  sframedump_main dev32 LE (Some (object_file cd_out)) = Ok cd_dump /\ (exists h, read_dump (stdout_text some_abi cd_dump) = Some (h, rest_of cd_dump)) /\
  goes 0x100000 cd_fs cd_begin (cd_frames, cd_now) /\
  walk (sf_step cd_world (shown_by (rest_of cd_dump))) (frame_of_thread cd_now) cd_frames.
Proof.
  assert (T : file_typed cd_file).
  { intros parse tbl H. injection H as <-. exact cd_typed. }
  assert (A : has_section (elf_sections cd_file) ".eh_frame"%string 0x2000).
  { apply section_found. reflexivity. }
  assert (C : dwarf2sframe2_main rel64 no_flags (Some cd_file) = Ok cd_out) by (vm_compute; reflexivity).
  assert (S : rust_slice dev32 (out_sframe cd_out)) by (vm_compute; reflexivity).
  assert (D : sframedump_main dev32 LE (Some (object_file cd_out)) = Ok cd_dump) by (vm_compute; reflexivity).
  split; [exact T|]. split; [reflexivity|]. split; [eexists; exact A|]. split; [reflexivity|]. split; [reflexivity|].
  split; [exact cd_written|]. split; [exact cd_of_size|]. split; [exact cd_no_empty|]. split; [exact C|].
  split; [apply object_holds|]. split; [exact S|]. split; [exact D|].
  destruct (dumped_walks rel64 no_flags cd_file _ _ cd_fs (fun _ => usual_cie) T eq_refl eq_refl A cd_written cd_of_size) as (out & O1 & _ & O2).
  assert (out = cd_out) as -> by congruence.
  destruct (O2 dev32 ltac:(vm_compute; intuition discriminate) (object_file cd_out) some_abi (object_holds _) S some_abi_line) as (l & h & rest & D1 & D2 & _ & W).
  assert (l = cd_dump) as -> by (change (endian_of (elf_endian cd_file)) with LE in D1; congruence).
  assert (rest_of cd_dump = rest) as -> by (unfold rest_of; rewrite D2; reflexivity).
  split; [eexists; exact D2|]. split; [exact cd_reaches|].
  refine (proj2 (W _ _ _ _ _ _ cd_begins cd_reaches cd_sees cd_outside cd_frames) _). exists []. symmetry. apply app_nil_r.
Qed.

Theorem dumped_arm_case :
  file_typed ap_file /\ elf_eh_frame ap_file = Some (fun _ => eh_entries ac_plain_eh) /\
  (exists addr, has_section (elf_sections ap_file) ".eh_frame"%string addr) /\
  file_eh rel64 ap_file (fun _ => eh_entries ac_plain_eh) = ac_plain_eh /\
  acode_written [ac_plain] ac_plain_eh (fun _ => ausual_cie) /\ aof_size [ac_plain] /\
  (forall f, In f [ac_plain] -> aupright f) /\ saved_unsigned [ac_plain] /\
  dwarf2sframe2_main rel64 no_flags (Some ap_file) = Ok ap_out /\
  holds_section (object_file ap_out) ap_out /\ rust_slice dev32 (out_sframe ap_out) /\
  sframedump_main dev32 LE (Some (object_file ap_out)) = Ok ap_dump /\
  (exists h, read_dump (stdout_text some_abi ap_dump) = Some (h, rest_of ap_dump)) /\
  agoes ar_sign ar_strip 0x100000 [ac_plain] ap_begin (ap_frames, ap_now) /\
  walk (lk_step ap_world (shown_by (rest_of ap_dump))) (frame_of_athread ap_now) ap_frames.
Proof.
  assert (T : file_typed ap_file).
  { intros parse tbl H. injection H as <-. exact ac_plain_typed. }
  assert (A : has_section (elf_sections ap_file) ".eh_frame"%string 0x2000).
  { apply section_found. reflexivity. }
  assert (C : dwarf2sframe2_main rel64 no_flags (Some ap_file) = Ok ap_out) by (vm_compute; reflexivity).
  assert (S : rust_slice dev32 (out_sframe ap_out)) by (vm_compute; reflexivity).
  assert (D : sframedump_main dev32 LE (Some (object_file ap_out)) = Ok ap_dump) by (vm_compute; reflexivity).
  split; [exact T|]. split; [reflexivity|]. split; [eexists; exact A|]. split; [reflexivity|].
  split; [exact ap_written|]. split; [exact ap_of_size|]. split; [exact ap_upright|]. split; [exact ac_plain_unsigned|]. split; [exact C|].
  split; [apply object_holds|]. split; [exact S|]. split; [exact D|].
  destruct (dumped_arm_walks rel64 no_flags ap_file _ _ [ac_plain] (fun _ => ausual_cie) T eq_refl eq_refl A ap_written ap_of_size ap_upright ac_plain_unsigned) as (out & O1 & _ & O2).
  assert (out = ap_out) as -> by congruence.
  destruct (O2 dev32 ltac:(vm_compute; intuition discriminate) (object_file ap_out) some_abi (object_holds _) S some_abi_line) as (l & h & rest & D1 & D2 & _ & W).
  assert (l = ap_dump) as -> by (change (endian_of (elf_endian ap_file)) with LE in D1; congruence).
  assert (rest_of ap_dump = rest) as -> by (unfold rest_of; rewrite D2; reflexivity).
  split; [eexists; exact D2|]. split; [exact ap_reaches|].
  destruct ap_case as (_ & _ & _ & _ & _ & _ & _ & _ & _ & _ & _ & G & L & B & R & E & O & K & _).
  refine (proj2 (W _ _ _ _ _ _ _ _ G L _ B R E O K ap_frames) _); [unfold canonical; lia|]. exists []. symmetry. apply app_nil_r.
Qed.

Definition cd_v1_out : out_file := Eval vm_compute in
  match v1_main rel64 LE (fun _ => true) (Some cd_file) with Ok o => o | _ => ap_out end.
Definition cd_v1_dump : list dump_line := Eval vm_compute in
  match sframedump_main dev32 LE (Some (object_file cd_v1_out)) with Ok l => l | _ => [] end.

Theorem dumped_v1_case :
  v1_main rel64 LE (fun _ => true) (Some cd_file) = Ok cd_v1_out /\
  holds_section (object_file cd_v1_out) cd_v1_out /\ rust_slice dev32 (out_sframe cd_v1_out) /\
  sframedump_main dev32 LE (Some (object_file cd_v1_out)) = Ok cd_v1_dump /\
  (exists h, read_dump (stdout_text some_abi cd_v1_dump) = Some (h, rest_of cd_v1_dump)) /\
  walk (sf_step cd_world (shown_by (rest_of cd_v1_dump))) (frame_of_thread cd_now) cd_frames.
Proof.
  destruct dumped_case as (T & _).
  assert (A : has_section (elf_sections cd_file) ".eh_frame"%string 0x2000) by (apply section_found; reflexivity).
  assert (C : v1_main rel64 LE (fun _ => true) (Some cd_file) = Ok cd_v1_out) by (vm_compute; reflexivity).
  assert (S : rust_slice dev32 (out_sframe cd_v1_out)) by (vm_compute; reflexivity).
  assert (D : sframedump_main dev32 LE (Some (object_file cd_v1_out)) = Ok cd_v1_dump) by (vm_compute; reflexivity).
  split; [exact C|]. split; [apply object_holds|]. split; [exact S|]. split; [exact D|].
  destruct (dumped_v1_walks rel64 LE (fun _ => true) cd_file _ _ cd_fs (fun _ => usual_cie) T eq_refl A cd_written cd_of_size cd_no_empty (fun _ => eq_refl)) as (out & O1 & _ & O2).
  assert (out = cd_v1_out) as -> by congruence.
  destruct (O2 dev32 ltac:(vm_compute; intuition discriminate) (object_file cd_v1_out) some_abi (object_holds _) S some_abi_line) as (l & h & rest & D1 & D2 & _ & W).
  assert (l = cd_v1_dump) as -> by congruence.
  assert (rest_of cd_v1_dump = rest) as -> by (unfold rest_of; rewrite D2; reflexivity).
  split; [eexists; exact D2|].
  refine (proj2 (W _ _ _ _ _ _ cd_begins cd_reaches cd_sees cd_outside cd_frames) _). exists []. symmetry. apply app_nil_r.
Qed.
