(** Concrete builds for C136 and C137. *)
From Coq Require Import String.
From Verif Require Export ProfileLookup.
From Verif Require Import Witness Base BTree Raw Read Write Convert Tools Text Loud V1Loud Dwarfdump Debug Io Spec ReadSpec SectionSpec IterSpec.
From Verif Require Import EmitWitness SectionWitness ConvWitness ToolsWitness LookupSpec LookupWitness IoWitness.

Lemma strict_dev64 : stricter dev64 rel64.
Proof. constructor; try reflexivity. split; right; reflexivity. Qed.
Lemma strict_dev32 : stricter dev32 rel64.
Proof. constructor; try reflexivity. split; [left|right]; reflexivity. Qed.
Lemma same_rel : same_checks rel32 rel64.
Proof. repeat split; [left|right]; reflexivity. Qed.
Lemma same_dev : same_checks dev32 dev64.
Proof. repeat split; [left|right]; reflexivity. Qed.

(** A header whose rows would end at 2^32. *)
Definition wrap_bytes : bytes :=
  [xe2; xde; x02; x01; x03; x00; xf8; x00; x00; x00; x00; x00; x00; x00; x00; x00;
   xff; xff; xff; xff; x00; x00; x00; x00; x01; x00; x00; x00].
Theorem reading_case :
  stricter dev64 rel64 /\ stricter dev32 rel64 /\ usize_bits dev32 <= usize_bits rel64 /\
  rust_slice dev32 (demo LE) /\ load dev32 LE (demo LE) = Ok (demo_sf LE) /\ load rel64 LE (demo LE) = Ok (demo_sf LE) /\
  rust_slice dev32 wrap_bytes /\ load dev32 LE wrap_bytes = Panic /\ load rel64 LE wrap_bytes = Err UnexpectedEof /\
  lookup rel64 LE (single_sf LE) 0x104 = lookup dev32 LE (single_sf LE) 0x104 /\
  lookup rel64 LE (single_sf LE) 0x104 <> Ok None /\ lookup rel64 LE (single_sf LE) 0x104 <> Panic /\
  (let en := Entry (FdeV2 (RawFde2 (-2147483648) 4294967295 0 0 0 0 0)) [] in
   @contains never rel64 en 2147483646 = Ok true /\ @contains never dev64 en 2147483646 = Panic).
Proof.
  split; [apply strict_dev64|]. split; [apply strict_dev32|]. split; [vm_compute; discriminate|].
  split; [apply demo_slice, wf_dev32|]. split; [vm_compute; reflexivity|]. split; [vm_compute; reflexivity|].
  split; [vm_compute; reflexivity|]. split; [vm_compute; reflexivity|]. split; [vm_compute; reflexivity|].
  split; [vm_compute; reflexivity|]. split; [vm_compute; discriminate|]. split; [vm_compute; discriminate|]. vm_compute. auto.
Qed.

Theorem writing_case :
  stricter dev64 rel64 /\ build dev64 LE demo_sfb = Ok (demo LE) /\ build rel64 LE demo_sfb = Ok (demo LE) /\
  build dev64 LE gap_sfb = Panic /\ (exists bs, build rel64 LE gap_sfb = Ok bs).
Proof.
  split; [apply strict_dev64|]. split; [vm_compute; reflexivity|]. split; [vm_compute; reflexivity|].
  split; [vm_compute; reflexivity|]. eexists. vm_compute. reflexivity.
Qed.

Theorem converting_case :
  stricter dev32 rel64 /\ dwarf2sframe dev32 amd sample = Ok sample_sfb /\ dwarf2sframe rel64 amd sample = Ok sample_sfb /\
  dwarf2sframe dev64 amd row_in_front = Panic /\ dwarf2sframe rel64 amd row_in_front = Err (InvalidRowOffset 0xfff (2 ^ 64 - 1)).
Proof.
  split; [apply strict_dev32|]. split; [apply sample_converts|]. split; [apply sample_converts|].
  split; [apply rejected_rows_panic|apply rejected_rows_panic].
Qed.

(** The dump is cut off in front of the row whose address overflows. *)
Theorem dumping_case :
  stricter dev64 rel64 /\ snd (dump_run dev64 LE last_sf) = Panic /\ snd (dump_run rel64 LE last_sf) = Ok tt /\
  (List.length (fst (dump_run dev64 LE last_sf)) < List.length (fst (dump_run rel64 LE last_sf)))%nat /\
  dump dev64 LE (demo_sf LE) = dump rel64 LE (demo_sf LE) /\ dump rel64 LE (demo_sf LE) <> Panic.
Proof.
  split; [apply strict_dev64|]. split; [vm_compute; reflexivity|]. split; [vm_compute; reflexivity|].
  split; [apply Nat.ltb_lt; vm_compute; reflexivity|]. split; [vm_compute; reflexivity|]. vm_compute. discriminate.
Qed.

(** The pointer width the tools tell gimli. *)
Definition width_file : elf_file :=
  {| elf_architecture := ElfX86_64; elf_endian := RtLittle; elf_sections := [(".eh_frame"%string, 0x2000)];
     elf_eh_frame := Some (fun ps => if ps_address_size ps =? 8 then eh_entries sample else DwEntries [] None);
     elf_sframe := None |}.
Theorem tools_case :
  stricter dev64 rel64 /\ usize_bits dev64 = usize_bits rel64 /\
  (exists out, dwarf2sframe2_main dev64 (CliArgs false false false) (Some width_file) = Ok out /\
     dwarf2sframe2_main rel64 (CliArgs false false false) (Some width_file) = Ok out) /\
  dwarf2sframe2_main dev32 (CliArgs false false false) (Some width_file) <> dwarf2sframe2_main rel64 (CliArgs false false false) (Some width_file).
Proof.
  split; [apply strict_dev64|]. split; [reflexivity|]. split; [eexists; split; vm_compute; reflexivity|]. vm_compute. discriminate.
Qed.

Theorem width_case : same_checks rel32 rel64 /\ same_checks dev32 dev64 /\ load dev32 LE wrap_bytes = Panic /\
  load dev64 LE wrap_bytes = Err UnexpectedEof /\ load rel32 LE wrap_bytes = Err UnexpectedEof.
Proof. split; [apply same_rel|]. split; [apply same_dev|]. split; [vm_compute; reflexivity|]. split; vm_compute; reflexivity. Qed.

Theorem library_matters : forall e,
  sfb_sized rel64 three_sfb /\ build rel64 e three_sfb = Ok (section e three_sfb) /\
  load rel64 e (section e three_sfb) = Ok (three_sf e) /\ load rel64old e (section e three_sfb) = Ok (three_sf e) /\
  rel64old = with_library BsLeftRight rel64 /\
  (exists u, lookup rel64old e (three_sf e) 0x100 = Ok (Some u)) /\ lookup rel64 e (three_sf e) 0x100 = Ok None.
Proof.
  intros e. split; [apply three_sized|]. split; [destruct e; vm_compute; reflexivity|]. split; [destruct e; vm_compute; reflexivity|].
  split; [destruct e; vm_compute; reflexivity|]. split; [reflexivity|].
  split; [|destruct e; vm_compute; reflexivity]. destruct e; eexists; vm_compute; reflexivity.
Qed.

Theorem small_case : (List.length (all_fdes (single_sf LE)) <= 2)%nat /\ says_sorted (single_sf LE) /\
  lookup rel64old LE (single_sf LE) 0x104 <> Ok None /\ lookup rel64 LE (single_sf LE) 0x104 <> Ok None.
Proof.
  split; [apply Nat.leb_le; vm_compute; reflexivity|]. split; [vm_compute; reflexivity|]. split; vm_compute; discriminate.
Qed.
Theorem three_case : forall e, is_sorted_flag (section e three_sfb) = true /\ spec_num_fdes e (section e three_sfb) = 3 /\
  sorted_disjoint e (section e three_sfb) /\
  in_range (sd_start (spec_entry e (section e three_sfb) 1)) (sd_size (spec_entry e (section e three_sfb) 1)) 0x100.
Proof.
  intros e. split; [destruct e; vm_compute; reflexivity|]. assert (N : spec_num_fdes e (section e three_sfb) = 3) by (destruct e; vm_compute; reflexivity).
  split; [exact N|]. split.
  - intros i j Hi Hj. rewrite N in Hj. assert (C : (i = 0 /\ j = 1) \/ (i = 0 /\ j = 2) \/ (i = 1 /\ j = 2)) by lia.
    destruct C as [[-> ->]|[[-> ->]|[-> ->]]]; destruct e; vm_compute; discriminate.
  - destruct e; vm_compute; split; (discriminate || reflexivity).
Qed.
