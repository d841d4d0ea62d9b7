(** Different builds of the same code: C136 and C137. *)
From Coq Require Import String.
From Verif Require Import ProfileAll ProfileWitness.
From Verif Require Import Witness Base BTree Raw Read Write Convert Tools Text Loud V1Loud Dwarfdump Debug Io Spec ReadSpec SectionSpec IterSpec.
From Verif Require Import EmitWitness SectionWitness ConvWitness ToolsWitness LookupSpec LookupWitness IoWitness.

(** * C136 A build with more checks gives the same result or panics *)

Theorem C136_reading : forall md md',
  stricter md md' ->
  (forall e bs, usize_bits md <= usize_bits md' -> rust_slice md bs -> same_or_panic (load md e bs) (load md' e bs)) /\
  (forall e it, fri_next md e it = fri_next md' e it) /\
  (forall e en, all_fres md e en = all_fres md' e en) /\
  (forall alternate dt e sf, section_text alternate dt md e sf = section_text alternate dt md' e sf) /\
  (forall fr, same_or_panic (@fre_start_address never md fr) (fre_start_address md' fr)) /\
  (forall en a, same_or_panic (@contains never md en a) (contains md' en a)) /\
  (forall sf a, same_or_panic (fde_for_address md sf a) (fde_for_address md' sf a)) /\
  (forall e en a, same_or_panic (get_fre_for_address md e en a) (get_fre_for_address md' e en a)) /\
  (forall e sf a, same_or_panic (lookup md e sf a) (lookup md' e sf a)).
Proof. exact reading_agrees. Qed.
Print Assumptions C136_reading.

Example C136_reading_case :
  stricter dev64 rel64 /\ stricter dev32 rel64 /\ usize_bits dev32 <= usize_bits rel64 /\
  rust_slice dev32 (demo LE) /\ load dev32 LE (demo LE) = Ok (demo_sf LE) /\ load rel64 LE (demo LE) = Ok (demo_sf LE) /\
  rust_slice dev32 wrap_bytes /\ load dev32 LE wrap_bytes = Panic /\ load rel64 LE wrap_bytes = Err UnexpectedEof /\
  lookup rel64 LE (single_sf LE) 0x104 = lookup dev32 LE (single_sf LE) 0x104 /\
  lookup rel64 LE (single_sf LE) 0x104 <> Ok None /\ lookup rel64 LE (single_sf LE) 0x104 <> Panic /\
  (let en := Entry (FdeV2 (RawFde2 (-2147483648) 4294967295 0 0 0 0 0)) [] in
   @contains never rel64 en 2147483646 = Ok true /\ @contains never dev64 en 2147483646 = Panic).
Proof. exact reading_case. Qed.

Theorem C136_writing : forall md md',
  stricter md md' ->
  (forall s, same_or_panic (merge_adjacent_fdes md s) (merge_adjacent_fdes md' s)) /\
  (forall e s, same_or_panic (build md e s) (build md' e s)).
Proof. exact writing_agrees. Qed.
Print Assumptions C136_writing.

Example C136_writing_case :
  stricter dev64 rel64 /\ build dev64 LE demo_sfb = Ok (demo LE) /\ build rel64 LE demo_sfb = Ok (demo LE) /\
  build dev64 LE gap_sfb = Panic /\ (exists bs, build rel64 LE gap_sfb = Ok bs).
Proof. exact writing_case. Qed.

Theorem C136_converting : forall md md',
  stricter md md' ->
  (forall op eh, same_or_panic (dwarf2sframe md op eh) (dwarf2sframe md' op eh)) /\
  (forall pr op eh, same_or_cut (dwarf2sframe_loud pr md op eh) (dwarf2sframe_loud pr md' op eh)) /\
  (forall print_ok ents, same_or_panic (v1_convert md print_ok ents) (v1_convert md' print_ok ents)) /\
  (forall p m ents, same_or_cut (v1_convert_loud p m md ents) (v1_convert_loud p m md' ents)).
Proof. exact converting_agrees. Qed.
Print Assumptions C136_converting.

Example C136_converting_case :
  stricter dev32 rel64 /\ dwarf2sframe dev32 amd sample = Ok sample_sfb /\ dwarf2sframe rel64 amd sample = Ok sample_sfb /\
  dwarf2sframe dev64 amd row_in_front = Panic /\ dwarf2sframe rel64 amd row_in_front = Err (InvalidRowOffset 0xfff (2 ^ 64 - 1)).
Proof. exact converting_case. Qed.

(** The converters tell gimli the pointer width of the machine they run on. *)
Theorem C136_tools : forall md md',
  stricter md md' -> usize_bits md = usize_bits md' ->
  (forall args file, same_or_panic (dwarf2sframe2_main md args file) (dwarf2sframe2_main md' args file)) /\
  (forall pr args file, same_or_cut (dwarf2sframe2_main_loud pr md args file) (dwarf2sframe2_main_loud pr md' args file)) /\
  (forall native print_ok file, same_or_panic (v1_main md native print_ok file) (v1_main md' native print_ok file)) /\
  (forall p native file, same_or_cut (v1_main_loud p md native file) (v1_main_loud p md' native file)).
Proof. exact tools_agree. Qed.
Print Assumptions C136_tools.

Example C136_tools_case :
  stricter dev64 rel64 /\ usize_bits dev64 = usize_bits rel64 /\
  (exists out, dwarf2sframe2_main dev64 (CliArgs false false false) (Some width_file) = Ok out /\
     dwarf2sframe2_main rel64 (CliArgs false false false) (Some width_file) = Ok out) /\
  dwarf2sframe2_main dev32 (CliArgs false false false) (Some width_file) <> dwarf2sframe2_main rel64 (CliArgs false false false) (Some width_file).
Proof. exact tools_case. Qed.

Theorem C136_dumping : forall md md',
  stricter md md' ->
  (forall e sf, same_or_panic (dump md e sf) (dump md' e sf)) /\
  (forall e sf, same_or_cut (dump_run md e sf) (dump_run md' e sf)) /\
  (forall native file, usize_bits md <= usize_bits md' ->
     (forall f data, file = Some f -> elf_sframe f = Some data -> rust_slice md data) ->
     same_or_panic (sframedump_main md native file) (sframedump_main md' native file)) /\
  (forall p file, usize_bits md = usize_bits md' \/ elf_address_size (elf_architecture (dd_elf file)) <> None ->
     same_or_cut (dump_file p md file) (dump_file p md' file)).
Proof. exact dumping_agrees. Qed.
Print Assumptions C136_dumping.

Example C136_dumping_case :
  stricter dev64 rel64 /\ snd (dump_run dev64 LE last_sf) = Panic /\ snd (dump_run rel64 LE last_sf) = Ok tt /\
  (List.length (fst (dump_run dev64 LE last_sf)) < List.length (fst (dump_run rel64 LE last_sf)))%nat /\
  dump dev64 LE (demo_sf LE) = dump rel64 LE (demo_sf LE) /\ dump rel64 LE (demo_sf LE) <> Panic.
Proof. exact dumping_case. Qed.

(** The pointer width alone makes no difference but in [load] with overflow checks. *)
Theorem C136_width : forall md md',
  same_checks md md' ->
  (forall e bs, overflow_checks md = false -> rust_slice md bs -> rust_slice md' bs -> load md e bs = load md' e bs) /\
  (forall fr, @fre_start_address never md fr = fre_start_address md' fr) /\
  (forall en a, @contains never md en a = contains md' en a) /\
  (forall sf a, fde_for_address md sf a = fde_for_address md' sf a) /\
  (forall e en a, get_fre_for_address md e en a = get_fre_for_address md' e en a) /\
  (forall e sf a, lookup md e sf a = lookup md' e sf a) /\
  (forall s, merge_adjacent_fdes md s = merge_adjacent_fdes md' s) /\
  (forall e s, build md e s = build md' e s) /\
  (forall op eh, dwarf2sframe md op eh = dwarf2sframe md' op eh) /\
  (forall pr op eh, dwarf2sframe_loud pr md op eh = dwarf2sframe_loud pr md' op eh) /\
  (forall p m ents, v1_convert_loud p m md ents = v1_convert_loud p m md' ents) /\
  (forall e sf, dump_run md e sf = dump_run md' e sf).
Proof. exact width_agrees. Qed.
Print Assumptions C136_width.

Example C136_width_case : same_checks rel32 rel64 /\ same_checks dev32 dev64 /\ load dev32 LE wrap_bytes = Panic /\
  load dev64 LE wrap_bytes = Err UnexpectedEof /\ load rel32 LE wrap_bytes = Err UnexpectedEof.
Proof. exact width_case. Qed.

(** * C137 The version of the standard library makes no difference: false *)

Theorem C137_library_refuted : forall e,
  sfb_sized rel64 three_sfb /\ build rel64 e three_sfb = Ok (section e three_sfb) /\
  load rel64 e (section e three_sfb) = Ok (three_sf e) /\ load rel64old e (section e three_sfb) = Ok (three_sf e) /\
  rel64old = with_library BsLeftRight rel64 /\
  (exists u, lookup rel64old e (three_sf e) 0x100 = Ok (Some u)) /\ lookup rel64 e (three_sf e) 0x100 = Ok None.
Proof. exact library_matters. Qed.
Print Assumptions C137_library_refuted.

(** In sections that are not flagged sorted or have at most two functions, whatever their contents. *)
Theorem C137_small_partial : forall i md e sf a,
  wf_mode md -> (length (all_fdes sf) <= 2)%nat \/ ~ says_sorted sf ->
  fde_for_address (with_library i md) sf a = fde_for_address md sf a /\ lookup (with_library i md) e sf a = lookup md e sf a.
Proof. exact lookup_any_library. Qed.
Print Assumptions C137_small_partial.

Example C137_small_case : (List.length (all_fdes (single_sf LE)) <= 2)%nat /\ says_sorted (single_sf LE) /\
  lookup rel64old LE (single_sf LE) 0x104 <> Ok None /\ lookup rel64 LE (single_sf LE) 0x104 <> Ok None.
Proof. exact small_case. Qed.

(** In sorted sections of three or more functions the newer library finds nothing, the older one only the
    function in the middle. *)
Theorem C137_three_partial : forall md e bs sf a k,
  wf_mode md -> rust_slice md bs -> load md e bs = Ok sf -> in_i32 a ->
  is_sorted_flag bs = true -> sorted_disjoint e bs -> 3 <= spec_num_fdes e bs ->
  0 <= k < spec_num_fdes e bs -> in_range (sd_start (spec_entry e bs k)) (sd_size (spec_entry e bs k)) a ->
  (overflow_checks md = false \/
   forall i, 0 <= i < spec_num_fdes e bs -> a - sd_start (spec_entry e bs i) <= i32_max) ->
  fde_for_address (with_library BsBase md) sf a = Ok None /\
  (k <> spec_num_fdes e bs / 2 -> fde_for_address (with_library BsLeftRight md) sf a = Ok None) /\
  (k = spec_num_fdes e bs / 2 -> exists en, fde_for_address (with_library BsLeftRight md) sf a = Ok (Some en) /\
     view_fde (en_fde en) = spec_entry e bs k).
Proof. exact three_or_more. Qed.
Print Assumptions C137_three_partial.

Example C137_three_case : forall e, is_sorted_flag (section e three_sfb) = true /\ spec_num_fdes e (section e three_sfb) = 3 /\
  sorted_disjoint e (section e three_sfb) /\
  in_range (sd_start (spec_entry e (section e three_sfb) 1)) (sd_size (spec_entry e (section e three_sfb) 1)) 0x100.
Proof. exact three_case. Qed.
