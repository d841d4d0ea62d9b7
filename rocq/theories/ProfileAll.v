(** The operations taken together (C136). *)
From Verif Require Export ProfileLookup.
From Verif Require Import Base Raw Read Write Convert Tools Text Loud V1Loud Dwarfdump Debug Io Spec SectionSpec.

Theorem reading_agrees md md' : stricter md md' ->
  (forall e bs, usize_bits md <= usize_bits md' -> rust_slice md bs -> same_or_panic (load md e bs) (load md' e bs)) /\
  (forall e it, fri_next md e it = fri_next md' e it) /\
  (forall e en, all_fres md e en = all_fres md' e en) /\
  (forall alternate dt e sf, section_text alternate dt md e sf = section_text alternate dt md' e sf) /\
  (forall fr, same_or_panic (@fre_start_address never md fr) (fre_start_address md' fr)) /\
  (forall en a, same_or_panic (@contains never md en a) (contains md' en a)) /\
  (forall sf a, same_or_panic (fde_for_address md sf a) (fde_for_address md' sf a)) /\
  (forall e en a, same_or_panic (get_fre_for_address md e en a) (get_fre_for_address md' e en a)) /\
  (forall e sf a, same_or_panic (lookup md e sf a) (lookup md' e sf a)).
Proof.
  intros H. split; [apply load_follows, H|]. split; [apply fri_next_same, H|]. split; [apply all_fres_same, H|].
  split; [apply section_text_same, H|]. split; [intros; apply fre_start_follows, H|]. split; [intros; apply contains_follows, H|].
  split; [intros; apply fde_for_address_follows, H|]. split; [intros; apply get_fre_follows, H|]. intros; apply lookup_follows, H.
Qed.

Theorem writing_agrees md md' : stricter md md' ->
  (forall s, same_or_panic (merge_adjacent_fdes md s) (merge_adjacent_fdes md' s)) /\
  (forall e s, same_or_panic (build md e s) (build md' e s)).
Proof. intros H. split; [apply merge_fdes_follows, H|intros; apply build_follows, H]. Qed.

Theorem converting_agrees md md' : stricter md md' ->
  (forall op eh, same_or_panic (dwarf2sframe md op eh) (dwarf2sframe md' op eh)) /\
  (forall pr op eh, same_or_cut (dwarf2sframe_loud pr md op eh) (dwarf2sframe_loud pr md' op eh)) /\
  (forall print_ok ents, same_or_panic (v1_convert md print_ok ents) (v1_convert md' print_ok ents)) /\
  (forall p m ents, same_or_cut (v1_convert_loud p m md ents) (v1_convert_loud p m md' ents)).
Proof.
  intros H. split; [intros; apply dwarf2sframe_follows, H|]. split; [intros; apply dwarf2sframe_loud_follows, H|].
  split; [intros; apply v1_convert_follows, H|intros; apply v1_convert_loud_follows, H].
Qed.

Theorem tools_agree md md' : stricter md md' -> usize_bits md = usize_bits md' ->
  (forall args file, same_or_panic (dwarf2sframe2_main md args file) (dwarf2sframe2_main md' args file)) /\
  (forall pr args file, same_or_cut (dwarf2sframe2_main_loud pr md args file) (dwarf2sframe2_main_loud pr md' args file)) /\
  (forall native print_ok file, same_or_panic (v1_main md native print_ok file) (v1_main md' native print_ok file)) /\
  (forall p native file, same_or_cut (v1_main_loud p md native file) (v1_main_loud p md' native file)).
Proof.
  intros H W. split; [intros; apply main_follows; assumption|]. split; [intros; apply main_loud_follows; assumption|].
  split; [intros; apply v1_main_follows; assumption|intros; apply v1_main_loud_follows; assumption].
Qed.

Theorem dumping_agrees md md' : stricter md md' ->
  (forall e sf, same_or_panic (dump md e sf) (dump md' e sf)) /\
  (forall e sf, same_or_cut (dump_run md e sf) (dump_run md' e sf)) /\
  (forall native file, usize_bits md <= usize_bits md' ->
     (forall f data, file = Some f -> elf_sframe f = Some data -> rust_slice md data) ->
     same_or_panic (sframedump_main md native file) (sframedump_main md' native file)) /\
  (forall p file, usize_bits md = usize_bits md' \/ elf_address_size (elf_architecture (dd_elf file)) <> None ->
     same_or_cut (dump_file p md file) (dump_file p md' file)).
Proof.
  intros H. split; [intros; apply dump_follows, H|]. split; [intros; apply dump_run_follows, H|].
  split; [intros; apply dump_main_follows; assumption|intros; apply dump_file_follows; assumption].
Qed.

Theorem width_agrees md md' : same_checks md md' ->
  (forall e bs, overflow_checks md = false -> rust_slice md bs -> rust_slice md' bs -> load md e bs = load md' e bs) /\
  (forall fr, @fre_start_address never md fr = fre_start_address md' fr) /\
  (forall en a, @contains never md en a = contains md' en a) /\
  (forall sf a, fde_for_address md sf a = fde_for_address md' sf a) /\
  (forall e en a, get_fre_for_address md e en a = get_fre_for_address md' e en a) /\
  (forall e sf a, lookup md e sf a = lookup md' e sf a) /\
  (forall s, merge_adjacent_fdes md s = merge_adjacent_fdes md' s) /\
  (forall e s, build md e s = build md' e s) /\
  (forall op eh, dwarf2sframe md op eh = dwarf2sframe md' op eh) /\
  (forall pr op eh, dwarf2sframe_loud pr md op eh = dwarf2sframe_loud pr md' op eh) /\
  (forall p m ents, v1_convert_loud p m md ents = v1_convert_loud p m md' ents) /\
  (forall e sf, dump_run md e sf = dump_run md' e sf).
Proof.
  intros H. destruct (same_stricter _ _ H) as [A B].
  split; [intros e bs O L L'; destruct H as (O' & _ & _ & W & W'); apply unchecked_load; auto; congruence|].
  split; [intros; apply both_ways; apply fre_start_follows; assumption|].
  split; [intros; apply both_ways; apply contains_follows; assumption|].
  split; [intros; apply both_ways; apply fde_for_address_follows; assumption|].
  split; [intros; apply both_ways; apply get_fre_follows; assumption|].
  split; [intros; apply both_ways; apply lookup_follows; assumption|].
  split; [intros; apply both_ways; apply merge_fdes_follows; assumption|].
  split; [intros; apply both_ways; apply build_follows; assumption|].
  split; [intros; apply both_ways; apply dwarf2sframe_follows; assumption|].
  split; [intros; apply both_cuts; apply dwarf2sframe_loud_follows; assumption|].
  split; [intros; apply both_cuts; apply v1_convert_loud_follows; assumption|].
  intros; apply both_cuts; apply dump_run_follows; assumption.
Qed.
