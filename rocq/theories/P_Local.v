(** Property theorems about which bytes an answer depends on: C113-C116. *)
From Verif Require Import LocalWitness.

(** * C113 A function is read from its own bytes *)

(** Two sections that agree on the header, on one descriptor and on the rows that
    descriptor names give the same function, whatever else they hold. *)
Theorem C113_read_from_its_own_bytes : forall md e bs bs' sf sf' i aw l rest,
  wf_mode md -> rust_slice md bs -> rust_slice md bs' -> load md e bs = Ok sf -> load md e bs' = Ok sf' ->
  0 <= i < spec_num_fdes e bs ->
  let d := spec_entry e bs i in
  same_at 0 28 bs bs' -> same_at (spec_entry_pos e bs i) (spec_entry_size bs) bs bs' ->
  width_of (bits 0 3 (sd_info d)) = Some aw -> spec_rows_at e aw (spec_rows_of e bs d) l rest -> zlen l = sd_num_fres d ->
  same_at (spec_rows_pos e bs d) (zlen (spec_rows_of e bs d) - zlen rest) bs bs' ->
  exists en en', nth_error (all_fdes sf) (Z.to_nat i) = Some en /\ nth_error (all_fdes sf') (Z.to_nat i) = Some en' /\
    reads_alike md e en en'.
Proof. exact own_bytes. Qed.
Print Assumptions C113_read_from_its_own_bytes.

(** A search reads no further than the row it returns. *)
Theorem C113_search_reads_no_further : forall md e bs sf i en a fr,
  wf_mode md -> rust_slice md bs -> load md e bs = Ok sf -> nth_error (all_fdes sf) i = Some en ->
  get_fre_for_address md e en a = Ok (Some fr) ->
  exists before, delivers md e en (before ++ [fr]) /\
    forall bs' sf', rust_slice md bs' -> load md e bs' = Ok sf' ->
      same_at 0 28 bs bs' -> same_at (spec_entry_pos e bs (Z.of_nat i)) (spec_entry_size bs) bs bs' ->
      same_at (spec_rows_pos e bs (spec_entry e bs (Z.of_nat i))) (rows_len (before ++ [fr])) bs bs' ->
      exists en', nth_error (all_fdes sf') i = Some en' /\ en_fde en = en_fde en' /\ get_fre_for_address md e en' a = Ok (Some fr).
Proof. exact search_reads_no_further. Qed.
Print Assumptions C113_search_reads_no_further.

Example C113_case :
  load rel64 LE (demo LE) = Ok (demo_sf LE) /\ load rel64 LE (hurt1 LE) = Ok (sf_of LE (hurt1 LE)) /\ hurt1 LE <> demo LE /\
  same_at 0 28 (demo LE) (hurt1 LE) /\ same_at (spec_entry_pos LE (demo LE) 0) (spec_entry_size (demo LE)) (demo LE) (hurt1 LE) /\
  same_at (spec_rows_pos LE (demo LE) (spec_entry LE (demo LE) 0)) 10 (demo LE) (hurt1 LE) /\
  ~ same_at (spec_rows_pos LE (demo LE) (spec_entry LE (demo LE) 1)) 5 (demo LE) (hurt1 LE) /\
  (exists l rest, spec_rows_at LE 1 (spec_rows_of LE (demo LE) (spec_entry LE (demo LE) 0)) l rest /\
     zlen l = sd_num_fres (spec_entry LE (demo LE) 0) /\ zlen (spec_rows_of LE (demo LE) (spec_entry LE (demo LE) 0)) - zlen rest = 10) /\
  exists fr, get_fre_for_address rel64 LE (nth_entry (demo_sf LE) 0) 0x108 = Ok (Some fr) /\ rows_len [fr] = 5.
Proof.
  split; [apply demo_loads|]. split; [apply hurt_loads|]. split; [vm_compute; discriminate|].
  repeat (split; [vm_compute; reflexivity|]). split; [vm_compute; discriminate|]. split.
  - exists (map written (rows_of demo_f1)), (skipn 78 (demo LE)). split; [|vm_compute; auto].
    exact (rows_enc_spec LE 1 (rows_of demo_f1) (skipn 78 (demo LE)) (starts_fit demo_f1 ltac:(apply fdb_reach_wf, demo_f1_reach))).
  - eexists. split; vm_compute; reflexivity.
Qed.

(** * C114 Damage to one function leaves the others alone *)

Theorem C114_damage_stays_in_one_function : forall md md' e s bs bs' i,
  wf_mode md' -> sfb_reach md s -> build md e s = Ok bs -> rust_slice md' bs -> damaged_in (fdes_of s) i bs bs' ->
  exists sf sf', load md' e bs = Ok sf /\ load md' e bs' = Ok sf' /\
    length (all_fdes sf) = length (fdes_of s) /\ length (all_fdes sf') = length (fdes_of s) /\
    forall j, (j < length (fdes_of s))%nat -> j <> i ->
      exists en en', nth_error (all_fdes sf) j = Some en /\ nth_error (all_fdes sf') j = Some en' /\ reads_alike md' e en en'.
Proof. exact damage_stays. Qed.
Print Assumptions C114_damage_stays_in_one_function.

Example C114_case : forall e,
  sfb_reach rel64 demo_sfb /\ build rel64 e demo_sfb = Ok (demo e) /\ rust_slice rel64 (demo e) /\
  damaged_in (fdes_of demo_sfb) 0 (demo e) (wrecked e) /\ spec_entry e (wrecked e) 0 <> spec_entry e (demo e) 0 /\
  load rel64 e (wrecked e) = Ok (sf_of e (wrecked e)) /\ rows_seen rel64 e (nth_entry (sf_of e (wrecked e)) 0) <> rows_seen rel64 e (nth_entry (demo_sf e) 0) /\
  rows_seen rel64 e (nth_entry (sf_of e (wrecked e)) 1) = rows_seen rel64 e (nth_entry (demo_sf e) 1).
Proof.
  intros e. split; [apply demo_reach|]. split; [apply demo_built|]. split; [apply demo_slice, wf_rel64|].
  split; [apply wrecked_damage|]. split; [apply wrecked_damage|]. split; [apply hurt_loads|].
  split; destruct e; vm_compute; discriminate || reflexivity.
Qed.

(** * C115 Damage to one function's rows does not reach look-ups in the others: false *)

Theorem C115_lookup_reads_other_rows_refuted :
  sfb_reach rel64 demo_sfb /\ build rel64 LE demo_sfb = Ok (demo LE) /\ rust_slice rel64 (demo LE) /\
  damaged_rows (fdes_of demo_sfb) 0 (demo LE) (hurt0 LE) /\
  load rel64 LE (demo LE) = Ok (demo_sf LE) /\ load rel64 LE (hurt0 LE) = Ok (sf_of LE (hurt0 LE)) /\
  exists en en' fr fr',
    fde_for_address rel64 (demo_sf LE) 0x204 = Ok (Some en) /\ fde_for_address rel64 (sf_of LE (hurt0 LE)) 0x204 = Ok (Some en') /\
    en_fde en = en_fde en' /\ view_fde (en_fde en) = spec_entry LE (demo LE) 1 /\
    get_fre_for_address rel64 LE en 0x204 = Ok (Some fr) /\ get_fre_for_address rel64 LE en' 0x204 = Ok (Some fr') /\
    fre_cfa_offset fr = Ok 8 /\ fre_cfa_offset fr' = Ok 48.
Proof. exact other_rows_looked_up. Qed.
Print Assumptions C115_lookup_reads_other_rows_refuted.

(** The descriptor found is right all the same. *)
Theorem C115_descriptor_found_partial : forall md md' e s bs bs' i,
  wf_mode md' -> sfb_reach md s -> build md e s = Ok bs -> rust_slice md' bs -> damaged_rows (fdes_of s) i bs bs' ->
  exists sf sf', load md' e bs = Ok sf /\ load md' e bs' = Ok sf' /\
    forall a, both (both_some (fun en en' => en_fde en = en_fde en')) (fde_for_address md' sf a) (fde_for_address md' sf' a).
Proof. exact rows_damage_lookups. Qed.
Print Assumptions C115_descriptor_found_partial.

(** In a section that is not marked sorted, a look-up depends on the header, the
    descriptors and the rows of the function found. *)
Theorem C115_unsorted_lookup_partial : forall md e bs bs' sf sf' a en,
  wf_mode md -> rust_slice md bs -> rust_slice md bs' -> load md e bs = Ok sf -> load md e bs' = Ok sf' -> ~ sorted_flag sf ->
  same_at 0 28 bs bs' -> same_at (spec_entry_pos e bs 0) (spec_num_fdes e bs * spec_entry_size bs) bs bs' ->
  fde_for_address md sf a = Ok (Some en) ->
  exists k, 0 <= k < spec_num_fdes e bs /\ nth_error (all_fdes sf) (Z.to_nat k) = Some en /\
    let d := spec_entry e bs k in
    forall aw l rest, width_of (bits 0 3 (sd_info d)) = Some aw ->
      spec_rows_at e aw (spec_rows_of e bs d) l rest -> zlen l = sd_num_fres d ->
      same_at (spec_rows_pos e bs d) (zlen (spec_rows_of e bs d) - zlen rest) bs bs' ->
      exists en', fde_for_address md sf' a = Ok (Some en') /\ reads_alike md e en en'.
Proof. exact unsorted_lookup_own_bytes. Qed.
Print Assumptions C115_unsorted_lookup_partial.

Example C115_case : forall e, let other := set_byte 80 x30 (unsorted e) in
  load rel64 e (unsorted e) = Ok (unsorted_sf e) /\ load rel64 e other = Ok (sf_of e other) /\ ~ sorted_flag (unsorted_sf e) /\
  same_at 0 28 (unsorted e) other /\
  same_at (spec_entry_pos e (unsorted e) 0) (spec_num_fdes e (unsorted e) * spec_entry_size (unsorted e)) (unsorted e) other /\
  (exists en, fde_for_address rel64 (unsorted_sf e) 0x104 = Ok (Some en)) /\
  same_at (spec_rows_pos e (unsorted e) (spec_entry e (unsorted e) 0)) 10 (unsorted e) other /\ other <> unsorted e.
Proof.
  intros e. cbv zeta. split; [apply hurt_loads|]. split; [apply hurt_loads|].
  destruct e; (split; [vm_compute; discriminate|]); (split; [vm_compute; reflexivity|]); (split; [vm_compute; reflexivity|]);
    (split; [eexists; vm_compute; reflexivity|]); (split; [vm_compute; reflexivity|vm_compute; discriminate]).
Qed.

(** * C116 A section says the same in version 1 and in version 2 *)

Theorem C116_versions_read_the_same : forall md e bs bs' sf sf',
  wf_mode md -> rust_slice md bs -> rust_slice md bs' -> load md e bs = Ok sf -> load md e bs' = Ok sf' -> transcribed e bs bs' ->
  Forall2 (reads_same md e sf sf') (all_fdes sf) (all_fdes sf') /\
  forall a, both (both_some (reads_same md e sf sf')) (fde_for_address md sf a) (fde_for_address md sf' a).
Proof. exact transcription_reads_same. Qed.
Print Assumptions C116_versions_read_the_same.

(** The exception for repeated blocks is needed: version 1 takes the start of a row as a mask. *)
Example C116_case : forall e,
  transcribed e (demo_v1 e) (demo e) /\ load rel64 e (demo_v1 e) = Ok (sf_of e (demo_v1 e)) /\ load rel64 e (demo e) = Ok (demo_sf e) /\
  rust_slice rel64 (demo_v1 e) /\
  transcribed e (in_v1 e (masked e)) (masked e) /\
  get_fre_for_address rel64 e (nth_entry (sf_of e (in_v1 e (masked e))) 1) 0x204 = Ok None /\
  exists fr, get_fre_for_address rel64 e (nth_entry (sf_of e (masked e)) 1) 0x204 = Ok (Some fr).
Proof.
  intros e. destruct (demo_v1_transcribed e) as (T & L & S). destruct (masks_differ e) as (_ & _ & M & N).
  split; [exact T|]. split; [exact L|]. split; [apply demo_loads|]. split; [exact S|]. split; [apply masked_transcribed|]. auto.
Qed.
