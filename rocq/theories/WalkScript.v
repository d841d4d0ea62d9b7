(** Proofs about walks by the dumps that dump-dirlibs.sh leaves. *)
From Coq Require Import String Ascii ZArith List Permutation Lia Bool.
From Verif Require Export WalkScriptSpec DumpedFacts ScriptTools ScriptRepairedProps.
From Verif Require Import BaseFacts.
Import ListNotations.
Open Scope Z_scope.
Open Scope list_scope.

Lemma script_dumped T md md' native abi_name input emit parse found d sts d' ok p file out P :
  modelled T md md' native abi_name input emit parse ->
  listing found -> (forall q, In q (map fst found) -> plain_path q) -> NoDup (map basename (programs found)) ->
  script T found d sts d' ok -> none_aborts sts -> In p (programs found) -> fst (t_dwarfdump T p) = 0 ->
  input p = Some file -> dwarf2sframe2_main md script_flags (Some file) = Ok out -> rust_slice md' (out_sframe out) ->
  (forall n, without newline_char (abi_name n)) -> dumped_well md' native out P -> left_dump basename d' p P.
Proof.
  intros [M1 M2 M3] HL HP HB HS HN Hp HD Hi HO Hsl Hn HW.
  assert (HO' : dwarf2sframe2_main md script_flags (input p) = Ok out) by (rewrite Hi; exact HO).
  destruct (M1 p out HO') as (log & EC). destruct (M2 p out HO') as (dumped & P1 & P2).
  destruct (HW dumped abi_name P2 Hsl Hn) as (l & h & rest & D1 & D2 & _ & D3).
  assert (HD' : t_sframedump T (Some (emit out)) = (0, chars (stdout_text abi_name l))) by (apply M3; rewrite P1; exact D1).
  assert (HP0 : programs found <> []) by (intros E; rewrite E in Hp; destruct Hp).
  pose proof (every_program_once found HL HP T d sts d' ok HS HN HP0) as HQ. pose proof (Permutation_in p HQ Hp) as Hin.
  apply in_map_iff in Hin. destruct Hin as ([p' st] & E & Hin). cbn [fst] in E. subst p'.
  pose proof (proj1 (results_apart found HL HP HB T d sts d' ok HS HP0) p st Hin) as HR.
  unfold left_by in HR. rewrite EC in HR. cbn beta iota zeta in HR. destruct HR as (_ & _ & _ & HR). rewrite HD in HR. cbn beta iota in HR.
  change (0 =? 0) with true in HR. cbn iota in HR. destruct HR as (HR & _). rewrite HD' in HR. cbn [snd] in HR.
  exists (stdout_text abi_name l), h, rest. split; [exact HR|]. split; [exact D2|exact D3].
Qed.

Theorem script_walks T md md' abi_name input emit parse found d sts d' ok p file eh0 addr fs cie :
  let eh := file_eh md file eh0 in
  modelled T md md' (endian_of (elf_endian file)) abi_name input emit parse ->
  listing found -> (forall q, In q (map fst found) -> plain_path q) -> NoDup (map basename (programs found)) ->
  script T found d sts d' ok -> none_aborts sts -> In p (programs found) -> fst (t_dwarfdump T p) = 0 ->
  wf_mode md' -> (forall n, without newline_char (abi_name n)) ->
  input p = Some file -> file_typed file -> elf_architecture file = ElfX86_64 -> elf_eh_frame file = Some eh0 ->
  has_section (elf_sections file) ".eh_frame"%string addr -> code_written fs eh cie -> of_size fs ->
  (forall out, dwarf2sframe2_main md script_flags (Some file) = Ok out -> rust_slice md' (out_sframe out)) ->
  left_dump basename d' p (code_always_walked eh fs).
Proof.
  intros eh HM HL HP HB HS HN Hp HD Hm Hn Hi Ht Ha HE HA HW HZ Hsl.
  destruct (dumped_walks md script_flags file eh0 addr fs cie Ht Ha HE HA HW HZ) as (out & O1 & _ & O2).
  exact (script_dumped _ _ _ _ _ _ _ _ _ _ _ _ _ _ _ _ _ HM HL HP HB HS HN Hp HD Hi O1 (Hsl out O1) Hn (O2 md' Hm)).
Qed.

Theorem script_arm_walks T md md' abi_name input emit parse found d sts d' ok p file eh0 addr fs cie :
  let eh := file_eh md file eh0 in
  modelled T md md' (endian_of (elf_endian file)) abi_name input emit parse ->
  listing found -> (forall q, In q (map fst found) -> plain_path q) -> NoDup (map basename (programs found)) ->
  script T found d sts d' ok -> none_aborts sts -> In p (programs found) -> fst (t_dwarfdump T p) = 0 ->
  wf_mode md' -> (forall n, without newline_char (abi_name n)) ->
  input p = Some file -> file_typed file -> elf_architecture file = ElfAarch64 -> elf_eh_frame file = Some eh0 ->
  has_section (elf_sections file) ".eh_frame"%string addr -> acode_written fs eh cie -> aof_size fs ->
  (forall f, In f fs -> aupright f) -> saved_unsigned fs ->
  (forall out, dwarf2sframe2_main md script_flags (Some file) = Ok out -> rust_slice md' (out_sframe out)) ->
  left_dump basename d' p (acode_walked eh fs on_stack).
Proof.
  intros eh HM HL HP HB HS HN Hp HD Hm Hn Hi Ht Ha HE HA HW HZ HU HX Hsl.
  destruct (dumped_arm_walks md script_flags file eh0 addr fs cie Ht Ha HE HA HW HZ HU HX) as (out & O1 & _ & O2).
  exact (script_dumped _ _ _ _ _ _ _ _ _ _ _ _ _ _ _ _ _ HM HL HP HB HS HN Hp HD Hi O1 (Hsl out O1) Hn (O2 md' Hm)).
Qed.

(** ** With the repairs of the script *)

Lemma asked_dumped fx T md md' native abi_name input emit parse found d sts d' ok p file out P :
  sf_type fx = true -> sf_zero fx = true -> sf_skip fx = true -> sf_status fx = true -> sf_name fx = true ->
  modelled T md md' native abi_name input emit parse -> listing_of_paths found ->
  script_asked fx T found d sts d' ok -> In p (programs found) -> fst (t_dwarfdump T p) = 0 ->
  input p = Some file -> dwarf2sframe2_main md script_flags (Some file) = Ok out -> rust_slice md' (out_sframe out) ->
  (forall n, without newline_char (abi_name n)) -> dumped_well md' native out P -> left_dump escaped d' p P.
Proof.
  intros F1 F2 F3 F4 F5 [M1 M2 M3] HL HS Hp HD Hi HO Hsl Hn HW.
  assert (HO' : dwarf2sframe2_main md script_flags (input p) = Ok out) by (rewrite Hi; exact HO).
  destruct (M1 p out HO') as (log & EC). destruct (M2 p out HO') as (dumped & P1 & P2).
  destruct (HW dumped abi_name P2 Hsl Hn) as (l & h & rest & D1 & D2 & _ & D3).
  assert (HD' : t_sframedump T (Some (emit out)) = (0, chars (stdout_text abi_name l))) by (apply M3; rewrite P1; exact D1).
  pose proof (Permutation_in p (every_program_asked fx found F1 F2 HL T d sts d' ok F3 F4 HS) Hp) as Hin.
  apply in_map_iff in Hin. destruct Hin as ([p' st] & E & Hin). cbn [fst] in E. subst p'.
  pose proof (results_asked fx found F1 F2 HL F5 T d sts d' ok HS p st Hin) as HR.
  unfold left_as in HR. rewrite EC in HR. cbn beta iota zeta in HR. destruct HR as (_ & _ & _ & HR). rewrite HD in HR. cbn beta iota in HR.
  change (0 =? 0) with true in HR. cbn iota in HR. destruct HR as (HR & _). rewrite HD' in HR. cbn [snd] in HR.
  exists (stdout_text abi_name l), h, rest. split; [exact HR|]. split; [exact D2|exact D3].
Qed.

Theorem script_walks_asked fx T md md' abi_name input emit parse found d sts d' ok p file eh0 addr fs cie :
  let eh := file_eh md file eh0 in
  sf_type fx = true -> sf_zero fx = true -> sf_skip fx = true -> sf_status fx = true -> sf_name fx = true ->
  modelled T md md' (endian_of (elf_endian file)) abi_name input emit parse -> listing_of_paths found ->
  script_asked fx T found d sts d' ok -> In p (programs found) -> fst (t_dwarfdump T p) = 0 ->
  wf_mode md' -> (forall n, without newline_char (abi_name n)) ->
  input p = Some file -> file_typed file -> elf_architecture file = ElfX86_64 -> elf_eh_frame file = Some eh0 ->
  has_section (elf_sections file) ".eh_frame"%string addr -> code_written fs eh cie -> of_size fs ->
  (forall out, dwarf2sframe2_main md script_flags (Some file) = Ok out -> rust_slice md' (out_sframe out)) ->
  left_dump escaped d' p (code_always_walked eh fs).
Proof.
  intros eh F1 F2 F3 F4 F5 HM HL HS Hp HD Hm Hn Hi Ht Ha HE HA HW HZ Hsl.
  destruct (dumped_walks md script_flags file eh0 addr fs cie Ht Ha HE HA HW HZ) as (out & O1 & _ & O2).
  exact (asked_dumped _ _ _ _ _ _ _ _ _ _ _ _ _ _ _ _ _ _ F1 F2 F3 F4 F5 HM HL HS Hp HD Hi O1 (Hsl out O1) Hn (O2 md' Hm)).
Qed.

Theorem script_arm_walks_asked fx T md md' abi_name input emit parse found d sts d' ok p file eh0 addr fs cie :
  let eh := file_eh md file eh0 in
  sf_type fx = true -> sf_zero fx = true -> sf_skip fx = true -> sf_status fx = true -> sf_name fx = true ->
  modelled T md md' (endian_of (elf_endian file)) abi_name input emit parse -> listing_of_paths found ->
  script_asked fx T found d sts d' ok -> In p (programs found) -> fst (t_dwarfdump T p) = 0 ->
  wf_mode md' -> (forall n, without newline_char (abi_name n)) ->
  input p = Some file -> file_typed file -> elf_architecture file = ElfAarch64 -> elf_eh_frame file = Some eh0 ->
  has_section (elf_sections file) ".eh_frame"%string addr -> acode_written fs eh cie -> aof_size fs ->
  (forall f, In f fs -> aupright f) -> saved_unsigned fs ->
  (forall out, dwarf2sframe2_main md script_flags (Some file) = Ok out -> rust_slice md' (out_sframe out)) ->
  left_dump escaped d' p (acode_walked eh fs on_stack).
Proof.
  intros eh F1 F2 F3 F4 F5 HM HL HS Hp HD Hm Hn Hi Ht Ha HE HA HW HZ HU HX Hsl.
  destruct (dumped_arm_walks md script_flags file eh0 addr fs cie Ht Ha HE HA HW HZ HU HX) as (out & O1 & _ & O2).
  exact (asked_dumped _ _ _ _ _ _ _ _ _ _ _ _ _ _ _ _ _ _ F1 F2 F3 F4 F5 HM HL HS Hp HD Hi O1 (Hsl out O1) Hn (O2 md' Hm)).
Qed.
