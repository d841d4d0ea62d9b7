(** Proofs about walks by the dumps of the repaired script with a repaired converter. *)
From Coq Require Import String Ascii ZArith List Permutation Lia Bool.
From Verif Require Export WholeScriptSpec WalkScript DumpedRepaired.
From Verif Require Import BaseFacts.
Import ListNotations.
Open Scope Z_scope.
Open Scope list_scope.

Lemma fitted_dumped makes fx T md' native abi_name input emit parse found d sts d' ok p file out P :
  sf_type fx = true -> sf_zero fx = true -> sf_skip fx = true -> sf_status fx = true -> sf_name fx = true ->
  fitted makes T md' native abi_name input emit parse -> listing_of_paths found ->
  script_asked fx T found d sts d' ok -> In p (programs found) -> fst (t_dwarfdump T p) = 0 ->
  input p = Some file -> makes file out -> rust_slice md' (out_sframe out) ->
  (forall n, without newline_char (abi_name n)) -> dumped_well md' native out P -> left_dump escaped d' p P.
Proof.
  intros F1 F2 F3 F4 F5 [M1 M2 M3] HL HS Hp HD Hi HO Hsl Hn HW.
  destruct (M1 p file out Hi HO) as (log & EC). destruct (M2 p file out Hi HO) as (dumped & P1 & P2).
  destruct (HW dumped abi_name P2 Hsl Hn) as (l & h & rest & D1 & D2 & _ & D3).
  assert (HD' : t_sframedump T (Some (emit out)) = (0, chars (stdout_text abi_name l))) by (apply M3; rewrite P1; exact D1).
  pose proof (Permutation_in p (every_program_asked fx found F1 F2 HL T d sts d' ok F3 F4 HS) Hp) as Hin.
  apply in_map_iff in Hin. destruct Hin as ([p' st] & E & Hin). cbn [fst] in E. subst p'.
  pose proof (results_asked fx found F1 F2 HL F5 T d sts d' ok HS p st Hin) as HR.
  unfold left_as in HR. rewrite EC in HR. cbn beta iota zeta in HR. destruct HR as (_ & _ & _ & HR). rewrite HD in HR. cbn beta iota in HR.
  change (0 =? 0) with true in HR. cbn iota in HR. destruct HR as (HR & _). rewrite HD' in HR. cbn [snd] in HR.
  exists (stdout_text abi_name l), h, rest. split; [exact HR|]. split; [exact D2|exact D3].
Qed.

Theorem whole_script fx T md md' column abi_name input emit parse found d sts d' ok p file eh0 fs cie :
  let eh := file_eh md file eh0 in
  sf_type fx = true -> sf_zero fx = true -> sf_skip fx = true -> sf_status fx = true -> sf_name fx = true ->
  fitted (whole_output md column) T md' (endian_of (elf_endian file)) abi_name input emit parse -> listing_of_paths found ->
  script_asked fx T found d sts d' ok -> In p (programs found) -> fst (t_dwarfdump T p) = 0 ->
  wf_mode md' -> (forall n, without newline_char (abi_name n)) -> (forall f, column file f = 16) ->
  input p = Some file -> file_typed file -> elf_architecture file = ElfX86_64 -> elf_eh_frame file = Some eh0 ->
  code_written fs eh cie -> of_size fs ->
  (forall out, whole_output md column file out -> rust_slice md' (out_sframe out)) ->
  left_dump escaped d' p (code_always_walked eh fs).
Proof.
  intros eh F1 F2 F3 F4 F5 HM HL HS Hp HD Hm Hn Hc Hi Ht Ha HE HW HZ Hsl.
  assert (Te : eh_typed eh) by exact (Ht eh0 _ HE).
  destruct (dumped_repaired fs eh cie md md (cli_options script_flags Amd64 (elf_endian file)) (column file) (endian_of (elf_endian file)) Te HW HZ eq_refl Hc)
    as (s & bs & H1 & H2 & _ & H3).
  assert (HO : whole_output md column file (OutFile (elf_architecture file) (elf_endian file) bs)).
  { exists Amd64, eh0, s, bs. rewrite Ha. split; [reflexivity|]. split; [exact HE|]. split; [exact H1|]. split; [exact H2|reflexivity]. }
  exact (fitted_dumped _ _ _ _ _ _ _ _ _ _ _ _ _ _ _ _ _ _ F1 F2 F3 F4 F5 HM HL HS Hp HD Hi HO (Hsl _ HO) Hn (H3 md' _ _ Hm)).
Qed.

Theorem whole_script_arm fx T md md' column abi_name input emit parse found d sts d' ok p file eh0 fs cie :
  let eh := file_eh md file eh0 in
  sf_type fx = true -> sf_zero fx = true -> sf_skip fx = true -> sf_status fx = true -> sf_name fx = true ->
  fitted (whole_output md column) T md' (endian_of (elf_endian file)) abi_name input emit parse -> listing_of_paths found ->
  script_asked fx T found d sts d' ok -> In p (programs found) -> fst (t_dwarfdump T p) = 0 ->
  wf_mode md' -> (forall n, without newline_char (abi_name n)) -> (forall f, column file f = 30) ->
  input p = Some file -> file_typed file -> elf_architecture file = ElfAarch64 -> elf_eh_frame file = Some eh0 ->
  acode_written fs eh cie -> aof_size fs ->
  (forall out, whole_output md column file out -> rust_slice md' (out_sframe out)) ->
  left_dump escaped d' p (acode_walked eh fs everywhere).
Proof.
  intros eh F1 F2 F3 F4 F5 HM HL HS Hp HD Hm Hn Hc Hi Ht Ha HE HW HZ Hsl.
  assert (Te : eh_typed eh) by exact (Ht eh0 _ HE).
  destruct (dumped_arm_repaired fs eh cie md md (cli_options script_flags Aarch64 (elf_endian file)) (column file) (endian_of (elf_endian file)) Te HW HZ eq_refl Hc)
    as (s & bs & H1 & H2 & _ & H3).
  assert (HO : whole_output md column file (OutFile (elf_architecture file) (elf_endian file) bs)).
  { exists Aarch64, eh0, s, bs. rewrite Ha. split; [reflexivity|]. split; [exact HE|]. split; [exact H1|]. split; [exact H2|reflexivity]. }
  exact (fitted_dumped _ _ _ _ _ _ _ _ _ _ _ _ _ _ _ _ _ _ F1 F2 F3 F4 F5 HM HL HS Hp HD Hi HO (Hsl _ HO) Hn (H3 md' _ _ Hm)).
Qed.
