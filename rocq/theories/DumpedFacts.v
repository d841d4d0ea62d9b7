(** Proofs about walks by the output of [sframedump]. *)
From Coq Require Import String.
From Verif Require Export DumpedSpec ArmWrittenFacts.
From Verif Require Import BaseFacts ConvFacts CfiFacts CfiTotal RelateFacts StdConv WalkFacts ProgramFacts LookupFacts RunFacts CodeFacts WrittenFacts ArmCodeFacts DownFacts PipeFacts ToolsProps.
Open Scope Z_scope.
Open Scope list_scope.

Lemma looks_inj u base cfa ra fp mg : looks u = looks (Unwind base mg (Some cfa) (Some ra) fp) -> u = Unwind base mg (Some cfa) (Some ra) fp.
Proof.
  destruct u as [b m c r f]. unfold looks. cbn. intros H. injection H as H1 H2 H3 H4. destruct c as [c|]; [|discriminate]. injection H1 as -> ->.
  destruct r as [r|]; [|discriminate]. injection H3 as ->. subst m. destruct f, fp; try discriminate; [injection H2 as ->|]; reflexivity.
Qed.

(** ** AMD64 *)

Theorem dumped_walks md args file parse addr fs cie :
  let eh := file_eh md file parse in let e := endian_of (elf_endian file) in
  file_typed file -> elf_architecture file = ElfX86_64 -> elf_eh_frame file = Some parse ->
  has_section (elf_sections file) ".eh_frame"%string addr -> code_written fs eh cie -> of_size fs ->
  exists out, dwarf2sframe2_main md args (Some file) = Ok out /\ code_always_walked eh fs (std_tells e (out_sframe out)) /\
    forall md', wf_mode md' -> dumped_well md' e out (code_always_walked eh fs).
Proof.
  intros eh e Ht Ha HP HS HW HZ. assert (Te : eh_typed eh) by exact (Ht parse _ HP).
  set (op := cli_options args Amd64 (elf_endian file)). assert (Ho : op_arch op = Amd64) by reflexivity.
  assert (HA : arch_of (elf_architecture file) = Some Amd64) by (rewrite Ha; reflexivity).
  destruct (written_walks fs eh cie Te HW HZ md md op e Ho) as (s & bs & H1 & H2 & H3 & _).
  assert (HO : dwarf2sframe2_main md args (Some file) = Ok (OutFile (elf_architecture file) (elf_endian file) bs)).
  { apply v2_main_ok. exists Amd64, addr, parse, s, bs. auto 10. }
  eexists. split; [exact HO|]. split; [exact H3|]. intros md' Hm dumped abi_name Hh Hs Hn.
  destruct (ordinary_pipeline md md' args file Amd64 parse addr abi_name Ht HA HP HS) as (out & O1 & _ & O2); [apply HW| |exact (written_eh_apart fs eh cie HW HZ)| | |exact Hm|exact Hn|].
  - intros x Hx. pose proof (written_entries fs eh cie Te HW HZ md op x Ho Hx) as E. destruct x as [|g|d]; [exact I|exact E|]. destruct E as [E1 E2].
    split; [exact E1|]. split; [exact E2|]. assert (L : last_at eh d) by (apply (written_last fs eh cie HW HZ), in_functions, Hx).
    destruct (written_bounds fs eh cie HW HZ d L) as ((_ & B) & _). unfold ends_in_range. unfold i32_max in B. lia.
  - exact (written_count fs eh cie Te HW HZ).
  - intros c d Hd F. apply (written_unconfused fs eh cie Te HW HZ); [apply fixed_either, Ho|exact Hd|exact F].
  - assert (out = OutFile (elf_architecture file) (elf_endian file) bs) as -> by congruence.
    destruct (O2 dumped Hh Hs) as (l & h & rest & D1 & D2 & D3 & D4 & D5). exists l, h, rest. do 3 (split; [assumption|]).
    apply (code_always_walked_by eh cie); [exact (written_checked fs HZ)|exact (written_apart fs HZ)|exact (written_described fs eh cie HW)| |].
    + intros d a st base cfa ra fp L1 L2 L3 R u.
      destruct (D4 (cie d) d a L1 (written_followed fs eh cie HW HZ d L1) L2) as (st' & u' & U1 & [U2 _] & U3 & U4).
      assert (st' = st) as -> by congruence. apply U2 in R. subst u'. unfold shown_by. split; [intros T; exact (looks_inj _ _ _ _ _ _ (U4 _ T))|intros ->; exact U3].
    + intros a u T. exact (D5 _ _ T).
Qed.

(** ** AMD64, by the first converter *)

Theorem dumped_v1_walks md native p file parse addr fs cie :
  let eh := in_eh (parse (tool_setup md (elf_sections file))) in
  file_typed file -> elf_eh_frame file = Some parse ->
  has_section (elf_sections file) ".eh_frame"%string addr -> code_written fs eh cie -> of_size fs -> no_empty_rows eh cie -> (forall r, p r = true) ->
  exists out, v1_main md native p (Some file) = Ok out /\ code_always_walked eh fs (std_tells native (out_sframe out)) /\
    forall md', wf_mode md' -> dumped_well md' native out (code_always_walked eh fs).
Proof.
  intros eh Ht HP HS HW HZ HN Hp. set (ents := parse (tool_setup md (elf_sections file))) in *. assert (Te : eh_typed eh) by exact (Ht parse _ HP).
  destruct (v1_written_walks fs eh cie Te HW HZ md md p native Hp HN) as (s & bs & H1 & H2 & H3 & _).
  assert (HO : v1_main md native p (Some file) = Ok (OutFile (elf_architecture file) (elf_endian file) bs)).
  { apply v1_main_ok. exists addr, parse, s, bs. auto 10. }
  eexists. split; [exact HO|]. split; [exact H3|]. intros md' Hm dumped abi_name Hh Hs Hn.
  destruct (ordinary_pipeline_v1 md md' native p file parse addr abi_name Ht HP HS) as (out & O1 & _ & O2);
    [apply HW| |exact (written_eh_apart fs eh cie HW HZ)|exact (written_v1_count fs eh cie Te HW HZ HN)| |exact Hm|exact Hn|].
  - intros x Hx. change (In x (entries_of eh)) in Hx. destruct x as [|g|d]; [exact I|destruct HW as (_ & N & _); exact (N g Hx)|].
    assert (L : last_at eh d) by (apply (written_last fs eh cie HW HZ), in_functions, Hx).
    destruct (written_bounds fs eh cie HW HZ d L) as ((_ & B) & B2 & B1). split; [|unfold ends_in_range; unfold i32_max in B; lia].
    split; [exact B1|]. split; [exact B2|]. split; [apply (written_dump fs eh cie HW HZ), L|]. split; [|auto].
    exists (cie d). split; [exact (written_followed fs eh cie HW HZ d L)|exact (HN d L)].
  - intros c d Hd F. exact (written_v1_unconfused fs eh cie Te HW HZ c d Hd F).
  - assert (out = OutFile (elf_architecture file) (elf_endian file) bs) as -> by congruence.
    destruct (O2 dumped Hh Hs) as (l & h & rest & D1 & D2 & D3 & D4 & D5). exists l, h, rest. do 3 (split; [assumption|]).
    apply (code_always_walked_by eh cie); [exact (written_checked fs HZ)|exact (written_apart fs HZ)|exact (written_described fs eh cie HW)| |].
    + intros d a st base cfa ra fp L1 L2 L3 R u.
      destruct (D4 (cie d) d a L1 (written_followed fs eh cie HW HZ d L1) L2) as (st' & v & U1 & U2 & U3 & _ & U4).
      assert (st' = st) as -> by congruence. apply v1_of_representable, U3 in R. subst v. unfold shown_by.
      split; [intros T; exact (looks_inj _ _ _ _ _ _ (U4 _ T))|intros ->; exact U2].
    + intros a u T. exact (D5 _ _ T).
Qed.

(** ** AArch64 *)

Theorem dumped_arm_walks md args file parse addr fs cie :
  let eh := file_eh md file parse in let e := endian_of (elf_endian file) in
  file_typed file -> elf_architecture file = ElfAarch64 -> elf_eh_frame file = Some parse ->
  has_section (elf_sections file) ".eh_frame"%string addr -> acode_written fs eh cie -> aof_size fs ->
  (forall f, In f fs -> aupright f) -> saved_unsigned fs ->
  exists out, dwarf2sframe2_main md args (Some file) = Ok out /\ acode_walked eh fs on_stack (std_tells e (out_sframe out)) /\
    forall md', wf_mode md' -> dumped_well md' e out (acode_walked eh fs on_stack).
Proof.
  intros eh e Ht Ha HP HS HW HZ HU HX. assert (Te : eh_typed eh) by exact (Ht parse _ HP).
  set (op := cli_options args Aarch64 (elf_endian file)). assert (Ho : op_arch op = Aarch64) by reflexivity.
  assert (HA : arch_of (elf_architecture file) = Some Aarch64) by (rewrite Ha; reflexivity).
  destruct (awritten_walks fs eh cie Te HW HZ md md op e Ho HU HX) as (s & bs & H1 & H2 & H3 & _).
  assert (HO : dwarf2sframe2_main md args (Some file) = Ok (OutFile (elf_architecture file) (elf_endian file) bs)).
  { apply v2_main_ok. exists Aarch64, addr, parse, s, bs. auto 10. }
  eexists. split; [exact HO|]. split; [exact H3|]. intros md' Hm dumped abi_name Hh Hs Hn.
  destruct (ordinary_pipeline md md' args file Aarch64 parse addr abi_name Ht HA HP HS) as (out & O1 & _ & O2); [apply HW| |exact (awritten_eh_apart fs eh cie HW HZ)| | |exact Hm|exact Hn|].
  - intros x Hx. pose proof (awritten_entries fs eh cie HW HZ md op x Ho Hx) as E. destruct x as [|g|d]; [exact I|exact E|]. destruct E as [E1 E2].
    split; [exact E1|]. split; [exact E2|]. assert (L : last_at eh d) by (apply (awritten_last fs eh cie HW HZ), in_functions, Hx).
    destruct (awritten_bounds fs eh cie HW HZ d L) as ((_ & B) & _). unfold ends_in_range. unfold i32_max in B. lia.
  - exact (awritten_count fs eh cie Te HW HZ).
  - intros c d Hd F. apply downward_unconfused, (awritten_down fs eh cie Te HW HZ); assumption.
  - assert (out = OutFile (elf_architecture file) (elf_endian file) bs) as -> by congruence.
    destruct (O2 dumped Hh Hs) as (l & h & rest & D1 & D2 & D3 & D4 & D5). exists l, h, rest. do 3 (split; [assumption|]).
    apply (acode_walked_by eh cie); [exact (awritten_checked fs HZ)|exact (awritten_apart fs HZ)|exact (awritten_described fs eh cie HW)| |].
    + intros f i Hf Hi Hq b Hb. assert (Hq' : on_stack f i) by tauto.
      destruct (awritten_described fs eh cie HW f i b Hf Hi Hb) as (d & st & L1 & L2 & L3 & L4).
      destruct (on_stack_represented _ _ L4 Hq' (fun k => HX f i k Hf Hi)) as (base & cfa & k & fp & R & E1 & E2 & E3).
      destruct (D4 (cie d) d _ L1 (awritten_followed fs eh cie HW HZ d L1) L2) as (st' & u' & U1 & [U2 _] & U3 & U4).
      assert (st' = st) as -> by congruence. apply U2 in R. subst u'. exists base, false, cfa, (Some k), fp. split; [|auto].
      unfold shown_by. intros u. split; [intros T; exact (looks_inj _ _ _ _ _ _ (U4 _ T))|intros ->; exact U3].
    + intros a u T. exact (D5 _ _ T).
Qed.
