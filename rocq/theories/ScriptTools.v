(** The script with the modelled tools. *)
From Coq Require Import String Ascii ZArith List Permutation Lia Bool.
From Verif Require Export PipeFacts ScriptProps.
Import ListNotations.
Open Scope Z_scope.
Open Scope list_scope.

Theorem script_shows_programs T md md' abi_name input emit parse found d sts d' ok p file a eh0 :
  let native := endian_of (elf_endian file) in
  let eh := file_eh md file eh0 in let op := cli_options script_flags a (elf_endian file) in
  modelled T md md' native abi_name input emit parse ->
  listing found -> (forall q, In q (map fst found) -> plain_path q) -> NoDup (map basename (programs found)) ->
  script T found d sts d' ok -> none_aborts sts -> In p (programs found) -> fst (t_dwarfdump T p) = 0 ->
  input p = Some file -> file_typed file ->
  (exists out, dwarf2sframe2_main md script_flags (Some file) = Ok out /\ rust_slice md' (out_sframe out)) ->
  arch_of (elf_architecture file) = Some a -> elf_eh_frame file = Some eh0 ->
  wf_mode md' -> (forall n, without newline_char (abi_name n)) ->
  (forall f, last_at eh f -> ends_in_range f /\ (exists c, follows_dwarf c f) /\
     forall r, In r (wide_rows f) -> ~ clash a (fixed_ra_of op eh) r) ->
  exists s h rest, d' (name (basename p) ".sframe"%string) = Some (chars s) /\ read_dump s = Some (h, rest) /\
    (forall c f x, last_at eh f -> follows_dwarf c f -> in_range (df_start f) (df_len f) x ->
       exists st u, cfi_at c f x = Some st /\ matches a (as_row st) u /\ dump_says rest x (looks u) /\
         forall v, dump_says rest x v -> v = looks u) /\
    forall x v, dump_says rest x v -> exists f, last_at eh f /\ in_range (df_start f) (df_len f) x.
Proof.
  intros native eh op [M1 M2 M3] HL HP HB HS HN Hp HD Hi Ht (out & HO & Hsl) HA HE Hm Hn Hgood.
  assert (HO' : dwarf2sframe2_main md script_flags (input p) = Ok out) by (rewrite Hi; exact HO).
  destruct (M1 p out HO') as (log & EC). destruct (M2 p out HO') as (dumped & P1 & P2).
  destruct (dump_shows_programs md md' script_flags file out a eh0 dumped abi_name Ht HO HA HE P2 Hm Hsl Hn Hgood) as (l & h & rest & D1 & D2 & _ & D3 & D4).
  assert (HD' : t_sframedump T (Some (emit out)) = (0, chars (stdout_text abi_name l))) by (apply M3; rewrite P1; exact D1).
  assert (HP0 : programs found <> []) by (intros E; rewrite E in Hp; destruct Hp).
  pose proof (every_program_once found HL HP T d sts d' ok HS HN HP0) as HQ. pose proof (Permutation_in p HQ Hp) as Hin.
  apply in_map_iff in Hin. destruct Hin as ([p' st] & E & Hin). cbn [fst] in E. subst p'.
  pose proof (proj1 (results_apart found HL HP HB T d sts d' ok HS HP0) p st Hin) as HR.
  unfold left_by in HR. rewrite EC in HR. cbn beta iota zeta in HR. destruct HR as (_ & _ & _ & HR). rewrite HD in HR. cbn beta iota in HR.
  change (0 =? 0) with true in HR. cbn iota in HR. destruct HR as (HR & _). rewrite HD' in HR. cbn [snd] in HR.
  exists (stdout_text abi_name l), h, rest. split; [exact HR|]. split; [exact D2|]. split; [exact D3|exact D4].
Qed.
