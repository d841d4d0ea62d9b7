(** The theorems about output as the properties state them, and concrete cases. *)
From Coq Require Import String Ascii Lia.
From Verif Require Export IoTools DdWitness.
Local Open Scope string_scope.

(** ** Standard output that works, is full, or takes one byte at a time *)

Definition any_sink : sink := Sink (fun _ s => Some (String.length s)) (fun _ => true).
Definition full_disk : sink := Sink (fun _ _ => None) (fun _ => true).
Definition byte_sink : sink := Sink (fun _ _ => Some 1%nat) (fun _ => true).
(** It takes [n] calls, then it is closed. *)
Definition closing (n : nat) : sink := Sink (fun k s => if (k <? n)%nat then Some (String.length s) else None) (fun _ => true).
Definition whole (s : string) : list string := [s].
Definition letters (s : string) : list string := map (fun c => String c "") (list_ascii_of_string s).
Lemma cuts_whole : cuts whole.
Proof. intros s. reflexivity. Qed.
Lemma cuts_letters : cuts letters.
Proof.
  intros s. unfold letters. induction s as [|c t IH]; [reflexivity|]. cbn [list_ascii_of_string map]. rewrite scat_cons, IH. reflexivity.
Qed.
Lemma byte_willing : willing byte_sink.
Proof. split; [|reflexivity]. intros n s _. exists O. reflexivity. Qed.
Lemma any_willing : willing any_sink.
Proof. split; [|reflexivity]. intros n [|c t] H; [congruence|]. exists (String.length t). reflexivity. Qed.
Definition some_abi (a : Z) : string := "Amd64Le".

(** ** C108, C109 *)

Theorem dump_output abi_name pieces sk md native bs sf l log x :
  wf_mode md -> rust_slice md bs -> load md native bs = Ok sf -> cuts pieces ->
  dump md native sf = Ok l -> sframedump_io abi_name pieces sk md native sf = (log, x) ->
  x <> Panicked /\
  exists lost, stdout_text abi_name l = received log ++ lost /\
    (x = Succeeded -> (slen lost <= 8192)%Z /\ complaints log = flat_map line_stderr l) /\
    (x = Failed \/ lost <> "" -> refuses sk).
Proof.
  intros Hm Hs HL Hp HD HI. pose proof (loaded_fuel _ _ _ _ Hm Hs HL) as Hf.
  destruct (sframedump_delivers abi_name pieces sk md native sf log x Hp Hf HI) as (((lost & HT & HX & HR) & _) & HP & _).
  rewrite dump_run_ok in HD. destruct (dump_run md native sf) as [l' [u| |]] eqn:Er; cbn [fst snd] in *; try discriminate. injection HD as ->.
  assert (Hx : x <> Panicked). { intros ->. specialize (HP eq_refl). rewrite dump_run_ok, Er in HP. discriminate. }
  split; [exact Hx|]. exists lost. split; [exact HT|]. split; [|tauto]. intros ->. apply HX. discriminate.
Qed.

(** If standard output takes what it is given, all of it arrives. *)
Theorem dump_arrives abi_name pieces sk md native bs sf l :
  wf_mode md -> rust_slice md bs -> load md native bs = Ok sf -> cuts pieces -> willing sk ->
  dump md native sf = Ok l ->
  exists log, sframedump_io abi_name pieces sk md native sf = (log, Succeeded) /\
    received log = stdout_text abi_name l /\ complaints log = flat_map line_stderr l.
Proof.
  intros Hm Hs HL Hp Hw HD. destruct (sframedump_io abi_name pieces sk md native sf) as [log x] eqn:HI.
  destruct (dump_output _ _ _ _ _ _ _ _ _ _ Hm Hs HL Hp HD HI) as (HP & lost & HT & HS & HR).
  apply willing_not_refuses in Hw. assert (x = Succeeded) as -> by (destruct x; [reflexivity|exfalso; tauto|congruence]).
  exists log. split; [reflexivity|]. destruct (HS eq_refl) as [_ HC]. split; [|exact HC].
  destruct lost as [|c t]; [rewrite app_empty_s in HT; auto|]. exfalso. apply Hw, HR. right. discriminate.
Qed.

Theorem dump_order abi_name pieces sk md native bs sf l log x pre s post :
  wf_mode md -> rust_slice md bs -> load md native bs = Ok sf -> cuts pieces ->
  dump md native sf = Ok l -> sframedump_io abi_name pieces sk md native sf = (log, x) ->
  log = (pre ++ ErrLine s :: post)%list ->
  exists l1 er l2, l = (l1 ++ LineErr er :: l2)%list /\ s = "  error decoding FRE: " ++ read_error_text er /\
    received pre = stdout_text abi_name l1 /\ complaints pre = flat_map line_stderr l1 /\ just_flushed pre.
Proof.
  intros Hm Hs HL Hp HD HI. pose proof (loaded_fuel _ _ _ _ Hm Hs HL) as Hf.
  destruct (sframedump_delivers abi_name pieces sk md native sf log x Hp Hf HI) as ((_ & HO) & _).
  rewrite dump_run_ok in HD. destruct (dump_run md native sf) as [l' [u| |]] eqn:Er; cbn [fst snd] in *; try discriminate. injection HD as ->.
  apply HO.
Qed.

(** If the program panics, the functions before have been printed. *)
Theorem dump_before_panic abi_name pieces sk md native bs sf :
  wf_mode md -> rust_slice md bs -> load md native bs = Ok sf -> cuts pieces -> willing sk ->
  dump md native sf = Panic ->
  exists log done en rest out more,
    sframedump_io abi_name pieces sk md native sf = (log, Panicked) /\
    all_fdes sf = (done ++ en :: rest)%list /\ panics_in md native en /\ all_func_lines md native sf 0 done out /\ lines_till_panic md native sf en more /\
    received log = stdout_text abi_name (LineHeader (version sf) (flags sf) (num_fdes sf) (num_fres sf) (abi sf)
        (fixed_fp_offset sf) (fixed_ra_offset sf) :: LineBlank :: LineIndex :: out ++
        LineFunc (Z.of_nat (List.length done)) (en_start_address en) (en_size en) :: more)%list.
Proof.
  intros Hm Hs HL Hp Hw HD. pose proof (loaded_fuel _ _ _ _ Hm Hs HL) as Hf. pose proof (loaded_fdes_ok _ _ _ _ Hm Hs HL) as Hok.
  destruct (sframedump_io abi_name pieces sk md native sf) as [log x] eqn:HI.
  destruct (sframedump_delivers abi_name pieces sk md native sf log x Hp Hf HI) as (((lost & HT & HX & HR) & _) & _ & HO).
  rewrite dump_run_ok in HD.
  assert (HP : snd (dump_run md native sf) = Panic) by (destruct (snd (dump_run md native sf)); [discriminate|discriminate|reflexivity]).
  apply willing_not_refuses in Hw.
  assert (x = Panicked) as ->.
  { destruct x; [|exfalso; tauto|reflexivity]. specialize (HO eq_refl). rewrite dump_run_ok, HP in HO. discriminate. }
  assert (lost = "") as -> by (destruct lost as [|c t]; [reflexivity|]; exfalso; apply Hw, HR; left; discriminate).
  rewrite app_empty_s in HT. unfold dump_run in HT, HP. cbn zeta in HT, HP. cbn [fst snd] in HT, HP.
  change (fdes sf) with (FdeIter (it_fdes (fdes sf)) (sf_fres sf)) in HT, HP.
  destruct (dump_fdes_run_panic md native sf (sf_fres sf) (it_fdes (fdes sf)) (S (List.length (it_fdes (fdes sf)))) 0 Hm Hok (Nat.lt_succ_diag_r _) HP) as (done & f & rest & out & st & more & EL & HI2 & HA & HE & HS).
  exists log, (map (entry_of (sf_fres sf)) done), (entry_of (sf_fres sf) f), (map (entry_of (sf_fres sf)) rest), out, more.
  split; [reflexivity|]. split; [rewrite all_fdes_map, EL, map_app; reflexivity|]. split; [exact HI2|]. split; [exact HA|]. destruct HS as [HS HM]. split; [exact HM|].
  rewrite <- HT. cbn [it_fdes] in HE |- *. rewrite HE, map_length, HS. reflexivity.
Qed.

Theorem full_disk_unnoticed :
  load rel64 LE (sample_bytes LE) = Ok sample_sf /\
  sframedump_io some_abi whole full_disk rel64 LE sample_sf = ([], Succeeded) /\
  (exists l, dump rel64 LE sample_sf = Ok l /\ (slen (stdout_text some_abi l) = 694)%Z) /\
  (exists log, sframedump_io some_abi letters (closing 1) rel64 LE damaged_sf = (log, Succeeded) /\ complaints log <> [] /\
     exists l, dump rel64 LE damaged_sf = Ok l /\ received log <> stdout_text some_abi l).
Proof.
  split; [exact (proj1 ToolsWitness.sample_dump)|]. split; [vm_compute; reflexivity|]. split.
  - eexists. split; [exact (proj2 ToolsWitness.sample_dump)|]. vm_compute. reflexivity.
  - eexists. split; [vm_compute; reflexivity|]. split; [discriminate|]. eexists. split; [vm_compute; reflexivity|]. vm_compute. discriminate.
Qed.
Theorem io_dump_case :
  rust_slice rel64 (sample_bytes LE) /\ rust_slice rel64 damaged /\ cuts whole /\ cuts letters /\ willing byte_sink /\ willing any_sink /\
  (exists l, dump rel64 LE sample_sf = Ok l /\ Forall (fun ln => ~ undecodable ln) l /\ (slen (stdout_text some_abi l) < 8192)%Z) /\
  (exists pre s post, fst (sframedump_io some_abi whole any_sink rel64 LE damaged_sf) = (pre ++ ErrLine s :: post)%list).
Proof.
  split; [apply sample_slice, wf_rel64|]. split; [vm_compute; repeat split; discriminate|]. split; [exact cuts_whole|]. split; [exact cuts_letters|].
  split; [exact byte_willing|]. split; [exact any_willing|]. split.
  - eexists. split; [exact (proj2 ToolsWitness.sample_dump)|]. split; [|vm_compute; reflexivity].
    repeat constructor; intros [er H]; discriminate H.
  - exists (firstn 2 (fst (sframedump_io some_abi whole any_sink rel64 LE damaged_sf))). eexists. eexists. vm_compute. reflexivity.
Qed.

(** The second function starts at the end of the address range. *)
Definition last_bytes : bytes := Eval vm_compute in (firstn 48 (sample_bytes LE) ++ [xff; xff; xff; x7f] ++ skipn 52 (sample_bytes LE))%list.
Definition last_sf : sframe := Eval vm_compute in get_ok dummy_sf (load dev64 LE last_bytes).
Theorem panic_case :
  rust_slice dev64 last_bytes /\ load dev64 LE last_bytes = Ok last_sf /\ dump dev64 LE last_sf = Panic /\
  exists log, sframedump_io some_abi letters byte_sink dev64 LE last_sf = (log, Panicked) /\ (slen (received log) = 595)%Z.
Proof.
  split; [vm_compute; repeat split; discriminate|]. split; [vm_compute; reflexivity|]. split; [vm_compute; reflexivity|].
  eexists. split; [vm_compute; reflexivity|]. vm_compute. reflexivity.
Qed.

(** ** C110 *)

Definition dd_full : list dd_entry := [DdCie some_cie; some_dd_fde; bad_dd_fde; odd_dd_fde].
Theorem dd_io_case :
  (exists log, dwarfdump_io some_dd letters any_sink rel64 "a.out" (dd_of ElfX86_64 dd_full None) = (log, Succeeded) /\
     complaints log = [] /\ (1000 < slen (received log))%Z) /\
  (exists log, dwarfdump_io some_dd whole full_disk rel64 "a.out" (dd_of ElfX86_64 dd_full None) = (log, Succeeded) /\
     log = [ErrLine "Failed to dump 'a.out': IoError"]) /\
  (exists log, dwarfdump_io some_dd whole any_sink rel64 "a.out" (dd_of ElfX86_64 dd_full (Some (GimliError 7))) = (log, Succeeded) /\
     complaints log = ["Failed to dump 'a.out': GimliError(Error7)"]).
Proof.
  split; [|split].
  - eexists. split; [vm_compute; reflexivity|]. split; vm_compute; reflexivity.
  - eexists. split; [vm_compute; reflexivity|]. reflexivity.
  - eexists. split; [vm_compute; reflexivity|]. vm_compute. reflexivity.
Qed.

(** ** C111 *)

(** The object file is its section, say. *)
Definition plain_emit (o : out_file) : option bytes := Some (out_sframe o).
Definition sample_file : elf_file := file_with ElfX86_64 RtLittle (eh_entries sample).
Definition run2 (gio : gimli_error) (sk : line_sink) (args : cli_args) : outcome tool_error out_file :=
  snd (dwarf2sframe2_main_wired gio some_texts rel64 args (Some sample_file) sk 0%nat).
Theorem file_cut :
  exists old part data,
    run2 (GimliError 0) (fun _ => true) no_flags = Ok (OutFile ElfX86_64 RtLittle data) /\ plain_emit (OutFile ElfX86_64 RtLittle data) = Some data /\
    finish plain_emit (FileWrite true (Some 40%nat)) (Some old) (run2 (GimliError 0) (fun _ => true) no_flags) = (Some part, Failed) /\
    part <> old /\ part <> data /\
    exists sf, load rel64 LE old = Ok sf.
Proof.
  exists damaged, (firstn 40 (sample_bytes LE)), (sample_bytes LE). split; [vm_compute; reflexivity|]. split; [reflexivity|].
  split; [vm_compute; reflexivity|]. split; [vm_compute; discriminate|]. split; [vm_compute; discriminate|].
  eexists. vm_compute. reflexivity.
Qed.

(** ** C112 *)

Definition talking : cli_args := CliArgs true false false.
Definition gimli_io : gimli_error := GimliError 0.
(** Standard output takes three lines; then it is closed. *)
Definition three (n : nat) : bool := (n <? 3)%nat.
Theorem blamed_on_input :
  file_typed sample_file /\
  (exists out, dwarf2sframe2_main rel64 talking (Some sample_file) = Ok out) /\
  run2 gimli_io three talking = Err (ToolConvert (InvalidDwarfFde gimli_io)) /\
  (forall e, conv_error_text e (InvalidDwarfFde gimli_io) = "invalid DWARF FDE: " ++ e gimli_io) /\
  (exists out, snd (v1_main_loud some_texts1 rel64 LE (Some v1_file)) = Ok out) /\
  (exists n, snd (v1_main_wired gimli_io some_texts1 rel64 LE (Some v1_file) (fun k => (k <? n)%nat) 0%nat) = Err (V1Dump gimli_io)).
Proof.
  split; [apply file_sample_typed|]. split; [eexists; vm_compute; reflexivity|]. split; [vm_compute; reflexivity|]. split; [reflexivity|].
  split; [eexists; vm_compute; reflexivity|]. exists 6%nat. vm_compute. reflexivity.
Qed.
Theorem wired_case :
  run2 gimli_io (fun n => (n <? 2)%nat) talking = Panic /\
  run2 gimli_io (fun n => false) no_flags = Ok (OutFile ElfX86_64 RtLittle (sample_bytes LE)).
Proof. split; vm_compute; reflexivity. Qed.
