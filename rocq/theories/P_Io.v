(** Properties C108 to C112: output that fails. *)
From Coq Require Import String.
From Verif Require Import IoWitness.
Local Open Scope string_scope.

(** * C108 If sframedump succeeds, its output has been written: false *)

(** On a full disk the program writes nothing and succeeds; if output fails after an
    undecodable row, the rest is missing and the program succeeds. *)
Theorem C108_lost_output_refuted :
  load rel64 LE (sample_bytes LE) = Ok sample_sf /\
  sframedump_io some_abi whole full_disk rel64 LE sample_sf = ([], Succeeded) /\
  (exists l, dump rel64 LE sample_sf = Ok l /\ (slen (stdout_text some_abi l) = 694)%Z) /\
  (exists log, sframedump_io some_abi letters (closing 1) rel64 LE damaged_sf = (log, Succeeded) /\ complaints log <> [] /\
     exists l, dump rel64 LE damaged_sf = Ok l /\ received log <> stdout_text some_abi l).
Proof. exact full_disk_unnoticed. Qed.
Print Assumptions C108_lost_output_refuted.

(** So it is with every section whose dump is below 8 KiB and has no undecodable
    row. *)
Theorem C108_never_fails_refuted : forall abi_name pieces sk md native sf l,
  cuts pieces -> dump md native sf = Ok l ->
  Forall (fun ln => ~ undecodable ln) l -> (slen (stdout_text abi_name l) < 8192)%Z ->
  exists log, sframedump_io abi_name pieces sk md native sf = (log, Succeeded) /\
    ((forall n s, sk_write sk n s = None) -> log = []).
Proof. exact small_dump_succeeds. Qed.
Print Assumptions C108_never_fails_refuted.

(** What is lost is the end of the output, at most 8 KiB of it if the program
    succeeds, and only if standard output refused something.  The same holds for a
    failure of the program. *)
Theorem C108_end_lost_partial : forall abi_name pieces sk md native bs sf l log x,
  wf_mode md -> rust_slice md bs -> load md native bs = Ok sf -> cuts pieces ->
  dump md native sf = Ok l -> sframedump_io abi_name pieces sk md native sf = (log, x) ->
  x <> Panicked /\
  exists lost, stdout_text abi_name l = received log ++ lost /\
    (x = Succeeded -> (slen lost <= 8192)%Z /\ complaints log = flat_map line_stderr l) /\
    (x = Failed \/ lost <> "" -> refuses sk).
Proof. exact dump_output. Qed.
Print Assumptions C108_end_lost_partial.

Theorem C108_arrives_partial : forall abi_name pieces sk md native bs sf l,
  wf_mode md -> rust_slice md bs -> load md native bs = Ok sf -> cuts pieces -> willing sk ->
  dump md native sf = Ok l ->
  exists log, sframedump_io abi_name pieces sk md native sf = (log, Succeeded) /\
    received log = stdout_text abi_name l /\ complaints log = flat_map line_stderr l.
Proof. exact dump_arrives. Qed.
Print Assumptions C108_arrives_partial.

Example C108_case :
  rust_slice rel64 (sample_bytes LE) /\ rust_slice rel64 damaged /\ cuts whole /\ cuts letters /\ willing byte_sink /\ willing any_sink /\
  (exists l, dump rel64 LE sample_sf = Ok l /\ Forall (fun ln => ~ undecodable ln) l /\ (slen (stdout_text some_abi l) < 8192)%Z) /\
  (exists pre s post, fst (sframedump_io some_abi whole any_sink rel64 LE damaged_sf) = (pre ++ ErrLine s :: post)%list).
Proof. exact io_dump_case. Qed.

(** * C109 sframedump's complaints stand where they belong *)

(** When a complaint appears, standard output has everything that was printed
    before it and has been flushed, however little of it is taken at a time. *)
Theorem C109_in_order : forall abi_name pieces sk md native bs sf l log x pre s post,
  wf_mode md -> rust_slice md bs -> load md native bs = Ok sf -> cuts pieces ->
  dump md native sf = Ok l -> sframedump_io abi_name pieces sk md native sf = (log, x) ->
  log = (pre ++ ErrLine s :: post)%list ->
  exists l1 er l2, l = (l1 ++ LineErr er :: l2)%list /\ s = "  error decoding FRE: " ++ read_error_text er /\
    received pre = stdout_text abi_name l1 /\ complaints pre = flat_map line_stderr l1 /\ just_flushed pre.
Proof. exact dump_order. Qed.
Print Assumptions C109_in_order.

(** A panic, too, comes after the functions before and the rows before; nothing
    is printed after it. *)
Theorem C109_before_panic : forall abi_name pieces sk md native bs sf,
  wf_mode md -> rust_slice md bs -> load md native bs = Ok sf -> cuts pieces -> willing sk ->
  dump md native sf = Panic ->
  exists log done en rest out more,
    sframedump_io abi_name pieces sk md native sf = (log, Panicked) /\
    all_fdes sf = (done ++ en :: rest)%list /\ panics_in md native en /\ all_func_lines md native sf 0 done out /\ lines_till_panic md native sf en more /\
    received log = stdout_text abi_name (LineHeader (version sf) (flags sf) (num_fdes sf) (num_fres sf) (abi sf)
        (fixed_fp_offset sf) (fixed_ra_offset sf) :: LineBlank :: LineIndex :: out ++
        LineFunc (Z.of_nat (List.length done)) (en_start_address en) (en_size en) :: more)%list.
Proof. exact dump_before_panic. Qed.
Print Assumptions C109_before_panic.

Example C109_case :
  rust_slice dev64 last_bytes /\ load dev64 LE last_bytes = Ok last_sf /\ dump dev64 LE last_sf = Panic /\
  exists log, sframedump_io some_abi letters byte_sink dev64 LE last_sf = (log, Panicked) /\ (slen (received log) = 595)%Z.
Proof. exact panic_case. Qed.

(** * C110 dwarfdump never loses output silently *)

Theorem C110_not_silent : forall p pieces sk md path file log x,
  cuts pieces -> dwarfdump_io p pieces sk md path file = (log, x) ->
  let text := unlines (stdout_of (fst (dump_file p md file))) in
  let res := snd (dump_file p md file) in
  x <> Failed /\
  (exists lost, text = received log ++ lost /\ (lost <> "" -> refuses sk)) /\
  (x = Panicked -> res = Panic /\ complaints log = []) /\
  (x = Succeeded -> complaints log = [] -> res = Ok tt /\ received log = text /\ just_flushed log) /\
  (complaints log <> [] -> exists pre s, log = (pre ++ [ErrLine s])%list /\ complaints pre = [] /\
     ((s = io_message path /\ refuses sk) \/ (exists g, res = Err g /\ s = dd_message p path g))).
Proof. exact dwarfdump_delivers. Qed.
Print Assumptions C110_not_silent.

Example C110_case :
  (exists log, dwarfdump_io some_dd letters any_sink rel64 "a.out" (dd_of ElfX86_64 dd_full None) = (log, Succeeded) /\
     complaints log = [] /\ (1000 < slen (received log))%Z) /\
  (exists log, dwarfdump_io some_dd whole full_disk rel64 "a.out" (dd_of ElfX86_64 dd_full None) = (log, Succeeded) /\
     log = [ErrLine "Failed to dump 'a.out': IoError"]) /\
  (exists log, dwarfdump_io some_dd whole any_sink rel64 "a.out" (dd_of ElfX86_64 dd_full (Some (GimliError 7))) = (log, Succeeded) /\
     complaints log = ["Failed to dump 'a.out': GimliError(Error7)"]).
Proof. exact dd_io_case. Qed.

(** * C111 The output file is complete or as it was: false *)

Theorem C111_cut_refuted :
  exists old part data,
    run2 (GimliError 0) (fun _ => true) no_flags = Ok (OutFile ElfX86_64 RtLittle data) /\ plain_emit (OutFile ElfX86_64 RtLittle data) = Some data /\
    finish plain_emit (FileWrite true (Some 40%nat)) (Some old) (run2 (GimliError 0) (fun _ => true) no_flags) = (Some part, Failed) /\
    part <> old /\ part <> data /\
    exists sf, load rel64 LE old = Ok sf.
Proof. exact file_cut. Qed.
Print Assumptions C111_cut_refuted.

(** Success means a complete file; a failure before the end leaves the old one; a
    failure to write leaves the beginning of the new one.  [r] is the result of
    either converter. *)
Theorem C111_file_partial : forall E emit fw before (r : outcome E out_file) after x,
  finish emit fw before r = (after, x) ->
  (x = Succeeded -> exists o data, r = Ok o /\ emit o = Some data /\ after = Some data) /\
  (x <> Succeeded -> after = before \/
     exists o data part, r = Ok o /\ emit o = Some data /\ after = Some part /\ starts part data /\ part <> data /\
       fw_open fw = true /\ exists n, fw_room fw = Some n /\ (n < List.length data)%nat) /\
  ((forall o, r <> Ok o) -> after = before /\ x <> Succeeded).
Proof. exact @finish_file. Qed.
Print Assumptions C111_file_partial.

(** * C112 A failure to print is not blamed on the input: false *)

(** With [--debug-dump], and always in the first version, the tool says that the
    DWARF is invalid. *)
Theorem C112_blamed_refuted :
  file_typed sample_file /\
  (exists out, dwarf2sframe2_main rel64 talking (Some sample_file) = Ok out) /\
  run2 gimli_io three talking = Err (ToolConvert (InvalidDwarfFde gimli_io)) /\
  (forall e, conv_error_text e (InvalidDwarfFde gimli_io) = "invalid DWARF FDE: " ++ e gimli_io) /\
  (exists out, snd (v1_main_loud some_texts1 rel64 LE (Some v1_file)) = Ok out) /\
  (exists n, snd (v1_main_wired gimli_io some_texts1 rel64 LE (Some v1_file) (fun k => (k <? n)%nat) 0%nat) = Err (V1Dump gimli_io)).
Proof. exact blamed_on_input. Qed.
Print Assumptions C112_blamed_refuted.

(** What happens instead, for every input and every failure: if all lines are
    taken, nothing changes; the first line that is not taken ends the run, in a panic
    if it is about the function or its rows, in that error if it is about its
    instructions. *)
Theorem C112_dwarf2sframe2_partial : forall gio pr md args input sk l n o,
  dwarf2sframe2_main_wired gio pr md args input sk 0%nat = (l, n, o) ->
  outcome_of frame_line (main2_line pr md input) (ToolConvert (InvalidDwarfFde gio)) sk 0
    (fst (dwarf2sframe2_main_loud pr md args input)) (dwarf2sframe2_main md args input) l n o.
Proof. exact main2_exact. Qed.
Print Assumptions C112_dwarf2sframe2_partial.

Theorem C112_dwarf2sframe_partial : forall gio p md native input sk l n o,
  v1_main_wired gio p md native input sk 0%nat = (l, n, o) ->
  outcome_of frame_line1 (insn_line (lines1 p) (entries_in md input)) (V1Dump gio) sk 0
    (fst (v1_main_loud p md native input)) (snd (v1_main_loud p md native input)) l n o.
Proof. exact main1_exact. Qed.
Print Assumptions C112_dwarf2sframe_partial.

(** Without [--debug-dump] standard output does not matter. *)
Theorem C112_silent_partial : forall gio pr md args input sk,
  ca_debug_dump args = false ->
  snd (dwarf2sframe2_main_wired gio pr md args input sk 0%nat) = dwarf2sframe2_main md args input.
Proof. exact main2_unaffected. Qed.
Print Assumptions C112_silent_partial.

Example C112_case :
  run2 gimli_io (fun n => (n <? 2)%nat) talking = Panic /\
  run2 gimli_io (fun n => false) no_flags = Ok (OutFile ElfX86_64 RtLittle (sample_bytes LE)).
Proof. exact wired_case. Qed.
