(** C89, C108, C111 and C112 with small repairs of what is done about output that fails. *)
From Coq Require Import String.
From Verif Require Import IoRepairedFacts.
Local Open Scope string_scope.

(** * C108 If sframedump succeeds, its output has been written *)

(** Without the flush at the end this is the program as it is. *)
Theorem C108_unrepaired_partial : forall abi_name pieces sk md native sf,
  sframedump_io_with false abi_name pieces sk md native sf = sframedump_io abi_name pieces sk md native sf.
Proof. exact as_is_sframedump. Qed.
Print Assumptions C108_unrepaired_partial.

(** With [out.flush()?] at the end of [main] it holds: success means that everything has
    been taken and flushed; only a refusal makes the program fail. *)
Theorem C108_repaired_partial : forall abi_name pieces sk md native bs sf l log x,
  wf_mode md -> rust_slice md bs -> load md native bs = Ok sf -> cuts pieces ->
  dump md native sf = Ok l -> sframedump_io_with true abi_name pieces sk md native sf = (log, x) ->
  (x = Succeeded -> received log = stdout_text abi_name l /\ complaints log = flat_map line_stderr l /\ just_flushed log) /\
  (x <> Succeeded -> x = Failed /\ refuses sk) /\
  exists lost, stdout_text abi_name l = received log ++ lost.
Proof. exact flushed_dump. Qed.
Print Assumptions C108_repaired_partial.

Theorem C108_flush_needed_refuted :
  load rel64 LE (sample_bytes LE) = Ok sample_sf /\
  sframedump_io_with false some_abi whole full_disk rel64 LE sample_sf = ([], Succeeded) /\
  sframedump_io_with true some_abi whole full_disk rel64 LE sample_sf = ([], Failed) /\
  exists log, sframedump_io_with true some_abi letters byte_sink rel64 LE sample_sf = (log, Succeeded) /\ (slen (received log) = 694)%Z.
Proof. exact flush_needed. Qed.
Print Assumptions C108_flush_needed_refuted.

(** * C89 The exit status of dwarfdump: output that fails *)

Theorem C89_output_unrepaired_partial : forall p pieces sk md path file,
  dwarfdump_io_with false p pieces sk md path file = dwarfdump_io p pieces sk md path file.
Proof. exact as_is_dwarfdump. Qed.
Print Assumptions C89_output_unrepaired_partial.

(** If it fails after a complaint, the exit status alone says whether everything was
    written. *)
Theorem C89_output_repaired_partial : forall p pieces sk md path file log x,
  cuts pieces -> dwarfdump_io_with true p pieces sk md path file = (log, x) ->
  let text := unlines (stdout_of (fst (dump_file p md file))) in
  let res := snd (dump_file p md file) in
  (x = Succeeded <-> res = Ok tt /\ received log = text /\ complaints log = []) /\
  (x = Succeeded -> just_flushed log) /\
  (x = Panicked -> res = Panic) /\
  (x = Failed -> refuses sk \/ exists g, res = Err g).
Proof. exact status_dwarfdump. Qed.
Print Assumptions C89_output_repaired_partial.

Theorem C89_output_needed_refuted :
  dwarfdump_io_with false some_dd whole full_disk rel64 "a.out" (dd_of ElfX86_64 dd_full None) = ([ErrLine "Failed to dump 'a.out': IoError"], Succeeded) /\
  dwarfdump_io_with true some_dd whole full_disk rel64 "a.out" (dd_of ElfX86_64 dd_full None) = ([ErrLine "Failed to dump 'a.out': IoError"], Failed) /\
  exists log, dwarfdump_io_with true some_dd letters any_sink rel64 "a.out" (dd_of ElfX86_64 dd_full None) = (log, Succeeded).
Proof. exact status_needed. Qed.
Print Assumptions C89_output_needed_refuted.

(** * C111 The output file is complete or as it was *)

Theorem C111_unrepaired_partial : forall (E : Type) emit fw renamed before (r : outcome E out_file),
  finish_with false emit fw renamed before r = finish emit fw before r.
Proof. exact @as_is_finish. Qed.
Print Assumptions C111_unrepaired_partial.

(** With a second file that replaces the output file when it is complete it holds. *)
Theorem C111_repaired_partial : forall (E : Type) emit fw renamed before (r : outcome E out_file) after x,
  finish_with true emit fw renamed before r = (after, x) ->
  (x = Succeeded -> exists o data, r = Ok o /\ emit o = Some data /\ after = Some data) /\
  (x <> Succeeded -> after = before).
Proof. exact @atomic_file. Qed.
Print Assumptions C111_repaired_partial.

Theorem C111_atomic_needed_refuted :
  let result := run2 (GimliError 0) (fun _ => true) no_flags in
  finish_with false plain_emit (FileWrite true (Some 40%nat)) true (Some damaged) result = (Some (firstn 40 (sample_bytes LE)), Failed) /\
  finish_with true plain_emit (FileWrite true (Some 40%nat)) true (Some damaged) result = (Some damaged, Failed) /\
  finish_with true plain_emit (FileWrite true None) true (Some damaged) result = (Some (sample_bytes LE), Succeeded).
Proof. exact atomic_needed. Qed.
Print Assumptions C111_atomic_needed_refuted.

(** * C112 A failure to print is not blamed on the input *)

Theorem C112_unrepaired_partial : forall gio pr md args input sk n,
  dwarf2sframe2_main_wired_with io_as_is gio pr md args input sk n = wired_err NotIo (dwarf2sframe2_main_wired gio pr md args input) sk n.
Proof. exact as_is_main2. Qed.
Print Assumptions C112_unrepaired_partial.

Theorem C112_unrepaired_first_partial : forall gio p md native input sk n,
  v1_main_wired_with io_as_is gio p md native input sk n = wired_err NotIo (v1_main_wired gio p md native input) sk n.
Proof. exact as_is_main1. Qed.
Print Assumptions C112_unrepaired_first_partial.

(** With an error of its own for output, and [writeln!] instead of [println!], it holds of
    both versions: every line is taken and the result is the usual one, or the result
    is that error. *)
Theorem C112_repaired_partial : forall gio pr p md args native input sk,
  (forall l n o, dwarf2sframe2_main_wired_with io_all_repairs gio pr md args input sk 0%nat = (l, n, o) ->
     outcome_of (fun _ => False) (fun _ => True) IoFailed sk 0 (fst (dwarf2sframe2_main_loud pr md args input))
       (map_err NotIo (dwarf2sframe2_main md args input)) l n o) /\
  (forall l n o, v1_main_wired_with io_all_repairs gio p md native input sk 0%nat = (l, n, o) ->
     outcome_of (fun _ => False) (fun _ => True) IoFailed sk 0 (fst (v1_main_loud p md native input))
       (map_err NotIo (snd (v1_main_loud p md native input))) l n o).
Proof. exact refusals_reported. Qed.
Print Assumptions C112_repaired_partial.

(** Both changes are needed in both versions. *)
Theorem C112_needed_refuted :
  (* [println!] left as it is: a panic *)
  snd (dwarf2sframe2_main_wired_with print_left gimli_io some_texts rel64 talking (Some sample_file) (fun _ => false) 0%nat) = Panic /\
  snd (v1_main_wired_with print_left gimli_io some_texts1 rel64 LE (Some v1_file) (fun _ => false) 0%nat) = Panic /\
  (* the errors of the dump left as they are: the input is blamed *)
  snd (dwarf2sframe2_main_wired_with dump_left gimli_io some_texts rel64 talking (Some sample_file) three 0%nat) =
    Err (NotIo (ToolConvert (InvalidDwarfFde gimli_io))) /\
  snd (v1_main_wired_with dump_left gimli_io some_texts1 rel64 LE (Some v1_file) (fun k => (k <? 6)%nat) 0%nat) = Err (NotIo (V1Dump gimli_io)).
Proof. exact refusals_needed. Qed.
Print Assumptions C112_needed_refuted.

Theorem C112_repaired_case :
  snd (dwarf2sframe2_main_wired_with io_all_repairs gimli_io some_texts rel64 talking (Some sample_file) three 0%nat) = Err IoFailed /\
  snd (v1_main_wired_with io_all_repairs gimli_io some_texts1 rel64 LE (Some v1_file) (fun k => (k <? 6)%nat) 0%nat) = Err IoFailed /\
  snd (dwarf2sframe2_main_wired_with io_all_repairs gimli_io some_texts rel64 talking (Some sample_file) (fun _ => true) 0%nat) =
    Ok (OutFile ElfX86_64 RtLittle (sample_bytes LE)).
Proof. exact refusals_case. Qed.
Print Assumptions C112_repaired_case.

