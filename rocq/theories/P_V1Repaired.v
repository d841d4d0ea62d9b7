(** C55, C57, C60, C79, C83, C84, C85, C95 and C96 with ten small repairs of the first
    converter: what would have to be changed. *)
From Coq Require Import String.
From Verif Require Import V1RepairedWitness.
From Verif Require Import ConvProps ConvWitness ToolsProps ToolsWitness ConvRepairedFacts ConvRepairedWitness WalkFacts WalkWitness.
Local Open Scope string_scope.

(** Without the repairs this is the tool as it is. *)
Theorem C84_unrepaired_partial : forall p md native c input,
  v1_main_with no_v1fixes p md native c input = loud_err V1AsBefore (v1_main_loud p md native input).
Proof. exact v1_unrepaired. Qed.
Print Assumptions C84_unrepaired_partial.

(** Each of the ten is needed. *)
Theorem C84_needed_refuted :
  v1_stops v1_but_skip fn_prologue /\
  v1_missaid v1_but_rbp some_texts1 rel64 amd_column (of_rows moved_rows) 0x1004 moved_row /\
  v1_stops v1_but_print cut_rule /\
  (file_typed (file_with ElfX86_64 RtLittle (eh_entries row_in_front)) /\
   snd (v1_main_with v1_but_refuse some_texts1 dev64 LE amd_column (Some (file_with ElfX86_64 RtLittle (eh_entries row_in_front)))) = Panic) /\
  v1_stops v1_but_listing cut_insn /\
  v1_missaid v1_but_end some_texts1 rel64 amd_column (of_rows [beyond_row]) (i32_max + 1) beyond_row /\
  v1_missaid v1_but_stack some_texts1 rel64 amd_column (of_rows switch_rows) 0x1004 switch_row /\
  v1_missaid v1_but_column some_texts1 rel64 column_17 (of_rows [column_row]) 0x1004 column_row /\
  (exists out sf, snd (v1_main_with v1_but_machine some_texts1 rel64 LE amd_column (Some (file_of ElfAarch64 [arm_fde]))) = Ok out /\
     load rel64 LE (out_sframe out) = Ok sf /\ abi sf <> abi_number Aarch64 RtLittle) /\
  ~ right_bases two_sections (ps_bases (v1_setup_with v1_but_setup rel64 many_file)).
Proof. exact v1_each_needed. Qed.
Print Assumptions C84_needed_refuted.

(** * C84 The first converter reports exactly the rows it drops *)

(** One message for each row of some width that SFrame cannot express, in order, with a reason
    that is true; nothing for the others.  If the tool stops early this holds up to there. *)
Theorem C84_repaired_partial : forall p md native c file ev o,
  tidy_texts (p1 p) (rule_table (elf_architecture file)) ->
  Forall row_payload_typed (all_rows (v1_entries_in all_v1fixes md file)) -> (forall f, 0 <= c f) ->
  v1_main_with all_v1fixes p md native c (Some file) = (ev, o) ->
  exists pre post notes, wide_with c (v1_entries_in all_v1fixes md file) = (pre ++ post)%list /\
    stderr_of ev = concat notes /\ Forall2 (row_note p (elf_architecture file)) pre notes /\
    (finished o -> post = []).
Proof. exact v1_repaired_reports. Qed.
Print Assumptions C84_repaired_partial.

Theorem C84_repaired_case :
  Forall row_payload_typed (all_rows (v1_entries_in all_v1fixes rel64 many_file)) /\ (forall f, 0 <= many_columns f) /\
  (forall t, tidy_texts (p1 some_texts1) t) /\ finished (snd many_out) /\
  Datatypes.length (wide_with many_columns (v1_entries_in all_v1fixes rel64 many_file)) = 17%nat /\
  stderr_of (fst many_out) =
    [ "DWARF FDE unwind table row requires evaluating a DWARF expression: Evaluation";
      "unsupported recovery rule for RBP: 3";
      "unsupported recovery rule for RBP: <cannot be decoded>";
      "unsupported return address register 17";
      "unsupported recovery rule for RSP: *(CFA+0)";
      "Unsupported recovery rule for RA: 3";
      "DWARF FDE register recovery offset 80000000 was outside the bounds of an i32";
      "DWARF register offset 2147483648 was outside the bounds of an" ++ newline ++
        "                                 i32, caused by: out of range integral type conversion attempted";
      "unsupported CFA source register 3" ].
Proof. exact many_reports. Qed.
Print Assumptions C84_repaired_case.

(** * C83 The first converter reports input it cannot decode *)

Theorem C83_repaired_partial : forall p md native c input, (forall file, input = Some file -> file_typed file) ->
  snd (v1_main_with all_v1fixes p md native c input) <> Panic.
Proof. exact v1_repaired_no_panic. Qed.
Print Assumptions C83_repaired_partial.

(** What is converted: only x86-64 files with an [.eh_frame] in which nothing is at fault. *)
Theorem C83_repaired_outcome_partial : forall p md native c file, file_typed file ->
  (exists er, snd (v1_main_with all_v1fixes p md native c (Some file)) = Err er) \/
  exists out parse addr, snd (v1_main_with all_v1fixes p md native c (Some file)) = Ok out /\
    elf_architecture file = ElfX86_64 /\ elf_endian file = RtLittle /\ has_section (elf_sections file) ".eh_frame" addr /\
    elf_eh_frame file = Some parse /\ v1_faultless c (parse (v1_setup_with all_v1fixes md file)).
Proof. exact v1_repaired_outcome. Qed.
Print Assumptions C83_repaired_outcome_partial.

Theorem C83_repaired_case :
  (forall m, file_typed (file_of m many)) /\ file_typed (file_of ElfX86_64 [cut_cfa]) /\
  (forall md, finished (snd (v1_main_with all_v1fixes some_texts1 md LE amd_column (Some (file_of ElfX86_64 [cut_cfa]))))) /\
  (forall md, snd (v1_main_with all_v1fixes some_texts1 md LE amd_column (Some (file_of ElfAarch64 [cut_cfa]))) = Err V1Machine) /\
  (forall md, snd (v1_main_with all_v1fixes some_texts1 md LE amd_column
     (Some (file_with ElfX86_64 RtLittle (eh_entries row_in_front)))) = Err (V1AsBefore V1RowOffset)).
Proof. exact many_outcome. Qed.
Print Assumptions C83_repaired_case.

(** * C60 The v1 tool labels its output with the input's architecture *)

(** On every machine. *)
Theorem C60_repaired_partial : forall md md' native p c file out, file_typed file ->
  snd (v1_main_with all_v1fixes p md native c (Some file)) = Ok out -> wf_mode md' -> rust_slice md' (out_sframe out) ->
  exists a sf, arch_of (elf_architecture file) = Some a /\ out_arch out = elf_architecture file /\ out_endian out = elf_endian file /\
    load md' (endian_of (elf_endian file)) (out_sframe out) = Ok sf /\ abi sf = abi_number a (elf_endian file).
Proof. exact v1_repaired_label. Qed.
Print Assumptions C60_repaired_partial.

Theorem C60_repaired_case :
  file_typed many_file /\ (exists out, snd many_out = Ok out /\ out_sframe out = many_bytes) /\ rust_slice rel64 many_bytes /\
  load rel64 LE many_bytes = Ok many_sf /\ abi many_sf = 3 /\ num_fdes many_sf = 12 /\ fst many_out <> [].
Proof. exact many_label. Qed.
Print Assumptions C60_repaired_case.

(** * C85 The first converter names registers by the file's architecture *)

(** If anything is printed.  [C60_repaired_case] prints something. *)
Theorem C85_repaired_partial : forall p md native c file, fst (v1_main_with all_v1fixes p md native c (Some file)) <> [] ->
  names_right (elf_architecture file) (fun pr r => v1_register (Printers1 pr (fun _ => "") (fun _ => "")) r) /\
  names_right (elf_architecture file) (fun pr r => rule_register (Printers1 pr (fun _ => "") (fun _ => "")) (elf_architecture file) r).
Proof. exact v1_repaired_names. Qed.
Print Assumptions C85_repaired_partial.

(** * C57 Base addresses are taken from the right sections *)
(** * C79 The parser is set up for the file's architecture *)

(** The setup is right for every file, and the tool looks at the file through that setup
    only. *)
Theorem C57_repaired_partial : forall md file,
  right_bases (elf_sections file) (ps_bases (v1_setup_with all_v1fixes md file)) /\
  right_setup (elf_architecture file) (v1_setup_with all_v1fixes md file).
Proof. exact v1_repaired_setup. Qed.
Print Assumptions C57_repaired_partial.

Theorem C79_repaired_partial : forall fx p md native c file file', same_when_set_up (v1_setup_with fx md file) file file' ->
  v1_main_with fx p md native c (Some file') = v1_main_with fx p md native c (Some file).
Proof. exact v1_repaired_parsed. Qed.
Print Assumptions C79_repaired_partial.

(** A file that can be read only with the right base address of [.got]. *)
Theorem C57_repaired_case : same_when_set_up (v1_setup_with all_v1fixes rel64 many_file) many_file misread /\
  snd (v1_main_with no_v1fixes some_texts1 rel64 LE many_columns (Some misread)) = Err (V1AsBefore (V1Entry (GimliError 1))) /\
  finished (snd (v1_main_with all_v1fixes some_texts1 rel64 LE many_columns (Some misread))).
Proof. exact misread_same. Qed.
Print Assumptions C57_repaired_case.

(** * C55 The first-generation tool tolerates zero-width rows *)

(** Three of the repairs are enough, whatever the second converter is asked to do, ... *)
Theorem C55_repaired_partial : forall fx p m md md' op c eh s, repairs_stops fx -> eh_typed eh -> dwarf2sframe md op eh = Ok s ->
  exists s', snd (v1_convert_with fx p m md' c (eh_entries eh)) = Ok s'.
Proof. exact v1_follows_stops. Qed.
Print Assumptions C55_repaired_partial.

(** ... and each of them is needed for this. *)
Theorem C55_repaired_case :
  repairs_stops three_fixes /\ eh_typed (of_functions stops_fns) /\ (exists s, dwarf2sframe rel64 amd (of_functions stops_fns) = Ok s) /\
  but_one fn_prologue (V1Fixes false false true false true false false false false false) /\
  but_one (at_row 0x4000 (CfaReg 7 8) [(6, RExpression cut_expr); (16, ROffset (-8))]) (V1Fixes true false false false true false false false false false) /\
  but_one (DwFde 0xc000 0x10 (Insns [IDefCfaExpression cut_expr] None) (rows_ok [amd_row 0xc000 0xc010 7 8 RUndefined]))
    (V1Fixes true false true false false false false false false false).
Proof. exact stops_case. Qed.
Print Assumptions C55_repaired_case.

(** With all repairs in both converters. *)
Theorem C55_both_repaired_partial : forall fx p m md md' op c eh s, repairs_rows fx -> eh_typed eh -> op_arch op = Amd64 ->
  dwarf2sframe_repaired md op c eh = Ok s -> exists s', snd (v1_convert_with fx p m md' c (eh_entries eh)) = Ok s'.
Proof. exact v1_follows_repaired. Qed.
Print Assumptions C55_both_repaired_partial.

Theorem C55_both_repaired_case :
  repairs_rows all_v1fixes /\ eh_typed (of_functions many) /\ op_arch amd = Amd64 /\
  exists s, dwarf2sframe_repaired rel64 amd many_columns (of_functions many) = Ok s.
Proof. exact all_follow_case. Qed.
Print Assumptions C55_both_repaired_case.

(** * C95 A stack is walked with a section of the first tool as with DWARF *)

(** Written and looked up with the repairs of [WriteRepaired.v] and [ReadRepaired.v]. *)
Theorem C95_repaired_partial : forall fx p m md md' md'' c eh s e bs w, repairs_rows fx -> eh_typed eh ->
  snd (v1_convert_with fx p m md c (eh_entries eh)) = Ok s ->
  build_repaired md' e s = Ok bs -> wf_mode md'' -> rust_slice md'' bs ->
  (forall f, last_at eh f -> rows_disjoint f /\ rows_cover f) ->
  exists sf, load md'' e bs = Ok sf /\ same_link_walks w Amd64 (dw_says eh c) (looked_up_whole md'' e sf).
Proof. exact v1_repaired_walks. Qed.
Print Assumptions C95_repaired_partial.

(** A function that saves RBP, called by one with RBP in RBX, called by one with a frame:
    where the frame pointer cannot be told the look-up says so. *)
Theorem C95_repaired_case :
  eh_typed (of_rows saved_rows) /\
  snd (v1_convert_with all_v1fixes some_texts1 ElfX86_64 rel64 amd_column (eh_entries (of_rows saved_rows))) = Ok saved_sfb /\
  build_repaired rel64 LE saved_sfb = Ok saved_bytes /\ load rel64 LE saved_bytes = Ok saved_sf /\
  wf_mode rel64 /\ rust_slice rel64 saved_bytes /\
  (forall f, last_at (of_rows saved_rows) f -> rows_disjoint f /\ rows_cover f) /\
  same_link_point_exact Amd64 saved_start (LkFrame true 0x3004 0x100 (Some 0x40) None) /\
  (exists l, walk (dw_step saved_world Amd64 (dw_says (of_rows saved_rows) amd_column)) saved_start l /\
     map dx_pc l = [0x1004; 0x2004; 0x1005]) /\
  (exists m, walk (lk_step saved_world (looked_up_whole rel64 LE saved_sf)) (LkFrame true 0x3004 0x100 (Some 0x40) None) m /\
     map lx_pc m = [0x1004]) /\
  looked_up_whole rel64 LE saved_sf 0x1003 (Unwind Fp false None None None) /\
  dw_says (of_rows saved_rows) amd_column 0x1003 moved_row 16 /\ inexpressible Amd64 moved_row 16.
Proof. exact saved_case. Qed.
Print Assumptions C95_repaired_case.

(** * C96 Both converters produce equivalent sections *)

(** At every address, for every program that both convert. *)
Theorem C96_repaired_partial : forall fx p m md md2 md' md'' op c eh s1 s2 e1 e2 bs1 bs2, repairs_rows fx -> op_arch op = Amd64 -> eh_typed eh ->
  snd (v1_convert_with fx p m md c (eh_entries eh)) = Ok s1 -> dwarf2sframe_repaired md2 op c eh = Ok s2 ->
  build_repaired md' e1 s1 = Ok bs1 -> build_repaired md' e2 s2 = Ok bs2 -> wf_mode md'' -> rust_slice md'' bs1 -> rust_slice md'' bs2 ->
  exists sf1 sf2, load md'' e1 bs1 = Ok sf1 /\ load md'' e2 bs2 = Ok sf2 /\
    (forall x, (exists u1, looked_up_whole md'' e1 sf1 x u1) <-> exists u2, looked_up_whole md'' e2 sf2 x u2) /\
    (forall x u1 u2, looked_up_whole md'' e1 sf1 x u1 -> looked_up_whole md'' e2 sf2 x u2 -> agree u1 u2).
Proof. exact both_repaired_agree. Qed.
Print Assumptions C96_repaired_partial.

Theorem C96_repaired_case :
  repairs_rows all_v1fixes /\ op_arch amd = Amd64 /\ eh_typed (of_rows saved_rows) /\
  snd (v1_convert_with all_v1fixes some_texts1 ElfX86_64 rel64 amd_column (eh_entries (of_rows saved_rows))) = Ok saved_sfb /\
  dwarf2sframe_repaired rel64 amd amd_column (of_rows saved_rows) = Ok saved_sfb2 /\
  build_repaired rel64 LE saved_sfb = Ok saved_bytes /\ build_repaired rel64 LE saved_sfb2 = Ok saved_bytes2 /\ wf_mode rel64 /\
  rust_slice rel64 saved_bytes /\ rust_slice rel64 saved_bytes2 /\ saved_bytes <> saved_bytes2 /\
  load rel64 LE saved_bytes = Ok saved_sf /\ load rel64 LE saved_bytes2 = Ok saved_sf2 /\
  (exists u, looked_up_whole rel64 LE saved_sf 0x3004 u /\ looked_up_whole rel64 LE saved_sf2 0x3004 u /\ uw_cfa u = Some 24) /\
  exists u1 u2, looked_up_whole rel64 LE saved_sf 0x1003 u1 /\ looked_up_whole rel64 LE saved_sf2 0x1003 u2 /\
    uw_cfa u1 = None /\ uw_cfa u2 = None.
Proof. exact both_agree_case. Qed.
Print Assumptions C96_repaired_case.
