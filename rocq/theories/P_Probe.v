(** C154: the stack probes of notes.md. *)
From Verif Require Import ProbeFacts ConvWitness CfiWitness.

(** * C154 The stack probe proposed in notes.md can be unwound and does what the other does *)

(** The notes say that SFrame cannot describe the usual stack probe, whose CFA is relative to
    [r11], and that the code could be changed to work with SFrame by using [rbp].  In full: for
    all contents of the registers and of memory, at every instruction of the proposed code the
    converted section leads to the caller's frame, and in the end stack and frame pointer are
    what the usual probe leaves.  This is false: the last instruction loads [rbp] from
    [rsp-0x4000], where it has not been saved, and then the caller's frame pointer is lost. *)
Theorem C154_restore_refuted : forall md md' md'' op e s bs,
  op_arch op = Amd64 -> dwarf2sframe md op rbp_eh = Ok s -> build md' e s = Ok bs -> wf_mode md'' -> rust_slice md'' bs ->
  both_tell md'' e bs (fun tells => forall x0, begins x0 -> exists x, reaches (rbp_probe notes_disp) x0 x /\ c_pc x = 0x591a /\
    c_fp x = c_mem x0 (plus64 (c_sp x0) (-0x8000)) /\
    (c_mem x0 (plus64 (c_sp x0) (-0x8000)) <> c_fp x0 -> ~ sf_step (world_now x) tells (frame_now x) (caller x0))) /\
  exists x0, begins x0 /\ c_mem x0 (plus64 (c_sp x0) (-0x8000)) <> c_fp x0.
Proof. exact notes_wrong. Qed.
Print Assumptions C154_restore_refuted.

(** Up to that instruction it is true, whatever the instruction loads. *)
Theorem C154_unwinds_partial : forall d md md' md'' op e s bs,
  op_arch op = Amd64 -> dwarf2sframe md op rbp_eh = Ok s -> build md' e s = Ok bs -> wf_mode md'' -> rust_slice md'' bs ->
  both_tell md'' e bs (fun tells => forall x0 x, begins x0 -> reaches (rbp_probe d) x0 x ->
    (c_pc x <> 0x591a -> unwinds tells x (caller x0)) /\
    (c_pc x = 0x591a -> unwinds tells x (SfFrame false (c_mem x0 (c_sp x0)) (plus64 (c_sp x0) 8) (Some (c_fp x))))).
Proof. exact rbp_unwound. Qed.
Print Assumptions C154_unwinds_partial.

(** What the notes say of the usual probe is true.  No SFrame row is right for its loop; the
    converted section says nothing there, and the truth everywhere else. *)
Theorem C154_no_row_partial : forall u, exists x0 x, begins x0 /\ reaches r11_probe x0 x /\ c_pc x = 0x58fc /\
  ~ sf_step (world_now x) (fun _ v => v = u) (frame_now x) (caller x0).
Proof. exact r11_hopeless. Qed.
Print Assumptions C154_no_row_partial.

Theorem C154_usual_partial : forall md md' md'' op e s bs,
  op_arch op = Amd64 -> dwarf2sframe md op r11_eh = Ok s -> build md' e s = Ok bs -> wf_mode md'' -> rust_slice md'' bs ->
  both_tell md'' e bs (fun tells => forall x0 x, begins x0 -> reaches r11_probe x0 x ->
    (0x58fc <= c_pc x < 0x590d -> stuck tells x) /\ (~ (0x58fc <= c_pc x < 0x590d) -> unwinds tells x (caller x0))).
Proof. exact r11_unwound. Qed.
Print Assumptions C154_usual_partial.

(** With [mov rbp, [rsp+0x3ff8]] in the end, which is where [push rbp] has put it, all of the
    claim is true. *)
Theorem C154_repaired_partial : forall md md' md'' op e s bs,
  op_arch op = Amd64 -> dwarf2sframe md op rbp_eh = Ok s -> build md' e s = Ok bs -> wf_mode md'' -> rust_slice md'' bs ->
  both_tell md'' e bs (fun tells => forall x0 x, begins x0 -> reaches (rbp_probe right_disp) x0 x -> unwinds tells x (caller x0)).
Proof. exact rbp_right. Qed.
Print Assumptions C154_repaired_partial.

Theorem C154_repaired_alike_partial : forall x0, begins x0 ->
  (exists x, reaches r11_probe x0 x /\ c_pc x = 0x590d) /\ (exists y, reaches (rbp_probe right_disp) x0 y /\ c_pc y = 0x591a) /\
  forall x y, reaches r11_probe x0 x -> c_pc x = 0x590d -> reaches (rbp_probe right_disp) x0 y -> c_pc y = 0x591a ->
    c_sp y = c_sp x /\ c_fp y = c_fp x /\ c_fp x = c_fp x0 /\ c_sp x = plus64 (c_sp x0) (-0x4000) /\
    forall a, a <> plus64 (c_sp x0) (-8) -> c_mem y a = c_mem x a.
Proof. exact probes_alike. Qed.
Print Assumptions C154_repaired_alike_partial.

(** The programs are those the rules come from, they are converted and written, the row of the
    loop is that of the notes, and the machine runs. *)
Theorem C154_case :
  op_arch amd = Amd64 /\ wf_mode rel64 /\
  follows_dwarf cie_amd r11_fde /\ last_at r11_eh r11_fde /\ dwarf2sframe rel64 amd r11_eh = Ok r11_sfb /\
  build rel64 LE r11_sfb = Ok r11_section /\ rust_slice rel64 r11_section /\
  follows_dwarf cie_amd rbp_fde /\ last_at rbp_eh rbp_fde /\ dwarf2sframe rel64 amd rbp_eh = Ok rbp_sfb /\
  build rel64 LE rbp_sfb = Ok rbp_section /\ rust_slice rel64 rbp_section /\
  (exists row, dwarf_says r11_eh 0x58fc row /\ dr_start row = 0x58fc /\ dr_end row = 0x590d /\ dr_cfa row = CfaReg 11 16392 /\
     dr_register row 16 = ROffset (-8)) /\
  exists x0 x y, begins x0 /\ reaches r11_probe x0 x /\ c_pc x = 0x5903 /\ reaches (rbp_probe right_disp) x0 y /\ c_pc y = 0x5904 /\
    c_sp x <> c_sp y /\ caller x0 = SfFrame false 0x401000 0x10008 (Some 7).
Proof. exact probe_case. Qed.
Print Assumptions C154_case.
