(** What it means that a stack can be unwound while a probe runs (C154). *)
From Verif Require Export Probe CfiSpec StdSpec ProgramSpec.
From Verif Require Import ConvWitness CfiWitness.
Open Scope Z_scope.
Open Scope list_scope.

(** What the machine comes to. *)
Inductive reaches (l : code) (x : cpu) : cpu -> Prop :=
| reaches_same : reaches l x x
| reaches_step y z : reaches l x y -> step probe_start l y = Some z -> reaches l x z.

(** A probe begins when its function does: the return address is on top of the stack. *)
Definition begins (x : cpu) : Prop := c_pc x = probe_start /\ in_u64 (c_sp x).
Definition caller (x : cpu) : sf_frame := SfFrame false (c_mem x (c_sp x)) (plus64 (c_sp x) 8) (Some (c_fp x)).

(** The stack and the registers at a moment. *)
Definition world_now (x : cpu) : world :=
  {| w_mem := fun a => Some (c_mem x a); w_eval := fun _ _ _ => None; w_strip := fun v => v;
     w_look := fun _ pc => pc; w_keep := true |}.
Definition frame_now (x : cpu) : sf_frame := SfFrame true (c_pc x) (c_sp x) (Some (c_fp x)).

(** Unwinding as [tells] says finds the frame [y], and nothing else; or nothing. *)
Definition unwinds (tells : Z -> unwind -> Prop) (x : cpu) (y : sf_frame) : Prop :=
  forall z, sf_step (world_now x) tells (frame_now x) z <-> z = y.
Definition stuck (tells : Z -> unwind -> Prop) (x : cpu) : Prop :=
  forall z, ~ sf_step (world_now x) tells (frame_now x) z.

(** Call frame programs for the two; behind the probe the functions go on for 16 bytes.  The
    row of the first for the loop is that of notes.md:22-24. *)
Definition r11_program : list insn :=
  [ IAdvanceLoc 8; IDefCfa 11 16392; IAdvanceLoc 17; IDefCfa 7 0x4008 ].
Definition r11_rows : list dw_row :=
  [ amd_row 0x58f4 0x58fc 7 8 RUndefined; amd_row 0x58fc 0x590d 11 16392 RUndefined;
    amd_row 0x590d 0x591d 7 0x4008 RUndefined ].
Definition r11_eh : eh_frame := of_functions [DwFde probe_start 0x29 (Insns r11_program None) (rows_ok r11_rows)].

Definition rbp_program : list insn :=
  [ IAdvanceLoc 1; IDefCfaOffset 16; IOffset 6 2; IAdvanceLoc 8; IDefCfa 6 0x4010; IAdvanceLoc 29;
    IDefCfa 7 0x4008; IRestore 6 ].
Definition rbp_rows : list dw_row :=
  [ amd_row 0x58f4 0x58f5 7 8 RUndefined; amd_row 0x58f5 0x58fd 7 16 (ROffset (-16));
    amd_row 0x58fd 0x591a 6 0x4010 (ROffset (-16)); amd_row 0x591a 0x592a 7 0x4008 RUndefined ].
Definition rbp_eh : eh_frame := of_functions [DwFde probe_start 0x36 (Insns rbp_program None) (rows_ok rbp_rows)].

(** The two ways of reading a section. *)
Definition both_tell (md : mode) (e : endian) (bs : bytes) (P : (Z -> unwind -> Prop) -> Prop) : Prop :=
  (exists sf, load md e bs = Ok sf /\ P (section_says md e sf)) /\ P (std_tells e bs).
