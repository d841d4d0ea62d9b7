(** Concrete stacks walked by looking addresses up (C142). *)
From Verif Require Export WalkLook.
From Verif Require Import ConvProps ConvWitness ToolsProps ToolsWitness WalkFacts WalkWitness.

Definition astray_world : world := world_of [(0x220, 0x2021); (0x210, 0x7777)].
Definition astray_start : dw_frame := frame_of 0x2008 [(7, 0x210); (6, 0x300)].
Definition astray_walk : list sf_frame := [SfFrame false 0x7777 0x218 (Some 0x300)].

Lemma astray_dwarf l : walk (dw_step astray_world Amd64 (dw_says sample amd_column)) astray_start l -> map dx_pc l <> map sx_pc astray_walk.
Proof.
  intros H E. destruct l as [|y [|z l]]; try discriminate. injection E as E. inversion H as [|? ? ? S1 H1]; subst.
  apply (dw_step_at _ _ _ _ _ _ fn_plt (amd_row 0x2006 0x2010 7 24 RUndefined)) in S1.
  - destruct S1 as (cfa & v & A1 & A2 & _ & _ & A3 & _). cbn in A1. injection A1 as <-. cbn in A2. injection A2 as <-.
    specialize (A3 (not_signed_amd _)). congruence.
  - intros g Hg Hin. vm_compute in Hg. destruct Hg as [<-|[<-|[]]]; [|reflexivity]. vm_compute in Hin. destruct Hin as [_ Hin]. discriminate.
  - intros q Hq Hin. cbn in Hq. repeat (destruct Hq as [<-|Hq]; [cbn in Hin; try lia; try reflexivity|]). destruct Hq.
Qed.

Theorem lookups_go_astray :
  eh_typed sample /\ dwarf2sframe rel64 amd sample = Ok sample_sfb /\
  build rel64 LE sample_sfb = Ok (sample_bytes LE) /\ load rel64 LE (sample_bytes LE) = Ok sample_sf /\ within_i32 sample_sfb /\
  (forall f, last_at sample f -> rows_disjoint f /\ rows_cover f /\
     forall r, In r (wide_rows f) -> ~ clash Amd64 (fixed_ra_of amd sample) r /\ plain_row Amd64 r (amd_column f)) /\
  ((exists l, walk (dw_step sample_world Amd64 (dw_says sample amd_column)) sample_start l /\
      map dx_pc l = [0x2009; 0x2021; 0x1011]) /\
   forall y, ~ sf_step sample_world (looked_up no_repairs rel64 LE sample_sf) (SfFrame true 0x1010 0x100 (Some 0x200)) y) /\
  (exists y, dw_step astray_world Amd64 (dw_says sample amd_column) astray_start y /\ dx_pc y = 0x2021) /\
  walk (sf_step astray_world (looked_up no_repairs rel64 LE sample_sf)) (SfFrame true 0x2008 0x210 (Some 0x300)) astray_walk /\
  ~ same_walks astray_world Amd64 (dw_says sample amd_column) (looked_up no_repairs rel64 LE sample_sf).
Proof.
  destruct sample_walks as (H1 & H2 & H3 & _ & _ & H4 & H5 & _).
  assert (HW : walk (sf_step astray_world (looked_up no_repairs rel64 LE sample_sf)) (SfFrame true 0x2008 0x210 (Some 0x300)) astray_walk).
  { apply walk_step; [|apply walk_end]. exists (Unwind Sp false (Some 8) (Some (-8)) None), 0x210, 8, (-8), 0x7777.
    split; [split; [vm_compute; split; discriminate|vm_compute; reflexivity]|]. repeat split. }
  split; [exact H1|]. split; [exact H2|]. split; [exact H3|]. split; [vm_compute; reflexivity|].
  split; [intros b Hb; vm_compute in Hb; repeat (destruct Hb as [<-|Hb]; [vm_compute; discriminate|]); destruct Hb|].
  split; [exact H4|]. split; [split; [exact H5|]|].
  { intros y (u & b & c & o & v & [_ H] & _). vm_compute in H. discriminate. }
  split; [|split; [exact HW|]].
  - eexists. split; [apply (steps_of _ _ fn_plt (amd_row 0x2006 0x2010 7 24 RUndefined) _ 0x228 0x2021);
      [apply sample_last_plt|cbn; tauto|unfold in_range; cbn; lia|cbn; lia|reflexivity|reflexivity]|reflexivity].
  - apply (not_same _ _ _ _ astray_start (SfFrame true 0x2008 0x210 (Some 0x300)) astray_walk); [reflexivity| |exact HW|apply astray_dwarf].
    repeat split.
Qed.

Theorem look_walks_case :
  eh_typed sample /\ dwarf2sframe rel64 amd sample = Ok sample_sfb /\
  build rel64 LE sample_sfb = Ok (sample_bytes LE) /\ wf_mode rel64 /\ rust_slice rel64 (sample_bytes LE) /\ within_i32 sample_sfb /\
  (forall f, last_at sample f -> rows_disjoint f /\ rows_cover f /\
     forall r, In r (wide_rows f) -> ~ clash Amd64 (fixed_ra_of amd sample) r /\ plain_row Amd64 r (amd_column f)) /\
  exists m, walk (sf_step sample_world (looked_up all_repairs rel64 LE sample_sf)) (SfFrame true 0x1010 0x100 (Some 0x200)) m /\
    map sx_pc m = [0x2009; 0x2021].
Proof.
  destruct sample_walks as (H1 & H2 & H3 & H4 & H5 & H6 & _). do 5 (split; [assumption|]). split; [apply lookups_go_astray|].
  split; [exact H6|]. exists [SfFrame false 0x2009 0x210 (Some 0x300); SfFrame false 0x2021 0x228 (Some 0x300)]. split; [|reflexivity].
  apply walk_step; [|apply walk_step; [|apply walk_end]].
  - exists (Unwind Fp false (Some 16) (Some (-8)) (Some (-16))), 0x200, 16, (-8), 0x2009.
    split; [split; [vm_compute; split; discriminate|vm_compute; reflexivity]|repeat split].
  - exists (Unwind Sp false (Some 24) (Some (-8)) None), 0x210, 24, (-8), 0x2021.
    split; [split; [vm_compute; split; discriminate|vm_compute; reflexivity]|repeat split].
Qed.

(** A leaf that calls itself: one function with one row. *)
Definition leaf_eh : eh_frame := of_rows [amd_row 0x1000 0x1010 7 8 RUndefined].
Definition leaf_sfb : sfb := Eval vm_compute in got (dwarf2sframe rel64 amd leaf_eh).
Definition leaf_bytes : bytes := Eval vm_compute in section LE leaf_sfb.
Definition leaf_sf : sframe := Eval vm_compute in get_ok dummy_sf (load rel64 LE leaf_bytes).
Definition leaf_world : world := world_of [(0x100, 0x1005); (0x108, 0x1009)].

Theorem one_row_case :
  eh_typed leaf_eh /\ dwarf2sframe rel64 amd leaf_eh = Ok leaf_sfb /\
  build rel64 LE leaf_sfb = Ok leaf_bytes /\ wf_mode rel64 /\ rust_slice rel64 leaf_bytes /\ within_i32 leaf_sfb /\
  overflow_checks rel64 = false /\ only_one_row leaf_sfb /\
  (forall f, last_at leaf_eh f -> rows_disjoint f /\ rows_cover f /\
     forall r, In r (wide_rows f) -> ~ clash Amd64 (fixed_ra_of amd leaf_eh) r /\ plain_row Amd64 r (amd_column f)) /\
  exists m, walk (sf_step leaf_world (looked_up no_repairs rel64 LE leaf_sf)) (SfFrame true 0x1004 0x100 (Some 0x200)) m /\
    map sx_pc m = [0x1005; 0x1009].
Proof.
  split; [typed_eh|]. split; [vm_compute; reflexivity|]. split; [vm_compute; reflexivity|]. split; [right; reflexivity|].
  split; [vm_compute; reflexivity|].
  split; [intros b Hb; vm_compute in Hb; repeat (destruct Hb as [<-|Hb]; [vm_compute; discriminate|]); destruct Hb|].
  split; [reflexivity|]. split.
  { eexists _, _. split; [vm_compute; reflexivity|]. split; [vm_compute; reflexivity|]. split; [reflexivity|]. split.
    - intros (m & H1 & H2 & _). vm_compute in H1. injection H1 as <-. intuition discriminate.
    - intros (H & _). vm_compute in H. discriminate. }
  split.
  { intros f Hf. destruct (of_rows_fine _ _ Hf) as (H1 & H2 & H3). split; [exact H1|]. split; [exact H2|].
    intros r Hr. destruct (H3 r Hr) as [Hq ->]. destruct Hq as [<-|[]]. split; [apply not_clashing; vm_compute; intuition discriminate|].
    intros _. split; [left; reflexivity|]. split; [reflexivity|apply not_signed_amd]. }
  exists [SfFrame false 0x1005 0x108 (Some 0x200); SfFrame false 0x1009 0x110 (Some 0x200)]. split; [|reflexivity].
  apply walk_step; [|apply walk_step; [|apply walk_end]].
  - exists (Unwind Sp false (Some 8) (Some (-8)) None), 0x100, 8, (-8), 0x1005.
    split; [split; [vm_compute; split; discriminate|vm_compute; reflexivity]|repeat split].
  - exists (Unwind Sp false (Some 8) (Some (-8)) None), 0x108, 8, (-8), 0x1009.
    split; [split; [vm_compute; split; discriminate|vm_compute; reflexivity]|repeat split].
Qed.
