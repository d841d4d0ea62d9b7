(** A concrete program for C157. *)
From Verif Require Export ArmRunProps.
From Verif Require Import CfiWitness V1Witness ProgramWitness RunWitness ConvRepairedWitness.
Open Scope Z_scope.
Open Scope list_scope.

(** A function that signs its return address calls one that does not, which calls a leaf. *)
Definition ar_main : afunc := AFunc 0x1000 (AFrame true 4 10).
Definition ar_mid : afunc := AFunc 0x1100 (AFrame false 2 6).
Definition ar_leaf : afunc := AFunc 0x1200 (ALeaf 0x20 3).
Definition ar_fs : list afunc := [ar_main; ar_mid; ar_leaf].

Definition ar_main_rows : list dw_row :=
  [ DwRow 0x1000 0x1004 (CfaReg 31 0) []; DwRow 0x1004 0x1008 (CfaReg 31 0) [(34, RConstant 1)];
    DwRow 0x1008 0x1038 (CfaReg 31 32) [(30, ROffset (-24)); (29, ROffset (-32)); (34, RConstant 1)];
    DwRow 0x1038 0x103c (CfaReg 31 0) [(34, RConstant 1)]; DwRow 0x103c 0x1040 (CfaReg 31 0) [(34, RConstant 0)] ].
Definition ar_mid_rows : list dw_row :=
  [ DwRow 0x1100 0x1104 (CfaReg 31 0) []; DwRow 0x1104 0x1124 (CfaReg 31 16) [(30, ROffset (-8)); (29, ROffset (-16))];
    DwRow 0x1124 0x1128 (CfaReg 31 0) [] ].
Definition ar_leaf_rows : list dw_row :=
  [ DwRow 0x1200 0x1204 (CfaReg 31 0) []; DwRow 0x1204 0x1214 (CfaReg 31 32) []; DwRow 0x1214 0x1218 (CfaReg 31 0) [] ].
Definition ar_main_fde : dw_fde := DwFde 0x1000 0x40 (Insns (aprogram_of ar_main) None) (rows_ok ar_main_rows).
Definition ar_mid_fde : dw_fde := DwFde 0x1100 0x28 (Insns (aprogram_of ar_mid) None) (rows_ok ar_mid_rows).
Definition ar_leaf_fde : dw_fde := DwFde 0x1200 0x18 (Insns (aprogram_of ar_leaf) None) (rows_ok ar_leaf_rows).
Definition ar_eh : eh_frame := of_functions [ar_main_fde; ar_mid_fde; ar_leaf_fde].

Lemma ar_compiled : acompiled ar_fs (eh_entries ar_eh).
Proof.
  split; [reflexivity|]. split; [intros g H; cbn in H; intuition discriminate|]. constructor; [|constructor; [|constructor; [|constructor]]].
  - split; [reflexivity|]. split; [reflexivity|]. split; [reflexivity|].
    eexists ar_main_rows, _. split; [reflexivity|]. split; [vm_compute; reflexivity|]. unfold ar_main_rows. rows_agree.
  - split; [reflexivity|]. split; [reflexivity|]. split; [reflexivity|].
    eexists ar_mid_rows, _. split; [reflexivity|]. split; [vm_compute; reflexivity|]. unfold ar_mid_rows. rows_agree.
  - split; [reflexivity|]. split; [reflexivity|]. split; [reflexivity|].
    eexists ar_leaf_rows, _. split; [reflexivity|]. split; [vm_compute; reflexivity|]. unfold ar_leaf_rows. rows_agree.
Qed.

Lemma ar_moderate : amoderate ar_fs.
Proof.
  split; [|split; [|split]].
  - intros f Hf. cbn in Hf. destruct Hf as [<-|[<-|[<-|[]]]]; unfold af_wf, af_len, af_ret, af_save; cbn; unfold i32_max; lia.
  - repeat (constructor; [cbn; intuition discriminate|]). constructor.
  - intros f g a Hf Hg. cbn in Hf, Hg. destruct Hf as [<-|[<-|[<-|[]]]], Hg as [<-|[<-|[<-|[]]]]; unfold af_len, af_ret, af_save; cbn; intros;
      first [reflexivity|exfalso; lia].
  - vm_compute. discriminate.
Qed.

(** The run. *)
Definition ar_sign (v s : Z) : Z := v + 0x77 * 2 ^ 48.
Definition ar_strip (v : Z) : Z := v mod 2 ^ 48.
Definition ar_mem0 : Z -> Z := fun _ => 0.
Definition ar_mem1 : Z -> Z := put 0x7fe8 (ar_sign 0x400000 0x8000) (put 0x7fe0 0x1234 ar_mem0).
Definition ar_mem2 : Z -> Z := put 0x7fd8 0x101014 (put 0x7fd0 0x7fe0 ar_mem1).
Definition ar_begin : list lk_frame * athread := ([caller 0x400000 0x8000 0x1234], AThread 0x101000 0x8000 0x1234 0x400000 ar_mem0).
Definition ar_frames : list lk_frame := [caller 0x10110c 0x7fd0 0x7fd0; caller 0x101014 0x7fe0 0x7fe0; caller 0x400000 0x8000 0x1234].
Definition ar_now : athread := AThread 0x101208 0x7fb0 0x7fd0 0x10110c ar_mem2.

Lemma ar_signs : signs ar_sign ar_strip.
Proof. intros v s Hv. unfold canonical in Hv. unfold ar_sign, ar_strip. rewrite Z.mod_add by lia. apply Z.mod_small, Hv. Qed.
Lemma ar_low : loaded_low 0x100000 ar_fs.
Proof. intros f Hf. cbn in Hf. destruct Hf as [<-|[<-|[<-|[]]]]; unfold af_len, af_ret, af_save; cbn; lia. Qed.
Lemma ar_starts : astarts 0x100000 ar_fs 0x400000 ar_begin.
Proof. exists ar_main, 0x8000, 0x1234, ar_mem0. split; [left; reflexivity|]. split; [lia|reflexivity]. Qed.
Lemma two_kept a b v v' m lo : a < lo -> b < lo -> kept lo m (put a v (put b v' m)).
Proof. intros H H' x Hx. unfold put. destruct (Z.eqb_spec x a); [lia|]. destruct (Z.eqb_spec x b); [lia|reflexivity]. Qed.

Lemma ar_reaches : aruns ar_sign ar_strip 0x100000 ar_fs ar_begin (ar_frames, ar_now).
Proof.
  assert (I1 : In ar_main ar_fs) by (left; reflexivity). assert (I2 : In ar_mid ar_fs) by (right; left; reflexivity).
  assert (I3 : In ar_leaf ar_fs) by (right; right; left; reflexivity).
  eapply aruns_more.
  2: { apply (a_leaf ar_sign ar_strip 0x100000 ar_fs ar_frames ar_leaf 0x20 3 0 1 0x7fb0 0x7fd0 0x10110c ar_mem2 ar_mem2);
       [exact I3|reflexivity|lia|lia|intros a _; reflexivity]. }
  eapply aruns_more.
  2: { apply (a_sub ar_sign ar_strip 0x100000 ar_fs ar_frames ar_leaf 0x20 3 0x7fd0 0x7fd0 0x10110c ar_mem2); [exact I3|reflexivity|lia]. }
  eapply aruns_more.
  2: { apply (a_call ar_sign ar_strip 0x100000 ar_fs (tl ar_frames) ar_mid ar_leaf false 2 6 0 1 0x7fd0 0x7fd0 0x101014 ar_mem2);
       [exact I2|exact I3|reflexivity|lia|lia]. }
  eapply aruns_more.
  2: { apply (a_mov ar_sign ar_strip 0x100000 ar_fs (tl ar_frames) ar_mid false 2 6 0x7fd0 0x7fe0 0x101014 ar_mem2); [exact I2|reflexivity]. }
  eapply aruns_more.
  2: { apply (a_stp ar_sign ar_strip 0x100000 ar_fs (tl ar_frames) ar_mid false 2 6 0x7fe0 0x7fe0 0x101014 ar_mem1 ar_mem2);
       [exact I2|reflexivity|lia|reflexivity|reflexivity|apply two_kept; lia]. }
  eapply aruns_more.
  2: { apply (a_call ar_sign ar_strip 0x100000 ar_fs (tl (tl ar_frames)) ar_main ar_mid true 4 10 0 2 0x7fe0 0x7fe0 (ar_sign 0x400000 0x8000) ar_mem1);
       [exact I1|exact I2|reflexivity|lia|lia]. }
  eapply aruns_more.
  2: { apply (a_mov ar_sign ar_strip 0x100000 ar_fs (tl (tl ar_frames)) ar_main true 4 10 0x7fe0 0x1234 (ar_sign 0x400000 0x8000) ar_mem1); [exact I1|reflexivity]. }
  eapply aruns_more.
  2: { apply (a_stp ar_sign ar_strip 0x100000 ar_fs (tl (tl ar_frames)) ar_main true 4 10 0x8000 0x1234 (ar_sign 0x400000 0x8000) ar_mem0 ar_mem1);
       [exact I1|reflexivity|lia|reflexivity|reflexivity|apply two_kept; lia]. }
  eapply aruns_more.
  2: { apply (a_pac ar_sign ar_strip 0x100000 ar_fs (tl (tl ar_frames)) ar_main 4 10 0x8000 0x1234 0x400000 ar_mem0); [exact I1|reflexivity]. }
  apply aruns_none.
Qed.

Definition ar_world : world :=
  World (fun a => Some (ar_mem2 a)) (fun _ _ _ => None) ar_strip (fun first p => if first then p - 0x100000 else p - 0x100000 - 1) true.
Lemma ar_sees : asees ar_strip 0x100000 ar_world ar_now.
Proof. split; [reflexivity|]. split; [reflexivity|]. split; [reflexivity|]. intros p. right. reflexivity. Qed.
Lemma ar_outside d : last_at ar_eh d ->
  ~ in_range (df_start d) (df_len d) (0x400000 - 0x100000) /\ ~ in_range (df_start d) (df_len d) (0x400000 - 0x100000 - 1).
Proof.
  intros (pre & post & H & _). assert (Hd : In d [ar_main_fde; ar_mid_fde; ar_leaf_fde]) by (change [ar_main_fde; ar_mid_fde; ar_leaf_fde] with (functions (entries_of ar_eh)); rewrite H; apply in_or_app; right; left; reflexivity).
  cbn in Hd. destruct Hd as [<-|[<-|[<-|[]]]]; unfold in_range; cbn; lia.
Qed.

Definition ar_sfb : sfb := Eval vm_compute in
  match dwarf2sframe_repaired rel64 arm column_30 ar_eh with Ok s => s | _ => pac_sfb end.
Definition ar_bytes : bytes := Eval vm_compute in
  match build_repaired rel64 LE ar_sfb with Ok b => b | _ => [] end.

Lemma ar_typed : eh_typed ar_eh.
Proof. unfold ar_eh, ar_main_fde, ar_mid_fde, ar_leaf_fde. typed_eh. Qed.

(** Three calls deep in the leaf; and the functions of an unsigned program. *)
Theorem ar_case : eh_typed ar_eh /\ acompiled ar_fs (eh_entries ar_eh) /\ amoderate ar_fs /\
  signs ar_sign ar_strip /\ loaded_low 0x100000 ar_fs /\ astarts 0x100000 ar_fs 0x400000 ar_begin /\
  aruns ar_sign ar_strip 0x100000 ar_fs ar_begin (ar_frames, ar_now) /\ asees ar_strip 0x100000 ar_world ar_now /\
  (forall d, last_at ar_eh d ->
     ~ in_range (df_start d) (df_len d) (0x400000 - 0x100000) /\ ~ in_range (df_start d) (df_len d) (0x400000 - 0x100000 - 1)) /\
  dwarf2sframe_repaired rel64 arm column_30 ar_eh = Ok ar_sfb /\ build_repaired rel64 LE ar_sfb = Ok ar_bytes /\
  walk (lk_step ar_world (std_tells LE ar_bytes)) (frame_of_athread ar_now) ar_frames /\
  map lx_pc ar_frames = [0x10110c; 0x101014; 0x400000] /\ ar_mem2 0x7fe8 = 0x77000000400000.
Proof.
  pose proof ar_typed as T. pose proof ar_compiled as C. pose proof ar_moderate as M. pose proof ar_starts as S.
  pose proof ar_reaches as R. pose proof ar_sees as E. pose proof ar_outside as O. pose proof ar_signs as G. pose proof ar_low as L.
  assert (H1 : dwarf2sframe_repaired rel64 arm column_30 ar_eh = Ok ar_sfb) by (vm_compute; reflexivity).
  assert (H2 : build_repaired rel64 LE ar_sfb = Ok ar_bytes) by (vm_compute; reflexivity).
  do 11 (split; [assumption|]). split; [|split; reflexivity].
  destruct (acompiled_repaired ar_fs ar_eh T C M rel64 rel64 arm column_30 LE eq_refl (fun _ => eq_refl)) as (s & bs & Hc & Hb & Hw & _).
  assert (s = ar_sfb) as -> by congruence. assert (bs = ar_bytes) as -> by congruence.
  refine (proj2 (Hw _ _ _ _ _ _ _ _ G L _ S R E O _ ar_frames) _); [unfold canonical; lia|intros f o _ _ _; exact I|].
  exists []. symmetry. apply app_nil_r.
Qed.

(** Without the function that signs, for what holds of the converter as it is. *)
Definition ar_plain : list afunc := [ar_mid; ar_leaf].
Definition ar_plain_eh : eh_frame := of_functions [ar_mid_fde; ar_leaf_fde].
Definition ar_plain_begin : list lk_frame * athread := ([caller 0x400000 0x8000 0x1234], AThread 0x101100 0x8000 0x1234 0x400000 ar_mem0).
Definition ar_plain_mem : Z -> Z := put 0x7ff8 0x400000 (put 0x7ff0 0x1234 ar_mem0).
Definition ar_plain_now : athread := AThread 0x101104 0x7ff0 0x1234 0x400000 ar_plain_mem.

Theorem ar_plain_case : eh_typed ar_plain_eh /\ acompiled ar_plain (eh_entries ar_plain_eh) /\ amoderate ar_plain /\
  (forall f k n, In f ar_plain -> af_kind f <> AFrame true k n) /\ loaded_low 0x100000 ar_plain /\
  astarts 0x100000 ar_plain 0x400000 ar_plain_begin /\ aruns ar_sign ar_strip 0x100000 ar_plain ar_plain_begin (fst ar_plain_begin, ar_plain_now) /\
  saved ar_mid 4 /\ at_pc ar_plain_now = 0x100000 + af_start ar_mid + 4.
Proof.
  destruct ar_compiled as (_ & C2 & C3). destruct ar_moderate as (M1 & M2 & M3 & M4). pose proof ar_low as L.
  assert (Sub : forall f, In f ar_plain -> In f ar_fs) by (intros f Hf; right; exact Hf).
  split; [unfold ar_plain_eh, ar_mid_fde, ar_leaf_fde; typed_eh|].
  split. { split; [reflexivity|]. split; [intros g H; cbn in H; intuition discriminate|]. cbn in C3. inversion C3; subst. assumption. }
  split. { split; [intros f Hf; apply M1, Sub, Hf|]. split; [inversion M2; subst; assumption|].
    split; [intros f g a Hf Hg; apply M3; apply Sub; assumption|vm_compute; discriminate]. }
  split; [intros f k n Hf; cbn in Hf; destruct Hf as [<-|[<-|[]]]; discriminate|].
  split; [intros f Hf; apply L, Sub, Hf|].
  split; [exists ar_mid, 0x8000, 0x1234, ar_mem0; split; [left; reflexivity|split; [lia|reflexivity]]|].
  split; [|split; [cbn; lia|reflexivity]].
  eapply aruns_more; [apply aruns_none|].
  apply (a_stp ar_sign ar_strip 0x100000 ar_plain (fst ar_plain_begin) ar_mid false 2 6 0x8000 0x1234 0x400000 ar_mem0 ar_plain_mem);
    [left; reflexivity|reflexivity|lia|reflexivity|reflexivity|apply two_kept; lia].
Qed.

(** A frame of 128 bytes: the offsets are 128 and -128. *)
Definition ar_wide : afunc := AFunc 0x1100 (AFrame false 16 6).
Definition ar_wide_rows : list dw_row :=
  [ DwRow 0x1100 0x1104 (CfaReg 31 0) []; DwRow 0x1104 0x1124 (CfaReg 31 128) [(30, ROffset (-120)); (29, ROffset (-128))];
    DwRow 0x1124 0x1128 (CfaReg 31 0) [] ].
Definition ar_wide_eh : eh_frame := of_functions [DwFde 0x1100 0x28 (Insns (aprogram_of ar_wide) None) (rows_ok ar_wide_rows)].
Theorem ar_wide_case : eh_typed ar_wide_eh /\ acompiled [ar_wide] (eh_entries ar_wide_eh) /\ amoderate [ar_wide] /\
  forall k n, af_kind ar_wide <> AFrame true k n.
Proof.
  split; [unfold ar_wide_eh, ar_wide_rows; typed_eh|]. split.
  { split; [reflexivity|]. split; [intros g H; cbn in H; intuition discriminate|]. constructor; [|constructor].
    split; [reflexivity|]. split; [reflexivity|]. split; [reflexivity|].
    eexists ar_wide_rows, _. split; [reflexivity|]. split; [vm_compute; reflexivity|]. unfold ar_wide_rows. rows_agree. }
  split; [|discriminate]. split; [|split; [|split]].
  - intros f Hf. cbn in Hf. destruct Hf as [<-|[]]; unfold af_wf, af_len, af_ret, af_save; cbn; unfold i32_max; lia.
  - repeat (constructor; [cbn; intuition discriminate|]). constructor.
  - intros f g a Hf Hg. cbn in Hf, Hg. destruct Hf as [<-|[]], Hg as [<-|[]]; reflexivity.
  - vm_compute. discriminate.
Qed.
