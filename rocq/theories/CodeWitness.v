(** A run of the functions of CodeCheck.v. *)
From Verif Require Export CodeCheck.
From Verif Require Import BaseFacts ConvWitness CfiWitness V1Witness ProgramWitness RunWitness RunFacts CfiFacts WalkFacts.
Open Scope Z_scope.
Open Scope list_scope.

Definition cd_mem0 : Z -> Z := put 0x7000 0x400000 (fun _ => 0).
Definition cd_mem1 : Z -> Z := put 0x6ff8 0x1234 cd_mem0.
Definition cd_mem2 : Z -> Z := put 0x6ff0 0x77 cd_mem1.
Definition cd_mem3 : Z -> Z := put 0x6fd0 0x101010 cd_mem2.
Definition cd_mem4 : Z -> Z := put 0x6fc8 0x55 cd_mem3.
Definition cd_mem5 : Z -> Z := put 0x6fc0 0x12 cd_mem4.
Definition cd_mem6 : Z -> Z := put 0x6ef8 0x10104e cd_mem5.
Definition cd_mem7 : Z -> Z := put 0x6ef0 0x6fc8 cd_mem6.
Definition cd_frame0 : sf_frame := SfFrame false 0x400000 0x7008 (Some 0x1234).
Definition cd_frame1 : sf_frame := SfFrame false 0x101010 0x6fd8 (Some 0x55).
Definition cd_frame2 : sf_frame := SfFrame false 0x10104e 0x6f00 (Some 0x6fc8).
Definition cd_begin : list sf_frame * thread := ([cd_frame0], Thread 0x101000 0x7000 0x1234 cd_mem0).
Definition cd_frames : list sf_frame := [cd_frame2; cd_frame1; cd_frame0].
Definition cd_now : thread := Thread 0x101041 0x6ef0 0x6fc8 cd_mem7.

Lemma cd_begins : begins 0x100000 cd_fs 0x400000 cd_begin.
Proof. exists cd_saver, 0x7000, 0x1234, cd_mem0. split; [left; reflexivity|]. repeat split; lia. Qed.

Lemma cd_guard a : guarded 0x100000 cd_fs (0x100000 + 0x1040 + 6) [cd_frame1; cd_frame0] a -> 0x6f00 <= a.
Proof.
  intros G. inversion G as [pc c st|pc c st f o k Hf Ep Ho Ek|pc c st a' G']; subst.
  - cbn. lia.
  - destruct Hf as [<-|[<-|[]]]; cbn in Ep, Ho; [lia|]. assert (o = 6) by lia. subst o. injection Ek as <-. cbn. lia.
  - inversion G' as [pc c st|pc c st f o k Hf Ep Ho Ek|pc c st a' G'']; subst; [cbn; lia| |inversion G''].
    destruct Hf as [<-|[<-|[]]]; cbn in Ep, Ho; [|lia]. assert (o = 16) by lia. subst o. injection Ek as <-. cbn. lia.
Qed.

Ltac member := cbn; repeat (first [left; reflexivity|right]).
Lemma cd_reaches : goes 0x100000 cd_fs cd_begin (cd_frames, cd_now).
Proof.
  eapply goes_more.
  2: { apply (do_push_reg 0x100000 cd_fs cd_frames cd_roomy (Item 0 1 (Push 6)) 6 0x6ef8 0x6fc8 cd_mem6 cd_mem7);
       [member|member|reflexivity|lia|reflexivity|apply put_kept; lia]. }
  eapply goes_more.
  2: { apply (do_jump_fn 0x100000 cd_fs cd_frames cd_saver cd_roomy (Item 0x20 5 JumpFn) 0x6ef8 0x6fc8 cd_mem6); [member|member|member|reflexivity]. }
  eapply goes_more.
  2: { apply (do_any 0x100000 cd_fs cd_frames cd_saver (Item 0 2 (Any false false [2; 0x20])) false false [2; 0x20] 0x20 0x6ef8 0x6ef8 0x6fc8 0x6fc8 cd_mem6 cd_mem6);
       [member|member|reflexivity|member|reflexivity|reflexivity|lia|intros a _; split; [reflexivity|discriminate]]. }
  eapply goes_more.
  2: { apply (do_call_fn 0x100000 cd_fs [cd_frame1; cd_frame0] cd_roomy cd_saver (Item 9 5 CallFn) 0x6f00 0x6fc8 cd_mem5 cd_mem6);
       [member|member|member|reflexivity|lia|reflexivity|apply put_kept; lia]. }
  eapply goes_more.
  2: { apply (do_any 0x100000 cd_fs [cd_frame1; cd_frame0] cd_roomy (Item 6 3 (Any true false [9])) true false [9] 9 0x6fc0 0x6f00 0x6fc8 0x6fc8 cd_mem5 cd_mem5);
       [member|member|reflexivity|member|discriminate|reflexivity|lia|]. intros a G. split; [reflexivity|]. intros _. apply cd_guard, G. }
  eapply goes_more.
  2: { apply (do_push_reg 0x100000 cd_fs [cd_frame1; cd_frame0] cd_roomy (Item 4 2 (Push 12)) 12 0x6fc8 0x6fc8 cd_mem4 cd_mem5);
       [member|member|reflexivity|lia|discriminate|apply put_kept; lia]. }
  eapply goes_more.
  2: { apply (do_mov_fp 0x100000 cd_fs [cd_frame1; cd_frame0] cd_roomy (Item 1 3 MovFp) 0x6fc8 0x55 cd_mem4); [member|member|reflexivity]. }
  eapply goes_more.
  2: { apply (do_push_reg 0x100000 cd_fs [cd_frame1; cd_frame0] cd_roomy (Item 0 1 (Push 6)) 6 0x6fd0 0x55 cd_mem3 cd_mem4);
       [member|member|reflexivity|lia|reflexivity|apply put_kept; lia]. }
  eapply goes_more.
  2: { apply (do_call_fn 0x100000 cd_fs [cd_frame0] cd_saver cd_roomy (Item 11 5 CallFn) 0x6fd8 0x55 cd_mem2 cd_mem3);
       [member|member|member|reflexivity|lia|reflexivity|apply put_kept; lia]. }
  eapply goes_more.
  2: { apply (do_any 0x100000 cd_fs [cd_frame0] cd_saver (Item 8 3 (Any false true [11])) false true [11] 11 0x6fd8 0x6fd8 0x1234 0x55 cd_mem2 cd_mem2);
       [member|member|reflexivity|member|reflexivity|discriminate|lia|intros a _; split; [reflexivity|discriminate]]. }
  eapply goes_more.
  2: { apply (do_sub_sp 0x100000 cd_fs [cd_frame0] cd_saver (Item 4 4 (SubSp 24)) 24 0x6ff0 0x1234 cd_mem2); [member|member|reflexivity|lia]. }
  eapply goes_more.
  2: { apply (do_push_reg 0x100000 cd_fs [cd_frame0] cd_saver (Item 3 1 (Push 3)) 3 0x6ff8 0x1234 cd_mem1 cd_mem2);
       [member|member|reflexivity|lia|discriminate|apply put_kept; lia]. }
  eapply goes_more.
  2: { apply (do_push_reg 0x100000 cd_fs [cd_frame0] cd_saver (Item 2 1 (Push 6)) 6 0x7000 0x1234 cd_mem0 cd_mem1);
       [member|member|reflexivity|lia|reflexivity|apply put_kept; lia]. }
  eapply goes_more.
  2: { apply (do_any 0x100000 cd_fs [cd_frame0] cd_saver (Item 0 2 (Any false false [2; 0x20])) false false [2; 0x20] 2 0x7000 0x7000 0x1234 0x1234 cd_mem0 cd_mem0);
       [member|member|reflexivity|member|reflexivity|reflexivity|lia|intros a _; split; [reflexivity|discriminate]]. }
  apply goes_none.
Qed.

Definition cd_world : world :=
  World (fun a => Some (cd_mem7 a)) (fun _ _ _ => None) (fun v => v) (fun first p => if first then p - 0x100000 else p - 0x100000 - 1) true.
Lemma cd_sees : sees 0x100000 cd_world cd_now.
Proof. split; [reflexivity|]. split; [reflexivity|]. intros p. right. reflexivity. Qed.
Lemma cd_outside d : last_at cd_eh d ->
  ~ in_range (df_start d) (df_len d) (0x400000 - 0x100000) /\ ~ in_range (df_start d) (df_len d) (0x400000 - 0x100000 - 1).
Proof. intros Hd. apply cd_last in Hd. destruct Hd as [-> | ->]; unfold in_range; cbn; lia. Qed.

Definition cd_sfb : sfb := Eval vm_compute in got (dwarf2sframe rel64 amd cd_eh).
Definition cd_section : bytes := section LE cd_sfb.

Lemma cd_usual d : last_at cd_eh d -> Forall usual_row (dw_rows_of d).
Proof.
  intros Hd. apply cd_last in Hd. destruct Hd as [-> | ->].
  - change (dw_rows_of cd_saver_fde) with cd_saver_rows. unfold cd_saver_rows.
    repeat (apply Forall_cons); try apply Forall_nil; unfold usual_row, dr_register; cbn [dr_start dr_end dr_cfa dr_regs];
      (split; [lia|]); (split; [reflexivity|]); (split; [first [left; reflexivity|right; reflexivity]|]); do 2 eexists; (split; [reflexivity|lia]).
  - change (dw_rows_of cd_roomy_fde) with cd_roomy_rows. unfold cd_roomy_rows.
    repeat (apply Forall_cons); try apply Forall_nil; unfold usual_row, dr_register; cbn [dr_start dr_end dr_cfa dr_regs];
      (split; [lia|]); (split; [reflexivity|]); (split; [first [left; reflexivity|right; reflexivity]|]); do 2 eexists; (split; [reflexivity|lia]).
Qed.
Lemma cd_fixed : fixed_ra_of amd cd_eh = None \/ fixed_ra_of amd cd_eh = Some (-8).
Proof. vm_compute. auto. Qed.
Lemma cd_unconfused c d : last_at cd_eh d -> follows_dwarf c d -> unconfused Amd64 (fixed_ra_of amd cd_eh) c d.
Proof.
  intros Hd F. exact (proj1 (usual_unconfused _ c d (last_len _ _ cd_typed Hd) (cd_usual d Hd) F cd_fixed)).
Qed.
Lemma cd_entries x : In x (entries_of cd_eh) -> match x with DwCie => True | DwBadFde _ => False
  | DwGoodFde f => ordinary amd cd_eh f /\ dump_fine rel64 amd f end.
Proof.
  intros Hx. destruct x as [|g|d]; [exact I|cbn in Hx; intuition discriminate|].
  assert (Hd : last_at cd_eh d) by (apply cd_last; cbn in Hx; destruct Hx as [E|[E|[E|[]]]]; first [discriminate E|left; congruence|right; congruence]).
  split.
  - assert (B : df_start d <= i32_max /\ df_len d <= 0x10000000) by (apply cd_last in Hd; destruct Hd as [-> | ->]; vm_compute; split; discriminate).
    split; [apply B|]. split; [apply B|]. exists usual_cie. split; [exact (cd_followed d Hd)|].
    exact (proj2 (proj2 (usual_unconfused _ usual_cie d (last_len _ _ cd_typed Hd) (cd_usual d Hd) (cd_followed d Hd) cd_fixed))).
  - apply cd_last in Hd. destruct Hd as [-> | ->]; (split; [intros (O & _); discriminate O|intros _; vm_compute; reflexivity]).
Qed.
Lemma cd_eh_apart : apart cd_eh.
Proof.
  intros d d' Hd Hd' Hne Hr. apply cd_last in Hd, Hd'. destruct Hd as [-> | ->], Hd' as [-> | ->]; unfold in_range in Hr; cbn in Hr, Hne; lia.
Qed.

Theorem cd_case : eh_typed cd_eh /\ ents_end (eh_entries cd_eh) = None /\
  (forall x, In x (entries_of cd_eh) -> match x with DwCie => True | DwBadFde _ => False
     | DwGoodFde f => ordinary amd cd_eh f /\ dump_fine rel64 amd f end) /\
  apart cd_eh /\ countable (function_count cd_eh) (table_rows cd_eh) /\
  (forall c d, last_at cd_eh d -> follows_dwarf c d -> unconfused Amd64 (fixed_ra_of amd cd_eh) c d) /\
  programs_followed cd_eh (fun _ => usual_cie) /\ (forall f, In f cd_fs -> checked f) /\ routines_apart cd_fs /\
  code_described cd_eh (fun _ => usual_cie) cd_fs /\
  begins 0x100000 cd_fs 0x400000 cd_begin /\ goes 0x100000 cd_fs cd_begin (cd_frames, cd_now) /\ sees 0x100000 cd_world cd_now /\
  (forall d, last_at cd_eh d ->
     ~ in_range (df_start d) (df_len d) (0x400000 - 0x100000) /\ ~ in_range (df_start d) (df_len d) (0x400000 - 0x100000 - 1)) /\
  dwarf2sframe rel64 amd cd_eh = Ok cd_sfb /\ build rel64 LE cd_sfb = Ok cd_section /\
  walk (sf_step cd_world (std_tells LE cd_section)) (frame_of_thread cd_now) cd_frames /\
  map sx_pc cd_frames = [0x10104e; 0x101010; 0x400000] /\ map sx_fp cd_frames = [Some 0x6fc8; Some 0x55; Some 0x1234].
Proof.
  pose proof cd_typed as T. pose proof cd_entries as X. pose proof cd_eh_apart as A. pose proof cd_unconfused as U. pose proof cd_followed as F.
  pose proof cd_checked as C. pose proof cd_apart as A'. pose proof cd_described as D. pose proof cd_begins as B. pose proof cd_reaches as R.
  pose proof cd_sees as E. pose proof cd_outside as O.
  assert (K : countable (function_count cd_eh) (table_rows cd_eh)) by (vm_compute; split; discriminate).
  assert (N : ents_end (eh_entries cd_eh) = None) by reflexivity.
  assert (H1 : dwarf2sframe rel64 amd cd_eh = Ok cd_sfb) by (vm_compute; reflexivity).
  assert (H2 : build rel64 LE cd_sfb = Ok cd_section) by (vm_compute; reflexivity).
  do 16 (split; [assumption|]). split; [|split; reflexivity].
  destruct (code_converted rel64 rel64 amd cd_eh LE (fun _ => usual_cie) cd_fs T eq_refl N X A K U F C A' D) as (s & bs & Hc & Hb & Hw & _).
  assert (s = cd_sfb) as -> by congruence. assert (bs = cd_section) as -> by congruence.
  apply (Hw _ _ _ _ _ _ B R E O). exists []. symmetry. apply app_nil_r.
Qed.
