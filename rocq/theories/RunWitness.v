(** A concrete program for C155. *)
From Verif Require Export RunFacts CfiWitness V1Witness ProgramWitness.
Open Scope Z_scope.
Open Scope list_scope.

(** One function that keeps a frame pointer and one that does not; they call each other. *)
Definition run_outer : func := Func 0x1000 (WithFp 26).
Definition run_inner : func := Func 0x1020 (WithoutFp 0x40 10).
Definition run_fs : list func := [run_outer; run_inner].

Definition run_outer_rows : list dw_row :=
  [ amd_row 0x1000 0x1001 7 8 RUndefined; amd_row 0x1001 0x1004 7 16 (ROffset (-16));
    amd_row 0x1004 0x101f 6 16 (ROffset (-16)); amd_row 0x101f 0x1020 7 8 (ROffset (-16)) ].
Definition run_inner_rows : list dw_row :=
  [ amd_row 0x1020 0x1027 7 8 RUndefined; amd_row 0x1027 0x1038 7 0x48 RUndefined; amd_row 0x1038 0x1039 7 8 RUndefined ].
Definition run_outer_fde : dw_fde := DwFde 0x1000 0x20 (Insns (program_of run_outer) None) (rows_ok run_outer_rows).
Definition run_inner_fde : dw_fde := DwFde 0x1020 0x19 (Insns (program_of run_inner) None) (rows_ok run_inner_rows).
Definition run_eh : eh_frame := of_functions [run_outer_fde; run_inner_fde].

Lemma run_compiled : compiled run_fs (eh_entries run_eh).
Proof.
  split; [reflexivity|]. split; [intros g H; cbn in H; intuition discriminate|]. constructor; [|constructor; [|constructor]].
  - split; [reflexivity|]. split; [reflexivity|]. split; [reflexivity|].
    eexists run_outer_rows, _. split; [reflexivity|]. split; [vm_compute; reflexivity|]. unfold run_outer_rows. rows_agree.
  - split; [reflexivity|]. split; [reflexivity|]. split; [reflexivity|].
    eexists run_inner_rows, _. split; [reflexivity|]. split; [vm_compute; reflexivity|]. unfold run_inner_rows. rows_agree.
Qed.

Lemma run_moderate : moderate run_fs.
Proof.
  split; [|split; [|split]].
  - intros f Hf. cbn in Hf. destruct Hf as [<-|[<-|[]]]; unfold fn_wf, fn_len, fn_ret; cbn; unfold i32_max; lia.
  - constructor; [cbn; intuition discriminate|]. constructor; [intros []|constructor].
  - intros f g a Hf Hg. cbn in Hf, Hg. destruct Hf as [<-|[<-|[]]], Hg as [<-|[<-|[]]]; unfold fn_len, fn_ret; cbn; intros; first [reflexivity|exfalso; lia].
  - vm_compute. discriminate.
Qed.

(** A run: [outer] is called, makes room, calls [inner], which calls [outer] again, which has
    just pushed the frame pointer. *)
Definition put (a v : Z) (m : Z -> Z) (x : Z) : Z := if x =? a then v else m x.
Definition run_mem0 : Z -> Z := put 0x7000 0x400000 (fun _ => 0).
Definition run_mem1 : Z -> Z := put 0x6ff8 0x1234 run_mem0.
Definition run_mem2 : Z -> Z := put 0x6fd8 0x10100d run_mem1.
Definition run_mem3 : Z -> Z := put 0x6f90 0x10102c run_mem2.
Definition run_mem4 : Z -> Z := put 0x6f88 0x6ff8 run_mem3.
Definition run_begin : list sf_frame * thread := ([SfFrame false 0x400000 0x7008 (Some 0x1234)], Thread 0x101000 0x7000 0x1234 run_mem0).
Definition run_frames : list sf_frame :=
  [ SfFrame false 0x10102c 0x6f98 (Some 0x6ff8); SfFrame false 0x10100d 0x6fe0 (Some 0x6ff8); SfFrame false 0x400000 0x7008 (Some 0x1234) ].
Definition run_now : thread := Thread 0x101001 0x6f88 0x6ff8 run_mem4.

Lemma put_kept a v m lo : a < lo -> kept lo m (put a v m).
Proof. intros H x Hx. unfold put. destruct (Z.eqb_spec x a); [lia|reflexivity]. Qed.

Lemma run_starts : starts 0x100000 run_fs 0x400000 run_begin.
Proof. exists run_outer, 0x7000, 0x1234, run_mem0. split; [left; reflexivity|]. repeat split; lia. Qed.

Lemma run_reaches : runs 0x100000 run_fs run_begin (run_frames, run_now).
Proof.
  eapply runs_more.
  2: { apply (do_push 0x100000 run_fs run_frames run_outer 26 0x6f90 0x6ff8 run_mem3 run_mem4);
       [left; reflexivity|reflexivity|lia|reflexivity|apply put_kept; lia]. }
  eapply runs_more.
  2: { apply (do_call 0x100000 run_fs (tl run_frames) run_inner run_outer 0 5 0x6f98 0x6ff8 run_mem2 run_mem3);
       [right; left; reflexivity|left; reflexivity|lia|cbn; lia|lia|reflexivity|apply put_kept; lia]. }
  eapply runs_more.
  2: { apply (do_sub 0x100000 run_fs (tl run_frames) run_inner 0x40 10 0x6fd8 0x6ff8 run_mem2); [right; left; reflexivity|reflexivity|lia]. }
  eapply runs_more.
  2: { apply (do_call 0x100000 run_fs (tl (tl run_frames)) run_outer run_inner 4 9 0x6fe0 0x6ff8 run_mem1 run_mem2);
       [left; reflexivity|right; left; reflexivity|lia|cbn; lia|lia|reflexivity|apply put_kept; lia]. }
  eapply runs_more.
  2: { apply (do_body_fp 0x100000 run_fs (tl (tl run_frames)) run_outer 26 0 4 0x6ff8 0x6fe0 0x6ff8 run_mem1 run_mem1);
       [left; reflexivity|reflexivity|lia|lia|lia|intros a _; reflexivity]. }
  eapply runs_more.
  2: { apply (do_mov 0x100000 run_fs (tl (tl run_frames)) run_outer 26 0x6ff8 0x1234 run_mem1); [left; reflexivity|reflexivity]. }
  eapply runs_more.
  2: { apply (do_push 0x100000 run_fs (tl (tl run_frames)) run_outer 26 0x7000 0x1234 run_mem0 run_mem1);
       [left; reflexivity|reflexivity|lia|reflexivity|apply put_kept; lia]. }
  apply runs_none.
Qed.

(** An unwinder that looks return addresses up one byte before. *)
Definition run_world : world :=
  World (fun a => Some (run_mem4 a)) (fun _ _ _ => None) (fun v => v) (fun first p => if first then p - 0x100000 else p - 0x100000 - 1) true.

Lemma run_sees : sees 0x100000 run_world run_now.
Proof. split; [reflexivity|]. split; [reflexivity|]. intros p. right. reflexivity. Qed.

Lemma run_outside d : last_at run_eh d ->
  ~ in_range (df_start d) (df_len d) (0x400000 - 0x100000) /\ ~ in_range (df_start d) (df_len d) (0x400000 - 0x100000 - 1).
Proof.
  intros (pre & post & H & _). assert (Hd : In d [run_outer_fde; run_inner_fde]) by (change [run_outer_fde; run_inner_fde] with (functions (entries_of run_eh)); rewrite H; apply in_or_app; right; left; reflexivity).
  cbn in Hd. destruct Hd as [<-|[<-|[]]]; unfold in_range; cbn; lia.
Qed.

Definition run_sfb : sfb := Eval vm_compute in got (dwarf2sframe rel64 amd run_eh).
Definition run_section : bytes := section LE run_sfb.

Lemma run_typed : eh_typed run_eh.
Proof. unfold run_eh, run_outer_fde, run_inner_fde. typed_eh. Qed.

Theorem run_case : eh_typed run_eh /\ compiled run_fs (eh_entries run_eh) /\ moderate run_fs /\
  starts 0x100000 run_fs 0x400000 run_begin /\ runs 0x100000 run_fs run_begin (run_frames, run_now) /\ sees 0x100000 run_world run_now /\
  (forall d, last_at run_eh d ->
     ~ in_range (df_start d) (df_len d) (0x400000 - 0x100000) /\ ~ in_range (df_start d) (df_len d) (0x400000 - 0x100000 - 1)) /\
  dwarf2sframe rel64 amd run_eh = Ok run_sfb /\ build rel64 LE run_sfb = Ok run_section /\
  walk (sf_step run_world (std_tells LE run_section)) (frame_of_thread run_now) run_frames /\
  map sx_pc run_frames = [0x10102c; 0x10100d; 0x400000].
Proof.
  pose proof run_typed as T. pose proof run_compiled as C. pose proof run_moderate as M. pose proof run_starts as S.
  pose proof run_reaches as R. pose proof run_sees as E. pose proof run_outside as O.
  assert (H1 : dwarf2sframe rel64 amd run_eh = Ok run_sfb) by (vm_compute; reflexivity).
  assert (H2 : build rel64 LE run_sfb = Ok run_section) by (vm_compute; reflexivity).
  do 9 (split; [assumption|]). split; [|reflexivity].
  destruct (compiled_walks run_fs run_eh T C M rel64 rel64 amd LE eq_refl) as (s & bs & Hc & Hb & Hw & _).
  assert (s = run_sfb) as -> by congruence. assert (bs = run_section) as -> by congruence.
  apply (Hw _ _ _ _ _ _ S R E O). exists []. symmetry. apply app_nil_r.
Qed.
