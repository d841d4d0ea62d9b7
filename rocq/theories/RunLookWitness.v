(** The program of RunWitness.v, walked by looking addresses up (C156). *)
From Verif Require Export RunWitness RunLook WalkLookSpec.
Open Scope Z_scope.
Open Scope list_scope.

Definition run_sf : sframe := Eval vm_compute in get_ok dummy_sf (load rel64 LE run_section).

Lemma run_within f : In f run_fs -> fn_start f + fn_len f <= i32_max + 1 /\ fn_ret f <= 127.
Proof. intros Hf. cbn in Hf. destruct Hf as [<-|[<-|[]]]; vm_compute; intuition discriminate. Qed.

Lemma run_wf_mode : wf_mode rel64 /\ rust_slice rel64 run_section /\ overflow_checks rel64 = false.
Proof. split; [apply wf_rel64|]. split; [vm_compute; reflexivity|reflexivity]. Qed.

(** From the outer function nothing is found.  In the inner one, once it has made room, a word
    of its frame is taken for the return address. *)
Definition run_mem_inner (v : Z) : Z -> Z := put 0x6f98 v run_mem2.
Definition run_inner_now (v : Z) : thread := Thread 0x101028 0x6f98 0x6ff8 (run_mem_inner v).

Lemma run_reaches_inner v : runs 0x100000 run_fs run_begin (tl run_frames, run_inner_now v).
Proof.
  eapply runs_more.
  2: { apply (do_body 0x100000 run_fs (tl run_frames) run_inner 0x40 10 0 1 0x6f98 0x6ff8 run_mem2 (run_mem_inner v));
       [right; left; reflexivity|reflexivity|lia|lia|apply put_kept; lia]. }
  eapply runs_more.
  2: { apply (do_sub 0x100000 run_fs (tl run_frames) run_inner 0x40 10 0x6fd8 0x6ff8 run_mem2); [right; left; reflexivity|reflexivity|lia]. }
  eapply runs_more.
  2: { apply (do_call 0x100000 run_fs (tl (tl run_frames)) run_outer run_inner 4 9 0x6fe0 0x6ff8 run_mem1 run_mem2);
       [left; reflexivity|right; left; reflexivity|lia|cbn; lia|lia|reflexivity|apply put_kept; lia]. }
  eapply runs_more.
  2: { apply (do_body_fp 0x100000 run_fs (tl (tl run_frames)) run_outer 26 0 4 0x6ff8 0x6fe0 0x6ff8 run_mem1 run_mem1);
       [left; reflexivity|reflexivity|lia|lia|lia|intros a _; reflexivity]. }
  eapply runs_more.
  2: { apply (do_mov 0x100000 run_fs (tl (tl run_frames)) run_outer 26 0x6ff8 0x1234 run_mem1); [left; reflexivity|reflexivity]. }
  eapply runs_more.
  2: { apply (do_push 0x100000 run_fs (tl (tl run_frames)) run_outer 26 0x7000 0x1234 run_mem0 run_mem1);
       [left; reflexivity|reflexivity|lia|reflexivity|apply put_kept; lia]. }
  apply runs_none.
Qed.

Definition inner_world (v : Z) : world :=
  World (fun a => Some (run_mem_inner v a)) (fun _ _ _ => None) (fun x => x) (fun first p => if first then p - 0x100000 else p - 0x100000 - 1) true.

Lemma inner_astray v :
  sf_step (inner_world v) (looked_up no_repairs rel64 LE run_sf) (frame_of_thread (run_inner_now v)) (SfFrame false v 0x6fa0 (Some 0x6ff8)).
Proof.
  exists (Unwind Sp false (Some 8) (Some (-8)) None), 0x6f98, 8, (-8), v.
  split; [split; [vm_compute; intuition discriminate|vm_compute; reflexivity]|]. repeat split.
Qed.

Theorem run_astray : eh_typed run_eh /\ compiled run_fs (eh_entries run_eh) /\ moderate run_fs /\
  dwarf2sframe rel64 amd run_eh = Ok run_sfb /\ build rel64 LE run_sfb = Ok run_section /\ load rel64 LE run_section = Ok run_sf /\
  starts 0x100000 run_fs 0x400000 run_begin /\
  (runs 0x100000 run_fs run_begin (run_frames, run_now) /\ sees 0x100000 run_world run_now /\
   forall y, ~ sf_step run_world (looked_up no_repairs rel64 LE run_sf) (frame_of_thread run_now) y) /\
  (forall v, runs 0x100000 run_fs run_begin (tl run_frames, run_inner_now v) /\ sees 0x100000 (inner_world v) (run_inner_now v) /\
   sf_step (inner_world v) (looked_up no_repairs rel64 LE run_sf) (frame_of_thread (run_inner_now v)) (SfFrame false v 0x6fa0 (Some 0x6ff8))).
Proof.
  pose proof run_case as (H1 & H2 & H3 & H4 & H5 & H6 & _ & H7 & H8 & _).
  do 5 (split; [assumption|]). split; [vm_compute; reflexivity|]. split; [assumption|]. split.
  - do 2 (split; [assumption|]). intros y (u & b & c & o & v & [_ T] & _). vm_compute in T. discriminate.
  - intros v. split; [apply run_reaches_inner|]. split; [|apply inner_astray]. split; [reflexivity|]. split; [reflexivity|]. intros p. right. reflexivity.
Qed.

Theorem run_look_case : eh_typed run_eh /\ compiled run_fs (eh_entries run_eh) /\ moderate run_fs /\
  (forall f, In f run_fs -> fn_start f + fn_len f <= i32_max + 1 /\ fn_ret f <= 127) /\
  dwarf2sframe rel64 amd run_eh = Ok run_sfb /\ build rel64 LE run_sfb = Ok run_section /\
  wf_mode rel64 /\ rust_slice rel64 run_section /\ overflow_checks rel64 = false /\ In run_outer run_fs /\ load rel64 LE run_section = Ok run_sf /\
  walk (sf_step run_world (looked_up all_repairs rel64 LE run_sf)) (frame_of_thread run_now) run_frames.
Proof.
  pose proof run_case as (H1 & H2 & H3 & H4 & H5 & H6 & HO & H7 & H8 & _). pose proof run_wf_mode as (W1 & W2 & W3).
  do 3 (split; [assumption|]). split; [exact run_within|]. do 5 (split; [assumption|]). split; [left; reflexivity|]. split; [vm_compute; reflexivity|].
  destruct (compiled_looks run_fs run_eh H1 H2 H3 (fun f Hf => proj1 (run_within f Hf)) rel64 rel64 amd LE eq_refl) as (s & bs & Hc & Hb & Hw).
  assert (s = run_sfb) as -> by congruence. assert (bs = run_section) as -> by congruence.
  destruct (Hw rel64 W1 W2) as (sf & HL & HA). assert (E : Ok sf = Ok run_sf) by (rewrite <- HL; vm_compute; reflexivity).
  injection E as ->. apply (HA _ _ _ _ _ _ H4 H5 H6 HO). exists []. symmetry. apply app_nil_r.
Qed.
