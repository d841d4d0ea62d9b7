(** Concrete built sections read through the iterators (C141). *)
From Verif Require Export IterLook CopyWitness.
From Verif Require Import EmitWitness.

(** The first function of the sample made smaller after its rows were added. *)
Definition cut_f : fdb := fdb_set_size 2 demo_f1.
Definition cut_sfb : sfb := get_ok (sfb_new options_new) (add_fdes (sfb_new options_new) [cut_f]).

Lemma cut_reach md : sfb_reach md cut_sfb.
Proof.
  apply (add_fdes_reach md [cut_f] (sfb_new options_new)); [repeat constructor| |vm_compute; reflexivity].
  apply Forall_cons; [|apply Forall_nil]. apply br_size; [in_range|]. apply fdb_sized_reach, demo_f1_sized.
Qed.

(** Of the section [s] builds, the iterators say [v] at [a], though [u] was asked for. *)
Definition says_other (e : endian) (s : sfb) (a : Z) (u : unwind) (v : option unwind) : Prop :=
  sfb_reach rel64 s /\ build rel64 e s = Ok (section e s) /\ load rel64 e (section e s) = Ok (sf_of e (section e s)) /\
  asked_with_key s a KeyA u /\ says_just e (sf_of e (section e s)) a v.

Ltac asked_by b r :=
  exists b, r; split; [vm_compute; auto|]; split; [vm_compute; split; [discriminate|reflexivity]|];
  split; [in_effect_by_cases|]; split; reflexivity.

(** A row with a value of both signs, a row with an offset for FP but not for RA, and a
    function with a row outside it. *)
Theorem iter_other e :
  says_other e tie_sfb 0x100 (Unwind Sp false (Some (-128)) (Some 128) None) (Some (Unwind Sp false (Some (-128)) (Some (-128)) None)) /\
  says_other e amb_sfb 0x100 (Unwind Sp false (Some 16) None (Some (-16))) (Some (Unwind Sp false (Some 16) (Some (-16)) None)) /\
  says_other e cut_sfb 0x100 first_row None.
Proof.
  split; [|split].
  - split; [apply sfb_sized_reach, tie_sized|]. do 2 (split; [destruct e; vm_compute; reflexivity|]).
    split; [|apply says_just_by; destruct e; vm_compute; reflexivity].
    asked_by (nth 0 (fdes_of tie_sfb) demo_f1) tie_row.
  - split; [apply sfb_sized_reach, amb_sized|]. do 2 (split; [destruct e; vm_compute; reflexivity|]).
    split; [|apply says_just_by; destruct e; vm_compute; reflexivity].
    asked_by (nth 0 (fdes_of amb_sfb) demo_f1) no_ra_row.
  - split; [apply cut_reach|]. do 2 (split; [destruct e; vm_compute; reflexivity|]).
    split; [|apply says_just_by; destruct e; vm_compute; reflexivity].
    asked_by cut_f (row3 0 8 (-8) (-16)).
Qed.

(** The sample with a third function: blocks of 8 bytes, signed with key B. *)
Definition stub_f : fdb :=
  fdb_set_pauth KeyB (fdb_pcmask 8 (get_ok (fdb_new options_new 0 0)
    (add_rows (fdb_new options_new 0x400 32) [row3 0 8 (-8) (-16); row3 4 16 (-8) (-16)]))).
Definition stub_sfb : sfb := get_ok (sfb_new options_new) (add_fdes (sfb_new options_new) [demo_f1; demo_f2; stub_f]).
Definition stub_bytes (e : endian) : bytes := section e stub_sfb.
Definition stub_sf (e : endian) : sframe := sf_of e (stub_bytes e).

Lemma stub_reach md : sfb_reach md stub_sfb.
Proof.
  apply (add_fdes_reach md [demo_f1; demo_f2; stub_f] (sfb_new options_new)); [repeat constructor| |vm_compute; reflexivity].
  repeat apply Forall_cons; [apply fdb_sized_reach, demo_f1_sized|apply fdb_sized_reach, demo_f2_sized| |apply Forall_nil].
  apply br_pauth, br_pcmask; [in_range|].
  apply (add_rows_reach [row3 0 8 (-8) (-16); row3 4 16 (-8) (-16)] (fdb_new options_new 0x400 32));
    [apply new_fde_reach; in_range|typed_rows|vm_compute; reflexivity].
Qed.

Theorem iter_case e :
  sfb_reach rel64 stub_sfb /\ build rel64 e stub_sfb = Ok (stub_bytes e) /\
  wf_mode rel64 /\ rust_slice rel64 (stub_bytes e) /\ load rel64 e (stub_bytes e) = Ok (stub_sf e) /\
  (forall b, In b (fdes_of stub_sfb) ->
     rows_inside b /\ fb_rep_size b <> Some 0 /\ forall r, In r (rows_of b) -> ~ tied r /\ ~ ambiguous (sb_options stub_sfb) r) /\
  says_at rel64 e (stub_sf e) 0x104 = [(KeyA, second_row)] /\
  says_at rel64 e (stub_sf e) 0x41b = [(KeyB, first_row)] /\
  says_at rel64 e (stub_sf e) 0x41d = [(KeyB, second_row)] /\ says_at rel64 e (stub_sf e) 0x420 = [].
Proof.
  split; [apply stub_reach|]. split; [destruct e; vm_compute; reflexivity|]. split; [apply wf_rel64|].
  split; [destruct e; vm_compute; reflexivity|]. split; [destruct e; vm_compute; reflexivity|].
  split; [|destruct e; vm_compute; auto].
  intros b Hb. vm_compute in Hb. repeat (destruct Hb as [<-|Hb]; [|]); try destruct Hb.
  all: split; [apply Forall_forall; intros r Hr; vm_compute in Hr; repeat (destruct Hr as [<-|Hr]; [vm_compute; auto|]); destruct Hr|].
  all: split; [discriminate|].
  all: intros r Hr; vm_compute in Hr; repeat (destruct Hr as [<-|Hr]; [split;
    [intros (m & H1 & H2 & _); vm_compute in H1; injection H1 as <-; vm_compute in H2; intuition discriminate|
     intros (_ & x & H1 & H2 & _); vm_compute in H1; injection H1 as <-; vm_compute in H2; discriminate]|]); destruct Hr.
Qed.
