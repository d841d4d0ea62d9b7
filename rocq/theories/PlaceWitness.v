(** Concrete sections to which a function is added, and copies of copies (C145-C147). *)
From Verif Require Import EmitWitness ReadRepaired IterRepaired.
From Verif Require Export PlaceFacts CopyAgain CopyWitness.

(** ** C145 *)

(** The copy loses something, the copy of the copy nothing more. *)
Definition copied_twice (e : endian) (bs bs1 : bytes) : Prop :=
  rust_slice rel64 bs /\ load rel64 e bs = Ok (sf_of e bs) /\ copied rel64 rel64 e e (sf_of e bs) bs1 /\ bs1 <> bs /\
  rust_slice rel64 bs1 /\ load rel64 e bs1 = Ok (sf_of e bs1) /\ copied rel64 rel64 e e (sf_of e bs1) bs1.

Ltac twice_case e :=
  do 2 (split; [destruct e; vm_compute; reflexivity|]);
  split; [lazymatch goal with |- copied _ _ _ _ ?sf _ => exists (copy_sfb e sf); split; destruct e; vm_compute; reflexivity end|];
  split; [destruct e; vm_compute; discriminate|];
  do 2 (split; [destruct e; vm_compute; reflexivity|]);
  lazymatch goal with |- copied _ _ _ _ ?sf _ => exists (copy_sfb e sf); split; destruct e; vm_compute; reflexivity end.

Theorem twice_case e :
  copied_twice e (swapped e) (single e) /\
  copied_twice e (doubled e) (copy_bytes e (sf_of e (doubled e))) /\
  copied_twice e (wide e) (copy_bytes e (sf_of e (wide e))) /\
  copied_twice e (empty_sp e) (copy_bytes e (sf_of e (empty_sp e))).
Proof. split; [twice_case e|]. split; [twice_case e|]. split; twice_case e. Qed.

(** ** C146, C147 *)

Definition second_sfb : sfb := get_ok (sfb_new options_new) (add_fdes (sfb_new options_new) [demo_f2]).
Definition second (e : endian) : bytes := section e second_sfb.
Definition second_sf (e : endian) : sframe := sf_of e (second e).
Lemma second_sized md : sfb_sized md second_sfb.
Proof. eapply (ss_fde md (sfb_new options_new) demo_f2); [apply ss_new, or_new|apply demo_f2_sized|vm_compute; reflexivity]. Qed.

Definition third_row : unwind := Unwind Sp false (Some 24) (Some (-8)) (Some (-16)).

(** The sample is made by adding either function to the other. *)
Definition added_to (e : endian) (s : sfb) (b : fdb) : Prop :=
  sfb_reach rel64 s /\ fdb_reach b /\ sfb_fde s b = Ok demo_sfb /\ (forall c, ~ replaced s b c) /\
  build rel64 e s = Ok (section e s) /\ build rel64 e demo_sfb = Ok (demo e) /\
  rust_slice rel64 (section e s) /\ rust_slice rel64 (demo e) /\
  load rel64 e (section e s) = Ok (sf_of e (section e s)) /\ load rel64 e (demo e) = Ok (demo_sf e).
Lemma added_first e : added_to e second_sfb demo_f1.
Proof.
  split; [apply sfb_sized_reach, second_sized|]. split; [apply fdb_sized_reach, demo_f1_sized|]. split; [vm_compute; reflexivity|].
  split; [intros c H; vm_compute in H; discriminate|]. repeat (split; [destruct e; vm_compute; reflexivity|]). destruct e; vm_compute; reflexivity.
Qed.
Lemma added_second e : added_to e single_sfb demo_f2.
Proof.
  split; [apply sfb_sized_reach, single_sized|]. split; [apply fdb_sized_reach, demo_f2_sized|]. split; [vm_compute; reflexivity|].
  split; [intros c H; vm_compute in H; discriminate|]. repeat (split; [destruct e; vm_compute; reflexivity|]). destruct e; vm_compute; reflexivity.
Qed.

Theorem added_case e :
  added_to e second_sfb demo_f1 /\ added_to e single_sfb demo_f2 /\
  ~ in_range (fb_start demo_f2) (fb_size demo_f2) 0x104 /\ ~ in_range (fb_start demo_f1) (fb_size demo_f1) 0x204 /\
  says_at rel64 e (sf_of e (section e single_sfb)) 0x104 = [(KeyA, second_row)] /\ says_at rel64 e (demo_sf e) 0x104 = [(KeyA, second_row)] /\
  says_at rel64 e (second_sf e) 0x204 = [(KeyA, third_row)] /\ says_at rel64 e (demo_sf e) 0x204 = [(KeyA, third_row)].
Proof.
  split; [apply added_first|]. split; [apply added_second|].
  split; [intros [H _]; vm_compute in H; congruence|]. split; [intros [_ H]; vm_compute in H; discriminate|].
  repeat split; destruct e; vm_compute; reflexivity.
Qed.

(** The first function is no longer found once the second is there, and the second shows
    the row of the first once that is there. *)
Theorem added_lost e :
  (added_to e single_sfb demo_f2 /\ ~ in_range (fb_start demo_f2) (fb_size demo_f2) 0x100 /\
   Forall (fun md => lookup md e (sf_of e (section e single_sfb)) 0x100 = Ok (Some first_row) /\ lookup md e (demo_sf e) 0x100 = Ok None)
     [rel64; dev64; rel32; dev32]) /\
  (added_to e second_sfb demo_f1 /\ ~ in_range (fb_start demo_f1) (fb_size demo_f1) 0x204 /\
   Forall (fun md => lookup md e (second_sf e) 0x204 = Ok (Some third_row) /\ lookup md e (demo_sf e) 0x204 = Ok (Some first_row))
     [rel64; dev64; rel32; dev32]).
Proof.
  split.
  - split; [apply added_second|]. split; [intros [H _]; vm_compute in H; congruence|].
    repeat constructor; destruct e; vm_compute; reflexivity.
  - split; [apply added_first|]. split; [intros [_ H]; vm_compute in H; discriminate|].
    repeat constructor; destruct e; vm_compute; reflexivity.
Qed.

Theorem added_kept_case e :
  added_to e single_sfb demo_f2 /\
  lookup_key lib_rfixes rel64 e (sf_of e (section e single_sfb)) 0x104 = Ok (Some (KeyA, second_row)) /\
  lookup_key lib_rfixes rel64 e (demo_sf e) 0x104 = Ok (Some (KeyA, second_row)) /\
  near rel64 single_sfb 0x180 /\ near rel64 demo_sfb 0x180 /\
  (forall c, In c (fdes_of single_sfb) \/ In c (fdes_of demo_sfb) -> ~ in_range (fb_start c) (fb_size c) 0x180) /\
  lookup rel64 e (demo_sf e) 0x180 = Ok None.
Proof.
  split; [apply added_second|]. do 2 (split; [destruct e; vm_compute; reflexivity|]).
  split; [left; reflexivity|]. split; [left; reflexivity|]. split; [|destruct e; vm_compute; reflexivity].
  intros c H [A B]. vm_compute in H.
  destruct H as [H|H]; repeat (destruct H as [<-|H]; [vm_compute in A, B; congruence|]); destruct H.
Qed.
