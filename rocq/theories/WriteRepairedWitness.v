(** Concrete cases for [P_WriteRepaired]. *)
From Verif Require Export WriteRepairedFacts StdWitness IterLookWitness.

(** A far function, one signed with key B, an ordinary one, one with blocks, and one
    whose row is tied. *)
Definition tie_f : fdb := get_ok (fdb_new options_new 0 0) (add_rows (fdb_new options_new 0x500 16) [tie_row]).
Definition mixed_sfb : sfb :=
  get_ok (sfb_new options_new) (add_fdes (sfb_new options_new) [gap_low; signed; demo_f2; stub_f; tie_f]).
Definition mixed_bytes (e : endian) : bytes := get_ok [] (build_repaired dev64 e mixed_sfb).

Lemma tie_f_reach : fdb_reach tie_f.
Proof.
  apply (add_rows_reach [tie_row] (fdb_new options_new 0x500 16)); [apply new_fde_reach; in_range| |vm_compute; reflexivity].
  apply Forall_cons; [apply tie_typed|apply Forall_nil].
Qed.
Lemma stub_f_reach : fdb_reach stub_f.
Proof.
  apply br_pauth, br_pcmask; [in_range|].
  apply (add_rows_reach [row3 0 8 (-8) (-16); row3 4 16 (-8) (-16)] (fdb_new options_new 0x400 32));
    [apply new_fde_reach; in_range|typed_rows|vm_compute; reflexivity].
Qed.
Lemma mixed_reach md : sfb_reach md mixed_sfb.
Proof.
  apply (add_fdes_reach md [gap_low; signed; demo_f2; stub_f; tie_f] (sfb_new options_new)); [repeat constructor| |vm_compute; reflexivity].
  repeat apply Forall_cons; [apply new_fde_reach; in_range|apply br_pauth, fdb_sized_reach, demo_f1_sized|
    apply fdb_sized_reach, demo_f2_sized|apply stub_f_reach|apply tie_f_reach|apply Forall_nil].
Qed.

Ltac asked_key b r :=
  exists b, r; split; [vm_compute; auto 8|]; split; [vm_compute; split; [discriminate|reflexivity]|];
  split; [in_effect_by_cases|split; reflexivity].

(** Everything comes out as it was asked for. *)
Theorem mixed_case e :
  sfb_reach dev64 mixed_sfb /\ build_repaired dev64 e mixed_sfb = Ok (mixed_bytes e) /\
  std_says e (mixed_bytes e) 0x104 KeyB second_row /\
  std_says e (mixed_bytes e) 0x204 KeyA (Unwind Sp false (Some 24) (Some (-8)) (Some (-16))) /\
  std_says e (mixed_bytes e) 0x41b KeyB first_row /\
  std_says e (mixed_bytes e) 0x41d KeyB second_row /\
  std_says e (mixed_bytes e) 0x508 KeyA (Unwind Sp false (Some (-128)) (Some 128) None) /\
  forall k u, ~ std_says e (mixed_bytes e) 0x420 k u.
Proof.
  pose proof (mixed_reach dev64) as HR.
  assert (HB : build_repaired dev64 e mixed_sfb = Ok (mixed_bytes e)) by (destruct e; vm_compute; reflexivity).
  split; [exact HR|]. split; [exact HB|].
  split; [apply (repaired_says dev64 e mixed_sfb _ HR HB); asked_key signed (row3 4 16 (-8) (-16))|].
  split; [apply (repaired_says dev64 e mixed_sfb _ HR HB); asked_key demo_f2 (row3 2 24 (-8) (-16))|].
  split; [apply (repaired_says dev64 e mixed_sfb _ HR HB); asked_key stub_f (row3 0 8 (-8) (-16))|].
  split; [apply (repaired_says dev64 e mixed_sfb _ HR HB); asked_key stub_f (row3 4 16 (-8) (-16))|].
  split; [apply (repaired_says dev64 e mixed_sfb _ HR HB); asked_key tie_f tie_row|].
  intros k u H. apply (repaired_says dev64 e mixed_sfb _ HR HB) in H. destruct H as (b & r & Hb & [H1 H2] & _).
  vm_compute in Hb. repeat (destruct Hb as [<-|Hb]; [vm_compute in H1, H2; try (apply H1; reflexivity); discriminate|]). destruct Hb.
Qed.

(** What is refused: amb_sfb, and blocks of size zero. *)
Definition empty_blocks_sfb : sfb := get_ok (sfb_new options_new) (add_fdes (sfb_new options_new) [fdb_pcmask 0 demo_f1]).
Lemma empty_blocks_reach md : sfb_reach md empty_blocks_sfb.
Proof.
  eapply (sr_fde md (sfb_new options_new) (fdb_pcmask 0 demo_f1)); [apply sr_new, or_new| |vm_compute; reflexivity].
  apply br_pcmask; [in_range|apply fdb_sized_reach, demo_f1_sized].
Qed.
Theorem refused_case :
  (sfb_reach rel64 amb_sfb /\ unsayable amb_sfb) /\ (sfb_reach rel64 empty_blocks_sfb /\ unsayable empty_blocks_sfb) /\
  (sfb_reach dev64 mixed_sfb /\ ~ unsayable mixed_sfb /\ ~ overlapping mixed_sfb /\ ~ exact_too_large mixed_sfb) /\
  (sfb_reach rel64 over_sfb /\ ~ unsayable over_sfb /\ overlapping over_sfb).
Proof.
  split; [split; [apply sfb_sized_reach, amb_sized|apply sayable_iff; vm_compute; reflexivity]|].
  split; [split; [apply empty_blocks_reach|apply sayable_iff; vm_compute; reflexivity]|].
  split.
  - split; [apply mixed_reach|]. apply (repaired_outcomes dev64 LE mixed_sfb (mixed_reach dev64)). exists (mixed_bytes LE). vm_compute. reflexivity.
  - split; [apply over_reach|]. split; [|apply over_overlapping]. intros H. apply sayable_iff in H. vm_compute in H. discriminate.
Qed.

(** The sample is left alone. *)
Theorem same_case : sfb_reach rel64 demo_sfb /\ untouched demo_sfb /\ build rel64 LE demo_sfb = Ok (demo LE) /\
  build_repaired rel64 LE demo_sfb = Ok (demo LE).
Proof.
  split; [apply demo_reach|]. split; [|split; vm_compute; reflexivity]. split; [|split].
  - intros H. apply sayable_iff in H. vm_compute in H. discriminate.
  - intros b Hb. vm_compute in Hb. repeat (destruct Hb as [<-|Hb]; [split; reflexivity|]). destruct Hb.
  - intros b r Hb Hr (m & H1 & H2 & _). vm_compute in Hb.
    repeat (destruct Hb as [<-|Hb]; [vm_compute in Hr; repeat (destruct Hr as [<-|Hr]; [vm_compute in H1; injection H1 as <-; destruct H2; discriminate|]); destruct Hr|]). destruct Hb.
Qed.

(** ** Each of the four is needed *)

Definition but_gap : wfixes := WFixes false true true true.
Definition but_width : wfixes := WFixes true false true true.
Definition but_info : wfixes := WFixes true true false true.
Definition but_refuse : wfixes := WFixes true true true false.

Lemma only_row_says e s b r u : sfb_reach rel64 s -> forall bs, build rel64 e s = Ok bs -> fdes_of s = [b] -> rows_of b = [r] ->
  ordinary_function b -> in_range (fb_start b) (fb_size b) 0x100 -> u <> std_unwind bs (written r) ->
  forall k, ~ std_says e bs 0x100 k u.
Proof.
  intros HR bs HB EB ER HO Ha Hu k H. apply (built_std rel64 e s bs HR HB 0x100 k u b) in H; [|rewrite EB; left; reflexivity|exact Ha].
  destruct H as (_ & _ & r' & (Hr & _) & E). rewrite ER in Hr. destruct Hr as [<-|[]]. contradiction.
Qed.

Theorem each_needed e :
  (sfb_reach dev64 gap_sfb /\ build_with but_gap dev64 e gap_sfb = Panic /\ exists bs, build_repaired dev64 e gap_sfb = Ok bs) /\
  (sfb_reach rel64 tie_sfb /\ asked_with_key tie_sfb 0x100 KeyA (Unwind Sp false (Some (-128)) (Some 128) None) /\
   exists bs, build_with but_width rel64 e tie_sfb = Ok bs /\
     forall k, ~ std_says e bs 0x100 k (Unwind Sp false (Some (-128)) (Some 128) None)) /\
  (sfb_reach rel64 blocks_sfb /\ asked_with_key blocks_sfb 0x104 KeyA second_row /\
   exists bs, build_with but_info rel64 e blocks_sfb = Ok bs /\ forall a k u, ~ std_says e bs a k u) /\
  (sfb_reach rel64 amb_sfb /\ asked_with_key amb_sfb 0x100 KeyA (Unwind Sp false (Some 16) None (Some (-16))) /\
   exists bs, build_with but_refuse rel64 e amb_sfb = Ok bs /\
     forall k, ~ std_says e bs 0x100 k (Unwind Sp false (Some 16) None (Some (-16)))).
Proof.
  split; [|split; [|split]].
  - split; [apply gap_reach|]. split; [destruct e; vm_compute; reflexivity|].
    exists (get_ok [] (build_repaired dev64 e gap_sfb)). destruct e; vm_compute; reflexivity.
  - assert (HR : sfb_reach rel64 tie_sfb) by apply sfb_sized_reach, tie_sized.
    split; [exact HR|]. split; [asked_key (nth 0 (fdes_of tie_sfb) demo_f1) tie_row|].
    exists (section e tie_sfb). split; [destruct e; vm_compute; reflexivity|].
    apply (only_row_says e tie_sfb (nth 0 (fdes_of tie_sfb) demo_f1) tie_row).
    + exact HR.
    + destruct e; vm_compute; reflexivity.
    + vm_compute. reflexivity.
    + vm_compute. reflexivity.
    + split; reflexivity.
    + vm_compute. split; [discriminate|reflexivity].
    + destruct e; vm_compute; discriminate.
  - destruct (blocks_silent e) as (HR & HB & HA & HS). split; [exact HR|]. split; [exact HA|].
    exists (blocks_bytes e). split; [destruct e; vm_compute; reflexivity|exact HS].
  - assert (HR : sfb_reach rel64 amb_sfb) by apply sfb_sized_reach, amb_sized.
    split; [exact HR|]. split; [asked_key (nth 0 (fdes_of amb_sfb) demo_f1) no_ra_row|].
    exists (section e amb_sfb). split; [destruct e; vm_compute; reflexivity|].
    apply (only_row_says e amb_sfb (nth 0 (fdes_of amb_sfb) demo_f1) no_ra_row).
    + exact HR.
    + destruct e; vm_compute; reflexivity.
    + vm_compute. reflexivity.
    + vm_compute. reflexivity.
    + split; reflexivity.
    + vm_compute. split; [discriminate|reflexivity].
    + destruct e; vm_compute; discriminate.
Qed.
