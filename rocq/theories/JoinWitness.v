(** Concrete sections that are joined (C148). *)
From Verif Require Import SectionWitness CopyWitness MergeExact.
From Verif Require Export JoinFacts PlaceWitness.

(** The two functions of the sample, each in a section of its own, the second in the other
    byte order. *)
Lemma one_function s f : fdes_of s = [f] -> ~ overlapping s.
Proof. intros E (b & c & Hb & Hc & Hne & _). rewrite E in Hb, Hc. destruct Hb as [<-|[]], Hc as [<-|[]]. congruence. Qed.
Lemma pair_distinct : distinct single_sfb second_sfb.
Proof. intros b c Hb Hc. vm_compute in Hb, Hc. destruct Hb as [<-|[]], Hc as [<-|[]]. vm_compute. discriminate. Qed.
Lemma pair_separate : separate single_sfb second_sfb.
Proof.
  intros b c Hb Hc. vm_compute in Hb, Hc. destruct Hb as [<-|[]], Hc as [<-|[]].
  split; intros [A B]; vm_compute in A, B; congruence.
Qed.
Lemma demo_gap : ~ wide_gap (fdes_of demo_sfb).
Proof.
  intros (b & c & (pre & post & E) & H). vm_compute in E.
  destruct pre as [|p1 [|p2 [|p3 pre]]]; cbn [app] in E; try discriminate.
  injection E as <- <- _. vm_compute in H. discriminate.
Qed.

Definition flip (e : endian) : endian := match e with LE => BE | BE => LE end.

Theorem join_case e :
  sfb_reach rel64 single_sfb /\ sfb_reach rel64 second_sfb /\ sb_options single_sfb = sb_options second_sfb /\
  distinct single_sfb second_sfb /\ separate single_sfb second_sfb /\ ~ overlapping single_sfb /\ ~ overlapping second_sfb /\
  ~ wide_gap (fdes_of demo_sfb) /\ joined_sfb single_sfb second_sfb demo_sfb /\ joined_sfb second_sfb single_sfb demo_sfb /\
  read_again rel64 rel64 e (single e) (single_sf e) single_sfb /\
  read_again rel64 rel64 (flip e) (second (flip e)) (second_sf (flip e)) second_sfb /\
  build rel64 e demo_sfb = Ok (demo e) /\ rust_slice rel64 (demo e) /\ load rel64 e (demo e) = Ok (demo_sf e) /\
  says_at rel64 e (single_sf e) 0x104 = [(KeyA, second_row)] /\ says_at rel64 (flip e) (second_sf (flip e)) 0x104 = [] /\
  says_at rel64 e (demo_sf e) 0x104 = [(KeyA, second_row)] /\
  says_at rel64 e (single_sf e) 0x204 = [] /\ says_at rel64 (flip e) (second_sf (flip e)) 0x204 = [(KeyA, third_row)] /\
  says_at rel64 e (demo_sf e) 0x204 = [(KeyA, third_row)].
Proof.
  split; [apply sfb_sized_reach, single_sized|]. split; [apply sfb_sized_reach, second_sized|]. split; [reflexivity|].
  split; [apply pair_distinct|]. split; [apply pair_separate|].
  split; [apply (one_function _ demo_f1); vm_compute; reflexivity|]. split; [apply (one_function _ demo_f2); vm_compute; reflexivity|].
  split; [apply demo_gap|]. split; [vm_compute; reflexivity|]. split; [vm_compute; reflexivity|].
  split; [split; [apply wf_rel64|]; destruct e; vm_compute; repeat split; reflexivity|].
  split; [split; [apply wf_rel64|]; destruct e; vm_compute; repeat split; reflexivity|].
  repeat (split; [destruct e; vm_compute; reflexivity|]). destruct e; vm_compute; reflexivity.
Qed.

(** Without different starts the later function takes the place of the earlier. *)
Definition rival : fdb := get_ok (fdb_new options_new 0 0) (add_rows (fdb_new options_new 0x100 8) [row3 0 24 (-8) (-16)]).
Definition rival_sfb : sfb := get_ok (sfb_new options_new) (add_fdes (sfb_new options_new) [rival]).
Lemma rival_reach md : sfb_reach md rival_sfb.
Proof.
  apply (add_fdes_reach md [rival] (sfb_new options_new)); [repeat constructor| |vm_compute; reflexivity].
  apply Forall_cons; [|apply Forall_nil].
  change rival with (fst (fdb_row_st (fdb_new options_new 0x100 8) (row3 0 24 (-8) (-16)))).
  apply br_row; [unfold row_typed, offsets_typed; cbn; unfold in_u32, in_i32, u32_max, i32_min, i32_max; repeat split; lia|].
  apply new_fde_reach; [unfold in_i32, i32_min, i32_max; lia|unfold in_u32, u32_max; lia].
Qed.
Theorem same_start : sfb_reach rel64 single_sfb /\ sfb_reach rel64 rival_sfb /\ ~ distinct single_sfb rival_sfb /\
  joined_sfb single_sfb rival_sfb rival_sfb /\ joined_sfb rival_sfb single_sfb single_sfb /\ rival_sfb <> single_sfb.
Proof.
  split; [apply sfb_sized_reach, single_sized|]. split; [apply rival_reach|].
  split; [intros H; apply (H demo_f1 rival); vm_compute; auto|]. split; [vm_compute; reflexivity|]. split; [vm_compute; reflexivity|].
  vm_compute. discriminate.
Qed.

(** Merged in one profile only, and yet it can be made in the other (C149). *)
Theorem profile_case : exists s,
  sfb_reach rel64 (plt_pair (-2147483648) 2147483632) /\ merge_adjacent_fdes rel64 (plt_pair (-2147483648) 2147483632) = Ok s /\
  merge_adjacent_fdes dev64 (plt_pair (-2147483648) 2147483632) = Panic /\
  fdes_of s = [MergeSpec.join (plt_fde (-2147483648)) (plt_fde 2147483632)] /\ sfb_reach dev64 s.
Proof.
  destruct ends_merge as (_ & _ & _ & _ & _ & _ & H1 & H2). cbv zeta in *. eexists.
  assert (R : forall md, sfb_reach md (plt_pair (-2147483648) 2147483632)).
  { intros md. apply plt_pair_reach; unfold in_i32, i32_min, i32_max; lia. }
  split; [apply R|]. split; [exact H1|]. split; [exact H2|]. split; [reflexivity|].
  apply (reach_anywhere rel64). apply (sr_merge rel64 _ _ (R rel64) H1).
Qed.
