(** Merging functions with the distance repaired: converted sections, and concrete builders. *)
From Verif Require Export MergeRepairedFacts IterLookWitness.
From Verif Require Import EmitWitness ConvProps ToolsProps V1Relate.

Lemma none_whole s : (forall b, In b (fdes_of s) -> fb_rep_size b = None) -> Forall whole_blocks (fdes_of s).
Proof. intros H. apply Forall_forall. intros b Hb. unfold whole_blocks. rewrite (H b Hb). exact I. Qed.

(** Converted functions have no blocks yet, so nothing is lost. *)
Theorem conv_repaired md op eh s : eh_typed eh -> dwarf2sframe md op eh = Ok s ->
  exists s', merge_repaired md s = Ok s' /\ forall a k p, unwind_at s' a k p <-> unwind_at s a k p.
Proof.
  intros Ht H. pose proof (proj1 (sfb_sized_reach md s (converted_sized _ _ _ _ (dwarf2sframe_converted _ _ _ _ Ht H)))) as HR.
  destruct (repaired_merge md s HR) as (s' & M & _). exists s'. split; [exact M|]. apply (repaired_unwinding md s s' HR M).
  apply none_whole. intros b Hb. destruct (conv_functions md op eh s Ht H) as (_ & F & _). destruct (F b Hb) as (f & _ & _ & _ & E & _). exact E.
Qed.

Theorem v1_repaired md p ents s : ents_typed ents -> v1_convert md p ents = Ok s ->
  exists s', merge_repaired md s = Ok s' /\ forall a k q, unwind_at s' a k q <-> unwind_at s a k q.
Proof.
  intros Ht H. pose proof (proj1 (sfb_sized_reach md s (v1_sized md md p ents s Ht H))) as HR.
  destruct (repaired_merge md s HR) as (s' & M & _). exists s'. split; [exact M|]. apply (repaired_unwinding md s s' HR M).
  apply none_whole. intros b Hb. destruct (v1_built_from md p ents s b Ht H Hb) as (f & _ & B & _).
  destruct (built_inv v1_conv v1_options _ _ eq_refl B) as (_ & _ & _ & _ & _ & X & _). exact X.
Qed.

(** ** A linkage table of three entries *)

Definition plt3_sfb : sfb :=
  get_ok (sfb_new options_new) (add_fdes (sfb_new options_new) [plt_fde 0x100; plt_fde 0x110; plt_fde 0x120]).
Definition plt3_merged : sfb := get_ok (sfb_new options_new) (merge_repaired rel64 plt3_sfb).

Lemma plt3_reach md : sfb_reach md plt3_sfb.
Proof.
  apply (add_fdes_reach md [plt_fde 0x100; plt_fde 0x110; plt_fde 0x120] (sfb_new options_new)); [repeat constructor| |vm_compute; reflexivity].
  repeat apply Forall_cons; [apply plt_reach; in_range..|apply Forall_nil].
Qed.

Lemma plt3_kept : Forall (kept_whole (sb_options plt3_sfb)) (fdes_of plt3_sfb).
Proof.
  apply Forall_forall. intros b Hb. vm_compute in Hb. repeat (destruct Hb as [<-|Hb]; [|]); try destruct Hb.
  all: split; [apply Forall_forall; intros r Hr; vm_compute in Hr; repeat (destruct Hr as [<-|Hr]; [vm_compute; auto|]); destruct Hr|].
  all: split; [discriminate|split; [exact I|]].
  all: intros r Hr; vm_compute in Hr; repeat (destruct Hr as [<-|Hr]; [split;
    [intros (m & H1 & H2 & _); vm_compute in H1; injection H1 as <-; vm_compute in H2; intuition discriminate|
     intros (_ & x & H1 & H2 & _); vm_compute in H1; injection H1 as <-; vm_compute in H2; discriminate]|]); destruct Hr.
Qed.

Theorem plt3_case e :
  sfb_reach rel64 plt3_sfb /\ fdes_of plt3_sfb = in_a_row (plt_fde 0x100) 3 /\
  merge_adjacent_fdes rel64 plt3_sfb = Ok plt3_sfb /\ merge_repaired rel64 plt3_sfb = Ok plt3_merged /\
  map (fun b => (fb_start b, fb_size b, fb_rep_size b)) (fdes_of plt3_merged) = [(0x100, 48, Some 16)] /\
  Forall (kept_whole (sb_options plt3_sfb)) (fdes_of plt3_sfb) /\
  build rel64 e plt3_sfb = Ok (section e plt3_sfb) /\ build rel64 e plt3_merged = Ok (section e plt3_merged) /\
  load rel64 e (section e plt3_sfb) = Ok (sf_of e (section e plt3_sfb)) /\
  load rel64 e (section e plt3_merged) = Ok (sf_of e (section e plt3_merged)) /\
  rust_slice rel64 (section e plt3_sfb) /\ rust_slice rel64 (section e plt3_merged) /\
  zlen (section e plt3_sfb) = 118 /\ zlen (section e plt3_merged) = 58 /\
  says_at rel64 e (sf_of e (section e plt3_sfb)) 0x127 = [(KeyA, Unwind Sp false (Some 16) (Some (-8)) (Some (-16)))] /\
  says_at rel64 e (sf_of e (section e plt3_merged)) 0x127 = [(KeyA, Unwind Sp false (Some 16) (Some (-8)) (Some (-16)))].
Proof.
  split; [apply plt3_reach|]. do 4 (split; [vm_compute; reflexivity|]). split; [apply plt3_kept|].
  do 4 (split; [destruct e; vm_compute; reflexivity|]).
  do 2 (split; [destruct e; vm_compute; reflexivity|]). do 3 (split; [destruct e; vm_compute; reflexivity|]).
  destruct e; vm_compute; reflexivity.
Qed.

(** ** A function that ends within a block *)

Definition half_f : fdb := fdb_pcmask 16 (fdb_set_size 24 (plt_fde 0x100)).
Definition half_sfb : sfb := get_ok (sfb_new options_new) (add_fdes (sfb_new options_new) [half_f; plt_fde 0x118]).
Definition half_merged : sfb := get_ok (sfb_new options_new) (merge_repaired rel64 half_sfb).

Lemma half_reach md : sfb_reach md half_sfb.
Proof.
  apply (add_fdes_reach md [half_f; plt_fde 0x118] (sfb_new options_new)); [repeat constructor| |vm_compute; reflexivity].
  repeat apply Forall_cons; [|apply plt_reach; in_range|apply Forall_nil].
  apply br_pcmask; [in_range|]. apply br_size; [in_range|]. apply plt_reach; in_range.
Qed.

Definition plt_first : option row_offsets * bool * base_reg := (Some (RowOffsets 8 (Some (-8)) (Some (-16))), false, Sp).
Definition plt_second : option row_offsets * bool * base_reg := (Some (RowOffsets 16 (Some (-8)) (Some (-16))), false, Sp).

Theorem half_lost :
  sfb_reach rel64 half_sfb /\ ~ overlapping half_sfb /\ merge_repaired rel64 half_sfb = Ok half_merged /\
  unwind_at half_sfb 0x118 KeyA plt_first /\ unwind_at half_merged 0x118 KeyA plt_second /\
  ~ unwind_at half_merged 0x118 KeyA plt_first.
Proof.
  split; [apply half_reach|]. split; [|split; [vm_compute; reflexivity|split; [|split]]].
  - intros (a & b & Ha & Hb & Hne & H). vm_compute in Ha, Hb. unfold in_range in H.
    destruct Ha as [<-|[<-|[]]], Hb as [<-|[<-|[]]]; cbn in *; try lia; congruence.
  - exists (plt_fde 0x118). split; [vm_compute; auto|]. split; [vm_compute; split; [discriminate|reflexivity]|]. split; [reflexivity|].
    exists (row3 0 8 (-8) (-16)). split; [in_effect_by_cases|reflexivity].
  - exists (MergeSpec.join half_f (plt_fde 0x118)). split; [vm_compute; auto|]. split; [vm_compute; split; [discriminate|reflexivity]|]. split; [reflexivity|].
    exists (row3 6 16 (-8) (-16)). split; [in_effect_by_cases|reflexivity].
  - intros (b & Hb & _ & _ & r & (Hr & Hs & Hmax) & Hp). vm_compute in Hb. destruct Hb as [<-|[]].
    vm_compute in Hr. destruct Hr as [<-|[<-|[]]]; [|discriminate].
    specialize (Hmax (row3 6 16 (-8) (-16))). vm_compute in Hmax. apply Hmax; [auto|discriminate|reflexivity].
Qed.
