(** Copying a copy (C145). *)
From Verif Require Export CopyFacts.
From Verif Require Import SectionFacts BTreeFacts LookupFacts LookupExact.

(** A row made again without offsets has base register FP. *)
Lemma made_again_invalid sf fr : made_invalid (made sf fr).
Proof.
  unfold made_invalid, made, kept_row, row_read. destruct (res (fre_cfa_offset fr)); cbn; [discriminate|reflexivity].
Qed.

Section Loaded.
  Variables (md : mode) (e : endian) (bs : bytes) (sf : sframe).
  Hypothesis Hm : wf_mode md.
  Hypothesis Hs : rust_slice md bs.
  Hypothesis HL : load md e bs = Ok sf.

  (** Every function of the builder was made from some entry. *)
  Lemma fdes_read_from : forall l s s', fdes_read md e sf l s = Some s' ->
    forall b, In b (fdes_of s') -> In b (fdes_of s) \/ exists en, In en l /\ fdb_read md e sf en = Some b.
  Proof.
    induction l as [|en l IH]; intros s s' H b Hb; cbn [fdes_read] in H; [injection H as <-; auto|].
    destruct (fdb_read md e sf en) as [b0|] eqn:Eb; [|discriminate].
    destruct (sfb_fde s b0) as [s1|er|] eqn:E1; try discriminate.
    destruct (IH s1 s' H b Hb) as [H1|(en' & Hin & He)]; [|right; exists en'; auto with datatypes].
    unfold sfb_fde in E1. destruct (options_eqb _ _); [|discriminate]. injection E1 as <-.
    unfold fdes_of in *. cbn [sb_fdes] in H1. apply in_map_iff in H1. destruct H1 as ([k y] & Hy & Hin). cbn [snd] in Hy. subst y.
    apply in_insert in Hin. destruct Hin as [[= -> ->]|Hin]; [right; exists en; auto with datatypes|].
    left. apply in_map_iff. exists (k, b). auto.
  Qed.

  Lemma copy_rows s b : section_read md e sf = Some s -> In b (fdes_of s) ->
    rows_inside b /\ forall r, In r (rows_of b) -> made_invalid r.
  Proof using Hm Hs HL.
    intros HR Hb. destruct (fdes_read_from _ _ _ HR b Hb) as [[]|(en & Hin & He)].
    destruct (fdb_read_copy md e bs sf Hm Hs HL en b Hin He) as ((_ & _ & C3 & _ & _ & good & _ & HF & HP) & _ & _).
    rewrite Forall_forall in HF. split.
    - unfold rows_inside. rewrite Forall_forall. intros r Hr. apply (Permutation_in _ HP) in Hr. apply in_map_iff in Hr.
      destruct Hr as (fr & <- & Hfr). rewrite made_start, C3. apply (HF fr Hfr).
    - intros r Hr. apply (Permutation_in _ HP) in Hr. apply in_map_iff in Hr. destruct Hr as (fr & <- & _). apply made_again_invalid.
  Qed.

  Theorem copy_again md1 e1 s bs1 : section_read md e sf = Some s -> build md1 e1 s = Ok bs1 ->
    forall md2, wf_mode md2 -> rust_slice md2 bs1 ->
    exists sf1 s1, load md2 e1 bs1 = Ok sf1 /\ section_read md2 e1 sf1 = Some s1 /\
      forall md3 e3, build md3 e3 s1 = build md3 e3 s.
  Proof using Hm Hs HL.
    intros HR HB md2 Hm2 Hs2. destruct (copy_reach md e bs sf Hm Hs HL s HR) as [A _]. pose proof (sfb_reach_wf md s A) as W.
    destruct (copy_loads md e bs sf Hm Hs HL md1 md2 e1 s bs1 HR HB Hm2 Hs2) as [Hsz HL1].
    exists (built_sf e1 s), (again_sfb s). split; [exact HL1|]. split.
    - apply section_read_built; try assumption.
      + rewrite Forall_forall. intros b Hb. apply (copy_rows s b HR Hb).
      + intros b r Hb. apply (copy_rows s b HR Hb).
    - intros md3 e3. apply again_build, W.
  Qed.

  Theorem copied_again md1 e1 bs1 : copied md md1 e e1 sf bs1 ->
    forall md2, wf_mode md2 -> rust_slice md2 bs1 ->
    exists sf1, load md2 e1 bs1 = Ok sf1 /\
      (forall md3 e3 bs3, copied md2 md3 e1 e3 sf1 bs3 <-> copied md md3 e e3 sf bs3).
  Proof using Hm Hs HL.
    intros (s & HR & HB) md2 Hm2 Hs2. destruct (copy_again md1 e1 s bs1 HR HB md2 Hm2 Hs2) as (sf1 & s1 & HL1 & HR1 & HX).
    exists sf1. split; [exact HL1|]. intros md3 e3 bs3. split; intros (t & Ht & HBt).
    - exists s. split; [exact HR|]. assert (t = s1) by congruence. subst t. rewrite <- HX. exact HBt.
    - exists s1. split; [exact HR1|]. assert (t = s) by congruence. subst t. rewrite HX. exact HBt.
  Qed.
End Loaded.
