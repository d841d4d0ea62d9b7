(** The repaired writer and the repaired look-ups together. *)
From Verif Require Export ReadRepairedFacts WriteRepairedFacts.
From Verif Require Import BaseFacts LoadFacts MergeRowFacts WriteFacts SectionFacts RoundFacts.

Section Both.
  Context (md : mode) (e : endian) (s : sfb) (bs : bytes).
  Context (HR : sfb_reach md s) (HB : build_repaired md e s = Ok bs).

  Lemma at_index i : 0 <= i < spec_num_fdes e bs -> exists b, nth_error (fdes_of s) (Z.to_nat i) = Some b /\
    spec_entry e bs i = exact_descriptor (fdes_of s) (Z.to_nat i) b.
  Proof.
    intros Hi. assert (NF : spec_num_fdes e bs = zlen (fdes_of s)) by apply (x_header md e s bs HR HB).
    destruct (nth_error (fdes_of s) (Z.to_nat i)) as [b|] eqn:E; [|apply nth_error_None in E; unfold zlen in NF; lia].
    exists b. split; [reflexivity|]. destruct (x_table md e s bs HR HB _ b E) as (D & _). rewrite Z2Nat.id in D by lia. exact D.
  Qed.

  Lemma x_laid_out : laid_out e bs.
  Proof.
    pose proof (x_header md e s bs HR HB) as (_ & _ & _ & Hf & _). pose proof (repaired_built md e s bs HR HB) as (W & _ & _ & HO & _).
    unfold laid_out, is_sorted_flag. rewrite Hf.
    replace (Z.odd (so_flags (sb_options s))) with true by (destruct W as [[[->| ->] _ _ _] _ _ _]; reflexivity).
    intros i j Hij Hj. destruct (at_index i ltac:(lia)) as (a & Ea & ->). destruct (at_index j ltac:(lia)) as (b & Eb & ->).
    unfold exact_descriptor. cbn [sd_start sd_size].
    assert (Hlt : fb_start a < fb_start b).
    { destruct (wf_starts s W) as [Hs _]. clear - Hs Ea Eb Hij.
      assert (Hlt : (Z.to_nat i < Z.to_nat j)%nat) by lia. revert Ea Eb Hlt. generalize (Z.to_nat i) as n, (Z.to_nat j) as m.
      clear - Hs. induction (fdes_of s) as [|x t IH]; intros n m Ea Eb Hlt; [destruct n; discriminate|].
      cbn [map] in Hs. apply StronglySorted_inv in Hs. destruct Hs as [Hs HF]. destruct m as [|m]; [lia|].
      cbn [nth_error] in Eb. destruct n as [|n]; cbn [nth_error] in Ea.
      - injection Ea as <-. rewrite Forall_forall in HF. apply HF, in_map, (nth_error_In _ _ Eb).
      - apply (IH Hs n m); auto. lia. }
    destruct (Z.le_gt_cases (fb_start a + fb_size a) (fb_start b)) as [H|H]; [exact H|]. exfalso. apply HO. exists a, b.
    split; [apply (nth_error_In _ _ Ea)|]. split; [apply (nth_error_In _ _ Eb)|]. split; [lia|]. unfold in_range. lia.
  Qed.

  Lemma x_legible a : legible e bs a.
  Proof.
    intros i Hi Hin. destruct (at_index i Hi) as (b & Eb & D). split.
    - exists (map exact_row (rows_of b)). split.
      + pose proof (x_std_rows md e s bs HR HB _ b Eb) as HS. rewrite Z2Nat.id in HS by lia. exact HS.
      + pose proof (repaired_built md e s bs HR HB) as (W & _). destruct (in_fdes_wf s _ b W Eb) as [Wb _].
        assert (HA : ascends (rows_of b)) by (apply sorted_ascends; apply Wb).
        unfold starts_ascend. induction HA as [|r t HA IH HF]; cbn [map]; constructor; [exact IH|].
        apply Forall_map. exact HF.
    - rewrite (x_offset md e s bs HR HB b i a (nth_error_In _ _ Eb) D). discriminate.
  Qed.

  (** What is built can be loaded, and looked up address by address. *)
  Theorem both_repaired md' : wf_mode md' -> rust_slice md' bs ->
    exists sf, load md' e bs = Ok sf /\ forall a, in_i32 a ->
      (forall k u, lookup_key all_rfixes md' e sf a = Ok (Some (k, u)) <-> asked_with_key s a k u) /\
      (lookup_key all_rfixes md' e sf a = Ok None <-> forall k u, ~ asked_with_key s a k u).
  Proof.
    intros Hm Hs. pose proof (x_layout md e s bs HR HB) as (HM & HV & HF).
    assert (HL : exists sf, load md' e bs = Ok sf).
    { apply (load_ok_iff md' e bs Hm Hs). split; [exact HM|]. split; [right; exact HV|exact HF]. }
    destruct HL as (sf & HL). exists sf. split; [exact HL|]. intros a Ha.
    destruct (whole_says md' e bs sf Hm Hs HL a Ha HV x_laid_out (x_legible a)) as [H1 H2].
    split; [intros k u; rewrite H1; apply (repaired_says md e s bs HR HB)|].
    rewrite H2. split; intros H k u X; apply (H k u), (repaired_says md e s bs HR HB), X.
  Qed.
End Both.
