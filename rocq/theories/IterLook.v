(** Built sections read through the iterators (C141). *)
From Verif Require Export StdSpec.
From Verif Require Import LookupExact ConvProps LookupFacts SectionFacts MergeRowFacts SearchFacts StdFacts.

Lemma written_pair l good : Forall2 (fun r fr => view_fre fr = written r) l good ->
  (forall r, In r l -> exists fr, In fr good /\ view_fre fr = written r) /\
  (forall fr, In fr good -> exists r, In r l /\ view_fre fr = written r).
Proof.
  induction 1 as [|r fr t t' Hv _ [IH1 IH2]]; [split; intros ? []|]. split.
  - intros x [<-|Hx]; [exists fr; split; [left; reflexivity|exact Hv]|]. destruct (IH1 x Hx) as (y & Hy & E). exists y. split; [right; exact Hy|exact E].
  - intros x [<-|Hx]; [exists r; split; [left; reflexivity|exact Hv]|]. destruct (IH2 x Hx) as (y & Hy & E). exists y. split; [right; exact Hy|exact E].
Qed.

Section Built.
  Variables (md md' : mode) (e : endian) (s : sfb) (bs : bytes) (sf : sframe).
  Hypothesis Hr : sfb_reach md s.
  Hypothesis B : build md e s = Ok bs.
  Hypothesis Hmd : wf_mode md'.
  Hypothesis Hsl : rust_slice md' bs.
  Hypothesis HL : load md' e bs = Ok sf.

  Lemma built_is : sfb_wf s /\ ~ too_large s /\ sf = built_sf e s.
  Proof.
    pose proof (sfb_reach_wf _ _ Hr) as W. destruct (built_image _ _ _ _ W B) as [T E]. split; [exact W|]. split; [exact T|].
    subst bs. rewrite (image_loads md' e s Hmd W T Hsl) in HL. congruence.
  Qed.

  Lemma built_offset i b a : fb_rep_size b <> Some 0 -> lib_offset (built_entry e s i b) a = Some (offset_in b a).
  Proof.
    intros Hrep. destruct (built_same e s i b) as (E1 & _ & E3 & E4 & _). unfold lib_offset, offset_in. rewrite E1, E3, E4. unfold pub_type.
    destruct (fb_rep_size b) as [rep|]; [|reflexivity]. destruct (Z.eqb_spec rep 0); [congruence|reflexivity].
  Qed.
  Lemma built_no_offset i b a : fb_rep_size b = Some 0 -> lib_offset (built_entry e s i b) a = None.
  Proof.
    intros Hrep. destruct (built_same e s i b) as (E1 & _ & E3 & E4 & _). unfold lib_offset, pub_type in *. rewrite E1, E3, E4, Hrep. reflexivity.
  Qed.

  Lemma disjoint_starts i j b c a : nth_error (fdes_of s) i = Some b -> nth_error (fdes_of s) j = Some c ->
    in_range (fb_start b) (fb_size b) a -> in_range (fb_start c) (fb_size c) a -> i = j.
  Proof.
    intros Hi Hj Hb Hc. destruct (built_sorted md e s bs Hr B) as (_ & HD & HN).
    assert (Li : (i < length (fdes_of s))%nat) by (apply nth_error_Some; congruence).
    assert (Lj : (j < length (fdes_of s))%nat) by (apply nth_error_Some; congruence).
    pose proof (built_spec_entry md e s bs i b Hr B Hi) as Ei. pose proof (built_spec_entry md e s bs j c Hr B Hj) as Ej.
    unfold in_range in *. destruct (Nat.lt_trichotomy i j) as [H|[H|H]]; [|exact H|]; exfalso.
    - specialize (HD (Z.of_nat i) (Z.of_nat j) ltac:(lia) ltac:(rewrite HN; unfold zlen; lia)). rewrite Ei, Ej in HD.
      cbn in HD. lia.
    - specialize (HD (Z.of_nat j) (Z.of_nat i) ltac:(lia) ltac:(rewrite HN; unfold zlen; lia)). rewrite Ei, Ej in HD.
      cbn in HD. lia.
  Qed.

  (** What is said inside a function. *)
  Theorem iter_inside a b k u : In b (fdes_of s) -> in_range (fb_start b) (fb_size b) a ->
    (lib_says md' e sf a k u <->
     rows_inside b /\ fb_rep_size b <> Some 0 /\ fb_pauth b = k /\
     exists r fr, in_effect (rows_of b) (offset_in b a) r /\ view_fre fr = written r /\ observed sf fr = u).
  Proof.
    intros Hb Hin. destruct built_is as (W & T & Hsf). destruct (In_nth_error _ _ Hb) as (i & Hi).
    destruct (built_entries e s W T) as [HLen HE]. destruct (built_same e s i b) as (E1 & E2 & E3 & E4 & E5 & _).
    pose proof (built_rows md' e s i b Hmd W T Hi) as [HR1 HR2]. split.
    - intros (en & good & x & fr & Hen & Hrng & HA & HO & Hfr & Hle & Hmax & Hk & Hu).
      assert (Een : en = built_entry e s i b).
      { rewrite Hsf in Hen. destruct (In_nth_error _ _ Hen) as (j & Hj).
        destruct (nth_error (fdes_of s) j) as [c|] eqn:Ec.
        2:{ apply nth_error_None in Ec. assert (j < length (all_fdes (built_sf e s)))%nat by (apply nth_error_Some; congruence). lia. }
        rewrite (HE j c Ec) in Hj. injection Hj as <-.
        destruct (built_same e s j c) as (F1 & F2 & _). rewrite F1, F2 in Hrng.
        pose proof (disjoint_starts i j b c a Hi Ec Hin Hrng). subst j. congruence. }
      subst en.
      assert (Hins : rows_inside b).
      { destruct (Forall_dec (fun r => r_start r < fb_size b) (fun r => Z_lt_dec (r_start r) (fb_size b)) (rows_of b)) as [H|H]; [exact H|].
        rewrite (HR2 H) in HA. discriminate. }
      assert (Hrep : fb_rep_size b <> Some 0).
      { intros H. rewrite (built_no_offset i b a H) in HO. discriminate. }
      rewrite (built_offset i b a Hrep) in HO. injection HO as <-.
      destruct (HR1 Hins) as (good' & HA' & HV). rewrite HA' in HA. injection HA as HA. apply (@map_inl_inj _ read_error) in HA. subst good'.
      split; [exact Hins|]. split; [exact Hrep|]. split; [congruence|].
      destruct (written_pair _ _ HV) as [P1 P2]. destruct (P2 fr Hfr) as (r & Hrr & Ev). exists r, fr.
      destruct (written_fields _ _ Ev) as (Es & _). rewrite Es in *.
      split; [|split; [exact Ev|exact Hu]]. split; [exact Hrr|]. split; [exact Hle|].
      intros r' Hr' Hle'. destruct (P1 r' Hr') as (fr' & Hfr' & Ev'). destruct (written_fields _ _ Ev') as (Es' & _).
      specialize (Hmax fr' Hfr'). rewrite Es' in Hmax. apply Hmax, Hle'.
    - intros (Hins & Hrep & Hk & r & fr & (Hrr & Hle & Hmax) & Ev & Hu). destruct (HR1 Hins) as (good & HA & HV).
      destruct (written_pair _ _ HV) as [P1 P2]. destruct (P1 r Hrr) as (fr1 & Hfr1 & Ev1). destruct (written_fields _ _ Ev1) as (Es & _).
      exists (built_entry e s i b), good, (offset_in b a), fr1.
      split; [rewrite Hsf; apply (nth_error_In _ _ (HE i b Hi))|]. split; [rewrite E1, E2; exact Hin|]. split; [exact HA|].
      split; [apply built_offset, Hrep|]. split; [exact Hfr1|]. rewrite Es. split; [exact Hle|]. split.
      + intros fr' Hfr' Hle'. destruct (P2 fr' Hfr') as (r' & Hr' & Ev'). destruct (written_fields _ _ Ev') as (Es' & _). rewrite Es' in *.
        apply Hmax; assumption.
      + split; [congruence|]. rewrite <- Hu. apply observed_view. congruence.
  Qed.

  Theorem iter_outside a k u : (forall b, In b (fdes_of s) -> ~ in_range (fb_start b) (fb_size b) a) -> ~ lib_says md' e sf a k u.
  Proof.
    intros Hout (en & good & x & fr & Hen & Hrng & _). destruct built_is as (W & T & Hsf).
    destruct (built_entries e s W T) as [HLen HE]. rewrite Hsf in Hen. destruct (In_nth_error _ _ Hen) as (j & Hj).
    destruct (nth_error (fdes_of s) j) as [c|] eqn:Ec.
    2:{ apply nth_error_None in Ec. assert (j < length (all_fdes (built_sf e s)))%nat by (apply nth_error_Some; congruence). lia. }
    rewrite (HE j c Ec) in Hj. injection Hj as <-. destruct (built_same e s j c) as (F1 & F2 & _). rewrite F1, F2 in Hrng.
    apply (Hout c (nth_error_In _ _ Ec) Hrng).
  Qed.

  (** Whether a row, read back, says what was asked for. *)
  Theorem iter_row b r fr : In b (fdes_of s) -> In r (rows_of b) -> view_fre fr = written r ->
    (observed sf fr = intended (sb_options s) r <-> ~ tied r /\ ~ ambiguous (sb_options s) r).
  Proof.
    intros Hb Hrr Ev. destruct built_is as (W & T & Hsf). subst sf. destruct (In_nth_error _ _ Hb) as (i & Hi).
    destruct (nth_in_wf s i b W Hi) as (Wb & Ho & _). destruct (built_fixed e s W) as [Hra Hfp].
    destruct Wb as [_ _ _ _ _ _ HW]. rewrite Forall_forall in HW.
    unfold rows_of in Hrr. destruct (HW r Hrr) as [Ty _ No]. rewrite Ho in No.
    rewrite (row_meaning _ (sb_options s) r fr Hra Hfp No Ev). rewrite (width_untied r Ty). reflexivity.
  Qed.

  Theorem iter_all a :
    (forall b, In b (fdes_of s) -> in_range (fb_start b) (fb_size b) a ->
       rows_inside b /\ fb_rep_size b <> Some 0 /\ forall r, In r (rows_of b) -> ~ tied r /\ ~ ambiguous (sb_options s) r) ->
    forall k u, lib_says md' e sf a k u <-> asked_with_key s a k u.
  Proof.
    intros HC k u. split.
    - intros H.
      assert (HX : exists b, In b (fdes_of s) /\ in_range (fb_start b) (fb_size b) a).
      { destruct (Exists_dec (fun b => in_range (fb_start b) (fb_size b) a) (fdes_of s)) as [HE|HE].
        - intros b. unfold in_range. destruct (Z_le_dec (fb_start b) a), (Z_lt_dec a (fb_start b + fb_size b)); [left; lia|right; lia..].
        - apply Exists_exists in HE. exact HE.
        - exfalso. apply (iter_outside a k u); [|exact H]. intros b Hb Hin. apply HE, Exists_exists. exists b. auto. }
      destruct HX as (b & Hb & Hin). destruct (HC b Hb Hin) as (_ & _ & HT). apply (iter_inside a b k u Hb Hin) in H.
      destruct H as (_ & _ & Hk & r & fr & He & Ev & Hu). exists b, r. split; [exact Hb|]. split; [exact Hin|]. split; [exact He|]. split; [exact Hk|].
      rewrite <- Hu. symmetry. apply (iter_row b r fr Hb (proj1 He) Ev). apply HT, He.
    - intros (b & r & Hb & Hin & He & Hk & Hu). destruct (HC b Hb Hin) as (Hins & Hrep & HT). apply (iter_inside a b k u Hb Hin).
      split; [exact Hins|]. split; [exact Hrep|]. split; [exact Hk|]. destruct (view_exists r) as (fr & Ev). exists r, fr. split; [exact He|].
      split; [exact Ev|]. rewrite <- Hu. apply (iter_row b r fr Hb (proj1 He) Ev). apply HT, He.
  Qed.
End Built.
