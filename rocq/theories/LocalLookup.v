(** Lookups in damaged sections (C115) and in transcribed sections (C116). *)
From Verif Require Import DebugSpec DebugFacts.
From Verif Require Export LocalSpec LocalFacts.
Open Scope Z_scope.
Open Scope list_scope.

Lemma same_span_refl l : Forall2 same_span l l.
Proof. induction l; constructor; [split; reflexivity|assumption]. Qed.

Lemma sorted_land sf : negb (Z.land (flags sf) FLAG_FDE_SORTED =? FLAG_FDE_SORTED) = negb (Z.testbit (flags sf) 0).
Proof.
  f_equal. unfold FLAG_FDE_SORTED. change 1 with (2 ^ 1 - 1) at 1. change (2 ^ 1 - 1) with (Z.ones 1). rewrite Z.land_ones by lia.
  change (2 ^ 1) with 2. rewrite Z.bit0_odd, Zmod_odd. destruct (Z.odd (flags sf)); reflexivity.
Qed.

Lemma place_fde md sf sf' a : flags sf' = flags sf -> it_fdes (fdes sf') = it_fdes (fdes sf) ->
  both (both_some (fun en en' => en_fde en = en_fde en')) (fde_for_address md sf a) (fde_for_address md sf' a).
Proof.
  intros HF HI. unfold fde_for_address. rewrite HF, HI. destruct (negb _).
  - pose proof (same_span_find md a (sf_fres sf) (sf_fres sf') _ _ (same_span_refl (it_fdes (fdes sf))) (S (length (it_fdes (fdes sf)))) (S (length (it_fdes (fdes sf)))) ltac:(lia) ltac:(lia)) as H.
    change (FdeIter (it_fdes (fdes sf)) (sf_fres sf)) with (fdes sf) in H.
    assert (H' : FdeIter (it_fdes (fdes sf)) (sf_fres sf') = fdes sf') by (rewrite <- HI; reflexivity). rewrite H' in H.
    destruct (fdi_find _ md a (fdes sf)) as [[en|]| |], (fdi_find _ md a (fdes sf')) as [[en'|]| |]; try contradiction; cbn; auto.
    destruct H as (k & H1 & H2). rewrite nth_error_map in H1, H2. destruct (nth_error _ k); [|discriminate].
    injection H1 as <-. injection H2 as <-. reflexivity.
  - destruct (binary_search md (search_cmp md a) (it_fdes (fdes sf))) as [[k|]|er|]; cbn [bind both both_some]; auto.
    unfold fdi_nth. rewrite HI. destruct (skipn k _); cbn; auto.
Qed.

Lemma unsorted_index md sf sf' a en : flags sf' = flags sf -> it_fdes (fdes sf') = it_fdes (fdes sf) -> ~ sorted_flag sf ->
  fde_for_address md sf a = Ok (Some en) ->
  exists k en', nth_error (all_fdes sf) k = Some en /\ nth_error (all_fdes sf') k = Some en' /\ fde_for_address md sf' a = Ok (Some en').
Proof.
  intros HF HI HS. unfold fde_for_address. rewrite !sorted_land, HF, HI. unfold sorted_flag in HS.
  destruct (Z.testbit (flags sf) 0); [contradiction HS; reflexivity|]. cbn [negb].
  pose proof (same_span_find md a (sf_fres sf) (sf_fres sf') _ _ (same_span_refl (it_fdes (fdes sf))) (S (length (it_fdes (fdes sf)))) (S (length (it_fdes (fdes sf)))) ltac:(lia) ltac:(lia)) as H.
  change (FdeIter (it_fdes (fdes sf)) (sf_fres sf)) with (fdes sf) in H.
  assert (H' : FdeIter (it_fdes (fdes sf)) (sf_fres sf') = fdes sf') by (rewrite <- HI; reflexivity). rewrite H' in H.
  intros E. rewrite E in H. destruct (fdi_find _ md a (fdes sf')) as [[en'|]| |]; try contradiction.
  destruct H as (k & H1 & H2). exists k, en'. rewrite !all_fdes_map, HI. auto.
Qed.

Theorem rows_damage_lookups md md' e s bs bs' i : wf_mode md' -> sfb_reach md s -> build md e s = Ok bs -> rust_slice md' bs ->
  damaged_rows (fdes_of s) i bs bs' ->
  exists sf sf', load md' e bs = Ok sf /\ load md' e bs' = Ok sf' /\
    forall a, both (both_some (fun en en' => en_fde en = en_fde en')) (fde_for_address md' sf a) (fde_for_address md' sf' a).
Proof.
  intros Hmd HR HB Hlen HD. pose proof (damaged_rows_in _ _ _ _ HD) as HD'.
  destruct (damage_entries md md' e s bs bs' i Hmd HR HB Hlen HD') as (sf' & Hl & Hl' & _ & _ & _ & HL & HE).
  destruct (rows_damage_fdes md md' e s bs bs' i Hmd HR HB Hlen sf' HD Hl') as [HF HI].
  exists (built_sf e s), sf'. split; [exact Hl|]. split; [exact Hl'|]. intros a; apply place_fde; assumption.
Qed.

Lemma same_table md e bs bs' sf sf' :
  wf_mode md -> rust_slice md bs -> rust_slice md bs' -> load md e bs = Ok sf -> load md e bs' = Ok sf' ->
  same_at 0 28 bs bs' -> same_at (spec_entry_pos e bs 0) (spec_num_fdes e bs * spec_entry_size bs) bs bs' ->
  flags sf' = flags sf /\ it_fdes (fdes sf') = it_fdes (fdes sf) /\
  forall k, 0 <= k < spec_num_fdes e bs -> same_at (spec_entry_pos e bs k) (spec_entry_size bs) bs bs'.
Proof.
  intros Hmd Hlen Hlen' Hl Hl' Hh HT.
  pose proof (head_fields _ _ _ _ _ _ Hmd Hlen Hlen' Hl Hl' Hh) as (HV & HB & HN & HO & _).
  assert (HS : forall k, 0 <= k < spec_num_fdes e bs -> same_at (spec_entry_pos e bs k) (spec_entry_size bs) bs bs').
  { intros k Hk. destruct (load_ok _ _ _ _ Hmd Hlen Hl) as (_ & L & _).
    destruct (spec_fields2 e bs L) as (_ & _ & _ & E6 & _ & _ & _ & E10 & _).
    pose proof (rd_u1 e 7 bs). pose proof (rd_u4 e 20 bs).
    unfold spec_entry_pos, spec_base, spec_header_size in *. rewrite E6, E10 in *.
    assert (E : spec_entry_size bs = 17 \/ spec_entry_size bs = 20) by (unfold spec_entry_size; destruct (spec_version bs =? 1); auto).
    destruct E as [E|E]; rewrite E in *; (eapply same_sub; [exact HT|lia..]). }
  split; [|split; [|exact HS]].
  - destruct (load_accessors _ _ _ _ Hmd Hlen Hl) as (_ & F & _). destruct (load_accessors _ _ _ _ Hmd Hlen' Hl') as (_ & F' & _).
    rewrite F, F'. destruct (load_ok _ _ _ _ Hmd Hlen Hl) as (_ & L & _). destruct (load_ok _ _ _ _ Hmd Hlen' Hl') as (_ & L' & _).
    destruct (spec_fields e bs ltac:(lia)) as (_ & _ & ->). destruct (spec_fields e bs' ltac:(lia)) as (_ & _ & ->).
    assert (S : same_at 3 1 bs bs') by (apply (same_sub 0 28); try lia; exact Hh). unfold same_at, slice in S.
    unfold rd_u, sub_bytes. change (Z.to_nat 3) with 3%nat in S. change (Z.to_nat 1) with 1%nat in S. rewrite S. reflexivity.
  - pose proof (loaded_fdes_length _ _ _ _ Hmd Hlen Hl) as N1. pose proof (loaded_fdes_length _ _ _ _ Hmd Hlen' Hl') as N2.
    apply list_eq_nth. intros k. destruct (Z.lt_ge_cases (Z.of_nat k) (spec_num_fdes e bs)) as [Hk|Hk].
    + pose proof (loaded_record md e bs _ (Z.of_nat k) Hmd Hlen Hl ltac:(lia)) as R1.
      pose proof (loaded_record md e bs' _ (Z.of_nat k) Hmd Hlen' Hl' ltac:(lia)) as R2.
      cbv zeta in R1, R2. rewrite Nat2Z.id in R1, R2. rewrite R1, R2.
      pose proof (HS (Z.of_nat k) ltac:(lia)) as S.
      unfold same_at in S. unfold spec_entry_pos, spec_entry_size in *. rewrite <- HV, <- HB, <- HO, S. reflexivity.
    + rewrite !(proj2 (nth_error_None _ _)); [reflexivity| |]; unfold zlen in *; lia.
Qed.

Theorem unsorted_lookup_own_bytes md e bs bs' sf sf' a en :
  wf_mode md -> rust_slice md bs -> rust_slice md bs' -> load md e bs = Ok sf -> load md e bs' = Ok sf' -> ~ sorted_flag sf ->
  same_at 0 28 bs bs' -> same_at (spec_entry_pos e bs 0) (spec_num_fdes e bs * spec_entry_size bs) bs bs' ->
  fde_for_address md sf a = Ok (Some en) ->
  exists k, 0 <= k < spec_num_fdes e bs /\ nth_error (all_fdes sf) (Z.to_nat k) = Some en /\
    let d := spec_entry e bs k in
    forall aw l rest, width_of (bits 0 3 (sd_info d)) = Some aw ->
      spec_rows_at e aw (spec_rows_of e bs d) l rest -> zlen l = sd_num_fres d ->
      same_at (spec_rows_pos e bs d) (zlen (spec_rows_of e bs d) - zlen rest) bs bs' ->
      exists en', fde_for_address md sf' a = Ok (Some en') /\ reads_alike md e en en'.
Proof.
  intros Hmd Hlen Hlen' Hl Hl' HU Hh HT Ha.
  destruct (same_table md e bs bs' sf sf' Hmd Hlen Hlen' Hl Hl' Hh HT) as (HF & HI & HS).
  destruct (unsorted_index md sf sf' a en HF HI HU Ha) as (k & en' & H1 & H2 & H3).
  destruct (all_fdes_spec md e bs sf Hmd Hlen Hl) as [Hz _].
  assert (Hk : (k < length (all_fdes sf))%nat) by (apply nth_error_Some; congruence).
  exists (Z.of_nat k). split; [unfold zlen in *; lia|]. rewrite Nat2Z.id. split; [exact H1|]. intros d aw l rest Haw Hr Hn Hs.
  destruct (own_bytes md e bs bs' sf sf' (Z.of_nat k) aw l rest) as (x & y & X & Y & R); try assumption; try (unfold zlen in *; lia).
  - apply HS. unfold zlen in *. lia.
  - rewrite Nat2Z.id in X, Y. rewrite H1 in X. rewrite H2 in Y. injection X as <-. injection Y as <-. exists en'. auto.
Qed.

(** ** C116 *)

Section Versions.
  Variables (md : mode) (e : endian) (sf sf' : sframe).
  Hypothesis Hmd : wf_mode md.
  Hypothesis HP : fixed_fp_offset sf = fixed_fp_offset sf'.
  Hypothesis HR : fixed_ra_offset sf = fixed_ra_offset sf'.

  Definition moved (f' : fde) (fr : fre) : fre := {| fr_fde := f'; fr_start := fr_start fr; fr_info := fr_info fr; fr_offsets := fr_offsets fr |}.

  Lemma moved_says f' fr : fde_start_address f' = fde_start_address (fr_fde fr) -> says_same md sf sf' fr (moved f' fr).
  Proof.
    intros H. unfold says_same, row_says, fre_start_address, fre_ra_offset, fre_fp_offset. rewrite HP, HR.
    cbn [moved fr_fde fr_start]. rewrite H. reflexivity.
  Qed.

  Section Function.
    Variables f f' : fde.
    Hypothesis Hf : fde_ok f.
    Hypothesis Hf' : fde_ok f'.
    Hypothesis HS : same_but_rep (view_fde f) (view_fde f').

    Lemma same_load bs : fre_load md e f' bs =
      match fre_load md e f bs with Ok (fr, rest) => Ok (moved f' fr, rest) | Err er => Err er | Panic => Panic end /\
      forall fr rest, fre_load md e f bs = Ok (fr, rest) -> fr_fde fr = f.
    Proof.
      pose proof (fre_load_table md e f bs Hmd Hf) as T. pose proof (fre_load_table md e f' bs Hmd Hf') as T'.
      destruct HS as (_ & S2 & _ & _ & S5). cbn [view_fde sd_size sd_info] in S2, S5. rewrite <- S5, <- S2 in T'.
      destruct (width_of (fre_type_num (fde_info f))) as [aw|]; [|rewrite T, T'; split; [reflexivity|discriminate]].
      destruct (zlen bs <? aw + 1); [rewrite T, T'; split; [reflexivity|discriminate]|]. cbv zeta in T, T'.
      destruct (3 <? _); [rewrite T, T'; split; [reflexivity|discriminate]|].
      destruct (width_of (bits 5 2 _)) as [ow|]; [|rewrite T, T'; split; [reflexivity|discriminate]].
      destruct (zlen bs <? _); [rewrite T, T'; split; [reflexivity|discriminate]|].
      destruct (_ <? fde_size f); rewrite T, T'; (split; [reflexivity|]); [|discriminate].
      intros fr rest [= <- _]. reflexivity.
    Qed.

    Lemma start_moved fr : fr_fde fr = f -> says_same md sf sf' fr (moved f' fr).
    Proof. intros E. apply moved_says. rewrite E. symmetry. apply HS. Qed.

    Lemma same_iter fuel : forall bs idx,
      both (Forall2 (item_same md sf sf')) (fri_collect fuel md e (FreIter f bs idx)) (fri_collect fuel md e (FreIter f' bs idx)) /\
      forall p, (forall fr fr', fr_start fr = fr_start fr' -> p fr = p fr') ->
        both (both_some (says_same md sf sf')) (fri_find fuel md e p (FreIter f bs idx)) (fri_find fuel md e p (FreIter f' bs idx)).
    Proof.
      assert (HN : fde_num_fres f' = fde_num_fres f) by (symmetry; apply HS).
      induction fuel as [|k IH]; intros bs idx; [split; cbn; auto|].
      cbn [fri_collect fri_find]. unfold fri_next. cbn [ri_fde ri_fres ri_index]. rewrite HN.
      destruct (fde_num_fres f <=? idx); [split; cbn; auto; constructor|].
      destruct (same_load bs) as [E1 E2]. rewrite E1. destruct (fre_load md e f bs) as [[fr rest]|er|].
      - specialize (E2 fr rest eq_refl). destruct (IH rest (idx + 1)) as [I1 I2]. split.
        + destruct (fri_collect k md e (FreIter f rest (idx + 1))) as [l|er|], (fri_collect k md e (FreIter f' rest (idx + 1))) as [l'|er'|];
            cbn in I1 |- *; try contradiction; auto. constructor; [apply start_moved, E2|exact I1].
        + intros p Hp. rewrite (Hp (moved f' fr) fr eq_refl). destruct (p fr); [cbn; apply start_moved, E2|apply I2, Hp].
      - destruct (IH bs u32_max) as [I1 I2]. split; [|intros; cbn; auto].
        destruct (fri_collect k md e (FreIter f bs u32_max)) as [l|er0|], (fri_collect k md e (FreIter f' bs u32_max)) as [l'|er'|];
            cbn in I1 |- *; try contradiction; auto. constructor; [reflexivity|exact I1].
      - split; cbn; auto.
    Qed.

    Lemma same_entry r : (en_fdetype (Entry f r) = PPcInc <-> en_fdetype (Entry f' r) = PPcInc) -> reads_same md e sf sf' (Entry f r) (Entry f' r).
    Proof.
      intros HT. split; [exact HS|]. split; [apply HS|]. split; [apply HS|].
      split; [unfold en_pauth_key; cbn [en_fde]; f_equal; apply HS|]. split; [exact HT|].
      split; [apply same_iter|]. intros Ht a. apply HT in Ht as HT'. clear HT. rename HT' into HT.
      unfold get_fre_for_address. rewrite Ht, HT. destruct HS as (S1 & S2 & _).
      cbn [view_fde sd_start sd_size] in S1, S2. unfold en_start_address, en_size. cbn [en_fde]. rewrite <- S1, <- S2.
      destruct (a <? _); [exact I|]. destruct (sub_i32 md a (fde_start_address f)) as [d|er|]; cbn [bind]; [|reflexivity|exact I].
      destruct (_ <? _); [exact I|]. apply same_iter. intros fr fr' E. rewrite E. reflexivity.
    Qed.
  End Function.
End Versions.

Lemma inc_alike f f' : same_but_rep (view_fde f) (view_fde f') -> fde_fdetype f = PPcInc -> fde_fdetype f' = PPcInc.
Proof.
  intros (_ & _ & _ & _ & H). cbn [view_fde sd_info] in H. destruct f as [r|r], f' as [r'|r']; cbn [fde_info fde_fdetype] in *; rewrite H;
    destruct (fdetype _); congruence || reflexivity.
Qed.

Lemma Forall2_pointwise {A B} (P : A -> B -> Prop) l l' : length l = length l' ->
  (forall i a b, nth_error l i = Some a -> nth_error l' i = Some b -> P a b) -> Forall2 P l l'.
Proof.
  revert l'. induction l as [|a t IH]; intros [|b t'] HL H; cbn in HL; try lia; constructor.
  - apply (H 0%nat); reflexivity.
  - apply IH; [lia|]. intros i. apply (H (S i)).
Qed.

Section Transcribed.
  Variables (md : mode) (e : endian) (bs bs' : bytes) (sf sf' : sframe).
  Hypothesis Hmd : wf_mode md.
  Hypothesis Hlen : rust_slice md bs.
  Hypothesis Hlen' : rust_slice md bs'.
  Hypothesis Hl : load md e bs = Ok sf.
  Hypothesis Hl' : load md e bs' = Ok sf'.
  Hypothesis HT : transcribed e bs bs'.

  Lemma trans_fields : flags sf = flags sf' /\ fixed_fp_offset sf = fixed_fp_offset sf' /\ fixed_ra_offset sf = fixed_ra_offset sf' /\ sf_fres sf = sf_fres sf'.
  Proof.
    destruct HT as (_ & _ & T1 & T2 & T3 & _ & T4 & _).
    destruct (load_ok _ _ _ _ Hmd Hlen Hl) as (E & L & _). destruct (load_ok _ _ _ _ Hmd Hlen' Hl') as (E' & L' & _).
    destruct (spec_fields e bs ltac:(lia)) as (_ & _ & F1). destruct (spec_fields e bs' ltac:(lia)) as (_ & _ & F1').
    destruct (spec_fields2 e bs L) as (_ & F2 & F3 & F4 & _ & _ & F5 & _ & F6). destruct (spec_fields2 e bs' L') as (_ & F2' & F3' & F4' & _ & _ & F5' & _ & F6').
    unfold flags, fixed_fp_offset, fixed_ra_offset. rewrite E, E'. cbn [loaded sf_preamble pre_flags sf_fixed_fp sf_fixed_ra sf_fres].
    rewrite <- F1, <- F1', <- F2, <- F2', <- F3, <- F3', T1, T2, T3. repeat (split; [reflexivity|]).
    pose proof T4 as T5. unfold spec_fre_bytes, spec_base, spec_header_size, slice in T5. rewrite F4, F4', F5, F5', F6, F6' in T5.
    unfold sub_bytes, HEADER_SIZE. pose proof (rd_u1 e 7 bs). pose proof (rd_u1 e 7 bs'). pose proof (rd_u4 e 24 bs). pose proof (rd_u4 e 24 bs').
    rewrite !Z2Nat.inj_add in T5 by lia. exact T5.
  Qed.

  Lemma trans_fdes : Forall2 (fun f f' => fde_ok f /\ fde_ok f' /\ same_but_rep (view_fde f) (view_fde f')) (it_fdes (fdes sf)) (it_fdes (fdes sf')).
  Proof.
    destruct HT as (_ & _ & _ & _ & _ & T5 & _ & T6).
    pose proof (loaded_fdes_length _ _ _ _ Hmd Hlen Hl) as N. pose proof (loaded_fdes_length _ _ _ _ Hmd Hlen' Hl') as N'.
    pose proof (loaded_fdes_ok _ _ _ _ Hmd Hlen Hl) as K. pose proof (loaded_fdes_ok _ _ _ _ Hmd Hlen' Hl') as K'. rewrite Forall_forall in K, K'.
    apply Forall2_pointwise; [unfold zlen in *; lia|]. intros i f f' H H'.
    assert (Hi : (i < length (it_fdes (fdes sf)))%nat) by (apply nth_error_Some; congruence).
    split; [apply K; eapply nth_error_In, H|]. split; [apply K'; eapply nth_error_In, H'|].
    destruct (loaded_fdes_nth md e bs sf (Z.of_nat i) Hmd Hlen Hl ltac:(unfold zlen in *; lia)) as (g & G1 & G2).
    destruct (loaded_fdes_nth md e bs' sf' (Z.of_nat i) Hmd Hlen' Hl' ltac:(unfold zlen in *; lia)) as (g' & G1' & G2').
    rewrite Nat2Z.id in G1, G1'. rewrite H in G1. rewrite H' in G1'. injection G1 as ->. injection G1' as ->.
    rewrite G2, G2'. apply T6. unfold zlen in *. lia.
  Qed.

  Lemma trans_entry f f' r : fde_ok f -> fde_ok f' -> same_but_rep (view_fde f) (view_fde f') -> reads_same md e sf sf' (Entry f r) (Entry f' r).
  Proof.
    intros K K' S. destruct trans_fields as (_ & P & R & _). apply same_entry; try assumption. split; apply inc_alike; [exact S|].
    destruct S as (S1 & S2 & S3 & S4 & S5). repeat split; symmetry; assumption.
  Qed.

  Theorem transcription_reads_same :
    Forall2 (reads_same md e sf sf') (all_fdes sf) (all_fdes sf') /\
    forall a, both (both_some (reads_same md e sf sf')) (fde_for_address md sf a) (fde_for_address md sf' a).
  Proof.
    pose proof trans_fdes as HF. destruct trans_fields as (F & _ & _ & R). split.
    - rewrite !all_fdes_map. rewrite R. clear - HF R Hmd Hlen Hlen' Hl Hl' HT. induction HF as [|f f' l l' (K & K' & S) HF IH]; cbn [map]; constructor; [|exact IH].
      unfold entry_of. assert (E : fde_start_fre_off f = fde_start_fre_off f') by apply S. rewrite E. apply trans_entry; assumption.
    - intros a. unfold fde_for_address. rewrite <- F.
      assert (HS : Forall2 same_span (it_fdes (fdes sf)) (it_fdes (fdes sf'))).
      { clear - HF. induction HF as [|f f' l l' (K & K' & S) HF IH]; constructor; [|exact IH]. split; apply S. }
      assert (HL : length (it_fdes (fdes sf)) = length (it_fdes (fdes sf'))) by (clear - HF; induction HF; cbn; congruence).
      destruct (negb _).
      + pose proof (same_span_find md a (sf_fres sf) (sf_fres sf') _ _ HS (S (length (it_fdes (fdes sf)))) (S (length (it_fdes (fdes sf')))) ltac:(lia) ltac:(lia)) as H.
        change (FdeIter (it_fdes (fdes sf)) (sf_fres sf)) with (fdes sf) in H. change (FdeIter (it_fdes (fdes sf')) (sf_fres sf')) with (fdes sf') in H.
        destruct (fdi_find _ md a (fdes sf)) as [[en|]| |], (fdi_find _ md a (fdes sf')) as [[en'|]| |]; try contradiction; cbn; auto.
        destruct H as (k & H1 & H2). rewrite nth_error_map in H1, H2. pose proof (Forall2_at _ _ _ HF k) as HK.
        destruct (nth_error (it_fdes (fdes sf)) k) as [f|]; [|discriminate]. destruct (nth_error (it_fdes (fdes sf')) k) as [f'|]; [|discriminate].
        injection H1 as <-. injection H2 as <-. destruct HK as (K & K' & S). unfold entry_of.
        assert (E : fde_start_fre_off f = fde_start_fre_off f') by apply S. rewrite E, R. apply trans_entry; assumption.
      + rewrite (same_span_search md a _ _ HS). destruct (binary_search md (search_cmp md a) (it_fdes (fdes sf'))) as [[k|]|er|]; cbn [bind both both_some]; auto.
        assert (HK : forall (l : list fde), nth_error l k = match skipn k l with [] => None | x :: _ => Some x end).
        { clear. induction k as [|i IH]; intros [|x l]; cbn; try reflexivity; apply IH. }
        pose proof (Forall2_at _ _ _ HF k) as HA. rewrite !HK in HA. unfold fdi_nth.
        destruct (skipn k (it_fdes (fdes sf))) as [|f t], (skipn k (it_fdes (fdes sf'))) as [|f' t']; try contradiction; cbn; auto.
        destruct HA as (K & K' & S). rewrite R. apply trans_entry; assumption.
  Qed.
End Transcribed.
