(** Facts about [RowRepaired.v]: the builder. *)
From Coq Require Import Lia.
From Verif Require Import BaseFacts LoadFacts BTreeFacts WriteFacts ReachFacts EmitFacts RoundFacts TripFacts TripWitness WriteWitness WriteRepairedFacts StdFacts.
From Verif Require Export RowRepaired.
Open Scope Z_scope.
Open Scope list_scope.

(** ** C28 *)

Lemma check_given_cases fixed given u m :
  (agrees fixed given /\ given_if_needed fixed given /\ check_given fixed given u m = Ok (drop_fixed fixed given)) \/
  (~ agrees fixed given /\ check_given fixed given u m = Err u) \/
  (agrees fixed given /\ ~ given_if_needed fixed given /\ check_given fixed given u m = Err m).
Proof.
  unfold check_given, given_if_needed.
  destruct fixed as [f|]; [|destruct given as [g|]].
  - destruct (check_fixed_cases (Some f) given u) as [[A E]|[A E]]; [left|right; left]; rewrite E; auto.
    split; [exact A|]. split; [discriminate|reflexivity].
  - left. split; [intros ? ? X; discriminate|]. split; [discriminate|reflexivity].
  - right. right. split; [intros ? ? X; discriminate|]. split; [intros H; apply H; reflexivity|reflexivity].
Qed.

Definition ra_given (b : fdb) (r : row) : Prop :=
  forall o, r_offsets r = Some o -> given_if_needed (so_fixed_ra (fb_options b)) (ro_ra o).
Definition fp_given (b : fdb) (r : row) : Prop :=
  forall o, r_offsets r = Some o -> given_if_needed (so_fixed_fp (fb_options b)) (ro_fp o).

Lemma strict_cases b r :
  (ra_agrees b r /\ ra_given b r /\ fp_agrees b r /\ fp_given b r /\ normalise_strict (fb_options b) r = Ok (kept_row (fb_options b) r)) \/
  (~ ra_agrees b r /\ normalise_strict (fb_options b) r = Err UnexpectedRaOffset) \/
  (ra_agrees b r /\ ~ ra_given b r /\ normalise_strict (fb_options b) r = Err MissingRaOffset) \/
  (ra_agrees b r /\ ra_given b r /\ ~ fp_agrees b r /\ normalise_strict (fb_options b) r = Err UnexpectedFpOffset) \/
  (ra_agrees b r /\ ra_given b r /\ fp_agrees b r /\ ~ fp_given b r /\ normalise_strict (fb_options b) r = Err MissingFpOffset).
Proof.
  unfold ra_agrees, fp_agrees, ra_given, fp_given, normalise_strict, kept_row.
  destruct r as [st [o|] mg bs]; cbn.
  - assert (Hall : forall P : row_offsets -> Prop, (forall x, Some o = Some x -> P x) <-> P o).
    { intros P. split; [intros H; apply H; reflexivity|intros H x [= <-]; exact H]. }
    rewrite !Hall.
    destruct (check_given_cases (so_fixed_ra (fb_options b)) (ro_ra o) UnexpectedRaOffset MissingRaOffset)
      as [(A & G & ->)|[(A & ->)|(A & G & ->)]]; cbn [bind]; [|tauto|tauto].
    destruct (check_given_cases (so_fixed_fp (fb_options b)) (ro_fp o) UnexpectedFpOffset MissingFpOffset)
      as [(A' & G' & ->)|[(A' & ->)|(A' & G' & ->)]]; cbn [bind]; [left|tauto|tauto].
    repeat (split; [assumption|]). reflexivity.
  - left. repeat (split; [discriminate|]). reflexivity.
Qed.

Ltac violated pre := right; eexists; split; [|reflexivity]; exists pre; eexists; eexists; split; [reflexivity|]; split;
  [assumption|repeat (constructor; [assumption|]); constructor].

Lemma strict_row_cases b r : sorted (fb_fres b) -> keyed (fb_fres b) ->
  (Forall (fun p => fst p) (strict_conditions b r) /\
   fdb_row_strict b r = (fdb_set_fres (bt_insert (r_start r) (kept_row (fb_options b) r) (fb_fres b)) b, Ok tt)) \/
  (exists er, first_violated (strict_conditions b r) er /\ fdb_row_strict b r = (b, Err er)).
Proof.
  intros Hs Hk. unfold fdb_row_strict.
  set (c1 := r_start r < 0x10000000).
  set (c2 := forall rep, fb_rep_size b = Some rep -> r_start r < rep).
  set (c3 := r_start r < fb_size b).
  set (c6 := forall r', In r' (rows_of b) -> r_start r' <> r_start r).
  assert (Hc : strict_conditions b r =
    [(c1, StartAddressTooLarge); (c2, StartAddressLargerThanRepSize); (c3, StartAddressOutsideFde);
     (ra_agrees b r, UnexpectedRaOffset); (ra_given b r, MissingRaOffset);
     (fp_agrees b r, UnexpectedFpOffset); (fp_given b r, MissingFpOffset); (c6, DuplicateRow)])
    by reflexivity.
  rewrite Hc.
  destruct (Z.leb_spec 0x10000000 (r_start r)) as [H1|H1].
  { assert (N : ~ c1) by (unfold c1; lia). violated (@nil (Prop * row_error)). }
  assert (C1 : c1) by (unfold c1; lia).
  destruct (match fb_rep_size b with Some rep => rep <=? r_start r | None => false end) eqn:E2.
  { assert (N : ~ c2).
    { intros H. destruct (fb_rep_size b) as [rep|] eqn:Er; [|discriminate]. specialize (H rep eq_refl). lia. }
    violated [(c1, StartAddressTooLarge)]. }
  assert (C2 : c2) by (intros rep Hr; rewrite Hr in E2; lia).
  destruct (Z.leb_spec (fb_size b) (r_start r)) as [H3|H3].
  { assert (N : ~ c3) by (unfold c3; lia). violated [(c1, StartAddressTooLarge); (c2, StartAddressLargerThanRepSize)]. }
  assert (C3 : c3) by (unfold c3; lia).
  destruct (strict_cases b r) as [(A & G & A' & G' & ->)|[(A & ->)|[(A & G & ->)|[(A & G & A' & ->)|(A & G & A' & G' & ->)]]]].
  2:{ violated [(c1, StartAddressTooLarge); (c2, StartAddressLargerThanRepSize); (c3, StartAddressOutsideFde)]. }
  2:{ violated [(c1, StartAddressTooLarge); (c2, StartAddressLargerThanRepSize); (c3, StartAddressOutsideFde);
        (ra_agrees b r, UnexpectedRaOffset)]. }
  2:{ violated [(c1, StartAddressTooLarge); (c2, StartAddressLargerThanRepSize); (c3, StartAddressOutsideFde);
        (ra_agrees b r, UnexpectedRaOffset); (ra_given b r, MissingRaOffset)]. }
  2:{ violated [(c1, StartAddressTooLarge); (c2, StartAddressLargerThanRepSize); (c3, StartAddressOutsideFde);
        (ra_agrees b r, UnexpectedRaOffset); (ra_given b r, MissingRaOffset); (fp_agrees b r, UnexpectedFpOffset)]. }
  change (r_start (kept_row (fb_options b) r)) with (r_start r).
  destruct (bt_get (r_start r) (fb_fres b)) as [r0|] eqn:Eg.
  - assert (N : ~ c6) by (intros H; pose proof (proj2 (get_dup b r Hs Hk) H); congruence).
    violated [(c1, StartAddressTooLarge); (c2, StartAddressLargerThanRepSize); (c3, StartAddressOutsideFde);
        (ra_agrees b r, UnexpectedRaOffset); (ra_given b r, MissingRaOffset); (fp_agrees b r, UnexpectedFpOffset);
        (fp_given b r, MissingFpOffset)].
  - left. split; [|reflexivity].
    pose proof (proj1 (get_dup b r Hs Hk) Eg) as C6. repeat (constructor; [assumption|]). constructor.
Qed.

Theorem strict_accepts b r : fdb_reach b ->
  (snd (fdb_row_strict b r) = Ok tt <-> Forall (fun p => fst p) (strict_conditions b r)) /\
  (forall er, snd (fdb_row_strict b r) = Err er <-> first_violated (strict_conditions b r) er) /\
  snd (fdb_row_strict b r) <> Panic.
Proof.
  intros H. apply fdb_reach_wf in H.
  destruct (strict_row_cases b r ltac:(apply H) ltac:(apply H)) as [[HF E]|(er & Hv & E)]; rewrite E; cbn [snd].
  - split; [tauto|]. split; [|discriminate]. intros er. split; [discriminate|].
    intros Hv. exfalso. exact (first_violated_not_all _ _ Hv HF).
  - split; [split; [discriminate|intros HF; exfalso; exact (first_violated_not_all _ _ Hv HF)]|].
    split; [|discriminate]. intros er'. split.
    + intros [= <-]. exact Hv.
    + intros Hv'. f_equal. exact (first_violated_fun _ _ _ Hv Hv').
Qed.

(** What the strict [row] accepts, [row] accepts with the same effect. *)
Lemma strict_same b r : fdb_reach b -> snd (fdb_row_strict b r) = Ok tt -> fdb_row_strict b r = fdb_row_st b r.
Proof.
  intros H E. apply fdb_reach_wf in H.
  destruct (strict_row_cases b r ltac:(apply H) ltac:(apply H)) as [[HF E1]|(er & Hv & E1)]; rewrite E1 in *; [|discriminate].
  destruct (row_cases b r ltac:(apply H) ltac:(apply H)) as [[_ E2]|(er & Hv & E2)]; rewrite E2; [reflexivity|].
  exfalso. apply (first_violated_not_all _ _ Hv). unfold strict_conditions in HF. unfold row_conditions.
  repeat match goal with X : Forall _ (_ :: _) |- _ => inversion X; clear X; subst end.
  repeat (constructor; [assumption|]). constructor.
Qed.
Lemma strict_fst b r : fdb_reach b ->
  fst (fdb_row_strict b r) = b \/ (snd (fdb_row_strict b r) = Ok tt /\ fst (fdb_row_strict b r) = fst (fdb_row_st b r)).
Proof.
  intros H. destruct (snd (fdb_row_strict b r)) as [[]|er|] eqn:E.
  - right. split; [reflexivity|]. rewrite (strict_same b r H E). reflexivity.
  - left. pose proof (fdb_reach_wf _ H) as W.
    destruct (strict_row_cases b r ltac:(apply W) ltac:(apply W)) as [[_ E1]|(er' & _ & E1)]; rewrite E1 in *; [discriminate|reflexivity].
  - exfalso. apply (proj2 (proj2 (strict_accepts b r H))), E.
Qed.

(** ** C39: builders with a checked [size] *)

Lemma size_checked_cases n b :
  fdb_size_checked n b = b \/ (fdb_size_checked n b = fdb_set_size n b /\ Forall (fun r => r_start r < n) (rows_of b)).
Proof.
  unfold fdb_size_checked. destruct (forallb _ _) eqn:E; [right|left; reflexivity]. split; [reflexivity|].
  apply Forall_forall. intros r Hr. rewrite forallb_forall in E. specialize (E r Hr). cbv beta in E. lia.
Qed.

(** A row whose offsets are all known. *)
Definition row_known (o : sframe_options) (r : row) : Prop :=
  forall x, r_offsets r = Some x -> given_if_needed (so_fixed_ra o) (ro_ra x) /\ given_if_needed (so_fixed_fp o) (ro_fp x).
Definition rows_known (b : fdb) : Prop := Forall (row_known (fb_options b)) (rows_of b).

Lemma drop_needed fixed given : given_if_needed fixed given -> given_if_needed fixed (drop_fixed fixed given).
Proof. unfold given_if_needed, drop_fixed. intros H ->. apply H. reflexivity. Qed.

Lemma row_rows b r : fdb_reach b -> Forall (fun p => fst p) (row_conditions b r) ->
  forall x, In x (rows_of (fst (fdb_row_st b r))) -> x = kept_row (fb_options b) r \/ In x (rows_of b).
Proof.
  intros H HF x. pose proof (fdb_reach_wf _ H) as W.
  destruct (row_cases b r ltac:(apply W) ltac:(apply W)) as [[_ E]|(er & Hv & _)]; [|exfalso; exact (first_violated_not_all _ _ Hv HF)].
  rewrite E. cbn [fst]. unfold rows_of, fdb_set_fres. cbn [fb_fres]. intros Hx.
  apply in_map_iff in Hx. destruct Hx as ([k v] & <- & Hi). apply in_insert in Hi.
  destruct Hi as [Hi|Hi]; [left; injection Hi as _ ->; reflexivity|right; apply in_map_iff; exists (k, v); auto].
Qed.

Lemma row_options b r : fb_options (fst (fdb_row_st b r)) = fb_options b.
Proof.
  unfold fdb_row_st. destruct (_ <=? _); [reflexivity|]. destruct (match fb_rep_size b with Some _ => _ | None => _ end); [reflexivity|].
  destruct (_ <=? _); [reflexivity|]. destruct (normalise_offsets _ _); try reflexivity. destruct (bt_get _ _); reflexivity.
Qed.

Lemma row_known_strict b r : fdb_reach b -> snd (fdb_row_strict b r) = Ok tt -> rows_known b -> rows_known (fst (fdb_row_st b r)).
Proof.
  intros H E K. pose proof (proj1 (proj1 (strict_accepts b r H)) E) as HF.
  unfold rows_known in *. rewrite row_options. rewrite Forall_forall in K. apply Forall_forall. intros x Hx.
  apply row_rows in Hx; [|exact H|].
  2:{ unfold strict_conditions in HF. unfold row_conditions.
      repeat match goal with X : Forall _ (_ :: _) |- _ => inversion X; clear X; subst end.
      repeat (constructor; [assumption|]). constructor. }
  destruct Hx as [-> |Hx]; [|apply K, Hx].
  intros y Hy. unfold kept_row in Hy. cbn [r_offsets] in Hy. destruct (r_offsets r) as [o|] eqn:Eo; [|discriminate]. injection Hy as <-.
  cbn [ro_ra ro_fp]. unfold strict_conditions in HF. repeat match goal with X : Forall _ (_ :: _) |- _ => inversion X; clear X; subst end.
  cbn [fst] in *. split; apply drop_needed; auto.
Qed.

Theorem fdb_checked_reach strict b : fdb_checked strict b -> fdb_reach b /\ rows_inside b /\ (strict = true -> rows_known b).
Proof.
  induction 1 as [o st sz Ho Hs Hz|b _ (IH1 & IH2 & IH3)|rep b Hr _ (IH1 & IH2 & IH3)|a b Ha _ (IH1 & IH2 & IH3)
    |n b Hn _ (IH1 & IH2 & IH3)|k b _ (IH1 & IH2 & IH3)|r b Ht _ (IH1 & IH2 & IH3)|b b' _ (IH1 & IH2 & IH3) Hm].
  - split; [constructor; assumption|]. split; [constructor|]. intros _. constructor.
  - split; [constructor; assumption|]. split; [exact IH2|exact IH3].
  - split; [constructor; assumption|]. split; [exact IH2|exact IH3].
  - split; [constructor; assumption|]. split; [exact IH2|exact IH3].
  - destruct (size_checked_cases n b) as [-> |[-> HF]]; [auto|].
    split; [constructor; assumption|]. split; [exact HF|exact IH3].
  - split; [constructor; assumption|]. split; [exact IH2|exact IH3].
  - destruct strict.
    + destruct (strict_fst b r IH1) as [-> |[E ->]]; [auto|].
      split; [constructor; assumption|]. split; [apply row_inside, IH2|]. intros _. apply row_known_strict; auto.
    + split; [constructor; assumption|]. split; [apply row_inside, IH2|discriminate].
  - split; [eapply br_merge; eassumption|].
    destruct (reach_merge_minimal b IH1) as (b2 & Hm2 & _ & Hin & _). rewrite Hm in Hm2. injection Hm2 as <-.
    destruct (reach_merge_rows b b' 0 (None, false, Fp) IH1 Hm) as (Hop & _ & Hsz & _).
    unfold rows_inside, rows_known in *. rewrite Hop, Hsz, Forall_forall in *. split; [intros r Hr; apply IH2, Hin, Hr|].
    intros Es. specialize (IH3 Es). rewrite Forall_forall in *. intros r Hr. apply IH3, Hin, Hr.
Qed.

Lemma fsquash_known {E} md k cur t : forall r, @fsquash E md k cur t = Ok r -> rows_known cur ->
  Forall rows_known (map snd t) -> Forall rows_known (map snd r).
Proof.
  revert k cur. induction t as [|[k' n] t IH]; intros k cur r H Hc Ht; cbn [fsquash] in H.
  - injection H as <-. repeat constructor. exact Hc.
  - cbn [map snd] in Ht. inversion Ht as [|? ? Hn Ht']; subst.
    destruct (should_merge md cur n) as [[|]|er|]; cbn [bind] in H; try discriminate.
    + eapply IH; [exact H|exact Hc|exact Ht'].
    + apply bind_ok in H. destruct H as (r1 & H1 & H2). injection H2 as <-. cbn [map snd]. constructor; [exact Hc|].
      eapply IH; eassumption.
Qed.

Theorem sfb_checked_reach strict md s : sfb_checked strict md s ->
  sfb_reach md s /\ Forall rows_inside (fdes_of s) /\ (strict = true -> Forall rows_known (fdes_of s)).
Proof.
  induction 1 as [o Ho|s b s' _ (IH1 & IH2 & IH3) Hb Hf|s s' _ (IH1 & IH2 & IH3) Hm].
  - split; [constructor; exact Ho|]. split; [constructor|]. intros _. constructor.
  - destruct (fdb_checked_reach strict b Hb) as (B1 & B2 & B3). split; [eapply sr_fde; eassumption|].
    unfold sfb_fde in Hf. destruct (options_eqb _ _); [|discriminate]. injection Hf as <-.
    unfold fdes_of in *. cbn [sb_fdes].
    assert (HI : forall P : fdb -> Prop, P b -> Forall P (map snd (sb_fdes s)) -> Forall P (map snd (bt_insert (fb_start b) b (sb_fdes s)))).
    { intros P Hp Hall. rewrite Forall_forall in *. intros x Hx.
      apply in_map_iff in Hx. destruct Hx as ([k v] & <- & Hi). cbn [snd].
      apply in_insert in Hi. destruct Hi as [Hi|Hi]; [injection Hi as _ ->; exact Hp|].
      apply Hall. apply in_map_iff. exists (k, v). auto. }
    split; [apply HI; assumption|]. intros Es. apply HI; auto.
  - split; [eapply sr_merge; eassumption|]. pose proof (sfb_reach_wf _ _ IH1) as W.
    rewrite merge_fdes_eq in Hm by apply W. unfold fdes_of in *.
    apply bind_ok in Hm. destruct Hm as (r & H1 & H2). injection H2 as <-. cbn [sb_fdes].
    destruct (sb_fdes s) as [|[k c] t] eqn:Es; cbn [fsquashed] in H1.
    + injection H1 as <-. split; [constructor|]. intros _. constructor.
    + assert (Hz : Forall (fun b => 0 <= fb_size b) (map snd ((k, c) :: t))).
      { rewrite <- Es. eapply Forall_impl; [|apply wf_fdes, W]. intros b [_ _ [Hb _] _]. exact Hb. }
      cbn [map snd] in *. inversion Hz as [|? ? Hz1 Hz2]; subst. inversion IH2 as [|? ? I1 I2]; subst. split.
      * eapply fsquash_inside; [exact H1|exact Hz1|exact I1|]. rewrite Forall_forall in *. auto.
      * intros Et. specialize (IH3 Et). inversion IH3 as [|? ? K1 K2]; subst. eapply fsquash_known; eassumption.
Qed.

Theorem checked_readable strict md md' e s bs : sfb_checked strict md s -> build md e s = Ok bs -> wf_mode md' -> rust_slice md' bs ->
  exists sf, load md' e bs = Ok sf /\ Forall (reads_well md' e) (all_fdes sf).
Proof.
  intros H B Hm Hs. destruct (sfb_checked_reach _ _ _ H) as (HR & HI & _). destruct (built md e s bs HR B) as (W & E & T & _).
  subst bs. pose proof (image_loads md' e s Hm W T Hs) as HL. eexists. split; [exact HL|].
  apply (trip_readable md md' e s _ _ HR B Hm Hs HL). exact HI.
Qed.

(** With the strict [row], every row that has offsets has all three. *)
Lemma known_whole o r : row_known o r -> r_offsets r <> None ->
  uw_cfa (intended o r) <> None /\ uw_ra (intended o r) <> None /\ uw_fp (intended o r) <> None.
Proof.
  intros K H. unfold intended. cbn [uw_cfa uw_ra uw_fp]. destruct (r_offsets r) as [x|] eqn:E; [|congruence].
  destruct (K x E) as [K1 K2]. unfold given_if_needed in *. split; [discriminate|].
  split; unfold or_fixed; [destruct (so_fixed_ra o)|destruct (so_fixed_fp o)]; try discriminate; auto.
Qed.
Theorem strict_whole b r : fdb_checked true b -> In r (rows_of b) -> r_offsets r <> None ->
  let u := intended (fb_options b) r in uw_cfa u <> None /\ uw_ra u <> None /\ uw_fp u <> None.
Proof.
  intros H Hr Ho. destruct (fdb_checked_reach _ _ H) as (_ & _ & K). specialize (K eq_refl).
  unfold rows_known in K. rewrite Forall_forall in K. apply known_whole; auto.
Qed.
Lemma known_plain o r : row_known o r -> ~ ambiguous o r.
Proof. intros K (F & x & Ex & Er & _). destruct (K x Ex) as [K1 _]. exact (K1 F Er). Qed.

(** ... so that the only rows misread are the tied ones. *)
Theorem strict_round md md' e s bs : sfb_checked true md s -> build md e s = Ok bs -> wf_mode md' -> rust_slice md' bs ->
  exists sf, load md' e bs = Ok sf /\
    Forall2 (fun b en => exists good, all_fres md' e en = Ok (map inl good) /\
      Forall2 (fun r fr => fre_start_address_offset fr = r_start r /\ (observed sf fr = intended (sb_options s) r <-> ~ tied r))
        (rows_of b) good) (fdes_of s) (all_fdes sf).
Proof.
  intros H B Hm Hs. destruct (sfb_checked_reach _ _ _ H) as (HR & HI & HK). specialize (HK eq_refl).
  destruct (built md e s bs HR B) as (W & E & T & _).
  subst bs. pose proof (image_loads md' e s Hm W T Hs) as HL. eexists. split; [exact HL|].
  pose proof (trip_rows md md' e s _ _ HR B Hm Hs HL) as HF. match type of HF with Forall2 (rows_result _ _ _ ?x) _ _ => set (sf := x) in * end. clearbody sf.
  assert (HO : Forall (fun b => fb_options b = sb_options s) (fdes_of s)).
  { eapply Forall_impl; [|apply (sw_fdes _ W)]. intros b Hb. apply Hb. }
  revert HI HK HO. generalize dependent (all_fdes sf). generalize (fdes_of s). clear HL B H W T Hs HR.
  intros l l' HF. induction HF as [|b en t t' [R1 _] _ IH]; intros HI HK HO; constructor.
  - inversion HI; subst. inversion HK as [|? ? Kb _]; subst. inversion HO as [|? ? Ob _]; subst. destruct (R1 ltac:(assumption)) as (good & EG & G). exists good. split; [exact EG|].
    unfold rows_known in Kb. rewrite Ob in Kb. clear - G Kb. induction G as [|r fr t t' (G1 & _ & G3) _ IH]; constructor.
    + split; [exact G1|]. inversion Kb as [|? ? K1 K2]; subst. pose proof (known_plain _ _ K1). tauto.
    + inversion Kb; subst. apply IH. assumption.
  - inversion HI; subst. inversion HK; subst. inversion HO; subst. apply IH; assumption.
Qed.

(** ** C34 *)

Lemma gap_overlap {E} md l : @has_overlap_with E gap_only md l = has_overlap_with all_fixes md l.
Proof. induction l as [|a [|b t] IH]; try reflexivity. rewrite xoverlap_step, <- IH. reflexivity. Qed.
Lemma gap_rows {E} e ty l : @rows_bytes_with E gap_only e ty l = rows_bytes e ty l.
Proof. induction l as [|r t IH]; [reflexivity|]. cbn [rows_bytes_with rows_bytes]. rewrite IH. reflexivity. Qed.
Lemma gap_fdes e l : forall st, emit_fdes_with gap_only e st l = emit_fdes e st l.
Proof.
  induction l as [|b t IH]; intros st; [reflexivity|]. cbn [emit_fdes_with emit_fdes].
  assert (E0 : emit_fde_with gap_only e st b = emit_fde e st b).
  { unfold emit_fde_with, emit_fde. destruct (negb _); [reflexivity|]. destruct (addr_type _) as [ty| |]; try reflexivity. cbn [bind].
    destruct (negb _); [reflexivity|]. rewrite gap_rows. reflexivity. }
  rewrite E0. destruct (emit_fde e st b) as [st'| |]; cbn [bind]; [apply IH|reflexivity|reflexivity].
Qed.

(** With this one repair every profile builds what the release profile builds. *)
Theorem gap_release md e s : sfb_reach md s -> build_with gap_only md e s = emitted (build rel64 e s).
Proof.
  intros H. pose proof (sfb_reach_wf _ _ H) as W. unfold build_with. cbn [gap_only fix_refuse andb]. unfold emit_with, build.
  change (bt_values (sb_fdes s)) with (fdes_of s). rewrite gap_overlap, gap_fdes.
  pose proof (has_overlap_cases (E := emit_error) rel64 (fdes_of s) (wf_starts s W)) as HC.
  destruct (@xoverlap_cases emit_error md (fdes_of s) (proj1 (wf_starts s W))) as [[-> P]|[-> P]];
    destruct (@has_overlap emit_error rel64 (fdes_of s)) as [[|]|er|]; try contradiction; try reflexivity.
  - destruct HC as [HC _]. contradiction.
  - destruct HC as [HC _]. discriminate.
  - destruct HC as [HC _]. discriminate.
Qed.
Theorem gap_exact md e s : sfb_reach md s ->
  (build_with gap_only md e s = Err (Emitting OverlappingFdes) <-> overlapping s) /\
  (build_with gap_only md e s = Err (Emitting SectionTooLarge) <-> ~ overlapping s /\ too_large s) /\
  ((exists bs, build_with gap_only md e s = Ok bs) <-> ~ overlapping s /\ ~ too_large s) /\
  build_with gap_only md e s <> Panic.
Proof.
  intros H. rewrite (gap_release md e s H). pose proof (sfb_reach_wf _ _ H) as W.
  destruct (build_cases rel64 e s W) as [(_ & X & _)|[(E & O)|(O & _ & [[T E]|[T E]])]]; [discriminate X|..]; rewrite E; cbn [emitted].
  - split; [tauto|]. split; [split; [discriminate|tauto]|]. split; [|discriminate]. split; [intros [bs X]; discriminate|tauto].
  - split; [split; [discriminate|tauto]|]. split; [tauto|]. split; [|discriminate]. split; [intros [bs X]; discriminate|tauto].
  - split; [split; [discriminate|tauto]|]. split; [split; [discriminate|tauto]|]. split; [|discriminate]. split; [auto|]. intros _. eexists. reflexivity.
Qed.
