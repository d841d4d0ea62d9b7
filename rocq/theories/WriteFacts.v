(** The builder methods: [row] (C26-C28), [fde] (C30), insertion order (C31). *)
From Verif Require Export BaseFacts BTreeFacts WriteSpec.

(** ** Equality tests *)

Lemma optZ_eqb_spec a b : optZ_eqb a b = true <-> a = b.
Proof. destruct a, b; cbn; try (split; congruence). rewrite Z.eqb_eq. split; congruence. Qed.

Lemma options_eqb_spec a b : options_eqb a b = true <-> a = b.
Proof.
  destruct a as [f1 a1 p1 r1], b as [f2 a2 p2 r2]. unfold options_eqb. cbn.
  rewrite !andb_true_iff, !Z.eqb_eq, !optZ_eqb_spec. split.
  - intros (((-> & ->) & ->) & ->). reflexivity.
  - intros [= -> -> -> ->]. auto.
Qed.

Lemma base_reg_eqb_spec a b : base_reg_eqb a b = true <-> a = b.
Proof. destruct a, b; cbn; split; congruence. Qed.

Lemma row_offsets_eqb_spec a b : row_offsets_eqb a b = true <-> a = b.
Proof.
  destruct a, b. unfold row_offsets_eqb. cbn.
  rewrite !andb_true_iff, Z.eqb_eq, !optZ_eqb_spec. split.
  - intros ((-> & ->) & ->). reflexivity.
  - intros [= -> -> ->]. auto.
Qed.

Lemma row_eqb_spec a b : row_eqb a b = true <-> a = b.
Proof.
  destruct a as [s1 o1 m1 b1], b as [s2 o2 m2 b2]. unfold row_eqb. cbn.
  rewrite !andb_true_iff, Z.eqb_eq, Bool.eqb_true_iff, base_reg_eqb_spec.
  assert (Ho : match o1, o2 with Some x, Some y => row_offsets_eqb x y | None, None => true | _, _ => false end = true <-> o1 = o2).
  { destruct o1, o2; try (split; congruence). rewrite row_offsets_eqb_spec. split; congruence. }
  rewrite Ho. split.
  - intros (((-> & ->) & ->) & ->). reflexivity.
  - intros [= -> -> -> ->]. auto.
Qed.

Lemma fres_eqb_spec a b : fres_eqb a b = true <-> a = b.
Proof.
  revert b. induction a as [|[k r] a IH]; intros [|[k' r'] b]; cbn; try (split; congruence).
  rewrite !andb_true_iff, Z.eqb_eq, row_eqb_spec, IH. split.
  - intros ((-> & ->) & ->). reflexivity.
  - intros [= -> -> ->]. auto.
Qed.

Lemma pauth_eqb_spec a b : pauth_eqb a b = true <-> a = b.
Proof. destruct a, b; cbn; split; congruence. Qed.

(** ** row() *)

Lemma check_fixed_ok fixed given er x :
  check_fixed fixed given er = Ok x <-> agrees fixed given /\ x = drop_fixed fixed given.
Proof.
  unfold check_fixed, agrees, drop_fixed. destruct fixed as [f|]; [destruct given as [g|]|].
  - destruct (Z.eqb_spec g f) as [->|Hn].
    + split; [intros [= <-]|intros [_ ->]]; split; congruence.
    + split; [discriminate|]. intros [H _]. exfalso. apply Hn. apply (H f g); reflexivity.
  - split; [intros [= <-]|intros [_ ->]; reflexivity]. split; [intros; discriminate|reflexivity].
  - split; [intros [= <-]|intros [_ ->]; reflexivity]. split; [intros; discriminate|reflexivity].
Qed.

Lemma check_fixed_cases fixed given er :
  (agrees fixed given /\ check_fixed fixed given er = Ok (drop_fixed fixed given)) \/
  (~ agrees fixed given /\ check_fixed fixed given er = Err er).
Proof.
  unfold check_fixed, agrees, drop_fixed. destruct fixed as [f|]; [destruct given as [g|]|].
  - destruct (Z.eqb_spec g f) as [->|Hn].
    + left. split; [congruence|reflexivity].
    + right. split; [|reflexivity]. intros H. apply Hn. apply H; reflexivity.
  - left. split; [intros; discriminate|reflexivity].
  - left. split; [intros; discriminate|reflexivity].
Qed.

Definition ra_agrees (b : fdb) (r : row) : Prop :=
  forall o, r_offsets r = Some o -> agrees (so_fixed_ra (fb_options b)) (ro_ra o).
Definition fp_agrees (b : fdb) (r : row) : Prop :=
  forall o, r_offsets r = Some o -> agrees (so_fixed_fp (fb_options b)) (ro_fp o).

Lemma normalise_cases b r :
  (ra_agrees b r /\ fp_agrees b r /\ normalise_offsets (fb_options b) r = Ok (kept_row (fb_options b) r)) \/
  (~ ra_agrees b r /\ normalise_offsets (fb_options b) r = Err UnexpectedRaOffset) \/
  (ra_agrees b r /\ ~ fp_agrees b r /\ normalise_offsets (fb_options b) r = Err UnexpectedFpOffset).
Proof.
  unfold ra_agrees, fp_agrees, normalise_offsets, kept_row.
  destruct r as [st [o|] mg bs]; cbn.
  - destruct (check_fixed_cases (so_fixed_ra (fb_options b)) (ro_ra o) UnexpectedRaOffset)
      as [[Ha ->]|[Ha ->]].
    + destruct (check_fixed_cases (so_fixed_fp (fb_options b)) (ro_fp o) UnexpectedFpOffset)
        as [[Hf ->]|[Hf ->]].
      * left. split; [intros o' [= <-]; exact Ha|]. split; [intros o' [= <-]; exact Hf|reflexivity].
      * right. right. split; [intros o' [= <-]; exact Ha|]. split; [|reflexivity].
        intros H. apply Hf. apply H. reflexivity.
    + right. left. split; [|reflexivity]. intros H. apply Ha, H. reflexivity.
  - left. split; [discriminate|]. split; [discriminate|reflexivity].
Qed.

(** Keys of the row map are the rows' starts. *)
Definition keyed (m : btree row) : Prop := forall k r, In (k, r) m -> k = r_start r.

Lemma get_dup b r : sorted (fb_fres b) -> keyed (fb_fres b) ->
  bt_get (r_start r) (fb_fres b) = None <-> (forall r', In r' (rows_of b) -> r_start r' <> r_start r).
Proof.
  intros Hs Hk. rewrite bt_get_none. unfold rows_of. split.
  - intros H r' Hin Heq. apply in_map_iff in Hin. destruct Hin as ([k x] & Hx & Hin).
    cbn in Hx. subst x. apply (H r'). rewrite <- Heq, <- (Hk _ _ Hin). exact Hin.
  - intros H v Hin. apply (H v).
    + apply in_map_iff. exists (r_start r, v). split; [reflexivity|exact Hin].
    + symmetry. apply (Hk _ _ Hin).
Qed.

(** One case per condition. *)
Lemma row_cases b r : sorted (fb_fres b) -> keyed (fb_fres b) ->
  let conds := row_conditions b r in
  (Forall (fun p => fst p) conds /\
   fdb_row_st b r = (fdb_set_fres (bt_insert (r_start r) (kept_row (fb_options b) r) (fb_fres b)) b, Ok tt)) \/
  (exists er, first_violated conds er /\ fdb_row_st b r = (b, Err er)).
Proof.
  intros Hs Hk. cbv zeta. unfold fdb_row_st.
  set (c1 := r_start r < 0x10000000).
  set (c2 := forall rep, fb_rep_size b = Some rep -> r_start r < rep).
  set (c3 := r_start r < fb_size b).
  set (c6 := forall r', In r' (rows_of b) -> r_start r' <> r_start r).
  assert (Hc : row_conditions b r =
    [(c1, StartAddressTooLarge); (c2, StartAddressLargerThanRepSize); (c3, StartAddressOutsideFde);
     (ra_agrees b r, UnexpectedRaOffset); (fp_agrees b r, UnexpectedFpOffset); (c6, DuplicateRow)])
    by reflexivity.
  rewrite Hc.
  destruct (Z.leb_spec 0x10000000 (r_start r)) as [H1|H1].
  { right. eexists. split; [|reflexivity]. exists [], c1. eexists. split; [reflexivity|].
    split; [unfold c1; lia|constructor]. }
  assert (C1 : c1) by (unfold c1; lia).
  destruct (match fb_rep_size b with Some rep => rep <=? r_start r | None => false end) eqn:E2.
  { right. eexists. split; [|reflexivity]. exists [(c1, StartAddressTooLarge)], c2. eexists.
    split; [reflexivity|]. split; [|repeat constructor; exact C1].
    intros H. destruct (fb_rep_size b) as [rep|] eqn:Er; [|discriminate].
    specialize (H rep eq_refl). lia. }
  assert (C2 : c2).
  { intros rep Hr. rewrite Hr in E2. lia. }
  destruct (Z.leb_spec (fb_size b) (r_start r)) as [H3|H3].
  { right. eexists. split; [|reflexivity].
    exists [(c1, StartAddressTooLarge); (c2, StartAddressLargerThanRepSize)], c3. eexists.
    split; [reflexivity|]. split; [unfold c3; lia|]. repeat (constructor; [assumption|]). constructor. }
  assert (C3 : c3) by (unfold c3; lia).
  destruct (normalise_cases b r) as [(Ha & Hf & ->)|[(Ha & ->)|(Ha & Hf & ->)]].
  2:{ right. eexists. split; [|reflexivity].
      exists [(c1, StartAddressTooLarge); (c2, StartAddressLargerThanRepSize); (c3, StartAddressOutsideFde)].
      eexists. eexists. split; [reflexivity|]. split; [exact Ha|].
      repeat (constructor; [assumption|]). constructor. }
  2:{ right. eexists. split; [|reflexivity].
      exists [(c1, StartAddressTooLarge); (c2, StartAddressLargerThanRepSize); (c3, StartAddressOutsideFde);
              (ra_agrees b r, UnexpectedRaOffset)].
      eexists. eexists. split; [reflexivity|]. split; [exact Hf|].
      repeat (constructor; [assumption|]). constructor. }
  change (r_start (kept_row (fb_options b) r)) with (r_start r).
  destruct (bt_get (r_start r) (fb_fres b)) as [r0|] eqn:Eg.
  - right. eexists. split; [|reflexivity].
    exists [(c1, StartAddressTooLarge); (c2, StartAddressLargerThanRepSize); (c3, StartAddressOutsideFde);
            (ra_agrees b r, UnexpectedRaOffset); (fp_agrees b r, UnexpectedFpOffset)].
    eexists. eexists. split; [reflexivity|]. split.
    + intros H. pose proof (proj2 (get_dup b r Hs Hk) H). congruence.
    + repeat (constructor; [assumption|]). constructor.
  - left. split; [|reflexivity].
    pose proof (proj1 (get_dup b r Hs Hk) Eg) as C6. repeat (constructor; [assumption|]). constructor.
Qed.

Lemma first_violated_not_all l er : first_violated l er -> ~ Forall (fun p => fst p) l.
Proof.
  intros (pre & c & post & -> & Hc & _) HF. apply Forall_app in HF. destruct HF as [_ HF].
  inversion HF; subst. cbn in *. tauto.
Qed.

Lemma first_violated_fun l er er' : first_violated l er -> first_violated l er' -> er = er'.
Proof.
  intros (pre & c & post & -> & Hc & Hpre) (pre' & c' & post' & Heq & Hc' & Hpre').
  revert pre' Heq Hpre'. induction pre as [|p pre IH]; intros [|p' pre'] Heq Hpre'; cbn in Heq.
  - congruence.
  - injection Heq as <- _. inversion Hpre'; subst. cbn in *. tauto.
  - injection Heq as -> _. inversion Hpre; subst. cbn in *. tauto.
  - injection Heq as <- Heq. inversion Hpre; subst. inversion Hpre'; subst. eapply IH; eassumption.
Qed.

(** C26 *)
Theorem row_accepts b r : sorted (fb_fres b) -> keyed (fb_fres b) ->
  (snd (fdb_row_st b r) = Ok tt <-> Forall (fun p => fst p) (row_conditions b r)) /\
  (forall er, snd (fdb_row_st b r) = Err er <-> first_violated (row_conditions b r) er) /\
  snd (fdb_row_st b r) <> Panic.
Proof.
  intros Hs Hk. destruct (row_cases b r Hs Hk) as [[HF E]|(er & Hv & E)]; rewrite E; cbn.
  - split; [tauto|]. split; [|discriminate]. intros er. split; [discriminate|].
    intros Hv. exfalso. apply (first_violated_not_all _ _ Hv HF).
  - split; [|split; [|discriminate]].
    + split; [discriminate|]. intros HF. exfalso. apply (first_violated_not_all _ _ Hv HF).
    + intros er'. split; [intros [= <-]; exact Hv|]. intros Hv'. f_equal.
      apply (first_violated_fun _ _ _ Hv Hv').
Qed.

(** C27 *)
Theorem row_effect b r : sorted (fb_fres b) -> keyed (fb_fres b) ->
  let b' := fst (fdb_row_st b r) in
  match snd (fdb_row_st b r) with
  | Ok _ =>
      fb_options b' = fb_options b /\ fb_start b' = fb_start b /\ fb_size b' = fb_size b /\
      fb_rep_size b' = fb_rep_size b /\ fb_pauth b' = fb_pauth b /\
      Permutation (rows_of b') (kept_row (fb_options b) r :: rows_of b)
  | _ => b' = b
  end.
Proof.
  intros Hs Hk. cbv zeta. destruct (row_cases b r Hs Hk) as [[HF E]|(er & Hv & E)]; rewrite E; cbn; [|reflexivity].
  repeat (split; [reflexivity|]).
  assert (Hg : bt_get (r_start r) (fb_fres b) = None).
  { apply (get_dup b r Hs Hk). inversion HF; subst.
    repeat match goal with H : Forall _ (_ :: _) |- _ => inversion H; clear H; subst end. assumption. }
  unfold rows_of. cbn. clear -Hg. revert Hg.
  induction (fb_fres b) as [|[k v] m IH]; cbn; intros Hg; [apply Permutation_refl|].
  destruct (Z.eqb_spec (r_start r) k) as [->|Hn]; [discriminate|].
  destruct (r_start r <? k); [apply Permutation_refl|].
  cbn. rewrite (IH Hg). apply perm_swap.
Qed.

(** The row kept asks for the same unwinding as the row given. *)
Lemma kept_intended o r : (forall x, r_offsets r = Some x -> agrees (so_fixed_ra o) (ro_ra x) /\ agrees (so_fixed_fp o) (ro_fp x)) ->
  intended o (kept_row o r) = intended o r.
Proof.
  intros _. destruct r as [st [x|] mg bs]; unfold intended, kept_row; cbn; [|reflexivity].
  unfold or_fixed, drop_fixed. destruct (so_fixed_ra o), (so_fixed_fp o); reflexivity.
Qed.

(** C28: neither error is ever produced. *)
Theorem row_never_missing b r :
  snd (fdb_row_st b r) <> Err MissingRaOffset /\ snd (fdb_row_st b r) <> Err MissingFpOffset.
Proof.
  unfold fdb_row_st.
  destruct (0x10000000 <=? r_start r); [split; discriminate|].
  destruct (match fb_rep_size b with Some rep => rep <=? r_start r | None => false end); [split; discriminate|].
  destruct (fb_size b <=? r_start r); [split; discriminate|].
  destruct (normalise_cases b r) as [(Ha & Hf & ->)|[(Ha & ->)|(Ha & Hf & ->)]]; try (split; discriminate).
  destruct (bt_get (r_start (kept_row (fb_options b) r)) (fb_fres b)); split; discriminate.
Qed.

(** ** fde() *)

(** C30 *)
Theorem fde_effect s b : sorted (sb_fdes s) ->
  (fb_options b <> sb_options s <-> sfb_fde s b = Panic) /\
  (fb_options b = sb_options s ->
   exists s', sfb_fde s b = Ok s' /\ sb_options s' = sb_options s /\
     forall a, bt_get a (sb_fdes s') = if a =? fb_start b then Some b else bt_get a (sb_fdes s)).
Proof.
  intros Hs. unfold sfb_fde. destruct (options_eqb (sb_options s) (fb_options b)) eqn:E.
  - apply options_eqb_spec in E. split; [split; [congruence|discriminate]|].
    intros _. eexists. split; [reflexivity|]. split; [reflexivity|]. cbn. intros a.
    apply bt_get_insert, Hs.
  - split; [split; [reflexivity|]|].
    + intros _ H. rewrite H in E. assert (options_eqb (sb_options s) (sb_options s) = true) by (apply options_eqb_spec; reflexivity). congruence.
    + intros H. rewrite H in E. assert (options_eqb (sb_options s) (sb_options s) = true) by (apply options_eqb_spec; reflexivity). congruence.
Qed.

(** ** Insertion order *)

Lemma fdb_row_ok b r b' : sorted (fb_fres b) -> keyed (fb_fres b) ->
  (fdb_row b r = Ok b' <->
   Forall (fun p => fst p) (row_conditions b r) /\
   b' = fdb_set_fres (bt_insert (r_start r) (kept_row (fb_options b) r) (fb_fres b)) b).
Proof.
  intros Hs Hk. unfold fdb_row. destruct (row_cases b r Hs Hk) as [[HF E]|(er & Hv & E)]; rewrite E.
  - split; [intros [= <-]; auto|intros [_ ->]; reflexivity].
  - split; [discriminate|]. intros [HF _]. exfalso. apply (first_violated_not_all _ _ Hv HF).
Qed.

Lemma keyed_insert r m : keyed m -> keyed (bt_insert (r_start r) r m).
Proof. intros H k x Hin. apply in_insert in Hin. destruct Hin as [[= -> ->]|Hin]; auto. Qed.

Lemma rows_insert o r b k x : In x (map snd (bt_insert k (kept_row o r) (fb_fres b))) ->
  x = kept_row o r \/ In x (rows_of b).
Proof.
  intros H. apply in_map_iff in H. destruct H as ([k' x'] & <- & Hin).
  apply in_insert in Hin. destruct Hin as [[= -> ->]|Hin]; [left; reflexivity|right].
  unfold rows_of. apply in_map_iff. exists (k', x'). auto.
Qed.

Ltac forall_inv H := repeat match type of H with
  | Forall _ (_ :: _) => let H1 := fresh H in inversion H as [|? ? H1 H']; clear H; subst; rename H' into H
  end.

Lemma conditions_unfold b r : Forall (fun p => fst p) (row_conditions b r) <->
  r_start r < 0x10000000 /\ (forall rep, fb_rep_size b = Some rep -> r_start r < rep) /\
  r_start r < fb_size b /\ ra_agrees b r /\ fp_agrees b r /\
  (forall r', In r' (rows_of b) -> r_start r' <> r_start r).
Proof.
  unfold row_conditions. rewrite !Forall_cons_iff. cbn. unfold ra_agrees, fp_agrees.
  intuition.
Qed.

Lemma row_swap b r1 r2 b1 b' : sorted (fb_fres b) -> keyed (fb_fres b) -> r_start r1 <> r_start r2 ->
  fdb_row b r1 = Ok b1 -> fdb_row b1 r2 = Ok b' ->
  exists b2, fdb_row b r2 = Ok b2 /\ fdb_row b2 r1 = Ok b'.
Proof.
  intros Hs Hk Hne H1 H2.
  apply fdb_row_ok in H1; [|assumption|assumption]. destruct H1 as [C1 ->].
  assert (Hs1 : sorted (bt_insert (r_start r1) (kept_row (fb_options b) r1) (fb_fres b))) by (apply insert_sorted, Hs).
  assert (Hk1 : keyed (bt_insert (r_start r1) (kept_row (fb_options b) r1) (fb_fres b))) by exact (keyed_insert (kept_row (fb_options b) r1) _ Hk).
  apply fdb_row_ok in H2; [|exact Hs1|exact Hk1]. destruct H2 as [C2 ->].
  assert (Hs2 : sorted (bt_insert (r_start r2) (kept_row (fb_options b) r2) (fb_fres b))) by (apply insert_sorted, Hs).
  assert (Hk2 : keyed (bt_insert (r_start r2) (kept_row (fb_options b) r2) (fb_fres b))) by exact (keyed_insert (kept_row (fb_options b) r2) _ Hk).
  apply conditions_unfold in C1. apply conditions_unfold in C2.
  destruct C1 as (A1 & A2 & A3 & A4 & A5 & A6). destruct C2 as (B1 & B2 & B3 & B4 & B5 & B6).
  cbn in *.
  exists (fdb_set_fres (bt_insert (r_start r2) (kept_row (fb_options b) r2) (fb_fres b)) b). split.
  - apply fdb_row_ok; [assumption|assumption|]. split; [|reflexivity].
    apply conditions_unfold. repeat apply conj; try assumption.
    intros r' Hin. apply B6. unfold rows_of in *. cbn. clear -Hin Hk A6.
    apply in_map_iff in Hin. destruct Hin as ([k x] & Hx & Hin). cbn in Hx. subst x.
    assert (Hkk := Hk _ _ Hin). subst k.
    apply in_map_iff. exists (r_start r', r'). split; [reflexivity|].
    assert (Hn : r_start r' <> r_start r1).
    { apply A6. apply in_map_iff. exists (r_start r', r'). auto. }
    clear -Hin Hn. revert Hin. induction (fb_fres b) as [|[k v] m IH]; cbn; [tauto|].
    intros Hin. destruct (r_start r1 <? k); [right; exact Hin|].
    destruct (Z.eqb_spec (r_start r1) k) as [Hk|Hk].
    + destruct Hin as [Heq|Hin]; [injection Heq as E1 E2; congruence|right; exact Hin].
    + destruct Hin as [Hin|Hin]; [left; exact Hin|right; apply IH, Hin].
  - apply fdb_row_ok; [exact Hs2|exact Hk2|]. cbn. split.
    + apply conditions_unfold. cbn. repeat apply conj; try assumption.
      intros r' Hin. unfold rows_of in Hin. cbn in Hin. apply rows_insert in Hin.
      destruct Hin as [->|Hin]; [cbn; congruence|apply A6, Hin].
    + unfold fdb_set_fres. cbn. f_equal. apply insert_comm; [exact Hs|congruence].
Qed.

(** What every successful call keeps. *)
Lemma row_keeps b r b' : sorted (fb_fres b) -> keyed (fb_fres b) -> fdb_row b r = Ok b' ->
  sorted (fb_fres b') /\ keyed (fb_fres b').
Proof.
  intros Hs Hk H. apply fdb_row_ok in H; [|assumption|assumption]. destruct H as [_ ->]. cbn. split.
  - apply insert_sorted, Hs.
  - exact (keyed_insert (kept_row (fb_options b) r) _ Hk).
Qed.

(** C31, rows *)
Theorem rows_order l1 l2 b b' : sorted (fb_fres b) -> keyed (fb_fres b) ->
  Permutation l1 l2 -> NoDup (map r_start l1) ->
  add_rows b l1 = Ok b' -> add_rows b l2 = Ok b'.
Proof.
  intros Hs Hk HP. revert b Hs Hk. induction HP as [|r l1 l2 HP IH|r1 r2 l|l1 l2 l3 HP1 IH1 HP2 IH2];
    intros b Hs Hk Hnd H.
  - exact H.
  - cbn [add_rows] in *. apply bind_ok in H. destruct H as (b1 & H1 & H). rewrite H1. cbn [bind].
    destruct (row_keeps _ _ _ Hs Hk H1) as [Hs1 Hk1].
    apply (IH _ Hs1 Hk1); [inversion Hnd; assumption|exact H].
  - cbn [add_rows] in *. apply bind_ok in H. destruct H as (b1 & H1 & H).
    apply bind_ok in H. destruct H as (b2 & H2 & H).
    assert (Hne : r_start r2 <> r_start r1).
    { inversion Hnd as [|? ? Hni _]; subst. intros E. apply Hni. left. symmetry; exact E. }
    destruct (row_swap _ _ _ _ _ Hs Hk Hne H1 H2) as (b3 & H3 & H4).
    rewrite H3. cbn [bind]. rewrite H4. cbn [bind]. exact H.
  - apply (IH2 _ Hs Hk).
    + apply (Permutation_NoDup (Permutation_map r_start HP1) Hnd).
    + apply (IH1 _ Hs Hk Hnd H).
Qed.

(** C31, FDEs *)
Theorem fdes_order l1 l2 s : sorted (sb_fdes s) ->
  Permutation l1 l2 -> NoDup (map fb_start l1) ->
  add_fdes s l1 = add_fdes s l2.
Proof.
  intros Hs HP. revert s Hs. induction HP as [|b l1 l2 HP IH|b1 b2 l|l1 l2 l3 HP1 IH1 HP2 IH2];
    intros s Hs Hnd.
  - reflexivity.
  - cbn [add_fdes]. unfold sfb_fde. destruct (options_eqb (sb_options s) (fb_options b)); cbn [bind]; [|reflexivity].
    apply IH; [cbn; apply insert_sorted, Hs|inversion Hnd; assumption].
  - cbn [add_fdes]. unfold sfb_fde.
    assert (Hne : fb_start b2 <> fb_start b1).
    { inversion Hnd as [|? ? Hni _]; subst. intros E. apply Hni. left. symmetry; exact E. }
    destruct (options_eqb (sb_options s) (fb_options b1)) eqn:E1;
    destruct (options_eqb (sb_options s) (fb_options b2)) eqn:E2; cbn [bind sb_options sb_fdes];
      rewrite ?E1, ?E2; cbn [bind sb_options sb_fdes]; try reflexivity.
    rewrite (insert_comm (fb_start b1) b1 (fb_start b2) b2); [reflexivity|exact Hs|congruence].
  - rewrite (IH1 _ Hs Hnd). apply (IH2 _ Hs).
    apply (Permutation_NoDup (Permutation_map fb_start HP1) Hnd).
Qed.
