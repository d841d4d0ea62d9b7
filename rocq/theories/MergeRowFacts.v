(** [merge_adjacent_fres]: C40, C41. *)
From Verif Require Export WriteFacts.

(** The loop as a structural function. *)
Fixpoint squash (k : Z) (cur : row) (rest : btree row) : btree row :=
  match rest with
  | [] => [(k, cur)]
  | (k', n) :: t =>
      if row_eqb (row_zero_start cur) (row_zero_start n)
      then squash k cur t else (k, cur) :: squash k' n t
  end.

Lemma payload_eqb a b : row_eqb (row_zero_start a) (row_zero_start b) = true <-> payload a = payload b.
Proof.
  rewrite row_eqb_spec. destruct a, b. unfold row_zero_start, payload. cbn.
  split; intros [= -> -> ->]; reflexivity.
Qed.

Lemma range_from_at {V} pre (k : Z) (v : V) rest :
  sorted (pre ++ (k, v) :: rest) -> bt_range_from k (pre ++ (k, v) :: rest) = (k, v) :: rest.
Proof.
  intros H. apply sorted_app_iff in H. destruct H as (_ & H2 & H3).
  rewrite range_from_app, range_from_none, range_from_all; [reflexivity| |].
  - intros k' v' [[= <- <-]|Hin]; [lia|]. apply sorted_cons_iff in H2. destruct H2 as [_ H2].
    specialize (H2 _ _ Hin). lia.
  - intros k' v' Hin. eapply H3; [exact Hin|left; reflexivity].
Qed.

Lemma remove_at {V} (pre : btree V) k1 v1 k v rest :
  sorted (pre ++ (k1, v1) :: (k, v) :: rest) ->
  bt_remove k (pre ++ (k1, v1) :: (k, v) :: rest) = pre ++ (k1, v1) :: rest.
Proof.
  intros H. apply sorted_app_iff in H. destruct H as (_ & H2 & H3).
  apply sorted_cons_iff in H2. destruct H2 as (H2 & H4).
  apply sorted_cons_iff in H2. destruct H2 as (H2 & H5).
  rewrite BTreeFacts.remove_app. f_equal.
  - apply remove_notin. intros v' Hin.
    assert (k < k); [|lia]. eapply H3; [exact Hin|right; left; reflexivity].
  - unfold bt_remove. cbn [filter fst].
    destruct (Z.eqb_spec k1 k) as [E|_].
    { specialize (H4 _ _ (or_introl eq_refl)). lia. }
    rewrite Z.eqb_refl. cbn [negb]. f_equal. apply remove_notin.
    intros v' Hin. specialize (H5 _ _ Hin). lia.
Qed.

Lemma sorted_drop {V} (pre : btree V) kv1 kv2 rest :
  sorted (pre ++ kv1 :: kv2 :: rest) -> sorted (pre ++ kv1 :: rest).
Proof.
  rewrite !sorted_app_iff. destruct kv1 as [k1 v1], kv2 as [k2 v2].
  rewrite !sorted_cons_iff. intros (H1 & ((H2 & H3) & H4) & H5). repeat apply conj; auto.
  - intros k' v' Hin. apply (H4 k' v'). right; exact Hin.
  - intros ka va kb vb Ha [Hb|Hb]; eapply H5; try exact Ha; [left; exact Hb|right; right; exact Hb].
Qed.

Lemma keyed_drop pre kv1 kv2 rest :
  keyed (pre ++ kv1 :: kv2 :: rest) -> keyed (pre ++ kv1 :: rest).
Proof.
  intros H k r Hin. apply H. apply in_app_or in Hin. apply in_or_app.
  destruct Hin as [Hin|[Hin|Hin]]; [left; exact Hin|right; left; exact Hin|right; right; right; exact Hin].
Qed.

Lemma merge_fres_loop_eq fuel : forall pre k cur rest,
  sorted (pre ++ (k, cur) :: rest) -> keyed (pre ++ (k, cur) :: rest) ->
  (length rest < fuel)%nat ->
  merge_fres_loop fuel k (pre ++ (k, cur) :: rest) = Ok (pre ++ squash k cur rest).
Proof.
  induction fuel as [|fuel IH]; intros pre k cur rest Hs Hk Hf; [lia|].
  cbn [merge_fres_loop]. rewrite range_from_at by exact Hs.
  destruct rest as [|[k' n] t]; [reflexivity|]. cbn [squash length] in *.
  assert (Hkn : r_start n = k').
  { symmetry. apply Hk. apply in_or_app. right; right; left; reflexivity. }
  rewrite Hkn.
  destruct (row_eqb (row_zero_start cur) (row_zero_start n)) eqn:E; cbn [negb].
  - rewrite remove_at by exact Hs. apply IH.
    + eapply sorted_drop; exact Hs.
    + eapply keyed_drop; exact Hk.
    + lia.
  - replace (pre ++ (k, cur) :: (k', n) :: t) with ((pre ++ [(k, cur)]) ++ (k', n) :: t) in *
      by (rewrite <- app_assoc; reflexivity).
    rewrite IH by (try assumption; lia). rewrite <- app_assoc. reflexivity.
Qed.

Definition squashed (m : btree row) : btree row :=
  match m with [] => [] | (k, r) :: t => squash k r t end.

Lemma merge_fres_eq b : sorted (fb_fres b) -> keyed (fb_fres b) ->
  merge_adjacent_fres b = Ok (fdb_set_fres (squashed (fb_fres b)) b).
Proof.
  intros Hs Hk. unfold merge_adjacent_fres, squashed.
  destruct (fb_fres b) as [|[k r] t] eqn:E; cbn [bt_first hd_error].
  - f_equal. destruct b; cbn in *. subst. reflexivity.
  - change ((k, r) :: t) with ([] ++ (k, r) :: t).
    rewrite merge_fres_loop_eq; [reflexivity|exact Hs|exact Hk|cbn; lia].
Qed.

(** *** Sub-list facts *)

Lemma squash_in k r t kv : In kv (squash k r t) -> In kv ((k, r) :: t).
Proof.
  revert k r. induction t as [|[k' n] t IH]; intros k r; cbn [squash]; [auto|].
  destruct (row_eqb _ _).
  - intros H. apply IH in H. destruct H as [H|H]; [left; exact H|right; right; exact H].
  - intros [H|H]; [left; exact H|]. right. apply IH, H.
Qed.

Lemma squashed_in m kv : In kv (squashed m) -> In kv m.
Proof. destruct m as [|[k r] t]; cbn; [auto|]. apply squash_in. Qed.

Lemma squash_head k r t : exists t', squash k r t = (k, r) :: t'.
Proof.
  revert k r. induction t as [|[k' n] t IH]; intros k r; cbn [squash]; [eauto|].
  destruct (row_eqb _ _); [apply IH|eauto].
Qed.

Lemma squash_sorted k r t : sorted ((k, r) :: t) -> sorted (squash k r t).
Proof.
  revert k r. induction t as [|[k' n] t IH]; intros k r Hs; cbn [squash]; [exact Hs|].
  destruct (row_eqb _ _).
  - apply IH. exact (sorted_drop [] _ _ _ Hs).
  - apply sorted_cons_iff. apply sorted_cons_iff in Hs. destruct Hs as [Hs HF]. split; [apply IH, Hs|].
    intros k1 v1 Hin. apply squash_in in Hin. eapply HF, Hin.
Qed.

Lemma squashed_sorted m : sorted m -> sorted (squashed m).
Proof. destruct m as [|[k r] t]; cbn; [auto|]. apply squash_sorted. Qed.

Lemma squashed_keyed m : keyed m -> keyed (squashed m).
Proof. intros H k r Hin. apply H, squashed_in, Hin. Qed.

(** Neighbours differ. *)
Fixpoint distinct_neighbours (m : btree row) : Prop :=
  match m with
  | (_, a) :: (((_, b) :: _) as t) => payload a <> payload b /\ distinct_neighbours t
  | _ => True
  end.

Lemma squash_distinct k r t : distinct_neighbours (squash k r t).
Proof.
  revert k r. induction t as [|[k' n] t IH]; intros k r; cbn [squash]; [exact I|].
  destruct (row_eqb (row_zero_start r) (row_zero_start n)) eqn:E; [apply IH|].
  destruct (squash_head k' n t) as (t' & Ht). specialize (IH k' n). rewrite Ht in *.
  cbn [distinct_neighbours]. split; [|exact IH].
  intros Hp. apply payload_eqb in Hp. congruence.
Qed.

Lemma distinct_spec m : distinct_neighbours m ->
  forall a b, neighbours (map snd m) a b -> payload a <> payload b.
Proof.
  intros H a b (pre & post & E). revert m H E. induction pre as [|p pre IH]; intros m H E.
  - destruct m as [|[k1 v1] [|[k2 v2] m]]; cbn in E; try discriminate.
    injection E as -> -> _. apply H.
  - destruct m as [|[k1 v1] m]; cbn in E; [discriminate|]. injection E as _ E.
    apply (IH m); [|exact E]. destruct m as [|[k2 v2] m]; [exact I|apply H].
Qed.

(** Merging what has no equal neighbours changes nothing. *)
Lemma squash_id k r t : distinct_neighbours ((k, r) :: t) -> squash k r t = (k, r) :: t.
Proof.
  revert k r. induction t as [|[k' n] t IH]; intros k r H; cbn [squash]; [reflexivity|].
  destruct (row_eqb (row_zero_start r) (row_zero_start n)) eqn:E.
  - apply payload_eqb in E. destruct H as [H _]. contradiction.
  - rewrite IH; [reflexivity|]. apply H.
Qed.

(** *** Row in effect *)

Definition pl : Type := option row_offsets * bool * base_reg.
Fixpoint eff (m : list row) (x : Z) : option pl :=
  match m with
  | [] => None
  | r :: t => if r_start r <=? x
              then match eff t x with Some p => Some p | None => Some (payload r) end
              else None
  end.

Definition ascends (l : list row) : Prop := StronglySorted (fun a b => r_start a < r_start b) l.

Lemma eff_none l x : eff l x = None <-> match l with [] => True | r :: _ => x < r_start r end.
Proof.
  destruct l as [|r t]; cbn; [tauto|]. destruct (Z.leb_spec (r_start r) x).
  - destruct (eff t x); split; [discriminate|lia|discriminate|lia].
  - split; [lia|reflexivity].
Qed.

Lemma eff_sound l x p : ascends l -> eff l x = Some p -> says l x p.
Proof.
  unfold says, in_effect. induction l as [|r t IH]; intros Ha; cbn [eff]; [discriminate|].
  inversion Ha as [|? ? Ha' HF]; subst. rewrite Forall_forall in HF. specialize (IH Ha').
  destruct (Z.leb_spec (r_start r) x) as [Hle|Hgt]; [|discriminate].
  destruct (eff t x) as [q|] eqn:Et; intros [= <-].
  - destruct (IH eq_refl) as (r' & (Hin & H1 & H2) & Hp).
    exists r'. split; [|exact Hp]. split; [right; exact Hin|]. split; [exact H1|].
    intros r2 [<-|Hin2] Hle2; [|auto]. specialize (HF _ Hin). lia.
  - exists r. split; [|reflexivity]. split; [left; reflexivity|]. split; [exact Hle|].
    intros r2 [<-|Hin2] Hle2; [lia|]. exfalso.
    apply eff_none in Et. destruct t as [|r3 t]; [destruct Hin2|].
    inversion Ha' as [|? ? _ HF2]; subst. rewrite Forall_forall in HF2.
    destruct Hin2 as [<-|Hin2]; [lia|]. specialize (HF2 _ Hin2). lia.
Qed.

Lemma eff_complete l x r : ascends l -> in_effect l x r -> eff l x = Some (payload r).
Proof.
  induction l as [|r0 t IH]; intros Ha (Hin & H1 & H2); [destruct Hin|]. cbn [eff].
  inversion Ha as [|? ? Ha' HF]; subst. rewrite Forall_forall in HF.
  destruct Hin as [->|Hin].
  - destruct (Z.leb_spec (r_start r) x); [|lia].
    destruct (eff t x) as [q|] eqn:Et; [|reflexivity]. exfalso.
    destruct (eff_sound _ _ _ Ha' Et) as (r' & (Hin' & H3 & _) & _).
    specialize (HF _ Hin'). specialize (H2 _ (or_intror Hin') H3). lia.
  - pose proof (HF _ Hin). destruct (Z.leb_spec (r_start r0) x); [|lia].
    rewrite IH; [reflexivity|exact Ha'|]. split; [exact Hin|]. split; [exact H1|].
    intros r' Hin'. apply H2. right; exact Hin'.
Qed.

Lemma says_eff l x p : ascends l -> (says l x p <-> eff l x = Some p).
Proof.
  intros Ha. split; [|apply eff_sound, Ha]. intros (r & Hr & <-). apply eff_complete; assumption.
Qed.

Lemma sorted_ascends m : sorted m -> keyed m -> ascends (map snd m).
Proof.
  induction m as [|[k r] t IH]; intros Hs Hk; cbn; [constructor|].
  apply sorted_cons_iff in Hs. destruct Hs as [Hs HF].
  constructor.
  - apply IH; [exact Hs|]. intros k' r' Hin. apply Hk. right; exact Hin.
  - apply Forall_forall. intros r' Hin. apply in_map_iff in Hin. destruct Hin as ([k' r2] & <- & Hin).
    pose proof (Hk k r (or_introl eq_refl)). pose proof (Hk k' r2 (or_intror Hin)).
    specialize (HF _ _ Hin). cbn [snd]. lia.
Qed.

Lemma eff_squash k r t x : ascends (r :: map snd t) -> eff (map snd (squash k r t)) x = eff (r :: map snd t) x.
Proof.
  revert k r. induction t as [|[k' n] t IH]; intros k r Ha; cbn [squash map snd]; [reflexivity|].
  cbn [map snd] in Ha.
  inversion Ha as [|? ? Ha1 HF1]; subst. inversion Ha1 as [|? ? Ha2 HF2]; subst.
  destruct (row_eqb (row_zero_start r) (row_zero_start n)) eqn:E.
  - apply payload_eqb in E. rewrite IH.
    2:{ constructor; [exact Ha2|]. inversion HF1; assumption. }
    cbn [eff]. destruct (r_start r <=? x); [|reflexivity].
    destruct (Z.leb_spec (r_start n) x) as [Hn|Hn].
    + destruct (eff (map snd t) x); [reflexivity|rewrite E; reflexivity].
    + assert (Et : eff (map snd t) x = None).
      { apply eff_none. destruct (map snd t) as [|r3 t3]; [exact I|]. inversion HF2; subst. lia. }
      rewrite Et. reflexivity.
  - cbn [map snd]. cbn [eff]. rewrite IH by exact Ha1. reflexivity.
Qed.

(** C40 *)
Theorem merge_rows_preserves b b' x p : sorted (fb_fres b) -> keyed (fb_fres b) ->
  merge_adjacent_fres b = Ok b' ->
  fb_options b' = fb_options b /\ fb_start b' = fb_start b /\ fb_size b' = fb_size b /\
  fb_rep_size b' = fb_rep_size b /\ fb_pauth b' = fb_pauth b /\
  (says (rows_of b') x p <-> says (rows_of b) x p).
Proof.
  intros Hs Hk H. rewrite merge_fres_eq in H by assumption. injection H as <-.
  repeat (split; [reflexivity|]). unfold rows_of. cbn [fb_fres fdb_set_fres].
  rewrite !says_eff.
  - destruct (fb_fres b) as [|[k r] t] eqn:E; [reflexivity|]. cbn [squashed].
    rewrite eff_squash; [reflexivity|]. exact (sorted_ascends _ Hs Hk).
  - apply sorted_ascends; assumption.
  - apply sorted_ascends; [apply squashed_sorted, Hs|apply squashed_keyed, Hk].
Qed.

(** C41 *)
Theorem merge_rows_minimal b : sorted (fb_fres b) -> keyed (fb_fres b) ->
  exists b', merge_adjacent_fres b = Ok b' /\
    (forall r1 r2, neighbours (rows_of b') r1 r2 -> payload r1 <> payload r2) /\
    incl (rows_of b') (rows_of b) /\
    hd_error (rows_of b') = hd_error (rows_of b) /\
    merge_adjacent_fres b' = Ok b'.
Proof.
  intros Hs Hk. exists (fdb_set_fres (squashed (fb_fres b)) b).
  assert (Hd : distinct_neighbours (squashed (fb_fres b))).
  { destruct (fb_fres b) as [|[k r] t]; [exact I|apply squash_distinct]. }
  split; [apply merge_fres_eq; assumption|]. unfold rows_of. cbn [fb_fres fdb_set_fres].
  split; [apply distinct_spec, Hd|]. split; [|split].
  - intros r Hin. apply in_map_iff in Hin. destruct Hin as (kv & <- & Hin).
    apply in_map, squashed_in, Hin.
  - destruct (fb_fres b) as [|[k r] t]; [reflexivity|]. cbn [squashed].
    destruct (squash_head k r t) as (t' & ->). reflexivity.
  - rewrite merge_fres_eq; cbn [fb_fres fdb_set_fres].
    + f_equal. unfold fdb_set_fres. cbn. f_equal.
      destruct (squashed (fb_fres b)) as [|[k r] t] eqn:E; [reflexivity|].
      apply squash_id, Hd.
    + apply squashed_sorted, Hs.
    + apply squashed_keyed, Hk.
Qed.
