(** The exact result of [merge_adjacent_fdes], and byte order of built sections. *)
From Verif Require Export MergeSpec MergeFdeFacts TripWitness.

Lemma mergeable_size md a b : mergeable md a b -> fb_rep_size a = None -> fb_rep_size b = None -> fb_size a <= 255.
Proof. intros (_ & _ & _ & _ & H & _) Ha Hb. unfold rep_compatible in H. rewrite Ha, Hb in H. apply H. Qed.

Lemma merged_join md a b : in_u32 (fb_size a) -> mergeable md a b -> merged_fde a b = join a b.
Proof.
  intros Hu H. unfold merged_fde, join, block_size. f_equal. f_equal.
  destruct (fb_rep_size a) as [n|] eqn:Ea; [reflexivity|]. destruct (fb_rep_size b) as [n|] eqn:Eb; [reflexivity|].
  pose proof (mergeable_size md a b H Ea Eb). unfold as_u. rewrite Z.mod_small; [reflexivity|]. unfold in_u32 in Hu. lia.
Qed.

Lemma should_merge_panics {E} md a b : fb_options a = fb_options b -> in_i32 (fb_start a) -> in_i32 (fb_start b) ->
  fb_start a < fb_start b -> (@should_merge E md a b = Panic <-> too_far md a b).
Proof.
  intros Ho Ha Hb Hlt. unfold too_far, should_merge.
  replace (options_eqb (fb_options a) (fb_options b)) with true by (symmetry; apply options_eqb_spec, Ho).
  rewrite andb_false_r. destruct (pauth_eqb (fb_pauth a) (fb_pauth b)) eqn:Ep; cbn [negb].
  2:{ split; [discriminate|]. intros (_ & H & _). apply pauth_eqb_spec in H. congruence. }
  apply pauth_eqb_spec in Ep.
  assert (HB : in_i32b (fb_start a - fb_start b) = true <-> fb_start b - fb_start a <= 2 ^ 31).
  { unfold in_i32b, in_i32, i32_min, i32_max in *. change (2 ^ 31) with 2147483648. lia. }
  unfold sub_i32. destruct (in_i32b (fb_start a - fb_start b)) eqn:Eb; cbn [bind].
  - assert (fb_start b - fb_start a <= 2 ^ 31) by (apply HB; reflexivity).
    split; [|intros (_ & _ & ?); lia]. destruct (negb (_ =? _)); [discriminate|]. destruct (_ <? _); [discriminate|].
    destruct (rep_mismatch _ _); [discriminate|]. destruct (fres_eqb _ _); discriminate.
  - assert (2 ^ 31 < fb_start b - fb_start a) by (destruct (Z_lt_ge_dec (2 ^ 31) (fb_start b - fb_start a)); [assumption|exfalso; assert (false = true) by (apply HB; lia); discriminate]).
    destruct (overflow_checks md); cbn [bind]; [split; auto|]. split; [|intros [? _]; discriminate].
    destruct (negb (_ =? _)); [discriminate|]. destruct (_ <? _); [discriminate|].
    destruct (rep_mismatch _ _); [discriminate|]. destruct (fres_eqb _ _); discriminate.
Qed.

Lemma far_not_mergeable md a b : too_far md a b -> ~ mergeable md a b.
Proof. intros (H1 & _ & H2) (_ & _ & [H|H] & _); [congruence|lia]. Qed.

Lemma fsquash_exact {E} md o : forall t k a,
  sorted ((k, a) :: t) -> fkeyed ((k, a) :: t) -> Forall (fun b => fdb_wf b /\ fb_options b = o) (a :: map snd t) ->
  (forall r, @fsquash E md k a t = Ok r -> merges md (a :: map snd t) (map snd r) /\ fkeyed r) /\
  (@fsquash E md k a t = Panic <-> jams md (a :: map snd t)).
Proof.
  induction t as [|[k' b] t IH]; intros k a Hs Hk HF; cbn [fsquash map snd] in *.
  - split; [|split; [discriminate|intros H; inversion H]].
    intros r [= <-]. split; [constructor|exact Hk].
  - inversion HF as [|? ? [Wa Oa] HF1]; subst. inversion HF1 as [|? ? [Wb Ob] HF2]; subst.
    assert (Ea : k = fb_start a) by (apply Hk; left; reflexivity).
    assert (Eb : k' = fb_start b) by (apply Hk; right; left; reflexivity).
    pose proof (proj1 (sorted_cons_iff _ _ _) Hs) as [Hs1 Hlt0]. pose proof (Hlt0 k' b (or_introl eq_refl)) as Hlt. rewrite Ea, Eb in Hlt.
    assert (HM := merge_condition E md a b (bw_start _ Wa) (bw_start _ Wb) Hlt (bw_size _ Wa) ltac:(congruence)).
    assert (HP := @should_merge_panics E md a b ltac:(congruence) (bw_start _ Wa) (bw_start _ Wb) Hlt).
    destruct (@should_merge E md a b) as [[|]|er|] eqn:Em; cbn [bind].
    + assert (Hm : mergeable md a b) by (apply HM; reflexivity). rewrite (merged_join md a b (bw_size _ Wa) Hm).
      assert (Hsum : fb_size a + fb_size b <= u32_max) by apply Hm.
      destruct (IH k (join a b)) as [I1 I2].
      * apply (sorted_replace [] k a (join a b) ((k', b) :: t)) in Hs. apply (sorted_drop [] _ _ t) in Hs. exact Hs.
      * apply (fkeyed_replace [] k a (join a b) ((k', b) :: t) eq_refl) in Hk. apply (fkeyed_drop [] _ _ t) in Hk. exact Hk.
      * constructor; [|exact HF2]. split; [|reflexivity].
        rewrite <- (merged_join md a b (bw_size _ Wa) Hm). apply merged_wf; assumption.
      * split; [intros r Hr; destruct (I1 r Hr) as [X Y]; split; [apply mg_join; assumption|exact Y]|].
        rewrite I2. split; [apply jm_join, Hm|]. intros H; inversion H; subst; [exfalso; eapply far_not_mergeable; eassumption|assumption|contradiction].
    + assert (Hm : ~ mergeable md a b) by (intros H; apply HM in H; discriminate).
      assert (Hf : ~ too_far md a b) by (intros H; apply HP in H; discriminate).
      destruct (IH k' b Hs1) as [I1 I2]; [intros k1 b1 Hin; apply Hk; right; exact Hin|exact HF1|].
      destruct (@fsquash E md k' b t) as [r|er|] eqn:Er; cbn [bind].
      * destruct (I1 r eq_refl) as [X Y]. split.
        -- intros r' [= <-]. split; [cbn; apply mg_keep; assumption|]. intros k1 b1 [Hin|Hin]; [injection Hin as <- <-; exact Ea|apply Y, Hin].
        -- split; [discriminate|]. intros H; inversion H; subst; try contradiction. apply I2 in H4. discriminate.
      * split; [discriminate|]. split; [discriminate|]. intros H; inversion H; subst; try contradiction. apply I2 in H4. discriminate.
      * split; [discriminate|]. split; [|reflexivity]. intros _. apply jm_keep; [exact Hm|]. apply I2. reflexivity.
    + exfalso. eapply should_merge_not_err, Em.
    + split; [discriminate|]. split; [|reflexivity]. intros _. apply jm_here, HP. reflexivity.
Qed.

Theorem merge_exact md s : sfb_reach md s ->
  (forall s', merge_adjacent_fdes md s = Ok s' -> sb_options s' = sb_options s /\ merges md (fdes_of s) (fdes_of s')) /\
  (merge_adjacent_fdes md s = Panic <-> jams md (fdes_of s)).
Proof.
  intros H. pose proof (sfb_reach_wf _ _ H) as [O S K W]. rewrite merge_fdes_eq by assumption. unfold fdes_of in *.
  destruct s as [o m]. cbn [sb_fdes sb_options] in *. destruct m as [|[k a] t]; cbn [fsquashed bind].
  - split; [intros s' [= <-]; split; [reflexivity|constructor]|]. split; [discriminate|intros J; inversion J].
  - destruct (fsquash_exact (E := fuel_error) md o t k a S K W) as [I1 I2]. cbn [map snd].
    destruct (@fsquash fuel_error md k a t) as [r|er|]; cbn [bind].
    + split; [|rewrite <- I2; split; discriminate]. intros s' [= <-]. split; [reflexivity|]. apply (I1 r eq_refl).
    + split; [discriminate|rewrite <- I2; split; discriminate].
    + split; [discriminate|rewrite <- I2; split; reflexivity].
Qed.

(** There is only one such result, and none when the comparison overflows. *)
Lemma merges_fun md l : forall l1 l2, merges md l l1 -> merges md l l2 -> l1 = l2.
Proof.
  intros l1 l2 H. revert l2. induction H as [|a|a b t l Hm _ IH|a b t l Hm _ IH]; intros l2 H2; inversion H2; subst; try contradiction; auto.
  f_equal. auto.
Qed.

(** ** Byte order *)

Theorem built_other_order md md' e s bs : sfb_reach md s -> build md e s = Ok bs -> wf_mode md' -> rust_slice md' bs ->
  load md' (swap e) bs = Err IncorrectEndian.
Proof.
  intros H B Hm Hs. destruct (trip_descriptors md md' e s bs H B Hm Hs) as (sf & HL & _).
  apply (load_wrong_endian md' e bs sf); assumption.
Qed.

(** ** Two functions at the two ends of the address range *)

Lemma ends_merge : let a := plt_fde (-2147483648) in let b := plt_fde 2147483632 in
  fdes_of (plt_pair (-2147483648) 2147483632) = [a; b] /\ mergeable rel64 a b /\ too_far dev64 a b /\
  merges rel64 [a; b] [join a b] /\ fb_size (join a b) = 32 /\ fb_rep_size (join a b) = Some 16 /\
  merge_adjacent_fdes rel64 (plt_pair (-2147483648) 2147483632) =
    Ok {| sb_options := options_new; sb_fdes := [(-2147483648, join a b)] |} /\
  merge_adjacent_fdes dev64 (plt_pair (-2147483648) 2147483632) = Panic.
Proof.
  cbv zeta. assert (HM : mergeable rel64 (plt_fde (-2147483648)) (plt_fde 2147483632)).
  { split; [reflexivity|]. split; [reflexivity|]. split; [left; reflexivity|]. split; [vm_compute; discriminate|].
    split; [vm_compute; split; [reflexivity|discriminate]|vm_compute; reflexivity]. }
  split; [reflexivity|]. split; [exact HM|]. split; [split; [reflexivity|split; [reflexivity|vm_compute; reflexivity]]|].
  split; [apply mg_join; [exact HM|constructor]|]. split; [reflexivity|]. split; [reflexivity|].
  split; vm_compute; reflexivity.
Qed.
