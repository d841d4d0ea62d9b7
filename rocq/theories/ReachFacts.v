(** Invariants of reachable builders (C29) and the FDE merge loop (C44). *)
From Verif Require Export MergeRowFacts.

(** ** Options *)

Definition fixed_wf (o : option Z) : Prop := opt_in (fun z => in_i8 z /\ z <> 0) o.

Record opts_wf (o : sframe_options) : Prop := {
  ow_flags : so_flags o = 1 \/ so_flags o = 3;
  ow_abi : in_u8 (so_abi o);
  ow_fp : fixed_wf (so_fixed_fp o);
  ow_ra : fixed_wf (so_fixed_ra o) }.

Lemma non_zero_wf v : opt_in in_i8 v -> fixed_wf (non_zero v).
Proof.
  destruct v as [z|]; cbn; [|auto]. intros H. destruct (Z.eqb_spec z 0) as [->|Hn]; cbn; auto.
Qed.

Lemma opts_reach_wf o : opts_reach o -> opts_wf o.
Proof.
  induction 1 as [|v o H [F A P R]|a o Ha H [F A P R]|v o Hv H [F A P R]|v o Hv H [F A P R]]; split; cbn; auto.
  - unfold in_u8. lia.
  - destruct F as [->| ->], v; vm_compute; auto.
  - apply non_zero_wf, Hv.
  - apply non_zero_wf, Hv.
Qed.

(** ** Function builders *)

(** Offsets fixed by the section are not stored in rows. *)
Definition normal (o : sframe_options) (r : row) : Prop :=
  forall x, r_offsets r = Some x ->
    (so_fixed_ra o <> None -> ro_ra x = None) /\ (so_fixed_fp o <> None -> ro_fp x = None).

Record row_wf (o : sframe_options) (r : row) : Prop := {
  rw_typed : row_typed r;
  rw_start : r_start r < 0x10000000;
  rw_normal : normal o r }.

Record fdb_wf (b : fdb) : Prop := {
  bw_opts : opts_wf (fb_options b);
  bw_start : in_i32 (fb_start b);
  bw_size : in_u32 (fb_size b);
  bw_rep : opt_in in_u8 (fb_rep_size b);
  bw_sorted : sorted (fb_fres b);
  bw_keyed : keyed (fb_fres b);
  bw_rows : Forall (row_wf (fb_options b)) (rows_of b) }.

Lemma kept_wf o r : row_typed r -> r_start r < 0x10000000 -> row_wf o (kept_row o r).
Proof.
  intros [Hs Ho] Hlt. split; [|exact Hlt|].
  - split; [exact Hs|]. destruct r as [st [x|] mg bs]; cbn in *; [|exact I].
    destruct Ho as (H1 & H2 & H3). unfold offsets_typed, drop_fixed. cbn.
    split; [exact H1|]. split.
    + destruct (so_fixed_ra o); cbn; [exact I|exact H2].
    + destruct (so_fixed_fp o); cbn; [exact I|exact H3].
  - intros x Hx. destruct r as [st [y|] mg bs]; cbn in Hx; [|discriminate]. injection Hx as <-. cbn.
    unfold drop_fixed. destruct (so_fixed_ra o), (so_fixed_fp o); split; intros; congruence.
Qed.

Lemma fdb_reach_wf b : fdb_reach b -> fdb_wf b.
Proof.
  induction 1 as [o st sz Ho Hst Hsz|b H IH|rep b Hr H IH|a b Ha H IH|n b Hn H IH|k b H IH|r b Hr H IH|b b' H IH Hm].
  - split; cbn; auto; [apply opts_reach_wf, Ho|apply sorted_nil|intros ? ? []].
  - destruct IH; split; cbn; auto.
  - destruct IH; split; cbn; auto.
  - destruct IH; split; cbn; auto.
  - destruct IH; split; cbn; auto.
  - destruct IH; split; cbn; auto.
  - destruct IH as [O S Z R So K W].
    destruct (row_cases b r So K) as [[HF E]|(er & _ & E)]; rewrite E; cbn [fst]; [|split; assumption].
    apply conditions_unfold in HF. destruct HF as (H1 & _).
    split; cbn; auto.
    + apply insert_sorted, So.
    + exact (keyed_insert (kept_row (fb_options b) r) _ K).
    + apply Forall_forall. intros x Hin. unfold rows_of in Hin. cbn in Hin. apply rows_insert in Hin.
      destruct Hin as [->|Hin]; [apply kept_wf; assumption|]. rewrite Forall_forall in W. apply W, Hin.
  - destruct IH as [O S Z R So K W]. rewrite merge_fres_eq in Hm by assumption. injection Hm as <-.
    split; cbn; auto.
    + apply squashed_sorted, So.
    + apply squashed_keyed, K.
    + apply Forall_forall. intros x Hin. unfold rows_of in Hin. cbn in Hin.
      apply in_map_iff in Hin. destruct Hin as (kv & <- & Hin). rewrite Forall_forall in W.
      apply W. apply in_map, squashed_in, Hin.
Qed.

(** ** Section builders *)

Definition fkeyed (m : btree fdb) : Prop := forall k b, In (k, b) m -> k = fb_start b.

Record sfb_wf (s : sfb) : Prop := {
  sw_opts : opts_wf (sb_options s);
  sw_sorted : sorted (sb_fdes s);
  sw_keyed : fkeyed (sb_fdes s);
  sw_fdes : Forall (fun b => fdb_wf b /\ fb_options b = sb_options s) (fdes_of s) }.

(** The FDE merge loop as a structural function. *)
Fixpoint fsquash {E} (md : mode) (k : Z) (cur : fdb) (rest : btree fdb) : outcome E (btree fdb) :=
  match rest with
  | [] => Ok [(k, cur)]
  | (k', n) :: t =>
      let* merge := should_merge md cur n in
      if merge : bool then fsquash md k (merged_fde cur n) t
      else let* r := fsquash md k' n t in Ok ((k, cur) :: r)
  end.

Lemma insert_at {V} (pre : btree V) k v v' rest :
  sorted (pre ++ (k, v) :: rest) -> bt_insert k v' (pre ++ (k, v) :: rest) = pre ++ (k, v') :: rest.
Proof.
  induction pre as [|[k1 v1] pre IH]; intros Hs; cbn [app bt_insert].
  - rewrite Z.ltb_irrefl, Z.eqb_refl. reflexivity.
  - cbn [app] in Hs. apply sorted_cons_iff in Hs. destruct Hs as [Hs HF].
    assert (k1 < k) by (apply (HF k v), in_or_app; right; left; reflexivity).
    destruct (Z.ltb_spec k k1); [lia|]. destruct (Z.eqb_spec k k1); [lia|].
    rewrite IH by exact Hs. reflexivity.
Qed.

Lemma sorted_replace {V} (pre : btree V) k v v' rest :
  sorted (pre ++ (k, v) :: rest) -> sorted (pre ++ (k, v') :: rest).
Proof. unfold sorted, bt_keys. rewrite !map_app. cbn. auto. Qed.

Lemma fkeyed_drop pre kv1 kv2 rest :
  fkeyed (pre ++ kv1 :: kv2 :: rest) -> fkeyed (pre ++ kv1 :: rest).
Proof.
  intros H k r Hin. apply H. apply in_app_or in Hin. apply in_or_app.
  destruct Hin as [Hin|[Hin|Hin]]; [left; exact Hin|right; left; exact Hin|right; right; right; exact Hin].
Qed.

Lemma fkeyed_replace pre k v v' rest : fb_start v' = fb_start v ->
  fkeyed (pre ++ (k, v) :: rest) -> fkeyed (pre ++ (k, v') :: rest).
Proof.
  intros E H k1 b Hin. apply in_app_or in Hin. destruct Hin as [Hin|[Hin|Hin]].
  - apply H. apply in_or_app. left; exact Hin.
  - injection Hin as <- <-. rewrite E. apply H. apply in_or_app. right; left; reflexivity.
  - apply H. apply in_or_app. right; right; exact Hin.
Qed.

Lemma merge_fdes_loop_eq md fuel : forall pre k cur rest,
  sorted (pre ++ (k, cur) :: rest) -> fkeyed (pre ++ (k, cur) :: rest) ->
  (length rest < fuel)%nat ->
  merge_fdes_loop fuel md k (pre ++ (k, cur) :: rest) =
  (let* r := fsquash md k cur rest in Ok (pre ++ r)).
Proof.
  induction fuel as [|fuel IH]; intros pre k cur rest Hs Hk Hf; [lia|].
  cbn [merge_fdes_loop]. rewrite range_from_at by exact Hs.
  destruct rest as [|[k' n] t]; [reflexivity|]. cbn [fsquash length] in *.
  assert (Hkn : fb_start n = k').
  { symmetry. apply Hk. apply in_or_app. right; right; left; reflexivity. }
  rewrite Hkn.
  destruct (@should_merge fuel_error md cur n) as [mg| |] eqn:E; cbn [bind]; try reflexivity.
  destruct mg.
  - rewrite (insert_at pre k cur (merged_fde cur n)) by exact Hs.
    assert (Hs' := sorted_replace pre k cur (merged_fde cur n) _ Hs).
    assert (Hk' : fkeyed (pre ++ (k, merged_fde cur n) :: (k', n) :: t)) by (apply (fkeyed_replace _ _ cur); [reflexivity|exact Hk]).
    rewrite remove_at by exact Hs'. apply IH.
    + eapply sorted_drop; exact Hs'.
    + eapply fkeyed_drop; exact Hk'.
    + lia.
  - replace (pre ++ (k, cur) :: (k', n) :: t) with ((pre ++ [(k, cur)]) ++ (k', n) :: t) in *
      by (rewrite <- app_assoc; reflexivity).
    rewrite IH by (try assumption; lia).
    destruct (@fsquash fuel_error md k' n t); cbn [bind]; try reflexivity. rewrite <- app_assoc. reflexivity.
Qed.

Definition fsquashed {E} (md : mode) (m : btree fdb) : outcome E (btree fdb) :=
  match m with [] => Ok [] | (k, r) :: t => fsquash md k r t end.

Lemma merge_fdes_eq md s : sorted (sb_fdes s) -> fkeyed (sb_fdes s) ->
  merge_adjacent_fdes md s =
  (let* m := fsquashed md (sb_fdes s) in Ok {| sb_options := sb_options s; sb_fdes := m |}).
Proof.
  intros Hs Hk. unfold merge_adjacent_fdes, fsquashed.
  destruct (sb_fdes s) as [|[k r] t] eqn:E; cbn [bt_first hd_error].
  - cbn [bind]. f_equal. destruct s; cbn in *. subst. reflexivity.
  - change ((k, r) :: t) with ([] ++ (k, r) :: t).
    rewrite merge_fdes_loop_eq; [|exact Hs|exact Hk|cbn; lia].
    destruct (@fsquash fuel_error md k r t); reflexivity.
Qed.

(** ** The decision to merge *)

Lemma sub_i32_ok {E} md a b d : @sub_i32 E md a b = Ok d -> as_u 32 d = (a - b) mod 2 ^ 32.
Proof.
  unfold sub_i32. destruct (in_i32b (a - b)) eqn:Eb; [intros [= <-]; reflexivity|].
  destruct (overflow_checks md); [discriminate|]. intros [= <-].
  unfold as_u, as_s. cbv zeta. destruct (_ <? _).
  - apply Z.mod_mod. lia.
  - replace ((a - b) mod 2 ^ 32 - 2 ^ 32) with ((a - b) mod 2 ^ 32 + (-1) * 2 ^ 32) by lia.
    rewrite Z.mod_add, Z.mod_mod by lia. reflexivity.
Qed.

Lemma rep_mismatch_spec cur next : rep_mismatch cur next = false <-> rep_compatible cur next.
Proof.
  unfold rep_mismatch, rep_compatible. destruct (fb_rep_size cur), (fb_rep_size next); lia.
Qed.

(** For neighbours in ascending order: the sizes must add up to 2^32 with the
    distance between the starts. *)
Lemma should_merge_true {E} md cur next :
  in_i32 (fb_start cur) -> in_i32 (fb_start next) -> fb_start cur < fb_start next -> in_u32 (fb_size cur) ->
  fb_options cur = fb_options next ->
  (@should_merge E md cur next = Ok true <->
   fb_pauth cur = fb_pauth next /\
   fb_start next - fb_start cur + fb_size cur = 2 ^ 32 /\
   (overflow_checks md = false \/ fb_start next - fb_start cur <= 2 ^ 31) /\
   fb_size cur + fb_size next <= u32_max /\ rep_compatible cur next /\ fb_fres cur = fb_fres next).
Proof.
  intros Hc Hn Hlt Hsz Ho. unfold should_merge.
  replace (options_eqb (fb_options cur) (fb_options next)) with true
    by (symmetry; apply options_eqb_spec, Ho).
  rewrite andb_false_r.
  destruct (pauth_eqb (fb_pauth cur) (fb_pauth next)) eqn:Ep; cbn [negb].
  2:{ split; [discriminate|]. intros (H & _). apply pauth_eqb_spec in H. congruence. }
  apply pauth_eqb_spec in Ep.
  destruct (@sub_i32 E md (fb_start cur) (fb_start next)) as [d|er|] eqn:Es; cbn [bind].
  2:{ unfold sub_i32 in Es. destruct (in_i32b _), (overflow_checks md); discriminate. }
  2:{ split; [discriminate|]. intros (_ & _ & H & _). unfold sub_i32 in Es.
      destruct (in_i32b (fb_start cur - fb_start next)) eqn:Eb; [discriminate|].
      destruct (overflow_checks md); [|discriminate]. destruct H as [H|H]; [discriminate|].
      unfold in_i32b, in_i32, i32_min, i32_max in *. lia. }
  assert (Hov : overflow_checks md = false \/ fb_start next - fb_start cur <= 2 ^ 31).
  { unfold sub_i32 in Es. destruct (in_i32b (fb_start cur - fb_start next)) eqn:Eb.
    - right. unfold in_i32b, i32_min in Eb. lia.
    - destruct (overflow_checks md); [discriminate|left; reflexivity]. }
  apply sub_i32_ok in Es. rewrite Es.
  assert (Hm : (fb_start cur - fb_start next) mod 2 ^ 32 = 2 ^ 32 - (fb_start next - fb_start cur)).
  { symmetry. apply (Z.mod_unique _ _ (-1)); unfold in_i32, i32_min, i32_max in *; [left|]; lia. }
  rewrite Hm.
  destruct (Z.eqb_spec (2 ^ 32 - (fb_start next - fb_start cur)) (fb_size cur)) as [Hd|Hd]; cbn [negb].
  2:{ split; [discriminate|]. intros (_ & H & _). lia. }
  destruct (Z.ltb_spec u32_max (fb_size cur + fb_size next)) as [Hu|Hu].
  { split; [discriminate|]. intros (_ & _ & _ & H & _). lia. }
  destruct (rep_mismatch cur next) eqn:Er.
  { split; [discriminate|]. intros (_ & _ & _ & _ & H & _). apply rep_mismatch_spec in H. congruence. }
  apply rep_mismatch_spec in Er.
  destruct (fres_eqb (fb_fres cur) (fb_fres next)) eqn:Ef; cbn [negb].
  - apply fres_eqb_spec in Ef. split; [intros _|reflexivity]. repeat apply conj; auto. lia.
  - split; [discriminate|]. intros (_ & _ & _ & _ & _ & H). apply fres_eqb_spec in H. congruence.
Qed.

Lemma should_merge_not_err {E} md cur next er : @should_merge E md cur next <> Err er.
Proof.
  unfold should_merge. destruct (debug_asserts md && _); [discriminate|].
  destruct (pauth_eqb _ _); cbn [negb]; [|discriminate].
  unfold sub_i32. destruct (in_i32b _); cbn [bind].
  - destruct (negb (_ =? _)); [discriminate|]. destruct (_ <? _); [discriminate|].
    destruct (rep_mismatch _ _); [discriminate|]. destruct (fres_eqb _ _); discriminate.
  - destruct (overflow_checks md); cbn [bind]; [discriminate|].
    destruct (negb (_ =? _)); [discriminate|]. destruct (_ <? _); [discriminate|].
    destruct (rep_mismatch _ _); [discriminate|]. destruct (fres_eqb _ _); discriminate.
Qed.

Lemma should_merge_panic {E} md cur next : fb_options cur = fb_options next ->
  @should_merge E md cur next = Panic ->
  overflow_checks md = true /\ ~ in_i32 (fb_start cur - fb_start next).
Proof.
  intros Ho. unfold should_merge.
  replace (options_eqb (fb_options cur) (fb_options next)) with true
    by (symmetry; apply options_eqb_spec, Ho).
  rewrite andb_false_r.
  destruct (pauth_eqb _ _); cbn [negb]; [|discriminate].
  unfold sub_i32. destruct (in_i32b (fb_start cur - fb_start next)) eqn:Eb; cbn [bind].
  - destruct (negb (_ =? _)); [discriminate|]. destruct (_ <? _); [discriminate|].
    destruct (rep_mismatch _ _); [discriminate|]. destruct (fres_eqb _ _); discriminate.
  - destruct (overflow_checks md); cbn [bind].
    + intros _. split; [reflexivity|]. intros H. apply in_i32b_spec in H. congruence.
    + destruct (negb (_ =? _)); [discriminate|]. destruct (_ <? _); [discriminate|].
      destruct (rep_mismatch _ _); [discriminate|]. destruct (fres_eqb _ _); discriminate.
Qed.

(** What merging keeps of the first descriptor, given the guard on the sizes. *)
Lemma should_merge_sum {E} md cur next : @should_merge E md cur next = Ok true ->
  fb_size cur + fb_size next <= u32_max.
Proof.
  unfold should_merge. destruct (debug_asserts md && _); [discriminate|].
  destruct (pauth_eqb _ _); cbn [negb]; [|discriminate].
  destruct (sub_i32 md _ _); cbn [bind]; try discriminate.
  destruct (negb (_ =? _)); [discriminate|]. destruct (Z.ltb_spec u32_max (fb_size cur + fb_size next)); [discriminate|].
  intros _. lia.
Qed.

Lemma merged_wf cur next : fdb_wf cur -> fdb_wf next -> fb_size cur + fb_size next <= u32_max ->
  fdb_wf (merged_fde cur next).
Proof.
  intros [O S Z R So K W] [O' S' Z' R' So' K' W'] Hs. split; cbn; auto.
  - unfold in_u32 in *. lia.
  - destruct (fb_rep_size cur) as [a|]; cbn in *; [exact R|].
    destruct (fb_rep_size next) as [c|]; cbn in *; [exact R'|].
    pose proof (as_u_range 8 (fb_size cur) ltac:(lia)). unfold in_u8. lia.
Qed.

(** ** What the structural loop does *)

(** Survivors come from the old builder with the same start, rows, pauth key and
    options. *)
Definition survives (m : btree fdb) (kb : Z * fdb) : Prop :=
  exists b, In (fst kb, b) m /\ fb_start (snd kb) = fb_start b /\ fb_fres (snd kb) = fb_fres b /\
    fb_pauth (snd kb) = fb_pauth b /\ fb_options (snd kb) = fb_options b.

Lemma fsquash_survives {E} md k cur t : forall r, @fsquash E md k cur t = Ok r ->
  Forall (survives ((k, cur) :: t)) r /\ exists b t', r = (k, b) :: t'.
Proof.
  revert k cur. induction t as [|[k' n] t IH]; intros k cur r; cbn [fsquash].
  - intros [= <-]. split; [|eauto]. constructor; [|constructor]. exists cur. cbn. auto.
  - intros H. apply bind_ok in H. destruct H as (mg & Hm & H). destruct mg.
    + apply IH in H. destruct H as [HF Hh]. split; [|exact Hh].
      eapply Forall_impl; [|exact HF]. intros [k1 b1] (b & Hin & H1 & H2 & H3 & H4). cbn in *.
      destruct Hin as [Hin|Hin].
      * injection Hin as <- <-. exists cur. split; [left; reflexivity|]. cbn in *. auto.
      * exists b. split; [right; right; exact Hin|]. auto.
    + apply bind_ok in H. destruct H as (r' & Hr & H). injection H as <-.
      apply IH in Hr. destruct Hr as [HF _]. split; [|eauto]. constructor.
      * exists cur. cbn. auto.
      * eapply Forall_impl; [|exact HF]. intros [k1 b1] (b & Hin & H1). exists b. split; [right; exact Hin|exact H1].
Qed.

Lemma fsquash_sorted {E} md k cur t : forall r, sorted ((k, cur) :: t) -> @fsquash E md k cur t = Ok r -> sorted r.
Proof.
  revert k cur. induction t as [|[k' n] t IH]; intros k cur r Hs; cbn [fsquash].
  - intros [= <-]. exact Hs.
  - intros H. apply bind_ok in H. destruct H as (mg & Hm & H). destruct mg.
    + apply (IH k (merged_fde cur n)); [|exact H]. apply (sorted_replace [] k cur).
      exact (sorted_drop [] _ _ _ Hs).
    + apply bind_ok in H. destruct H as (r' & Hr & H). injection H as <-.
      apply sorted_cons_iff in Hs. destruct Hs as [Hs HF].
      apply sorted_cons_iff. split; [eapply IH; eassumption|].
      intros k1 v1 Hin. apply fsquash_survives in Hr. destruct Hr as [HF' _].
      rewrite Forall_forall in HF'. destruct (HF' _ Hin) as (b & Hb & _). cbn in Hb. eapply HF, Hb.
Qed.

Lemma fsquash_wf {E} md o k cur t : forall r,
  Forall (fun b => fdb_wf b /\ fb_options b = o) (cur :: map snd t) ->
  @fsquash E md k cur t = Ok r -> Forall (fun b => fdb_wf b /\ fb_options b = o) (map snd r).
Proof.
  revert k cur. induction t as [|[k' n] t IH]; intros k cur r HF; cbn [fsquash].
  - intros [= <-]. exact HF.
  - intros H. apply bind_ok in H. destruct H as (mg & Hm & H).
    cbn [map snd] in HF. inversion HF as [|? ? [Hc Hco] HF1]; subst. inversion HF1 as [|? ? [Hn Hno] HF2]; subst.
    destruct mg.
    + apply (IH k (merged_fde cur n)); [|exact H]. constructor; [|exact HF2]. split; [|reflexivity].
      apply merged_wf; [assumption|assumption|]. eapply should_merge_sum; exact Hm.
    + apply bind_ok in H. destruct H as (r' & Hr & H). injection H as <-. cbn [map snd].
      constructor; [auto|]. eapply IH; [exact HF1|exact Hr].
Qed.

Lemma fsquash_not_err {E} md k cur t er : @fsquash E md k cur t <> Err er.
Proof.
  revert k cur. induction t as [|[k' n] t IH]; intros k cur; cbn [fsquash]; [discriminate|].
  destruct (@should_merge E md cur n) as [[|]| |] eqn:Em; cbn [bind].
  - apply IH.
  - intros H. apply bind_err in H. destruct H as [H|(r & _ & H)]; [|discriminate]. eapply IH, H.
  - exfalso. eapply should_merge_not_err, Em.
  - discriminate.
Qed.

(** A panic needs overflow checks and two starts more than 2^31 apart. *)
Lemma fsquash_panic {E} md o k cur t :
  Forall (fun b => fb_options b = o) (cur :: map snd t) ->
  @fsquash E md k cur t = Panic ->
  overflow_checks md = true /\
  exists a b, In a (fb_start cur :: map (fun kb => fb_start (snd kb)) t) /\
              In b (map snd t) /\ ~ in_i32 (a - fb_start b).
Proof.
  revert k cur. induction t as [|[k' n] t IH]; intros k cur HF; cbn [fsquash]; [discriminate|].
  cbn [map snd] in HF. inversion HF as [|? ? Hc HF1]; subst. inversion HF1 as [|? ? Hn HF2]; subst.
  intros H. apply bind_panic in H. destruct H as [H|(mg & Hm & H)].
  - apply should_merge_panic in H; [|congruence]. destruct H as [H1 H2]. split; [exact H1|].
    exists (fb_start cur), n. cbn. auto.
  - destruct mg.
    + apply IH in H; [|constructor; [reflexivity|exact HF2]].
      destruct H as (H1 & a & b & Ha & Hb & Hab). split; [exact H1|]. exists a, b. cbn in *. tauto.
    + apply bind_panic in H. destruct H as [H|(r & _ & H)]; [|discriminate].
      apply IH in H; [|first [exact HF1|rewrite <- Hn; exact HF1]].
      destruct H as (H1 & a & b & Ha & Hb & Hab). split; [exact H1|]. exists a, b. cbn in *. tauto.
Qed.

Lemma sfb_reach_wf md s : sfb_reach md s -> sfb_wf s.
Proof.
  induction 1 as [o Ho|s b s' Hs IH Hb H|s s' Hs IH H].
  - split; cbn; [apply opts_reach_wf, Ho|apply sorted_nil|intros ? ? []|constructor].
  - destruct IH as [O S K W]. unfold sfb_fde in H.
    destruct (options_eqb (sb_options s) (fb_options b)) eqn:E; [|discriminate]. injection H as <-.
    apply options_eqb_spec in E. split; cbn; auto.
    + apply insert_sorted, S.
    + intros k c Hin. apply in_insert in Hin. destruct Hin as [[= -> ->]|Hin]; auto.
    + apply Forall_forall. intros c Hin. unfold fdes_of in Hin. cbn in Hin.
      apply in_map_iff in Hin. destruct Hin as ([k c'] & Hc & Hin). cbn in Hc. subst c'.
      apply in_insert in Hin. destruct Hin as [[= -> ->]|Hin].
      * split; [apply fdb_reach_wf, Hb|congruence].
      * rewrite Forall_forall in W. apply W. unfold fdes_of. apply in_map_iff. exists (k, c). auto.
  - destruct IH as [O S K W]. rewrite merge_fdes_eq in H by assumption.
    apply bind_ok in H. destruct H as (m & Hm & H). injection H as <-. unfold fdes_of in *.
    destruct (sb_fdes s) as [|[k c] t] eqn:E; cbn [fsquashed] in Hm.
    + injection Hm as <-. split; cbn; auto.
    + split; cbn; auto.
      * eapply fsquash_sorted; eassumption.
      * apply fsquash_survives in Hm. destruct Hm as [HF _]. rewrite Forall_forall in HF.
        intros k1 b1 Hin. destruct (HF _ Hin) as (b & Hb & H1 & _). cbn in *. rewrite H1. apply K. exact Hb.
      * eapply fsquash_wf; eassumption.
Qed.

(** ** C29 *)

Lemma sorted_starts m : sorted m -> keyed m -> NoDup (map r_start (map snd m)).
Proof.
  induction m as [|[k r] t IH]; intros Hs Hk; cbn; constructor.
  - intros Hin. apply in_map_iff in Hin. destruct Hin as (r' & E & Hin).
    apply in_map_iff in Hin. destruct Hin as ([k' r2] & <- & Hin). cbn in E.
    pose proof (Hk k r (or_introl eq_refl)). pose proof (Hk k' r2 (or_intror Hin)).
    apply sorted_cons_iff in Hs. destruct Hs as [_ HF]. specialize (HF _ _ Hin). lia.
  - apply IH; [apply sorted_tail in Hs; exact Hs|]. intros k' r' Hin. apply Hk. right; exact Hin.
Qed.

Theorem reach_rows b : fdb_reach b ->
  NoDup (map r_start (rows_of b)) /\
  Forall (fun r => 0 <= r_start r < 0x10000000) (rows_of b) /\
  (forall r o, In r (rows_of b) -> r_offsets r = Some o ->
     (so_fixed_ra (fb_options b) <> None -> ro_ra o = None) /\
     (so_fixed_fp (fb_options b) <> None -> ro_fp o = None)) /\
  (forall E, @addr_type E (max_offset b) <> Panic).
Proof.
  intros H. apply fdb_reach_wf in H. destruct H as [O S Z R So K W]. rewrite Forall_forall in W.
  split; [apply sorted_starts; assumption|]. split; [|split].
  - apply Forall_forall. intros r Hin. destruct (W r Hin) as [[[T1 _] _] L _]. lia.
  - intros r o Hin Ho. destruct (W r Hin) as [_ _ N]. apply N, Ho.
  - intros E. unfold addr_type, max_offset.
    destruct (bt_last (fb_fres b)) as [[k r]|] eqn:El; [|discriminate].
    assert (Hin : In r (rows_of b)).
    { apply bt_last_max in El; [|exact So]. destruct El as [El _]. unfold rows_of. apply in_map_iff. exists (k, r). auto. }
    destruct (W r Hin) as [[[T1 _] _] L _].
    destruct ((0 <=? r_start r) && (r_start r <=? 0x7F)); [discriminate|].
    destruct ((0 <=? r_start r) && (r_start r <=? 0x7FFF)); [discriminate|].
    replace ((0 <=? r_start r) && (r_start r <=? 0x7FFFFFFF)) with true by lia. discriminate.
Qed.

(** ** C44 *)

Theorem merge_fdes_terminates md s : sfb_reach md s ->
  match merge_adjacent_fdes md s with
  | Ok s' =>
      sb_options s' = sb_options s /\
      option_map fb_start (hd_error (fdes_of s')) = option_map fb_start (hd_error (fdes_of s)) /\
      Sorted Z.lt (map fb_start (fdes_of s')) /\
      forall b', In b' (fdes_of s') ->
        exists b, In b (fdes_of s) /\ fb_start b' = fb_start b /\ rows_of b' = rows_of b /\
          fb_pauth b' = fb_pauth b
  | Err _ => False
  | Panic => overflow_checks md = true /\
      exists a b, In a (fdes_of s) /\ In b (fdes_of s) /\ i32_max < fb_start b - fb_start a
  end.
Proof.
  intros H. pose proof (sfb_reach_wf _ _ H) as [O S K W].
  rewrite merge_fdes_eq by assumption. unfold fdes_of in *.
  destruct (sb_fdes s) as [|[k c] t] eqn:E; cbn [fsquashed].
  { cbn [bind]. cbn. repeat apply conj; auto; intros ? []. }
  destruct (@fsquash fuel_error md k c t) as [m|er|] eqn:Em; cbn [bind].
  - cbn [sb_options sb_fdes]. split; [reflexivity|].
    assert (Sm := fsquash_sorted _ _ _ _ _ S Em).
    apply fsquash_survives in Em. destruct Em as [HF (b0 & t' & Hm)]. rewrite Forall_forall in HF.
    split; [|split].
    + subst m. cbn. f_equal. destruct (HF (k, b0) (or_introl eq_refl)) as (b & Hb & H1 & _). cbn in *.
      rewrite H1. rewrite <- (K _ _ Hb), <- (K k c) by (left; reflexivity). reflexivity.
    + assert (map fb_start (map snd m) = bt_keys m) as ->.
      { unfold bt_keys. rewrite map_map. apply map_ext_in. intros [k1 b1] Hin.
        destruct (HF _ Hin) as (b & Hb & H1 & _). cbn in *. rewrite H1. symmetry. apply K, Hb. }
      apply StronglySorted_Sorted. exact Sm.
    + intros b' Hin. apply in_map_iff in Hin. destruct Hin as ([k1 b1] & <- & Hin).
      destruct (HF _ Hin) as (b & Hb & H1 & H2 & H3 & _). cbn in *. exists b.
      split; [|unfold rows_of; rewrite H2; auto].
      destruct Hb as [[= <- <-]|Hb]; [left; reflexivity|right]. apply in_map_iff. exists (k1, b). auto.
  - eapply fsquash_not_err, Em.
  - apply fsquash_panic with (o := sb_options s) in Em.
    2:{ eapply Forall_impl; [|exact W]. cbn. tauto. }
    destruct Em as (Hov & a & b & Ha & Hb & Hab). split; [exact Hov|].
    rewrite Forall_forall in W. cbn [map snd] in *.
    assert (Hia : exists a', In a' (c :: map snd t) /\ fb_start a' = a).
    { destruct Ha as [<-|Ha]; [exists c; split; [left; reflexivity|reflexivity]|].
      apply in_map_iff in Ha. destruct Ha as ([k1 b1] & <- & Hin). exists b1. split; [|reflexivity].
      right. apply in_map_iff. exists (k1, b1). auto. }
    destruct Hia as (a' & Ha' & <-).
    destruct (W a' Ha') as [Wa _]. destruct (W b (or_intror Hb)) as [Wb _].
    pose proof (bw_start _ Wa). pose proof (bw_start _ Wb). unfold in_i32, i32_min, i32_max in *.
    destruct (Z.le_gt_cases (fb_start b - fb_start a') 2147483648) as [Hle|Hgt].
    + exists b, a'. repeat apply conj; [right; exact Hb|exact Ha'|]. lia.
    + exists a', b. repeat apply conj; [exact Ha'|right; exact Hb|]. lia.
Qed.
