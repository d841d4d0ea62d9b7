(** Merging functions with the distance repaired: what it does (C42, C43, C53). *)
From Verif Require Export MergeRepaired MergeExact WriteWitness.
From Verif Require Import StdSpec LookupFacts IterLook.

Lemma repaired_true {E} md a b : in_i32 (fb_start a) -> in_i32 (fb_start b) -> fb_start a < fb_start b ->
  in_u32 (fb_size a) -> fb_options a = fb_options b ->
  exists d, @should_merge_repaired E md a b = Ok d /\ (d = true <-> continues a b).
Proof.
  intros Ha Hb Hlt Hu Ho. unfold should_merge_repaired, continues.
  replace (options_eqb (fb_options a) (fb_options b)) with true by (symmetry; apply options_eqb_spec, Ho).
  rewrite andb_false_r. destruct (pauth_eqb (fb_pauth a) (fb_pauth b)) eqn:Ep; cbn [negb].
  2:{ exists false. split; [reflexivity|]. split; [discriminate|]. intros (H & _). apply pauth_eqb_spec in H. congruence. }
  apply pauth_eqb_spec in Ep. cbv zeta.
  assert (Hd : as_u 32 (as_s 32 (fb_start b - fb_start a)) = fb_start b - fb_start a).
  { assert (H : as_u 32 (as_s 32 (fb_start b - fb_start a)) = (fb_start b - fb_start a) mod 2 ^ 32).
    { unfold as_u, as_s. cbv zeta. destruct (_ <? _); [apply Z.mod_mod; lia|].
      replace ((fb_start b - fb_start a) mod 2 ^ 32 - 2 ^ 32) with ((fb_start b - fb_start a) mod 2 ^ 32 + (-1) * 2 ^ 32) by lia.
      rewrite Z.mod_add, Z.mod_mod by lia. reflexivity. }
    rewrite H. apply Z.mod_small. unfold in_i32, i32_min, i32_max in *. lia. }
  rewrite Hd. destruct (Z.eqb_spec (fb_start b - fb_start a) (fb_size a)) as [Hs|Hs]; cbn [negb].
  2:{ exists false. split; [reflexivity|]. split; [discriminate|]. intros (_ & H & _). lia. }
  destruct (Z.ltb_spec u32_max (fb_size a + fb_size b)) as [Hx|Hx].
  { exists false. split; [reflexivity|]. split; [discriminate|]. intros (_ & _ & H & _). lia. }
  destruct (rep_mismatch a b) eqn:Er.
  { exists false. split; [reflexivity|]. split; [discriminate|]. intros (_ & _ & _ & H & _). apply rep_mismatch_spec in H. congruence. }
  apply rep_mismatch_spec in Er. destruct (fres_eqb (fb_fres a) (fb_fres b)) eqn:Ef; cbn [negb].
  - exists true. apply fres_eqb_spec in Ef. split; [reflexivity|]. split; [intros _|reflexivity]. repeat apply conj; auto. lia.
  - exists false. split; [reflexivity|]. split; [discriminate|]. intros (_ & _ & _ & _ & H). apply fres_eqb_spec in H. congruence.
Qed.

Lemma continues_join a b : in_u32 (fb_size a) -> continues a b -> merged_fde a b = join a b.
Proof.
  intros Hu (_ & _ & _ & H & _). unfold merged_fde, join, block_size. f_equal. f_equal.
  unfold rep_compatible in H. destruct (fb_rep_size a), (fb_rep_size b); try reflexivity.
  unfold as_u. rewrite Z.mod_small; [reflexivity|]. unfold in_u32 in Hu. lia.
Qed.

(** The loop as a structural function. *)
Fixpoint rsquash {E} (md : mode) (k : Z) (cur : fdb) (rest : btree fdb) : outcome E (btree fdb) :=
  match rest with
  | [] => Ok [(k, cur)]
  | (k', n) :: t =>
      let* merge := should_merge_repaired md cur n in
      if merge : bool then rsquash md k (merged_fde cur n) t
      else let* r := rsquash md k' n t in Ok ((k, cur) :: r)
  end.

Lemma repaired_loop_eq md fuel : forall pre k cur rest,
  sorted (pre ++ (k, cur) :: rest) -> fkeyed (pre ++ (k, cur) :: rest) -> (length rest < fuel)%nat ->
  merge_repaired_loop fuel md k (pre ++ (k, cur) :: rest) = (let* r := rsquash md k cur rest in Ok (pre ++ r)).
Proof.
  induction fuel as [|fuel IH]; intros pre k cur rest Hs Hk Hf; [lia|].
  cbn [merge_repaired_loop]. rewrite range_from_at by exact Hs.
  destruct rest as [|[k' n] t]; [reflexivity|]. cbn [rsquash length] in *.
  assert (Hkn : fb_start n = k') by (symmetry; apply Hk; apply in_or_app; right; right; left; reflexivity).
  rewrite Hkn.
  destruct (@should_merge_repaired fuel_error md cur n) as [mg| |] eqn:E; cbn [bind]; try reflexivity.
  destruct mg.
  - rewrite (insert_at pre k cur (merged_fde cur n)) by exact Hs.
    assert (Hs' := sorted_replace pre k cur (merged_fde cur n) _ Hs).
    assert (Hk' : fkeyed (pre ++ (k, merged_fde cur n) :: (k', n) :: t)) by (apply (fkeyed_replace _ _ cur); [reflexivity|exact Hk]).
    rewrite remove_at by exact Hs'. apply IH.
    + eapply sorted_drop; exact Hs'.
    + eapply fkeyed_drop; exact Hk'.
    + lia.
  - replace (pre ++ (k, cur) :: (k', n) :: t) with ((pre ++ [(k, cur)]) ++ (k', n) :: t) in *
      by (rewrite <- app_assoc; reflexivity).
    rewrite IH by (try assumption; lia).
    destruct (@rsquash fuel_error md k' n t); cbn [bind]; try reflexivity. rewrite <- app_assoc. reflexivity.
Qed.

Lemma keys_inside (k : Z) (a : fdb) k' b t (m : btree fdb) : sorted ((k, a) :: (k', b) :: t) -> (forall x, In x (map fst m) -> In x (map fst ((k', b) :: t))) ->
  forall x, In x (map fst m) -> k < x.
Proof.
  intros Hs Hi x Hx. apply Hi, in_map_iff in Hx. destruct Hx as ([x' c] & <- & Hin).
  apply sorted_cons_iff in Hs. apply (proj2 Hs x' c Hin).
Qed.

Lemma rsquash_exact {E} md o : forall t k a,
  sorted ((k, a) :: t) -> fkeyed ((k, a) :: t) -> Forall (fun b => fdb_wf b /\ fb_options b = o) (a :: map snd t) ->
  exists r, @rsquash E md k a t = Ok r /\ joins (a :: map snd t) (map snd r) /\ fkeyed r /\ sorted r /\
    (forall x, In x (map fst r) -> In x (map fst ((k, a) :: t))).
Proof.
  induction t as [|[k' b] t IH]; intros k a Hs Hk HF; cbn [rsquash map snd] in *.
  - exists [(k, a)]. split; [reflexivity|]. split; [constructor|]. split; [exact Hk|]. split; [exact Hs|auto].
  - inversion HF as [|? ? [Wa Oa] HF1]; subst. inversion HF1 as [|? ? [Wb Ob] HF2]; subst.
    assert (Ea : k = fb_start a) by (apply Hk; left; reflexivity).
    assert (Eb : k' = fb_start b) by (apply Hk; right; left; reflexivity).
    pose proof (proj1 (sorted_cons_iff _ _ _) Hs) as [Hs1 Hlt0]. pose proof (Hlt0 k' b (or_introl eq_refl)) as Hlt. rewrite Ea, Eb in Hlt.
    destruct (@repaired_true E md a b (bw_start _ Wa) (bw_start _ Wb) Hlt (bw_size _ Wa) ltac:(congruence)) as (d & Ed & HM).
    rewrite Ed. cbn [bind]. destruct d.
    + assert (Hm : continues a b) by (apply HM; reflexivity). rewrite (continues_join a b (bw_size _ Wa) Hm).
      destruct (IH k (join a b)) as (r & R1 & R2 & R3 & R4 & R5).
      * apply (sorted_replace [] k a (join a b) ((k', b) :: t)) in Hs. apply (sorted_drop [] _ _ t) in Hs. exact Hs.
      * apply (fkeyed_replace [] k a (join a b) ((k', b) :: t) eq_refl) in Hk. apply (fkeyed_drop [] _ _ t) in Hk. exact Hk.
      * constructor; [|exact HF2]. split; [|reflexivity].
        rewrite <- (continues_join a b (bw_size _ Wa) Hm). apply merged_wf; [assumption|assumption|apply Hm].
      * exists r. split; [exact R1|]. split; [apply jo_join; assumption|]. split; [exact R3|]. split; [exact R4|].
        intros x Hx. apply R5 in Hx. cbn in Hx |- *. tauto.
    + assert (Hm : ~ continues a b) by (intros H; apply HM in H; discriminate).
      destruct (IH k' b Hs1) as (r & R1 & R2 & R3 & R4 & R5); [intros k1 b1 Hin; apply Hk; right; exact Hin|exact HF1|].
      rewrite R1. cbn [bind]. exists ((k, a) :: r). split; [reflexivity|]. cbn [map snd].
      split; [apply jo_keep; assumption|]. split.
      { intros k1 b1 [Hin|Hin]; [injection Hin as <- <-; exact Ea|apply R3, Hin]. }
      split.
      { apply sorted_cons_iff. split; [exact R4|]. intros k1 b1 Hin.
        apply (keys_inside k a k' b t r Hs R5). apply (in_map fst) in Hin. exact Hin. }
      intros x [Hx|Hx]; [left; exact Hx|right; apply R5, Hx].
Qed.

(** The repaired merge never fails and joins exactly the functions that continue
    one another. *)
Theorem repaired_merge md s : sfb_reach md s ->
  exists s', merge_repaired md s = Ok s' /\ sb_options s' = sb_options s /\ joins (fdes_of s) (fdes_of s').
Proof.
  intros H. pose proof (sfb_reach_wf _ _ H) as [O S K W]. unfold merge_repaired, fdes_of in *.
  destruct s as [o m]. cbn [sb_fdes sb_options] in *. destruct m as [|[k a] t]; cbn [bt_first hd_error].
  - exists {| sb_options := o; sb_fdes := [] |}. split; [reflexivity|]. split; [reflexivity|constructor].
  - change ((k, a) :: t) with ([] ++ (k, a) :: t). rewrite repaired_loop_eq; [|exact S|exact K|cbn; lia].
    destruct (@rsquash_exact fuel_error md o t k a S K W) as (r & R1 & R2 & _). rewrite R1. cbn [bind app].
    exists {| sb_options := o; sb_fdes := r |}. split; [reflexivity|]. split; [reflexivity|exact R2].
Qed.

Lemma joins_fun l : forall l1 l2, joins l l1 -> joins l l2 -> l1 = l2.
Proof.
  intros l1 l2 H. revert l2. induction H as [|a|a b t l Hm _ IH|a b t l Hm _ IH]; intros l2 H2; inversion H2; subst; try contradiction; auto.
  f_equal. auto.
Qed.

(** ** Unwinding is not changed *)

Definition covers (l : list fdb) (a : Z) (k : pauth) (r : row) : Prop :=
  exists b, In b l /\ in_range (fb_start b) (fb_size b) a /\ fb_pauth b = k /\ in_effect (rows_of b) (offset_in b a) r.

Lemma covers_cons b l a k r : covers (b :: l) a k r <->
  (in_range (fb_start b) (fb_size b) a /\ fb_pauth b = k /\ in_effect (rows_of b) (offset_in b a) r) \/ covers l a k r.
Proof.
  split.
  - intros (c & [<-|H] & R); [left; exact R|right; exists c; split; assumption].
  - intros [R|(c & H & R)]; [exists b; split; [left; reflexivity|exact R]|exists c; split; [right; exact H|exact R]].
Qed.

Lemma mod_skip x n m : (n | m) -> (x + m) mod n = x mod n.
Proof.
  intros [q ->]. destruct (Z.eq_dec n 0) as [->|Hn]; [rewrite Z.mul_0_r, Z.add_0_r; reflexivity|apply Z.mod_add, Hn].
Qed.

Lemma offset_join a b x : 0 <= fb_size a -> continues a b -> whole_blocks a -> whole_blocks b ->
  (in_range (fb_start a) (fb_size a) x -> offset_in (join a b) x = offset_in a x) /\
  (in_range (fb_start b) (fb_size b) x -> offset_in (join a b) x = offset_in b x).
Proof.
  intros H0 (_ & Hs & _ & HR & _) Wa Wb. unfold offset_in, join, block_size, whole_blocks, rep_compatible, in_range in *. cbn.
  rewrite Hs. set (y := x - (fb_start a + fb_size a)).
  assert (Hy : x - fb_start a = y + fb_size a) by (unfold y; lia).
  destruct (fb_rep_size a) as [n|], (fb_rep_size b) as [m|]; cbn in *.
  - subst m. split; intros R; [reflexivity|]. rewrite Hy. apply mod_skip, Wa.
  - subst n. split; intros R; [reflexivity|]. rewrite Hy, mod_skip by exact Wa. apply Z.mod_small. unfold y. lia.
  - subst m. split; intros R; [apply Z.mod_small; lia|]. rewrite Hy. apply mod_skip, Z.divide_refl.
  - destruct HR as [HR _]. split; intros R; [apply Z.mod_small; lia|].
    rewrite Hy, mod_skip by apply Z.divide_refl. apply Z.mod_small. unfold y. lia.
Qed.

Lemma join_whole a b : continues a b -> whole_blocks a -> whole_blocks b -> whole_blocks (join a b).
Proof.
  intros (_ & _ & _ & HR & _) Wa Wb. unfold whole_blocks, join, block_size, rep_compatible in *. cbn.
  destruct (fb_rep_size a) as [n|], (fb_rep_size b) as [m|]; cbn in *.
  - subst m. apply Z.divide_add_r; assumption.
  - subst n. apply Z.divide_add_r; [assumption|apply Z.divide_refl].
  - subst m. apply Z.divide_add_r; [apply Z.divide_refl|assumption].
  - destruct HR as [HR _]. rewrite <- HR. apply Z.divide_add_r; apply Z.divide_refl.
Qed.

Lemma covers_join a b x k r : 0 <= fb_size a -> 0 <= fb_size b -> continues a b -> whole_blocks a -> whole_blocks b ->
  (covers [join a b] x k r <-> covers [a; b] x k r).
Proof.
  intros Ha Hb HC Wa Wb. destruct (offset_join a b x Ha HC Wa Wb) as [Oa Ob]. pose proof HC as (HP & HS & _ & _ & HF).
  rewrite !covers_cons. assert (N : forall X, X \/ covers [] x k r <-> X).
  { intros X. split; [intros [H|(c & [] & _)]; exact H|auto]. }
  rewrite N, N. assert (Er : rows_of (join a b) = rows_of a) by reflexivity. assert (Er' : rows_of b = rows_of a) by (unfold rows_of; rewrite HF; reflexivity).
  rewrite Er, Er'. cbn [join fb_pauth fb_start fb_size]. rewrite <- HP.
  assert (D : in_range (fb_start a) (fb_size a + fb_size b) x <-> in_range (fb_start a) (fb_size a) x \/ in_range (fb_start b) (fb_size b) x)
    by (unfold in_range; rewrite HS; lia).
  rewrite D. split.
  - intros ([R|R] & K & I); [left|right]; (split; [exact R|split; [exact K|]]); [rewrite Oa in I|rewrite Ob in I]; assumption.
  - intros [(R & K & I)|(R & K & I)]; (split; [auto|split; [exact K|]]); [rewrite Oa|rewrite Ob]; assumption.
Qed.

Lemma covers_app l1 l2 x k r : covers (l1 ++ l2) x k r <-> covers l1 x k r \/ covers l2 x k r.
Proof.
  split.
  - intros (b & H & R). apply in_app_or in H. destruct H; [left|right]; exists b; split; assumption.
  - intros [(b & H & R)|(b & H & R)]; exists b; (split; [apply in_or_app; tauto|exact R]).
Qed.

Lemma joins_covers l l' : joins l l' -> Forall (fun b => 0 <= fb_size b) l -> Forall whole_blocks l ->
  (forall x k r, covers l' x k r <-> covers l x k r) /\ Forall whole_blocks l' /\ Forall (fun b => 0 <= fb_size b) l'.
Proof.
  intros H. induction H as [|a|a b t l Hc _ IH|a b t l Hc _ IH]; intros HS HW; [split; [reflexivity|auto]|split; [reflexivity|auto]| |].
  - inversion HS as [|? ? Sa HS1]; subst. inversion HS1 as [|? ? Sb HS2]; subst.
    inversion HW as [|? ? Wa HW1]; subst. inversion HW1 as [|? ? Wb HW2]; subst.
    destruct IH as (I & J).
    { constructor; [cbn; lia|exact HS2]. }
    { constructor; [apply join_whole; assumption|exact HW2]. }
    split; [|exact J]. intros x k r. rewrite I.
    change (covers ([join a b] ++ t) x k r <-> covers ([a; b] ++ t) x k r). rewrite !covers_app.
    rewrite (covers_join a b) by assumption. reflexivity.
  - inversion HS as [|? ? Sa HS1]; subst. inversion HW as [|? ? Wa HW1]; subst.
    destruct (IH HS1 HW1) as (I & J & J'). split; [|split; constructor; assumption].
    intros x k r. rewrite !(covers_cons a). rewrite I. reflexivity.
Qed.

Lemma reach_sizes md s : sfb_reach md s -> Forall (fun b => 0 <= fb_size b) (fdes_of s).
Proof.
  intros H. pose proof (sw_fdes _ (sfb_reach_wf _ _ H)) as W. eapply Forall_impl; [|exact W]. cbn.
  intros b [Wb _]. pose proof (bw_size _ Wb). unfold in_u32 in *. lia.
Qed.

Theorem repaired_unwinding md s s' : sfb_reach md s -> merge_repaired md s = Ok s' -> Forall whole_blocks (fdes_of s) ->
  forall a k p, unwind_at s' a k p <-> unwind_at s a k p.
Proof.
  intros H M W a k p. destruct (repaired_merge md s H) as (s1 & M1 & _ & J). rewrite M in M1. injection M1 as <-.
  destruct (joins_covers _ _ J (reach_sizes md s H) W) as (C & _).
  assert (U : forall t, unwind_at t a k p <-> exists r, covers (fdes_of t) a k r /\ payload r = p).
  { intros t. split.
    - intros (b & Hb & HR & Hk & r & Hr & Hp). exists r. split; [|exact Hp]. exists b. auto.
    - intros (r & (b & Hb & HR & Hk & Hr) & Hp). exists b. split; [exact Hb|]. split; [exact HR|]. split; [exact Hk|]. exists r. auto. }
  rewrite !U. split; intros (r & Hr & Hp); exists r; (split; [apply C, Hr|exact Hp]).
Qed.

Theorem repaired_asked md s s' : sfb_reach md s -> merge_repaired md s = Ok s' -> Forall whole_blocks (fdes_of s) ->
  forall a k u, asked_with_key s' a k u <-> asked_with_key s a k u.
Proof.
  intros H M W a k u. destruct (repaired_merge md s H) as (s1 & M1 & Ho & J). rewrite M in M1. injection M1 as <-.
  destruct (joins_covers _ _ J (reach_sizes md s H) W) as (C & _).
  assert (U : forall t, asked_with_key t a k u <-> exists r, covers (fdes_of t) a k r /\ intended (sb_options t) r = u).
  { intros t. split.
    - intros (b & r & Hb & HR & Hr & Hk & Hp). exists r. split; [|exact Hp]. exists b. auto.
    - intros (r & (b & Hb & HR & Hk & Hr) & Hp). exists b, r. auto. }
  rewrite !U, Ho. split; intros (r & Hr & Hp); exists r; (split; [apply C, Hr|exact Hp]).
Qed.

Theorem repaired_both md s : sfb_reach md s ->
  exists s', merge_repaired md s = Ok s' /\ sb_options s' = sb_options s /\ joins (fdes_of s) (fdes_of s') /\
    (Forall whole_blocks (fdes_of s) -> forall a k p, unwind_at s' a k p <-> unwind_at s a k p).
Proof.
  intros H. destruct (repaired_merge md s H) as (s' & M & Ho & J). exists s'. split; [exact M|]. split; [exact Ho|]. split; [exact J|].
  exact (repaired_unwinding md s s' H M).
Qed.

(** ** The merged builder is one the public interface can make *)

Lemma joins_keeps (Q : fdb -> Prop) l l' : joins l l' -> StronglySorted Z.lt (map fb_start l) ->
  (forall a b, continues a b -> fb_start a < fb_start b -> Q a -> Q b -> Q (join a b)) -> Forall Q l -> Forall Q l'.
Proof.
  intros H HS HJ. revert HS. induction H as [|a|a b t l Hc _ IH|a b t l Hc _ IH]; intros HS HF; [auto|auto| |].
  - cbn [map] in HS. inversion HS as [|? ? HS1 HL]; subst. inversion HS1 as [|? ? HS2 HL2]; subst. inversion HL as [|? ? Hab HL1]; subst.
    inversion HF as [|? ? Qa HF1]; subst. inversion HF1 as [|? ? Qb HF2]; subst. apply IH.
    + cbn [map join fb_start]. constructor; assumption.
    + constructor; [apply HJ; assumption|exact HF2].
  - cbn [map] in HS. inversion HS as [|? ? HS1 HL]; subst. inversion HF as [|? ? Qa HF1]; subst. constructor; [exact Qa|]. apply IH; assumption.
Qed.

Lemma join_reach a b : fdb_reach a -> in_u8 (block_size a b) -> in_u32 (fb_size a + fb_size b) -> fdb_reach (join a b).
Proof. intros Ha Hn Hs. exact (br_size _ _ Hs (br_pcmask _ _ Hn Ha)). Qed.

Lemma block_u8 a b : fdb_wf a -> fdb_wf b -> rep_compatible a b -> in_u8 (block_size a b).
Proof.
  intros Wa Wb HR. pose proof (bw_rep _ Wa) as Ra. pose proof (bw_rep _ Wb) as Rb. pose proof (bw_size _ Wa) as Sa.
  unfold block_size, rep_compatible in *. destruct (fb_rep_size a), (fb_rep_size b); cbn in *; auto.
  unfold in_u8, in_u32 in *. lia.
Qed.

Lemma sums_u32 a b : fdb_wf a -> fdb_wf b -> fb_size a + fb_size b <= u32_max -> in_u32 (fb_size a + fb_size b).
Proof. intros Wa Wb H. pose proof (bw_size _ Wa). pose proof (bw_size _ Wb). unfold in_u32 in *. lia. Qed.

Lemma merges_keep_reach md l l' : merges md l l' -> Forall fdb_reach l -> Forall fdb_reach l'.
Proof.
  induction 1 as [|a|a b t l Hm _ IH|a b t l Hm _ IH]; intros HF; [auto|auto| |].
  - inversion HF as [|? ? Qa HF1]; subst. inversion HF1 as [|? ? Qb HF2]; subst. apply IH. constructor; [|exact HF2].
    pose proof (fdb_reach_wf _ Qa) as Wa. pose proof (fdb_reach_wf _ Qb) as Wb. destruct Hm as (_ & _ & _ & Hs & HR & _).
    apply join_reach; [exact Qa|apply block_u8; assumption|apply sums_u32; assumption].
  - inversion HF as [|? ? Qa HF1]; subst. constructor; [exact Qa|apply IH, HF1].
Qed.

Lemma reach_members md s : sfb_reach md s -> opts_reach (sb_options s) /\ Forall fdb_reach (fdes_of s).
Proof.
  induction 1 as [o Ho|s b s' H [IO IF] Hb HS|s s' H [IO IF] HM].
  - split; [exact Ho|constructor].
  - unfold sfb_fde in HS. destruct (options_eqb _ _); [|discriminate]. injection HS as <-. cbn [sb_options]. split; [exact IO|].
    rewrite Forall_forall in *. unfold fdes_of in *. cbn [sb_fdes]. intros x Hx. apply in_map_iff in Hx. destruct Hx as ([k c] & <- & Hin).
    apply in_insert in Hin. destruct Hin as [Hin|Hin]; [injection Hin as -> ->; exact Hb|]. apply IF. apply (in_map snd) in Hin. exact Hin.
  - destruct (merge_exact md s H) as [M _]. destruct (M s' HM) as [Eo Hm]. rewrite Eo. split; [exact IO|].
    eapply merges_keep_reach; eassumption.
Qed.

Lemma members_reach md o : opts_reach o -> forall m, sorted m -> fkeyed m ->
  Forall (fun b => fdb_reach b /\ fb_options b = o) (map snd m) -> sfb_reach md {| sb_options := o; sb_fdes := m |}.
Proof.
  intros Ho. induction m as [|[k b] m IH]; intros Hs Hk HF.
  - exact (sr_new md o Ho).
  - apply sorted_cons_iff in Hs. destruct Hs as [Hs Hlt]. cbn [map snd] in HF. inversion HF as [|? ? [Hb Eo] HF1]; subst.
    eapply sr_fde; [apply IH; [exact Hs|intros k1 b1 Hin; apply Hk; right; exact Hin|exact HF1]|exact Hb|].
    unfold sfb_fde. cbn [sb_options sb_fdes]. rewrite (proj2 (options_eqb_spec _ _) eq_refl). f_equal. f_equal.
    rewrite <- (Hk k b (or_introl eq_refl)). destruct m as [|[k1 b1] m]; [reflexivity|]. cbn [bt_insert].
    pose proof (Hlt k1 b1 (or_introl eq_refl)). destruct (Z.ltb_spec k k1); [reflexivity|lia].
Qed.

Lemma starts_ascending m : sorted m -> fkeyed m -> StronglySorted Z.lt (map fb_start (map snd m)).
Proof.
  intros HS HK. rewrite map_map. assert (E : map (fun x : Z * fdb => fb_start (snd x)) m = map fst m).
  { apply map_ext_in. intros [k b] Hi. cbn. symmetry. apply HK, Hi. }
  rewrite E. exact HS.
Qed.

Theorem repaired_reach md md' s s' : sfb_reach md s -> merge_repaired md s = Ok s' -> sfb_reach md' s'.
Proof.
  intros H M. pose proof (sfb_reach_wf _ _ H) as [O S K W]. destruct (reach_members md s H) as [Ho HF].
  unfold merge_repaired, fdes_of in *. destruct s as [o m]. cbn [sb_fdes sb_options] in *.
  destruct m as [|[k a] t]; cbn [bt_first hd_error] in M; [injection M as <-; apply members_reach; [exact Ho|exact S|exact K|constructor]|].
  change ((k, a) :: t) with ([] ++ (k, a) :: t) in M. rewrite repaired_loop_eq in M; [|exact S|exact K|cbn; lia].
  destruct (@rsquash_exact fuel_error md o t k a S K W) as (r & R1 & R2 & R3 & R4 & _). rewrite R1 in M. cbn [bind app] in M.
  injection M as <-. apply members_reach; [exact Ho|exact R4|exact R3|].
  apply (joins_keeps (fun b => fdb_reach b /\ fb_options b = o) _ _ R2).
  - exact (starts_ascending _ S K).
  - intros x y (_ & _ & Hs & HR & _) _ [Qx Ox] [Qy _]. split; [|exact Ox].
    pose proof (fdb_reach_wf _ Qx). pose proof (fdb_reach_wf _ Qy).
    apply join_reach; [exact Qx|apply block_u8; assumption|apply sums_u32; assumption].
  - rewrite Forall_forall in *. intros x Hx. split; [apply HF, Hx|]. apply W, Hx.
Qed.

(** Which builders can be made does not depend on the profile. *)
Lemma reach_any md md' s : sfb_reach md s -> sfb_reach md' s.
Proof.
  intros H. pose proof (sfb_reach_wf _ _ H) as [O S K W]. destruct (reach_members md s H) as [Ho HF]. destruct s as [o m].
  apply members_reach; [exact Ho|exact S|exact K|]. unfold fdes_of in *. cbn [sb_options sb_fdes] in *.
  rewrite Forall_forall in *. intros x Hx. split; [apply HF, Hx|apply W, Hx].
Qed.

(** ** No larger *)

Lemma joins_smaller l l' : joins l l' -> Forall fdb_reach l -> zlen l' <= zlen l /\ sumz (map fde_fre_size l') <= sumz (map fde_fre_size l).
Proof.
  induction 1 as [|a|a b t l Hm _ IH|a b t l Hm _ IH]; intros HF; [lia|lia| |].
  - inversion HF as [|? ? Qa HF1]; subst. inversion HF1 as [|? ? Qb HF2]; subst.
    pose proof (fdb_reach_wf _ Qa) as Wa. pose proof (fdb_reach_wf _ Qb) as Wb. destruct Hm as (_ & _ & Hs & HR & _).
    destruct IH as [I1 I2]; [constructor; [apply join_reach; [exact Qa|apply block_u8; assumption|apply sums_u32; assumption]|exact HF2]|].
    cbn [map sumz fold_right] in I2 |- *. fold (sumz (map fde_fre_size t)) in *. change (fde_fre_size (join a b)) with (fde_fre_size a) in I2.
    assert (0 <= fde_fre_size b) by (pose proof (fre_size_bounds {| sb_options := fb_options b; sb_fdes := [(fb_start b, b)] |}) as HB;
      unfold fre_size, fdes_of, row_count in HB; cbn in HB; pose proof (zlen_nonneg (rows_of b)); lia).
    rewrite !zlen_cons in *. lia.
  - inversion HF as [|? ? Qa HF1]; subst. destruct (IH HF1) as [I1 I2]. cbn [map sumz fold_right] in *. rewrite !zlen_cons in *.
    fold (sumz (map fde_fre_size l)) in *. fold (sumz (map fde_fre_size (b :: t))) in *. lia.
Qed.

(** Each function merged away saves its descriptor. *)
Theorem repaired_smaller md md1 md2 e e' s s' bs bs' : sfb_reach md s -> merge_repaired md s = Ok s' ->
  build md1 e s = Ok bs -> build md2 e' s' = Ok bs' ->
  zlen (fdes_of s') <= zlen (fdes_of s) /\ zlen bs' + 20 * (zlen (fdes_of s) - zlen (fdes_of s')) <= zlen bs.
Proof.
  intros H M B B'. destruct (repaired_merge md s H) as (s1 & M1 & _ & J). rewrite M in M1. injection M1 as <-.
  destruct (reach_members md s H) as [_ HF]. destruct (joins_smaller _ _ J HF) as [L1 L2]. split; [exact L1|].
  pose proof (reach_any md md1 s H) as H1. pose proof (repaired_reach md md2 s s' H M) as H2.
  destruct (trip_header md1 e s bs H1 B) as (E1 & _). destruct (trip_header md2 e' s' bs' H2 B') as (E2 & _).
  rewrite E1, E2. unfold fre_size. lia.
Qed.

(** ** And read alike *)

(** A function whose rows the library gives back as they were asked for. *)
Definition kept_whole (o : sframe_options) (b : fdb) : Prop :=
  rows_inside b /\ fb_rep_size b <> Some 0 /\ whole_blocks b /\
  forall r, In r (rows_of b) -> ~ tied r /\ ~ ambiguous o r.

Lemma join_kept o a b : 0 <= fb_size b -> continues a b -> fb_start a < fb_start b ->
  kept_whole o a -> kept_whole o b -> kept_whole o (join a b).
Proof.
  intros Hb HC Hlt (Ia & Ra & Wa & Ta) (Ib & Rb & Wb & Tb). split; [|split; [|split; [apply join_whole; assumption|exact Ta]]].
  - unfold rows_inside in *. cbn [join fb_size]. change (rows_of (join a b)) with (rows_of a).
    eapply Forall_impl; [|exact Ia]. cbn. intros r Hr. lia.
  - destruct HC as (_ & HS & _). cbn [join fb_rep_size]. unfold block_size.
    destruct (fb_rep_size a) as [n|]; [exact Ra|]. destruct (fb_rep_size b) as [n|]; [exact Rb|]. intros [= E]. lia.
Qed.

Theorem repaired_read md md1 md2 md1' md2' e e' s s' bs bs' sf sf' :
  sfb_reach md s -> merge_repaired md s = Ok s' -> Forall (kept_whole (sb_options s)) (fdes_of s) ->
  build md1 e s = Ok bs -> wf_mode md1' -> rust_slice md1' bs -> load md1' e bs = Ok sf ->
  build md2 e' s' = Ok bs' -> wf_mode md2' -> rust_slice md2' bs' -> load md2' e' bs' = Ok sf' ->
  forall a k u, lib_says md2' e' sf' a k u <-> lib_says md1' e sf a k u.
Proof.
  intros H M HK B1 Hm1 Hs1 L1 B2 Hm2 Hs2 L2 a k u.
  pose proof (repaired_reach md md2 s s' H M) as H2. pose proof (reach_any md md1 s H) as H1.
  destruct (repaired_merge md s H) as (s1 & M1 & Ho & J). rewrite M in M1. injection M1 as <-.
  pose proof (reach_sizes md s H) as HS. pose proof (sfb_reach_wf _ _ H) as [_ S K _].
  assert (HK' : Forall (fun b => kept_whole (sb_options s) b /\ 0 <= fb_size b) (fdes_of s')).
  { apply (joins_keeps _ _ _ J); [exact (starts_ascending _ S K)| |].
    - intros x y HC Hlt [Kx Sx] [Ky Sy]. split; [apply join_kept; assumption|cbn; lia].
    - rewrite Forall_forall in *. intros x Hx. split; [apply HK, Hx|apply HS, Hx]. }
  rewrite Forall_forall in HK, HK'.
  rewrite (iter_all md2 md2' e' s' bs' sf' H2 B2 Hm2 Hs2 L2 a), (iter_all md1 md1' e s bs sf H1 B1 Hm1 Hs1 L1 a).
  - apply (repaired_asked md s s' H M). apply Forall_forall. intros b Hb. apply HK, Hb.
  - intros b Hb _. destruct (HK b Hb) as (A1 & A2 & _ & A4). auto.
  - intros b Hb _. destruct (HK' b Hb) as [(A1 & A2 & _ & A4) _]. rewrite Ho. auto.
Qed.

(** ** Identical neighbours become one *)

Theorem repaired_two md s a b : sfb_reach md s -> fdes_of s = [a; b] ->
  (continues a b <-> exists s', merge_repaired md s = Ok s' /\ fdes_of s' = [join a b]).
Proof.
  intros H E. destruct (repaired_merge md s H) as (s' & M & _ & J). rewrite E in J. split.
  - intros HC. exists s'. split; [exact M|]. inversion J as [| |? ? ? ? HC' J2|? ? ? ? HC' J2]; subst; [|contradiction]. inversion J2; subst. reflexivity.
  - intros (s1 & M1 & E1). rewrite M in M1. injection M1 as <-. rewrite E1 in J. inversion J as [| |? ? ? ? HC' J2|? ? ? ? HC' J2]; subst; [assumption|].
    inversion J2.
Qed.

(** A run of identical functions, one behind the other, becomes one. *)
Fixpoint in_a_row (a : fdb) (n : nat) : list fdb :=
  match n with O => [] | S k => a :: in_a_row (fdb_set_start (fb_start a + fb_size a) a) k end.

Lemma in_a_row_joins n : forall a c, fb_rep_size c = None -> 0 < fb_size c <= 255 ->
  fb_pauth a = fb_pauth c -> fb_fres a = fb_fres c -> fb_rep_size a = None \/ fb_rep_size a = Some (fb_size c) ->
  (fb_rep_size a = None -> fb_size a = fb_size c) ->
  fb_size a + Z.of_nat n * fb_size c <= u32_max ->
  exists b, joins (a :: in_a_row (fdb_set_start (fb_start a + fb_size a) c) n) [b] /\
    fb_start b = fb_start a /\ fb_size b = fb_size a + Z.of_nat n * fb_size c /\
    fb_rep_size b = (if n then fb_rep_size a else Some (fb_size c)) /\ fb_fres b = fb_fres c /\ fb_pauth b = fb_pauth c.
Proof.
  induction n as [|n IH]; intros a c Hc Hs Hp Hf Hr Hn Hsum.
  - exists a. cbn [in_a_row]. split; [constructor|]. repeat split; auto. lia.
  - cbn [in_a_row]. set (d := fdb_set_start (fb_start a + fb_size a) c).
    assert (HC : continues a d).
    { unfold continues, d, rep_compatible. cbn [fdb_set_start fb_pauth fb_start fb_size fb_rep_size fb_fres]. rewrite Hc.
      split; [exact Hp|]. split; [reflexivity|]. split; [lia|]. split; [|exact Hf].
      destruct Hr as [E|E]; rewrite E; [|reflexivity]. specialize (Hn E). lia. }
    destruct (IH (join a d) c) as (b & J & B1 & B2 & B3 & B4 & B5); auto.
    + right. unfold join, block_size, d. cbn [fb_rep_size fdb_set_start]. rewrite Hc.
      destruct Hr as [E|E]; rewrite E; [|reflexivity]. rewrite (Hn E). reflexivity.
    + cbn [join fb_rep_size]. discriminate.
    + cbn [join fb_size]. change (fb_size d) with (fb_size c). lia.
    + exists b. split.
      * apply jo_join; [exact HC|]. replace (fdb_set_start (fb_start d + fb_size d) d) with (fdb_set_start (fb_start (join a d) + fb_size (join a d)) c); [exact J|].
        unfold fdb_set_start, join, d. cbn. f_equal. lia.
      * split; [exact B1|]. split; [rewrite B2; cbn [join fb_size]; change (fb_size d) with (fb_size c); lia|].
        split; [|auto]. rewrite B3. destruct n; [|reflexivity]. unfold join, block_size, d. cbn [fb_rep_size fdb_set_start]. rewrite Hc.
        destruct Hr as [E|E]; rewrite E; [|reflexivity]. rewrite (Hn E). reflexivity.
Qed.

Theorem repaired_run md s a n : sfb_reach md s -> fdes_of s = in_a_row a (S (S n)) -> fb_rep_size a = None -> 0 < fb_size a <= 255 ->
  Z.of_nat (S (S n)) * fb_size a <= u32_max ->
  exists s' b, merge_repaired md s = Ok s' /\ fdes_of s' = [b] /\ fb_start b = fb_start a /\
    fb_size b = Z.of_nat (S (S n)) * fb_size a /\ fb_rep_size b = Some (fb_size a) /\ rows_of b = rows_of a /\ fb_pauth b = fb_pauth a.
Proof.
  intros H E Hr Hs Hsum. destruct (repaired_merge md s H) as (s' & M & _ & J).
  destruct (in_a_row_joins (S n) a a Hr Hs eq_refl eq_refl (or_introl Hr) (fun _ => eq_refl)) as (b & JB & B1 & B2 & B3 & B4 & B5); [lia|].
  rewrite E in J. cbn [in_a_row] in J, JB. pose proof (joins_fun _ _ _ J JB) as Eb.
  exists s', b. split; [exact M|]. split; [exact Eb|]. split; [exact B1|]. split; [lia|]. split; [exact B3|].
  split; [unfold rows_of; rewrite B4; reflexivity|exact B5].
Qed.
