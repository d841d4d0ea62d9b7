(** Two sections made into one with the builder (C148). *)
From Coq Require Import Permutation.
From Verif Require Import BTreeFacts WriteFacts EmitFacts TripFacts RoundFacts MergeExact CopyFacts WriteWitness ConvProps CfiTotal.
From Verif Require Export JoinSpec PlaceFacts.

(** ** Every function of a reachable builder is reachable *)

Lemma join_reach md a b : fdb_reach a -> fdb_reach b -> mergeable md a b -> fdb_reach (join a b).
Proof.
  intros Ha Hb Hm. pose proof (fdb_reach_wf a Ha) as Wa. pose proof (fdb_reach_wf b Hb) as Wb.
  change (join a b) with (fdb_set_size (fb_size a + fb_size b) (fdb_pcmask (block_size a b) a)).
  apply br_size.
  - destruct Hm as (_ & _ & _ & H & _). pose proof (bw_size _ Wa). pose proof (bw_size _ Wb). unfold in_u32, u32_max in *. lia.
  - apply br_pcmask; [|exact Ha]. unfold block_size.
    pose proof (bw_rep _ Wa) as Ra. pose proof (bw_rep _ Wb) as Rb.
    destruct (fb_rep_size a) as [n|] eqn:Ea; [exact Ra|]. destruct (fb_rep_size b) as [n|] eqn:Eb; [exact Rb|].
    pose proof (mergeable_size md a b Hm Ea Eb). pose proof (bw_size _ Wa). unfold in_u32, in_u8 in *. lia.
Qed.
Lemma merges_reach md l l' : merges md l l' -> Forall fdb_reach l -> Forall fdb_reach l'.
Proof.
  induction 1 as [|a|a b t l Hm _ IH|a b t l Hm _ IH]; intros HF; [constructor|exact HF| |].
  - inversion HF as [|? ? Ha HF1]; subst. inversion HF1 as [|? ? Hb HF2]; subst. apply IH.
    constructor; [apply (join_reach md); assumption|exact HF2].
  - inversion HF as [|? ? Ha HF1]; subst. constructor; [exact Ha|]. apply IH, HF1.
Qed.
Theorem reach_functions md s : sfb_reach md s -> Forall fdb_reach (fdes_of s).
Proof.
  induction 1 as [o Ho|s b s1 Hs IH Hb HA|s s1 Hs IH HM]; [constructor| |].
  - rewrite Forall_forall in *. intros c Hc. destruct (added_others s s1 b HA c Hc) as [->|H]; auto.
  - destruct (merge_exact md s Hs) as [X _]. destruct (X s1 HM) as [_ HX]. apply (merges_reach md _ _ HX IH).
Qed.

Lemma starts_nodup md s : sfb_reach md s -> NoDup (map fb_start (fdes_of s)).
Proof. intros H. apply lt_sorted_nodup, sorted_fdes, (sfb_reach_wf md s H). Qed.

(** ** Functions added one after the other *)

Lemma insert_new_perm {V} k (v : V) m : bt_get k m = None -> Permutation (map snd (bt_insert k v m)) (v :: map snd m).
Proof.
  induction m as [|[k' v'] m IH]; cbn; intros Hg; [apply Permutation_refl|].
  destruct (Z.eqb_spec k k') as [->|Hn]; [discriminate|].
  destruct (k <? k'); [apply Permutation_refl|]. cbn. rewrite (IH Hg). apply perm_swap.
Qed.
Lemma add_perm s l : sfb_wf s -> (forall b c, In b (fdes_of s) -> In c l -> fb_start b <> fb_start c) -> NoDup (map fb_start l) ->
  Forall (fun c => fb_options c = sb_options s) l ->
  exists s', add_fdes s l = Ok s' /\ sb_options s' = sb_options s /\ Permutation (fdes_of s') (fdes_of s ++ l).
Proof.
  intros W. pose proof (sw_sorted _ W) as HS. pose proof (sw_keyed _ W) as HK. clear W. revert s HS HK.
  induction l as [|c t IH]; intros s HS HK HD HN HO; [exists s; rewrite app_nil_r; auto using Permutation_refl|].
  inversion HO as [|? ? Oc Ot]; subst. inversion HN as [|? ? Nc Nt]; subst. cbn [add_fdes]. unfold sfb_fde.
  replace (options_eqb (sb_options s) (fb_options c)) with true by (symmetry; apply options_eqb_spec; congruence). cbn [bind].
  set (s0 := {| sb_options := sb_options s; sb_fdes := bt_insert (fb_start c) c (sb_fdes s) |}).
  assert (HG : bt_get (fb_start c) (sb_fdes s) = None).
  { apply bt_get_none. intros v Hv. pose proof (HK _ _ Hv) as E. apply (HD v c); [apply in_map_iff; exists (fb_start c, v); auto|left; reflexivity|congruence]. }
  assert (HP : Permutation (fdes_of s0) (c :: fdes_of s)) by (apply insert_new_perm, HG).
  destruct (IH s0) as (s' & E1 & E2 & E3).
  - apply insert_sorted, HS.
  - intros k b Hin. apply in_insert in Hin. destruct Hin as [[= -> ->]|Hin]; [reflexivity|apply HK, Hin].
  - intros b d Hb Hd. apply (Permutation_in _ HP) in Hb. destruct Hb as [<-|Hb].
    + intros E. apply Nc. rewrite E. apply in_map, Hd.
    + apply (HD b d Hb). right. exact Hd.
  - exact Nt.
  - exact Ot.
  - exists s'. split; [exact E1|]. split; [exact E2|]. rewrite E3, HP. cbn [app]. apply Permutation_middle.
Qed.
Lemma reach_options md s : sfb_reach md s -> Forall (fun c => fb_options c = sb_options s) (fdes_of s).
Proof. intros H. pose proof (sw_fdes _ (sfb_reach_wf md s H)) as HF. apply (Forall_impl _ (fun c X => proj2 X) HF). Qed.

(** A builder is the one that is given its functions. *)
Lemma sorted_unique (m m' : btree fdb) : sorted m -> sorted m' -> fkeyed m -> fkeyed m' -> Permutation (map snd m) (map snd m') -> m = m'.
Proof.
  intros S S' K K' HP.
  assert (HI : forall (m m' : btree fdb), fkeyed m -> fkeyed m' -> Permutation (map snd m) (map snd m') -> forall k v, In (k, v) m -> In (k, v) m').
  { clear. intros m m' K K' HP k v Hin. pose proof (K k v Hin) as E.
    assert (Hv : In v (map snd m')) by (apply (Permutation_in _ HP), in_map_iff; exists (k, v); auto).
    apply in_map_iff in Hv. destruct Hv as ([k' v'] & E1 & H1). cbn [snd] in E1. subst v'. rewrite (K' k' v H1) in H1. congruence. }
  apply bt_ext; try assumption. intros k.
  destruct (bt_get k m) as [v|] eqn:E.
  - symmetry. apply in_bt_get; [exact S'|]. apply (HI m m' K K' HP), bt_get_in, E.
  - symmetry. apply bt_get_none. intros v Hv. apply (HI m' m K' K (Permutation_sym HP)) in Hv. rewrite (in_bt_get _ _ _ S Hv) in E. discriminate.
Qed.

Lemma options_reach md s : sfb_reach md s -> opts_reach (sb_options s).
Proof.
  induction 1 as [o Ho|s b s1 Hs IH Hb HA|s s1 Hs IH HM]; [exact Ho| |].
  - unfold sfb_fde in HA. destruct (options_eqb _ _); [|discriminate]. injection HA as <-. exact IH.
  - destruct (merge_exact md s Hs) as [X _]. destruct (X s1 HM) as [-> _]. exact IH.
Qed.
Lemma added_all md s : sfb_reach md s -> add_fdes (sfb_new (sb_options s)) (fdes_of s) = Ok s.
Proof.
  intros Hr. pose proof (sfb_reach_wf md s Hr) as W.
  assert (R0 : sfb_reach md (sfb_new (sb_options s))) by (constructor; apply (options_reach md s Hr)).
  destruct (add_perm (sfb_new (sb_options s)) (fdes_of s)) as (s' & E1 & E2 & E3).
  - apply (sfb_reach_wf md _ R0).
  - intros b c [].
  - apply (starts_nodup md s Hr).
  - apply (reach_options md s Hr).
  - rewrite E1. f_equal. cbn [fdes_of sfb_new sb_fdes map app sb_options] in *.
    pose proof (sfb_reach_wf md _ (add_fdes_reach md _ _ _ R0 (reach_functions md s Hr) E1)) as W'.
    destruct s as [o m], s' as [o' m']. cbn [sb_options] in E2. subst o'. f_equal.
    apply sorted_unique; [apply (sw_sorted _ W')|apply (sw_sorted _ W)|apply (sw_keyed _ W')|apply (sw_keyed _ W)|exact E3].
Qed.
Theorem reach_anywhere md md' s : sfb_reach md s -> sfb_reach md' s.
Proof.
  intros Hr. apply (add_fdes_reach md' (fdes_of s) (sfb_new (sb_options s))); [constructor; apply (options_reach md s Hr)| |].
  - apply (reach_functions md s Hr).
  - apply (added_all md s Hr).
Qed.
Theorem made_of_functions md s : sfb_reach md s ->
  Forall fdb_reach (fdes_of s) /\ add_fdes (sfb_new (sb_options s)) (fdes_of s) = Ok s.
Proof. intros H. split; [apply (reach_functions md s H)|apply (added_all md s H)]. Qed.

(** ** Joining *)

Lemma sumz_perm f (l l' : list fdb) : Permutation l l' -> sumz (map f l) = sumz (map f l').
Proof. induction 1; cbn [map sumz fold_right] in *; unfold sumz in *; cbn [fold_right] in *; lia. Qed.

Section Join.
  Variables (md1 md2 md : mode) (s1 s2 : sfb).
  Hypothesis R1 : sfb_reach md1 s1.
  Hypothesis R2 : sfb_reach md2 s2.
  Hypothesis HD : distinct s1 s2.

  Theorem joins : sb_options s1 = sb_options s2 ->
    exists s, joined_sfb s1 s2 s /\ joined_sfb s2 s1 s /\ sfb_reach md s /\ sb_options s = sb_options s1 /\
      Permutation (fdes_of s) (fdes_of s1 ++ fdes_of s2).
  Proof using All.
    intros HO. pose proof (reach_options _ _ R1) as O1. pose proof (reach_options _ _ R2) as O2.
    destruct (add_perm s1 (fdes_of s2)) as (s & E1 & E2 & E3);
      [apply (sfb_reach_wf md1), R1|exact HD|apply (starts_nodup md2), R2|rewrite HO; exact O2|].
    destruct (add_perm s2 (fdes_of s1)) as (t & F1 & F2 & F3);
      [apply (sfb_reach_wf md2), R2|intros b c Hb Hc E; apply (HD c b Hc Hb); congruence|apply (starts_nodup md1), R1|rewrite <- HO; exact O1|].
    pose proof (add_fdes_reach md _ _ _ (reach_anywhere md1 md s1 R1) (reach_functions md2 s2 R2) E1) as RS.
    pose proof (add_fdes_reach md _ _ _ (reach_anywhere md2 md s2 R2) (reach_functions md1 s1 R1) F1) as RT.
    assert (s = t).
    { pose proof (sfb_reach_wf _ _ RS) as [_ A B _]. pose proof (sfb_reach_wf _ _ RT) as [_ A' B' _].
      assert (HP : Permutation (fdes_of s) (fdes_of t)) by (rewrite E3, F3; apply Permutation_app_comm).
      destruct s as [o m], t as [o' m']. cbn [sb_options sb_fdes] in *. f_equal; [congruence|]. apply sorted_unique; assumption. }
    subst t. exists s. repeat split; assumption.
  Qed.
  Lemma joined_members s : joined_sfb s1 s2 s ->
    sfb_reach md s /\ Permutation (fdes_of s) (fdes_of s1 ++ fdes_of s2).
  Proof using All.
    intros HJ. split; [apply (add_fdes_reach md _ _ _ (reach_anywhere md1 md s1 R1) (reach_functions md2 s2 R2) HJ)|].
    assert (HO : sb_options s1 = sb_options s2 \/ fdes_of s2 = []).
    { destruct (fdes_of s2) as [|c t] eqn:E; [auto|left]. unfold joined_sfb in HJ. rewrite E in HJ. cbn [add_fdes] in HJ. unfold sfb_fde in HJ.
      destruct (options_eqb (sb_options s1) (fb_options c)) eqn:Eo; [|discriminate]. apply options_eqb_spec in Eo.
      pose proof (reach_options _ _ R2) as HF. rewrite E in HF. inversion HF; subst. congruence. }
    destruct HO as [HO|HO].
    - destruct (joins HO) as (s' & E & _ & _ & _ & HP). unfold joined_sfb in *. replace s with s' by congruence. exact HP.
    - unfold joined_sfb in HJ. rewrite HO in *. cbn [add_fdes] in HJ. injection HJ as <-. rewrite app_nil_r. apply Permutation_refl.
  Qed.

  Theorem joins_build e s : joined_sfb s1 s2 s -> separate s1 s2 -> ~ overlapping s1 -> ~ overlapping s2 ->
    fre_size s1 + fre_size s2 <= u32_max -> 20 * (zlen (fdes_of s1) + zlen (fdes_of s2)) <= u32_max ->
    (overflow_checks md = false \/ ~ wide_gap (fdes_of s)) ->
    exists bs, build md e s = Ok bs /\ zlen bs = 28 + 20 * (zlen (fdes_of s1) + zlen (fdes_of s2)) + (fre_size s1 + fre_size s2).
  Proof using All.
    intros HJ HS O1 O2 T1 T2 HG. destruct (joined_members s HJ) as [Hr HP].
    assert (HI : forall b, In b (fdes_of s) -> In b (fdes_of s1) \/ In b (fdes_of s2)).
    { intros b Hb. apply (Permutation_in _ HP) in Hb. apply in_app_or in Hb. exact Hb. }
    assert (EF : fre_size s = fre_size s1 + fre_size s2).
    { unfold fre_size. rewrite (sumz_perm _ _ _ HP), map_app. apply sumz_app. }
    assert (EN : zlen (fdes_of s) = zlen (fdes_of s1) + zlen (fdes_of s2)).
    { unfold zlen. rewrite (Permutation_length HP), app_length. lia. }
    assert (HO : ~ overlapping s).
    { intros (b & c & Hb & Hc & Hne & Hin). apply HI in Hb. apply HI in Hc. destruct Hb as [Hb|Hb], Hc as [Hc|Hc].
      - apply O1. exists b, c. auto.
      - apply (proj1 (HS b c Hb Hc)), Hin.
      - apply (proj2 (HS c b Hc Hb)), Hin.
      - apply O2. exists b, c. auto. }
    destruct (too_large_exact md e s Hr HO HG) as [_ HB]. destruct HB as [bs HB]; [unfold too_large; lia|].
    exists bs. split; [exact HB|]. destruct (built_image md e s bs (sfb_reach_wf md s Hr) HB) as [_ ->].
    rewrite image_zlen by apply (sfb_reach_wf md s Hr). lia.
  Qed.
End Join.

Section Says.
  Variables (md1 md2 md md1' md2' md' : mode) (e1 e2 e : endian) (s1 s2 s : sfb) (bs1 bs2 bs : bytes) (sf1 sf2 sf : sframe).
  Hypothesis R1 : sfb_reach md1 s1.
  Hypothesis B1 : build md1 e1 s1 = Ok bs1.
  Hypothesis M1 : wf_mode md1'.
  Hypothesis S1 : rust_slice md1' bs1.
  Hypothesis L1 : load md1' e1 bs1 = Ok sf1.
  Hypothesis R2 : sfb_reach md2 s2.
  Hypothesis B2 : build md2 e2 s2 = Ok bs2.
  Hypothesis M2 : wf_mode md2'.
  Hypothesis S2 : rust_slice md2' bs2.
  Hypothesis L2 : load md2' e2 bs2 = Ok sf2.
  Hypothesis HD : distinct s1 s2.
  Hypothesis HJ : joined_sfb s1 s2 s.
  Hypothesis B : build md e s = Ok bs.
  Hypothesis M : wf_mode md'.
  Hypothesis Sl : rust_slice md' bs.
  Hypothesis L : load md' e bs = Ok sf.

  Theorem joined_says a k u : lib_says md' e sf a k u <-> lib_says md1' e1 sf1 a k u \/ lib_says md2' e2 sf2 a k u.
  Proof using All.
    destruct (joined_members md1 md2 md s1 s2 R1 R2 HD s HJ) as [R HP].
    assert (H1 : forall b, In b (fdes_of s1) -> In b (fdes_of s)).
    { intros b Hb. apply (Permutation_in _ (Permutation_sym HP)), in_or_app. auto. }
    assert (H2 : forall b, In b (fdes_of s2) -> In b (fdes_of s)).
    { intros b Hb. apply (Permutation_in _ (Permutation_sym HP)), in_or_app. auto. }
    assert (P1 : forall b, In b (fdes_of s1) -> in_range (fb_start b) (fb_size b) a -> lib_says md' e sf a k u <-> lib_says md1' e1 sf1 a k u).
    { intros b Hb Hin. apply (placed_says md md1 md' md1' e e1 s s1 bs bs1 sf sf1) with (b := b); auto. }
    assert (P2 : forall b, In b (fdes_of s2) -> in_range (fb_start b) (fb_size b) a -> lib_says md' e sf a k u <-> lib_says md2' e2 sf2 a k u).
    { intros b Hb Hin. apply (placed_says md md2 md' md2' e e2 s s2 bs bs2 sf sf2) with (b := b); auto. }
    split.
    - intros H. destruct (covered_or s a) as [(b & Hb & Hin)|HN]; [|exfalso; apply (iter_outside md md' e s bs sf R B M Sl L a k u HN H)].
      apply (Permutation_in _ HP) in Hb. apply in_app_or in Hb. destruct Hb as [Hb|Hb]; [left; apply (P1 b Hb Hin), H|right; apply (P2 b Hb Hin), H].
    - intros [H|H].
      + destruct (covered_or s1 a) as [(b & Hb & Hin)|HN]; [apply (P1 b Hb Hin), H|exfalso; apply (iter_outside md1 md1' e1 s1 bs1 sf1 R1 B1 M1 S1 L1 a k u HN H)].
      + destruct (covered_or s2 a) as [(b & Hb & Hin)|HN]; [apply (P2 b Hb Hin), H|exfalso; apply (iter_outside md2 md2' e2 s2 bs2 sf2 R2 B2 M2 S2 L2 a k u HN H)].
  Qed.
End Says.

(** ** Sections that were read *)

Lemma read_reach md md' e bs sf s : read_again md md' e bs sf s -> sfb_reach md s.
Proof. intros (M & Sl & L & HR & _). apply (reach_anywhere md'), (copy_reach md' e bs sf M Sl L s HR). Qed.
Theorem joined_read md1 md2 md md1' md2' md' e1 e2 e bs1 bs2 bs sf1 sf2 sf s1 s2 s :
  read_again md1 md1' e1 bs1 sf1 s1 -> read_again md2 md2' e2 bs2 sf2 s2 -> distinct s1 s2 -> joined_sfb s1 s2 s ->
  build md e s = Ok bs -> wf_mode md' -> rust_slice md' bs -> load md' e bs = Ok sf ->
  forall a k u, lib_says md' e sf a k u <-> lib_says md1' e1 sf1 a k u \/ lib_says md2' e2 sf2 a k u.
Proof.
  intros H1 H2 HD HJ B M Sl L a k u. pose proof (read_reach _ _ _ _ _ _ H1) as R1. pose proof (read_reach _ _ _ _ _ _ H2) as R2.
  destruct H1 as (M1 & S1 & L1 & _ & B1), H2 as (M2 & S2 & L2 & _ & B2).
  apply (joined_says md1 md2 md md1' md2' md' e1 e2 e s1 s2 s bs1 bs2 bs sf1 sf2 sf); assumption.
Qed.
Theorem built_read_again md md' e s bs : sfb_reach md s -> build md e s = Ok bs -> wf_mode md' -> rust_slice md' bs ->
  Forall rows_inside (fdes_of s) -> (forall b r, In b (fdes_of s) -> In r (rows_of b) -> made_invalid r) ->
  exists sf s', read_again md md' e bs sf s' /\ map fb_start (fdes_of s') = map fb_start (fdes_of s) /\ map fb_size (fdes_of s') = map fb_size (fdes_of s).
Proof.
  intros Hr B M Sl HI HM. pose proof (sfb_reach_wf md s Hr) as W. destruct (built_image md e s bs W B) as [Hsz E].
  exists (built_sf e s), (again_sfb s). split.
  - split; [exact M|]. split; [exact Sl|]. subst bs. split; [apply image_loads; assumption|].
    split; [apply section_read_built; assumption|]. rewrite again_build by exact W. exact B.
  - unfold again_sfb, fdes_of. cbn [sb_fdes]. rewrite !map_map. split; apply map_ext; intros [k b]; reflexivity.
Qed.
