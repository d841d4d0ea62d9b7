(** How many rows a section hands out (C152). *)
From Verif Require Import DumpFacts.
From Verif Require Export CountSpec Counted CopyFacts LookupFacts.

Lemma rows_among_shape {good bad k} :
  rows_among (map (fun fr => Some (inl fr)) good ++ map (fun er => Some (inr er)) bad ++ repeat None k) = zlen good.
Proof.
  unfold rows_among. rewrite !filter_app.
  replace (filter _ (map (fun fr => Some (inl fr)) good)) with (map (fun fr => Some (@inl fre read_error fr)) good)
    by (induction good as [|g t IH]; cbn; [reflexivity|f_equal; exact IH]).
  replace (filter _ (map (fun er => Some (inr er)) bad)) with (@nil (option fre_item))
    by (induction bad as [|g t IH]; cbn; [reflexivity|exact IH]).
  replace (filter _ (repeat None k)) with (@nil (option fre_item)) by (induction k as [|k IH]; cbn; [reflexivity|exact IH]).
  rewrite !app_nil_r, zlen_map. reflexivity.
Qed.

(** Every row takes two bytes at least. *)
Lemma calls_bytes md e : wf_mode md -> forall n it os it', fde_ok (ri_fde it) -> fri_calls n md e it = Ok (os, it') ->
  2 * rows_among os <= zlen (ri_fres it).
Proof.
  intros Hm. induction n as [|n IH]; intros it os it' Hf H; cbn [fri_calls] in H.
  - injection H as <- <-. change (rows_among []) with 0. pose proof (zlen_nonneg (ri_fres it)). lia.
  - destruct (fri_next md e it) as [[o it1]|[]|] eqn:EN; cbn [bind fst snd] in H; [|discriminate].
    destruct (fri_calls n md e it1) as [[os1 it2]|[]|] eqn:EC; cbn [bind fst snd] in H; [|discriminate].
    injection H as <- <-. unfold fri_next in EN.
    destruct (fde_num_fres (ri_fde it) <=? ri_index it); [injection EN as <- <-; exact (IH _ _ _ Hf EC)|].
    destruct (fre_load md e (ri_fde it) (ri_fres it)) as [[fr rest]|er|] eqn:HL; [| |discriminate].
    + injection EN as <- <-. specialize (IH (FreIter (ri_fde it) rest (ri_index it + 1)) os1 it2 Hf EC). cbn [ri_fres] in IH.
      pose proof (fre_load_consumes _ _ _ _ _ _ Hm Hf HL). unfold rows_among in *. cbn [filter]. rewrite zlen_cons. lia.
    + injection EN as <- <-. exact (IH (FreIter (ri_fde it) (ri_fres it) u32_max) os1 it2 Hf EC).
Qed.

Lemma handed_bound md e en k : wf_mode md -> fde_ok (en_fde en) -> handed md e en k ->
  0 <= k <= fde_num_fres (en_fde en) /\ 2 * k <= zlen (en_fres en).
Proof.
  intros Hm Hf (n & os & it & HC & <-).
  destruct (fri_calls_shape md e n (fres en) os it) as (good & bad & k & -> & _ & H3); cbn; try apply Hf; try exact HC.
  { destruct Hf as (_ & _ & _ & [? ?] & _). lia. }
  pose proof (calls_bytes md e Hm n (fres en) _ it Hf HC) as HB. rewrite rows_among_shape in *. cbn [fres ri_fres ri_fde ri_index] in *.
  pose proof (zlen_nonneg good). pose proof (zlen_nonneg bad). lia.
Qed.

Lemma entry_bytes sf en : In en (all_fdes sf) -> zlen (en_fres en) <= zlen (sf_fres sf).
Proof.
  rewrite all_fdes_map. intros H. apply in_map_iff in H. destruct H as (f & <- & _). cbn [entry_of en_fres].
  unfold get_from. destruct (_ <=? _); [unfold zlen; rewrite skipn_length; lia|apply zlen_nonneg].
Qed.

Lemma sum_le ks ns : Forall2 Z.le ks ns -> fold_right Z.add 0 ks <= fold_right Z.add 0 ns.
Proof. induction 1; cbn; lia. Qed.

Lemma handed_counted md e bs sf total : wf_mode md -> rust_slice md bs -> load md e bs = Ok sf -> handed_all md e sf total ->
  0 <= total <= counted sf.
Proof.
  intros Hm Hs HL (ks & HF & ->). unfold counted. pose proof (entry_ok md e bs sf Hm Hs HL) as Hok. revert ks HF.
  induction (all_fdes sf) as [|en t IH]; intros ks HF; inversion HF as [|? k ? ks' H1 H2]; subst; cbn [fold_right map]; [lia|].
  destruct (handed_bound md e en k Hm (Hok en (or_introl eq_refl)) H1) as [HB _].
  specialize (IH (fun x Hx => Hok x (or_intror Hx)) ks' H2). lia.
Qed.

Lemma handed_bytes md e bs sf total : wf_mode md -> rust_slice md bs -> load md e bs = Ok sf -> handed_all md e sf total ->
  2 * total <= zlen (all_fdes sf) * zlen (sf_fres sf).
Proof.
  intros Hm Hs HL (ks & HF & ->). pose proof (entry_ok md e bs sf Hm Hs HL) as Hok. pose proof (entry_bytes sf) as HB. revert ks HF.
  induction (all_fdes sf) as [|en t IH]; intros ks HF; inversion HF as [|? k ? ks' H1 H2]; subst; cbn [fold_right]; [change (zlen []) with 0; lia|].
  destruct (handed_bound md e en k Hm (Hok en (or_introl eq_refl)) H1) as [_ H3].
  specialize (IH (fun x Hx => Hok x (or_intror Hx)) (fun x Hx => HB x (or_intror Hx)) ks' H2).
  specialize (HB en (or_introl eq_refl)). rewrite zlen_cons. lia.
Qed.

Lemma table_and_rows md e bs sf : wf_mode md -> rust_slice md bs -> load md e bs = Ok sf ->
  zlen (all_fdes sf) = num_fdes sf /\ 17 * num_fdes sf <= zlen bs - 28 /\ zlen (sf_fres sf) <= zlen bs - 28.
Proof.
  intros Hm Hs HL. destruct (all_fdes_spec md e bs sf Hm Hs HL) as [HN _].
  destruct (load_accessors md e bs sf Hm Hs HL) as (_ & _ & _ & _ & _ & E1 & _ & _ & _).
  split; [congruence|]. apply load_ok in HL; [|exact Hm|exact Hs]. destruct HL as (-> & _ & _ & _ & HF).
  unfold fits in HF. cbv zeta in HF. unfold num_fdes, loaded in *. cbn [sf_num_fdes sf_fres] in *.
  pose proof (rd_u_bound e 7 1 bs). pose proof (rd_u_bound e 20 4 bs). pose proof (rd_u_bound e 24 4 bs). pose proof (rd_u_bound e 8 4 bs). pose proof (rd_u_bound e 16 4 bs).
  split; [destruct (rd_u e 2 1 bs =? 1); lia|].
  unfold sub_bytes, zlen in *. rewrite firstn_length. lia.
Qed.

(** No section hands out more rows than the square of its bytes, over 34. *)
Theorem handed_square md e bs sf total : wf_mode md -> rust_slice md bs -> load md e bs = Ok sf -> handed_all md e sf total ->
  total <= counted sf /\ 2 * total <= num_fdes sf * zlen (spec_fre_bytes e bs) /\ 34 * total <= (zlen bs - 28) * (zlen bs - 28).
Proof.
  intros Hm Hs HL HT. destruct (handed_counted md e bs sf total Hm Hs HL HT) as [H0 H1].
  pose proof (handed_bytes md e bs sf total Hm Hs HL HT) as H2. destruct (table_and_rows md e bs sf Hm Hs HL) as (E1 & E2 & E3).
  destruct (load_accessors md e bs sf Hm Hs HL) as (_ & _ & _ & _ & _ & _ & _ & _ & E4). rewrite E1 in H2. rewrite <- E4.
  pose proof (zlen_nonneg (sf_fres sf)). pose proof (zlen_nonneg (all_fdes sf)). split; [exact H1|]. split; [exact H2|]. nia.
Qed.

(** ** Built sections *)

Lemma same_counted s ens : Forall2 WriteSpec.same_descriptor s ens -> fold_right Z.add 0 (map (fun en => fde_num_fres (en_fde en)) ens) = row_count s.
Proof.
  unfold row_count. induction 1 as [|b en s' t H _ IH]; cbn [map fold_right sumz]; [reflexivity|].
  unfold sumz in IH. rewrite IH. unfold WriteSpec.same_descriptor in H. decompose [and] H. lia.
Qed.

Theorem built_handed md md' e s bs sf total : sfb_reach md s -> build md e s = Ok bs -> wf_mode md' -> rust_slice md' bs ->
  load md' e bs = Ok sf -> handed_all md' e sf total ->
  total <= num_fres sf /\ num_fres sf = row_count (fdes_of s) /\ 2 * num_fres sf <= zlen (spec_fre_bytes e bs).
Proof.
  intros H B Hm Hs HL HT. destruct (handed_counted md' e bs sf total Hm Hs HL HT) as [H0 H1].
  destruct (trip_descriptors md md' e s bs H B Hm Hs) as (sf' & HL' & _ & _ & _ & _ & _ & _ & E & _ & F).
  rewrite HL in HL'. apply ok_inj in HL'. subst sf'. unfold counted in H1. rewrite (same_counted _ _ F) in H1. rewrite E.
  destruct (built md e s bs H B) as (W & -> & T & _).
  split; [exact H1|]. split; [reflexivity|].
  destruct (load_accessors _ _ _ _ Hm Hs HL) as (_ & _ & _ & _ & _ & _ & _ & _ & <-).
  rewrite (image_loads md' e s Hm W T Hs) in HL. apply ok_inj in HL. subst sf. unfold built_sf. cbn [sf_fres].
  rewrite rows_enc_zlen by apply wf_fdes, W. unfold row_count. clear.
  induction (fdes_of s) as [|b t IH]; cbn [map sumz fold_right]; [lia|]. pose proof (fde_size_bounds b). unfold sumz in IH. lia.
Qed.

(** ** With the check *)

Theorem counted_handed md e bs sf total : wf_mode md -> rust_slice md bs -> load_counted true md e bs = Ok sf -> handed_all md e sf total ->
  total <= num_fres sf /\ 2 * num_fres sf <= zlen (spec_fre_bytes e bs) /\ 2 * num_fres sf <= zlen bs - 28.
Proof.
  intros Hm Hs HC HT. unfold load_counted in HC. destruct (load md e bs) as [sf'|er|] eqn:HL; cbn [bind] in HC; try discriminate.
  destruct ((counted sf' <=? sf_num_fres sf') && (2 * sf_num_fres sf' <=? zlen (sf_fres sf'))) eqn:EB; cbn [andb negb] in HC; [|discriminate].
  apply ok_inj in HC. subst sf'. apply andb_prop in EB. destruct EB as [E1 E2].
  destruct (handed_counted md e bs sf total Hm Hs HL HT) as [H0 H1]. destruct (table_and_rows md e bs sf Hm Hs HL) as (_ & _ & E3).
  destruct (load_accessors md e bs sf Hm Hs HL) as (_ & _ & _ & _ & _ & _ & _ & _ & <-). unfold num_fres. lia.
Qed.

(** What is accepted, and that it is read the same. *)
Theorem counted_iff md e bs sf : load_counted true md e bs = Ok sf <->
  load md e bs = Ok sf /\ counted sf <= num_fres sf /\ 2 * num_fres sf <= zlen (sf_fres sf).
Proof.
  unfold load_counted, num_fres. destruct (load md e bs) as [sf'|er|]; cbn [bind]; [|split; [discriminate|intros [H _]; discriminate H]..].
  destruct ((counted sf' <=? sf_num_fres sf') && (2 * sf_num_fres sf' <=? zlen (sf_fres sf'))) eqn:EB; cbn [andb negb].
  - apply andb_prop in EB. split; [intros H; apply ok_inj in H; subst; split; [reflexivity|lia]|intros [H _]; exact H].
  - split; [discriminate|]. intros (H & H1 & H2). apply ok_inj in H. subst sf'. apply andb_false_iff in EB. lia.
Qed.

Theorem counted_built md md' e s bs : sfb_reach md s -> build md e s = Ok bs -> wf_mode md' -> rust_slice md' bs ->
  load_counted true md' e bs = load md' e bs.
Proof.
  intros H B Hm Hs. destruct (trip_descriptors md md' e s bs H B Hm Hs) as (sf & HL & _ & _ & _ & _ & _ & _ & E & _ & F).
  rewrite HL. apply counted_iff. split; [exact HL|]. unfold counted. rewrite (same_counted _ _ F), E. split; [reflexivity|].
  destruct (built_handed md md' e s bs sf 0 H B Hm Hs HL) as (_ & E2 & E3).
  - exists (map (fun _ => 0) (all_fdes sf)). split.
    + clear. induction (all_fdes sf) as [|en t IH]; constructor; [|exact IH]. exists 0%nat, [], (fres en). split; reflexivity.
    + clear. induction (all_fdes sf) as [|en t IH]; cbn; [reflexivity|exact IH].
  - destruct (load_accessors _ _ _ _ Hm Hs HL) as (_ & _ & _ & _ & _ & _ & _ & _ & ->). lia.
Qed.

Theorem uncounted md e bs : load_counted false md e bs = load md e bs.
Proof. unfold load_counted. destruct (load md e bs); reflexivity. Qed.
