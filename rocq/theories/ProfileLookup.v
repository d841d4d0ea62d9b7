(** Look-ups in different builds (C136, C137). *)
From Verif Require Export ProfileFacts.
From Verif Require Import Read ReadSpec SearchFacts SectionSpec IterSpec Spec.

Lemma lookup_follows md md' e sf a : stricter md md' -> same_or_panic (lookup md e sf a) (lookup md' e sf a).
Proof.
  intros H. unfold lookup. destruct (fde_for_address_follows md md' H sf a) as [-> | ->]; [left; reflexivity|].
  destruct (fde_for_address md' sf a) as [[en|]|er|]; try apply follows_refl.
  destruct (get_fre_follows md md' H e en a) as [-> | ->]; [left; reflexivity|apply follows_refl].
Qed.

(** ** The library *)

Lemma small_search md md' cmp l : (length l <= 2)%nat -> binary_search md cmp l = binary_search md' cmp l.
Proof.
  unfold binary_search. intros H. destruct l as [|x [|y [|z t]]]; [| | |cbn in H; lia];
    destruct (bsearch md), (bsearch md'); try reflexivity;
    cbn -[Nat.div]; change (1 / 2)%nat with 0%nat; change (2 / 2)%nat with 1%nat; cbn -[Nat.div];
    change (1 / 2)%nat with 0%nat; cbn;
    repeat match goal with
    | |- context [cmp ?x] => destruct (cmp x) as [[]|[]|] eqn:?; cbn
    | H : cmp ?x = _ |- context [cmp ?x] => rewrite H; cbn
    end; try reflexivity; try congruence.
Qed.

Lemma sorted_flag sf : Z.land (flags sf) FLAG_FDE_SORTED = FLAG_FDE_SORTED <-> says_sorted sf.
Proof.
  unfold says_sorted. change FLAG_FDE_SORTED with (Z.ones 1). rewrite Z.land_ones by lia. change (2 ^ 1) with 2. change (Z.ones 1) with 1.
  rewrite Zmod_odd. destruct (Z.odd (flags sf)); split; congruence.
Qed.
Lemma find_any_library i md sf a : (length (all_fdes sf) <= 2)%nat \/ ~ says_sorted sf ->
  fde_for_address (with_library i md) sf a = fde_for_address md sf a.
Proof.
  intros H. rewrite <- sorted_flag in H. unfold fde_for_address.
  destruct (Z.eqb_spec (Z.land (flags sf) FLAG_FDE_SORTED) FLAG_FDE_SORTED) as [E|E]; cbn [negb]; cbv zeta.
  - destruct H as [H|H]; [|contradiction].
    assert (L : length (all_fdes sf) = length (it_fdes (fdes sf))) by (rewrite all_fdes_map; apply map_length).
    rewrite (small_search (with_library i md) md _ _); [|lia]. reflexivity.
  - assert (F : forall fuel it, fdi_find fuel (with_library i md) a it = fdi_find fuel md a it).
    { induction fuel as [|k IH]; intros it; cbn [fdi_find]; [reflexivity|]. destruct (fdi_next it) as [[en|] it']; [|reflexivity].
      change (contains (with_library i md) en a) with (@contains fuel_error md en a).
      destruct (contains md en a) as [[]|?|]; cbn; auto. }
    apply F.
Qed.
Lemma other_library i md : wf_mode md -> forall e it, fri_next (with_library i md) e it = fri_next md e it.
Proof. intros H e it. unfold fri_next, fre_load, fre_read_offsets, slice_from_prefix. reflexivity. Qed.
Lemma rows_any_library i md e en a : wf_mode md -> get_fre_for_address (with_library i md) e en a = get_fre_for_address md e en a.
Proof.
  intros W. assert (F : forall p fuel it, fri_find fuel (with_library i md) e p it = fri_find fuel md e p it).
  { induction fuel as [|k IH]; intros it; cbn [fri_find]; [reflexivity|]. rewrite (other_library i md W).
    destruct (fri_next md e it) as [[[[x|x]|] it']| |]; try reflexivity. rewrite IH. reflexivity. }
  unfold get_fre_for_address. destruct (_ <? _); [reflexivity|].
  change (sub_i32 (with_library i md) a (en_start_address en)) with (@sub_i32 (fuel_error + read_error) md a (en_start_address en)).
  destruct (sub_i32 md a (en_start_address en)) as [d| |]; cbn [bind]; [|reflexivity|reflexivity]. cbv zeta.
  destruct (_ <? _); [reflexivity|]. destruct (en_fdetype en); rewrite ?F; try reflexivity.
  destruct (en_rep_block_size en); [|reflexivity]. rewrite F. reflexivity.
Qed.
Theorem lookup_any_library i md e sf a : wf_mode md -> (length (all_fdes sf) <= 2)%nat \/ ~ says_sorted sf ->
  fde_for_address (with_library i md) sf a = fde_for_address md sf a /\ lookup (with_library i md) e sf a = lookup md e sf a.
Proof.
  intros W H. pose proof (find_any_library i md sf a H) as F. split; [exact F|]. unfold lookup. rewrite F.
  destruct (fde_for_address md sf a) as [[en|]| |]; try reflexivity. rewrite rows_any_library by exact W. reflexivity.
Qed.

Theorem three_or_more md e bs sf a k : wf_mode md -> rust_slice md bs -> load md e bs = Ok sf -> in_i32 a ->
  is_sorted_flag bs = true -> sorted_disjoint e bs -> 3 <= spec_num_fdes e bs ->
  0 <= k < spec_num_fdes e bs -> in_range (sd_start (spec_entry e bs k)) (sd_size (spec_entry e bs k)) a ->
  (overflow_checks md = false \/
   forall i, 0 <= i < spec_num_fdes e bs -> a - sd_start (spec_entry e bs i) <= i32_max) ->
  fde_for_address (with_library BsBase md) sf a = Ok None /\
  (k <> spec_num_fdes e bs / 2 -> fde_for_address (with_library BsLeftRight md) sf a = Ok None) /\
  (k = spec_num_fdes e bs / 2 -> exists en, fde_for_address (with_library BsLeftRight md) sf a = Ok (Some en) /\
     view_fde (en_fde en) = spec_entry e bs k).
Proof.
  intros W L H Ha Hf Hs Hn Hk Hin Ho.
  assert (LD : forall i, load (with_library i md) e bs = Ok sf) by (intros i; exact H).
  destruct (sorted_search_exact (with_library BsBase md) e bs sf a k W L (LD _) Ha Hf Hs Hk Hin Ho) as [_ N].
  destruct (sorted_search_exact (with_library BsLeftRight md) e bs sf a k W L (LD _) Ha Hf Hs Hk Hin Ho) as [Y N'].
  cbn [bsearch with_library reached] in *. split; [apply N|split].
  - apply orb_false_iff. split; [apply Z.eqb_neq; lia|]. apply andb_false_iff. left. apply Z.eqb_neq. lia.
  - intros E. apply N'. apply Z.eqb_neq. exact E.
  - intros E. apply Y. apply Z.eqb_eq. exact E.
Qed.
