(** Look-ups with single repairs (C19, C20, C102, C115, C135, C137, C140). *)
From Coq Require Import Lia.
From Verif Require Import BaseFacts LoadFacts RowFacts SearchFacts SectionFacts RoundFacts TripFacts StdFacts RepairedFacts ReadRepairedSpec
  ReadRepairedFacts ReadRepairedTotal DebugSpec DebugFacts LocalSpec LocalFacts LocalLookup OrderFacts ProfileSpec.
From Verif Require Export IterRepairedFacts.
Open Scope Z_scope.
Open Scope list_scope.

(** ** C19, C20 *)

Lemma within_unrepaired fx md e en a : get_fre_within false fx md e en a = get_fre_whole fx md e en a.
Proof. reflexivity. Qed.

Theorem none_outside fx md e en a : fix_sub (fix_look fx) = true -> fde_ok (en_fde en) -> in_i32 a ->
  ~ in_range (en_start_address en) (en_size en) a -> get_fre_within true fx md e en a = Ok None.
Proof.
  intros HS (H1 & _) Ha Hr. unfold get_fre_within. unfold in_range, en_start_address, en_size in *.
  destruct (Z.ltb_spec a (fde_start_address (en_fde en))) as [H|H]; [reflexivity|].
  destruct (@distance_fixed (fuel_error + read_error)%type (fix_look fx) md a _ HS Ha H1 H) as (d & -> & Hu). cbn [bind]. rewrite Hu.
  replace (fde_size (en_fde en) <=? a - fde_start_address (en_fde en)) with true by lia. reflexivity.
Qed.

Lemma last_collect fx md e p : forall fuel it good best,
  fri_collect_with fuel fx md e it = Ok (map inl good) -> fri_last_with fuel fx md e p best it = Ok (last_while p best good).
Proof.
  induction fuel as [|k IH]; intros it good best H; [discriminate H|].
  cbn [fri_collect_with] in H. cbn [fri_last_with].
  destruct (fri_next_with fx md e it) as [[[x|] it']|er|]; [| |destruct er|discriminate H].
  - destruct (fri_collect_with k fx md e it') as [l|er|] eqn:HC; try discriminate H. cbn [bind] in H. injection H as H.
    destruct good as [|g good]; [discriminate H|]. cbn in H. injection H as -> ->. cbn [last_while].
    destruct (p g); [|reflexivity]. now apply IH.
  - injection H as H. destruct good; [|discriminate H]. reflexivity.
Qed.

Theorem row_found_in_effect fin fx md e en a rows off : fix_pick (fix_look fx) = true -> fix_sub (fix_look fx) = true ->
  fde_ok (en_fde en) -> in_i32 a -> in_range (en_start_address en) (en_size en) a ->
  all_fres_with fx md e en = Ok (map inl rows) -> ascending rows ->
  lookup_offset_with fx en (a - en_start_address en) = Some off ->
  match get_fre_within fin fx md e en a with
  | Ok (Some fr) => row_in_effect rows off fr
  | Ok None => forall fr, In fr rows -> off < fre_start_address_offset fr
  | _ => False
  end.
Proof.
  intros HP HS (H1 & _) Ha Hr HA Hasc Hoff. unfold get_fre_within. unfold in_range, en_start_address, en_size in *.
  replace (a <? fde_start_address (en_fde en)) with false by lia.
  destruct (@distance_fixed (fuel_error + read_error)%type (fix_look fx) md a _ HS Ha H1 ltac:(lia)) as (d & -> & Hu). cbn [bind]. rewrite Hu.
  replace (if fin then fde_size (en_fde en) <=? a - fde_start_address (en_fde en) else fde_size (en_fde en) <? a - fde_start_address (en_fde en))
    with false by (destruct fin; lia).
  assert (HL : forall x, match fri_pick_with fx md e (fun fr => fr_start fr <=? x) (fres en) with
    | Ok (Some fr) => row_in_effect rows x fr
    | Ok None => forall fr, In fr rows -> x < fre_start_address_offset fr
    | _ => False end).
  { intros x. unfold fri_pick_with. rewrite HP. rewrite (last_collect fx md e (fun fr => fr_start fr <=? x) _ _ rows None HA).
    pose proof (last_while_best x rows None Hasc ltac:(discriminate)) as HB.
    change (fun fr => fr_start fr <=? x) with (fun fr => fre_start_address_offset fr <=? x).
    destruct (last_while _ None rows) as [fr|]; [|apply HB].
    destruct HB as ([HB|HB] & Hle & Hm); [discriminate|]. split; [exact HB|]. split; assumption. }
  unfold lookup_offset_with in Hoff. destruct (fde_fdetype_with fx (en_fde en)).
  - injection Hoff as <-. apply HL.
  - destruct (en_rep_block_size en) as [rep|]; [|discriminate]. destruct (rep =? 0); [discriminate|]. injection Hoff as <-. apply HL.
  - discriminate.
Qed.

(** ** C137 *)

Lemma next_library i fx md e it : fri_next_with fx (with_library i md) e it = fri_next_with fx md e it.
Proof. unfold fri_next_with, fre_load_with, fre_read_offsets, slice_from_prefix. reflexivity. Qed.
Lemma row_library i fx md e en a : get_fre_whole fx (with_library i md) e en a = get_fre_whole fx md e en a.
Proof.
  assert (F : forall p fuel it, fri_find_with fuel fx (with_library i md) e p it = fri_find_with fuel fx md e p it).
  { induction fuel as [|k IH]; intros it; cbn [fri_find_with]; [reflexivity|]. rewrite next_library.
    destruct (fri_next_with fx md e it) as [[[[x|x]|] it']| |]; try reflexivity. rewrite IH. reflexivity. }
  assert (L : forall p fuel best it, fri_last_with fuel fx (with_library i md) e p best it = fri_last_with fuel fx md e p best it).
  { induction fuel as [|k IH]; intros best it; cbn [fri_last_with]; [reflexivity|]. rewrite next_library.
    destruct (fri_next_with fx md e it) as [[[[x|x]|] it']| |]; try reflexivity. rewrite IH. reflexivity. }
  assert (P : forall p it, fri_pick_with fx (with_library i md) e p it = fri_pick_with fx md e p it).
  { intros p it. unfold fri_pick_with. rewrite F, L. reflexivity. }
  unfold get_fre_whole. destruct (_ <? _); [reflexivity|].
  change (distance (fix_look fx) (with_library i md) a (en_start_address en)) with (@distance (fuel_error + read_error) (fix_look fx) md a (en_start_address en)).
  destruct (distance (fix_look fx) md a (en_start_address en)) as [d| |]; cbn [bind]; [|reflexivity|reflexivity]. cbv zeta.
  destruct (_ <? _); [reflexivity|]. destruct (fde_fdetype_with fx (en_fde en)); rewrite ?F, ?P; try reflexivity.
  destruct (en_rep_block_size en); [|reflexivity]. rewrite P. reflexivity.
Qed.

Theorem any_library i fx md e bs sf a : wf_mode md -> rust_slice md bs -> load md e bs = Ok sf -> in_i32 a -> laid_out e bs ->
  fix_order (fix_look fx) = true -> fix_rows (fix_look fx) = true -> fix_sub (fix_look fx) = true ->
  fde_for_address_whole fx (with_library i md) sf a = fde_for_address_whole fx md sf a /\
  lookup_key fx (with_library i md) e sf a = lookup_key fx md e sf a.
Proof.
  intros Hmd Hlen Hl Ha HLO HO HR HS.
  assert (HF : fde_for_address_whole fx (with_library i md) sf a = fde_for_address_whole fx md sf a).
  { pose proof (function_whole md e bs sf Hmd Hlen Hl a Ha HLO) as H1.
    pose proof (function_whole (with_library i md) e bs sf Hmd Hlen Hl a Ha HLO) as H2.
    rewrite !(function_same fx _ sf a HO HR HS).
    destruct (fde_for_address_whole all_rfixes md sf a) as [[en|]|er|], (fde_for_address_whole all_rfixes (with_library i md) sf a) as [[en'|]|er'|];
      try contradiction; try reflexivity.
    - destruct H1 as [I1 R1], H2 as [I2 R2]. apply In_nth_error in I1, I2. destruct I1 as [j I1], I2 as [k I2].
      destruct (all_fdes_spec md e bs sf Hmd Hlen Hl) as [HN HE]. destruct (HE _ _ I1) as (_ & V1 & _). destruct (HE _ _ I2) as (_ & V2 & _).
      assert (B1 : (j < length (all_fdes sf))%nat) by (apply nth_error_Some; congruence).
      assert (B2 : (k < length (all_fdes sf))%nat) by (apply nth_error_Some; congruence). unfold zlen in HN.
      assert (HJ : Z.of_nat j = Z.of_nat k).
      { apply (only_function e bs a); try assumption; try lia; [rewrite <- V1; exact R1|rewrite <- V2; exact R2]. }
      assert (j = k) by lia. subst k. congruence.
    - destruct H1 as [I1 R1]. destruct (H2 en I1 R1).
    - destruct H2 as [I2 R2]. destruct (H1 en' I2 R2). }
  split; [exact HF|]. unfold lookup_key. rewrite HF. destruct (fde_for_address_whole fx md sf a) as [[en|]|er|]; try reflexivity.
  rewrite row_library. reflexivity.
Qed.

(** ** C102, C115, C140 *)

Lemma cmp_rows_only md a : search_cmp_with rows_only md a = @search_cmp fuel_error md a.
Proof. reflexivity. Qed.

Lemma find_rows_only md a : forall fuel it, fdi_find_with fuel (RFixes rows_only false false) md a it = fdi_find fuel md a it.
Proof.
  induction fuel as [|k IH]; intros it; [reflexivity|]. cbn [fdi_find_with fdi_find]. destruct (fdi_next it) as [[en|] it']; [|reflexivity].
  change (contains_with (RFixes rows_only false false) md en a) with (@contains fuel_error md en a).
  destruct (contains md en a) as [[|]|er|]; cbn [bind]; auto.
Qed.

Lemma step_lookup md e e' sf sf' a : flags sf = flags sf' ->
  fixed_fp_offset sf = fixed_fp_offset sf' -> fixed_ra_offset sf = fixed_ra_offset sf' ->
  Forall2 same_span (it_fdes (fdes sf)) (it_fdes (fdes sf')) ->
  (forall i en en', nth_error (all_fdes sf) i = Some en -> nth_error (all_fdes sf') i = Some en' ->
     fde_for_address_with rows_only md sf a = Ok (Some en) ->
     row_found (get_fre_for_address md e en a) = row_found (get_fre_for_address md e' en' a)) ->
  lookup_with rows_only md e sf a = lookup_with rows_only md e' sf' a.
Proof.
  intros HF H1 H2 HS HG. unfold lookup_with.
  assert (HL : length (it_fdes (fdes sf)) = length (it_fdes (fdes sf'))) by (clear - HS; induction HS; cbn; congruence).
  assert (HX : match fde_for_address_with rows_only md sf a, fde_for_address_with rows_only md sf' a with
    | Ok None, Ok None | Panic, Panic => True
    | Ok (Some en), Ok (Some en') => exists i, nth_error (all_fdes sf) i = Some en /\ nth_error (all_fdes sf') i = Some en'
    | Err x, Err y => x = y
    | _, _ => False end).
  { rewrite !all_fdes_map. unfold fde_for_address_with. rewrite <- HF. destruct (negb _).
    - pose proof (same_span_find md a (sf_fres sf) (sf_fres sf') _ _ HS (S (length (it_fdes (fdes sf)))) (S (length (it_fdes (fdes sf')))) ltac:(lia) ltac:(lia)) as H.
      change (FdeIter (it_fdes (fdes sf)) (sf_fres sf)) with (fdes sf) in H. change (FdeIter (it_fdes (fdes sf')) (sf_fres sf')) with (fdes sf') in H.
      destruct (fdi_find (S (length (it_fdes (fdes sf)))) md a (fdes sf)) as [[en|]| |],
        (fdi_find (S (length (it_fdes (fdes sf')))) md a (fdes sf')) as [[en'|]| |]; try contradiction; auto.
    - rewrite !cmp_rows_only, (same_span_search md a _ _ HS).
      destruct (binary_search md (search_cmp md a) (it_fdes (fdes sf'))) as [[k|]|er|] eqn:EB; cbn [bind]; try reflexivity; try exact I.
      unfold fdi_nth_with. pose proof (Forall2_at _ _ _ HS k) as HK.
      destruct (nth_error (it_fdes (fdes sf)) k) as [f|] eqn:E1, (nth_error (it_fdes (fdes sf')) k) as [f'|] eqn:E2; try contradiction.
      + rewrite (nth_error_skipn _ _ _ E1), (nth_error_skipn _ _ _ E2). cbn [rows_only fix_rows].
        exists k. rewrite !nth_error_map, E1, E2. split; reflexivity.
      + apply nth_error_None in E1, E2. rewrite !skipn_all2 by lia. exact I. }
  destruct (fde_for_address_with rows_only md sf a) as [[en|]|er|] eqn:E, (fde_for_address_with rows_only md sf' a) as [[en'|]|er'|];
    try contradiction; try reflexivity; [|congruence].
  destruct HX as (i & Hi & Hi'). change (get_fre_with rows_only md e en a) with (get_fre_for_address md e en a).
  change (get_fre_with rows_only md e' en' a) with (get_fre_for_address md e' en' a).
  apply (found_lookup sf sf' _ _ H1 H2). apply (HG i); assumption || reflexivity.
Qed.

Theorem same_text_answers alt alt' dt md e e' bs bs' sf sf' text :
  plain_texts dt -> wf_mode md -> rust_slice md bs -> rust_slice md bs' ->
  load md e bs = Ok sf -> load md e' bs' = Ok sf' ->
  section_text alt dt md e sf = Ok text -> section_text alt' dt md e' sf' = Ok text ->
  forall a, lookup_with rows_only md e sf a = lookup_with rows_only md e' sf' a.
Proof.
  intros Hd Hm Hs Hs' HL HL' HT HT' a.
  destruct (same_text_seen alt alt' dt md e e' bs bs' sf sf' text Hd Hm Hs Hs' HL HL' HT HT') as (s & S & S').
  assert (HA : Forall2 (alike md e e') (all_fdes sf) (all_fdes sf')).
  { apply seen_alike with (s := ss_fdes s); [apply S|apply S']. }
  destruct S as (_ & _ & F & _ & P & R & _), S' as (_ & _ & F' & _ & P' & R' & _).
  apply step_lookup; try congruence; [exact (alike_spans _ _ _ _ _ HA)|]. intros i en en' Hi Hi' _.
  pose proof (Forall2_at _ _ _ HA i) as HE. rewrite Hi, Hi' in HE. now apply alike_row.
Qed.

Lemma stripped md md' e s bs j b a : wf_mode md' -> sfb_reach md s -> build md e s = Ok bs -> nth_error (fdes_of s) j = Some b ->
  get_fre_for_address md' e (built_entry e s j b) a = get_fre_for_address md' e (Entry (built_fde s j b) (fde_enc e b ++ [])) a.
Proof. intros Hmd Hr HB Hj. exact (proj2 (proj2 (built_alike md md' e s bs Hmd Hr HB j b [] Hj)) a). Qed.

Theorem order_answers md md' e e' s bs bs' sf sf' : sfb_reach md s -> build md e s = Ok bs -> build md e' s = Ok bs' ->
  wf_mode md' -> rust_slice md' bs -> load md' e bs = Ok sf -> load md' e' bs' = Ok sf' ->
  forall a, lookup_with rows_only md' e sf a = lookup_with rows_only md' e' sf' a.
Proof.
  intros Hr B B' Hmd Hsl L L' a. pose proof (sfb_reach_wf _ _ Hr) as W.
  destruct (built_image _ _ _ _ W B) as [T E]. destruct (built_image _ _ _ _ W B') as [_ E'].
  assert (Hsl' : rust_slice md' bs').
  { unfold rust_slice in *. rewrite E' . rewrite E in Hsl. rewrite !image_zlen in * by assumption. exact Hsl. }
  assert (L0 := image_loads md' e s Hmd W T ltac:(rewrite <- E; exact Hsl)).
  assert (L0' := image_loads md' e' s Hmd W T ltac:(rewrite <- E'; exact Hsl')).
  rewrite <- E in L0. rewrite <- E' in L0'. rewrite L0 in L. rewrite L0' in L'.
  injection L as <-. injection L' as <-.
  destruct (built_entries e s W T) as [N1 X1]. destruct (built_entries e' s W T) as [N2 X2].
  apply step_lookup; try reflexivity; [apply same_span_refl|]. intros i en en' Hi Hi' _.
  destruct (nth_error (fdes_of s) i) as [b|] eqn:Hb.
  2:{ apply nth_error_None in Hb. assert (i < length (all_fdes (built_sf e s)))%nat by (apply nth_error_Some; congruence). lia. }
  rewrite (X1 i b Hb) in Hi. rewrite (X2 i b Hb) in Hi'. injection Hi as <-. injection Hi' as <-.
  rewrite (stripped md md' e s bs i b a Hmd Hr B Hb), (stripped md md' e' s bs' i b a Hmd Hr B' Hb).
  destruct (in_fdes_wf s i b W Hb) as [Wb _].
  pose proof (rows_enc_spec e (addr_bytes (start_size b)) (rows_of b) [] (starts_fit b Wb)) as S1.
  pose proof (rows_enc_spec e' (addr_bytes (start_size b)) (rows_of b) [] (starts_fit b Wb)) as S2.
  fold (fde_enc e b) in S1. fold (fde_enc e' b) in S2.
  pose proof (entry_in_step md' e e' (built_fde s i b) _ _ _ _ a Hmd (built_fde_ok s i b W T Hb) (built_width s i b) S1 S2) as H.
  assert (Hnum : fde_num_fres (built_fde s i b) <= zlen (map written (rows_of b))).
  { unfold built_fde. cbn [fde_num_fres fde_raw f2_num_fres]. rewrite rows_of_len, zlen_map. lia. }
  specialize (H Hnum).
  destruct (get_fre_for_address md' e _ a) as [[x|]|p|], (get_fre_for_address md' e' _ a) as [[y|]|q|];
    try contradiction; try reflexivity; cbn [rows_agree] in H; cbn [row_found option_map]; congruence.
Qed.

Theorem damage_answers md md' e s bs bs' i b : wf_mode md' -> sfb_reach md s -> build md e s = Ok bs -> rust_slice md' bs ->
  damaged_rows (fdes_of s) i bs bs' -> nth_error (fdes_of s) i = Some b ->
  exists sf sf', load md' e bs = Ok sf /\ load md' e bs' = Ok sf' /\
    forall a, in_i32 a -> ~ in_range (fb_start b) (fb_size b) a ->
      lookup_with rows_only md' e sf a = lookup_with rows_only md' e sf' a.
Proof.
  intros Hmd HR HB Hlen HD Hb. pose proof (damaged_rows_in _ _ _ _ HD) as HD'.
  destruct (damage_entries md md' e s bs bs' i Hmd HR HB Hlen HD') as (sf' & Hl & Hl' & Hlen' & E & Hh & HL & HE).
  destruct (rows_damage_fdes md md' e s bs bs' i Hmd HR HB Hlen sf' HD Hl') as [HF HI].
  pose proof (sfb_reach_wf _ _ HR) as W. destruct (built_image _ _ _ _ W HB) as [T _].
  destruct (built_entries e s W T) as [N1 X1].
  exists (built_sf e s), sf'. split; [exact Hl|]. split; [exact Hl'|]. intros a Ha Hout.
  destruct (load_accessors _ _ _ _ Hmd Hlen Hl) as (_ & _ & _ & P & R & _). destruct (load_accessors _ _ _ _ Hmd Hlen' Hl') as (_ & _ & _ & P' & R' & _).
  assert (HFX : spec_fixed_fp bs = spec_fixed_fp bs' /\ spec_fixed_ra bs = spec_fixed_ra bs').
  { unfold spec_fixed_fp, spec_fixed_ra, s_at.
    assert (S5 : same_at 5 1 bs bs') by (apply (same_sub 0 28); try lia; exact Hh).
    assert (S6 : same_at 6 1 bs bs') by (apply (same_sub 0 28); try lia; exact Hh).
    unfold same_at in S5, S6. rewrite S5, S6. split; reflexivity. }
  destruct HFX as [Q1 Q2]. apply step_lookup; try congruence.
  - rewrite HI. apply same_span_refl.
  - intros j en en' Hj Hj' HX.
    destruct (nth_error (fdes_of s) j) as [c|] eqn:Hc.
    2:{ apply nth_error_None in Hc. assert (j < length (all_fdes (built_sf e s)))%nat by (apply nth_error_Some; congruence). lia. }
    assert (Hji : j <> i).
    { intros ->. assert (c = b) by congruence. subst c. rewrite (X1 i b Hb) in Hj. injection Hj as <-. apply Hout.
      pose proof (own_rows md' e bs (built_sf e s) Hmd Hlen Hl (RFixes rows_only false false) a (built_entry e s i b) eq_refl Ha) as HO.
      assert (HY : fde_for_address_whole (RFixes rows_only false false) md' (built_sf e s) a = Ok (Some (built_entry e s i b))).
      { rewrite <- HX. unfold fde_for_address_whole, fde_for_address_with. cbn [fix_look]. destruct (negb _); [|reflexivity].
        apply find_rows_only. }
      destruct (HO HY) as (k & _ & HV & HIn & _). rewrite <- HV in HIn. destruct (built_same e s i b) as (E1 & E2 & _).
      unfold en_start_address, en_size in E1, E2. cbn [view_fde sd_start sd_size] in HIn. rewrite E1, E2 in HIn. exact HIn. }
    destruct (HE j c Hc Hji) as (y & Y1 & Y2). rewrite Hj in Y1. rewrite Hj' in Y2. injection Y1 as ->. injection Y2 as ->.
    rewrite (proj2 (proj2 (built_alike md md' e s bs Hmd HR HB j c y Hc)) a). reflexivity.
Qed.
