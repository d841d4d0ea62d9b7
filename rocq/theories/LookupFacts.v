(** Section sizes (C64), looking up addresses in built sections (C65) and the
    masks of version 1 sections (C66). *)
From Verif Require Export SectionFacts.

(** ** Sizes *)

Lemma row_size_bounds aw r : aw = 1 \/ aw = 2 \/ aw = 4 -> 2 <= row_size aw r <= 17.
Proof.
  intros Ha. unfold row_size. pose proof (stored_count r). pose proof (offset_width_cases r).
  assert (0 <= zlen (stored_values r)) by (unfold zlen; lia). nia.
Qed.

Lemma start_width_cases l : start_width l = 1 \/ start_width l = 2 \/ start_width l = 4.
Proof. unfold start_width. cbv zeta. destruct (_ <=? 0x7F); auto. destruct (_ <=? 0x7FFF); auto. Qed.

Lemma fde_size_bounds b : 2 * zlen (rows_of b) <= fde_fre_size b <= 17 * zlen (rows_of b).
Proof.
  unfold fde_fre_size. pose proof (start_width_cases (rows_of b)) as Hw. revert Hw.
  generalize (start_width (rows_of b)) as aw. intros aw Hw. induction (rows_of b) as [|r t IH]; [unfold zlen; cbn; lia|].
  cbn [map]. change (sumz (?x :: ?l)) with (x + sumz l). pose proof (row_size_bounds aw r Hw). unfold zlen in *. cbn [length]. lia.
Qed.

Lemma fre_size_bounds s : 2 * row_count (fdes_of s) <= fre_size s <= 17 * row_count (fdes_of s).
Proof.
  unfold fre_size, row_count. induction (fdes_of s) as [|b t IH]; [unfold zlen; cbn; lia|].
  cbn [map]. change (sumz (?x :: ?l)) with (x + sumz l). pose proof (fde_size_bounds b). lia.
Qed.

Theorem size_bounds md e s bs : sfb_reach md s -> build md e s = Ok bs ->
  28 + 20 * zlen (fdes_of s) + 2 * row_count (fdes_of s) <= zlen bs <=
  28 + 20 * zlen (fdes_of s) + 17 * row_count (fdes_of s).
Proof.
  intros Hr B. pose proof (sfb_reach_wf _ _ Hr) as W. destruct (built_image _ _ _ _ W B) as [_ ->].
  rewrite image_zlen by exact W. pose proof (fre_size_bounds s). lia.
Qed.

(** Merging rows never makes a function larger. *)

Lemma max_start_le l l' : (forall r, In r l -> In r l') ->
  fold_right Z.max 0 (map r_start l) <= fold_right Z.max 0 (map r_start l').
Proof.
  assert (Hin : forall r m, In r m -> r_start r <= fold_right Z.max 0 (map r_start m)).
  { intros r m. induction m as [|x t IH]; intros []; cbn [map fold_right]; [subst; lia|]. specialize (IH H). lia. }
  assert (Hpos : forall m, 0 <= fold_right Z.max 0 (map r_start m)).
  { induction m as [|x t IH]; cbn [map fold_right]; lia. }
  induction l as [|r t IH]; intros H; [apply Hpos|]. cbn [map fold_right].
  specialize (IH (fun x Hx => H x (or_intror Hx))). specialize (Hin r l' (H r (or_introl eq_refl))). lia.
Qed.

Lemma start_width_le l l' : (forall r, In r l -> In r l') -> start_width l <= start_width l'.
Proof.
  intros H. pose proof (max_start_le l l' H). unfold start_width. cbv zeta.
  destruct (Z.leb_spec (fold_right Z.max 0 (map r_start l)) 0x7F), (Z.leb_spec (fold_right Z.max 0 (map r_start l')) 0x7F);
  destruct (Z.leb_spec (fold_right Z.max 0 (map r_start l)) 0x7FFF), (Z.leb_spec (fold_right Z.max 0 (map r_start l')) 0x7FFF); lia.
Qed.

Lemma row_size_nonneg aw r : 0 <= aw -> 0 <= row_size aw r.
Proof. intros H. pose proof (row_size_min aw r H). lia. Qed.

Lemma squash_size aw k r t : 0 <= aw ->
  sumz (map (row_size aw) (map snd (squash k r t))) <= sumz (map (row_size aw) (r :: map snd t)).
Proof.
  intros Ha. revert k r. induction t as [|[k' n] t IH]; intros k r; cbn [squash]; [cbn; lia|].
  destruct (row_eqb _ _).
  - specialize (IH k r). cbn [map snd] in *. unfold sumz in *. cbn [fold_right] in *.
    pose proof (row_size_nonneg aw n Ha). lia.
  - specialize (IH k' n). cbn [map snd] in *. unfold sumz in *. cbn [fold_right] in *. lia.
Qed.

Lemma row_sizes_mono l aw aw' : aw <= aw' -> sumz (map (row_size aw) l) <= sumz (map (row_size aw') l).
Proof.
  intros H. induction l as [|r t IH]; [unfold zlen; cbn; lia|]. cbn [map]. unfold sumz in *. cbn [fold_right].
  assert (row_size aw r <= row_size aw' r) by (unfold row_size; lia). lia.
Qed.

Theorem merge_not_larger b b' : fdb_reach b -> merge_adjacent_fres b = Ok b' -> fde_fre_size b' <= fde_fre_size b.
Proof.
  intros Hr Hm. pose proof (fdb_reach_wf _ Hr) as W. rewrite merge_fres_eq in Hm by apply W.
  injection Hm as <-. unfold fde_fre_size. 
  assert (Hin : forall r, In r (rows_of (fdb_set_fres (squashed (fb_fres b)) b)) -> In r (rows_of b)).
  { unfold rows_of. cbn [fb_fres fdb_set_fres]. intros r Hr'. apply in_map_iff in Hr'. destruct Hr' as (kv & <- & Hk).
    apply in_map, squashed_in, Hk. }
  pose proof (start_width_le _ _ Hin) as Hw. pose proof (start_width_pos (rows_of b)) as Hp.
  etransitivity; [apply (row_sizes_mono _ _ _ Hw)|]. clear Hw. revert Hp.
  generalize (start_width (rows_of b)) as aw. intros aw Hp. unfold rows_of. cbn [fb_fres fdb_set_fres].
  destruct (fb_fres b) as [|[k r] t]; [cbn; lia|]. cbn [squashed]. apply (squash_size _ k r t). lia.
Qed.

(** ** Looking up an address *)

Lemma built_spec_entry md e s bs i b : sfb_reach md s -> build md e s = Ok bs -> nth_error (fdes_of s) i = Some b ->
  spec_entry e bs (Z.of_nat i) = descriptor (fdes_of s) i b.
Proof. intros Hr B H. apply (proj1 (trip_table md e s bs i b Hr B H)). Qed.

Lemma built_sorted md e s bs : sfb_reach md s -> build md e s = Ok bs ->
  is_sorted_flag bs = true /\ sorted_disjoint e bs /\ spec_num_fdes e bs = zlen (fdes_of s).
Proof.
  intros Hr B. pose proof (trip_header md e s bs Hr B) as (_ & _ & _ & Hf & _ & _ & _ & _ & _ & Hn & _).
  pose proof (sfb_reach_wf _ _ Hr) as W. split; [|split; [|exact Hn]].
  - unfold is_sorted_flag. rewrite Hf. destruct W as [[[->| ->] _ _ _] _ _ _]; reflexivity.
  - intros i j [Hi Hij] Hj. rewrite Hn in Hj. unfold zlen in Hj.
    destruct (nth_error (fdes_of s) (Z.to_nat i)) as [a|] eqn:Ea.
    2:{ apply nth_error_None in Ea. lia. }
    destruct (nth_error (fdes_of s) (Z.to_nat j)) as [b|] eqn:Eb.
    2:{ apply nth_error_None in Eb. lia. }
    replace i with (Z.of_nat (Z.to_nat i)) by lia. replace j with (Z.of_nat (Z.to_nat j)) by lia.
    rewrite (built_spec_entry md e s bs _ a Hr B Ea), (built_spec_entry md e s bs _ b Hr B Eb).
    unfold descriptor. cbn [sd_start sd_size].
    assert (Hlt : fb_start a < fb_start b).
    { destruct (wf_starts s W) as [Hs _]. clear - Hs Ea Eb Hij Hi.
      assert (Hlt : (Z.to_nat i < Z.to_nat j)%nat) by lia. revert Ea Eb Hlt. generalize (Z.to_nat i) as n, (Z.to_nat j) as m.
      clear - Hs. induction (fdes_of s) as [|x t IH]; intros n m Ea Eb Hlt; [destruct n; discriminate|].
      cbn [map] in Hs. apply StronglySorted_inv in Hs. destruct Hs as [Hs HF]. destruct m as [|m]; [lia|].
      cbn [nth_error] in Eb. destruct n as [|n]; cbn [nth_error] in Ea.
      - injection Ea as <-. rewrite Forall_forall in HF. apply HF, in_map, (nth_error_In _ _ Eb).
      - apply (IH Hs n m); auto. lia. }
    destruct (successor (fdes_of s) (proj1 (wf_starts s W)) a b (nth_error_In _ _ Ea) (nth_error_In _ _ Eb) Hlt) as (n & Hnb & Hle).
    pose proof (trip_order md e s bs a n Hr B Hnb). lia.
Qed.

(** The function found, or nothing. *)
Theorem lookup_missed md md' e s bs sf a i b : sfb_reach md s -> build md e s = Ok bs ->
  wf_mode md' -> rust_slice md' bs -> load md' e bs = Ok sf -> in_i32 a -> near md' s a ->
  nth_error (fdes_of s) i = Some b -> in_range (fb_start b) (fb_size b) a ->
  reached (bsearch md') (zlen (fdes_of s)) (Z.of_nat i) = false ->
  lookup md' e sf a = Ok None.
Proof.
  intros Hr B Hmd Hsl HL Ha Hn Hi Hin Hre. destruct (built_sorted md e s bs Hr B) as (H1 & H2 & H3).
  assert (Hk : 0 <= Z.of_nat i < spec_num_fdes e bs).
  { rewrite H3. assert (i < length (fdes_of s))%nat by (apply nth_error_Some; congruence). unfold zlen. lia. }
  pose proof (built_spec_entry md e s bs i b Hr B Hi) as He.
  destruct (sorted_search_exact md' e bs sf a (Z.of_nat i) Hmd Hsl HL Ha H1 H2 Hk) as [_ HN].
  - rewrite He. exact Hin.
  - destruct Hn as [Hn|Hn]; [left; exact Hn|right]. intros j Hj. rewrite H3 in Hj. unfold zlen in Hj.
    destruct (nth_error (fdes_of s) (Z.to_nat j)) as [c|] eqn:Ec; [|apply nth_error_None in Ec; lia].
    replace j with (Z.of_nat (Z.to_nat j)) by lia. rewrite (built_spec_entry md e s bs _ c Hr B Ec).
    apply Hn, (nth_error_In _ _ Ec).
  - unfold lookup. rewrite H3 in HN. rewrite (HN Hre). reflexivity.
Qed.

Theorem lookup_outside md md' e s bs sf a : sfb_reach md s -> build md e s = Ok bs ->
  wf_mode md' -> rust_slice md' bs -> load md' e bs = Ok sf -> in_i32 a -> near md' s a ->
  (forall b, In b (fdes_of s) -> ~ in_range (fb_start b) (fb_size b) a) ->
  lookup md' e sf a = Ok None.
Proof.
  intros Hr B Hmd Hsl HL Ha Hn Hout. destruct (built_sorted md e s bs Hr B) as (H1 & H2 & H3).
  assert (Hent : forall j, 0 <= j < spec_num_fdes e bs -> exists c, In c (fdes_of s) /\
    sd_start (spec_entry e bs j) = fb_start c /\ sd_size (spec_entry e bs j) = fb_size c).
  { intros j Hj. rewrite H3 in Hj. unfold zlen in Hj.
    destruct (nth_error (fdes_of s) (Z.to_nat j)) as [c|] eqn:Ec; [|apply nth_error_None in Ec; lia].
    exists c. split; [apply (nth_error_In _ _ Ec)|]. replace j with (Z.of_nat (Z.to_nat j)) by lia.
    rewrite (built_spec_entry md e s bs _ c Hr B Ec). split; reflexivity. }
  pose proof (sorted_search md' e bs sf a Hmd Hsl HL Ha H1) as HS. unfold lookup.
  destruct (fde_for_address md' sf a) as [[en|]|er|]; [|reflexivity|destruct HS|].
  - destruct HS as (j & Hj & _ & Hin & _). destruct (Hent j Hj) as (c & Hc & E1 & E2).
    rewrite E1, E2 in Hin. destruct (Hout c Hc Hin).
  - destruct HS as (HO & j & Hj & Hlt). destruct (Hent j Hj) as (c & Hc & E1 & _).
    destruct Hn as [Hn|Hn]; [congruence|]. specialize (Hn c Hc). lia.
Qed.

(** A section with one function. *)
Lemma reached_single i : reached i 1 0 = true.
Proof. destruct i; reflexivity. Qed.

Lemma single_found md e s b a : wf_mode md -> sfb_wf s -> ~ too_large s -> fdes_of s = [b] -> in_i32 a ->
  near md s a -> in_range (fb_start b) (fb_size b) a ->
  fde_for_address md (built_sf e s) a = Ok (Some (built_entry e s 0 b)).
Proof.
  intros Hmd W Hsz Hs Ha Hn Hin. unfold fde_for_address.
  assert (Hf : Z.land (flags (built_sf e s)) FLAG_FDE_SORTED =? FLAG_FDE_SORTED = true).
  { unfold flags, built_sf. cbn [sf_preamble pre_flags]. destruct W as [[[->| ->] _ _ _] _ _ _]; reflexivity. }
  rewrite Hf. cbn [negb].
  assert (Hl : it_fdes (fdes (built_sf e s)) = [built_fde s 0 b]).
  { unfold fdes, built_sf. cbn [it_fdes sf_fdes]. rewrite Hs. cbn [raws map]. unfold built_fde. rewrite Hs. reflexivity. }
  assert (Hok : fde_ok (built_fde s 0 b)) by (apply built_fde_ok; auto; rewrite Hs; reflexivity).
  assert (Hc : @search_cmp fuel_error md a (built_fde s 0 b) = Ok Equal).
  { pose proof (@search_cmp_spec fuel_error md a _ Hok Ha) as HC.
    change (fde_start_address (built_fde s 0 b)) with (fb_start b) in HC.
    change (fde_size (built_fde s 0 b)) with (fb_size b) in HC. unfold in_range in *.
    destruct (search_cmp md a (built_fde s 0 b)) as [[]|er|] eqn:Ec; try reflexivity; exfalso.
    - lia.
    - lia.
    - exact HC.
    - destruct HC as [HO Hlt]. destruct Hn as [Hn|Hn]; [congruence|]. specialize (Hn b ltac:(rewrite Hs; left; reflexivity)). lia. }
  rewrite Hl.
  assert (Hb : binary_search md (search_cmp md a) [built_fde s 0 b] = Ok (Some 0%nat)).
  { rewrite (binary_search_exact md _ _ 0); [|intros [|[|j]] f Hf'; try discriminate|cbn; lia].
    - change (zlen [built_fde s 0 b]) with 1. rewrite reached_single. reflexivity.
    - cbn [nth_error] in Hf'. apply some_inj in Hf'. subst f. exact Hc. }
  rewrite Hb. cbn [bind]. unfold fdi_nth. rewrite Hl. cbn [skipn fst]. do 2 f_equal. unfold built_entry. f_equal.
  unfold fdes, built_sf. cbn [it_fres sf_fres]. rewrite Hs. unfold rows_enc. cbn [map concat skipn]. reflexivity.
Qed.

Lemma find_first_ascending rows off : ascending rows ->
  find (fun fr => fre_start_address_offset fr <=? off) rows =
  match rows with [] => None | fr :: _ => if fre_start_address_offset fr <=? off then Some fr else None end.
Proof.
  intros H. destruct rows as [|fr t]; [reflexivity|]. cbn [find].
  destruct (Z.leb_spec (fre_start_address_offset fr) off) as [Hle|Hgt]; [reflexivity|].
  apply StronglySorted_inv in H. destruct H as [_ HF]. rewrite Forall_forall in HF.
  destruct (find _ t) as [g|] eqn:E; [|reflexivity]. apply find_some in E. destruct E as [Hin Hg].
  specialize (HF g Hin). apply Z.leb_le in Hg. lia.
Qed.

Lemma written_ascending l good : ascends l -> Forall2 (fun r fr => view_fre fr = written r) l good -> ascending good.
Proof.
  intros Hs H. revert Hs. induction H as [|r fr t t' Hv Ht IH]; intros Hs; [constructor|].
  apply StronglySorted_inv in Hs. destruct Hs as [Hs HF]. constructor; [apply IH, Hs|].
  destruct (written_fields _ _ Hv) as (E & _). rewrite E. clear - HF Ht. induction Ht as [|r' fr' t t' Hv _ IH]; [constructor|].
  inversion HF as [|? ? H1 H2]. constructor; [|apply IH, H2]. destruct (written_fields _ _ Hv) as (E & _). lia.
Qed.

Theorem lookup_single md md' e s bs sf a b : sfb_reach md s -> build md e s = Ok bs ->
  wf_mode md' -> rust_slice md' bs -> load md' e bs = Ok sf -> in_i32 a -> near md' s a ->
  fdes_of s = [b] -> rows_inside b -> fb_rep_size b <> Some 0 -> in_range (fb_start b) (fb_size b) a ->
  match rows_of b with
  | [] => lookup md' e sf a = Ok None
  | r :: rest =>
      (offset_in b a < r_start r -> lookup md' e sf a = Ok None) /\
      (r_start r <= offset_in b a ->
         (exists u, lookup md' e sf a = Ok (Some u) /\
            (u = intended (sb_options s) r <-> ~ tied r /\ ~ ambiguous (sb_options s) r)) /\
         (in_effect (rows_of b) (offset_in b a) r <-> forall r', In r' rest -> offset_in b a < r_start r'))
  end.
Proof.
  intros Hr B Hmd Hsl HL Ha Hn Hs Hin Hrep Hrng. pose proof (sfb_reach_wf _ _ Hr) as W.
  destruct (built_image _ _ _ _ W B) as [Hsz E]. subst bs. rewrite (image_loads md' e s Hmd W Hsz Hsl) in HL.
  assert (Hsf : sf = built_sf e s) by congruence. subst sf. clear HL.
  assert (H0 : nth_error (fdes_of s) 0 = Some b) by (rewrite Hs; reflexivity).
  destruct (nth_in_wf s 0 b W H0) as (Wb & Ho & _).
  pose proof (single_found md' e s b a Hmd W Hsz Hs Ha Hn Hrng) as HF.
  destruct (proj1 (built_rows md' e s 0 b Hmd W Hsz H0) Hin) as (good & Hg & HV).
  assert (Hasc : ascends (rows_of b)) by (apply sorted_ascends; apply Wb).
  pose proof (written_ascending _ _ Hasc HV) as Hga.
  assert (Hoff : lookup_offset (built_entry e s 0 b) (a - fb_start b) = Some (offset_in b a)).
  { destruct (built_same e s 0 b) as (_ & _ & E3 & E4 & _). unfold lookup_offset, offset_in. rewrite E3, E4. unfold pub_type.
    destruct (fb_rep_size b) as [rep|]; [|reflexivity]. destruct (Z.eqb_spec rep 0); [congruence|reflexivity]. }
  assert (HG : get_fre_for_address md' e (built_entry e s 0 b) a =
    match good with [] => Ok None | fr :: _ => if fre_start_address_offset fr <=? offset_in b a then Ok (Some fr) else Ok None end).
  { rewrite (get_fre_char md' e _ a good [] (offset_in b a)).
    - rewrite find_first_ascending by exact Hga. destruct good as [|fr t]; [reflexivity|]. destruct (_ <=? _); reflexivity.
    - apply built_fde_ok; assumption.
    - exact Ha.
    - destruct Hn as [Hn|Hn]; [left; exact Hn|right]. apply Hn. rewrite Hs. left. reflexivity.
    - change (fb_start b <= a <= fb_start b + fb_size b). unfold in_range in Hrng. lia.
    - cbn [map]. rewrite app_nil_r. exact Hg.
    - exact Hoff. }
  unfold lookup. rewrite HF, HG. inversion HV as [|r fr rest t Hv Ht E1 E2].
  - reflexivity.
  - destruct (written_fields _ _ Hv) as (Es & _). rewrite Es. split.
    + intros Hlt. replace (r_start r <=? offset_in b a) with false by (symmetry; apply Z.leb_gt; lia). reflexivity.
    + intros Hle. replace (r_start r <=? offset_in b a) with true by (symmetry; apply Z.leb_le; lia). split.
      * exists (observed (built_sf e s) fr). split; [reflexivity|].
        destruct (built_fixed e s W) as [Hra Hfp]. destruct Wb as [_ _ _ _ _ _ HW]. rewrite <- E1 in HW.
        pose proof (Forall_inv HW) as [Ty _ No]. rewrite Ho in No.
        rewrite (row_meaning _ (sb_options s) r fr Hra Hfp No Hv). rewrite (width_untied r Ty). reflexivity.
      * rewrite <- E1 in Hasc. apply StronglySorted_inv in Hasc. destruct Hasc as [_ HA]. rewrite Forall_forall in HA. split.
        -- intros (_ & _ & Hmax) r' Hr'. specialize (HA r' Hr').
           destruct (Z.le_gt_cases (r_start r') (offset_in b a)) as [H|H]; [|lia].
           specialize (Hmax r' (or_intror Hr') H). lia.
        -- intros Hall. split; [left; reflexivity|]. split; [exact Hle|]. intros r' [<-|Hr'] Hle'; [lia|].
           specialize (Hall r' Hr'). lia.
Qed.

(** ** Masks *)

Lemma mask_covers x mask : 0 <= mask -> (mask <= Z.land x mask <-> covers_mask x mask).
Proof.
  intros Hm. split.
  - intros H i Hi Hb.
    assert (HE : Z.land x mask = mask).
    { assert (Hle : Z.land x mask <= mask).
      { assert (HS : mask = Z.lor (Z.land x mask) (Z.ldiff mask x)).
        { apply Z.bits_inj'. intros n Hn. rewrite Z.lor_spec, Z.land_spec, Z.ldiff_spec. destruct (Z.testbit x n), (Z.testbit mask n); reflexivity. }
        assert (HD : Z.land (Z.land x mask) (Z.ldiff mask x) = 0).
        { apply Z.bits_inj'. intros n Hn. rewrite !Z.land_spec, Z.ldiff_spec, Z.bits_0. destruct (Z.testbit x n), (Z.testbit mask n); reflexivity. }
        pose proof (Z.add_nocarry_lxor _ _ HD) as HX. rewrite Z.lxor_lor in HX by exact HD.
        assert (0 <= Z.ldiff mask x) by (apply Z.ldiff_nonneg; left; exact Hm). lia. }
      lia. }
    rewrite <- HE in Hb. rewrite Z.land_spec in Hb. apply andb_true_iff in Hb. apply Hb.
  - intros H. assert (HE : Z.land x mask = mask).
    { apply Z.bits_inj'. intros n Hn. rewrite Z.land_spec. specialize (H n Hn).
      destruct (Z.testbit mask n); [rewrite H by reflexivity|rewrite andb_false_r]; reflexivity. }
    lia.
Qed.

Lemma fre_load_start md e f bs fr rest : fre_load md e f bs = Ok (fr, rest) -> 0 <= fr_start fr.
Proof.
  unfold fre_load. destruct (match fretype (fde_info f) with Addr1 => _ | _ => _ end) as [[[st inf] ob]| |] eqn:Eh; try discriminate.
  assert (Hst : 0 <= st).
  { assert (Hh : forall n, fre_header e n bs = Ok (st, inf, ob) -> 0 <= st).
    { intros n. unfold fre_header. destruct (_ <? _)%nat; [discriminate|]. intros [= <- _ _]. apply rd_u_bound. }
    destruct (fretype (fde_info f)); try discriminate; apply (Hh _ Eh). }
  cbn [bind]. destruct (negb _); [discriminate|].
  destruct (match offset_size inf with Off1B => _ | _ => _ end) as [r| |]; cbn [bind]; try discriminate.
  destruct (st <? fde_size f); [|discriminate]. intros [= <- _]. exact Hst.
Qed.

Lemma collect_starts md e : forall fuel it good bad, fri_collect fuel md e it = Ok (map inl good ++ map inr bad) ->
  Forall (fun fr => 0 <= fre_start_address_offset fr) good.
Proof.
  induction fuel as [|k IH]; intros it good bad H; [discriminate|]. cbn [fri_collect] in H.
  destruct (fri_next md e it) as [[[x|] it']|er|] eqn:En; [| |destruct er|discriminate].
  - destruct (fri_collect k md e it') as [l|er|] eqn:HC; try discriminate. injection H as H.
    destruct good as [|g good]; [constructor|]. cbn [map app] in H. injection H as -> ->. constructor; [|apply (IH _ _ _ HC)].
    unfold fri_next in En. destruct (_ <=? _); [discriminate|].
    destruct (fre_load md e (ri_fde it) (ri_fres it)) as [[fr rest]|er|] eqn:El; try discriminate.
    injection En as <- _. apply (fre_load_start _ _ _ _ _ _ El).
  - injection H as H. destruct good; [constructor|discriminate].
Qed.

Lemma find_first {A} (p : A -> bool) l x : find p l = Some x ->
  exists pre post, l = pre ++ x :: post /\ p x = true /\ Forall (fun y => p y = false) pre.
Proof.
  induction l as [|y t IH]; cbn [find]; [discriminate|]. destruct (p y) eqn:Ep.
  - intros [= ->]. exists [], t. auto.
  - intros H. destruct (IH H) as (pre & post & -> & Hx & HF). exists (y :: pre), post. auto.
Qed.

Lemma find_first_conv {A} (p : A -> bool) pre x post : p x = true -> Forall (fun y => p y = false) pre ->
  find p (pre ++ x :: post) = Some x.
Proof.
  intros Hx H. induction H as [|y t Hy _ IH]; cbn [app find]; [rewrite Hx; reflexivity|]. rewrite Hy. exact IH.
Qed.

Lemma find_none_iff {A} (p : A -> bool) l : find p l = None <-> Forall (fun y => p y = false) l.
Proof.
  induction l as [|y t IH]; cbn [find]; [split; [constructor|reflexivity]|]. destruct (p y) eqn:Ep.
  - split; [discriminate|]. intros H. inversion H. congruence.
  - rewrite IH. split; [intros H; constructor; assumption|intros H; inversion H; assumption].
Qed.

Lemma kind_shown f : in_u8 (fde_info f) -> fde_fdetype f = kind_of f.
Proof.
  intros Hi. unfold fde_fdetype, kind_of, bits. change (2 ^ 3) with 8. change (2 ^ 1) with 2.
  destruct f as [r|r]; cbn [fde_info] in Hi; rewrite <- (fdetype_arith _ Hi); destruct (fdetype _); reflexivity.
Qed.

Theorem mask_search md e en a good bad :
  fde_ok (en_fde en) -> in_i32 a ->
  (overflow_checks md = false \/ a - en_start_address en <= i32_max) ->
  en_start_address en <= a <= en_start_address en + en_size en ->
  all_fres md e en = Ok (map inl good ++ map inr bad) -> v1_mask (en_fde en) ->
  (forall fr, get_fre_for_address md e en a = Ok (Some fr) <-> first_masked good (a - en_start_address en) fr) /\
  (get_fre_for_address md e en a = Ok None <->
     bad = [] /\ Forall (fun g => ~ covers_mask (a - en_start_address en) (fre_start_address_offset g)) good) /\
  (forall er, get_fre_for_address md e en a = Err er <->
     (exists er' t, bad = er' :: t /\ er = inr er') /\
     Forall (fun g => ~ covers_mask (a - en_start_address en) (fre_start_address_offset g)) good) /\
  get_fre_for_address md e en a <> Panic.
Proof.
  intros (H1 & H2 & _ & _ & H5) Ha Hov Hr HA Hm.
  assert (Hty : en_fdetype en = PPcMaskV1).
  { unfold en_fdetype. rewrite (kind_shown _ H5). destruct (en_fde en); cbn in Hm |- *; [rewrite Hm; reflexivity|contradiction]. }
  assert (Hst : Forall (fun fr => 0 <= fre_start_address_offset fr) good) by apply (collect_starts _ _ _ _ _ _ HA).
  set (rel := a - en_start_address en).
  set (p := fun fr => let mask := fr_start fr in mask <=? Z.land rel mask).
  assert (HG : get_fre_for_address md e en a =
    match find p good with Some fr => Ok (Some fr) | None => match bad with [] => Ok None | er :: _ => Err (inr er) end end).
  { unfold get_fre_for_address. unfold en_start_address, en_size in *.
    replace (a <? fde_start_address (en_fde en)) with false by (symmetry; apply Z.ltb_ge; lia).
    destruct (@sub_i32_fwd (fuel_error + read_error)%type md a _ Ha H1 ltac:(lia)) as [(_ & HO & Hd)|(d & -> & Hu & _)].
    { destruct Hov; [congruence|lia]. }
    cbn [bind]. rewrite Hu.
    replace (fde_size (en_fde en) <? a - fde_start_address (en_fde en)) with false by (symmetry; apply Z.ltb_ge; lia).
    rewrite Hty. unfold all_fres in HA. rewrite (fri_find_collect md e _ _ _ _ _ HA). reflexivity. }
  assert (Hp : forall g, In g good -> (p g = true <-> covers_mask rel (fre_start_address_offset g))).
  { intros g Hg. rewrite Forall_forall in Hst. rewrite <- mask_covers by apply (Hst g Hg). apply Z.leb_le. }
  assert (Hpf : forall l, incl l good -> (Forall (fun g => p g = false) l <-> Forall (fun g => ~ covers_mask rel (fre_start_address_offset g)) l)).
  { intros l Hl. rewrite !Forall_forall. split; intros H g Hg; specialize (H g Hg); specialize (Hp g (Hl g Hg)).
    - intros Hc. apply Hp in Hc. congruence.
    - destruct (p g); [destruct H; apply Hp; reflexivity|reflexivity]. }
  rewrite HG. repeat split.
  - intros H. destruct (find p good) as [fr'|] eqn:Ef; [|destruct bad; discriminate].
    assert (fr' = fr) by congruence. subst fr'. apply find_first in Ef. destruct Ef as (pre & post & E & Hx & HF).
    exists pre, post. split; [exact E|]. split.
    + apply Hp; [rewrite E; apply in_or_app; right; left; reflexivity|exact Hx].
    + apply Hpf; [|exact HF]. intros x Hx'. rewrite E. apply in_or_app. left. exact Hx'.
  - intros (pre & post & E & Hx & HF). rewrite E, find_first_conv; [reflexivity| |].
    + apply Hp; [rewrite E; apply in_or_app; right; left; reflexivity|exact Hx].
    + apply Hpf; [|exact HF]. intros x Hx'. rewrite E. apply in_or_app. left. exact Hx'.
  - destruct (find p good); [discriminate|]. destruct bad; [reflexivity|discriminate].
  - destruct (find p good) eqn:Ef; [discriminate|]. apply Hpf; [apply incl_refl|]. apply find_none_iff, Ef.
  - intros [-> HF]. replace (find p good) with (@None fre); [reflexivity|]. symmetry. apply find_none_iff, Hpf; [apply incl_refl|exact HF].
  - destruct (find p good); [discriminate|]. destruct bad as [|er' t]; [discriminate|]. exists er', t. split; [reflexivity|congruence].
  - destruct (find p good) eqn:Ef; [discriminate|]. apply Hpf; [apply incl_refl|]. apply find_none_iff, Ef.
  - intros [(er' & t & -> & ->) HF]. replace (find p good) with (@None fre); [reflexivity|]. symmetry. apply find_none_iff, Hpf; [apply incl_refl|exact HF].
  - destruct (find p good); [discriminate|]. destruct bad; discriminate.
Qed.

Lemma kind_ok en : fde_ok (en_fde en) -> en_fdetype en = kind_of (en_fde en).
Proof. intros (_ & _ & _ & _ & H). apply kind_shown, H. Qed.
