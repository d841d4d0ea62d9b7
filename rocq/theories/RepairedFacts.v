(** The look-ups with all repairs made say what the iterators say. *)
From Verif Require Export Repaired IterLook.
From Verif Require Import BaseFacts LoadFacts SearchFacts LookupFacts SectionFacts MergeRowFacts RoundFacts.

(** ** Binary search *)

Section Search.
  Variables (cmp : fde -> outcome fuel_error ordering) (l : list fde) (k : nat).
  Hypothesis Hc : forall j f, nth_error l j = Some f ->
    cmp f = Ok (if (j <? k)%nat then Less else if (j =? k)%nat then Equal else Greater).
  Hypothesis Hk : (k < length l)%nat.

  Lemma probe j : (j < length l)%nat -> exists f, nth_error l j = Some f /\
    cmp f = Ok (if (j <? k)%nat then Less else if (j =? k)%nat then Equal else Greater).
  Proof.
    intros H. destruct (nth_error l j) as [f|] eqn:E; [|apply nth_error_None in E; lia]. exists f. split; [reflexivity|]. apply (Hc j f E).
  Qed.

  Lemma left_right_finds : forall fuel left right, (left <= k < right)%nat -> (right <= length l)%nat -> (right - left < fuel)%nat ->
    bs_left_right fuel cmp l left right = Ok (Some k).
  Proof.
    induction fuel as [|n IH]; intros left right Hkk Hr Hf; [lia|]. cbn [bs_left_right].
    replace (left <? right)%nat with true by (symmetry; apply Nat.ltb_lt; lia).
    assert (Hd : ((right - left) / 2 < right - left)%nat) by (apply Nat.div_lt; lia).
    set (mid := (left + (right - left) / 2)%nat) in *.
    destruct (probe mid) as (f & -> & ->); [unfold mid; lia|]. cbn [bind].
    destruct (Nat.ltb_spec mid k) as [H|H]; [apply IH; lia|].
    destruct (Nat.eqb_spec mid k) as [E|E]; [congruence|]. apply IH; unfold mid in *; lia.
  Qed.

  Lemma base_finds : forall fuel base size, (base <= k < base + size)%nat -> (base + size <= length l)%nat -> (size < fuel)%nat ->
    bs_base fuel cmp l base size = Ok (Some k).
  Proof.
    induction fuel as [|n IH]; intros base size Hkk Hr Hf; [lia|]. cbn [bs_base].
    destruct (Nat.ltb_spec 1 size) as [H1|H1].
    - assert (Hd : (0 < size / 2)%nat) by (apply Nat.div_str_pos; lia).
      assert (Hd2 : (2 * (size / 2) <= size)%nat) by (apply Nat.mul_div_le; lia).
      destruct (probe (base + size / 2)) as (f & -> & ->); [lia|]. cbn [bind].
      destruct (Nat.ltb_spec (base + size / 2) k) as [H|H]; [apply IH; lia|].
      destruct (Nat.eqb_spec (base + size / 2) k) as [E|E]; apply IH; lia.
    - assert (base = k) by lia. subst base. destruct (probe k Hk) as (f & -> & ->). cbn [bind].
      rewrite Nat.ltb_irrefl, Nat.eqb_refl. reflexivity.
  Qed.

  Lemma search_finds md : binary_search md cmp l = Ok (Some k).
  Proof.
    unfold binary_search. destruct (bsearch md).
    - apply left_right_finds; lia.
    - destruct l as [|x t] eqn:El; [cbn in Hk; lia|]. rewrite <- El in *. apply base_finds; lia.
  Qed.
End Search.

Lemma distance_fixed {E} rp md a s : fix_sub rp = true -> in_i32 a -> in_i32 s -> s <= a ->
  exists d, @distance E rp md a s = Ok d /\ as_u 32 d = a - s.
Proof.
  intros Hf Ha Hs Hle. unfold distance. rewrite Hf. exists (as_s 32 (a - s)). split; [reflexivity|].
  apply as_u_as_s_32. unfold in_i32, i32_min, i32_max in *. lia.
Qed.

Lemma cmp_fixed {E} md a f : fde_ok f -> in_i32 a ->
  @search_cmp_with E all_repairs md a f =
  Ok (if a <? fde_start_address f then Greater else if fde_start_address f + fde_size f <=? a then Less else Equal).
Proof.
  intros (H1 & _) Ha. unfold search_cmp_with. destruct (Z.ltb_spec a (fde_start_address f)) as [H|H]; [reflexivity|].
  destruct (@distance_fixed E all_repairs md a _ eq_refl Ha H1 H) as (d & -> & Hd). cbn [bind]. rewrite Hd. cbn [all_repairs fix_order].
  destruct (Z.leb_spec (fde_size f) (a - fde_start_address f)), (Z.leb_spec (fde_start_address f + fde_size f) a); try reflexivity; lia.
Qed.

(** ** Rows *)

Fixpoint last_while (p : fre -> bool) (best : option fre) (l : list fre) : option fre :=
  match l with
  | [] => best
  | x :: t => if p x then last_while p (Some x) t else best
  end.

Lemma fri_last_collect md e p : forall fuel it good best,
  fri_collect fuel md e it = Ok (map inl good) -> fri_last fuel md e p best it = Ok (last_while p best good).
Proof.
  induction fuel as [|k IH]; intros it good best H; [discriminate|].
  cbn [fri_collect] in H. cbn [fri_last].
  destruct (fri_next md e it) as [[[x|] it']|er|]; [| |destruct er|discriminate].
  - destruct (fri_collect k md e it') as [l|er|] eqn:HC; try discriminate. injection H as H.
    destruct good as [|g good]; [discriminate|]. cbn in H. injection H as -> ->. cbn [last_while].
    destruct (p g); [apply IH, HC|reflexivity].
  - injection H as H. destruct good; [reflexivity|discriminate].
Qed.

Lemma last_while_best off : forall good best, ascending good ->
  (forall b, best = Some b -> fre_start_address_offset b <= off /\ Forall (fun g => fre_start_address_offset b < fre_start_address_offset g) good) ->
  match last_while (fun fr => fre_start_address_offset fr <=? off) best good with
  | Some fr => (best = Some fr \/ In fr good) /\ fre_start_address_offset fr <= off /\
      forall g, In g good -> fre_start_address_offset g <= off -> fre_start_address_offset g <= fre_start_address_offset fr
  | None => best = None /\ forall g, In g good -> off < fre_start_address_offset g
  end.
Proof.
  induction good as [|x t IH]; intros best Hs Hb; cbn [last_while].
  - destruct best as [b|]; [|split; [reflexivity|intros ? []]]. destruct (Hb b eq_refl) as [H _]. split; [left; reflexivity|]. split; [exact H|intros ? []].
  - apply StronglySorted_inv in Hs. destruct Hs as [Hs HF]. destruct (Z.leb_spec (fre_start_address_offset x) off) as [Hle|Hgt].
    + specialize (IH (Some x) Hs ltac:(intros b E; injection E as <-; split; [exact Hle|exact HF])).
      destruct (last_while _ (Some x) t) as [fr|]; [|destruct IH as [E _]; discriminate].
      destruct IH as (Hor & Hle' & Hmax). split; [|split; [exact Hle'|]].
      * right. destruct Hor as [E|Hin]; [left; congruence|right; exact Hin].
      * intros g [<-|Hg] Hg'; [|apply Hmax; assumption]. destruct Hor as [E|Hin]; [injection E as <-; lia|].
        rewrite Forall_forall in HF. specialize (HF fr Hin). lia.
    + rewrite Forall_forall in HF. destruct best as [b|].
      * destruct (Hb b eq_refl) as [H HX]. split; [left; reflexivity|]. split; [exact H|]. intros g [<-|Hg] Hg'; [lia|]. specialize (HF g Hg). lia.
      * split; [reflexivity|]. intros g [<-|Hg]; [lia|]. specialize (HF g Hg). lia.
Qed.

Lemma get_fre_fixed md e en a good off : fde_ok (en_fde en) -> in_i32 a -> in_range (en_start_address en) (en_size en) a ->
  all_fres md e en = Ok (map inl good) -> lib_offset en a = Some off ->
  get_fre_with all_repairs md e en a = Ok (last_while (fun fr => fre_start_address_offset fr <=? off) None good).
Proof.
  intros (H1 & _) Ha Hr HA Hoff. unfold in_range, en_start_address, en_size in Hr. unfold get_fre_with, en_start_address, en_size.
  replace (a <? fde_start_address (en_fde en)) with false by lia.
  destruct (@distance_fixed (fuel_error + read_error)%type all_repairs md a _ eq_refl Ha H1 ltac:(lia)) as (d & -> & Hu). cbn [bind]. rewrite Hu.
  replace (fde_size (en_fde en) <? a - fde_start_address (en_fde en)) with false by lia.
  unfold lib_offset, en_start_address in Hoff. unfold all_fres in HA. unfold fri_pick. cbn [all_repairs fix_pick].
  destruct (en_fdetype en).
  - injection Hoff as <-. apply (fri_last_collect md e _ _ _ _ _ HA).
  - destruct (en_rep_block_size en) as [r|]; [|discriminate].
    destruct (r =? 0); [discriminate|]. injection Hoff as <-. apply (fri_last_collect md e _ _ _ _ _ HA).
  - discriminate.
Qed.

(** ** Sections *)

Theorem repaired_says md e bs sf a : wf_mode md -> rust_slice md bs -> load md e bs = Ok sf -> in_i32 a ->
  is_sorted_flag bs = true -> sorted_disjoint e bs ->
  (forall en, In en (all_fdes sf) -> in_range (en_start_address en) (en_size en) a ->
     (exists good, all_fres md e en = Ok (map inl good) /\ ascending good) /\ lib_offset en a <> None) ->
  match lookup_with all_repairs md e sf a with
  | Ok (Some u) => exists k, lib_says md e sf a k u /\ forall k' u', lib_says md e sf a k' u' -> k' = k /\ u' = u
  | Ok None => forall k u, ~ lib_says md e sf a k u
  | _ => False
  end.
Proof.
  intros Hmd Hlen H Ha Hfl Hsd HG.
  destruct (load_accessors md e bs sf Hmd Hlen H) as (_ & HFl & _).
  pose proof (loaded_fdes_length md e bs sf Hmd Hlen H) as HL.
  pose proof (loaded_fdes_ok _ _ _ _ Hmd Hlen H) as Hok. rewrite Forall_forall in Hok.
  unfold lookup_with, fde_for_address_with. rewrite sorted_flag_land, HFl. unfold is_sorted_flag in Hfl. rewrite Hfl. cbn [negb].
  assert (HD : forall i j f g, nth_error (it_fdes (fdes sf)) i = Some f -> nth_error (it_fdes (fdes sf)) j = Some g -> (i < j)%nat ->
    fde_start_address f + fde_size f <= fde_start_address g).
  { intros i j f g Hi Hj Hij. destruct (nth_error_entry _ _ _ _ _ _ Hmd Hlen H Hi) as [HR Hv].
    destruct (nth_error_entry _ _ _ _ _ _ Hmd Hlen H Hj) as [HR' Hv'].
    specialize (Hsd (Z.of_nat i) (Z.of_nat j) ltac:(lia) ltac:(lia)). rewrite <- Hv, <- Hv' in Hsd. exact Hsd. }
  assert (HP : forall f, In f (it_fdes (fdes sf)) -> 0 <= fde_size f).
  { intros f Hf. destruct (Hok f Hf) as (_ & [? _] & _). assumption. }
  assert (Hex : (exists k f, nth_error (it_fdes (fdes sf)) k = Some f /\ in_range (fde_start_address f) (fde_size f) a) \/
    forall f, In f (it_fdes (fdes sf)) -> ~ in_range (fde_start_address f) (fde_size f) a).
  { destruct (Exists_dec (fun f => in_range (fde_start_address f) (fde_size f) a) (it_fdes (fdes sf))) as [HE|HE].
    - intros f. unfold in_range. destruct (Z_le_dec (fde_start_address f) a), (Z_lt_dec a (fde_start_address f + fde_size f)); [left; lia|right; lia..].
    - left. apply Exists_exists in HE. destruct HE as (f & Hf & Hin). destruct (In_nth_error _ _ Hf) as (k & Hk). eauto.
    - right. intros f Hf Hin. apply HE, Exists_exists. eauto. }
  destruct Hex as [(k & f & Hk & Hin)|Hout].
  - assert (HB : binary_search md (search_cmp_with all_repairs md a) (it_fdes (fdes sf)) = Ok (Some k)).
    { apply search_finds; [|apply nth_error_Some; congruence]. intros j g Hj.
      rewrite cmp_fixed by (try assumption; apply Hok, (nth_error_In _ _ Hj)). f_equal. unfold in_range in Hin.
      pose proof (HP g (nth_error_In _ _ Hj)).
      destruct (Nat.ltb_spec j k) as [Hjk|Hjk].
      - specialize (HD j k g f Hj Hk Hjk). replace (a <? fde_start_address g) with false by lia.
        replace (fde_start_address g + fde_size g <=? a) with true by lia. reflexivity.
      - destruct (Nat.eqb_spec j k) as [E|E].
        + subst j. assert (g = f) by congruence. subst g. replace (a <? fde_start_address f) with false by lia.
          replace (fde_start_address f + fde_size f <=? a) with false by lia. reflexivity.
        + specialize (HD k j f g Hk Hj ltac:(lia)). replace (a <? fde_start_address g) with true by lia. reflexivity. }
    rewrite HB. cbn [bind]. unfold fdi_nth_with. rewrite (nth_error_skipn _ _ _ Hk). cbn [all_repairs fix_rows].
    change (fst (fdi_next _)) with (Some (entry_of (sf_fres sf) f)). cbv beta iota.
    set (en := entry_of (sf_fres sf) f) in *.
    assert (Hen : In en (all_fdes sf)).
    { rewrite all_fdes_map. apply in_map. apply (nth_error_In _ _ Hk). }
    destruct (HG en Hen Hin) as ((good & HA & Hasc) & HO). destruct (lib_offset en a) as [off|] eqn:Eo; [|congruence].
    rewrite (get_fre_fixed md e en a good off (Hok f (nth_error_In _ _ Hk)) Ha Hin HA Eo).
    assert (Honly : forall en', In en' (all_fdes sf) -> in_range (en_start_address en') (en_size en') a -> en' = en).
    { intros en' Hen' Hin'. rewrite all_fdes_map in Hen'. apply in_map_iff in Hen'. destruct Hen' as (g & <- & Hg).
      destruct (In_nth_error _ _ Hg) as (j & Hj). change (in_range (fde_start_address g) (fde_size g) a) in Hin'. unfold in_range in *.
      destruct (Nat.lt_trichotomy j k) as [L|[L|L]].
      - specialize (HD j k g f Hj Hk L). lia.
      - subst j. unfold en. congruence.
      - specialize (HD k j f g Hk Hj L). lia. }
    pose proof (last_while_best off good None Hasc ltac:(discriminate)) as HW. cbn [option_map].
    destruct (last_while _ None good) as [fr|].
    + destruct HW as (Hor & Hle & Hmax). destruct Hor as [E|Hfr]; [discriminate|]. cbn [option_map]. exists (en_pauth_key en). split.
      * exists en, good, off, fr. repeat (split; [first [assumption|exact Hin]|]). split; reflexivity.
      * intros k' u' (en' & good' & x & fr' & Hen' & Hin' & HA' & HO' & Hfr' & Hle' & Hmax' & Hk' & Hu').
        assert (en' = en) by (apply Honly; assumption). subst en'. rewrite HA in HA'. injection HA' as HA'.
        apply (@ConvProps.map_inl_inj _ read_error) in HA'. subst good'.
        rewrite Eo in HO'. injection HO' as <-. split; [congruence|]. rewrite <- Hu'. f_equal.
        assert (Heq : fre_start_address_offset fr' = fre_start_address_offset fr).
        { specialize (Hmax fr' Hfr' Hle'). specialize (Hmax' fr Hfr Hle). lia. }
        clear - Hasc Hfr Hfr' Heq. induction good as [|g t IH]; [destruct Hfr|]. apply StronglySorted_inv in Hasc. destruct Hasc as [Hs HF].
        rewrite Forall_forall in HF. destruct Hfr as [->|Hfr], Hfr' as [->|Hfr']; [reflexivity| | |apply IH; assumption].
        -- specialize (HF fr' Hfr'). lia.
        -- specialize (HF fr Hfr). lia.
    + destruct HW as (_ & HN). cbn [option_map]. intros k' u' (en' & good' & x & fr' & Hen' & Hin' & HA' & HO' & Hfr' & Hle' & _).
      assert (en' = en) by (apply Honly; assumption). subst en'. rewrite HA in HA'. injection HA' as HA'.
      apply (@ConvProps.map_inl_inj _ read_error) in HA'. subst good'. rewrite Eo in HO'. injection HO' as <-. specialize (HN fr' Hfr'). lia.
  - assert (HN : forall k u, ~ lib_says md e sf a k u).
    { intros k u (en & good & x & fr & Hen & Hin & _). rewrite all_fdes_map in Hen. apply in_map_iff in Hen. destruct Hen as (g & <- & Hg).
      apply (Hout g Hg Hin). }
    pose proof (binary_search_sound md (search_cmp_with all_repairs md a) (it_fdes (fdes sf))) as HS.
    assert (Hne : forall f er, In f (it_fdes (fdes sf)) -> @search_cmp_with fuel_error all_repairs md a f <> Err er).
    { intros f er Hf. rewrite cmp_fixed by (try assumption; apply Hok, Hf). discriminate. }
    specialize (HS Hne). destruct (binary_search md (search_cmp_with all_repairs md a) (it_fdes (fdes sf))) as [[i|]|er|]; cbn [bind].
    + exfalso. destruct HS as (f & Hi & Hc). pose proof (nth_error_In _ _ Hi) as Hf. rewrite cmp_fixed in Hc by (try assumption; apply Hok, Hf).
      apply (Hout f Hf). unfold in_range. destruct (Z.ltb_spec a (fde_start_address f)); [discriminate|].
      destruct (Z.leb_spec (fde_start_address f + fde_size f) a); [discriminate|]. lia.
    + exact HN.
    + exact HS.
    + destruct HS as (f & Hf & Hc). rewrite cmp_fixed in Hc by (try assumption; apply Hok, Hf). discriminate.
Qed.

Theorem repaired_lib md md' e s bs sf a : sfb_reach md s -> build md e s = Ok bs ->
  wf_mode md' -> rust_slice md' bs -> load md' e bs = Ok sf -> in_i32 a ->
  (forall b, In b (fdes_of s) -> in_range (fb_start b) (fb_size b) a -> rows_inside b /\ fb_rep_size b <> Some 0) ->
  (forall u, lookup_with all_repairs md' e sf a = Ok (Some u) <-> exists k, lib_says md' e sf a k u) /\
  (lookup_with all_repairs md' e sf a = Ok None <-> forall k u, ~ lib_says md' e sf a k u).
Proof.
  intros Hr B Hmd Hsl HL Ha HC. destruct (built_is md md' e s bs sf Hr B Hmd Hsl HL) as (W & T & Hsf).
  destruct (built_sorted md e s bs Hr B) as (Hfl & Hsd & _).
  pose proof (repaired_says md' e bs sf a Hmd Hsl HL Ha Hfl Hsd) as HR.
  assert (HG : forall en, In en (all_fdes sf) -> in_range (en_start_address en) (en_size en) a ->
     (exists good, all_fres md' e en = Ok (map inl good) /\ ascending good) /\ lib_offset en a <> None).
  { intros en Hen Hin. destruct (built_entries e s W T) as [HLen HE]. rewrite Hsf in Hen. destruct (In_nth_error _ _ Hen) as (j & Hj).
    destruct (nth_error (fdes_of s) j) as [c|] eqn:Ec.
    2:{ apply nth_error_None in Ec. assert (j < length (all_fdes (built_sf e s)))%nat by (apply nth_error_Some; congruence). lia. }
    rewrite (HE j c Ec) in Hj. injection Hj as <-. destruct (built_same e s j c) as (F1 & F2 & _). rewrite F1, F2 in Hin.
    destruct (HC c (nth_error_In _ _ Ec) Hin) as (Hins & Hrep). split.
    - destruct (proj1 (built_rows md' e s j c Hmd W T Ec) Hins) as (good & HA & HV). exists good. split; [exact HA|].
      destruct (nth_in_wf s j c W Ec) as (Wc & _). apply (written_ascending (rows_of c)); [|exact HV]. apply sorted_ascends; apply Wc.
    - rewrite (built_offset e s j c a Hrep). discriminate. }
  specialize (HR HG). destruct (lookup_with all_repairs md' e sf a) as [[u|]|er|]; try contradiction.
  - destruct HR as (k & Hs & Hu). split.
    + intros u'. split; [intros [= <-]; exists k; exact Hs|]. intros (k' & HA). destruct (Hu k' u' HA) as [_ ->]. reflexivity.
    + split; [discriminate|]. intros HN. destruct (HN k u Hs).
  - split; [|split; [intros _; exact HR|reflexivity]]. intros u. split; [discriminate|]. intros (k & HA). destruct (HR k u HA).
Qed.

Theorem repaired_built md md' e s bs sf a : sfb_reach md s -> build md e s = Ok bs ->
  wf_mode md' -> rust_slice md' bs -> load md' e bs = Ok sf -> in_i32 a ->
  (forall b, In b (fdes_of s) -> in_range (fb_start b) (fb_size b) a ->
     rows_inside b /\ fb_rep_size b <> Some 0 /\ forall r, In r (rows_of b) -> ~ tied r /\ ~ ambiguous (sb_options s) r) ->
  (forall u, lookup_with all_repairs md' e sf a = Ok (Some u) <-> asked_at s a u) /\
  (lookup_with all_repairs md' e sf a = Ok None <-> forall u, ~ asked_at s a u).
Proof.
  intros Hr B Hmd Hsl HL Ha HC.
  assert (HQ : forall u, asked_at s a u <-> exists k, asked_with_key s a k u).
  { intros u. split; [intros (b & r & H1 & H2 & H3 & H4); exists (fb_pauth b), b, r; auto|intros (k & b & r & H1 & H2 & H3 & _ & H4); exists b, r; auto]. }
  pose proof (iter_all md md' e s bs sf Hr B Hmd Hsl HL a HC) as HI.
  destruct (repaired_lib md md' e s bs sf a Hr B Hmd Hsl HL Ha) as [H1 H2].
  { intros b Hb Hin. destruct (HC b Hb Hin) as (P1 & P2 & _). auto. }
  split.
  - intros u. rewrite H1, HQ. split; intros (k & H); exists k; apply HI; exact H.
  - rewrite H2. split; [intros H u (k & Hk)%HQ; apply (H k u), HI, Hk|]. intros H k u Hs. apply (H u), HQ. exists k. apply HI, Hs.
Qed.
