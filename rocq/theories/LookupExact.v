(** What looking up an address gives in built sections of several functions (C65):
    the rows read are those at the beginning of the section. *)
From Verif Require Export LookupSpec LookupFacts TripWitness.

Lemma uniform_enc e s b : sfb_wf s -> In b (fdes_of s) -> uniform s b ->
  rows_enc e (fdes_of s) = concat (map (row_enc e (addr_bytes (start_size b))) (stored_rows s)) /\
  Forall (fits_start (addr_bytes (start_size b))) (stored_rows s).
Proof.
  intros W Hb U. pose proof (wf_fdes _ W) as WF. rewrite Forall_forall in WF. specialize (WF b Hb) as Wb.
  unfold rows_enc, stored_rows.
  assert (H : forall c, In c (fdes_of s) -> fdb_wf c /\ addr_bytes (start_size c) = addr_bytes (start_size b)).
  { intros c Hc. split; [apply WF, Hc|]. apply Nat2Z.inj. rewrite <- !start_width_size; auto. }
  clear - H. induction (fdes_of s) as [|c l IH]; [split; [reflexivity|constructor]|].
  destruct IH as [I1 I2]; [intros x Hx; apply H; right; exact Hx|]. destruct (H c (or_introl eq_refl)) as [Wc Ec].
  cbn [map concat flat_map]. rewrite map_app, concat_app, <- I1. unfold fde_enc. rewrite Ec. split; [reflexivity|].
  apply Forall_app. split; [|exact I2]. rewrite <- Ec. apply starts_fit, Wc.
Qed.

(** Reading rows one after the other. *)
Lemma calls_rows md e f aw : wf_mode md -> fde_ok f -> width_of (fre_type_num (fde_info f)) = Some aw ->
  forall pre tl bs rest idx, spec_rows_at e aw bs (pre ++ tl) rest -> 0 <= idx -> idx + zlen pre <= fde_num_fres f ->
  Forall (fun r => sr_start r < fde_size f) pre ->
  exists good bs', fri_calls (length pre) md e (FreIter f bs idx) =
      Ok (map (fun x => Some (inl x)) good, FreIter f bs' (idx + zlen pre)) /\
    map view_fre good = pre /\ spec_rows_at e aw bs' tl rest.
Proof.
  intros Hmd Hf Hw. induction pre as [|r pre IH]; intros tl bs rest idx Hs Hi Hn HF.
  - exists [], bs. cbn. rewrite Z.add_0_r. auto.
  - cbn [app spec_rows_at] in Hs. destruct Hs as (bs1 & H1 & Hs). inversion HF as [|? ? Hr HF']. subst.
    destruct (row_decode_complete md e f bs aw r bs1 Hmd Hf Hw H1) as [HD _]. destruct (HD Hr) as (fr & HL & HV & _).
    assert (Hz : zlen (r :: pre) = 1 + zlen pre) by (unfold zlen; cbn [length]; lia).
    pose proof (zlen_nonneg pre). rewrite Hz in Hn.
    destruct (IH tl bs1 rest (idx + 1) Hs ltac:(lia) ltac:(lia) HF') as (good & bs' & HC & HG & HT).
    exists (fr :: good), bs'. split; [|split; [cbn [map]; congruence|exact HT]].
    cbn [length fri_calls map]. unfold fri_next. cbn [ri_fde ri_fres ri_index].
    replace (fde_num_fres f <=? idx) with false by (symmetry; apply Z.leb_gt; lia). rewrite HL. cbn [bind fst snd].
    rewrite HC. cbn [bind fst snd]. rewrite Hz. do 3 f_equal. lia.
Qed.

Section Reached.
  Variables (md md' : mode) (e : endian) (s : sfb) (bs : bytes) (sf : sframe) (a : Z) (i : nat) (b : fdb).
  Hypothesis Hreach : sfb_reach md s.
  Hypothesis Hbuild : build md e s = Ok bs.
  Hypothesis Hmd : wf_mode md'.
  Hypothesis Hlen : rust_slice md' bs.
  Hypothesis Hload : load md' e bs = Ok sf.
  Hypothesis Ha : in_i32 a.
  Hypothesis Hnear : near md' s a.
  Hypothesis Hi : nth_error (fdes_of s) i = Some b.
  Hypothesis Hin : in_range (fb_start b) (fb_size b) a.
  Hypothesis Hre : reached (bsearch md') (zlen (fdes_of s)) (Z.of_nat i) = true.

  Lemma reached_entry : ~ too_large s /\ sf = built_sf e s /\
    fde_for_address md' sf a = Ok (Some (Entry (built_fde s i b) (rows_enc e (fdes_of s)))).
  Proof.
    pose proof (sfb_reach_wf _ _ Hreach) as W. destruct (built_image _ _ _ _ W Hbuild) as [T E].
    destruct (built_sorted md e s bs Hreach Hbuild) as (H1 & H2 & H3).
    assert (Hk : 0 <= Z.of_nat i < spec_num_fdes e bs).
    { rewrite H3. assert (i < length (fdes_of s))%nat by (apply nth_error_Some; congruence). unfold zlen. lia. }
    pose proof (built_spec_entry md e s bs i b Hreach Hbuild Hi) as He.
    destruct (sorted_search_exact md' e bs sf a (Z.of_nat i) Hmd Hlen Hload Ha H1 H2 Hk) as [HF _].
    - rewrite He. exact Hin.
    - destruct Hnear as [Hn|Hn]; [left; exact Hn|right]. intros j Hj. rewrite H3 in Hj. unfold zlen in Hj.
      destruct (nth_error (fdes_of s) (Z.to_nat j)) as [c|] eqn:Ec; [|apply nth_error_None in Ec; lia].
      replace j with (Z.of_nat (Z.to_nat j)) by lia. rewrite (built_spec_entry md e s bs _ c Hreach Hbuild Ec).
      apply Hn, (nth_error_In _ _ Ec).
    - rewrite H3 in HF. destruct (HF Hre) as (en & Hen & Hv).
      rewrite E, (image_loads md' e s Hmd W T) in Hload by (rewrite <- E; exact Hlen).
      assert (Hsf : sf = built_sf e s) by congruence. split; [exact T|]. split; [exact Hsf|].
      rewrite Hen. do 2 f_equal.
      (* The entry is the one [nth] gives. *)
      unfold fde_for_address in Hen. destruct (negb _) eqn:Ef.
      { exfalso. subst sf. revert Ef. unfold flags, built_sf. cbn [sf_preamble pre_flags].
        destruct W as [[[->| ->] _ _ _] _ _ _]; discriminate. }
      destruct (binary_search _ _ _) as [[k|]|er|] eqn:Eb; cbn [bind] in Hen; try discriminate.
      injection Hen as Hen. unfold fdi_nth in Hen.
      destruct (skipn k (it_fdes (fdes sf))) as [|f l] eqn:Es; [discriminate|]. cbn [fst] in Hen. injection Hen as <-.
      subst sf. cbn [en_fde] in Hv. f_equal.
      assert (Hf : nth_error (it_fdes (fdes (built_sf e s))) k = Some f).
      { rewrite <- (firstn_skipn k (it_fdes (fdes (built_sf e s)))), Es.
        assert (Hkl : (k <= length (it_fdes (fdes (built_sf e s))))%nat).
        { destruct (Nat.le_gt_cases k (length (it_fdes (fdes (built_sf e s))))) as [|Hgt]; [assumption|].
          rewrite skipn_all2 in Es by lia. discriminate. }
        rewrite nth_error_app2; rewrite firstn_length_le by exact Hkl; [|lia]. rewrite Nat.sub_diag. reflexivity. }
      (* Its descriptor has the position of [b]. *)
      destruct (nth_error (fdes_of s) k) as [c|] eqn:Ek.
      2:{ exfalso. apply nth_error_None in Ek. assert (k < length (it_fdes (fdes (built_sf e s))))%nat by (apply nth_error_Some; congruence).
          unfold fdes, built_sf in *. cbn [it_fdes sf_fdes] in *. rewrite map_length, raws_length in *. lia. }
      assert (Hfc : f = built_fde s k c).
      { unfold fdes, built_sf in Hf. cbn [it_fdes sf_fdes] in Hf. rewrite nth_error_map, (raws_nth _ _ _ _ Ek) in Hf.
        cbn [option_map] in Hf. rewrite Z.add_0_l in Hf. injection Hf as <-. reflexivity. }
      assert (Hst : fb_start c = fb_start b).
      { rewrite He, Hfc in Hv. apply (f_equal sd_start) in Hv. exact Hv. }
      assert (k = i).
      { destruct (wf_starts s W) as [Hs _].
        assert (ND : NoDup (map fb_start (fdes_of s))).
        { clear - Hs. induction Hs as [|x l _ IH HF]; constructor; [|exact IH]. intros Hx. rewrite Forall_forall in HF. specialize (HF x Hx). lia. }
        rewrite NoDup_nth_error in ND. apply ND.
        - rewrite map_length. apply nth_error_Some. congruence.
        - rewrite !nth_error_map, Ek, Hi. cbn. congruence. }
      subst k. assert (c = b) by congruence. subst c. exact Hfc.
  Qed.

  Hypothesis Hrep : fb_rep_size b <> Some 0.
  Hypothesis Hun : uniform s b.

  (** The rows read: as many as [b] has, from the beginning of the section. *)
  Theorem reached_rows : forall pre tl,
    firstn (length (rows_of b)) (stored_rows s) = pre ++ tl ->
    Forall (fun r => offset_in b a < r_start r < fb_size b) pre ->
    match tl with
    | [] => lookup md' e sf a = Ok None
    | r :: _ =>
        (r_start r <= offset_in b a ->
           exists fr, view_fre fr = written r /\ lookup md' e sf a = Ok (Some (observed sf fr))) /\
        (fb_size b <= r_start r -> lookup md' e sf a = Panic)
    end.
  Proof.
    intros pre tl Hl HP. destruct reached_entry as (T & Hsf & HF). pose proof (sfb_reach_wf _ _ Hreach) as W.
    set (en := Entry (built_fde s i b) (rows_enc e (fdes_of s))) in *.
    pose proof (built_fde_ok s i b W T Hi) as Hok.
    destruct (uniform_enc e s b W (nth_error_In _ _ Hi) Hun) as [HE Hfit].
    pose proof (rows_enc_spec e _ _ [] Hfit) as HS. rewrite app_nil_r, <- HE in HS.
    assert (Hall : stored_rows s = pre ++ (tl ++ skipn (length (rows_of b)) (stored_rows s))).
    { rewrite app_assoc, <- Hl. symmetry. apply firstn_skipn. }
    assert (Hcnt : (length (rows_of b) <= length (stored_rows s))%nat).
    { unfold stored_rows. pose proof (nth_error_In _ _ Hi) as HI. clear - HI. induction (fdes_of s) as [|c l IH]; [destruct HI|].
      cbn [flat_map]. rewrite app_length. destruct HI as [->|HI]; [lia|]. specialize (IH HI). lia. }
    assert (Hlen' : (length pre + length tl = length (rows_of b))%nat).
    { rewrite <- app_length, <- Hl. apply firstn_length_le, Hcnt. }
    rewrite Hall, map_app in HS.
    assert (Hnum : fde_num_fres (built_fde s i b) = zlen (rows_of b)).
    { unfold built_fde. cbn [fde_num_fres fde_raw f2_num_fres]. apply rows_of_len. }
    destruct (calls_rows md' e (built_fde s i b) _ Hmd Hok (built_width s i b) _ _ _ _ 0 HS ltac:(lia)) as (good & bs' & HC & HG & HT).
    { rewrite Hnum, zlen_map. unfold zlen. lia. }
    { apply Forall_map. eapply Forall_impl; [|exact HP]. intros r Hr. cbv beta in Hr. change (r_start r < fb_size b). lia. }
    rewrite map_length in HC. assert (Hgl : length good = length pre).
    { apply (f_equal (@length _)) in HG. rewrite !map_length in HG. exact HG. }
    assert (Hoff : lookup_offset en (a - fb_start b) = Some (offset_in b a)).
    { destruct (built_same e s i b) as (_ & _ & E3 & E4 & _). unfold lookup_offset, offset_in.
      change (en_fdetype en) with (en_fdetype (built_entry e s i b)). change (en_rep_block_size en) with (en_rep_block_size (built_entry e s i b)).
      rewrite E3, E4. unfold pub_type.
      destruct (fb_rep_size b) as [rep|]; [|reflexivity]. destruct (Z.eqb_spec rep 0); [congruence|reflexivity]. }
    pose proof (get_fre_stops md' e en a (offset_in b a) good (FreIter (built_fde s i b) bs' (0 + zlen (map written pre))) Hmd Hok Ha) as HX.
    assert (H2 : overflow_checks md' = false \/ a - en_start_address en <= i32_max).
    { destruct Hnear as [Hn|Hn]; [left; exact Hn|right]. apply Hn, (nth_error_In _ _ Hi). }
    assert (H3 : en_start_address en <= a <= en_start_address en + en_size en).
    { change (fb_start b <= a <= fb_start b + fb_size b). unfold in_range in Hin. lia. }
    assert (H5 : fri_calls (length good) md' e (fres en) = Ok (map (fun x => Some (inl x)) good, FreIter (built_fde s i b) bs' (0 + zlen (map written pre)))).
    { rewrite Hgl. exact HC. }
    assert (H6 : Forall (fun x => offset_in b a < fre_start_address_offset x) good).
    { clear - HG HP. revert pre HG HP. induction good as [|g good IH]; intros [|r pre] HG HP; try discriminate; [constructor|].
      pose proof (f_equal (hd (view_fre g)) HG) as Hv. apply (f_equal (@List.tl _)) in HG. cbn [map hd List.tl] in Hv, HG.
      inversion HP as [|? ? Hr HP']. subst. constructor; [|apply (IH pre HG HP')].
      destruct (written_fields _ _ Hv) as (-> & _). lia. }
    specialize (HX H2 H3 Hoff H5 H6). unfold lookup. rewrite HF. fold en. unfold fri_next in HX. cbn [ri_fde ri_fres ri_index] in HX.
    rewrite Hnum, zlen_map, Z.add_0_l in HX. destruct tl as [|r tl].
    - replace (zlen (rows_of b) <=? zlen pre) with true in HX by (symmetry; apply Z.leb_le; unfold zlen; cbn [length] in Hlen'; lia).
      rewrite HX. reflexivity.
    - replace (zlen (rows_of b) <=? zlen pre) with false in HX by (symmetry; apply Z.leb_gt; unfold zlen; cbn [length] in Hlen'; lia).
      cbn [app map spec_rows_at] in HT. destruct HT as (bs2 & HR & _).
      destruct (row_decode_complete md' e (built_fde s i b) bs' _ (written r) bs2 Hmd Hok (built_width s i b) HR) as [D1 D2].
      change (fde_size (built_fde s i b)) with (fb_size b) in D1, D2. change (sr_start (written r)) with (r_start r) in D1, D2.
      split.
      + intros Hle. assert (Hlt : r_start r < fb_size b).
        { assert (offset_in b a < fb_size b); [|lia]. unfold offset_in, in_range in *. destruct (fb_rep_size b) as [rep|] eqn:Er; [|lia].
          assert (0 <= rep). { pose proof (in_fdes_wf s i b W Hi) as [Wb _]. pose proof (bw_rep b Wb) as Hb. rewrite Er in Hb. destruct Hb as [? _]. assumption. }
          assert (rep <> 0) by congruence. pose proof (Z.mod_le (a - fb_start b) rep ltac:(lia) ltac:(lia)). lia. }
        destruct (D1 Hlt) as (fr & HLd & HV & _). rewrite HLd in HX. destruct (written_fields _ _ HV) as (Es & _). rewrite Es in HX.
        rewrite (HX Hle). exists fr. auto.
      + intros Hge. rewrite (D2 Hge) in HX. rewrite HX. reflexivity.
  Qed.
End Reached.

(** What a row read from a built section says. *)
Lemma stored_meaning md e s bs md' sf r fr : sfb_reach md s -> build md e s = Ok bs ->
  wf_mode md' -> rust_slice md' bs -> load md' e bs = Ok sf -> In r (stored_rows s) -> view_fre fr = written r ->
  (observed sf fr = intended (sb_options s) r <-> ~ tied r /\ ~ ambiguous (sb_options s) r).
Proof.
  intros Hr B Hmd Hsl HL HI HV. pose proof (sfb_reach_wf _ _ Hr) as W. destruct (built_image _ _ _ _ W B) as [T E].
  subst bs. rewrite (image_loads md' e s Hmd W T Hsl) in HL. assert (Hsf : sf = built_sf e s) by congruence. subst sf.
  unfold stored_rows in HI. apply in_flat_map in HI. destruct HI as (c & Hc & Hrc).
  destruct (In_nth_error _ _ Hc) as (j & Hj). destruct (nth_in_wf s j c W Hj) as (Wc & Ho & _).
  destruct (built_fixed e s W) as [Hra Hfp]. destruct Wc as [_ _ _ _ _ _ HW]. rewrite Forall_forall in HW.
  destruct (HW r Hrc) as [Ty _ No]. rewrite Ho in No.
  rewrite (row_meaning _ (sb_options s) r fr Hra Hfp No HV). rewrite (width_untied r Ty). reflexivity.
Qed.

Theorem lookup_reached md md' e s bs sf a i b : sfb_reach md s -> build md e s = Ok bs ->
  wf_mode md' -> rust_slice md' bs -> load md' e bs = Ok sf -> in_i32 a -> near md' s a ->
  nth_error (fdes_of s) i = Some b -> in_range (fb_start b) (fb_size b) a ->
  reached (bsearch md') (zlen (fdes_of s)) (Z.of_nat i) = true -> fb_rep_size b <> Some 0 -> uniform s b ->
  forall pre tl, firstn (length (rows_of b)) (stored_rows s) = pre ++ tl ->
    Forall (fun r => offset_in b a < r_start r < fb_size b) pre ->
    match tl with
    | [] => lookup md' e sf a = Ok None
    | r :: _ =>
        (r_start r <= offset_in b a -> exists u, lookup md' e sf a = Ok (Some u) /\
           (u = intended (sb_options s) r <-> ~ tied r /\ ~ ambiguous (sb_options s) r)) /\
        (fb_size b <= r_start r -> lookup md' e sf a = Panic)
    end.
Proof.
  intros Hr B Hmd Hsl HL Ha Hn Hi Hin Hre Hrep Hun pre tl Hl HP.
  pose proof (reached_rows md md' e s bs sf a i b Hr B Hmd Hsl HL Ha Hn Hi Hin Hre Hrep Hun pre tl Hl HP) as H.
  destruct tl as [|r tl]; [exact H|]. destruct H as [H1 H2]. split; [|exact H2]. intros Hle.
  destruct (H1 Hle) as (fr & HV & HK). exists (observed sf fr). split; [exact HK|].
  apply (stored_meaning md e s bs md' sf r fr Hr B Hmd Hsl HL); [|exact HV].
  rewrite <- (firstn_skipn (length (rows_of b)) (stored_rows s)), Hl. apply in_or_app. left. apply in_or_app. right. left. reflexivity.
Qed.

Lemma observed_view sf fr fr' : view_fre fr = view_fre fr' -> observed sf fr = observed sf fr'.
Proof.
  intros H. unfold observed. rewrite !cfa_offset_spec, !ra_offset_spec, !fp_offset_spec, H.
  pose proof (f_equal sr_base_is_sp H) as Hb. pose proof (f_equal sr_mangled H) as Hm. cbn [view_fre sr_base_is_sp sr_mangled] in Hb, Hm.
  rewrite Hm. destruct (fre_cfa_base_reg_id fr), (fre_cfa_base_reg_id fr'); try discriminate; reflexivity.
Qed.

Lemma view_exists r : exists fr, view_fre fr = written r.
Proof.
  exists (Fre (FdeV1 (RawFde1 0 0 0 0 0)) (r_start r)
    ((match r_base r with Sp => 31 | Fp => 30 end) + (if r_mangled r then 128 else 0)) (map (wrap (offset_width r)) (stored_values r))).
  unfold view_fre, written. f_equal; try (destruct (r_base r), (r_mangled r); reflexivity).
  unfold fre_offsets. cbn [fr_info fr_offsets].
  assert (H : zlen (map (wrap (offset_width r)) (stored_values r)) < 15).
  { rewrite zlen_map. unfold stored_values. destruct (r_offsets r) as [[c [x|] [y|]]|]; vm_compute; reflexivity. }
  replace (offset_count _) with 15 by (destruct (r_base r), (r_mangled r); reflexivity).
  replace (15 <=? _) with false by (symmetry; apply Z.leb_gt; exact H). reflexivity.
Qed.

(** All look-ups that find anything give the same answer. *)
Theorem one_answer md md' e s bs sf : sfb_reach md s -> build md e s = Ok bs ->
  wf_mode md' -> rust_slice md' bs -> load md' e bs = Ok sf -> plainly_built s ->
  exists u, (forall r rest, stored_rows s = r :: rest -> (u = intended (sb_options s) r <-> ~ tied r /\ ~ ambiguous (sb_options s) r)) /\
    forall a, in_i32 a -> near md' s a ->
      (lookup md' e sf a = Ok None /\
         forall i b, nth_error (fdes_of s) i = Some b -> in_range (fb_start b) (fb_size b) a ->
           rows_of b = [] \/ reached (bsearch md') (zlen (fdes_of s)) (Z.of_nat i) = false) \/
      (lookup md' e sf a = Ok (Some u) /\
         exists i b, nth_error (fdes_of s) i = Some b /\ in_range (fb_start b) (fb_size b) a /\
           rows_of b <> [] /\ reached (bsearch md') (zlen (fdes_of s)) (Z.of_nat i) = true).
Proof.
  intros Hr B Hmd Hsl HL (HU & HZ & H0).
  assert (HX : forall a i b, in_i32 a -> near md' s a -> nth_error (fdes_of s) i = Some b -> in_range (fb_start b) (fb_size b) a ->
    reached (bsearch md') (zlen (fdes_of s)) (Z.of_nat i) = true ->
    match rows_of b with
    | [] => lookup md' e sf a = Ok None
    | _ :: _ => exists r rest fr, stored_rows s = r :: rest /\ view_fre fr = written r /\ lookup md' e sf a = Ok (Some (observed sf fr))
    end).
  { intros a i b Ha Hn Hi Hin Hre. pose proof (nth_error_In _ _ Hi) as HI.
    assert (Hun : uniform s b) by (intros c Hc; apply HU; assumption).
    pose proof (reached_rows md md' e s bs sf a i b Hr B Hmd Hsl HL Ha Hn Hi Hin Hre (HZ b HI) Hun []
      (firstn (length (rows_of b)) (stored_rows s)) eq_refl (Forall_nil _)) as H.
    destruct (rows_of b) as [|x l] eqn:Eb; [exact H|].
    assert (Hs : In x (stored_rows s)) by (unfold stored_rows; apply in_flat_map; exists b; rewrite Eb; split; [exact HI|left; reflexivity]).
    destruct (stored_rows s) as [|r rest] eqn:Es; [destruct Hs|]. cbn [length firstn] in H. destruct H as [H _].
    destruct H as (fr & HV & HK); [|exists r, rest, fr; auto].
    rewrite (H0 r rest eq_refl). unfold offset_in, in_range in *. destruct (fb_rep_size b) as [rep|] eqn:Er; [|lia].
    pose proof (sfb_reach_wf _ _ Hr) as W. pose proof (in_fdes_wf s i b W Hi) as [Wb _]. pose proof (bw_rep b Wb) as Hb. rewrite Er in Hb.
    destruct Hb as [Hb _]. specialize (HZ b HI). rewrite Er in HZ. assert (rep <> 0) by congruence.
    pose proof (Z.mod_pos_bound (a - fb_start b) rep ltac:(lia)). lia. }
  assert (HD : forall a, (exists i b, nth_error (fdes_of s) i = Some b /\ in_range (fb_start b) (fb_size b) a) \/
     forall i b, nth_error (fdes_of s) i = Some b -> ~ in_range (fb_start b) (fb_size b) a).
  { clear. intros a. induction (fdes_of s) as [|c l IH].
    - right. intros i b Hi. destruct i; discriminate.
    - destruct (Z_le_gt_dec (fb_start c) a) as [H1|H1]; [destruct (Z_lt_ge_dec a (fb_start c + fb_size c)) as [H2|H2]|].
      { left. exists 0%nat, c. split; [reflexivity|]. unfold in_range. lia. }
      all: destruct IH as [(i & b & Hi & Hb)|IH]; [left; exists (S i), b; auto|right; intros [|i] b Hi;
        [cbn in Hi; injection Hi as <-; unfold in_range; lia|apply (IH i b Hi)]]. }
  (* The answer. *)
  assert (Huniq : forall a i b j c, nth_error (fdes_of s) i = Some b -> nth_error (fdes_of s) j = Some c ->
    in_range (fb_start b) (fb_size b) a -> in_range (fb_start c) (fb_size c) a -> i = j).
  { intros a i b j c Hi Hj Hb Hc. destruct (built_sorted md e s bs Hr B) as (_ & H2 & H3).
    pose proof (built_spec_entry md e s bs i b Hr B Hi) as E1. pose proof (built_spec_entry md e s bs j c Hr B Hj) as E2.
    assert (L1 : (i < length (fdes_of s))%nat) by (apply nth_error_Some; congruence).
    assert (L2 : (j < length (fdes_of s))%nat) by (apply nth_error_Some; congruence).
    assert (H4 : spec_num_fdes e bs = Z.of_nat (length (fdes_of s))) by exact H3.
    unfold in_range in *. destruct (Nat.lt_trichotomy i j) as [H|[H|H]]; [|exact H|]; exfalso.
    - specialize (H2 (Z.of_nat i) (Z.of_nat j) ltac:(lia) ltac:(lia)). rewrite E1, E2 in H2. cbn [descriptor sd_start sd_size] in H2. lia.
    - specialize (H2 (Z.of_nat j) (Z.of_nat i) ltac:(lia) ltac:(lia)). rewrite E1, E2 in H2. cbn [descriptor sd_start sd_size] in H2. lia. }
  assert (HA : forall u, (forall r rest fr, stored_rows s = r :: rest -> view_fre fr = written r -> observed sf fr = u) ->
    forall a, in_i32 a -> near md' s a ->
      (lookup md' e sf a = Ok None /\
         forall i b, nth_error (fdes_of s) i = Some b -> in_range (fb_start b) (fb_size b) a ->
           rows_of b = [] \/ reached (bsearch md') (zlen (fdes_of s)) (Z.of_nat i) = false) \/
      (lookup md' e sf a = Ok (Some u) /\
         exists i b, nth_error (fdes_of s) i = Some b /\ in_range (fb_start b) (fb_size b) a /\
           rows_of b <> [] /\ reached (bsearch md') (zlen (fdes_of s)) (Z.of_nat i) = true)).
  { intros u Hu a Ha Hn. destruct (HD a) as [(i & b & Hi & Hb)|Hout].
    - destruct (reached (bsearch md') (zlen (fdes_of s)) (Z.of_nat i)) eqn:Ere.
      + specialize (HX a i b Ha Hn Hi Hb Ere). destruct (rows_of b) as [|x l] eqn:Eb.
        * left. split; [exact HX|]. intros j c Hj Hc. assert (i = j) by (apply (Huniq a i b j c); assumption). subst j.
          left. congruence.
        * right. destruct HX as (r & rest & fr & Hs & HV & HK). rewrite (Hu r rest fr Hs HV) in HK. split; [exact HK|].
          exists i, b. rewrite Eb. repeat split; try assumption; try discriminate; apply Hb.
      + left. split; [apply (lookup_missed md md' e s bs sf a i b); assumption|]. intros j c Hj Hc.
        assert (i = j) by (apply (Huniq a i b j c); assumption). subst j. right. exact Ere.
    - left. split.
      + apply (lookup_outside md md' e s bs sf a); try assumption. intros b Hb. destruct (In_nth_error _ _ Hb) as (i & Hi). apply (Hout i b Hi).
      + intros i b Hi Hb. destruct (Hout i b Hi Hb). }
  destruct (stored_rows s) as [|r rest] eqn:Es.
  - exists (intended (sb_options s) (row_invalid 0)). split; [intros r rest [=]|]. apply HA. intros r rest fr [=].
  - destruct (view_exists r) as (fr0 & HV0). exists (observed sf fr0). split.
    + intros r' rest' [= <- <-]. apply (stored_meaning md e s bs md' sf r fr0 Hr B Hmd Hsl HL); [|exact HV0]. rewrite Es. left. reflexivity.
    + apply HA. intros r' rest' fr [= <- <-] HV. apply observed_view. congruence.
Qed.
