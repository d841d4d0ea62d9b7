(** The round trip over all call histories (C06, C35-C39, C45), with the concrete
    cases that go with it. *)
From Verif Require Export RoundFacts.

Lemma built md e s bs : sfb_reach md s -> build md e s = Ok bs ->
  sfb_wf s /\ bs = image e s /\ ~ too_large s /\ ~ overlapping s.
Proof.
  intros H B. apply sfb_reach_wf in H.
  destruct (build_cases md e s H) as [(B1 & _)|[(B1 & _)|(Ho & _ & [[_ B1]|[T B1]])]]; rewrite B1 in B; try discriminate.
  injection B as <-. auto.
Qed.

Lemma image_rel64 e s : sfb_wf s -> ~ too_large s -> rust_slice rel64 (image e s).
Proof.
  intros W T. unfold rust_slice. rewrite image_zlen by exact W. unfold too_large, u32_max in T.
  change (2 ^ (usize_bits rel64 - 1)) with 9223372036854775808. lia.
Qed.

Lemma some_inj {A} (a b : A) : Some a = Some b -> a = b.
Proof. intros H. injection H as H. exact H. Qed.

Lemma v2_inj a b : ListV2 a = ListV2 b -> a = b.
Proof. intros H. injection H as H. exact H. Qed.

(** ** C06 *)

Theorem trip_truncated md md' e s bs m : sfb_reach md s -> build md e s = Ok bs ->
  wf_mode md' -> rust_slice md' bs -> (m < length bs)%nat ->
  load md' e (firstn m bs) = Err UnexpectedEof.
Proof.
  intros H B Hm Hs Hlt. destruct (built md e s bs H B) as (W & -> & T & _).
  apply truncated_rejected; assumption.
Qed.

(** A slice of a built section always fits a 64-bit address space. *)
Theorem built_fits_64 md e s bs : sfb_reach md s -> build md e s = Ok bs -> zlen bs <= 28 + 2 * u32_max.
Proof.
  intros H B. destruct (built md e s bs H B) as (W & -> & T & _).
  rewrite image_zlen by exact W. unfold too_large in T. lia.
Qed.

(** ** C35 *)

Lemma info_of_byte b : fdb_wf b -> info_of b = fde_info_byte b.
Proof.
  intros W. unfold info_of, fde_info_byte, fdb_fdetype. rewrite start_width_size by exact W.
  destruct (fb_pauth b), (fb_rep_size b), (start_size b); reflexivity.
Qed.

Lemma image_padding e s i b : sfb_wf s -> ~ too_large s -> nth_error (fdes_of s) i = Some b ->
  u_at e (28 + 20 * Z.of_nat i + 18) 2 (image e s) = 0.
Proof.
  intros W T H. pose proof (image_loads rel64 e s wf_rel64 W T (image_rel64 e s W T)) as HL.
  apply load_ok in HL; [|apply wf_rel64|apply image_rel64; assumption].
  destruct HL as (HL & H28 & _). apply (f_equal sf_fdes) in HL.
  destruct (image_fields e s W T) as (_ & E2 & _ & _ & _ & _ & E7 & E8 & _ & _ & E20 & _).
  unfold loaded, built_sf in HL. cbn [sf_fdes] in HL. rewrite E2, E7, E8, E20 in HL.
  change (2 =? 1) with false in HL. cbv iota in HL. apply v2_inj in HL.
  pose proof (raws_nth _ 0 _ _ H) as Hn. rewrite HL in Hn.
  rewrite decode_entries_nth in Hn.
  2:{ assert (Hi : (i < length (fdes_of s))%nat) by (apply nth_error_Some; congruence). unfold zlen. lia. }
  apply some_inj in Hn. apply (f_equal f2_padding) in Hn.
  unfold fde2_decode, fde_raw in Hn. cbn [f2_padding] in Hn.
  rewrite rd_u_sub in Hn by (unfold FDE2_SIZE; lia). rewrite rd_u_skipn in Hn.
  rewrite u_at_rd. etransitivity; [|exact Hn]. unfold HEADER_SIZE, FDE2_SIZE.
  replace (Z.to_nat (28 + 20 * Z.of_nat i + 18)) with (28 + Z.to_nat 0 + Z.to_nat 0 + (i * 20 + 18))%nat by lia.
  reflexivity.
Qed.

Theorem trip_header md e s bs : sfb_reach md s -> build md e s = Ok bs ->
  zlen bs = 28 + 20 * zlen (fdes_of s) + fre_size s /\
  good_magic e bs /\ spec_version bs = 2 /\
  spec_flags bs = so_flags (sb_options s) /\ bits 0 1 (spec_flags bs) = 1 /\
  spec_abi bs = so_abi (sb_options s) /\
  spec_fixed_fp bs = opt_or_zero (so_fixed_fp (sb_options s)) /\
  spec_fixed_ra bs = opt_or_zero (so_fixed_ra (sb_options s)) /\
  spec_aux_len bs = 0 /\
  spec_num_fdes e bs = zlen (fdes_of s) /\ spec_num_fres e bs = row_count (fdes_of s) /\
  spec_fre_len e bs = fre_size s /\ spec_fdeoff e bs = 0 /\ spec_freoff e bs = 20 * zlen (fdes_of s).
Proof.
  intros H B. destruct (built md e s bs H B) as (W & -> & T & _).
  assert (HZ := image_zlen e s W).
  assert (H28 : 28 <= zlen (image e s)).
  { pose proof (zlen_nonneg (fdes_of s)). pose proof (sumz_nonneg (fdes_of s)). fold (fre_size s) in *. lia. }
  destruct (image_fields e s W T) as (E0 & E2 & E3 & E4 & E5 & E6 & E7 & E8 & E12 & E16 & E20 & E24).
  destruct (spec_fields e (image e s) ltac:(lia)) as (_ & F1 & F2).
  destruct (spec_fields2 e (image e s) H28) as (F3 & F4 & F5 & F6 & F7 & F8 & F9 & F10 & F11).
  rewrite F1, F2, F3, F4, F5, F6, F7, F8, F9, F10, F11.
  split; [exact HZ|]. split; [apply good_magic_rd, E0|]. split; [exact E2|]. split; [exact E3|].
  split; [rewrite E3; destruct (ow_flags _ (sw_opts _ W)) as [-> | ->]; reflexivity|].
  repeat (split; [assumption|]). assumption.
Qed.

Theorem trip_table md e s bs i b : sfb_reach md s -> build md e s = Ok bs -> nth_error (fdes_of s) i = Some b ->
  spec_entry e bs (Z.of_nat i) = descriptor (fdes_of s) i b /\
  u_at e (spec_entry_pos e bs (Z.of_nat i) + 18) 2 bs = 0 /\
  spec_rows_at e (start_width (rows_of b)) (slice (rows_off (fdes_of s) i) (fde_fre_size b) (spec_fre_bytes e bs))
    (map written (rows_of b)) [].
Proof.
  intros H B Hi. pose proof (trip_header md e s bs H B) as HH.
  destruct (built md e s bs H B) as (W & -> & T & _).
  destruct HH as (_ & _ & Hv & _ & _ & _ & _ & _ & Ha & _ & _ & _ & Hf & _).
  pose proof (image_loads rel64 e s wf_rel64 W T (image_rel64 e s W T)) as HL.
  destruct (all_fdes_spec rel64 e _ _ wf_rel64 (image_rel64 e s W T) HL) as [_ HE].
  destruct (built_entries e s W T) as [_ HB]. specialize (HB i b Hi). specialize (HE _ _ HB).
  destruct HE as (_ & HE & _). destruct (in_fdes_wf s i b W Hi) as [Wb _].
  split; [|split].
  - rewrite <- HE. unfold view_fde, descriptor, built_entry, built_fde.
    cbn [en_fde fde_start_address fde_size fde_start_fre_off fde_num_fres fde_info fde_rep_size].
    rewrite fde_raw_info, <- info_of_byte by exact Wb.
    cbn [fde_raw f2_start_address f2_size f2_start_fre_off f2_num_fres f2_rep_size]. rewrite rows_of_len.
    reflexivity.
  - rewrite <- (image_padding e s i b W T Hi). f_equal.
    unfold spec_entry_pos, spec_base, spec_entry_size, spec_header_size. rewrite Hv, Ha, Hf.
    change (2 =? 1) with false. cbv iota. lia.
  - destruct (load_accessors rel64 e _ _ wf_rel64 (image_rel64 e s W T) HL) as (_ & _ & _ & _ & _ & _ & _ & _ & Hfr).
    rewrite <- Hfr. unfold slice, built_sf. cbn [sf_fres].
    rewrite rows_enc_skip with (b := b); [|apply wf_fdes, W|exact Hi].
    rewrite firstn_app_exact.
    2:{ pose proof (fde_enc_zlen e b Wb) as Hz. unfold zlen in Hz. lia. }
    rewrite start_width_size by exact Wb.
    rewrite <- (app_nil_r (fde_enc e b)). unfold fde_enc. apply rows_enc_spec, starts_fit, Wb.
Qed.

Theorem trip_order md e s bs a b : sfb_reach md s -> build md e s = Ok bs -> neighbours (fdes_of s) a b ->
  fb_start a < fb_start b /\ fb_start a + fb_size a <= fb_start b.
Proof.
  intros H B Hn. destruct (built md e s bs H B) as (W & -> & T & Ho).
  pose proof (neighbours_lt _ _ _ (sw_sorted _ W) (sw_keyed _ W) Hn) as Hlt. split; [exact Hlt|].
  destruct (Z.le_gt_cases (fb_start a + fb_size a) (fb_start b)) as [Hle|Hgt]; [exact Hle|].
  exfalso. apply Ho. apply (overlapping_pairs s W). exists a, b. split; [exact Hn|lia].
Qed.

(** ** C36 *)

Theorem trip_descriptors md md' e s bs : sfb_reach md s -> build md e s = Ok bs ->
  wf_mode md' -> rust_slice md' bs ->
  exists sf, load md' e bs = Ok sf /\
    version sf = 2 /\ flags sf = so_flags (sb_options s) /\ abi sf = so_abi (sb_options s) /\
    fixed_fp_offset sf = so_fixed_fp (sb_options s) /\ fixed_ra_offset sf = so_fixed_ra (sb_options s) /\
    num_fdes sf = zlen (fdes_of s) /\ num_fres sf = row_count (fdes_of s) /\ raw_aux sf = [] /\
    Forall2 same_descriptor (fdes_of s) (all_fdes sf).
Proof.
  intros H B Hm Hs. destruct (built md e s bs H B) as (W & -> & T & _).
  exists (built_sf e s). split; [apply image_loads; assumption|].
  destruct (built_fixed e s W) as [-> ->].
  repeat (split; [reflexivity|]).
  destruct (built_entries e s W T) as [HL HE]. apply Forall2_nth; [exact HL|].
  intros i b Hi. exists (built_entry e s i b). split; [apply HE, Hi|]. apply built_same.
Qed.

(** ** C37, C39 *)

Lemma Forall2_impl_in {A B} (P Q : A -> B -> Prop) l l' :
  (forall a b, In a l -> P a b -> Q a b) -> Forall2 P l l' -> Forall2 Q l l'.
Proof.
  intros H HF. induction HF as [|a b t t' Hp _ IH]; constructor.
  - apply H; [left; reflexivity|exact Hp].
  - apply IH. intros a' b' Ha. apply H. right. exact Ha.
Qed.

Theorem trip_rows md md' e s bs sf : sfb_reach md s -> build md e s = Ok bs ->
  wf_mode md' -> rust_slice md' bs -> load md' e bs = Ok sf ->
  Forall2 (rows_result md' e (sb_options s) sf) (fdes_of s) (all_fdes sf).
Proof.
  intros H B Hm Hs HL. destruct (built md e s bs H B) as (W & -> & T & _).
  rewrite image_loads in HL by assumption. injection HL as <-.
  destruct (built_fixed e s W) as [F1 F2].
  destruct (built_entries e s W T) as [HL HE]. apply Forall2_nth; [exact HL|].
  intros i b Hi. exists (built_entry e s i b). split; [apply HE, Hi|].
  destruct (built_rows md' e s i b Hm W T Hi) as [R1 R2]. split; [|exact R2].
  intros Hin. destruct (R1 Hin) as (good & Eg & HF). exists good. split; [exact Eg|].
  destruct (in_fdes_wf s i b W Hi) as [Wb Ob]. pose proof (bw_rows _ Wb) as Wr. rewrite Forall_forall in Wr.
  eapply Forall2_impl_in; [|exact HF]. intros r fr Hr Hv. cbv beta. destruct (Wr r Hr) as [Ht _ Hn].
  split; [apply (f_equal sr_start) in Hv; exact Hv|]. split; [exact Hv|].
  rewrite <- (width_untied r Ht). rewrite <- Ob in *. apply row_meaning; assumption.
Qed.

(** Without [size] calls the rows stay inside the function. *)
Lemma row_inside b r : rows_inside b -> rows_inside (fst (fdb_row_st b r)).
Proof.
  unfold rows_inside. intros H. unfold fdb_row_st.
  destruct (0x10000000 <=? r_start r); [exact H|].
  destruct (match fb_rep_size b with Some rep => rep <=? r_start r | None => false end); [exact H|].
  destruct (Z.leb_spec (fb_size b) (r_start r)) as [Hs|Hs]; [exact H|].
  destruct (normalise_offsets (fb_options b) r) as [r'|er|] eqn:En; [|exact H|exact H].
  destruct (bt_get (r_start r') (fb_fres b)) eqn:Eg; [exact H|]. cbn [fst].
  assert (Es : r_start r' = r_start r).
  { unfold normalise_offsets in En. destruct (r_offsets r) as [o|]; [|congruence].
    destruct (check_fixed _ _ _); try discriminate. cbn [bind] in En.
    destruct (check_fixed _ _ _); try discriminate. cbn [bind] in En. injection En as <-. reflexivity. }
  unfold rows_of, fdb_set_fres. cbn [fb_fres fb_size]. rewrite Forall_forall in *. intros x Hx.
  apply in_map_iff in Hx. destruct Hx as ([k v] & <- & Hi). cbn [snd].
  apply in_insert in Hi. destruct Hi as [Hi|Hi].
  - injection Hi as _ <-. lia.
  - apply H. apply in_map_iff. exists (k, v). auto.
Qed.

Lemma fdb_sized_reach b : fdb_sized b -> fdb_reach b /\ rows_inside b.
Proof.
  induction 1 as [o st sz Ho Hs Hz|b _ [IH1 IH2]|rep b Hr _ [IH1 IH2]|a b Ha _ [IH1 IH2]|k b _ [IH1 IH2]|r b Ht _ [IH1 IH2]|b b' _ [IH1 IH2] Hm].
  - split; [constructor; assumption|constructor].
  - split; [constructor; assumption|exact IH2].
  - split; [constructor; assumption|exact IH2].
  - split; [constructor; assumption|exact IH2].
  - split; [constructor; assumption|exact IH2].
  - split; [constructor; assumption|apply row_inside, IH2].
  - split; [eapply br_merge; eassumption|].
    destruct (reach_merge_minimal b IH1) as (b2 & Hm2 & _ & Hin & _). rewrite Hm in Hm2. injection Hm2 as <-.
    destruct (reach_merge_rows b b' 0 (None, false, Fp) IH1 Hm) as (_ & _ & Hsz & _).
    unfold rows_inside in *. rewrite Hsz, Forall_forall in *. intros r Hr. apply IH2, Hin, Hr.
Qed.

Lemma fsquash_inside {E} md k cur t : forall r, @fsquash E md k cur t = Ok r -> 0 <= fb_size cur -> rows_inside cur ->
  Forall (fun b => 0 <= fb_size b /\ rows_inside b) (map snd t) -> Forall rows_inside (map snd r).
Proof.
  revert k cur. induction t as [|[k' n] t IH]; intros k cur r H Hz Hc Ht; cbn [fsquash] in H.
  - injection H as <-. repeat constructor. exact Hc.
  - cbn [map snd] in Ht. inversion Ht as [|? ? [Hn1 Hn2] Ht']; subst.
    destruct (should_merge md cur n) as [[|]|er|]; cbn [bind] in H; try discriminate.
    + eapply IH; [exact H| | |exact Ht'].
      * cbn [merged_fde fb_size]. lia.
      * unfold rows_inside in *. cbn [merged_fde fb_size]. change (rows_of (merged_fde cur n)) with (rows_of cur).
        eapply Forall_impl; [|exact Hc]. cbv beta. intros. lia.
    + apply bind_ok in H. destruct H as (r1 & H1 & H2). injection H2 as <-. cbn [map snd]. constructor; [exact Hc|].
      eapply IH; eassumption.
Qed.

Lemma sfb_sized_reach md s : sfb_sized md s -> sfb_reach md s /\ Forall rows_inside (fdes_of s).
Proof.
  induction 1 as [o Ho|s b s' _ [IH1 IH2] Hb Hf|s s' _ [IH1 IH2] Hm].
  - split; [constructor; exact Ho|constructor].
  - destruct (fdb_sized_reach b Hb) as [B1 B2]. split; [eapply sr_fde; eassumption|].
    unfold sfb_fde in Hf. destruct (options_eqb _ _); [|discriminate]. injection Hf as <-.
    unfold fdes_of. cbn [sb_fdes]. rewrite Forall_forall in *. intros x Hx.
    apply in_map_iff in Hx. destruct Hx as ([k v] & <- & Hi). cbn [snd].
    apply in_insert in Hi. destruct Hi as [Hi|Hi]; [injection Hi as _ ->; exact B2|].
    apply IH2. apply in_map_iff. exists (k, v). auto.
  - split; [eapply sr_merge; eassumption|]. pose proof (sfb_reach_wf _ _ IH1) as W.
    rewrite merge_fdes_eq in Hm by apply W. unfold fdes_of in *.
    apply bind_ok in Hm. destruct Hm as (r & H1 & H2). injection H2 as <-. cbn [sb_fdes].
    destruct (sb_fdes s) as [|[k c] t] eqn:Es; cbn [fsquashed] in H1.
    + injection H1 as <-. constructor.
    + 
      assert (Hz : Forall (fun b => 0 <= fb_size b) (map snd ((k, c) :: t))).
      { rewrite <- Es. eapply Forall_impl; [|apply wf_fdes, W]. intros b [_ _ [Hb _] _]. exact Hb. }
      cbn [map snd] in *. inversion Hz as [|? ? Hz1 Hz2]; subst. inversion IH2 as [|? ? I1 I2]; subst.
      eapply fsquash_inside; [exact H1|exact Hz1|exact I1|]. rewrite Forall_forall in *. auto.
Qed.

(** Exact condition for reading everything back. *)
Theorem trip_readable md md' e s bs sf : sfb_reach md s -> build md e s = Ok bs ->
  wf_mode md' -> rust_slice md' bs -> load md' e bs = Ok sf ->
  (Forall (reads_well md' e) (all_fdes sf) <-> Forall rows_inside (fdes_of s)) /\
  Forall (fun en => reads_well md' e en \/ all_fres md' e en = Panic) (all_fdes sf).
Proof.
  intros H B Hm Hs HL. pose proof (trip_rows md md' e s bs sf H B Hm Hs HL) as HF.
  induction HF as [|b en t t' [R1 R2] _ [IH1 IH2]]; [split; [split; constructor|constructor]|].
  assert (Hdec : rows_inside b \/ ~ rows_inside b).
  { destruct (rows_inside_dec b) as [Hi|Hi]; [left; exact Hi|right]. intros Hc. unfold rows_inside in Hc.
    apply Exists_exists in Hi. destruct Hi as (r & Hr & Hr2). rewrite Forall_forall in Hc. specialize (Hc r Hr). lia. }
  assert (Hen : reads_well md' e en <-> rows_inside b).
  { split.
    - intros (g & Eg). destruct Hdec as [Hd|Hd]; [exact Hd|]. rewrite (R2 Hd) in Eg. discriminate.
    - intros Hin. destruct (R1 Hin) as (g & Eg & _). exists g. exact Eg. }
  split.
  - rewrite !Forall_cons_iff, Hen, IH1. reflexivity.
  - constructor; [|exact IH2]. destruct Hdec as [Hd|Hd]; [left; apply Hen, Hd|right; apply R2, Hd].
Qed.

Theorem trip_readable_sized md md' e s bs : sfb_sized md s -> build md e s = Ok bs ->
  wf_mode md' -> rust_slice md' bs ->
  exists sf, load md' e bs = Ok sf /\ Forall (reads_well md' e) (all_fdes sf).
Proof.
  intros H B Hm Hs. destruct (sfb_sized_reach md s H) as [Hr Hi].
  destruct (trip_descriptors md md' e s bs Hr B Hm Hs) as (sf & HL & _). exists sf. split; [exact HL|].
  apply (trip_readable md md' e s bs sf Hr B Hm Hs HL). exact Hi.
Qed.

(** Rows round trip when nothing is tied or ambiguous. *)
Theorem trip_rows_good md md' e s bs : sfb_sized md s -> build md e s = Ok bs ->
  wf_mode md' -> rust_slice md' bs ->
  (forall b r, In b (fdes_of s) -> In r (rows_of b) -> ~ tied r /\ ~ ambiguous (sb_options s) r) ->
  exists sf, load md' e bs = Ok sf /\
    Forall2 (fun b en => exists good, all_fres md' e en = Ok (map inl good) /\
      Forall2 (fun r fr => fre_start_address_offset fr = r_start r /\ observed sf fr = intended (sb_options s) r)
        (rows_of b) good) (fdes_of s) (all_fdes sf).
Proof.
  intros H B Hm Hs Hgood. destruct (sfb_sized_reach md s H) as [Hr Hi].
  destruct (trip_descriptors md md' e s bs Hr B Hm Hs) as (sf & HL & _). exists sf. split; [exact HL|].
  pose proof (trip_rows md md' e s bs sf Hr B Hm Hs HL) as HF. rewrite Forall_forall in Hi.
  eapply Forall2_impl_in; [|exact HF]. intros b en Hb [R1 _].
  destruct (R1 (Hi b Hb)) as (good & Eg & HF2). exists good. split; [exact Eg|].
  eapply Forall2_impl_in; [|exact HF2]. intros r fr Hrr (S1 & _ & S3). split; [exact S1|].
  apply S3, Hgood with b; assumption.
Qed.

(** ** C45 *)

Lemma run_calls_last l o : Forall call_typed l -> opts_wf o ->
  let o' := fold_left run_call l o in
  opts_wf o' /\
  so_flags o' = 1 + (if last_of (fun c => match c with CallFramePointer v => Some v | _ => None end) (so_flags o =? 3) l then 2 else 0) /\
  so_abi o' = last_of (fun c => match c with CallAbi a => Some a | _ => None end) (so_abi o) l /\
  so_fixed_fp o' = zero_is_none (last_of (fun c => match c with CallFixedFp v => Some v | _ => None end) (so_fixed_fp o) l) /\
  so_fixed_ra o' = zero_is_none (last_of (fun c => match c with CallFixedRa v => Some v | _ => None end) (so_fixed_ra o) l).
Proof.
  intros Hl. revert o. induction Hl as [|c t Hc _ IH]; intros o W; cbn [fold_left last_of]; cbv zeta.
  - split; [exact W|]. destruct W as [F A P R]. repeat apply conj; try reflexivity.
    + destruct F as [-> | ->]; reflexivity.
    + destruct (so_fixed_fp o) as [z|]; [|reflexivity]. destruct P as [_ P]. cbn. unfold nonzero.
      destruct (Z.eqb_spec z 0); [contradiction|reflexivity].
    + destruct (so_fixed_ra o) as [z|]; [|reflexivity]. destruct R as [_ R]. cbn. unfold nonzero.
      destruct (Z.eqb_spec z 0); [contradiction|reflexivity].
  - assert (HZ : forall A (f : opt_call -> option A) d d', last_of f d t = last_of f d' t \/ True) by auto. clear HZ.
    assert (Hnz : forall v : option Z, opt_in in_i8 v ->
      zero_is_none (last_of (fun c => match c with CallFixedFp v => Some v | _ => None end) (non_zero v) t) =
      zero_is_none (last_of (fun c => match c with CallFixedFp v => Some v | _ => None end) v t)).
    { intros v _. clear IH W Hc. revert v. induction t as [|c' t IH]; intros v; cbn [last_of].
      - destruct v as [z|]; [|reflexivity]. cbn. unfold nonzero. destruct (z =? 0) eqn:E; cbn; [reflexivity|]. unfold nonzero. rewrite E. reflexivity.
      - destruct c'; try apply IH. reflexivity. }
    assert (Hnz' : forall v : option Z, opt_in in_i8 v ->
      zero_is_none (last_of (fun c => match c with CallFixedRa v => Some v | _ => None end) (non_zero v) t) =
      zero_is_none (last_of (fun c => match c with CallFixedRa v => Some v | _ => None end) v t)).
    { intros v _. clear IH W Hc Hnz. revert v. induction t as [|c' t IH]; intros v; cbn [last_of].
      - destruct v as [z|]; [|reflexivity]. cbn. unfold nonzero. destruct (z =? 0) eqn:E; cbn; [reflexivity|]. unfold nonzero. rewrite E. reflexivity.
      - destruct c'; try apply IH. reflexivity. }
    assert (W' : opts_wf (run_call o c)).
    { destruct W as [F A P R]. destruct c; cbn [run_call]; split;
        cbn [options_frame_pointer options_abi options_fixed_fp options_fixed_ra so_flags so_abi so_fixed_fp so_fixed_ra];
        try assumption; try (apply non_zero_wf; exact Hc).
      destruct v, F as [-> | ->]; vm_compute; auto. }
    specialize (IH _ W'). cbv zeta in IH. destruct IH as (I0 & I1 & I2 & I3 & I4).
    split; [exact I0|]. rewrite I1, I2, I3, I4. destruct W as [F A P R].
    destruct c; cbn [run_call options_frame_pointer options_abi options_fixed_fp options_fixed_ra so_flags so_abi so_fixed_fp so_fixed_ra];
      repeat apply conj; try reflexivity.
    + destruct v, F as [-> | ->]; reflexivity.
    + apply Hnz, Hc.
    + apply Hnz', Hc.
Qed.

Theorem trip_options md md' e s bs calls : sfb_reach md s -> build md e s = Ok bs ->
  wf_mode md' -> rust_slice md' bs -> Forall call_typed calls -> sb_options s = run_calls calls ->
  exists sf, load md' e bs = Ok sf /\
    flags sf = 1 + (if asked_frame_pointer calls then 2 else 0) /\
    abi sf = asked_abi calls /\
    fixed_fp_offset sf = zero_is_none (asked_fixed_fp calls) /\
    fixed_ra_offset sf = zero_is_none (asked_fixed_ra calls).
Proof.
  intros H B Hm Hs Hc Ho. destruct (trip_descriptors md md' e s bs H B Hm Hs) as (sf & HL & _ & H1 & H2 & H3 & H4 & _).
  exists sf. split; [exact HL|]. rewrite H1, H2, H3, H4, Ho.
  destruct (run_calls_last calls options_new Hc (opts_reach_wf _ or_new)) as (_ & R1 & R2 & R3 & R4).
  unfold run_calls. rewrite R1, R2, R3, R4. repeat apply conj; reflexivity.
Qed.
