(** What the writer of [Narrow.v] writes (C151). *)
From Verif Require Export Narrow SmallFacts.

(** Without the change it is [build]. *)
Lemma unsized_emit e l : forall st, emit_fdes_sized false e st l = emit_fdes e st l.
Proof.
  induction l as [|b t IH]; intros st; [reflexivity|]. cbn [emit_fdes_sized emit_fdes].
  change (emit_fde_sized false e st b) with (emit_fde e st b). destruct (emit_fde e st b); [apply IH|reflexivity..].
Qed.
Theorem unsized md e s : build_sized false md e s = build md e s.
Proof. unfold build_sized, build. destruct (has_overlap md (bt_values (sb_fdes s))) as [[|]| |]; cbn [bind]; rewrite ?unsized_emit; reflexivity. Qed.

Definition nsize (b : fdb) : addr_size := narrow_size (max_offset b).
Definition nfde_enc (e : endian) (b : fdb) : bytes := concat (map (row_enc e (addr_bytes (nsize b))) (rows_of b)).
Fixpoint nraws (off : Z) (l : list fdb) : list raw_fde2 :=
  match l with
  | [] => []
  | b :: t => fde_raw b (nsize b) off :: nraws (off + narrow_fre_size b) t
  end.
Definition ntable_enc (e : endian) (off : Z) (l : list fdb) : bytes := concat (map (fde2_bytes e) (nraws off l)).
Definition nrows_enc (e : endian) (l : list fdb) : bytes := concat (map (nfde_enc e) l).
Definition nfre_size (s : sfb) : Z := sumz (map narrow_fre_size (fdes_of s)).
Definition ntoo_large (s : sfb) : Prop := u32_max < nfre_size s \/ u32_max < 20 * zlen (fdes_of s).

Lemma nsize_width b : fdb_wf b -> narrow_width (rows_of b) = Z.of_nat (addr_bytes (nsize b)).
Proof.
  intros H. unfold narrow_width, nsize, narrow_size. unfold last_start. rewrite max_offset_max by exact H.
  destruct (_ <=? _); [reflexivity|]. destruct (_ <=? _); reflexivity.
Qed.
Lemma nfits b : fdb_wf b -> Forall (fits_start (addr_bytes (nsize b))) (rows_of b).
Proof. intros H. destruct (narrow_fits b H) as [HF _]. unfold nsize. rewrite <- (max_offset_max b H). exact HF. Qed.
Lemma naddr_type {E} b : fdb_wf b -> @addr_type_narrow E (max_offset b) = Ok (nsize b).
Proof.
  intros H. apply max_offset_range in H. unfold addr_type_narrow, nsize, narrow_size.
  replace (0 <=? max_offset b) with true by lia. cbn [andb].
  destruct (max_offset b <=? 0xFF); [reflexivity|]. destruct (max_offset b <=? 0xFFFF); [reflexivity|].
  replace (max_offset b <=? 0x7FFFFFFF) with true by lia. reflexivity.
Qed.
Lemma nfde_enc_zlen e b : fdb_wf b -> zlen (nfde_enc e b) = narrow_fre_size b.
Proof.
  intros H. unfold nfde_enc, narrow_fre_size. rewrite zlen_concat_map, nsize_width by exact H.
  f_equal. apply map_ext. intros r. apply row_enc_zlen.
Qed.
Lemma nwidth_pos l : 1 <= narrow_width l.
Proof. unfold narrow_width. destruct (_ <=? _); [lia|]. destruct (_ <=? _); lia. Qed.
Lemma nrows_le_size b : zlen (rows_of b) <= narrow_fre_size b.
Proof.
  unfold narrow_fre_size. pose proof (nwidth_pos (rows_of b)) as Hw. generalize dependent (narrow_width (rows_of b)).
  intros w Hw. induction (rows_of b) as [|r t IH]; cbn [map sumz fold_right]; [reflexivity|].
  rewrite zlen_cons. pose proof (row_size_min w r ltac:(lia)). unfold sumz in IH. lia.
Qed.
Lemma nsize_nonneg b : 0 <= narrow_fre_size b.
Proof. pose proof (nrows_le_size b). pose proof (zlen_nonneg (rows_of b)). lia. Qed.
Lemma nsum_nonneg l : 0 <= sumz (map narrow_fre_size l).
Proof. induction l as [|b t IH]; cbn [map sumz fold_right]; [lia|]. pose proof (nsize_nonneg b). unfold sumz in IH. lia. Qed.
Lemma nrow_count_le l : 0 <= row_count l <= sumz (map narrow_fre_size l).
Proof.
  unfold row_count. induction l as [|b t IH]; cbn [map sumz fold_right]; [lia|].
  pose proof (nrows_le_size b). pose proof (zlen_nonneg (rows_of b)). unfold sumz in IH. lia.
Qed.
Lemma nraws_length off l : length (nraws off l) = length l.
Proof. revert off. induction l as [|b t IH]; intros off; cbn; [reflexivity|]. rewrite IH. reflexivity. Qed.
Lemma ntable_zlen e off l : zlen (ntable_enc e off l) = 20 * zlen l.
Proof.
  unfold ntable_enc. rewrite zlen_concat_map.
  replace (map (fun a => zlen (fde2_bytes e a)) (nraws off l)) with (map (fun _ : raw_fde2 => 20) (nraws off l)).
  2:{ apply map_ext. intros r. unfold zlen. rewrite fde2_bytes_length. reflexivity. }
  assert (H : forall r : list raw_fde2, sumz (map (fun _ => 20) r) = 20 * zlen r).
  { induction r as [|x r IH]; [reflexivity|]. rewrite zlen_cons. cbn [map sumz fold_right]. unfold sumz in IH. lia. }
  rewrite H. unfold zlen. rewrite nraws_length. lia.
Qed.
Lemma nrows_zlen e l : Forall fdb_wf l -> zlen (nrows_enc e l) = sumz (map narrow_fre_size l).
Proof.
  intros H. unfold nrows_enc. rewrite zlen_concat_map. f_equal. apply map_ext_in. intros b Hb.
  apply nfde_enc_zlen. rewrite Forall_forall in H. apply H, Hb.
Qed.

Lemma nemit e l : Forall fdb_wf l -> forall st,
  let result := EmitState (es_table st ++ ntable_enc e (zlen (es_fres st)) l) (es_fres st ++ nrows_enc e l)
                          (es_count st + row_count l) in
  (zlen (es_fres st) + sumz (map narrow_fre_size l) <= u32_max -> emit_fdes_sized true e st l = Ok result) /\
  (u32_max < zlen (es_fres st) + sumz (map narrow_fre_size l) ->
   emit_fdes_sized true e st l = Ok result \/ emit_fdes_sized true e st l = Err SectionTooLarge).
Proof.
  induction 1 as [|b t Hb Ht IH]; intros st; cbv zeta.
  - unfold ntable_enc, nrows_enc, row_count. cbn [emit_fdes_sized nraws map concat sumz fold_right].
    rewrite !app_nil_r, !Z.add_0_r. destruct st. split; intros _; [|left]; reflexivity.
  - cbn [emit_fdes_sized]. unfold emit_fde_sized.
    pose proof (zlen_nonneg (es_fres st)) as H0. pose proof (nsize_nonneg b) as H1.
    pose proof (nsum_nonneg t) as H2. cbn [map sumz fold_right]. fold (sumz (map narrow_fre_size t)).
    unfold fits_u32.
    destruct (Z.leb_spec (zlen (es_fres st)) u32_max) as [Hf|Hf].
    2:{ replace (0 <=? zlen (es_fres st)) with true by lia. cbn [andb negb bind]. split; [intros; lia|auto]. }
    replace (0 <=? zlen (es_fres st)) with true by lia. cbn [andb negb].
    unfold addr_type_with. rewrite naddr_type by exact Hb. cbn [bind].
    pose proof (nrows_le_size b) as H3. rewrite rows_of_len. pose proof (zlen_nonneg (rows_of b)) as H4.
    replace (0 <=? zlen (rows_of b)) with true by lia. cbn [andb].
    destruct (Z.leb_spec (zlen (rows_of b)) u32_max) as [Hn|Hn]; cbn [negb bind].
    2:{ split; [intros; lia|auto]. }
    change (bt_values (fb_fres b)) with (rows_of b).
    rewrite rows_bytes_eq. cbn [bind]. fold (nfde_enc e b).
    match goal with |- context[emit_fdes_sized true e ?s t] => set (st' := s) end.
    specialize (IH st'). cbv zeta in IH.
    assert (Hz : zlen (es_fres st') = zlen (es_fres st) + narrow_fre_size b)
      by (unfold st'; cbn [es_fres]; rewrite zlen_app, nfde_enc_zlen by exact Hb; reflexivity).
    rewrite Hz in IH.
    assert (Hres : EmitState (es_table st' ++ ntable_enc e (zlen (es_fres st) + narrow_fre_size b) t)
                             (es_fres st' ++ nrows_enc e t) (es_count st' + row_count t) =
                   EmitState (es_table st ++ ntable_enc e (zlen (es_fres st)) (b :: t))
                             (es_fres st ++ nrows_enc e (b :: t)) (es_count st + row_count (b :: t))).
    { unfold st', ntable_enc, nrows_enc, row_count. cbn [es_table es_fres es_count nraws map concat sumz fold_right].
      rewrite <- !app_assoc. f_equal. unfold sumz. lia. }
    rewrite Hres in IH. destruct IH as [IH1 IH2]. split; intros H.
    + apply IH1. lia.
    + apply IH2. lia.
Qed.

Definition nheader (s : sfb) : header :=
  {| h_preamble := Preamble MAGIC VERSION_V2 (so_flags (sb_options s));
     h_abi_arch := so_abi (sb_options s);
     h_fixed_fp_offset := opt_or_zero (so_fixed_fp (sb_options s));
     h_fixed_ra_offset := opt_or_zero (so_fixed_ra (sb_options s));
     h_auxhdr_len := 0;
     h_num_fdes := zlen (fdes_of s);
     h_num_fres := row_count (fdes_of s);
     h_fre_len := nfre_size s;
     h_fdeoff := 0;
     h_freoff := 20 * zlen (fdes_of s) |}.
Definition nimage (e : endian) (s : sfb) : bytes :=
  header_bytes e (nheader s) ++ ntable_enc e 0 (fdes_of s) ++ nrows_enc e (fdes_of s).

Lemma nbuild_emit md e s : sfb_wf s -> has_overlap md (fdes_of s) = @Ok emit_error bool false ->
  (~ ntoo_large s -> build_narrow md e s = Ok (nimage e s)) /\
  (ntoo_large s -> build_narrow md e s = Err SectionTooLarge).
Proof.
  intros W Hov. unfold build_narrow, build_sized. change (bt_values (sb_fdes s)) with (fdes_of s). rewrite Hov. cbn [bind].
  pose proof (wf_fdes s W) as WF.
  destruct (nemit e (fdes_of s) WF (EmitState [] [] 0)) as [H1 H2].
  cbn [es_table es_fres es_count app] in H1, H2. change (zlen (@nil byte)) with 0 in *.
  rewrite Z.add_0_l in H1, H2. fold (nfre_size s) in H1, H2. rewrite Z.add_0_l in H1, H2.
  assert (Hlen : zlen (sb_fdes s) = zlen (fdes_of s)) by (unfold fdes_of; rewrite zlen_map; reflexivity).
  pose proof (nrow_count_le (fdes_of s)) as Hrc. fold (nfre_size s) in Hrc.
  pose proof (zlen_nonneg (fdes_of s)) as Hn.
  assert (Hfin : forall st, st = EmitState (ntable_enc e 0 (fdes_of s)) (nrows_enc e (fdes_of s)) (row_count (fdes_of s)) ->
    let r := (if negb (fits_u32 (es_count st)) then Err SectionTooLarge
      else if negb (fits_u32 (zlen (sb_fdes s))) then Err SectionTooLarge
      else if negb (fits_u32 (zlen (es_fres st))) then Err SectionTooLarge
      else if negb (fits_u32 (zlen (es_table st))) then Err SectionTooLarge
      else Ok (header_bytes e {| h_preamble := Preamble MAGIC VERSION_V2 (so_flags (sb_options s));
                  h_abi_arch := so_abi (sb_options s);
                  h_fixed_fp_offset := opt_or_zero (so_fixed_fp (sb_options s));
                  h_fixed_ra_offset := opt_or_zero (so_fixed_ra (sb_options s));
                  h_auxhdr_len := 0;
                  h_num_fdes := zlen (sb_fdes s);
                  h_num_fres := es_count st;
                  h_fre_len := zlen (es_fres st);
                  h_fdeoff := 0;
                  h_freoff := zlen (es_table st) |} ++ es_table st ++ es_fres st)) in
    (~ ntoo_large s -> r = Ok (nimage e s)) /\ (ntoo_large s -> r = Err SectionTooLarge)).
  { intros st ->. cbv zeta. cbn [es_table es_fres es_count].
    rewrite Hlen, ntable_zlen, nrows_zlen by exact WF. fold (nfre_size s).
    unfold ntoo_large, fits_u32.
    replace (0 <=? row_count (fdes_of s)) with true by lia. replace (0 <=? zlen (fdes_of s)) with true by lia.
    replace (0 <=? nfre_size s) with true by lia. replace (0 <=? 20 * zlen (fdes_of s)) with true by lia.
    cbn [andb].
    destruct (Z.leb_spec (row_count (fdes_of s)) u32_max); cbn [negb]; [|split; [lia|reflexivity]].
    destruct (Z.leb_spec (zlen (fdes_of s)) u32_max); cbn [negb]; [|split; [lia|reflexivity]].
    destruct (Z.leb_spec (nfre_size s) u32_max); cbn [negb]; [|split; [lia|reflexivity]].
    destruct (Z.leb_spec (20 * zlen (fdes_of s)) u32_max); cbn [negb]; [|split; [lia|reflexivity]].
    split; [reflexivity|lia]. }
  destruct (Z.le_gt_cases (nfre_size s) u32_max) as [Hle|Hgt].
  - rewrite (H1 Hle). cbn [bind]. apply (Hfin _ eq_refl).
  - destruct (H2 ltac:(lia)) as [-> | ->]; cbn [bind].
    + apply (Hfin _ eq_refl).
    + split; [unfold ntoo_large; lia|reflexivity].
Qed.

Lemma nbuild_cases md e s : sfb_wf s ->
  (build_narrow md e s = Panic /\ build md e s = Panic) \/
  (build_narrow md e s = Err OverlappingFdes /\ build md e s = Err OverlappingFdes) \/
  (ntoo_large s /\ build_narrow md e s = Err SectionTooLarge /\ build md e s = Err SectionTooLarge) \/
  (~ ntoo_large s /\ build_narrow md e s = Ok (nimage e s) /\
   (build md e s = Ok (image e s) \/ build md e s = Err SectionTooLarge)).
Proof.
  intros W. pose proof (has_overlap_cases (E := emit_error) md (fdes_of s) (wf_starts s W)) as H.
  destruct (@has_overlap emit_error md (fdes_of s)) as [[|]|er|] eqn:E.
  - right. left. unfold build_narrow, build_sized, build. change (bt_values (sb_fdes s)) with (fdes_of s). rewrite E. split; reflexivity.
  - right. right. destruct (nbuild_emit md e s W E) as [N1 N2]. destruct (build_emit md e s W E) as [B1 B2].
    assert (L : nfre_size s <= fre_size s).
    { unfold nfre_size, fre_size. clear. induction (fdes_of s) as [|b t IH]; cbn [map sumz fold_right]; [lia|].
      pose proof (excess_size b). pose proof (zlen_nonneg (rows_of b)).
      assert (0 <= excess (rows_of b)) by (unfold excess; destruct (_ && _); [lia|]; destruct (_ && _); lia). unfold sumz in IH. nia. }
    unfold ntoo_large, too_large in *.
    destruct (Z.le_gt_cases (nfre_size s) u32_max), (Z.le_gt_cases (20 * zlen (fdes_of s)) u32_max).
    + right. split; [lia|]. split; [apply N1; lia|]. destruct (Z.le_gt_cases (fre_size s) u32_max); [left; apply B1; lia|right; apply B2; lia].
    + left. split; [lia|]. split; [apply N2; lia|apply B2; lia].
    + left. split; [lia|]. split; [apply N2; lia|apply B2; lia].
    + left. split; [lia|]. split; [apply N2; lia|apply B2; lia].
  - contradiction.
  - left. unfold build_narrow, build_sized, build. change (bt_values (sb_fdes s)) with (fdes_of s). rewrite E. split; reflexivity.
Qed.

Lemma nimage_zlen e s : sfb_wf s -> zlen (nimage e s) = 28 + 20 * zlen (fdes_of s) + nfre_size s.
Proof.
  intros W. unfold nimage. rewrite !zlen_app, ntable_zlen, nrows_zlen by apply wf_fdes, W.
  unfold zlen at 1. rewrite header_bytes_length. fold (nfre_size s). change (Z.of_nat HEADER_SIZE) with 28. lia.
Qed.

(** ** Reading it *)

Lemma nheader_ok s : sfb_wf s -> ~ ntoo_large s -> header_ok (nheader s).
Proof.
  intros [[F A P R] _ _ _] T. unfold ntoo_large in T.
  pose proof (nrow_count_le (fdes_of s)) as Hrc. fold (nfre_size s) in Hrc. pose proof (zlen_nonneg (fdes_of s)).
  unfold header_ok, nheader, MAGIC, VERSION_V2, in_u8, in_u32 in *.
  cbn [h_preamble pre_magic pre_version pre_flags h_abi_arch h_fixed_fp_offset h_fixed_ra_offset h_auxhdr_len
       h_num_fdes h_num_fres h_fre_len h_fdeoff h_freoff].
  change (2 ^ 16) with 65536. unfold u32_max in *.
  repeat apply conj; try apply fixed_in_i8; try assumption; try lia.
Qed.

Definition ninfo_byte (b : fdb) : Z :=
  16 * pauth_u8 (fb_pauth b) + 8 * fde_type_u8 (fdb_fdetype b) + size_code (nsize b).
Lemma nraw_info b off : f2_info (fde_raw b (nsize b) off) = ninfo_byte b.
Proof. unfold fde_raw, ninfo_byte. cbn [f2_info]. destruct (fb_pauth b), (fdb_fdetype b), (nsize b); reflexivity. Qed.
Lemma ninfo_range b : in_u8 (ninfo_byte b).
Proof. unfold ninfo_byte, in_u8. destruct (fb_pauth b), (fdb_fdetype b), (nsize b); cbn; lia. Qed.

Lemma nraw_ok b off : fdb_wf b -> 0 <= off -> off + narrow_fre_size b <= u32_max -> fde2_ok (fde_raw b (nsize b) off).
Proof.
  intros [_ Hs Hz Hr _ _ _] H0 Hle. unfold fde2_ok. rewrite nraw_info.
  pose proof (nrows_le_size b). pose proof (zlen_nonneg (rows_of b)). pose proof (nsize_nonneg b).
  cbn [fde_raw f2_start_address f2_size f2_start_fre_off f2_num_fres f2_rep_size f2_padding].
  rewrite rows_of_len. unfold in_u32, u32_max in *.
  repeat apply conj; try apply Hs; try apply Hz; try lia; try apply ninfo_range.
  - destruct (fb_rep_size b); cbn in *; [apply Hr|lia].
  - destruct (fb_rep_size b); cbn in *; [apply Hr|lia].
Qed.
Lemma nraws_ok off l : Forall fdb_wf l -> 0 <= off -> off + sumz (map narrow_fre_size l) <= u32_max -> Forall fde2_ok (nraws off l).
Proof.
  intros H. revert off. induction H as [|b t Hb _ IH]; intros off H0 Hle; cbn [nraws]; constructor.
  - cbn [map sumz fold_right] in Hle. pose proof (nsum_nonneg t). apply nraw_ok; try assumption. unfold sumz in *. lia.
  - cbn [map sumz fold_right] in Hle. pose proof (nsize_nonneg b). apply IH; unfold sumz in *; lia.
Qed.

Definition nbuilt_sf (e : endian) (s : sfb) : sframe :=
  {| sf_preamble := Preamble MAGIC VERSION_V2 (so_flags (sb_options s));
     sf_abi_arch := so_abi (sb_options s);
     sf_fixed_fp := opt_or_zero (so_fixed_fp (sb_options s));
     sf_fixed_ra := opt_or_zero (so_fixed_ra (sb_options s));
     sf_num_fdes := zlen (fdes_of s);
     sf_num_fres := row_count (fdes_of s);
     sf_aux := [];
     sf_fdes := ListV2 (nraws 0 (fdes_of s));
     sf_fres := nrows_enc e (fdes_of s) |}.

Lemma nimage_fields e s : sfb_wf s -> ~ ntoo_large s ->
  let bs := nimage e s in
  rd_u e 0 2 bs = MAGIC /\ rd_u e 2 1 bs = 2 /\ rd_u e 3 1 bs = so_flags (sb_options s) /\
  rd_u e 4 1 bs = so_abi (sb_options s) /\ rd_s e 5 1 bs = opt_or_zero (so_fixed_fp (sb_options s)) /\
  rd_s e 6 1 bs = opt_or_zero (so_fixed_ra (sb_options s)) /\ rd_u e 7 1 bs = 0 /\
  rd_u e 8 4 bs = zlen (fdes_of s) /\ rd_u e 12 4 bs = row_count (fdes_of s) /\
  rd_u e 16 4 bs = nfre_size s /\ rd_u e 20 4 bs = 0 /\ rd_u e 24 4 bs = 20 * zlen (fdes_of s).
Proof.
  intros W T. cbv zeta.
  pose proof (header_decode e (nheader s) (ntable_enc e 0 (fdes_of s) ++ nrows_enc e (fdes_of s)) (nheader_ok s W T)) as H.
  fold (nimage e s) in H. unfold header_from_prefix in H.
  destruct (length (nimage e s) <? HEADER_SIZE)%nat; [discriminate|].
  unfold nheader in H. injection H as H1 H2 H3 H4 H5 H6 H7 H8 H9 H10 H11 H12.
  repeat apply conj; assumption.
Qed.

Lemma nimage_loads md e s : wf_mode md -> sfb_wf s -> ~ ntoo_large s -> rust_slice md (nimage e s) ->
  load md e (nimage e s) = Ok (nbuilt_sf e s).
Proof.
  intros Hmd W T Hsl.
  destruct (nimage_fields e s W T) as (E0 & E2 & E3 & E4 & E5 & E6 & E7 & E8 & E12 & E16 & E20 & E24).
  pose proof (nimage_zlen e s W) as HZ. pose proof (zlen_nonneg (fdes_of s)) as HN.
  assert (HF0 : 0 <= nfre_size s) by apply nsum_nonneg.
  assert (HL : exists sf, load md e (nimage e s) = Ok sf).
  { apply load_ok_iff; [exact Hmd|exact Hsl|].
    rewrite good_magic_rd, (good_version_rd e), layout_fits_fits by lia.
    split; [exact E0|]. split; [right; exact E2|].
    unfold fits. cbv zeta. rewrite E2, E7, E8, E16, E20, E24. change (2 =? 1) with false. cbv iota. lia. }
  destruct HL as (sf & HL). rewrite HL. f_equal. apply load_ok in HL; [|exact Hmd|exact Hsl].
  destruct HL as (-> & _). unfold loaded. rewrite E0, E2, E3, E4, E5, E6, E7, E8, E12, E16, E20, E24.
  change (2 =? 1) with false. cbv iota. unfold nbuilt_sf. change (Z.to_nat 0) with 0%nat. rewrite !Nat.add_0_r.
  f_equal.
  - f_equal. unfold nimage. rewrite skipn_app_exact by apply header_bytes_length.
    unfold ntable_enc. replace (Z.to_nat (zlen (fdes_of s))) with (length (nraws 0 (fdes_of s)))
      by (rewrite nraws_length; unfold zlen; lia).
    apply decode_entries_concat. assert (Hr := nraws_ok 0 (fdes_of s) (wf_fdes s W)).
    fold (nfre_size s) in Hr. unfold ntoo_large in T.
    eapply Forall_impl; [|apply Hr; lia]. intros r Hok. split; [apply fde2_bytes_length|apply fde2_decode_bytes, Hok].
  - unfold nimage. rewrite app_assoc, <- (app_nil_r (nrows_enc e (fdes_of s))) at 1.
    apply sub_bytes_mid.
    + rewrite app_length, header_bytes_length.
      pose proof (ntable_zlen e 0 (fdes_of s)) as Ht. unfold zlen in *. lia.
    + pose proof (nrows_zlen e (fdes_of s) (wf_fdes s W)) as Ht. fold (nfre_size s) in Ht. unfold zlen in *. lia.
Qed.

Definition nrows_off (l : list fdb) (i : nat) : Z := sumz (map narrow_fre_size (firstn i l)).
Definition nbuilt_fde (s : sfb) (i : nat) (b : fdb) : fde := FdeV2 (fde_raw b (nsize b) (nrows_off (fdes_of s) i)).
Definition nbuilt_entry (e : endian) (s : sfb) (i : nat) (b : fdb) : entry :=
  Entry (nbuilt_fde s i b) (nfde_enc e b ++ nrows_enc e (skipn (S i) (fdes_of s))).

Lemma nraws_nth off l i b : nth_error l i = Some b -> nth_error (nraws off l) i = Some (fde_raw b (nsize b) (off + nrows_off l i)).
Proof.
  revert off i. unfold nrows_off. induction l as [|x t IH]; intros off [|i] H; cbn in H; try discriminate; cbn [nraws nth_error firstn map].
  - injection H as ->. unfold sumz. cbn [map fold_right]. rewrite Z.add_0_r. reflexivity.
  - rewrite (IH _ _ H). unfold sumz. cbn [fold_right]. do 2 f_equal. lia.
Qed.
Lemma nrows_off_le l i b : nth_error l i = Some b -> 0 <= nrows_off l i /\ nrows_off l i + narrow_fre_size b <= sumz (map narrow_fre_size l).
Proof.
  intros H. unfold nrows_off. rewrite (nth_error_firstn_skipn l i b H) at 3.
  rewrite map_app, sumz_app. cbn [map]. change (sumz (narrow_fre_size b :: ?t)) with (narrow_fre_size b + sumz t).
  pose proof (nsum_nonneg (firstn i l)). pose proof (nsum_nonneg (skipn (S i) l)).
  unfold sumz in *. cbn [fold_right]. lia.
Qed.
Lemma nrows_skip e l i b : Forall fdb_wf l -> nth_error l i = Some b ->
  skipn (Z.to_nat (nrows_off l i)) (nrows_enc e l) = nfde_enc e b ++ nrows_enc e (skipn (S i) l).
Proof.
  intros W H. unfold nrows_off. rewrite (nth_error_firstn_skipn l i b H) at 2.
  unfold nrows_enc at 1. rewrite map_app, concat_app. fold (nrows_enc e (firstn i l)).
  rewrite skipn_app_exact.
  - reflexivity.
  - assert (Hw : Forall fdb_wf (firstn i l)) by (apply Forall_forall; intros x Hx; rewrite Forall_forall in W; apply W; rewrite <- (firstn_skipn i l); apply in_or_app; left; exact Hx).
    pose proof (nrows_zlen e (firstn i l) Hw) as Hz. unfold zlen in Hz. lia.
Qed.

Lemma nbuilt_entries e s : sfb_wf s ->
  length (all_fdes (nbuilt_sf e s)) = length (fdes_of s) /\
  forall i b, nth_error (fdes_of s) i = Some b -> nth_error (all_fdes (nbuilt_sf e s)) i = Some (nbuilt_entry e s i b).
Proof.
  intros W. rewrite all_fdes_map. unfold nbuilt_sf, fdes. cbn [sf_fdes sf_fres it_fdes]. split.
  - rewrite !map_length, nraws_length. reflexivity.
  - intros i b H. rewrite !nth_error_map, (nraws_nth _ _ _ _ H). cbn [option_map]. rewrite Z.add_0_l.
    unfold entry_of, nbuilt_entry, nbuilt_fde. f_equal. f_equal.
    cbn [fde_start_fre_off fde_raw f2_start_fre_off].
    unfold get_from. destruct (nrows_off_le _ _ _ H) as [H0 H1].
    rewrite nrows_zlen by apply wf_fdes, W. pose proof (nsize_nonneg b).
    replace (nrows_off (fdes_of s) i <=? sumz (map narrow_fre_size (fdes_of s))) with true by lia.
    apply nrows_skip; [apply wf_fdes, W|exact H].
Qed.

Lemma nbuilt_fde_ok s i b : sfb_wf s -> ~ ntoo_large s -> nth_error (fdes_of s) i = Some b -> fde_ok (nbuilt_fde s i b).
Proof.
  intros W T H. destruct (in_fdes_wf s i b W H) as [Wb _]. destruct (nrows_off_le _ _ _ H) as [H0 H1].
  assert (Hok : fde2_ok (fde_raw b (nsize b) (nrows_off (fdes_of s) i))).
  { apply nraw_ok; try assumption. unfold ntoo_large in T. fold (nfre_size s) in H1. lia. }
  destruct Hok as (K1 & K2 & K3 & K4 & K5 & _). exact (conj K1 (conj K2 (conj K3 (conj K4 K5)))).
Qed.
Lemma nbuilt_same e s i b : same_descriptor b (nbuilt_entry e s i b).
Proof.
  unfold same_descriptor, nbuilt_entry, nbuilt_fde, en_start_address, en_size, en_fdetype, en_rep_block_size, en_pauth_key.
  cbn [en_fde fde_start_address fde_size fde_fdetype fde_rep_size fde_info fde_num_fres
       fde_raw f2_start_address f2_size f2_info f2_rep_size f2_num_fres].
  rewrite rows_of_len. unfold pub_type, fdb_fdetype.
  repeat apply conj; try reflexivity; destruct (fb_rep_size b), (fb_pauth b), (nsize b); reflexivity.
Qed.
Lemma nbuilt_width s i b : width_of (fre_type_num (fde_info (nbuilt_fde s i b))) = Some (Z.of_nat (addr_bytes (nsize b))).
Proof.
  unfold nbuilt_fde. cbn [fde_info]. rewrite nraw_info. unfold ninfo_byte, fre_type_num.
  destruct (fb_pauth b), (fdb_fdetype b), (nsize b); reflexivity.
Qed.

Lemma nbuilt_rows md e s i b : wf_mode md -> sfb_wf s -> ~ ntoo_large s -> nth_error (fdes_of s) i = Some b -> rows_inside b ->
  exists good, all_fres md e (nbuilt_entry e s i b) = Ok (map inl good) /\
    Forall2 (fun r fr => view_fre fr = written r) (rows_of b) good.
Proof.
  intros Hmd W T H Hin. destruct (in_fdes_wf s i b W H) as [Wb _].
  pose proof (rows_enc_spec e (addr_bytes (nsize b)) (rows_of b) (nrows_enc e (skipn (S i) (fdes_of s))) (nfits b Wb)) as Hspec.
  fold (nfde_enc e b) in Hspec.
  assert (Hfu : (length (map written (rows_of b)) < fri_fuel (fres (nbuilt_entry e s i b)))%nat).
  { rewrite map_length. unfold fri_fuel, fres, nbuilt_entry. cbn [ri_fres en_fres]. rewrite app_length.
    pose proof (nrows_le_size b). rewrite <- (nfde_enc_zlen e b Wb) in *. unfold zlen in *. lia. }
  destruct (collect_rows md e (nbuilt_fde s i b) _ Hmd (nbuilt_fde_ok s i b W T H) (nbuilt_width s i b)
              _ _ _ (fri_fuel (fres (nbuilt_entry e s i b))) 0 Hspec) as [C1 _].
  { unfold nbuilt_fde. cbn [fde_num_fres fde_raw f2_num_fres]. rewrite rows_of_len, zlen_map. lia. }
  { exact Hfu. }
  unfold all_fres. unfold fres at 2. cbn [nbuilt_entry en_fde en_fres].
  destruct C1 as (good & E & Hv).
  - apply Forall_map. exact Hin.
  - exists good. split; [exact E|apply Forall2_written, Hv].
Qed.

(** ** The theorems *)

(** It refuses what [build] refuses, except sections that are too large only for [build]. *)
Theorem narrow_result md e s : sfb_reach md s ->
  (forall bs, build md e s = Ok bs -> exists bs', build_narrow md e s = Ok bs' /\ zlen bs' <= zlen bs) /\
  (build_narrow md e s = Panic <-> build md e s = Panic) /\
  (build_narrow md e s = Err OverlappingFdes <-> build md e s = Err OverlappingFdes) /\
  (build_narrow md e s = Err SectionTooLarge -> build md e s = Err SectionTooLarge).
Proof.
  intros H. apply sfb_reach_wf in H.
  assert (L : zlen (nimage e s) <= zlen (image e s)).
  { rewrite nimage_zlen, image_zlen by exact H. unfold nfre_size, fre_size.
    assert (sumz (map narrow_fre_size (fdes_of s)) <= sumz (map fde_fre_size (fdes_of s))); [|lia].
    clear. induction (fdes_of s) as [|b t IH]; cbn [map sumz fold_right]; [lia|].
    pose proof (excess_size b). pose proof (zlen_nonneg (rows_of b)).
    assert (0 <= excess (rows_of b)) by (unfold excess; destruct (_ && _); [lia|]; destruct (_ && _); lia). unfold sumz in IH. nia. }
  destruct (nbuild_cases md e s H) as [(N & B)|[(N & B)|[(_ & N & B)|(_ & N & [B|B])]]]; rewrite N, B;
    (split; [intros bs E; first [discriminate E | injection E as <-; eexists; split; [reflexivity|exact L]]|]);
    (split; [split; (reflexivity || discriminate)|]); (split; [split; (reflexivity || discriminate)|]);
    (reflexivity || discriminate).
Qed.

(** It is read like the section of [build], and every function's rows take the fewest bytes. *)
Theorem narrow_reads md md' e s bs : sfb_reach md s -> build_narrow md e s = Ok bs -> wf_mode md' -> rust_slice md' bs ->
  exists sf, load md' e bs = Ok sf /\
    flags sf = so_flags (sb_options s) /\ fixed_fp_offset sf = so_fixed_fp (sb_options s) /\ fixed_ra_offset sf = so_fixed_ra (sb_options s) /\
    length (all_fdes sf) = length (fdes_of s) /\
    (forall i b, nth_error (fdes_of s) i = Some b -> exists en, nth_error (all_fdes sf) i = Some en /\ same_descriptor b en /\
       (rows_inside b -> exists good, all_fres md' e en = Ok (map inl good) /\ Forall2 (fun r fr => view_fre fr = written r) (rows_of b) good)) /\
    exists sizes, Forall2 (fun b n => fewest n (map written (rows_of b))) (fdes_of s) sizes /\
      zlen bs = 28 + 20 * zlen (fdes_of s) + sumz sizes.
Proof.
  intros H B Hmd Hsl. pose proof (sfb_reach_wf _ _ H) as W.
  destruct (nbuild_cases md e s W) as [(N & _)|[(N & _)|[(_ & N & _)|(T & N & _)]]]; rewrite N in B; try discriminate B.
  injection B as <-. exists (nbuilt_sf e s). split; [apply nimage_loads; assumption|].
  split; [reflexivity|].
  split; [unfold fixed_fp_offset, nbuilt_sf; cbn [sf_fixed_fp]; apply fixed_back, W|].
  split; [unfold fixed_ra_offset, nbuilt_sf; cbn [sf_fixed_ra]; apply fixed_back, W|].
  destruct (nbuilt_entries e s W) as [E1 E2]. split; [exact E1|]. split.
  - intros i b Hi. exists (nbuilt_entry e s i b). split; [apply E2, Hi|]. split; [apply nbuilt_same|].
    intros Hin. apply nbuilt_rows; assumption.
  - exists (map narrow_fre_size (fdes_of s)). split; [|apply nimage_zlen, W].
    pose proof (wf_fdes s W) as WF. clear -WF. induction WF as [|b t Hb _ IH]; cbn [map]; constructor; [apply narrow_fewest, Hb|exact IH].
Qed.
