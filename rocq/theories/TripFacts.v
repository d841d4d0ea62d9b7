(** Reading back what [build] wrote (C06, C35-C39, C45). *)
From Verif Require Export EmitFacts.

(** ** Header and table of a built section *)

Lemma fixed_in_i8 o : fixed_wf o -> in_i8 (opt_or_zero o).
Proof. destruct o as [z|]; cbn; [tauto|]. unfold in_i8. lia. Qed.

Lemma built_header_ok s : sfb_wf s -> ~ too_large s -> header_ok (built_header s).
Proof.
  intros [[F A P R] _ _ _] T. unfold too_large in T.
  pose proof (row_count_le (fdes_of s)) as Hrc. fold (fre_size s) in Hrc. pose proof (zlen_nonneg (fdes_of s)).
  unfold header_ok, built_header, MAGIC, VERSION_V2, in_u8, in_u32 in *.
  cbn [h_preamble pre_magic pre_version pre_flags h_abi_arch h_fixed_fp_offset h_fixed_ra_offset h_auxhdr_len
       h_num_fdes h_num_fres h_fre_len h_fdeoff h_freoff].
  change (2 ^ 16) with 65536. unfold u32_max in *.
  repeat apply conj; try apply fixed_in_i8; try assumption; try lia.
Qed.

(** The info byte of a descriptor. *)
Definition fde_info_byte (b : fdb) : Z :=
  16 * pauth_u8 (fb_pauth b) + 8 * fde_type_u8 (fdb_fdetype b) + size_code (start_size b).

Lemma fde_raw_info b off : f2_info (fde_raw b (start_size b) off) = fde_info_byte b.
Proof.
  unfold fde_raw, fde_info_byte. cbn [f2_info].
  destruct (fb_pauth b), (fdb_fdetype b), (start_size b); reflexivity.
Qed.

Lemma fde_info_byte_range b : in_u8 (fde_info_byte b).
Proof.
  unfold fde_info_byte, in_u8. destruct (fb_pauth b), (fdb_fdetype b), (start_size b); cbn; lia.
Qed.

Lemma raw_ok b off : fdb_wf b -> 0 <= off -> off + fde_fre_size b <= u32_max ->
  fde2_ok (fde_raw b (start_size b) off).
Proof.
  intros [_ Hs Hz Hr _ _ _] H0 Hle. unfold fde2_ok. rewrite fde_raw_info.
  pose proof (rows_le_size b). pose proof (zlen_nonneg (rows_of b)). pose proof (fde_fre_size_nonneg b).
  cbn [fde_raw f2_start_address f2_size f2_start_fre_off f2_num_fres f2_rep_size f2_padding].
  rewrite rows_of_len. unfold in_u32, u32_max in *.
  repeat apply conj; try apply Hs; try apply Hz; try lia; try apply fde_info_byte_range.
  - destruct (fb_rep_size b); cbn in *; [apply Hr|lia].
  - destruct (fb_rep_size b); cbn in *; [apply Hr|lia].
Qed.

Lemma raws_ok off l : Forall fdb_wf l -> 0 <= off -> off + sumz (map fde_fre_size l) <= u32_max ->
  Forall fde2_ok (raws off l).
Proof.
  intros H. revert off. induction H as [|b t Hb _ IH]; intros off H0 Hle; cbn [raws]; constructor.
  - cbn [map sumz fold_right] in Hle. pose proof (sumz_nonneg t). apply raw_ok; try assumption.
    unfold sumz in *. lia.
  - cbn [map sumz fold_right] in Hle. pose proof (fde_fre_size_nonneg b). apply IH; unfold sumz in *; lia.
Qed.

(** ** Loading *)

Definition built_sf (e : endian) (s : sfb) : sframe :=
  {| sf_preamble := Preamble MAGIC VERSION_V2 (so_flags (sb_options s));
     sf_abi_arch := so_abi (sb_options s);
     sf_fixed_fp := opt_or_zero (so_fixed_fp (sb_options s));
     sf_fixed_ra := opt_or_zero (so_fixed_ra (sb_options s));
     sf_num_fdes := zlen (fdes_of s);
     sf_num_fres := row_count (fdes_of s);
     sf_aux := [];
     sf_fdes := ListV2 (raws 0 (fdes_of s));
     sf_fres := rows_enc e (fdes_of s) |}.

Lemma image_zlen e s : sfb_wf s -> zlen (image e s) = 28 + 20 * zlen (fdes_of s) + fre_size s.
Proof.
  intros W. unfold image. rewrite !zlen_app, table_enc_zlen, rows_enc_zlen by apply wf_fdes, W.
  unfold zlen at 1. rewrite header_bytes_length. fold (fre_size s). change (Z.of_nat HEADER_SIZE) with 28. lia.
Qed.

(** Every header field of the image. *)
Lemma image_fields e s : sfb_wf s -> ~ too_large s ->
  let bs := image e s in
  rd_u e 0 2 bs = MAGIC /\ rd_u e 2 1 bs = 2 /\ rd_u e 3 1 bs = so_flags (sb_options s) /\
  rd_u e 4 1 bs = so_abi (sb_options s) /\ rd_s e 5 1 bs = opt_or_zero (so_fixed_fp (sb_options s)) /\
  rd_s e 6 1 bs = opt_or_zero (so_fixed_ra (sb_options s)) /\ rd_u e 7 1 bs = 0 /\
  rd_u e 8 4 bs = zlen (fdes_of s) /\ rd_u e 12 4 bs = row_count (fdes_of s) /\
  rd_u e 16 4 bs = fre_size s /\ rd_u e 20 4 bs = 0 /\ rd_u e 24 4 bs = 20 * zlen (fdes_of s).
Proof.
  intros W T. cbv zeta.
  pose proof (header_decode e (built_header s) (table_enc e 0 (fdes_of s) ++ rows_enc e (fdes_of s))
                (built_header_ok s W T)) as H.
  fold (image e s) in H. unfold header_from_prefix in H.
  destruct (length (image e s) <? HEADER_SIZE)%nat; [discriminate|].
  unfold built_header in H. injection H as H1 H2 H3 H4 H5 H6 H7 H8 H9 H10 H11 H12.
  repeat apply conj; assumption.
Qed.

Lemma sub_bytes_mid (a b c : bytes) n m : length a = n -> length b = m -> sub_bytes n m (a ++ b ++ c) = b.
Proof. intros H1 H2. unfold sub_bytes. rewrite skipn_app_exact by exact H1. apply firstn_app_exact, H2. Qed.

Lemma image_loads md e s : wf_mode md -> sfb_wf s -> ~ too_large s -> rust_slice md (image e s) ->
  load md e (image e s) = Ok (built_sf e s).
Proof.
  intros Hmd W T Hsl.
  destruct (image_fields e s W T) as (E0 & E2 & E3 & E4 & E5 & E6 & E7 & E8 & E12 & E16 & E20 & E24).
  pose proof (image_zlen e s W) as HZ. pose proof (zlen_nonneg (fdes_of s)) as HN.
  assert (HF0 : 0 <= fre_size s) by (pose proof (row_count_le (fdes_of s)) as Hrc; fold (fre_size s) in Hrc; lia).
  assert (HL : exists sf, load md e (image e s) = Ok sf).
  { apply load_ok_iff; [exact Hmd|exact Hsl|].
    rewrite good_magic_rd, (good_version_rd e), layout_fits_fits by lia.
    split; [exact E0|]. split; [right; exact E2|].
    unfold fits. cbv zeta. rewrite E2, E7, E8, E16, E20, E24. change (2 =? 1) with false. cbv iota. lia. }
  destruct HL as (sf & HL). rewrite HL. f_equal. apply load_ok in HL; [|exact Hmd|exact Hsl].
  destruct HL as (-> & _). unfold loaded. rewrite E0, E2, E3, E4, E5, E6, E7, E8, E12, E16, E20, E24.
  change (2 =? 1) with false. cbv iota. unfold built_sf. change (Z.to_nat 0) with 0%nat. rewrite !Nat.add_0_r.
  f_equal.
  - f_equal. unfold image. rewrite skipn_app_exact by apply header_bytes_length.
    unfold table_enc. replace (Z.to_nat (zlen (fdes_of s))) with (length (raws 0 (fdes_of s)))
      by (rewrite raws_length; unfold zlen; lia).
    apply decode_entries_concat. assert (Hr := raws_ok 0 (fdes_of s) (wf_fdes s W)).
    fold (fre_size s) in Hr. unfold too_large in T.
    eapply Forall_impl; [|apply Hr; lia]. intros r Hok. split; [apply fde2_bytes_length|apply fde2_decode_bytes, Hok].
  - unfold image. rewrite app_assoc, <- (app_nil_r (rows_enc e (fdes_of s))) at 1.
    apply sub_bytes_mid.
    + rewrite app_length, header_bytes_length.
      pose proof (table_enc_zlen e 0 (fdes_of s)) as Ht. unfold zlen in *. lia.
    + pose proof (rows_enc_zlen e (fdes_of s) (wf_fdes s W)) as Ht. fold (fre_size s) in Ht. unfold zlen in *. lia.
Qed.

(** ** Truncation, C06 *)

Lemma prefix_rd_u e off n bs m : (off + n <= m)%nat -> (m <= length bs)%nat ->
  rd_u e off n (firstn m bs) = rd_u e off n bs.
Proof.
  intros H Hm. rewrite <- (firstn_skipn m bs) at 2. symmetry. apply rd_u_app. rewrite firstn_length. lia.
Qed.

Lemma truncated_rejected md e s m : wf_mode md -> sfb_wf s -> ~ too_large s -> rust_slice md (image e s) ->
  (m < length (image e s))%nat -> load md e (firstn m (image e s)) = Err UnexpectedEof.
Proof.
  intros Hmd W T Hsl Hm. set (p := firstn m (image e s)).
  assert (Hp : zlen p = Z.of_nat m) by (unfold p, zlen; rewrite firstn_length; lia).
  assert (Hpl : rust_slice md p) by (unfold rust_slice, zlen in *; lia).
  destruct (image_fields e s W T) as (E0 & E2 & E3 & E4 & E5 & E6 & E7 & E8 & E12 & E16 & E20 & E24).
  pose proof (image_zlen e s W) as HZ. pose proof (zlen_nonneg (fdes_of s)) as HN.
  assert (HR : forall off n, (off + n <= m)%nat -> rd_u e off n p = rd_u e off n (image e s))
    by (intros; apply prefix_rd_u; lia).
  assert (HNF : ~ fits e p).
  { unfold fits. cbv zeta. intros (H28 & _ & _ & H). assert ((28 <= m)%nat) by lia.
    rewrite !HR, E7, E16, E24 in H by lia. unfold zlen in *. lia. }
  pose proof (load_spec md e p Hmd Hpl) as HL.
  inversion HL as [A|A1 A2|A1 A2 A3 A4|A1 A2 A3 A4 A5|A1 A2 A3 A4 A5 A6 A7 A8 A9|A1 A2 A3 A4]; try reflexivity.
  - exfalso. rewrite HR in A2 by lia. contradiction.
  - exfalso. rewrite HR in A4 by lia. contradiction.
  - exfalso. rewrite !HR, E16, E24 in A9 by lia. unfold rust_slice in Hsl. rewrite A7 in Hsl.
    change (2 ^ (32 - 1)) with 2147483648 in Hsl. lia.
  - contradiction.
Qed.

(** ** Rows of a built section *)

Definition fits_start (aw : nat) (r : row) : Prop := 0 <= r_start r < 256 ^ Z.of_nat aw.

Lemma sint_enc e n v : (0 < n)%nat -> sint e (enc e n v) = as_s (8 * Z.of_nat n) v.
Proof.
  intros Hn. rewrite sint_dec.
  - rewrite enc_zlen. rewrite dec_enc. 
    replace (256 ^ Z.of_nat n) with (2 ^ (8 * Z.of_nat n)) by (rewrite Z.pow_mul_r by lia; reflexivity).
    apply as_s_mod. lia.
  - intros H. apply (f_equal (@length _)) in H. rewrite enc_length in H. cbn in H. lia.
Qed.

Lemma row_enc_spec e aw r rest : fits_start aw r ->
  spec_row_at e (Z.of_nat aw) (row_enc e aw r ++ rest) (written r) rest.
Proof.
  intros Hst. unfold row_enc.
  exists (enc e aw (r_start r)), (Zb (info_byte r)), (offset_width r),
    (map (enc e (addr_bytes (row_offset_type r))) (stored_values r)).
  pose proof (info_byte_range r) as Hi. pose proof (stored_count r) as Hc. pose proof (zlen_nonneg (stored_values r)) as Hc0.
  assert (Hb : bZ (Zb (info_byte r)) = info_byte r) by (rewrite bZ_Zb; apply Z.mod_small; unfold in_u8 in Hi; lia).
  rewrite Hb.
  assert (Bb : 0 <= base_reg_u8 (r_base r) <= 1) by (destruct (r_base r); cbn; lia).
  assert (Bs : 0 <= size_code (row_offset_type r) <= 2) by (destruct (row_offset_type r); cbn; lia).
  split; [rewrite enc_single; rewrite <- !app_assoc; reflexivity|].
  split; [apply enc_zlen|].
  split; [cbn [written sr_start]; rewrite uint_dec, dec_enc; symmetry; apply Z.mod_small, Hst|].
  unfold bits, info_byte. change (2 ^ 0) with 1. change (2 ^ 1) with 2. change (2 ^ 7) with 128.
  change (2 ^ 5) with 32. change (2 ^ 2) with 4. change (2 ^ 4) with 16.
  set (mg := if r_mangled r then 128 else 0). assert (Bm : mg = 0 \/ mg = 128) by (unfold mg; destruct (r_mangled r); auto).
  split. { cbn [written sr_base_is_sp]. rewrite Z.div_1_r.
    replace ((mg + 32 * size_code (row_offset_type r) + 2 * zlen (stored_values r) + base_reg_u8 (r_base r)) mod 2)
      with (base_reg_u8 (r_base r)) by lia. destruct (r_base r); reflexivity. }
  split. { cbn [written sr_mangled].
    replace ((mg + 32 * size_code (row_offset_type r) + 2 * zlen (stored_values r) + base_reg_u8 (r_base r)) / 128 mod 2)
      with (mg / 128) by lia. unfold mg. destruct (r_mangled r); reflexivity. }
  split. { replace ((mg + 32 * size_code (row_offset_type r) + 2 * zlen (stored_values r) + base_reg_u8 (r_base r)) / 32 mod 4)
      with (size_code (row_offset_type r)) by lia.
    rewrite offset_width_type. destruct (row_offset_type r); reflexivity. }
  split. { apply Forall_forall. intros c Hin. apply in_map_iff in Hin. destruct Hin as (v & <- & _).
    rewrite enc_zlen, offset_width_type. reflexivity. }
  rewrite zlen_map.
  split; [lia|]. split; [lia|].
  cbn [written sr_offsets]. rewrite map_map. apply map_ext. intros v. unfold wrap.
  rewrite offset_width_type. symmetry. apply sint_enc. destruct (row_offset_type r); cbn; lia.
Qed.

Lemma rows_enc_spec e aw l rest : Forall (fits_start aw) l ->
  spec_rows_at e (Z.of_nat aw) (concat (map (row_enc e aw) l) ++ rest) (map written l) rest.
Proof.
  induction 1 as [|r t Hr _ IH]; cbn [map concat spec_rows_at]; [reflexivity|].
  exists (concat (map (row_enc e aw) t) ++ rest). rewrite <- app_assoc. split; [|exact IH].
  apply row_enc_spec, Hr.
Qed.

Lemma starts_fit b : fdb_wf b -> Forall (fits_start (addr_bytes (start_size b))) (rows_of b).
Proof.
  intros H. pose proof (max_offset_max b H) as HM. pose proof (max_offset_range b H) as HR.
  destruct H as [_ _ _ _ _ _ W]. rewrite Forall_forall in *. intros r Hr. unfold fits_start.
  destruct (rw_typed _ _ (W r Hr)) as [[B _] _]. split; [exact B|].
  assert (Hle : r_start r <= max_offset b).
  { rewrite <- HM. clear -Hr. induction (rows_of b) as [|x t IH]; [contradiction|]. cbn.
    destruct Hr as [->|Hr]; [lia|]. specialize (IH Hr). lia. }
  unfold start_size. cbv zeta.
  destruct (Z.leb_spec (max_offset b) 0x7F); cbn; [lia|].
  destruct (Z.leb_spec (max_offset b) 0x7FFF); cbn; lia.
Qed.

(** Decoding a run of well-formed rows. *)
Lemma collect_rows md e f aw : wf_mode md -> fde_ok f -> width_of (fre_type_num (fde_info f)) = Some aw ->
  forall l bs rest fuel idx, spec_rows_at e aw bs l rest -> fde_num_fres f = idx + zlen l -> 
  (length l < fuel)%nat ->
  (Forall (fun r => sr_start r < fde_size f) l ->
     exists good, fri_collect fuel md e (FreIter f bs idx) = Ok (map inl good) /\ map view_fre good = l) /\
  (Exists (fun r => fde_size f <= sr_start r) l -> fri_collect fuel md e (FreIter f bs idx) = Panic).
Proof.
  intros Hmd Hf Haw. induction l as [|r t IH]; intros bs rest fuel idx H Hn Hfu;
    (destruct fuel as [|k]; [cbn in Hfu; lia|]); cbn [fri_collect]; unfold fri_next; cbn [ri_fde ri_fres ri_index].
  - rewrite zlen_nil in Hn. replace (fde_num_fres f <=? idx) with true by lia. split.
    + intros _. exists []. split; reflexivity.
    + intros HE. inversion HE.
  - cbn [spec_rows_at] in H. destruct H as (mid & H1 & H2).
    rewrite zlen_cons in Hn. pose proof (zlen_nonneg t).
    replace (fde_num_fres f <=? idx) with false by lia.
    destruct (row_decode_complete md e f bs aw r mid Hmd Hf Haw H1) as [D1 D2].
    cbn [length] in Hfu. destruct (IH mid rest k (idx + 1) H2 ltac:(lia) ltac:(lia)) as [I1 I2].
    split.
    + intros HF. inversion HF as [|? ? Hr Ht]; subst.
      destruct (D1 Hr) as (fr & -> & Hv & _). destruct (I1 Ht) as (good & -> & Hg).
      exists (fr :: good). split; [reflexivity|]. cbn [map]. rewrite Hv, Hg. reflexivity.
    + intros HE. destruct (Z.lt_ge_cases (sr_start r) (fde_size f)) as [Hr|Hr].
      * destruct (D1 Hr) as (fr & -> & _). inversion HE as [? ? Hc|? ? Ht]; subst; [lia|].
        rewrite (I2 Ht). reflexivity.
      * rewrite (D2 Hr). reflexivity.
Qed.
