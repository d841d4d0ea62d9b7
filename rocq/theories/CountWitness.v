(** Functions that share their rows (C152). *)
From Verif Require Import DumpFacts ToolsSpec WriteWitness SectionWitness.
From Verif Require Export CountFacts.

(** [k] functions of one byte each, and [k] rows of two bytes each: every function has all
    of them. *)
Definition crowd_rows (k : nat) : list row := repeat (row_invalid 0) k.
Definition crowd_fde (k i : nat) : raw_fde2 :=
  {| f2_start_address := Z.of_nat i; f2_size := 1; f2_start_fre_off := 0; f2_num_fres := Z.of_nat k;
     f2_info := 0; f2_rep_size := 0; f2_padding := 0 |}.
Definition crowd_header (k : nat) : header :=
  {| h_preamble := Preamble MAGIC VERSION_V2 1; h_abi_arch := 3; h_fixed_fp_offset := 0; h_fixed_ra_offset := -8;
     h_auxhdr_len := 0; h_num_fdes := Z.of_nat k; h_num_fres := Z.of_nat k; h_fre_len := 2 * Z.of_nat k;
     h_fdeoff := 0; h_freoff := 20 * Z.of_nat k |}.
Definition crowd_table (k : nat) : list raw_fde2 := map (crowd_fde k) (seq 0 k).
Definition crowd_fres (e : endian) (k : nat) : bytes := concat (map (row_enc e 1) (crowd_rows k)).
Definition crowd (e : endian) (k : nat) : bytes :=
  header_bytes e (crowd_header k) ++ concat (map (fde2_bytes e) (crowd_table k)) ++ crowd_fres e k.
Definition crowd_sf (e : endian) (k : nat) : sframe :=
  {| sf_preamble := Preamble MAGIC VERSION_V2 1; sf_abi_arch := 3; sf_fixed_fp := 0; sf_fixed_ra := -8;
     sf_num_fdes := Z.of_nat k; sf_num_fres := Z.of_nat k; sf_aux := []; sf_fdes := ListV2 (crowd_table k); sf_fres := crowd_fres e k |}.

Section crowd.
  Context (e : endian) (k : nat) (Hk : Z.of_nat k < 2 ^ 27).

  Lemma crowd_header_ok : header_ok (crowd_header k).
  Proof using Hk.
    change (2 ^ 27) with 134217728 in Hk.
    unfold header_ok, crowd_header, MAGIC, VERSION_V2, in_u8, in_u32, in_i8, u32_max.
    cbn [h_preamble pre_magic pre_version pre_flags h_abi_arch h_fixed_fp_offset h_fixed_ra_offset h_auxhdr_len
         h_num_fdes h_num_fres h_fre_len h_fdeoff h_freoff]. change (2 ^ 16) with 65536. repeat apply conj; lia.
  Qed.
  Lemma crowd_fres_zlen : zlen (crowd_fres e k) = 2 * Z.of_nat k.
  Proof using.
    clear Hk. unfold crowd_fres. rewrite zlen_concat_map. unfold crowd_rows.
    induction k as [|n IH]; [reflexivity|]. cbn [repeat map sumz fold_right]. unfold sumz in IH. rewrite IH, row_enc_zlen.
    change (row_size (Z.of_nat 1) (row_invalid 0)) with 2. lia.
  Qed.
  Lemma crowd_table_zlen : zlen (concat (map (fde2_bytes e) (crowd_table k))) = 20 * Z.of_nat k.
  Proof using.
    clear Hk. unfold crowd_table. rewrite zlen_concat_map, map_map.
    assert (H : forall l : list nat, sumz (map (fun x => zlen (fde2_bytes e (crowd_fde k x))) l) = 20 * zlen l).
    { induction l as [|x l IH]; [reflexivity|]. rewrite zlen_cons. cbn [map sumz fold_right]. unfold sumz in IH. rewrite IH.
      unfold zlen at 1. rewrite fde2_bytes_length. unfold FDE2_SIZE. lia. }
    rewrite H. unfold zlen. rewrite seq_length. reflexivity.
  Qed.
  Lemma crowd_zlen : zlen (crowd e k) = 28 + 22 * Z.of_nat k.
  Proof using.
    unfold crowd. rewrite !zlen_app, crowd_fres_zlen, crowd_table_zlen. unfold zlen. rewrite header_bytes_length. unfold HEADER_SIZE. lia.
  Qed.
  Lemma crowd_slice : rust_slice rel64 (crowd e k).
  Proof using Hk. unfold rust_slice. rewrite crowd_zlen. change (2 ^ 27) with 134217728 in Hk.
    change (2 ^ (usize_bits rel64 - 1)) with 9223372036854775808. lia. Qed.

  Lemma crowd_fields :
    let bs := crowd e k in
    rd_u e 0 2 bs = MAGIC /\ rd_u e 2 1 bs = 2 /\ rd_u e 3 1 bs = 1 /\ rd_u e 4 1 bs = 3 /\ rd_s e 5 1 bs = 0 /\
    rd_s e 6 1 bs = -8 /\ rd_u e 7 1 bs = 0 /\ rd_u e 8 4 bs = Z.of_nat k /\ rd_u e 12 4 bs = Z.of_nat k /\
    rd_u e 16 4 bs = 2 * Z.of_nat k /\ rd_u e 20 4 bs = 0 /\ rd_u e 24 4 bs = 20 * Z.of_nat k.
  Proof using Hk.
    cbv zeta. pose proof (header_decode e (crowd_header k) (concat (map (fde2_bytes e) (crowd_table k)) ++ crowd_fres e k) crowd_header_ok) as H.
    fold (crowd e k) in H. unfold header_from_prefix in H.
    destruct (length (crowd e k) <? HEADER_SIZE)%nat; [discriminate|].
    unfold crowd_header in H. injection H as H1 H2 H3 H4 H5 H6 H7 H8 H9 H10 H11 H12. repeat apply conj; assumption.
  Qed.

  Lemma crowd_loads md : wf_mode md -> rust_slice md (crowd e k) -> load md e (crowd e k) = Ok (crowd_sf e k).
  Proof using Hk.
    intros Hmd Hsl. destruct crowd_fields as (E0 & E2 & E3 & E4 & E5 & E6 & E7 & E8 & E12 & E16 & E20 & E24).
    pose proof crowd_zlen as HZ.
    assert (HL : exists sf, load md e (crowd e k) = Ok sf).
    { apply load_ok_iff; [exact Hmd|exact Hsl|]. rewrite good_magic_rd, (good_version_rd e), layout_fits_fits by lia.
      split; [exact E0|]. split; [right; exact E2|].
      unfold fits. cbv zeta. rewrite E2, E7, E8, E16, E20, E24. change (2 =? 1) with false. cbv iota. lia. }
    destruct HL as (sf & HL). rewrite HL. f_equal. apply load_ok in HL; [|exact Hmd|exact Hsl].
    destruct HL as (-> & _). unfold loaded. rewrite E0, E2, E3, E4, E5, E6, E7, E8, E12, E16, E20, E24.
    change (2 =? 1) with false. cbv iota. unfold crowd_sf. change (Z.to_nat 0) with 0%nat. rewrite !Nat.add_0_r.
    f_equal.
    - f_equal. unfold crowd. rewrite skipn_app_exact by apply header_bytes_length.
      replace (Z.to_nat (Z.of_nat k)) with (length (crowd_table k)) by (unfold crowd_table; rewrite map_length, seq_length; lia).
      apply decode_entries_concat. unfold crowd_table. apply Forall_map, Forall_forall. intros i Hi. apply in_seq in Hi.
      split; [apply fde2_bytes_length|apply fde2_decode_bytes].
      change (2 ^ 27) with 134217728 in Hk. unfold fde2_ok, crowd_fde, in_i32, in_u32, in_u8, i32_min, i32_max, u32_max.
      cbn [f2_start_address f2_size f2_start_fre_off f2_num_fres f2_info f2_rep_size f2_padding]. repeat apply conj; lia.
    - unfold crowd. rewrite app_assoc, <- (app_nil_r (crowd_fres e k)) at 1. apply sub_bytes_mid.
      + rewrite app_length, header_bytes_length. pose proof crowd_table_zlen as Ht. unfold zlen in *. lia.
      + pose proof crowd_fres_zlen as Ht. unfold zlen in *. lia.
  Qed.

  Definition crowd_entry (i : nat) : entry := Entry (FdeV2 (crowd_fde k i)) (crowd_fres e k).
  Lemma crowd_entries : all_fdes (crowd_sf e k) = map crowd_entry (seq 0 k).
  Proof using.
    rewrite all_fdes_map. unfold fdes, crowd_sf. cbn [sf_fdes it_fdes sf_fres]. unfold crowd_table. rewrite !map_map.
    apply map_ext. intros i. unfold entry_of, crowd_entry. f_equal. cbn [fde_start_fre_off crowd_fde f2_start_fre_off].
    unfold get_from. pose proof (zlen_nonneg (crowd_fres e k)). replace (0 <=? zlen (crowd_fres e k)) with true by lia. reflexivity.
  Qed.

  Lemma crowd_all_fres md i : wf_mode md -> (i < k)%nat ->
    exists good, all_fres md e (crowd_entry i) = Ok (map inl good) /\ map view_fre good = map written (crowd_rows k) /\
      zlen good = Z.of_nat k /\ Forall (fun fr => fr_fde fr = FdeV2 (crowd_fde k i) /\ fr_start fr = 0) good.
  Proof using Hk.
    intros Hmd Hi. change (2 ^ 27) with 134217728 in Hk.
    assert (Hok : fde_ok (FdeV2 (crowd_fde k i))).
    { unfold fde_ok, in_i32, in_u32, in_u8, i32_min, i32_max, u32_max.
      cbn [fde_start_address fde_size fde_start_fre_off fde_num_fres fde_info crowd_fde f2_start_address f2_size f2_start_fre_off f2_num_fres f2_info]. lia. }
    assert (HFS : Forall (fits_start 1) (crowd_rows k)).
    { apply Forall_forall. intros r Hr. apply repeat_spec in Hr. subst r. unfold fits_start. cbn. lia. }
    pose proof (rows_enc_spec e 1 (crowd_rows k) [] HFS) as Hspec. rewrite app_nil_r in Hspec. fold (crowd_fres e k) in Hspec.
    assert (HL : zlen (map written (crowd_rows k)) = Z.of_nat k) by (rewrite zlen_map; unfold zlen, crowd_rows; rewrite repeat_length; reflexivity).
    assert (Hfu : (length (map written (crowd_rows k)) < fri_fuel (fres (crowd_entry i)))%nat).
    { unfold fri_fuel, fres, crowd_entry. cbn [ri_fres en_fres]. pose proof crowd_fres_zlen. unfold zlen in *. lia. }
    destruct (collect_rows md e (FdeV2 (crowd_fde k i)) 1 Hmd Hok eq_refl _ _ _ _ 0 Hspec ltac:(cbn [fde_num_fres crowd_fde f2_num_fres]; lia) Hfu) as [C _].
    destruct C as (good & E & Hv).
    { apply Forall_map, Forall_forall. intros r Hr. apply repeat_spec in Hr. subst r. cbn. lia. }
    exists good. split; [exact E|]. split; [exact Hv|].
    assert (HG : zlen good = Z.of_nat k) by (rewrite <- HL, <- Hv, zlen_map; reflexivity). split; [exact HG|].
    destruct (fri_collect_shape md e _ (FreIter (FdeV2 (crowd_fde k i)) (crowd_fres e k) 0) _ Hmd Hok E) as (good' & bad & aw & rest & E1 & E2 & E3 & _).
    assert (EG : good' = good /\ bad = []).
    { destruct bad as [|b [|]]; cbn in E2; try lia.
      - cbn [map] in E1. rewrite app_nil_r in E1. apply map_inl_inj in E1. auto.
      - exfalso. assert (Hin : In (inr b) (map inl good' ++ map (@inr fre read_error) [b])) by (apply in_or_app; right; left; reflexivity).
        rewrite <- E1 in Hin. apply in_map_iff in Hin. destruct Hin as (x & Hx & _). discriminate Hx. }
    destruct EG as [-> _]. apply Forall_forall. intros fr Hin. rewrite Forall_forall in E3. split; [apply E3, Hin|].
    assert (Hin' : In (view_fre fr) (map view_fre good)) by (apply in_map, Hin). rewrite Hv in Hin'.
    apply in_map_iff in Hin'. destruct Hin' as (r & Hr & Hin2). apply repeat_spec in Hin2. subst r.
    apply (f_equal sr_start) in Hr. symmetry. exact Hr.
  Qed.
End crowd.

(** Reading to the end hands out all rows. *)
Lemma collect_handed md e : forall fuel it l, fri_collect fuel md e it = Ok l ->
  exists n os it', fri_calls n md e it = Ok (os, it') /\ (forall good, l = map inl good -> rows_among os = zlen good).
Proof.
  induction fuel as [|fuel IH]; intros it l H; cbn [fri_collect] in H; [discriminate|].
  destruct (fri_next md e it) as [[[x|] it1]|[]|] eqn:EN; [| |discriminate].
  - destruct (fri_collect fuel md e it1) as [l1|er|] eqn:EC; try discriminate. apply ok_inj in H. subst l.
    destruct (IH _ _ EC) as (n & os & it2 & H1 & H2). exists (S n), (Some x :: os), it2. split.
    + cbn [fri_calls]. rewrite EN. cbn [bind fst snd]. rewrite H1. reflexivity.
    + intros [|g good] E; [discriminate|]. cbn [map] in E. injection E as -> E. specialize (H2 good E).
      unfold rows_among in *. cbn [filter]. rewrite !zlen_cons. lia.
  - apply ok_inj in H. subst l. exists 0%nat, [], it. split; [reflexivity|]. intros [|] E; [reflexivity|discriminate].
Qed.

(** [28 + 22 * k] bytes whose header counts [k] rows hand out [k * k]. *)
Theorem crowd_handed md e k : Z.of_nat k < 2 ^ 27 -> wf_mode md -> rust_slice md (crowd e k) ->
  zlen (crowd e k) = 28 + 22 * Z.of_nat k /\
  exists sf, load md e (crowd e k) = Ok sf /\ num_fdes sf = Z.of_nat k /\ num_fres sf = Z.of_nat k /\
    zlen (spec_fre_bytes e (crowd e k)) = 2 * Z.of_nat k /\ handed_all md e sf (Z.of_nat k * Z.of_nat k).
Proof.
  intros Hk Hm Hs. split; [apply crowd_zlen|]. exists (crowd_sf e k). pose proof (crowd_loads e k Hk md Hm Hs) as HL.
  split; [exact HL|]. split; [reflexivity|]. split; [reflexivity|].
  destruct (load_accessors _ _ _ _ Hm Hs HL) as (_ & _ & _ & _ & _ & _ & _ & _ & <-). split; [apply crowd_fres_zlen|].
  exists (repeat (Z.of_nat k) k). rewrite crowd_entries. split.
  - assert (HF : forall a n, (a + n <= k)%nat -> Forall2 (handed md e) (map (crowd_entry e k) (seq a n)) (repeat (Z.of_nat k) n)).
    { intros a n. revert a. induction n as [|n IH]; intros a Ha; cbn [seq map repeat]; constructor; [|apply IH; lia].
      destruct (crowd_all_fres e k Hk md a Hm ltac:(lia)) as (good & E & _ & HG & _). unfold all_fres in E.
      destruct (collect_handed md e _ _ _ E) as (m & os & it & H1 & H2).
      exists m, os, it. split; [exact H1|]. rewrite (H2 good eq_refl). exact HG. }
    apply (HF 0%nat k). lia.
  - assert (HS : forall n z, fold_right Z.add 0 (repeat z n) = Z.of_nat n * z).
    { induction n as [|n IH]; intros z; [reflexivity|]. cbn [repeat fold_right]. rewrite IH. lia. }
    rewrite HS. reflexivity.
Qed.

(** ** Lines of the dump *)

Lemma row_lines_length md sf good rows : Forall2 (row_line md sf) good rows -> zlen rows = zlen good.
Proof. induction 1; [reflexivity|]. rewrite !zlen_cons. congruence. Qed.

Lemma func_lines_bound md e sf idx en l : wf_mode md -> fde_ok (en_fde en) -> func_lines md e sf idx en l ->
  2 * zlen l <= 8 + zlen (en_fres en).
Proof.
  intros Hm Hok (good & er & rows & H1 & H2 & ->). rewrite !zlen_cons, !zlen_app, (row_lines_length _ _ _ _ H2).
  unfold fre_results in H1. unfold all_fres in H1.
  destruct (fri_collect_shape md e _ (fres en) _ Hm Hok H1) as (g & bad & aw & rest & E1 & E2 & _ & _ & _ & E3 & _).
  assert (HG : zlen good <= zlen g).
  { apply (f_equal (fun l => zlen (filter (fun x : fre_item => match x with inl _ => true | inr _ => false end) l))) in E1.
    rewrite !filter_app, !zlen_app in E1.
    assert (HI : forall l, filter (fun x : fre_item => match x with inl _ => true | inr _ => false end) (map inl l) = map inl l)
      by (induction l as [|y l IH]; cbn; [reflexivity|f_equal; exact IH]).
    assert (HE : forall l, filter (fun x : fre_item => match x with inl _ => true | inr _ => false end) (map inr l) = [])
      by (induction l as [|y l IH]; cbn; [reflexivity|exact IH]).
    rewrite !HI, HE, !zlen_map in E1. destruct er; cbn [filter] in E1; change (zlen []) with 0 in E1; lia. }
  cbn [fres ri_fres] in E3. pose proof (zlen_nonneg rest).
  assert (HE : zlen (match er with Some x => [LineErr x] | None => [] end) <= 1) by (destruct er; unfold zlen; cbn; lia).
  change (zlen [LineBlank]) with 1. lia.
Qed.

(** The dump of a section has at most so many lines. *)
Theorem dump_bound md e bs sf out : wf_mode md -> rust_slice md bs -> load md e bs = Ok sf -> dump md e sf = Ok out ->
  2 * zlen out <= 6 + num_fdes sf * (8 + zlen (spec_fre_bytes e bs)).
Proof.
  intros Hm Hs HL HD. destruct (dump_exact md e bs sf Hm Hs HL) as [_ H]. destruct H as (o & E & HA); [rewrite HD; discriminate|].
  rewrite HD in E. apply ok_inj in E. subst out. rewrite !zlen_cons.
  destruct (table_and_rows md e bs sf Hm Hs HL) as (<- & _).
  destruct (load_accessors _ _ _ _ Hm Hs HL) as (_ & _ & _ & _ & _ & _ & _ & _ & <-).
  assert (2 * zlen o <= zlen (all_fdes sf) * (8 + zlen (sf_fres sf))); [|lia].
  pose proof (entry_ok md e bs sf Hm Hs HL) as Hok. pose proof (entry_bytes sf) as HB. clear HD Hs HL. revert HA. generalize 0 as idx. revert o.
  induction (all_fdes sf) as [|en t IH]; intros o idx HA; cbn [all_func_lines] in HA.
  - subst o. change (zlen []) with 0. change (@zlen entry []) with 0. lia.
  - destruct HA as (l1 & l2 & -> & H1 & H2). rewrite zlen_app, zlen_cons.
    specialize (IH (fun x Hx => Hok x (or_intror Hx)) (fun x Hx => HB x (or_intror Hx)) l2 (idx + 1) H2).
    pose proof (func_lines_bound md e sf idx en l1 Hm (Hok en (or_introl eq_refl)) H1). specialize (HB en (or_introl eq_refl)). lia.
Qed.

(** The dump of the crowd has a line for each row of each function. *)
Theorem crowd_dump md e k : Z.of_nat k < 2 ^ 27 -> wf_mode md -> rust_slice md (crowd e k) ->
  exists sf out, load md e (crowd e k) = Ok sf /\ dump md e sf = Ok out /\ zlen out = 3 + Z.of_nat k * (Z.of_nat k + 3).
Proof.
  intros Hk Hm Hs. pose proof (crowd_loads e k Hk md Hm Hs) as HL. exists (crowd_sf e k).
  destruct (dump_exact md e _ _ Hm Hs HL) as [[HP _] H]. rewrite crowd_entries in HP, H.
  assert (NP : dump md e (crowd_sf e k) <> Panic).
  { intros X. destruct (HP X) as (en & Hin & HX). apply in_map_iff in Hin. destruct Hin as (i & <- & Hi). apply in_seq in Hi.
    destruct (crowd_all_fres e k Hk md i Hm ltac:(lia)) as (good & E & _ & HG & HF). destruct HX as [HX|(g & er & fr & HR & Hin & HX)].
    - rewrite E in HX. discriminate HX.
    - unfold fre_results in HR. rewrite E in HR. apply ok_inj in HR.
      assert (Hfr : In fr good).
      { assert (Hx : In (@inl fre read_error fr) (map inl good)) by (rewrite HR; apply in_or_app; left; apply in_map, Hin).
        apply in_map_iff in Hx. destruct Hx as (y & Hy & Hy2). injection Hy as ->. exact Hy2. }
      rewrite Forall_forall in HF. destruct (HF fr Hfr) as [F1 F2]. unfold fre_start_address in HX. rewrite F1, F2 in HX.
      cbn [fde_start_address crowd_fde f2_start_address] in HX. change (2 ^ 27) with 134217728 in Hk.
      replace (in_i32b (Z.of_nat i + 0)) with true in HX by (unfold in_i32b, i32_min, i32_max; lia).
      destruct (debug_asserts md); discriminate HX. }
  destruct (H NP) as (o & E & HA). eexists. split; [exact HL|]. split; [exact E|]. rewrite !zlen_cons.
  assert (HN : forall n a idx o, (a + n <= k)%nat -> all_func_lines md e (crowd_sf e k) idx (map (crowd_entry e k) (seq a n)) o ->
    zlen o = Z.of_nat n * (Z.of_nat k + 3)).
  { induction n as [|n IH]; intros a idx o0 Ha H0; cbn [seq map all_func_lines] in H0; [subst o0; reflexivity|].
    destruct H0 as (l1 & l2 & -> & (good & er & rows & HR & HRow & ->) & H2). rewrite zlen_app, (IH (S a) (idx + 1) l2 ltac:(lia) H2).
    destruct (crowd_all_fres e k Hk md a Hm ltac:(lia)) as (g & EG & _ & HG & _). unfold fre_results in HR. rewrite EG in HR. apply ok_inj in HR.
    assert (EE : er = None /\ g = good).
    { destruct er as [x|].
      - exfalso. assert (Hin : In (inr x) (map (@inl fre read_error) g)) by (rewrite HR; apply in_or_app; right; left; reflexivity).
        apply in_map_iff in Hin. destruct Hin as (y & Hy & _). discriminate Hy.
      - rewrite app_nil_r in HR. apply map_inl_inj in HR. auto. }
    destruct EE as [-> ->]. rewrite !zlen_cons, !zlen_app, (row_lines_length _ _ _ _ HRow), HG.
    change (@zlen dump_line []) with 0. change (zlen [LineBlank]) with 1. lia. }
  rewrite (HN k 0%nat 0 o ltac:(lia) HA). lia.
Qed.

(** It is refused with the check; a built section is not, and hands out all its rows. *)
Theorem counted_case e :
  rust_slice rel64 (crowd e 5) /\ zlen (crowd e 5) = 138 /\ load_counted true rel64 e (crowd e 5) = Err UnexpectedEof /\
  load_counted true rel64 e (section e demo_sfb) = load rel64 e (section e demo_sfb) /\
  exists sf, load_counted true rel64 e (section e demo_sfb) = Ok sf /\ num_fres sf = 3 /\ handed_all rel64 e sf 3.
Proof.
  split; [apply crowd_slice; reflexivity|]. split; [apply crowd_zlen|]. split; [destruct e; vm_compute; reflexivity|].
  split; [destruct e; vm_compute; reflexivity|].
  exists (get_ok (crowd_sf e 0) (load rel64 e (section e demo_sfb))).
  split; [destruct e; vm_compute; reflexivity|]. split; [destruct e; vm_compute; reflexivity|].
  exists [2; 1]. split; [|reflexivity].
  assert (HX : exists a b, all_fdes (get_ok (crowd_sf e 0) (load rel64 e (section e demo_sfb))) = [a; b] /\
    (exists os it, fri_calls 2 rel64 e (fres a) = Ok (os, it) /\ rows_among os = 2) /\
    (exists os it, fri_calls 3 rel64 e (fres b) = Ok (os, it) /\ rows_among os = 1)).
  { destruct e; (eexists _, _; split; [vm_compute; reflexivity|]; split; eexists _, _; split; vm_compute; reflexivity). }
  destruct HX as (a & b & -> & Ha & Hb). constructor; [exists 2%nat; exact Ha|]. constructor; [exists 3%nat; exact Hb|constructor].
Qed.
