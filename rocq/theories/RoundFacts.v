(** The descriptors and rows of a built section as a reader sees them
    (C35-C39). *)
From Verif Require Export TripFacts.

(** ** Descriptors *)

Lemma nth_error_firstn_skipn {A} (l : list A) i x : nth_error l i = Some x -> l = firstn i l ++ x :: skipn (S i) l.
Proof.
  revert i. induction l as [|y t IH]; intros [|i] H; cbn in *; try discriminate.
  - injection H as ->. reflexivity.
  - f_equal. apply IH, H.
Qed.

Lemma sumz_app a b : sumz (a ++ b) = sumz a + sumz b.
Proof. unfold sumz. induction a as [|x t IH]; cbn [app fold_right]; [lia|]. rewrite IH. lia. Qed.

Lemma raws_nth l : forall off i b, nth_error l i = Some b ->
  nth_error (raws off l) i = Some (fde_raw b (start_size b) (off + rows_off l i)).
Proof.
  unfold rows_off. induction l as [|x t IH]; intros off [|i] b H; cbn in H; try discriminate; cbn [raws nth_error firstn map].
  - injection H as ->. unfold sumz. cbn [map fold_right]. rewrite Z.add_0_r. reflexivity.
  - rewrite (IH _ _ _ H). unfold sumz. cbn [fold_right]. do 2 f_equal. lia.
Qed.

Lemma rows_off_le l i b : nth_error l i = Some b -> 0 <= rows_off l i /\ rows_off l i + fde_fre_size b <= sumz (map fde_fre_size l).
Proof.
  intros H. unfold rows_off. rewrite (nth_error_firstn_skipn l i b H) at 3.
  rewrite map_app, sumz_app. cbn [map]. change (sumz (fde_fre_size b :: ?t)) with (fde_fre_size b + sumz t).
  pose proof (sumz_nonneg (firstn i l)). pose proof (sumz_nonneg (skipn (S i) l)).
  unfold sumz in *. cbn [fold_right]. lia.
Qed.

Lemma rows_enc_skip e l i b : Forall fdb_wf l -> nth_error l i = Some b ->
  skipn (Z.to_nat (rows_off l i)) (rows_enc e l) = fde_enc e b ++ rows_enc e (skipn (S i) l).
Proof.
  intros W H. unfold rows_off. rewrite (nth_error_firstn_skipn l i b H) at 2.
  unfold rows_enc at 1. rewrite map_app, concat_app. fold (rows_enc e (firstn i l)).
  rewrite skipn_app_exact.
  - reflexivity.
  - assert (Hw : Forall fdb_wf (firstn i l)) by (apply Forall_forall; intros x Hx; rewrite Forall_forall in W; apply W; rewrite <- (firstn_skipn i l); apply in_or_app; left; exact Hx).
    pose proof (rows_enc_zlen e (firstn i l) Hw) as Hz. unfold zlen in Hz. lia.
Qed.

Definition built_fde (s : sfb) (i : nat) (b : fdb) : fde :=
  FdeV2 (fde_raw b (start_size b) (rows_off (fdes_of s) i)).
Definition built_entry (e : endian) (s : sfb) (i : nat) (b : fdb) : entry :=
  Entry (built_fde s i b) (fde_enc e b ++ rows_enc e (skipn (S i) (fdes_of s))).

Lemma built_entries e s : sfb_wf s -> ~ too_large s ->
  length (all_fdes (built_sf e s)) = length (fdes_of s) /\
  forall i b, nth_error (fdes_of s) i = Some b -> nth_error (all_fdes (built_sf e s)) i = Some (built_entry e s i b).
Proof.
  intros W T. rewrite all_fdes_map. unfold built_sf, fdes. cbn [sf_fdes sf_fres it_fdes]. split.
  - rewrite !map_length, raws_length. reflexivity.
  - intros i b H. rewrite !nth_error_map, (raws_nth _ _ _ _ H). cbn [option_map]. rewrite Z.add_0_l.
    unfold entry_of, built_entry, built_fde. f_equal. f_equal.
    cbn [fde_start_fre_off fde_raw f2_start_fre_off].
    unfold get_from. destruct (rows_off_le _ _ _ H) as [H0 H1].
    rewrite rows_enc_zlen by apply wf_fdes, W. pose proof (fde_fre_size_nonneg b).
    replace (rows_off (fdes_of s) i <=? sumz (map fde_fre_size (fdes_of s))) with true by lia.
    apply rows_enc_skip; [apply wf_fdes, W|exact H].
Qed.

Lemma Forall2_nth {A B} (P : A -> B -> Prop) l l' : length l' = length l ->
  (forall i a, nth_error l i = Some a -> exists b, nth_error l' i = Some b /\ P a b) -> Forall2 P l l'.
Proof.
  revert l'. induction l as [|a t IH]; intros [|b t'] HL H; cbn in HL; try lia; constructor.
  - destruct (H 0%nat a eq_refl) as (b' & [= <-] & Hp). exact Hp.
  - apply IH; [lia|]. intros i x Hx. apply (H (S i) x Hx).
Qed.

Lemma in_fdes_wf s i b : sfb_wf s -> nth_error (fdes_of s) i = Some b -> fdb_wf b /\ fb_options b = sb_options s.
Proof. intros [_ _ _ W] H. rewrite Forall_forall in W. apply W. eapply nth_error_In, H. Qed.

Lemma built_fde_ok s i b : sfb_wf s -> ~ too_large s -> nth_error (fdes_of s) i = Some b -> fde_ok (built_fde s i b).
Proof.
  intros W T H. destruct (in_fdes_wf s i b W H) as [Wb _]. destruct (rows_off_le _ _ _ H) as [H0 H1].
  assert (Hok : fde2_ok (fde_raw b (start_size b) (rows_off (fdes_of s) i))).
  { apply raw_ok; try assumption. unfold too_large in T. fold (fre_size s) in H1. lia. }
  destruct Hok as (K1 & K2 & K3 & K4 & K5 & _). exact (conj K1 (conj K2 (conj K3 (conj K4 K5)))).
Qed.

Lemma built_same e s i b : same_descriptor b (built_entry e s i b).
Proof.
  unfold same_descriptor, built_entry, built_fde, en_start_address, en_size, en_fdetype, en_rep_block_size, en_pauth_key.
  cbn [en_fde fde_start_address fde_size fde_fdetype fde_rep_size fde_info fde_num_fres
       fde_raw f2_start_address f2_size f2_info f2_rep_size f2_num_fres].
  rewrite rows_of_len. unfold pub_type, fdb_fdetype.
  repeat apply conj; try reflexivity; destruct (fb_rep_size b), (fb_pauth b), (start_size b); reflexivity.
Qed.

(** ** Rows *)

Lemma rows_inside_dec b : rows_inside b \/ Exists (fun r => fb_size b <= r_start r) (rows_of b).
Proof.
  unfold rows_inside. induction (rows_of b) as [|r t IH]; [left; constructor|].
  destruct (Z.lt_ge_cases (r_start r) (fb_size b)) as [H|H].
  - destruct IH as [IH|IH]; [left; constructor; assumption|right; apply Exists_cons_tl, IH].
  - right. apply Exists_cons_hd. exact H.
Qed.

Lemma built_width s i b : width_of (fre_type_num (fde_info (built_fde s i b))) = Some (Z.of_nat (addr_bytes (start_size b))).
Proof.
  unfold built_fde. cbn [fde_info]. rewrite fde_raw_info. unfold fde_info_byte, fre_type_num.
  destruct (fb_pauth b), (fdb_fdetype b), (start_size b); reflexivity.
Qed.

Lemma Forall2_written l good : map view_fre good = map written l -> Forall2 (fun r fr => view_fre fr = written r) l good.
Proof.
  revert good. induction l as [|r t IH]; intros [|g good] H; try discriminate; cbn [map] in H; constructor.
  - exact (f_equal (hd (view_fre g)) H).
  - apply IH. exact (f_equal (@tl _) H).
Qed.

Lemma built_rows md e s i b : wf_mode md -> sfb_wf s -> ~ too_large s -> nth_error (fdes_of s) i = Some b ->
  (rows_inside b -> exists good, all_fres md e (built_entry e s i b) = Ok (map inl good) /\
     Forall2 (fun r fr => view_fre fr = written r) (rows_of b) good) /\
  (~ rows_inside b -> all_fres md e (built_entry e s i b) = Panic).
Proof.
  intros Hmd W T H. destruct (in_fdes_wf s i b W H) as [Wb _].
  pose proof (rows_enc_spec e (addr_bytes (start_size b)) (rows_of b) (rows_enc e (skipn (S i) (fdes_of s))) (starts_fit b Wb)) as Hspec.
  fold (fde_enc e b) in Hspec.
  assert (Hfu : (length (map written (rows_of b)) < fri_fuel (fres (built_entry e s i b)))%nat).
  { rewrite map_length. unfold fri_fuel, fres, built_entry. cbn [ri_fres en_fres]. rewrite app_length.
    pose proof (rows_le_size b). rewrite <- (fde_enc_zlen e b Wb) in *. unfold zlen in *. lia. }
  destruct (collect_rows md e (built_fde s i b) _ Hmd (built_fde_ok s i b W T H) (built_width s i b)
              _ _ _ (fri_fuel (fres (built_entry e s i b))) 0 Hspec) as [C1 C2].
  { unfold built_fde. cbn [fde_num_fres fde_raw f2_num_fres]. rewrite rows_of_len, zlen_map. lia. }
  { exact Hfu. }
  unfold all_fres. unfold fres at 2 4. cbn [built_entry en_fde en_fres].
  split.
  - intros Hin. destruct C1 as (good & E & Hv).
    + apply Forall_map. exact Hin.
    + exists good. split; [exact E|apply Forall2_written, Hv].
  - intros Hout. destruct (rows_inside_dec b) as [Hi|Hi]; [contradiction|]. apply C2. apply Exists_map. exact Hi.
Qed.

(** ** What a row means *)

Lemma wrap_id w v : w = 1 \/ w = 2 \/ w = 4 -> (wrap w v = v <-> storable w v).
Proof.
  intros Hw. unfold wrap, storable, as_s.
  assert (H2 : 2 ^ (8 * w) = 2 * 2 ^ (8 * w - 1)).
  { replace (8 * w) with (1 + (8 * w - 1)) at 1 by lia. rewrite Z.pow_add_r by lia. reflexivity. }
  rewrite H2. assert (H0 : 0 < 2 ^ (8 * w - 1)) by (apply Z.pow_pos_nonneg; lia).
  set (p := 2 ^ (8 * w - 1)) in *. pose proof (Z.mod_pos_bound v (2 * p) ltac:(lia)) as Hm.
  split.
  - destruct (Z.ltb_spec (v mod (2 * p)) p); lia.
  - intros [A B]. destruct (Z.lt_ge_cases v 0) as [Hv|Hv].
    + assert (E : v mod (2 * p) = v + 2 * p) by (symmetry; apply Z.mod_unique_pos with (q := -1); lia).
      rewrite E. destruct (Z.ltb_spec (v + 2 * p) p); lia.
    + rewrite Z.mod_small by lia. destruct (Z.ltb_spec v p); lia.
Qed.

Lemma offset_width_cases r : offset_width r = 1 \/ offset_width r = 2 \/ offset_width r = 4.
Proof. rewrite offset_width_type. destruct (row_offset_type r); cbn; lia. Qed.

Lemma fixed_back v : fixed_wf v -> (if opt_or_zero v =? 0 then None else Some (opt_or_zero v)) = v.
Proof.
  destruct v as [z|]; cbn; [|reflexivity]. intros [_ H].
  destruct (Z.eqb_spec z 0); [contradiction|reflexivity].
Qed.

Lemma built_fixed e s : sfb_wf s ->
  fixed_ra_offset (built_sf e s) = so_fixed_ra (sb_options s) /\ fixed_fp_offset (built_sf e s) = so_fixed_fp (sb_options s).
Proof.
  intros [[_ _ P R] _ _ _]. unfold fixed_ra_offset, fixed_fp_offset, built_sf. cbn [sf_fixed_ra sf_fixed_fp].
  split; apply fixed_back; assumption.
Qed.

Lemma row_meaning sf o r fr : fixed_ra_offset sf = so_fixed_ra o -> fixed_fp_offset sf = so_fixed_fp o ->
  normal o r -> view_fre fr = written r ->
  (observed sf fr = intended o r <-> untruncated r /\ ~ ambiguous o r).
Proof.
  intros Hra Hfp Hn Hv. pose proof (offset_width_cases r) as Hw.
  unfold observed, intended. rewrite cfa_offset_spec, ra_offset_spec, fp_offset_spec, Hra, Hfp, Hv.
  assert (Hb : fre_cfa_base_reg_id fr = r_base r).
  { apply (f_equal sr_base_is_sp) in Hv. cbn in Hv. destruct (fre_cfa_base_reg_id fr), (r_base r); congruence. }
  assert (Hm : fre_mangled_ra_p fr = r_mangled r) by (apply (f_equal sr_mangled) in Hv; exact Hv).
  rewrite Hb, Hm. unfold written, untruncated, ambiguous. cbn [sr_offsets].
  set (w := offset_width r) in *. unfold stored_values.
  destruct (r_offsets r) as [[c ra fp]|] eqn:Eo.
  - destruct (Hn _ Eo) as [Nr Nf]. cbn [ro_ra ro_fp] in Nr, Nf. cbn [option_map ro_cfa ro_ra ro_fp].
    assert (WI := wrap_id w). 
    clear Eo Hv Hn. clearbody w.
    destruct (so_fixed_ra o) as [fr0|]; [assert (ra = None) by (apply Nr; discriminate); subst ra|destruct ra as [ra|]];
    (destruct (so_fixed_fp o) as [ff0|]; [assert (fp = None) by (apply Nf; discriminate); subst fp|destruct fp as [fp|]]);
    cbn [app map res or_fixed];
    (split; [intros E|intros [HF HA]]).
    all: try discriminate.
    all: try (injection E; clear E; intros; split;
       [ repeat (apply Forall_cons; [apply (WI _ Hw); assumption|]); apply Forall_nil
       | intros [E1 (x & E2 & E3 & E4)]; try discriminate E1; injection E2 as <-; cbn in E3, E4; congruence ]).
    all: repeat match goal with H : Forall _ (_ :: _) |- _ => apply Forall_cons_iff in H; destruct H end;
       repeat match goal with H : storable _ _, WI : _, Hw : _ = 1 \/ _ |- _ => apply (proj2 (WI _ Hw)) in H; rewrite ?H end;
       try reflexivity.
    all: exfalso; apply HA; split; [reflexivity|]; eexists; split; [reflexivity|]; cbn; split; congruence.
  - cbn [app map option_map res or_fixed].
    destruct (so_fixed_ra o), (so_fixed_fp o);
    (split; [intros _; split; [constructor|intros (_ & x & Ex & _); discriminate]|reflexivity]).
Qed.

(** ** Width of the offsets, C38 *)

Lemma dominant_max l : match dominant l with
  | Some m => In m l /\ forall v, In v l -> Z.abs v <= Z.abs m
  | None => l = []
  end.
Proof.
  induction l as [|x t IH]; cbn [dominant]; [reflexivity|].
  destruct (dominant t) as [w|].
  - destruct IH as [I1 I2]. destruct (Z.ltb_spec (Z.abs x) (Z.abs w)).
    + split; [right; exact I1|]. intros v [<-|Hv]; [lia|apply I2, Hv].
    + split; [left; reflexivity|]. intros v [<-|Hv]; [lia|]. specialize (I2 v Hv). lia.
  - subst t. split; [left; reflexivity|]. intros v [<-|[]]. lia.
Qed.

Lemma untruncated_iff r : Forall in_i32 (stored_values r) -> (untruncated r <-> ~ tied r).
Proof.
  intros Ht. unfold untruncated, tied, offset_width, storableb, storable. pose proof (dominant_max (stored_values r)) as HD.
  rewrite Forall_forall in *.
  destruct (dominant (stored_values r)) as [m|].
  2:{ rewrite HD. split; [intros _ (x & Hx & _); discriminate|intros _ x []]. }
  destruct HD as [Hin Hmax]. pose proof (Ht m Hin) as Htm. unfold in_i32, i32_min, i32_max in *.
  change (8 * 1 - 1) with 7. change (8 * 2 - 1) with 15. change (2 ^ 7) with 128. change (2 ^ 15) with 32768.
  destruct ((-(128) <=? m) && (m <? 128)) eqn:E1; [|destruct ((-(32768) <=? m) && (m <? 32768)) eqn:E2].
  - change (8 * 1 - 1) with 7. change (2 ^ 7) with 128. split.
    + intros HF (x & [= <-] & [Hx|Hx] & Hin'); [|lia]. specialize (HF _ Hin'). lia.
    + intros HN v Hv. specialize (Hmax v Hv). destruct (Z.eq_dec v 128) as [->|]; [|lia].
      exfalso. apply HN. exists m. split; [reflexivity|]. split; [left; lia|]. replace (- m) with 128 by lia. exact Hv.
  - change (8 * 2 - 1) with 15. change (2 ^ 15) with 32768. split.
    + intros HF (x & [= <-] & [Hx|Hx] & Hin'); [lia|]. specialize (HF _ Hin'). lia.
    + intros HN v Hv. specialize (Hmax v Hv). destruct (Z.eq_dec v 32768) as [->|]; [|lia].
      exfalso. apply HN. exists m. split; [reflexivity|]. split; [right; lia|]. replace (- m) with 32768 by lia. exact Hv.
  - change (8 * 4 - 1) with 31. change (2 ^ 31) with 2147483648. split.
    + intros HF (x & [= <-] & [Hx|Hx] & Hin'); lia.
    + intros HN v Hv. specialize (Ht v Hv). lia.
Qed.

Lemma stored_typed r : row_typed r -> Forall in_i32 (stored_values r).
Proof.
  intros [_ H]. unfold stored_values. destruct (r_offsets r) as [[c ra fp]|]; [|constructor].
  destruct H as (H1 & H2 & H3). cbn in *. constructor; [exact H1|].
  apply Forall_app. split; [destruct ra|destruct fp]; first [apply Forall_nil|apply Forall_cons; [assumption|apply Forall_nil]].
Qed.

Lemma width_untied r : row_typed r -> (untruncated r <-> ~ tied r).
Proof. intros H. apply untruncated_iff, stored_typed, H. Qed.
