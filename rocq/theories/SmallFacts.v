(** The bytes of a function's rows against the fewest that say them (C151). *)
From Verif Require Export SmallSpec TripWitness.

(** Width of a start field that holds every start. *)
Definition narrow_width (rows : list row) : Z :=
  if last_start rows <=? 0xFF then 1 else if last_start rows <=? 0xFFFF then 2 else 4.
Definition narrow_size (m : Z) : addr_size :=
  if m <=? 0xFF then SzU8 else if m <=? 0xFFFF then SzU16 else SzU32.
Definition narrow_fre_size (b : fdb) : Z := sumz (map (row_size (narrow_width (rows_of b))) (rows_of b)).

Lemma last_start_in l r : In r l -> r_start r <= last_start l.
Proof. unfold last_start. induction l as [|x t IH]; [intros []|]. intros [->|H]; cbn; [lia|]. specialize (IH H). lia. Qed.
Lemma last_start_least l m : 0 <= m -> (forall r, In r l -> r_start r <= m) -> last_start l <= m.
Proof.
  unfold last_start. intros H0. induction l as [|x t IH]; intros H; cbn; [lia|].
  pose proof (H x (or_introl eq_refl)). assert (fold_right Z.max 0 (map r_start t) <= m) by (apply IH; intros; apply H; right; assumption). lia.
Qed.

Lemma row_size_shift w w' r : row_size w r = row_size w' r + (w - w').
Proof. unfold row_size. lia. Qed.
Lemma rows_size_shift w w' l : sumz (map (row_size w) l) = sumz (map (row_size w') l) + (w - w') * zlen l.
Proof.
  induction l as [|r t IH]; cbn [map sumz fold_right]; [unfold zlen; cbn; lia|]. rewrite zlen_cons.
  pose proof (row_size_shift w w' r). unfold sumz in IH. lia.
Qed.
Lemma rows_size_le w w' l : w <= w' -> sumz (map (row_size w) l) <= sumz (map (row_size w') l).
Proof. intros H. rewrite (rows_size_shift w w'). pose proof (zlen_nonneg l). nia. Qed.

Lemma excess_width l : start_width l = narrow_width l + excess l.
Proof.
  unfold start_width, narrow_width, excess. fold (last_start l). cbv zeta.
  destruct (Z.leb_spec (last_start l) 0x7F), (Z.leb_spec (last_start l) 0xFF), (Z.leb_spec (last_start l) 0x7FFF),
    (Z.leb_spec (last_start l) 0xFFFF), (Z.leb_spec 0x80 (last_start l)), (Z.leb_spec 0x8000 (last_start l)); cbn [andb]; lia.
Qed.
Lemma excess_size b : fde_fre_size b = narrow_fre_size b + excess (rows_of b) * zlen (rows_of b).
Proof. unfold fde_fre_size, narrow_fre_size. rewrite (rows_size_shift _ (narrow_width (rows_of b))), excess_width. lia. Qed.

(** ** No encoding is shorter *)

Lemma width_cases t w : width_of t = Some w -> w = 1 \/ w = 2 \/ w = 4.
Proof. unfold width_of. destruct (t =? 0); [|destruct (t =? 1); [|destruct (t =? 2)]]; intros [= <-] || discriminate; auto. Qed.

Lemma as_s_storable w z : w = 1 \/ w = 2 \/ w = 4 -> storable w (as_s (8 * w) z).
Proof.
  intros Hw. unfold storable, as_s.
  assert (H2 : 2 ^ (8 * w) = 2 * 2 ^ (8 * w - 1)).
  { replace (8 * w) with (1 + (8 * w - 1)) at 1 by lia. rewrite Z.pow_add_r by lia. reflexivity. }
  rewrite H2. assert (H0 : 0 < 2 ^ (8 * w - 1)) by (apply Z.pow_pos_nonneg; lia).
  set (p := 2 ^ (8 * w - 1)) in *. pose proof (Z.mod_pos_bound z (2 * p) ltac:(lia)) as Hm.
  destruct (Z.ltb_spec (z mod (2 * p)) p); lia.
Qed.

Lemma sint_storable e c w : zlen c = w -> w = 1 \/ w = 2 \/ w = 4 -> storable w (sint e c).
Proof.
  intros Hz Hw. rewrite sint_dec by (intros ->; unfold zlen in Hz; cbn in Hz; lia). rewrite Hz. apply as_s_storable, Hw.
Qed.

(** The width of a row's offsets is the least that stores the value greatest in magnitude. *)
Lemma offset_width_least r m w : dominant (stored_values r) = Some m -> (w = 1 \/ w = 2 \/ w = 4) -> storable w m -> offset_width r <= w.
Proof.
  intros HD Hw Hs. unfold offset_width. rewrite HD. unfold storable in Hs. unfold storableb.
  destruct Hw as [-> | [-> | ->]]; change (8 * 1 - 1) with 7 in *; change (8 * 2 - 1) with 15 in *; change (8 * 4 - 1) with 31 in *;
  change (2 ^ 7) with 128 in *; change (2 ^ 15) with 32768 in *; change (2 ^ 31) with 2147483648 in *.
  - replace ((- (128) <=? m) && (m <? 128)) with true by lia. lia.
  - destruct ((- (128) <=? m) && (m <? 128)); [lia|]. replace ((- (32768) <=? m) && (m <? 32768)) with true by lia. lia.
  - destruct (_ && _); [lia|]. destruct (_ && _); lia.
Qed.
Lemma dominant_storable r m : row_typed r -> dominant (stored_values r) = Some m -> storable (offset_width r) m.
Proof.
  intros Ht HD. pose proof (dominant_max (stored_values r)) as HM. rewrite HD in HM. destruct HM as [Hin _].
  pose proof (stored_typed r Ht) as HT. rewrite Forall_forall in HT. specialize (HT m Hin). unfold in_i32, i32_min, i32_max in HT.
  unfold offset_width. rewrite HD. unfold storableb, storable.
  change (8 * 1 - 1) with 7 in *; change (8 * 2 - 1) with 15 in *; change (8 * 4 - 1) with 31 in *;
  change (2 ^ 7) with 128 in *; change (2 ^ 15) with 32768 in *; change (2 ^ 31) with 2147483648 in *.
  destruct ((- (128) <=? m) && (m <? 128)) eqn:E1; [change (8 * 1 - 1) with 7; change (2 ^ 7) with 128; lia|].
  destruct ((- (32768) <=? m) && (m <? 32768)) eqn:E2; [change (8 * 2 - 1) with 15; change (2 ^ 15) with 32768; lia|].
  change (8 * 4 - 1) with 31; change (2 ^ 31) with 2147483648. lia.
Qed.

Lemma concat_zlen {A} (w : Z) (l : list (list A)) : Forall (fun c => zlen c = w) l -> zlen (concat l) = w * zlen l.
Proof. induction 1 as [|c t Hc _ IH]; cbn [concat]; [unfold zlen; cbn; lia|]. rewrite zlen_app, zlen_cons, IH, Hc. lia. Qed.

Lemma row_at_least e aw bs r rest : row_typed r -> spec_row_at e aw bs (written r) rest ->
  row_size aw r + zlen rest <= zlen bs /\ r_start r < 256 ^ aw.
Proof.
  intros Ht (start & info & ow & chunks & -> & Hs & Hst & _ & _ & Hw & HF & _ & _ & Ho).
  apply width_cases in Hw. cbn [written sr_start sr_offsets] in Hst, Ho.
  assert (HN : zlen chunks = zlen (stored_values r)).
  { pose proof (f_equal zlen Ho) as HZ. rewrite !zlen_map in HZ. lia. }
  assert (HC : zlen (concat chunks) = ow * zlen (stored_values r)) by (rewrite <- HN; apply concat_zlen, HF). rewrite !zlen_app, HC, Hs.
  split.
  - unfold row_size. change (zlen [info]) with 1.
    pose proof (zlen_nonneg (stored_values r)) as H0. pose proof (dominant_max (stored_values r)) as HM.
    destruct (dominant (stored_values r)) as [m|] eqn:HD; [|rewrite HM; unfold zlen; cbn; lia].
    destruct HM as [Hin _].
    assert (HS : storable ow m).
    { pose proof (dominant_storable r m Ht HD) as D. apply (wrap_id (offset_width r) m (offset_width_cases r)) in D.
      assert (I : In m (map (sint e) chunks)) by (rewrite <- Ho, <- D; apply in_map, Hin).
      apply in_map_iff in I. destruct I as (c & <- & Hc). rewrite Forall_forall in HF. apply sint_storable; [apply HF, Hc|exact Hw]. }
    pose proof (offset_width_least r m ow HD Hw HS). nia.
  - rewrite Hst, uint_dec. pose proof (dec_bound e start) as B. unfold zlen in Hs. rewrite Hs in B. lia.
Qed.

Lemma rows_at_least e aw l : Forall row_typed l -> forall bs rest, spec_rows_at e aw bs (map written l) rest ->
  sumz (map (row_size aw) l) + zlen rest <= zlen bs /\ Forall (fun r => r_start r < 256 ^ aw) l.
Proof.
  induction 1 as [|r t Hr _ IH]; intros bs rest H; cbn [map spec_rows_at sumz fold_right] in *.
  - subst. split; [lia|constructor].
  - destruct H as (mid & H1 & H2). destruct (row_at_least e aw bs r mid Hr H1) as [A1 A2]. destruct (IH mid rest H2) as [B1 B2].
    unfold sumz in B1. split; [lia|constructor; assumption].
Qed.

Lemma narrow_least l aw : (aw = 1 \/ aw = 2 \/ aw = 4) -> Forall (fun r => r_start r < 256 ^ aw) l -> narrow_width l <= aw.
Proof.
  intros Hw HF. rewrite Forall_forall in HF. unfold narrow_width.
  destruct Hw as [-> | [-> | ->]].
  - assert (last_start l <= 0xFF) by (apply last_start_least; [lia|]; intros r Hr; specialize (HF r Hr); change (256 ^ 1) with 256 in HF; lia).
    replace (last_start l <=? 0xFF) with true by lia. lia.
  - assert (last_start l <= 0xFFFF) by (apply last_start_least; [lia|]; intros r Hr; specialize (HF r Hr); change (256 ^ 2) with 65536 in HF; lia).
    replace (last_start l <=? 0xFFFF) with true by lia. destruct (_ <=? _); lia.
  - destruct (_ <=? _); [lia|]. destruct (_ <=? _); lia.
Qed.

Lemma narrow_fits b : fdb_wf b -> Forall (fits_start (addr_bytes (narrow_size (last_start (rows_of b))))) (rows_of b) /\
  Z.of_nat (addr_bytes (narrow_size (last_start (rows_of b)))) = narrow_width (rows_of b).
Proof.
  intros W. split.
  - rewrite Forall_forall. intros r Hr. pose proof (last_start_in _ _ Hr) as HL.
    destruct W as [_ _ _ _ _ _ W]. rewrite Forall_forall in W. destruct (rw_typed _ _ (W r Hr)) as [[B _] _]. pose proof (rw_start _ _ (W r Hr)).
    unfold fits_start, narrow_size. split; [exact B|].
    destruct (Z.leb_spec (last_start (rows_of b)) 0xFF); [cbn; lia|]. destruct (Z.leb_spec (last_start (rows_of b)) 0xFFFF); cbn; lia.
  - unfold narrow_size, narrow_width. destruct (_ <=? _); [reflexivity|]. destruct (_ <=? _); reflexivity.
Qed.

Lemma wf_typed b : fdb_wf b -> Forall row_typed (rows_of b).
Proof. intros [_ _ _ _ _ _ W]. eapply Forall_impl; [|exact W]. intros r H. apply (rw_typed _ _ H). Qed.

(** The fewest bytes. *)
Lemma narrow_fewest b : fdb_wf b -> fewest (narrow_fre_size b) (map written (rows_of b)).
Proof.
  intros W. destruct (narrow_fits b W) as [HF HW]. split.
  - exists LE, (narrow_width (rows_of b)), (concat (map (row_enc LE (addr_bytes (narrow_size (last_start (rows_of b))))) (rows_of b))).
    split; [split|].
    + unfold narrow_width. destruct (_ <=? _); [auto|]. destruct (_ <=? _); auto.
    + rewrite <- HW. pose proof (rows_enc_spec LE _ _ [] HF) as HS. rewrite app_nil_r in HS. exact HS.
    + rewrite zlen_concat_map. unfold narrow_fre_size. rewrite <- HW. f_equal. apply map_ext. intros r. apply row_enc_zlen.
  - intros e aw bs [Hw HS]. destruct (rows_at_least e aw (rows_of b) (wf_typed b W) bs [] HS) as [H1 H2].
    pose proof (narrow_least _ _ Hw H2) as HL. pose proof (rows_size_le _ _ (rows_of b) HL) as HX.
    unfold narrow_fre_size. change (zlen (@nil byte)) with 0 in H1. lia.
Qed.

(** ** What [build] writes *)

Theorem rows_excess md e s bs i b : sfb_reach md s -> build md e s = Ok bs -> nth_error (fdes_of s) i = Some b ->
  exists aw seg, rows_stored e bs i aw seg /\ says_rows e aw seg (map written (rows_of b)) /\
    fewest (zlen seg - excess (rows_of b) * zlen (rows_of b)) (map written (rows_of b)).
Proof.
  intros H B Hi. destruct (trip_table md e s bs i b H B Hi) as (HE & _ & HS).
  destruct (built md e s bs H B) as (W & -> & T & _). destruct (in_fdes_wf s i b W Hi) as [Wb _].
  pose proof (image_loads rel64 e s wf_rel64 W T (image_rel64 e s W T)) as HL.
  destruct (load_accessors rel64 e _ _ wf_rel64 (image_rel64 e s W T) HL) as (_ & _ & _ & _ & _ & _ & _ & _ & Hfr).
  destruct (rows_off_le _ _ _ Hi) as [O1 O2]. pose proof (fde_fre_size_nonneg b) as N.
  assert (HZ : zlen (spec_fre_bytes e (image e s)) = sumz (map fde_fre_size (fdes_of s))).
  { rewrite <- Hfr. unfold built_sf. cbn [sf_fres]. apply rows_enc_zlen, wf_fdes, W. }
  exists (start_width (rows_of b)), (slice (rows_off (fdes_of s) i) (fde_fre_size b) (spec_fre_bytes e (image e s))).
  split; [|split; [split; [unfold start_width; cbv zeta; destruct (_ <=? _); [auto|]; destruct (_ <=? _); auto|exact HS]|]].
  - exists (firstn (Z.to_nat (rows_off (fdes_of s) i)) (spec_fre_bytes e (image e s))),
      (skipn (Z.to_nat (fde_fre_size b)) (skipn (Z.to_nat (rows_off (fdes_of s) i)) (spec_fre_bytes e (image e s)))).
    rewrite HE. split; [|split].
    + unfold slice. rewrite firstn_skipn, firstn_skipn. reflexivity.
    + unfold zlen in *. rewrite firstn_length. cbn [sd_fre_off descriptor]. lia.
    + cbn [sd_info descriptor]. unfold info_of, start_width. cbv zeta.
      destruct (fb_pauth b), (fb_rep_size b), (fold_right Z.max 0 (map r_start (rows_of b)) <=? 127); try reflexivity;
      destruct (fold_right Z.max 0 (map r_start (rows_of b)) <=? 32767); reflexivity.
  - replace (zlen (slice _ _ _)) with (fde_fre_size b).
    + rewrite excess_size. replace (_ + _ - _) with (narrow_fre_size b) by lia. apply narrow_fewest, Wb.
    + unfold slice. unfold zlen in *. rewrite firstn_length, skipn_length. lia.
Qed.

Theorem rows_fewest md e s bs i b : sfb_reach md s -> build md e s = Ok bs -> nth_error (fdes_of s) i = Some b -> excess (rows_of b) = 0 ->
  exists aw seg, rows_stored e bs i aw seg /\ says_rows e aw seg (map written (rows_of b)) /\ fewest (zlen seg) (map written (rows_of b)).
Proof.
  intros H B Hi HX. destruct (rows_excess md e s bs i b H B Hi) as (aw & seg & H1 & H2 & H3). exists aw, seg. split; [exact H1|]. split; [exact H2|].
  rewrite HX in H3. replace (zlen seg - 0 * zlen (rows_of b)) with (zlen seg) in H3 by lia. exact H3.
Qed.
