(** Built sections of both byte orders, looked up side by side. *)
From Verif Require Export LookupSpec.
From Verif Require Import LookupFacts LookupExact LocalFacts SearchFacts SectionFacts.

(** What one look-up gives, without the descriptor it was read under. *)
Definition rows_agree (x y : outcome (fuel_error + read_error) (option fre)) : Prop :=
  match x, y with
  | Ok None, Ok None | Panic, Panic => True
  | Ok (Some f), Ok (Some g) => view_fre f = view_fre g
  | Err a, Err b => a = b
  | _, _ => False
  end.

(** The searches of two encodings of the same rows go in step. *)
Lemma find_in_step md e e' f aw p : wf_mode md -> fde_ok f -> width_of (fre_type_num (fde_info f)) = Some aw ->
  (forall x y, view_fre x = view_fre y -> p x = p y) ->
  forall rows bs bs' idx k k', spec_rows_at e aw bs rows [] -> spec_rows_at e' aw bs' rows [] ->
  fde_num_fres f <= idx + zlen rows -> (length rows < k)%nat -> (length rows < k')%nat ->
  rows_agree (fri_find k md e p (FreIter f bs idx)) (fri_find k' md e' p (FreIter f bs' idx)).
Proof.
  intros Hmd Hf Hw Hp. induction rows as [|r rows IH]; intros bs bs' idx [|k] [|k'] HS HS' Hn Hk Hk'; cbn [length] in Hk, Hk'; try lia;
    cbn [fri_find]; unfold fri_next; cbn [ri_fde ri_fres ri_index].
  - replace (fde_num_fres f <=? idx) with true by (symmetry; apply Z.leb_le; unfold zlen in Hn; cbn [length] in Hn; lia). exact I.
  - destruct (fde_num_fres f <=? idx); [exact I|]. cbn [spec_rows_at] in HS, HS'.
    destruct HS as (b1 & H1 & HS), HS' as (b1' & H1' & HS').
    destruct (row_decode_complete md e f bs aw r b1 Hmd Hf Hw H1) as [D1 D2].
    destruct (row_decode_complete md e' f bs' aw r b1' Hmd Hf Hw H1') as [D1' D2'].
    destruct (Z.lt_ge_cases (sr_start r) (fde_size f)) as [Hlt|Hge].
    + destruct (D1 Hlt) as (x & -> & V & _), (D1' Hlt) as (y & -> & V' & _).
      rewrite (Hp x y) by congruence. destruct (p y); [cbn; congruence|].
      apply IH; auto; [|lia|lia]. rewrite zlen_cons in Hn. lia.
    + rewrite (D2 Hge), (D2' Hge). exact I.
Qed.

Lemma entry_in_step md e e' f aw rows bs bs' a : wf_mode md -> fde_ok f -> width_of (fre_type_num (fde_info f)) = Some aw ->
  spec_rows_at e aw bs rows [] -> spec_rows_at e' aw bs' rows [] -> fde_num_fres f <= zlen rows ->
  rows_agree (get_fre_for_address md e (Entry f bs) a) (get_fre_for_address md e' (Entry f bs') a).
Proof.
  intros Hmd Hf Hw HS HS' Hn. unfold get_fre_for_address.
  change (en_start_address (Entry f bs')) with (en_start_address (Entry f bs)). change (en_size (Entry f bs')) with (en_size (Entry f bs)).
  change (en_fdetype (Entry f bs')) with (en_fdetype (Entry f bs)).
  change (en_rep_block_size (Entry f bs')) with (en_rep_block_size (Entry f bs)).
  assert (HF : forall p, (forall x y, view_fre x = view_fre y -> p x = p y) ->
    rows_agree (fri_find (fri_fuel (fres (Entry f bs))) md e p (fres (Entry f bs)))
               (fri_find (fri_fuel (fres (Entry f bs'))) md e' p (fres (Entry f bs')))).
  { intros p Hp. pose proof (width_cases _ _ Hw) as Hc.
    pose proof (rows_count e aw rows Hc _ _ HS) as L. pose proof (rows_count e' aw rows Hc _ _ HS') as L'. cbn [length] in L, L'.
    apply (find_in_step md e e' f aw p Hmd Hf Hw Hp rows); auto; unfold fri_fuel; cbn [fres en_fres en_fde ri_fres]; lia. }
  assert (Hst : forall x y, view_fre x = view_fre y -> fr_start x = fr_start y).
  { intros x y H. exact (f_equal sr_start H). }
  destruct (a <? _); [exact I|]. destruct (sub_i32 md a _) as [d|er|]; cbn [bind]; [|reflexivity|exact I].
  destruct (en_size _ <? _); [exact I|]. destruct (en_fdetype _).
  - apply HF. intros x y H. now rewrite (Hst x y H).
  - destruct (en_rep_block_size _) as [rep|]; [|exact I]. destruct (rep =? 0); [reflexivity|].
    apply HF. intros x y H. now rewrite (Hst x y H).
  - apply HF. intros x y H. cbv zeta. now rewrite (Hst x y H).
Qed.

(** Both look at the same functions. *)
Lemma found_in_step md e e' s a : sfb_wf s ->
  match fde_for_address md (built_sf e s) a, fde_for_address md (built_sf e' s) a with
  | Ok None, Ok None | Panic, Panic => True
  | Ok (Some x), Ok (Some y) => exists i b, nth_error (fdes_of s) i = Some b /\
      x = Entry (built_fde s i b) (rows_enc e (fdes_of s)) /\ y = Entry (built_fde s i b) (rows_enc e' (fdes_of s))
  | _, _ => False
  end.
Proof.
  intros W. unfold fde_for_address.
  assert (HF : forall o, Z.land (flags (built_sf o s)) FLAG_FDE_SORTED =? FLAG_FDE_SORTED = true).
  { intros o. unfold flags, built_sf. cbn [sf_preamble pre_flags]. destruct W as [[[->| ->] _ _ _] _ _ _]; reflexivity. }
  rewrite !HF. cbn [negb].
  change (it_fdes (fdes (built_sf e' s))) with (it_fdes (fdes (built_sf e s))).
  destruct (binary_search md (search_cmp md a) (it_fdes (fdes (built_sf e s)))) as [[k|]|er|] eqn:EB; cbn [bind]; [|exact I| |exact I].
  2:{ pose proof (binary_search_sound md (search_cmp md a) (it_fdes (fdes (built_sf e s)))) as HB. rewrite EB in HB. apply HB.
      intros f x _. unfold search_cmp, sub_i32. destruct (a <? _)%Z; [discriminate|].
      destruct (in_i32b _); [|destruct (overflow_checks md)]; cbn [bind]; try destruct (_ <=? _)%Z; discriminate. }
  unfold fdi_nth. change (it_fdes (fdes (built_sf e' s))) with (it_fdes (fdes (built_sf e s))).
  destruct (skipn k (it_fdes (fdes (built_sf e s)))) as [|f l] eqn:Es; cbn [fst]; [exact I|].
  assert (Hf : nth_error (it_fdes (fdes (built_sf e s))) k = Some f).
  { rewrite <- (firstn_skipn k (it_fdes (fdes (built_sf e s)))), Es.
    assert (Hkl : (k <= length (it_fdes (fdes (built_sf e s))))%nat).
    { destruct (Nat.le_gt_cases k (length (it_fdes (fdes (built_sf e s))))) as [|Hgt]; [assumption|].
      rewrite skipn_all2 in Es by lia. discriminate. }
    rewrite nth_error_app2; rewrite firstn_length_le by exact Hkl; [|lia]. rewrite Nat.sub_diag. reflexivity. }
  destruct (nth_error (fdes_of s) k) as [c|] eqn:Ek.
  2:{ exfalso. apply nth_error_None in Ek. assert (k < length (it_fdes (fdes (built_sf e s))))%nat by (apply nth_error_Some; congruence).
      unfold fdes, built_sf in *. cbn [it_fdes sf_fdes] in *. rewrite map_length, raws_length in *. lia. }
  exists k, c. split; [exact Ek|].
  unfold fdes, built_sf in Hf. cbn [it_fdes sf_fdes] in Hf. rewrite nth_error_map, (raws_nth _ _ _ _ Ek) in Hf.
  cbn [option_map] in Hf. rewrite Z.add_0_l in Hf. injection Hf as <-. split; reflexivity.
Qed.

Lemma observed_order e e' s x y : view_fre x = view_fre y -> observed (built_sf e s) x = observed (built_sf e' s) y.
Proof. intros H. rewrite (observed_view _ _ _ H). reflexivity. Qed.

(** The function found is the same in both. *)
Theorem order_found md md' e e' s bs bs' sf sf' : sfb_reach md s -> build md e s = Ok bs -> build md e' s = Ok bs' ->
  wf_mode md' -> rust_slice md' bs -> load md' e bs = Ok sf -> load md' e' bs' = Ok sf' ->
  forall a, match fde_for_address md' sf a, fde_for_address md' sf' a with
  | Ok None, Ok None | Panic, Panic => True
  | Ok (Some x), Ok (Some y) => exists i b, nth_error (fdes_of s) i = Some b /\
      (en_start_address x = fb_start b /\ en_size x = fb_size b) /\ en_start_address y = fb_start b /\ en_size y = fb_size b
  | _, _ => False
  end.
Proof.
  intros Hr B B' Hmd Hsl L L' a. pose proof (sfb_reach_wf _ _ Hr) as W.
  destruct (built_image _ _ _ _ W B) as [T E]. destruct (built_image _ _ _ _ W B') as [_ E'].
  assert (Hsl' : rust_slice md' bs').
  { unfold rust_slice in *. subst bs bs'. rewrite !image_zlen in * by assumption. exact Hsl. }
  subst bs bs'. rewrite (image_loads md' e s Hmd W T Hsl) in L. rewrite (image_loads md' e' s Hmd W T Hsl') in L'.
  injection L as <-. injection L' as <-. pose proof (found_in_step md' e e' s a W) as HF.
  destruct (fde_for_address md' (built_sf e s) a) as [[x|]|p|], (fde_for_address md' (built_sf e' s) a) as [[y|]|q|]; try contradiction; try exact I.
  destruct HF as (i & b & Hi & -> & ->). exists i, b. repeat split; exact Hi.
Qed.

(** The starts of the rows are stored in the same number of bytes everywhere. *)
Theorem order_lookup md md' e e' s bs bs' sf sf' : sfb_reach md s -> build md e s = Ok bs -> build md e' s = Ok bs' ->
  wf_mode md' -> rust_slice md' bs -> load md' e bs = Ok sf -> load md' e' bs' = Ok sf' ->
  (forall b c, In b (fdes_of s) -> In c (fdes_of s) -> start_width (rows_of b) = start_width (rows_of c)) ->
  forall a, lookup md' e sf a = lookup md' e' sf' a.
Proof.
  intros Hr B B' Hmd Hsl L L' HU a. pose proof (sfb_reach_wf _ _ Hr) as W.
  destruct (built_image _ _ _ _ W B) as [T E]. destruct (built_image _ _ _ _ W B') as [_ E'].
  assert (Hsl' : rust_slice md' bs').
  { unfold rust_slice in *. subst bs bs'. rewrite !image_zlen in * by assumption. exact Hsl. }
  subst bs bs'. rewrite (image_loads md' e s Hmd W T Hsl) in L. rewrite (image_loads md' e' s Hmd W T Hsl') in L'.
  injection L as <-. injection L' as <-. unfold lookup. pose proof (found_in_step md' e e' s a W) as HF.
  destruct (fde_for_address md' (built_sf e s) a) as [[x|]|p|], (fde_for_address md' (built_sf e' s) a) as [[y|]|q|]; try contradiction; try reflexivity.
  destruct HF as (i & b & Hi & -> & ->). pose proof (nth_error_In _ _ Hi) as Hb.
  assert (Hun : uniform s b) by (intros c Hc; apply HU; assumption).
  destruct (uniform_enc e s b W Hb Hun) as [HE Hfit]. destruct (uniform_enc e' s b W Hb Hun) as [HE' _].
  pose proof (rows_enc_spec e _ _ [] Hfit) as HS. pose proof (rows_enc_spec e' _ _ [] Hfit) as HS'.
  rewrite app_nil_r, <- HE in HS. rewrite app_nil_r, <- HE' in HS'.
  assert (Hcnt : (length (rows_of b) <= length (stored_rows s))%nat).
  { unfold stored_rows. clear - Hb. induction (fdes_of s) as [|c l IH]; [destruct Hb|].
    cbn [flat_map]. rewrite app_length. destruct Hb as [->|HI]; [lia|]. specialize (IH HI). lia. }
  pose proof (entry_in_step md' e e' (built_fde s i b) _ _ _ _ a Hmd (built_fde_ok s i b W T Hi) (built_width s i b) HS HS') as H.
  assert (Hnum : fde_num_fres (built_fde s i b) <= zlen (map written (stored_rows s))).
  { unfold built_fde. cbn [fde_num_fres fde_raw f2_num_fres]. rewrite rows_of_len, zlen_map. unfold zlen. lia. }
  specialize (H Hnum).
  destruct (get_fre_for_address md' e _ a) as [[x|]|p|], (get_fre_for_address md' e' _ a) as [[y|]|q|]; try contradiction; try reflexivity; cbn [rows_agree] in H.
  - cbn [option_map]. now rewrite (observed_order e e' s x y H).
  - congruence.
Qed.
