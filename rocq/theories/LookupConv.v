(** Looking up addresses in converted sections (C65, C135). *)
From Verif Require Export LookupExact ConvProps.

Lemma narrow_width rows : Forall (fun r => r_start r <= 127) rows -> start_width rows = 1.
Proof.
  intros H. unfold start_width. assert (fold_right Z.max 0 (map r_start rows) <= 127).
  { induction H; cbn; lia. }
  cbv zeta. destruct (Z.leb_spec (fold_right Z.max 0 (map r_start rows)) 0x7f); [reflexivity|lia].
Qed.

Lemma near_built op o f b : so_fixed_fp o = None -> dw_fde_typed f -> fde_built op o f b -> rows_near f ->
  fdb_wf b -> fb_rep_size b = None /\ start_width (rows_of b) = 1 /\ (forall r rest, rows_of b = r :: rest -> r_start r = 0).
Proof.
  intros Hfp Ht [_ _ _ (b0 & Hp & Hm)] [Hz Hn] Wb.
  destruct (partway_inv _ _ _ _ _ Hp) as (S & K & _ & _ & _ & E4 & _ & E6).
  assert (HR : fb_rep_size b = None /\ incl (rows_of b) (rows_of b0) /\ hd_error (rows_of b) = hd_error (rows_of b0)).
  { destruct (op_merge_fres op).
    - destruct (merge_rows_preserves _ _ 0 (None, false, Sp) S K Hm) as (_ & _ & _ & R & _). split; [congruence|].
      destruct (merge_rows_minimal _ S K) as (b' & H1 & _ & H2 & H3 & _). assert (b' = b) by congruence. subst b'. auto.
    - subst b. split; [exact E4|]. split; [apply incl_refl|reflexivity]. }
  destruct HR as (R1 & R2 & R3). fold (wide_rows f) in E6.
  assert (H0 : forall r, In r (rows_of b0) -> r_start r <= 127).
  { intros r Hr. apply (Permutation_in _ E6) in Hr. apply in_map_iff in Hr. destruct Hr as (x & <- & Hx).
    cbn [kept_row r_start]. rewrite img_start. apply Hn, Hx. }
  split; [exact R1|]. split.
  - apply narrow_width. apply Forall_forall. intros r Hr. apply H0, R2, Hr.
  - intros r rest Hr. rewrite Hr in R3. cbn [hd_error] in R3.
    assert (Hnn : 0 <= r_start r).
    { destruct Wb as [_ _ _ _ _ _ HW]. rewrite Forall_forall in HW. destruct (HW r) as [Ty _ _]; [rewrite Hr; left; reflexivity|].
      destruct Ty as [Ty _]. unfold in_u32 in Ty. lia. }
    destruct (rows_of b0) as [|r0 l0] eqn:E0; [discriminate|]. injection R3 as ->.
    destruct Hz as [Hz|(x & Hx & Hs)].
    { rewrite Hz in E6. apply Permutation_sym, Permutation_nil in E6. discriminate. }
    assert (Hin : In (kept_row o (img (op_arch op) f x)) (r0 :: l0)).
    { apply (Permutation_in _ (Permutation_sym E6)). apply in_map_iff. exists x. auto. }
    assert (Hst : r_start (kept_row o (img (op_arch op) f x)) = 0).
    { cbn [kept_row r_start]. rewrite img_start. unfold off. lia. }
    destruct Hin as [Hin|Hin]; [congruence|].
    assert (Hlt : r_start r0 < r_start (kept_row o (img (op_arch op) f x))); [|lia].
    pose proof (sorted_ascends _ S K) as HA. unfold rows_of in E0. rewrite E0 in HA. apply StronglySorted_inv in HA. destruct HA as [_ HF].
    rewrite Forall_forall in HF. apply HF, Hin.
Qed.

Theorem conv_plain md op eh s : eh_typed eh -> dwarf2sframe md op eh = Ok s ->
  (forall f, In f (functions (entries_of eh)) -> rows_near f) -> plainly_built s.
Proof.
  intros Ht H HN. pose proof (dwarf2sframe_converted _ _ _ _ Ht H) as HC.
  pose proof (sfb_reach_wf _ _ (proj1 (sfb_sized_reach md s (converted_sized _ _ _ _ HC)))) as W.
  destruct HC as [_ Ho Ha]. destruct (assembled_sorted _ _ _ _ (proj1 (options_eq op eh)) Ha) as [_ HB].
  assert (HF : forall b, In b (fdes_of s) -> fb_rep_size b = None /\ start_width (rows_of b) = 1 /\
    (forall r rest, rows_of b = r :: rest -> r_start r = 0)).
  { intros b Hb. pose proof (wf_fdes _ W) as WF. rewrite Forall_forall in WF.
    unfold fdes_of in Hb. pose proof Hb as Hb'. apply in_map_iff in Hb. destruct Hb as ([k c] & E & Hb). cbn in E. subst c.
    destruct (HB k b Hb) as (f & F1 & F2 & _ & F3).
    apply (near_built op (conv_sfoptions op eh) f b (proj1 (options_eq op eh)) F2 F3 (HN f F1) (WF b Hb')). }
  split; [|split].
  - intros b c Hb Hc. destruct (HF b Hb) as (_ & -> & _), (HF c Hc) as (_ & -> & _). reflexivity.
  - intros b Hb. destruct (HF b Hb) as (-> & _). discriminate.
  - unfold stored_rows. clear - HF. induction (fdes_of s) as [|b l IH]; intros r rest E; [discriminate|].
    cbn [flat_map] in E. destruct (rows_of b) as [|x t] eqn:Eb.
    + apply (IH (fun c Hc => HF c (or_intror Hc)) r rest E).
    + cbn [app] in E. apply (f_equal (hd x)) in E. cbn [hd] in E. subst r. destruct (HF b (or_introl eq_refl)) as (_ & _ & H3). apply (H3 x t Eb).
Qed.

(** What looking up gives there: one and the same answer, or none. *)
Theorem conv_one_answer md md' md'' op eh s e bs : eh_typed eh -> dwarf2sframe md op eh = Ok s ->
  (forall f, In f (functions (entries_of eh)) -> rows_near f) ->
  build md' e s = Ok bs -> wf_mode md'' -> rust_slice md'' bs ->
  exists sf u, load md'' e bs = Ok sf /\
    forall a, in_i32 a -> near md'' s a -> lookup md'' e sf a = Ok None \/ lookup md'' e sf a = Ok (Some u).
Proof.
  intros Ht H HN B Hm Hsl. pose proof (conv_plain md op eh s Ht H HN) as HP.
  pose proof (dwarf2sframe_converted _ _ _ _ Ht H) as HC. destruct HC as [_ Ho Ha].
  assert (HR : sfb_reach md' s).
  { apply sfb_sized_reach. destruct s as [o m]; cbn in *; subst o. eapply assembled_sized; [apply opts_reached|apply options_eq|exact Ha]. }
  pose proof (sfb_reach_wf _ _ HR) as W. destruct (built_image _ _ _ _ W B) as [T E].
  assert (HL : load md'' e bs = Ok (built_sf e s)) by (subst bs; apply image_loads; assumption).
  destruct (one_answer md' md'' e s bs _ HR B Hm Hsl HL HP) as (u & _ & HU). exists (built_sf e s), u. split; [exact HL|].
  intros a H1 H2. destruct (HU a H1 H2) as [[-> _]|[-> _]]; auto.
Qed.
