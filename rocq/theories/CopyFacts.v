(** Copying a section through the library (C139). *)
From Verif Require Export SectionFacts CopySpec.
From Verif Require Import StdFacts LookupFacts.

(** ** Ranges of what a loaded section shows *)

Lemma rd_s1 e off bs : in_i8 (rd_s e off 1 bs).
Proof. unfold in_i8, rd_s. pose proof (as_s_range (8 * Z.of_nat 1) (rd_u e off 1 bs) ltac:(lia)). cbn in *. lia. Qed.

Lemma loaded_options md e bs sf : wf_mode md -> rust_slice md bs -> load md e bs = Ok sf -> opts_reach (options_read sf).
Proof.
  intros Hm Hs HL. destruct (load_ok md e bs sf Hm Hs HL) as (-> & _).
  unfold options_read. apply or_fixed_ra.
  { unfold fixed_ra_offset. cbn [loaded sf_fixed_ra]. destruct (_ =? 0); cbn; [exact I|apply rd_s1]. }
  apply or_fixed_fp.
  { unfold fixed_fp_offset. cbn [loaded sf_fixed_fp]. destruct (_ =? 0); cbn; [exact I|apply rd_s1]. }
  apply or_abi; [|apply or_frame_pointer, or_new].
  unfold abi. cbn [loaded sf_abi_arch]. unfold in_u8. pose proof (rd_u1 e 4 bs). lia.
Qed.

Lemma options_read_fixed sf : so_fixed_ra (options_read sf) = fixed_ra_offset sf /\ so_fixed_fp (options_read sf) = fixed_fp_offset sf.
Proof.
  unfold options_read, options_fixed_ra, options_fixed_fp. cbn [so_fixed_ra so_fixed_fp].
  unfold fixed_ra_offset, fixed_fp_offset, non_zero.
  destruct (sf_fixed_ra sf =? 0) eqn:E1, (sf_fixed_fp sf =? 0) eqn:E2; rewrite ?E1, ?E2; auto.
Qed.

Lemma sint_in_i32 e c : c <> [] -> zlen c <= 4 -> in_i32 (sint e c).
Proof.
  intros Hc Hl. rewrite sint_dec by exact Hc.
  assert (1 <= zlen c) by (destruct c; [congruence|rewrite zlen_cons; pose proof (zlen_nonneg c); lia]).
  pose proof (as_s_range (8 * zlen c) (dec e c) ltac:(lia)) as HR.
  assert (2 ^ (8 * zlen c - 1) <= 2 ^ 31) by (apply Z.pow_le_mono_r; lia).
  unfold in_i32, i32_min, i32_max. change (2 ^ 31) with 2147483648 in *. lia.
Qed.

Lemma row_at_offsets e aw bs r rest : spec_row_at e aw bs r rest ->
  Forall in_i32 (sr_offsets r) /\ (length (sr_offsets r) <= 3)%nat.
Proof.
  intros (start & info & ow & chunks & _ & _ & _ & _ & _ & Hw & HF & _ & Hn & ->).
  pose proof (width_cases _ _ Hw) as How. split; [|rewrite map_length; unfold zlen in Hn; lia].
  apply Forall_map. eapply Forall_impl; [|exact HF]. cbv beta. intros c Hc.
  apply sint_in_i32; [intros ->; unfold zlen in Hc; cbn in Hc; lia|lia].
Qed.

Lemma rows_at_offsets e aw : forall l bs rest, spec_rows_at e aw bs l rest ->
  Forall (fun r => Forall in_i32 (sr_offsets r) /\ (length (sr_offsets r) <= 3)%nat) l.
Proof.
  induction l as [|r l IH]; intros bs rest H; [constructor|]. destruct H as (mid & H1 & H2).
  constructor; [exact (row_at_offsets _ _ _ _ _ H1)|exact (IH _ _ H2)].
Qed.

(** What is known of a row that was read. *)
Definition row_shown (en : entry) (fr : fre) : Prop :=
  0 <= fre_start_address_offset fr < en_size en /\ Forall in_i32 (fre_offsets fr) /\ (length (fre_offsets fr) <= 3)%nat.

Lemma rows_read_shown md e en good : wf_mode md -> fde_ok (en_fde en) -> all_fres md e en = Ok (map inl good) ->
  Forall (row_shown en) good.
Proof.
  intros Hm Hok HF. unfold all_fres in HF.
  pose proof (collect_starts md e _ _ good [] ltac:(rewrite app_nil_r; exact HF)) as H0.
  destruct (fri_collect_shape md e _ (fres en) _ Hm Hok HF) as (g & bad & aw & rest & EQ & _ & HS & _ & HR & _).
  assert (g = good).
  { clear - EQ. revert g EQ. induction good as [|x t IH]; intros g EQ; destruct g as [|y g]; cbn [map app] in EQ.
    - reflexivity.
    - discriminate.
    - destruct bad; discriminate.
    - injection EQ as -> EQ. f_equal. apply IH, EQ. }
  subst g. pose proof (rows_at_offsets _ _ _ _ _ HR) as HO. rewrite Forall_map in HO.
  rewrite Forall_forall in *. intros fr Hin. specialize (H0 fr Hin). destruct (HS fr Hin) as [_ Hsz]. destruct (HO fr Hin) as [A B].
  split; [cbn in Hsz; unfold en_size; lia|]. split; assumption.
Qed.

(** ** Rows made again *)

Definition opts (sf : sframe) : sframe_options := options_read sf.
Definition made (sf : sframe) (fr : fre) : row := kept_row (opts sf) (row_read sf fr).

Ltac row_cases sf fr :=
  destruct (options_read_fixed sf) as [Hora Hofp];
  unfold made, opts, row_read, fre_cfa_offset, fre_ra_offset, fre_fp_offset in *;
  let l := fresh "l" in remember (fre_offsets fr) as l eqn:El;
  destruct l as [|? [|? [|? [|? ?]]]];
  try (match goal with H : (length (_ :: _ :: _ :: _ :: _) <= 3)%nat |- _ => cbn [length] in H; exfalso; lia end);
  cbn [nth_error ok_or res] in *;
  destruct (fixed_ra_offset sf) as [?ra0|] eqn:?Era, (fixed_fp_offset sf) as [?fp0|] eqn:?Efp;
  cbn [nth_error ok_or res r_offsets row_new row_invalid row_mangled_ra_p r_start r_base r_mangled] in *.

Lemma read_start sf fr : r_start (row_read sf fr) = fre_start_address_offset fr.
Proof. unfold row_read. destruct (res _); reflexivity. Qed.
Lemma made_start sf fr : r_start (made sf fr) = fre_start_address_offset fr.
Proof. unfold made, kept_row. cbn [r_start]. apply read_start. Qed.

Lemma read_agrees sf fr x : (length (fre_offsets fr) <= 3)%nat -> r_offsets (row_read sf fr) = Some x ->
  agrees (so_fixed_ra (opts sf)) (ro_ra x) /\ agrees (so_fixed_fp (opts sf)) (ro_fp x).
Proof.
  intros HL. row_cases sf fr; intros HX; try discriminate; injection HX as <-; cbn [ro_ra ro_fp];
    rewrite Hora, Hofp; unfold agrees; split; congruence.
Qed.

Lemma made_means sf fr : (length (fre_offsets fr) <= 3)%nat ->
  (fre_offsets fr = [] -> fre_cfa_base_reg_id fr = Fp) -> intended (opts sf) (made sf fr) = observed sf fr.
Proof.
  intros HL HB. unfold made. rewrite kept_intended by (intros x Hx; exact (read_agrees sf fr x HL Hx)).
  unfold observed, intended. row_cases sf fr; rewrite ?Hora, ?Hofp; cbn [option_map ro_cfa ro_ra ro_fp or_fixed];
    try reflexivity; rewrite (HB eq_refl); reflexivity.
Qed.

Lemma made_plain sf fr : (length (fre_offsets fr) <= 3)%nat -> ~ ambiguous (opts sf) (made sf fr).
Proof.
  intros HL (HN & x & HX & HA & HP). unfold made, kept_row in HX. cbn [r_offsets] in HX.
  row_cases sf fr; rewrite ?Hora, ?Hofp in *; try discriminate; injection HX as <-; cbn [ro_ra ro_fp drop_fixed] in *; congruence.
Qed.

Lemma made_stored sf fr : (length (fre_offsets fr) <= 3)%nat -> stored_values (made sf fr) = kept_offsets sf fr.
Proof.
  intros HL. unfold stored_values, kept_offsets, made, kept_row. cbn [r_offsets].
  row_cases sf fr; rewrite ?Hora, ?Hofp; cbn [option_map ro_cfa ro_ra ro_fp drop_fixed firstn app]; reflexivity.
Qed.

Lemma read_typed sf en fr : fde_ok (en_fde en) -> opts_reach (opts sf) -> row_shown en fr -> row_typed (row_read sf fr).
Proof.
  intros (_ & Hsz & _) HO (Hst & HF & HL). apply opts_reach_wf in HO.
  assert (HI : forall v, fixed_wf v -> opt_in in_i32 v).
  { intros [z|]; cbn; [|auto]. unfold in_i8, in_i32, i32_min, i32_max. lia. }
  pose proof (HI _ (ow_fp _ HO)) as Hfp. pose proof (HI _ (ow_ra _ HO)) as Hra. clear HI HO.
  split; [rewrite read_start; unfold in_u32 in *; unfold en_size in Hst; lia|].
  row_cases sf fr; rewrite ?Hora, ?Hofp in *; repeat (match goal with H : Forall _ (_ :: _) |- _ => inversion H; clear H; subst end);
    unfold offsets_typed; cbn [ro_cfa ro_ra ro_fp opt_in] in *; auto.
Qed.

Definition same_frame (b b' : fdb) : Prop :=
  fb_options b' = fb_options b /\ fb_start b' = fb_start b /\ fb_size b' = fb_size b /\
  fb_rep_size b' = fb_rep_size b /\ fb_pauth b' = fb_pauth b.

Lemma row_added b r b' : sorted (fb_fres b) -> keyed (fb_fres b) -> fdb_row b r = Ok b' ->
  same_frame b b' /\ Permutation (rows_of b') (kept_row (fb_options b) r :: rows_of b).
Proof.
  intros Hs Hk H. pose proof (row_effect b r Hs Hk) as HE. cbv zeta in HE. unfold fdb_row in H.
  destruct (fdb_row_st b r) as [b1 [u|er|]]; cbn [fst snd] in *; try discriminate. injection H as <-.
  destruct HE as (H1 & H2 & H3 & H4 & H5 & H6). split; [repeat split; assumption|exact H6].
Qed.

Lemma rows_added sf : forall l b b', fb_options b = opts sf -> sorted (fb_fres b) -> keyed (fb_fres b) ->
  add_rows b (map (row_read sf) l) = Ok b' ->
  same_frame b b' /\ sorted (fb_fres b') /\ keyed (fb_fres b') /\
  Permutation (rows_of b') (map (made sf) l ++ rows_of b) /\
  Forall (fun fr => fre_start_address_offset fr < 0x10000000) l /\
  NoDup (map fre_start_address_offset l) /\
  (forall fr r, In fr l -> In r (rows_of b) -> r_start r <> fre_start_address_offset fr).
Proof.
  induction l as [|fr l IH]; intros b b' Ho Hs Hk H; cbn [map add_rows] in H.
  - injection H as <-. repeat split; auto; constructor.
  - destruct (fdb_row b (row_read sf fr)) as [b1|er|] eqn:E; cbn [bind] in H; try discriminate.
    pose proof (row_keeps _ _ _ Hs Hk E) as [Hs1 Hk1].
    destruct (row_added _ _ _ Hs Hk E) as [(F1 & F2 & F3 & F4 & F5) HP1].
    apply (fdb_row_ok _ _ _ Hs Hk) in E. destruct E as [E _]. apply conditions_unfold in E.
    destruct E as (C1 & _ & _ & _ & _ & C6). rewrite read_start in C1, C6.
    destruct (IH b1 b' ltac:(congruence) Hs1 Hk1 H) as ((G1 & G2 & G3 & G4 & G5) & Hs2 & Hk2 & HP & HB & HN & HD).
    rewrite Ho in HP1. change (kept_row (opts sf) (row_read sf fr)) with (made sf fr) in HP1.
    assert (HIN : forall r, r = made sf fr \/ In r (rows_of b) -> In r (rows_of b1)).
    { intros r Hr. apply (Permutation_in _ (Permutation_sym HP1)). destruct Hr as [->|Hr]; [left; reflexivity|right; exact Hr]. }
    repeat apply conj; try assumption; try congruence.
    + cbn [map app]. eapply perm_trans; [exact HP|]. eapply perm_trans; [apply Permutation_app_head, HP1|].
      apply Permutation_sym, Permutation_middle.
    + constructor; assumption.
    + cbn [map]. constructor; [|exact HN]. intros Hin. apply in_map_iff in Hin. destruct Hin as (fr' & Heq & Hin).
      apply (HD fr' (made sf fr) Hin); [apply HIN; left; reflexivity|]. rewrite made_start. congruence.
    + intros fr' r [<-|Hin] Hr; [apply C6, Hr|]. apply (HD fr' r Hin), HIN. right. exact Hr.
Qed.

Lemma rows_addable sf : forall l b, fb_options b = opts sf -> sorted (fb_fres b) -> keyed (fb_fres b) -> fb_rep_size b = None ->
  Forall (fun fr => fre_start_address_offset fr < 0x10000000 /\ fre_start_address_offset fr < fb_size b /\
            (length (fre_offsets fr) <= 3)%nat) l ->
  NoDup (map fre_start_address_offset l) ->
  (forall fr r, In fr l -> In r (rows_of b) -> r_start r <> fre_start_address_offset fr) ->
  exists b', add_rows b (map (row_read sf) l) = Ok b'.
Proof.
  induction l as [|fr l IH]; intros b Ho Hs Hk Hrep HF HN HD; cbn [map add_rows]; [eexists; reflexivity|].
  inversion HF as [|? ? (C1 & C2 & C3) HF']; subst. cbn [map] in HN. apply NoDup_cons_iff in HN. destruct HN as [HN0 HN].
  assert (E : exists b1, fdb_row b (row_read sf fr) = Ok b1).
  { eexists. apply (fdb_row_ok _ _ _ Hs Hk). split; [|reflexivity]. apply conditions_unfold. rewrite read_start.
    split; [exact C1|]. split; [congruence|]. split; [exact C2|].
    split; [|split; [|intros r' Hr'; apply (HD fr r' (or_introl eq_refl) Hr')]];
      intros x Hx; rewrite Ho; apply (read_agrees sf fr x C3 Hx). }
  destruct E as [b1 E]. rewrite E. cbn [bind].
  pose proof (row_keeps _ _ _ Hs Hk E) as [Hs1 Hk1].
  destruct (row_added _ _ _ Hs Hk E) as [(F1 & F2 & F3 & F4 & F5) HP1].
  apply IH; try assumption; try congruence.
  - rewrite F3. exact HF'.
  - intros fr' r Hin Hr. apply (Permutation_in _ HP1) in Hr. destruct Hr as [<-|Hr]; [|apply (HD fr' r (or_intror Hin) Hr)].
    unfold kept_row. cbn [r_start]. rewrite read_start. intros Heq. apply HN0. rewrite Heq. apply in_map, Hin.
Qed.

Lemma rows_added_reach : forall l b b', fdb_reach b -> Forall row_typed l -> add_rows b l = Ok b' -> fdb_reach b'.
Proof.
  induction l as [|r l IH]; intros b b' HR HT H; cbn [add_rows] in H; [injection H as <-; exact HR|].
  inversion HT as [|? ? T1 T2]; subst. destruct (fdb_row b r) as [b1|er|] eqn:E; cbn [bind] in H; try discriminate.
  apply (IH b1 b'); auto. pose proof (br_row r b T1 HR) as HB. unfold fdb_row in E.
  destruct (fdb_row_st b r) as [b2 [u|er|]]; try discriminate. injection E as <-. exact HB.
Qed.

Lemma Forall2_in_l {A B} (R : A -> B -> Prop) l l' : Forall2 R l l' -> forall x, In x l -> exists y, In y l' /\ R x y.
Proof. induction 1 as [|x y l l' H HF IH]; intros z []; [subst; exists y; auto with datatypes|destruct (IH z) as (w & ? & ?); [assumption|exists w; auto with datatypes]]. Qed.
Lemma Forall2_in_r {A B} (R : A -> B -> Prop) l l' : Forall2 R l l' -> forall y, In y l' -> exists x, In x l /\ R x y.
Proof. induction 1 as [|x y l l' H HF IH]; intros z []; [subst; exists x; auto with datatypes|destruct (IH z) as (w & ? & ?); [assumption|exists w; auto with datatypes]]. Qed.
Lemma map_inl_inj {A B} (l l' : list A) : map (@inl A B) l = map inl l' -> l = l'.
Proof. revert l'. induction l as [|x l IH]; intros [|y l'] H; try discriminate; [reflexivity|]. cbn [map] in H. injection H as -> H. f_equal. apply IH, H. Qed.

(** ** Functions made again *)

(** What a function read and made again is. *)
Definition copy_of (md : mode) (e : endian) (sf : sframe) (en : entry) (b : fdb) : Prop :=
  fb_options b = opts sf /\ fb_start b = en_start_address en /\ fb_size b = en_size en /\ fb_pauth b = en_pauth_key en /\
  fb_rep_size b = match en_fdetype en with PPcMask => en_rep_block_size en | _ => None end /\
  exists good, all_fres md e en = Ok (map inl good) /\ Forall (row_shown en) good /\ Permutation (rows_of b) (map (made sf) good).

Lemma good_rows_some l : forall good, good_rows l = Some good -> l = map inl good.
Proof.
  induction l as [|[fr|er] l IH]; intros good H; cbn [good_rows] in H; [injection H as <-; reflexivity| |discriminate].
  destruct (good_rows l) as [g|]; cbn [option_map] in H; [|discriminate]. injection H as <-. cbn [map]. f_equal. apply IH. reflexivity.
Qed.

Section Loaded.
  Variables (md : mode) (e : endian) (bs : bytes) (sf : sframe).
  Hypothesis Hm : wf_mode md.
  Hypothesis Hs : rust_slice md bs.
  Hypothesis HL : load md e bs = Ok sf.

  Lemma mask_has_block en : In en (all_fdes sf) -> en_fdetype en = PPcMask -> exists rep, en_rep_block_size en = Some rep /\ in_u8 rep.
  Proof using Hm Hs HL.
    intros Hin HT. destruct (entry_at md e bs sf Hm Hs HL en Hin) as (i & Hi & Hok & Hv & _).
    unfold en_fdetype in HT. unfold en_rep_block_size. destruct (en_fde en) as [r|r] eqn:Ef.
    - exfalso. unfold fde_fdetype in HT. destruct (fdetype _); discriminate.
    - exists (f2_rep_size r). split; [reflexivity|].
      pose proof (f_equal sd_rep Hv) as HR. cbn [view_fde fde_rep_size sd_rep] in HR. unfold spec_entry in HR. cbn [sd_rep] in HR.
      destruct (spec_version bs =? 1); [discriminate|]. injection HR as ->. rewrite u_at_rd.
      unfold in_u8. pose proof (rd_u1 e (Z.to_nat (spec_entry_pos e bs i + 17)) bs). change (Z.to_nat 1) with 1%nat. lia.
  Qed.

  Lemma entry_ok en : In en (all_fdes sf) -> fde_ok (en_fde en).
  Proof using Hm Hs HL. intros Hin. destruct (entry_at md e bs sf Hm Hs HL en Hin) as (i & _ & Hok & _). exact Hok. Qed.

  Lemma fdb_read_copy en b : In en (all_fdes sf) -> fdb_read md e sf en = Some b ->
    copy_of md e sf en b /\ fdb_reach b /\ rows_copyable md e en.
  Proof using Hm Hs HL.
    intros Hin H. pose proof (entry_ok en Hin) as Hok. pose proof (loaded_options md e bs sf Hm Hs HL) as HO.
    unfold fdb_read in H. destruct (all_fres md e en) as [items|er|] eqn:EA; cbn [res] in H; try discriminate.
    destruct (good_rows items) as [good|] eqn:EG; [|discriminate]. apply good_rows_some in EG. subst items.
    pose proof (rows_read_shown md e en good Hm Hok EA) as HF.
    destruct (add_rows _ _) as [b1|er|] eqn:ER; try discriminate.
    assert (HR1 : fdb_reach b1).
    { refine (rows_added_reach _ _ _ _ _ ER); [apply br_pauth, br_new; [exact HO|apply Hok|apply Hok]|].
      apply Forall_map. eapply Forall_impl; [|exact HF]. intros fr Hfr. apply (read_typed sf en fr Hok HO Hfr). }
    pose proof (rows_added sf good (fdb_set_pauth (en_pauth_key en) (fdb_new (options_read sf) (en_start_address en) (en_size en)))
      b1 eq_refl (SSorted_nil _) ltac:(intros ? ? []) ER) as HADD. destruct HADD as ((F1 & F2 & F3 & F4 & F5) & _ & _ & HP & HB & HN & _).
    cbn [fdb_set_pauth fdb_new fb_options fb_start fb_size fb_rep_size fb_pauth rows_of fb_fres map] in *.
    rewrite app_nil_r in HP.
    assert (HC : rows_copyable md e en) by (exists good; auto).
    assert (HX : exists good0, all_fres md e en = Ok (map inl good0) /\ Forall (row_shown en) good0 /\
      Permutation (rows_of b1) (map (made sf) good0)) by (exists good; auto).
    unfold copy_of. destruct (en_fdetype en) eqn:ET.
    - injection H as <-. repeat split; try assumption.
    - destruct (mask_has_block en Hin ET) as (rep & Er & Hr). rewrite Er in *. injection H as <-.
      cbn [fdb_pcmask fb_options fb_start fb_size fb_rep_size fb_pauth rows_of fb_fres].
      split; [repeat split; assumption|]. split; [apply br_pcmask; assumption|exact HC].
    - injection H as <-. repeat split; try assumption.
  Qed.

  Lemma fdb_read_some en : In en (all_fdes sf) -> rows_copyable md e en -> exists b, fdb_read md e sf en = Some b.
  Proof using Hm Hs HL.
    intros Hin (good & EA & HN & HB). pose proof (entry_ok en Hin) as Hok.
    pose proof (rows_read_shown md e en good Hm Hok EA) as HF.
    unfold fdb_read. rewrite EA. cbn [res]. rewrite good_rows_inl.
    destruct (rows_addable sf good (fdb_set_pauth (en_pauth_key en) (fdb_new (options_read sf) (en_start_address en) (en_size en)))) as [b' Hb'];
      try reflexivity; try exact HN; try (intros ? ? _ []); try (intros ? ? []); try apply SSorted_nil.
    - rewrite Forall_forall in *. intros fr Hfr. destruct (HF fr Hfr) as (H1 & _ & H3). split; [apply HB, Hfr|]. split; [cbn; lia|exact H3].
    - rewrite Hb'. destruct (en_fdetype en), (en_rep_block_size en); eexists; reflexivity.
  Qed.

  (** ** The whole section *)

  Lemma fdes_read_reach : forall l s s', (forall en, In en l -> In en (all_fdes sf)) -> sfb_reach md s ->
    fdes_read md e sf l s = Some s' -> sfb_reach md s' /\ sb_options s' = sb_options s /\ Forall (rows_copyable md e) l.
  Proof using Hm Hs HL.
    induction l as [|en l IH]; intros s s' HI HR H; cbn [fdes_read] in H; [injection H as <-; auto|].
    destruct (fdb_read md e sf en) as [b|] eqn:Eb; [|discriminate].
    destruct (sfb_fde s b) as [s1|er|] eqn:E1; try discriminate.
    destruct (fdb_read_copy en b (HI en (or_introl eq_refl)) Eb) as (_ & Hb & HC).
    destruct (IH s1 s' (fun x Hx => HI x (or_intror Hx)) (sr_fde md s b s1 HR Hb E1) H) as (A & B & C).
    split; [exact A|]. split; [|constructor; assumption]. rewrite B. unfold sfb_fde in E1.
    destruct (options_eqb _ _); [|discriminate]. injection E1 as <-. reflexivity.
  Qed.

  Lemma fdes_read_some : forall l s, (forall en, In en l -> In en (all_fdes sf)) -> sb_options s = opts sf ->
    Forall (rows_copyable md e) l -> exists s', fdes_read md e sf l s = Some s'.
  Proof using Hm Hs HL.
    induction l as [|en l IH]; intros s HI HO HF; cbn [fdes_read]; [eexists; reflexivity|]. inversion HF as [|? ? H1 H2]; subst.
    destruct (fdb_read_some en (HI en (or_introl eq_refl)) H1) as [b Hb]. rewrite Hb.
    destruct (fdb_read_copy en b (HI en (or_introl eq_refl)) Hb) as ((Ob & _) & _).
    unfold sfb_fde. replace (options_eqb (sb_options s) (fb_options b)) with true
      by (symmetry; apply options_eqb_spec; congruence).
    apply IH; [intros x Hx; apply HI; right; exact Hx|exact HO|exact H2].
  Qed.

  Theorem section_copyable : (exists s, section_read md e sf = Some s) <-> Forall (rows_copyable md e) (all_fdes sf).
  Proof using Hm Hs HL.
    unfold section_read. split.
    - intros [s H]. apply (fdes_read_reach _ _ _ (fun _ H => H) (sr_new md _ (loaded_options md e bs sf Hm Hs HL)) H).
    - intros HF. apply fdes_read_some; [auto|reflexivity|exact HF].
  Qed.

  Lemma fdes_read_members : forall l s s', (forall en, In en l -> In en (all_fdes sf)) -> sfb_reach md s ->
    NoDup (map en_start_address l) -> (forall en b, In en l -> In b (fdes_of s) -> fb_start b <> en_start_address en) ->
    fdes_read md e sf l s = Some s' ->
    forall b, In b (fdes_of s') <-> In b (fdes_of s) \/ exists en, In en l /\ fdb_read md e sf en = Some b.
  Proof using Hm Hs HL.
    induction l as [|en l IH]; intros s s' HI HR HN HD H b; cbn [fdes_read] in H.
    - injection H as <-. split; [auto|]. intros [Hb|(en & [] & _)]. exact Hb.
    - destruct (fdb_read md e sf en) as [b0|] eqn:Eb; [|discriminate].
      destruct (sfb_fde s b0) as [s1|er|] eqn:E1; try discriminate.
      destruct (fdb_read_copy en b0 (HI en (or_introl eq_refl)) Eb) as ((_ & Hst & _) & Hb & HC).
      cbn [map] in HN. apply NoDup_cons_iff in HN. destruct HN as [HN0 HN].
      pose proof (sr_fde md s b0 s1 HR Hb E1) as HR1.
      pose proof (sfb_reach_wf md s HR) as W. pose proof (sfb_reach_wf md s1 HR1) as W1.
      assert (HM : forall x, In x (fdes_of s1) <-> x = b0 \/ In x (fdes_of s)).
      { intros x. unfold sfb_fde in E1. destruct (options_eqb _ _); [|discriminate]. injection E1 as <-.
        unfold fdes_of. cbn [sb_fdes]. rewrite in_map_iff. split.
        - intros ([k y] & <- & Hin). apply in_insert in Hin. destruct Hin as [[= -> ->]|Hin]; [left; reflexivity|].
          right. apply in_map_iff. exists (k, y). auto.
        - intros [->|Hx]; [exists (fb_start b0, b0); split; [reflexivity|apply insert_in]|].
          pose proof (HD en x (or_introl eq_refl) Hx) as Hne. apply in_map_iff in Hx. destruct Hx as ([k y] & Hy & Hin).
          cbn [snd] in Hy. subst y. pose proof (sw_keyed _ W k x Hin) as Hk. exists (k, x). split; [reflexivity|].
          apply bt_get_in. rewrite bt_get_insert by apply W. replace (k =? fb_start b0) with false by (symmetry; apply Z.eqb_neq; congruence).
          apply in_bt_get; [apply W|exact Hin]. }
      assert (HD1 : forall en' x, In en' l -> In x (fdes_of s1) -> fb_start x <> en_start_address en').
      { intros en' x Hin Hx. apply HM in Hx. destruct Hx as [->|Hx]; [|apply (HD en' x (or_intror Hin) Hx)].
        rewrite Hst. intros Heq. apply HN0. rewrite Heq. apply in_map, Hin. }
      rewrite (IH s1 s' (fun x Hx => HI x (or_intror Hx)) HR1 HN HD1 H), HM. split.
      + intros [[->|Hx]|(en' & Hin & He)]; [right; exists en; auto with datatypes|left; exact Hx|right; exists en'; auto with datatypes].
      + intros [Hx|(en' & [<-|Hin] & He)]; [left; right; exact Hx|left; left; congruence|right; exists en'; auto].
  Qed.

  (** ** What the copy says *)

  Section Copy.
    Variables (md1 md2 : mode) (e' : endian) (s : sfb) (bs' : bytes).
    Hypothesis HR : section_read md e sf = Some s.
    Hypothesis HB : build md1 e' s = Ok bs'.
    Hypothesis Hm2 : wf_mode md2.
    Hypothesis Hs2 : rust_slice md2 bs'.

    Lemma copy_reach : sfb_reach md s /\ sb_options s = opts sf.
    Proof using Hm Hs HL HR.
      destruct (fdes_read_reach _ _ _ (fun _ H => H) (sr_new md _ (loaded_options md e bs sf Hm Hs HL)) HR) as (A & B & _). auto.
    Qed.

    Lemma copy_loads : ~ too_large s /\ load md2 e' bs' = Ok (built_sf e' s).
    Proof using Hm Hs HL HR HB Hm2 Hs2.
      destruct copy_reach as [A _]. pose proof (sfb_reach_wf md s A) as W.
      destruct (built_image md1 e' s bs' W HB) as [Hsz ->]. split; [exact Hsz|]. apply image_loads; assumption.
    Qed.

    (** A function, its copy in the builder and the copy's entry say the same. *)
    Lemma copy_says en b i a k u : In en (all_fdes sf) -> fdb_read md e sf en = Some b -> nth_error (fdes_of s) i = Some b ->
      rows_kept md e sf en ->
      ((exists good x fr, in_range (en_start_address en) (en_size en) a /\ all_fres md e en = Ok (map inl good) /\
          lib_offset en a = Some x /\ In fr good /\ fre_start_address_offset fr <= x /\
          (forall fr', In fr' good -> fre_start_address_offset fr' <= x -> fre_start_address_offset fr' <= fre_start_address_offset fr) /\
          en_pauth_key en = k /\ observed sf fr = u) <->
       (exists good x fr, in_range (en_start_address (built_entry e' s i b)) (en_size (built_entry e' s i b)) a /\
          all_fres md2 e' (built_entry e' s i b) = Ok (map inl good) /\
          lib_offset (built_entry e' s i b) a = Some x /\ In fr good /\ fre_start_address_offset fr <= x /\
          (forall fr', In fr' good -> fre_start_address_offset fr' <= x -> fre_start_address_offset fr' <= fre_start_address_offset fr) /\
          en_pauth_key (built_entry e' s i b) = k /\ observed (built_sf e' s) fr = u)).
    Proof using Hm Hs HL HR HB Hm2 Hs2.
      intros Hin HE Hnth [HT HK]. destruct copy_reach as [Hreach Hopts]. pose proof (sfb_reach_wf md s Hreach) as W.
      destruct copy_loads as [Hsz _].
      destruct (fdb_read_copy en b Hin HE) as ((C1 & C2 & C3 & C4 & C5 & good & EA & HF & HP) & _ & _).
      destruct (built_same e' s i b) as (D1 & D2 & D3 & D4 & D5 & D6).
      set (en' := built_entry e' s i b) in *.
      specialize (HK good EA). rewrite Forall_forall in HF, HK.
      assert (HIN : rows_inside b).
      { unfold rows_inside. rewrite Forall_forall. intros r Hr. apply (Permutation_in _ HP) in Hr. apply in_map_iff in Hr.
        destruct Hr as (fr & <- & Hfr). rewrite made_start, C3. apply (HF fr Hfr). }
      destruct (built_rows md2 e' s i b Hm2 W Hsz Hnth) as [HG _]. destruct (HG HIN) as (good' & EA' & HF2). clear HG. fold en' in EA'.
      destruct (in_fdes_wf s i b W Hnth) as [Wb _].
      assert (HO : forall a, lib_offset en' a = lib_offset en a).
      { intros a0. unfold lib_offset. rewrite D1, D3, D4, C2. unfold pub_type. rewrite C5.
        destruct (en_fdetype en) eqn:ET; [reflexivity| |congruence].
        destruct (mask_has_block en Hin ET) as (rep & -> & _). reflexivity. }
      assert (HM : forall fr fr', In fr good -> view_fre fr' = written (made sf fr) ->
        fre_start_address_offset fr' = fre_start_address_offset fr /\ observed (built_sf e' s) fr' = observed sf fr).
      { intros fr fr' Hfr Hv. destruct (HF fr Hfr) as (_ & _ & HL3). destruct (HK fr Hfr) as [K1 K2].
        split; [destruct (written_fields _ _ Hv) as (-> & _); apply made_start|].
        destruct (built_fixed e' s W) as [X1 X2].
        assert (Hwf : row_wf (fb_options b) (made sf fr)).
        { pose proof (bw_rows _ Wb) as HWR. rewrite Forall_forall in HWR.
          apply HWR, (Permutation_in _ (Permutation_sym HP)), in_map, Hfr. }
        rewrite <- (made_means sf fr HL3 K1), <- Hopts.
        apply (row_meaning _ (sb_options s) (made sf fr) fr' X1 X2).
        - rewrite Hopts, <- C1. apply Hwf.
        - exact Hv.
        - split; [|rewrite Hopts; apply made_plain, HL3].
          apply width_untied; [apply Hwf|]. intros HTied. apply K2. rewrite <- (made_stored sf fr HL3). exact HTied. }
      assert (M1 : forall fr', In fr' good' -> exists fr, In fr good /\
        fre_start_address_offset fr' = fre_start_address_offset fr /\ observed (built_sf e' s) fr' = observed sf fr).
      { intros fr' Hfr'. destruct (Forall2_in_r _ _ _ HF2 fr' Hfr') as (r & Hr & Hv).
        apply (Permutation_in _ HP) in Hr. apply in_map_iff in Hr. destruct Hr as (fr & <- & Hfr).
        exists fr. split; [exact Hfr|apply (HM fr fr' Hfr Hv)]. }
      assert (M2 : forall fr, In fr good -> exists fr', In fr' good' /\
        fre_start_address_offset fr' = fre_start_address_offset fr /\ observed (built_sf e' s) fr' = observed sf fr).
      { intros fr Hfr. assert (Hr : In (made sf fr) (rows_of b)) by (apply (Permutation_in _ (Permutation_sym HP)), in_map, Hfr).
        destruct (Forall2_in_l _ _ _ HF2 _ Hr) as (fr' & Hfr' & Hv). exists fr'. split; [exact Hfr'|apply (HM fr fr' Hfr Hv)]. }
      rewrite D1, D2, D5, C2, C3, C4. split.
      - intros (g & x & fr & Ha & Hg & Hx & Hfr & Hle & Hmax & Hk & Hu).
        assert (g = good) by (apply (@map_inl_inj _ read_error); congruence). subst g.
        destruct (M2 fr Hfr) as (fr' & Hfr' & S1 & O1). exists good', x, fr'. rewrite HO, S1, O1.
        repeat apply conj; try assumption; try apply Ha.
        intros f Hf Hfx. destruct (M1 f Hf) as (f0 & Hf0 & S2 & _). rewrite S2 in *. apply Hmax; assumption.
      - intros (g & x & fr' & Ha & Hg & Hx & Hfr & Hle & Hmax & Hk & Hu).
        assert (g = good') by (apply (@map_inl_inj _ read_error); congruence). subst g. rewrite HO in Hx.
        destruct (M1 fr' Hfr) as (fr & Hfr' & S1 & O1). exists good, x, fr. rewrite <- S1, <- O1.
        repeat apply conj; try assumption; try apply Ha.
        intros f Hf Hfx. destruct (M2 f Hf) as (f0 & Hf0 & S2 & _). rewrite <- S2 in *. apply Hmax; assumption.
    Qed.

    Theorem copy_same : NoDup (map en_start_address (all_fdes sf)) ->
      exists sf', load md2 e' bs' = Ok sf' /\ forall a,
        (forall en, In en (all_fdes sf) -> in_range (en_start_address en) (en_size en) a -> rows_kept md e sf en) ->
        forall k u, lib_says md e sf a k u <-> lib_says md2 e' sf' a k u.
    Proof using Hm Hs HL HR HB Hm2 Hs2.
      intros HN. destruct copy_loads as [Hsz HL2]. exists (built_sf e' s). split; [exact HL2|]. intros a HK k u.
      destruct copy_reach as [Hreach Hopts]. pose proof (sfb_reach_wf md s Hreach) as W.
      destruct (built_entries e' s W Hsz) as [HLen HNth].
      pose proof (fdes_read_members _ _ _ (fun _ H => H) (sr_new md _ (loaded_options md e bs sf Hm Hs HL)) HN ltac:(intros ? ? _ []) HR) as HMem.
      split.
      - intros (en & good & x & fr & Hin & Ha & Hg & Hx & Hfr & Hle & Hmax & Hk & Hu).
        assert (HC : rows_copyable md e en).
        { pose proof (proj1 section_copyable (ex_intro _ s HR)) as HC. rewrite Forall_forall in HC. apply HC, Hin. }
        destruct (fdb_read_some en Hin HC) as [b Hb].
        assert (Hbin : In b (fdes_of s)) by (apply HMem; right; exists en; auto).
        apply In_nth_error in Hbin. destruct Hbin as [i Hi].
        pose proof (proj1 (copy_says en b i a k u Hin Hb Hi (HK en Hin Ha))) as HS.
        destruct HS as (g & y & f & A1 & A2 & A3 & A4 & A5 & A6 & A7 & A8).
        { exists good, x, fr. repeat apply conj; try assumption; apply Ha. }
        exists (built_entry e' s i b), g, y, f. split; [apply (nth_error_In _ i), HNth, Hi|]. repeat apply conj; try assumption; apply A1.
      - intros (en' & good & x & fr & Hin & Ha & Hg & Hx & Hfr & Hle & Hmax & Hk & Hu).
        apply In_nth_error in Hin. destruct Hin as [i Hi].
        assert (Hlt : (i < length (fdes_of s))%nat) by (rewrite <- HLen; apply nth_error_Some; congruence).
        destruct (nth_error (fdes_of s) i) as [b|] eqn:Eb; [|apply nth_error_None in Eb; lia].
        pose proof (HNth i b Eb) as Hi'. assert (en' = built_entry e' s i b) by congruence. subst en'.
        pose proof (proj1 (HMem b) (nth_error_In _ _ Eb)) as HX. destruct HX as [[]|(en & Hin & Hb)].
        destruct (built_same e' s i b) as (D1 & D2 & _).
        destruct (fdb_read_copy en b Hin Hb) as ((_ & C2 & C3 & _) & _ & _).
        assert (Ha' : in_range (en_start_address en) (en_size en) a) by (rewrite <- C2, <- C3, <- D1, <- D2; exact Ha).
        pose proof (proj2 (copy_says en b i a k u Hin Hb Eb (HK en Hin Ha'))) as HS.
        destruct HS as (g & y & f & A1 & A2 & A3 & A4 & A5 & A6 & A7 & A8).
        { exists good, x, fr. repeat apply conj; try assumption; apply Ha. }
        exists en, g, y, f. repeat apply conj; try assumption; apply A1.
    Qed.
  End Copy.
End Loaded.
