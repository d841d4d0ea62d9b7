(** The properties of the converter (C46-C54). *)
From Verif Require Export ConvSection.

Lemma last_at_in eh f : last_at eh f <-> last_in (functions (entries_of eh)) f.
Proof. reflexivity. Qed.

Section Converted.
  Variables (md : mode) (op : options) (eh : eh_frame) (s : sfb).
  Hypothesis HC : converted md op eh s.

  Lemma conv_wf : sfb_wf s.
  Proof. eapply sfb_reach_wf, sfb_sized_reach, converted_sized, HC. Qed.

  Lemma conv_opt_fp : so_fixed_fp (sb_options s) = None.
  Proof. rewrite (cv_options _ _ _ _ HC). apply options_eq. Qed.

  Lemma conv_fdes : assembled op (sb_options s) (functions (entries_of eh)) (sb_fdes s).
  Proof. rewrite (cv_options _ _ _ _ HC). apply (cv_fdes _ _ _ _ HC). Qed.

  Lemma conv_fixed : so_fixed_ra (sb_options s) = fixed_ra_of op eh.
  Proof. rewrite (cv_options _ _ _ _ HC). apply options_eq. Qed.

  Lemma conv_in b : In b (fdes_of s) -> exists f, last_at eh f /\ dw_fde_typed f /\ fde_built op (sb_options s) f b.
  Proof.
    intros Hb. assert (G : bt_get (fb_start b) (sb_fdes s) = Some b) by (apply (wf_get s _ _ conv_wf); auto).
    destruct (assembled_get _ _ _ _ conv_opt_fp conv_fdes _ _ G) as (f & F1 & _ & F3 & F4). eauto.
  Qed.

  Lemma conv_has f : last_at eh f -> exists b, In b (fdes_of s) /\ fde_built op (sb_options s) f b.
  Proof.
    intros Hf. destruct (assembled_has _ _ _ _ conv_opt_fp conv_fdes f Hf) as (b & G & B).
    apply (wf_get s _ _ conv_wf) in G. exists b. tauto.
  Qed.
End Converted.

(** ** C46 *)

Theorem conv_labels md op eh s : eh_typed eh -> dwarf2sframe md op eh = Ok s ->
  so_abi (sb_options s) = abi_number (op_arch op) (effective_endian op eh) /\
  so_fixed_ra (sb_options s) = header_ra (op_arch op) (effective_endian op eh) /\
  so_fixed_fp (sb_options s) = None /\ so_flags (sb_options s) = 1.
Proof.
  intros Ht H. destruct (dwarf2sframe_converted _ _ _ _ Ht H) as [_ -> _].
  destruct (options_eq op eh) as (E1 & E2 & E3 & E4). auto.
Qed.

Theorem conv_labels_read md md' md'' op eh s e bs : eh_typed eh -> dwarf2sframe md op eh = Ok s ->
  build md' e s = Ok bs -> wf_mode md'' -> rust_slice md'' bs ->
  exists sf, load md'' e bs = Ok sf /\ flags sf = 1 /\
    abi sf = abi_number (op_arch op) (effective_endian op eh) /\
    fixed_ra_offset sf = header_ra (op_arch op) (effective_endian op eh) /\ fixed_fp_offset sf = None.
Proof.
  intros Ht H B Hm Hs. pose proof (dwarf2sframe_converted _ _ _ _ Ht H) as HC.
  assert (HR : sfb_reach md' s).
  { apply sfb_sized_reach. destruct HC as [_ Ho Ha]. destruct s as [o m]; cbn in *; subst o.
    eapply assembled_sized; [apply opts_reached|apply options_eq|exact Ha]. }
  destruct (conv_labels _ _ _ _ Ht H) as (E1 & E2 & E3 & E4).
  destruct (trip_descriptors md' md'' e s bs HR B Hm Hs) as (sf & HL & _ & F1 & F2 & F3 & F4 & _).
  exists sf. split; [exact HL|]. split; [congruence|]. split; [congruence|]. split; congruence.
Qed.

(** ** C47 *)

Lemma img_translated a o f r : so_fixed_fp o = None -> row_fine a (so_fixed_ra o) f [] r ->
  translated a o (df_start f) r (kept_row o (img a f r)).
Proof.
  intros Hfp (_ & _ & _ & Hra & _). unfold translated. cbn [r_start kept_row]. rewrite img_start.
  split; [reflexivity|]. unfold matches. split.
  2:{ intros Hu. apply classify_none in Hu. unfold img. rewrite Hu. reflexivity. }
  split.
  - intros base cfa ra fp Hr. pose proof (Hra base cfa ra fp) as Hra'. apply classify_spec in Hr.
    unfold img. rewrite Hr. apply classify_spec in Hr. unfold intended, kept_row. cbn. rewrite Hfp. cbn.
    destruct (so_fixed_ra o) as [x|] eqn:Ex; cbn; [|reflexivity]. rewrite (Hra' x Hr eq_refl). reflexivity.
  - intros Hu. apply classify_none in Hu. unfold img. rewrite Hu. split; reflexivity.
Qed.

Lemma row_fine_weaken a fixed f pre r : row_fine a fixed f pre r -> row_fine a fixed f [] r.
Proof. intros (H0 & H1 & H2 & H3 & _). split; [exact H0|]. split; [exact H1|]. split; [exact H2|]. split; [exact H3|intros ? []]. Qed.

Lemma built_fine op o f b r : fde_built op o f b -> In r (wide_rows f) -> row_fine (op_arch op) (so_fixed_ra o) f [] r.
Proof.
  intros [_ _ (l & Hl & Hf) _] Hr. unfold wide_rows in Hr. apply filter_In in Hr. destruct Hr as [Hr Hw].
  apply wideb_spec in Hw. unfold dw_rows_of in Hr. rewrite Hl in Hr. cbn in Hr.
  apply in_split in Hr. destruct Hr as (p & q & ->). eapply row_fine_weaken, Hf; [reflexivity|exact Hw].
Qed.

(** Before merging rows. *)
Lemma built_before op o f b : so_fixed_fp o = None -> fde_built op o f b -> exists b0,
  (if op_merge_fres op then merge_adjacent_fres b0 = Ok b else b = b0) /\
  sorted (fb_fres b0) /\ keyed (fb_fres b0) /\
  Permutation (rows_of b0) (map (fun r => kept_row o (img (op_arch op) f r)) (wide_rows f)).
Proof.
  intros Hfp [_ _ _ (b0 & Hp & Hm)]. destruct (partway_inv _ _ _ _ _ Hp) as (S & K & _ & _ & _ & _ & _ & E).
  exists b0. auto.
Qed.

Lemma Permutation_map_ex {A B} (g : A -> B) l (m : list B) : Permutation m (map g l) ->
  exists l', Permutation l' l /\ m = map g l'.
Proof.
  intros H. apply Permutation_map_inv in H.
  destruct H as (l' & -> & Hp). exists l'. split; [symmetry; exact Hp|reflexivity].
Qed.

Theorem conv_rows_exact md op eh s b : eh_typed eh -> dwarf2sframe md op eh = Ok s ->
  op_merge_fres op = false -> In b (fdes_of s) ->
  exists f l, last_at eh f /\ fb_start b = df_start f /\ Permutation l (wide_rows f) /\
    Forall2 (translated (op_arch op) (sb_options s) (df_start f)) l (rows_of b).
Proof.
  intros Ht H Hno Hb. pose proof (dwarf2sframe_converted _ _ _ _ Ht H) as HC.
  pose proof (conv_opt_fp _ _ _ _ HC) as Hfp.
  destruct (conv_in _ _ _ _ HC b Hb) as (f & F1 & F2 & F3).
  destruct (built_inv _ _ _ _ Hfp F3) as (_ & _ & _ & E2 & _).
  destruct (built_before _ _ _ _ Hfp F3) as (b0 & Hm & _ & _ & HP). rewrite Hno in Hm. subst b0.
  apply Permutation_map_ex in HP. destruct HP as (l & HP & Hl). exists f, l.
  split; [exact F1|]. split; [exact E2|]. split; [exact HP|]. rewrite Hl.
  assert (Hin : forall r, In r l -> In r (wide_rows f)) by (intros r Hr; eapply Permutation_in; eassumption).
  clear - Hin F3 Hfp. induction l as [|r t IH]; cbn; constructor.
  - apply img_translated; [exact Hfp|]. eapply built_fine; [exact F3|]. apply Hin. left. reflexivity.
  - apply IH. intros x Hx. apply Hin. right. exact Hx.
Qed.

(** In any case: every row comes from a DWARF row, and where a DWARF row starts
    the row in effect says what it says. *)
Lemma built_rows_any op o f b : so_fixed_fp o = None -> fde_built op o f b ->
  (forall x, In x (rows_of b) -> exists r, In r (wide_rows f) /\ translated (op_arch op) o (df_start f) r x) /\
  (forall r, In r (wide_rows f) -> exists x, in_effect (rows_of b) (off f r) x /\
     matches (op_arch op) r (intended o x) /\ (unrepresentable (op_arch op) r -> r_offsets x = None)).
Proof.
  intros Hfp F3. destruct (built_before _ _ _ _ Hfp F3) as (b0 & Hm & S & K & HP).
  assert (Hsub : forall x, In x (rows_of b) -> In x (rows_of b0)).
  { destruct (op_merge_fres op); [|subst; auto]. rewrite merge_fres_eq in Hm by assumption. injection Hm as <-.
    unfold rows_of. cbn. intros x Hx. apply in_map_iff in Hx. destruct Hx as (kv & <- & Hx).
    apply in_map, squashed_in, Hx. }
  assert (Hsays : forall x p, says (rows_of b) x p <-> says (rows_of b0) x p).
  { intros x p. destruct (op_merge_fres op); [|subst; reflexivity].
    destruct (merge_rows_preserves b0 b x p S K Hm) as (_ & _ & _ & _ & _ & HS). exact HS. }
  split.
  - intros x Hx. apply Hsub in Hx. eapply Permutation_in in Hx; [|exact HP]. apply in_map_iff in Hx.
    destruct Hx as (r & <- & Hr). exists r. split; [exact Hr|]. apply img_translated; [exact Hfp|].
    eapply built_fine; eassumption.
  - intros r Hr. pose proof (img_translated (op_arch op) o f r Hfp (built_fine _ _ _ _ _ F3 Hr)) as (T1 & T2 & T3).
    set (x0 := kept_row o (img (op_arch op) f r)) in *.
    assert (Hx0 : In x0 (rows_of b0)).
    { eapply Permutation_in; [symmetry; exact HP|]. apply in_map_iff. exists r. auto. }
    assert (Hs0 : says (rows_of b0) (off f r) (payload x0)).
    { exists x0. split; [|reflexivity]. split; [exact Hx0|]. unfold off. rewrite T1. split; [lia|].
      intros x' _ Hx'. exact Hx'. }
    apply Hsays in Hs0. destruct Hs0 as (x & He & Hp). exists x. split; [exact He|].
    unfold payload in Hp. injection Hp as P1 P2 P3.
    assert (HI : intended o x = intended o x0) by (unfold intended; rewrite P1, P2, P3; reflexivity).
    rewrite HI. split; [exact T2|]. intros Hu. rewrite P1. apply T3, Hu.
Qed.

Theorem conv_rows_any md op eh s b : eh_typed eh -> dwarf2sframe md op eh = Ok s -> In b (fdes_of s) ->
  exists f, last_at eh f /\ fb_start b = df_start f /\
    (forall x, In x (rows_of b) -> exists r, In r (wide_rows f) /\
       translated (op_arch op) (sb_options s) (df_start f) r x) /\
    (forall r, In r (wide_rows f) -> exists x, in_effect (rows_of b) (off f r) x /\
       matches (op_arch op) r (intended (sb_options s) x) /\
       (unrepresentable (op_arch op) r -> r_offsets x = None)).
Proof.
  intros Ht H Hb. pose proof (dwarf2sframe_converted _ _ _ _ Ht H) as HC.
  pose proof (conv_opt_fp _ _ _ _ HC) as Hfp.
  destruct (conv_in _ _ _ _ HC b Hb) as (f & F1 & F2 & F3).
  destruct (built_inv _ _ _ _ Hfp F3) as (_ & _ & _ & E2 & _).
  exists f. split; [exact F1|]. split; [exact E2|]. exact (built_rows_any _ _ _ _ Hfp F3).
Qed.

(** ** C48 *)

Lemma sorted_fdes s : sfb_wf s -> StronglySorted Z.lt (map fb_start (fdes_of s)).
Proof.
  intros W. pose proof (sw_sorted _ W) as HS. pose proof (sw_keyed _ W) as HK. unfold sorted in HS.
  assert (E : map fb_start (fdes_of s) = map fst (sb_fdes s)).
  { unfold fdes_of. rewrite map_map. apply map_ext_in. intros [k b] Hi. cbn. symmetry. apply HK, Hi. }
  rewrite E. exact HS.
Qed.

Theorem conv_functions md op eh s : eh_typed eh -> dwarf2sframe md op eh = Ok s ->
  (forall f, last_at eh f -> exists b, In b (fdes_of s) /\ fb_start b = df_start f /\ fb_size b = df_len f) /\
  (forall b, In b (fdes_of s) -> exists f, last_at eh f /\ fb_start b = df_start f /\ fb_size b = df_len f /\
     fb_rep_size b = None /\ fb_pauth b = KeyA) /\
  StronglySorted Z.lt (map fb_start (fdes_of s)).
Proof.
  intros Ht H. pose proof (dwarf2sframe_converted _ _ _ _ Ht H) as HC.
  pose proof (conv_opt_fp _ _ _ _ HC) as Hfp. split; [|split].
  - intros f Hf. destruct (conv_has _ _ _ _ HC f Hf) as (b & Hb & HB).
    destruct (built_inv _ _ _ _ Hfp HB) as (_ & _ & _ & E2 & E3 & _). eauto.
  - intros b Hb. destruct (conv_in _ _ _ _ HC b Hb) as (f & F1 & _ & F3).
    destruct (built_inv _ _ _ _ Hfp F3) as (_ & _ & _ & E2 & E3 & E4 & E5). exists f. auto 10.
  - apply sorted_fdes. eapply conv_wf, HC.
Qed.

(** Every described start has a last description. *)
Lemma last_at_exists eh f : In f (functions (entries_of eh)) -> exists g, last_at eh g /\ df_start g = df_start f.
Proof. apply last_in_exists. Qed.

(** ** C49 *)

Lemma Forall2_in_l {A B} (P : A -> B -> Prop) l l' a : Forall2 P l l' -> In a l -> exists b, In b l' /\ P a b.
Proof.
  intros H. induction H as [|x y t t' Hp _ IH]; [intros []|]. intros [->|Hi]; [exists y; split; [left; reflexivity|exact Hp]|].
  destruct (IH Hi) as (b & H1 & H2). exists b. split; [right; exact H1|exact H2].
Qed.
Lemma Forall2_in_r {A B} (P : A -> B -> Prop) l l' b : Forall2 P l l' -> In b l' -> exists a, In a l /\ P a b.
Proof.
  intros H. induction H as [|x y t t' Hp _ IH]; [intros []|]. intros [->|Hi]; [exists x; split; [left; reflexivity|exact Hp]|].
  destruct (IH Hi) as (a & H1 & H2). exists a. split; [right; exact H1|exact H2].
Qed.

Lemma map_inl_inj {A B} (l l' : list A) : map (@inl A B) l = map inl l' -> l = l'.
Proof.
  revert l'. induction l as [|x t IH]; intros [|y t'] H; try discriminate; [reflexivity|].
  cbn in H. injection H as -> H. f_equal. apply IH, H.
Qed.

Lemma ok_inj {E A} (x y : A) : @Ok E A x = Ok y -> x = y.
Proof. intros [= H]. exact H. Qed.

Lemma stored_img a o f r base cfa ra fp : so_fixed_fp o = None -> representable a r base cfa ra fp ->
  stored_values (kept_row o (img a f r)) = stored_for (so_fixed_ra o) cfa ra fp.
Proof.
  intros Hfp Hr. apply classify_spec in Hr. unfold img. rewrite Hr. unfold stored_values, kept_row, stored_for. cbn.
  rewrite Hfp. destruct (so_fixed_ra o); reflexivity.
Qed.

Lemma img_good a o f r : so_fixed_fp o = None -> ~ clash a (so_fixed_ra o) r ->
  ~ tied (kept_row o (img a f r)) /\ ~ ambiguous o (kept_row o (img a f r)).
Proof.
  intros Hfp Hc. destruct (classify a r) as [[[[base cfa] ra] fp]|] eqn:E.
  - pose proof (proj1 (classify_spec a r base cfa ra fp) E) as Hr. split.
    + intros (m & Hd & Hm & Hi). rewrite (stored_img a o f r _ _ _ _ Hfp Hr) in *. apply Hc.
      exists base, cfa, ra, fp, m. auto.
    + intros (Hn & x & Hx & Hra & _). unfold img in Hx. rewrite E in Hx. cbn in Hx. injection Hx as <-. cbn in Hra.
      rewrite Hn in Hra. discriminate.
  - unfold img. rewrite E. split.
    + intros (m & Hd & _). discriminate.
    + intros (_ & x & Hx & _). discriminate.
Qed.

(** For anything assembled from functions: the section says what the row in
    effect says. *)
Theorem assembled_end_to_end md' md'' op o l s e bs : opts_reach o -> so_fixed_fp o = None ->
  sb_options s = o -> assembled op o l (sb_fdes s) ->
  build md' e s = Ok bs -> wf_mode md'' -> rust_slice md'' bs ->
  (forall f r, last_in l f -> In r (wide_rows f) -> ~ clash (op_arch op) (so_fixed_ra o) r) ->
  exists sf, load md'' e bs = Ok sf /\
    (forall a f r, last_in l f -> in_range (df_start f) (df_len f) a -> In r (wide_rows f) -> dr_start r <= a ->
       (forall r', In r' (wide_rows f) -> dr_start r' <= a -> dr_start r' <= dr_start r) ->
       exists u, section_says md'' e sf a u /\ matches (op_arch op) r u) /\
    (forall a u, section_says md'' e sf a u ->
       exists f r, last_in l f /\ in_range (df_start f) (df_len f) a /\ In r (wide_rows f) /\ dr_start r <= a) /\
    (forall a u u', section_says md'' e sf a u -> section_says md'' e sf a u' -> u = u').
Proof.
  intros Hor Hfp0 Ho Ha B Hm Hs Hgood.
  assert (Hfp : so_fixed_fp (sb_options s) = None) by congruence.
  assert (HZ : sfb_sized md' s).
  { destruct s as [o' m]; cbn in *; subst o'. eapply assembled_sized; eassumption. }
  destruct (sfb_sized_reach md' s HZ) as [HR _].
  assert (HW : sfb_wf s) by (eapply sfb_reach_wf, HR).
  assert (Hin : forall b, In b (fdes_of s) -> exists f, last_in l f /\ fde_built op (sb_options s) f b).
  { intros b Hb. assert (G : bt_get (fb_start b) (sb_fdes s) = Some b) by (apply (wf_get s _ _ HW); auto).
    destruct (assembled_get _ _ _ _ Hfp0 Ha _ _ G) as (f & F1 & F2 & F3 & F4). exists f. rewrite Ho. auto. }
  assert (Hhas : forall f, last_in l f -> exists b, In b (fdes_of s) /\ fde_built op (sb_options s) f b).
  { intros f Hf. destruct (assembled_has _ _ _ _ Hfp0 Ha f Hf) as (b & G & F). apply (wf_get s _ _ HW) in G.
    exists b. rewrite Ho. tauto. }
  assert (Hpre : forall b, In b (fdes_of s) -> exists f b0, last_in l f /\ fde_built op (sb_options s) f b /\
    sorted (fb_fres b0) /\ keyed (fb_fres b0) /\
    Permutation (rows_of b0) (map (fun r => kept_row (sb_options s) (img (op_arch op) f r)) (wide_rows f)) /\
    (forall x, In x (rows_of b) -> In x (rows_of b0)) /\
    (forall x p, says (rows_of b) x p <-> says (rows_of b0) x p)).
  { intros b Hb. destruct (Hin b Hb) as (f & F1 & F3).
    destruct (built_before _ _ _ _ Hfp F3) as (b0 & Hmm & S & K & HP).
    exists f, b0. split; [exact F1|]. split; [exact F3|]. split; [exact S|]. split; [exact K|]. split; [exact HP|]. split.
    - destruct (op_merge_fres op); [|subst; auto]. rewrite merge_fres_eq in Hmm by assumption. injection Hmm as <-.
      unfold rows_of. cbn. intros x Hx. apply in_map_iff in Hx. destruct Hx as (kv & <- & Hx).
      apply in_map, squashed_in, Hx.
    - intros x p. destruct (op_merge_fres op); [|subst; reflexivity].
      destruct (merge_rows_preserves b0 b x p S K Hmm) as (_ & _ & _ & _ & _ & HS). exact HS. }
  destruct (trip_rows_good md' md'' e s bs HZ B Hm Hs) as (sf & HL & HF).
  { intros b x Hb Hx. destruct (Hpre b Hb) as (f & b0 & F1 & F3 & _ & _ & HP & Hsub & _).
    apply Hsub in Hx. eapply Permutation_in in Hx; [|exact HP]. apply in_map_iff in Hx. destruct Hx as (r & <- & Hr).
    apply img_good; [exact Hfp|]. rewrite Ho. apply (Hgood f r F1 Hr). }
  destruct (trip_descriptors md' md'' e s bs HR B Hm Hs) as (sf' & HL' & _ & _ & _ & _ & _ & _ & _ & _ & HD).
  rewrite HL in HL'. injection HL' as <-. exists sf. split; [exact HL|].
  (* pair entries with functions *)
  assert (HFD : Forall2 (fun b en => same_descriptor b en /\ exists good, all_fres md'' e en = Ok (map inl good) /\
      Forall2 (fun r fr => fre_start_address_offset fr = r_start r /\ observed sf fr = intended (sb_options s) r)
        (rows_of b) good) (fdes_of s) (all_fdes sf)).
  { clear - HF HD. induction HD as [|b en t t' Hb _ IH]; inversion HF; subst; constructor; auto. }
  split; [|split].
  - intros a f r F1 Hrng Hw Hcov Hlast.
    destruct (Hhas f F1) as (b & Hb & HB).
    destruct (Hpre b Hb) as (f' & b0 & F1' & HB' & S & K & HP & Hsub & Hsays).
    destruct (built_inv _ _ _ _ Hfp HB) as (S1 & K1 & E1 & E2 & E3 & _).
    destruct (built_inv _ _ _ _ Hfp HB') as (_ & _ & _ & E2' & _).
    assert (f' = f) by (eapply last_in_fun; [exact F1'|exact F1|congruence]). subst f'.
    pose proof (img_translated (op_arch op) (sb_options s) f r Hfp (built_fine _ _ _ _ _ HB Hw)) as (T1 & T2 & T3).
    set (x0 := kept_row (sb_options s) (img (op_arch op) f r)) in *.
    assert (Hs0 : says (rows_of b0) (a - df_start f) (payload x0)).
    { exists x0. split; [|reflexivity]. split.
      - eapply Permutation_in; [symmetry; exact HP|]. apply in_map_iff. exists r. auto.
      - rewrite T1. split; [lia|]. intros x' Hx' Hle.
        eapply Permutation_in in Hx'; [|exact HP]. apply in_map_iff in Hx'. destruct Hx' as (r' & <- & Hr').
        cbn [r_start kept_row] in *. rewrite img_start in *. unfold off in *.
        specialize (Hlast r' Hr'). lia. }
    apply Hsays in Hs0. destruct Hs0 as (x & (Hx & Hle & Hmax) & Hp).
    assert (HI : intended (sb_options s) x = intended (sb_options s) x0).
    { unfold payload in Hp. injection Hp as P1 P2 P3. unfold intended. rewrite P1, P2, P3. reflexivity. }
    destruct (Forall2_in_l _ _ _ _ HFD Hb) as (en & Hen & (D1 & D2 & _) & good & Hg & HG).
    destruct (Forall2_in_l _ _ _ _ HG Hx) as (fr & Hfr & G1 & G2).
    exists (intended (sb_options s) x). split; [|rewrite HI; exact T2].
    exists en, good, fr. split; [exact Hen|]. rewrite D1, D2, E2, E3. split; [exact Hrng|].
    split; [exact Hg|]. split; [exact Hfr|]. rewrite G1. split; [lia|]. split; [|exact G2].
    intros fr' Hfr' Hle'. destruct (Forall2_in_r _ _ _ _ HG Hfr') as (x' & Hx' & G1' & _). rewrite G1' in *.
    apply Hmax; [exact Hx'|lia].
  - intros a u (en & good & fr & Hen & Hrng & Hg & Hfr & Hle & _).
    destruct (Forall2_in_r _ _ _ _ HFD Hen) as (b & Hb & (D1 & D2 & _) & gd & HG1 & HG2).
    rewrite Hg in HG1. apply ok_inj, map_inl_inj in HG1. subst gd.
    destruct (Forall2_in_r _ _ _ _ HG2 Hfr) as (x & Hx & X1 & _).
    destruct (Hpre b Hb) as (f & b0 & F1 & F3 & _ & _ & HP & Hsub & _).
    destruct (built_inv _ _ _ _ Hfp F3) as (_ & _ & _ & E2 & E3 & _).
    apply Hsub in Hx. eapply Permutation_in in Hx; [|exact HP]. apply in_map_iff in Hx. destruct Hx as (r & <- & Hr).
    exists f, r. split; [exact F1|]. split; [rewrite <- E2, <- E3, <- D1, <- D2; exact Hrng|]. split; [exact Hr|].
    cbn [r_start kept_row] in X1. rewrite img_start in X1. unfold off in X1. lia.
  - intros a u u' (en & good & fr & Hen & Hrng & Hg & Hfr & Hle & Hmax & <-)
      (en' & good' & fr' & Hen' & Hrng' & Hg' & Hfr' & Hle' & Hmax' & <-).
    destruct (Forall2_in_r _ _ _ _ HFD Hen) as (b & Hb & (D1 & D2 & _) & gd & HG1 & HG2).
    destruct (Forall2_in_r _ _ _ _ HFD Hen') as (b' & Hb' & (D1' & D2' & _) & gd' & HG1' & HG2').
    assert (b = b').
    { rewrite D1, D2 in Hrng. rewrite D1', D2' in Hrng'. unfold in_range in *.
      destruct (Z.eq_dec (fb_start b) (fb_start b')) as [Eq|Ne].
      - assert (X1 : bt_get (fb_start b) (sb_fdes s) = Some b) by (apply (wf_get s _ _ HW); auto).
        assert (X2 : bt_get (fb_start b) (sb_fdes s) = Some b') by (apply (wf_get s _ _ HW); auto). congruence.
      - exfalso. pose proof (overlap_sound md' e s HR) as [_ HO].
        assert (HX : overlapping s) by (eapply (shared_overlapping s b b' a); try eassumption; split; lia).
        destruct (HO HX) as [X|[X _]]; congruence. }
    subst b'. rewrite Hg in HG1. rewrite Hg' in HG1'. apply ok_inj, map_inl_inj in HG1, HG1'. subst gd gd'.
    destruct (Forall2_in_r _ _ _ _ HG2 Hfr) as (x & Hx & X1 & ->).
    destruct (Forall2_in_r _ _ _ _ HG2' Hfr') as (x' & Hx' & X1' & ->).
    assert (x = x'); [|congruence].
    assert (Hstart : r_start x = r_start x').
    { destruct (Forall2_in_l _ _ _ _ HG2' Hx) as (z & Hz & Z1 & _).
      destruct (Forall2_in_l _ _ _ _ HG2 Hx') as (z' & Hz' & Z1' & _).
      pose proof (Hmax' z Hz). pose proof (Hmax z' Hz'). lia. }
    destruct (Hin b Hb) as (f & F1 & F3).
    destruct (built_inv _ _ _ _ Hfp F3) as (S1 & K1 & _).
    unfold rows_of in Hx, Hx'. apply in_map_iff in Hx. destruct Hx as ([k v] & <- & Hx). cbn [snd] in *.
    apply in_map_iff in Hx'. destruct Hx' as ([k' v'] & <- & Hx'). cbn [snd] in *.
    rewrite <- (K1 _ _ Hx), <- (K1 _ _ Hx') in Hstart. subst k'.
    apply (in_bt_get _ _ _ S1) in Hx. apply (in_bt_get _ _ _ S1) in Hx'. congruence.
Qed.

Theorem conv_end_to_end md md' md'' op eh s e bs : eh_typed eh -> dwarf2sframe md op eh = Ok s ->
  build md' e s = Ok bs -> wf_mode md'' -> rust_slice md'' bs ->
  (forall f, last_at eh f -> rows_disjoint f /\
     forall r, In r (wide_rows f) -> ~ clash (op_arch op) (fixed_ra_of op eh) r) ->
  exists sf, load md'' e bs = Ok sf /\
    (forall a r, dwarf_says eh a r -> exists u, section_says md'' e sf a u /\ matches (op_arch op) r u) /\
    (forall a u, section_says md'' e sf a u ->
       exists f r, last_at eh f /\ in_range (df_start f) (df_len f) a /\ In r (wide_rows f) /\ dr_start r <= a) /\
    (forall a u u', section_says md'' e sf a u -> section_says md'' e sf a u' -> u = u').
Proof.
  intros Ht H B Hm Hs Hgood. pose proof (dwarf2sframe_converted _ _ _ _ Ht H) as HC.
  pose proof (conv_fixed _ _ _ _ HC) as Hra. destruct HC as [_ Ho Ha].
  destruct (assembled_end_to_end md' md'' op _ _ s e bs (opts_reached op eh) (proj1 (options_eq op eh)) Ho Ha B Hm Hs)
    as (sf & HL & H1 & H2 & H3).
  { intros f r F1 Hr. rewrite <- Ho, Hra. apply (Hgood f F1), Hr. }
  exists sf. split; [exact HL|]. split; [|split; [exact H2|exact H3]].
  intros a r (f & F1 & Hin & Hr & Hcov).
  assert (Hw : In r (wide_rows f)).
  { unfold wide_rows. apply filter_In. split; [exact Hr|]. apply wideb_spec. unfold wide. lia. }
  apply (H1 a f r F1 Hin Hw); [lia|]. intros r' Hr' Hle.
  destruct (Z_lt_ge_dec (dr_start r) (dr_start r')) as [Hlt|]; [|lia].
  destruct (Hgood f F1) as [Hdis _]. specialize (Hdis r r' Hw Hr' Hlt). lia.
Qed.
