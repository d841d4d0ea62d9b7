(** Order of the entries, functions on their own, tables with the same meaning:
    proofs (C117, C118, C121). *)
From Verif Require Export RelateSpec.
From Verif Require Export ConvOptions SectionFacts.
Open Scope Z_scope.
Open Scope list_scope.

(** ** What determines the result *)

(** The functions that count and what is built for each. *)
Lemma assembled_ext op o l l' m m' : so_fixed_fp o = None -> assembled op o l m -> assembled op o l' m' ->
  (forall f b, last_in l f -> fde_built op o f b ->
     exists f', last_in l' f' /\ df_start f' = df_start f /\ fde_built op o f' b) ->
  (forall f b, last_in l' f -> fde_built op o f b ->
     exists f', last_in l f' /\ df_start f' = df_start f /\ fde_built op o f' b) ->
  m = m'.
Proof.
  intros Hfp HA HA' H1 H2.
  pose proof (proj1 (assembled_sorted _ _ _ _ Hfp HA)) as S. pose proof (proj1 (assembled_sorted _ _ _ _ Hfp HA')) as S'.
  apply bt_ext; [exact S|exact S'|]. intros k.
  destruct (bt_get k m) as [b|] eqn:G.
  - destruct (assembled_get _ _ _ _ Hfp HA _ _ G) as (f & F1 & <- & _ & F2).
    destruct (H1 f b F1 F2) as (f' & F1' & E & F2'). rewrite <- E.
    destruct (assembled_has _ _ _ _ Hfp HA' _ F1') as (b' & -> & B'). f_equal.
    eapply built_fun; [reflexivity|reflexivity|exact B'|exact F2'].
  - destruct (bt_get k m') as [b|] eqn:G'; [|reflexivity].
    destruct (assembled_get _ _ _ _ Hfp HA' _ _ G') as (f & F1 & <- & _ & F2).
    destruct (H2 f b F1 F2) as (f' & F1' & E & F2').
    destruct (assembled_has _ _ _ _ Hfp HA _ F1') as (b' & G2 & _). rewrite E, G in G2. discriminate.
Qed.

Lemma converted_sfb md op eh s : converted md op eh s -> s = Sfb (conv_sfoptions op eh) (sb_fdes s).
Proof. intros [_ H _]. destruct s. cbn in *. congruence. Qed.

Lemma endian_sfoptions op eh eh' : effective_endian op eh' = effective_endian op eh ->
  conv_sfoptions op eh' = conv_sfoptions op eh.
Proof.
  intros H. unfold conv_sfoptions. replace (conv_abi op eh') with (conv_abi op eh); [reflexivity|].
  unfold conv_abi, effective_endian in *. rewrite H. reflexivity.
Qed.
Lemma endian_fixed op eh eh' : effective_endian op eh' = effective_endian op eh ->
  fixed_ra_of op eh' = fixed_ra_of op eh.
Proof. intros H. unfold fixed_ra_of. rewrite H. reflexivity. Qed.

Lemma fine_converts md op eh : eh_typed eh -> section_fine md op eh ->
  exists s, dwarf2sframe md op eh = Ok s /\ converted md op eh s.
Proof.
  intros Ht Hf. destruct (dwarf2sframe_fate md op eh Ht) as [H|(q & P1 & _)]; [exact H|].
  exfalso. eapply section_problem_not_fine; eassumption.
Qed.

(** ** C117: order *)

Lemma functions_filter l : functions (filter not_cie l) = functions l.
Proof. induction l as [|[] t IH]; cbn; rewrite ?IH; reflexivity. Qed.

Lemma functions_perm l l' : Permutation l l' -> Permutation (functions l) (functions l').
Proof.
  induction 1 as [|[] l l' _ IH|[] [] l|l l' l'' _ IH _ IH']; cbn; auto.
  - apply perm_swap.
  - eapply perm_trans; eassumption.
Qed.

Lemma reordered_functions eh eh' : reordered eh eh' ->
  Permutation (functions (entries_of eh)) (functions (entries_of eh')).
Proof.
  intros [H _ _]. rewrite <- (functions_filter (entries_of eh)), <- (functions_filter (entries_of eh')).
  apply functions_perm, H.
Qed.

Lemma reordered_sym eh eh' : reordered eh eh' -> reordered eh' eh.
Proof. intros [H1 H2 H3]. constructor; [apply Permutation_sym, H1|congruence|congruence]. Qed.

Lemma Forall_not_cie (P : dw_entry -> Prop) l : P DwCie -> (Forall P (filter not_cie l) <-> Forall P l).
Proof.
  intros H0. rewrite !Forall_forall. split; intros H x Hx.
  - destruct (not_cie x) eqn:E; [apply H, filter_In; auto|]. destruct x; [exact H0|discriminate|discriminate].
  - apply filter_In in Hx. apply H, Hx.
Qed.

Lemma reordered_Forall (P : dw_entry -> Prop) eh eh' : P DwCie -> reordered eh eh' ->
  Forall P (entries_of eh) -> Forall P (entries_of eh').
Proof.
  intros H0 [H _ _] HF. apply Forall_not_cie; [exact H0|]. apply Forall_not_cie in HF; [|exact H0].
  eapply Permutation_Forall; eassumption.
Qed.

Lemma reordered_endian op eh eh' : reordered eh eh' -> effective_endian op eh' = effective_endian op eh.
Proof. intros [_ _ H]. unfold effective_endian. rewrite H. reflexivity. Qed.

Lemma reordered_once md op eh eh' s : eh_typed eh -> reordered eh eh' ->
  (forall f, last_at eh f <-> last_at eh' f) -> dwarf2sframe md op eh = Ok s -> dwarf2sframe md op eh' = Ok s.
Proof.
  intros Ht HR HL H. pose proof (reordered_endian op _ _ HR) as HE.
  pose proof (dwarf2sframe_converted _ _ _ _ Ht H) as HC.
  assert (Ht' : eh_typed eh') by (apply (reordered_Forall _ eh); [exact I|exact HR|exact Ht]).
  destruct (fine_converts md op eh' Ht') as (s' & H' & HC').
  { destruct HC as [[F1 F2] _ _]. split.
    - rewrite (endian_fixed op eh eh' HE). apply (reordered_Forall _ eh); [exact I|exact HR|exact F1].
    - rewrite (rd_end _ _ HR). exact F2. }
  rewrite H'. f_equal. rewrite (converted_sfb _ _ _ _ HC), (converted_sfb _ _ _ _ HC'), (endian_sfoptions op eh eh' HE).
  f_equal. symmetry. destruct HC as [_ _ A], HC' as [_ _ A']. rewrite (endian_sfoptions op eh eh' HE) in A'.
  eapply assembled_ext; [apply options_eq|exact A|exact A'| |]; intros f b Hf Hb; exists f;
    (split; [apply HL, Hf|auto]).
Qed.

Theorem order_harmless md op eh eh' s : eh_typed eh -> reordered eh eh' ->
  (forall f, last_at eh f <-> last_at eh' f) ->
  (dwarf2sframe md op eh = Ok s <-> dwarf2sframe md op eh' = Ok s).
Proof.
  intros Ht HR HL. split.
  - apply reordered_once; assumption.
  - apply reordered_once; [|apply reordered_sym, HR|intros f; symmetry; apply HL].
    apply (reordered_Forall _ eh); [exact I|exact HR|exact Ht].
Qed.

Lemma distinct_last eh f : distinct_starts eh -> (last_at eh f <-> In f (functions (entries_of eh))).
Proof.
  intros HN. split.
  - intros (pre & post & H & _). rewrite H. apply in_or_app. right. left. reflexivity.
  - intros H. apply in_split in H. destruct H as (pre & post & H). exists pre, post. split; [exact H|].
    intros f' Hf' E. unfold distinct_starts in HN. rewrite H, map_app in HN. cbn [map] in HN.
    apply NoDup_remove_2 in HN. apply HN, in_or_app. right. rewrite <- E. apply in_map, Hf'.
Qed.

Theorem order_harmless_distinct md op eh eh' s : eh_typed eh -> reordered eh eh' -> distinct_starts eh ->
  (dwarf2sframe md op eh = Ok s <-> dwarf2sframe md op eh' = Ok s).
Proof.
  intros Ht HR HD. apply order_harmless; [exact Ht|exact HR|]. intros f.
  pose proof (reordered_functions _ _ HR) as HP.
  assert (HD' : distinct_starts eh').
  { unfold distinct_starts in *. eapply Permutation_NoDup; [apply Permutation_map, HP|exact HD]. }
  rewrite !distinct_last by assumption. split; apply Permutation_in; [|apply Permutation_sym]; exact HP.
Qed.

(** ** C118: each function on its own *)

Lemma last_at_app_r eh eh' big en f : last_at eh' f ->
  last_at (EhFrame big (DwEntries (entries_of eh ++ entries_of eh') en)) f.
Proof.
  intros (pre & post & H & Hl). exists (functions (entries_of eh) ++ pre), post. split; [|exact Hl].
  unfold entries_of at 1. cbn [eh_entries ents_list]. rewrite functions_app, H, app_assoc. reflexivity.
Qed.

Lemma built_in md op eh s f : eh_typed eh -> converted md op eh s -> last_at eh f ->
  exists b, In b (fdes_of s) /\ fb_start b = df_start f /\ fde_built op (conv_sfoptions op eh) f b.
Proof.
  intros Ht HC Hf. destruct (conv_has md op eh s HC f Hf) as (b & Hb & B).
  exists b. split; [exact Hb|]. rewrite (cv_options _ _ _ _ HC) in B.
  destruct (built_inv _ _ _ _ (proj1 (options_eq op eh)) B) as (_ & _ & _ & E & _). auto.
Qed.

Theorem function_on_its_own md md' op eh eh' s s' f : eh_typed eh -> eh_typed eh' ->
  effective_endian op eh' = effective_endian op eh ->
  dwarf2sframe md op eh = Ok s -> dwarf2sframe md' op eh' = Ok s' -> last_at eh f -> last_at eh' f ->
  exists b, In b (fdes_of s) /\ In b (fdes_of s') /\ fb_start b = df_start f.
Proof.
  intros Ht Ht' HE H H' Hf Hf'.
  pose proof (dwarf2sframe_converted _ _ _ _ Ht H) as HC. pose proof (dwarf2sframe_converted _ _ _ _ Ht' H') as HC'.
  destruct (built_in _ _ _ _ _ Ht HC Hf) as (b & B1 & B2 & B3).
  destruct (built_in _ _ _ _ _ Ht' HC' Hf') as (b' & B1' & B2' & B3').
  rewrite (endian_sfoptions op eh eh' HE) in B3'. rewrite (built_fun op op _ _ _ _ eq_refl eq_refl B3 B3') in *.
  exists b. auto.
Qed.

Lemma built_here md op eh s f b : eh_typed eh -> converted md op eh s -> last_at eh f ->
  fde_built op (conv_sfoptions op eh) f b -> In b (fdes_of s).
Proof.
  intros Ht HC Hf B. destruct (built_in _ _ _ _ _ Ht HC Hf) as (b' & B1 & _ & B3).
  rewrite (built_fun op op _ _ _ _ eq_refl eq_refl B3 B). exact B1.
Qed.

Lemma built_from md op eh s b : converted md op eh s -> In b (fdes_of s) ->
  exists f, last_at eh f /\ fde_built op (conv_sfoptions op eh) f b /\ fb_start b = df_start f.
Proof.
  intros HC Hb. destruct (conv_in md op eh s HC b Hb) as (f & F1 & _ & F3). rewrite (cv_options _ _ _ _ HC) in F3.
  exists f. split; [exact F1|]. split; [exact F3|].
  apply (built_inv _ _ _ _ (proj1 (options_eq op eh)) F3).
Qed.

Lemma joined_functions eh eh' :
  functions (entries_of (joined eh eh')) = functions (entries_of eh) ++ functions (entries_of eh').
Proof. unfold joined, entries_of at 1. cbn [eh_entries ents_list]. apply functions_app. Qed.

Lemma joined_last eh eh' f : last_at (joined eh eh') f <->
  last_at eh' f \/ (last_at eh f /\ forall f', last_at eh' f' -> df_start f' <> df_start f).
Proof.
  split.
  - intros (pre & post & H & Hl). rewrite joined_functions in H.
    destruct (app_eq_app _ _ _ _ H) as (l & [[H1 H2]|[H1 H2]]).
    + destruct l as [|x l].
      * rewrite app_nil_r in H1. left. exists [], post. cbn in *. auto.
      * cbn in H2. injection H2 as <- H2. right. split.
        -- exists pre, l. split; [exact H1|]. intros f' Hf'. apply Hl. rewrite H2. apply in_or_app. left. exact Hf'.
        -- intros f' (p & q & Hf' & _). apply Hl. rewrite H2, Hf'. apply in_or_app. right.
           apply in_or_app. right. left. reflexivity.
    + left. exists l, post. auto.
  - intros [H|[(pre & post & H & Hl) Hd]]; [apply last_at_app_r, H|].
    exists pre, (post ++ functions (entries_of eh')). split.
    + rewrite joined_functions, H, <- app_assoc. reflexivity.
    + intros f' Hf'. apply in_app_or in Hf'. destruct Hf' as [Hf'|Hf']; [apply Hl, Hf'|].
      destruct (last_at_exists eh' f' Hf') as (g & G1 & G2). rewrite <- G2. apply Hd, G1.
Qed.

Lemma joined_union md op eh eh' s s' s'' : eh_typed eh -> eh_typed eh' ->
  effective_endian op eh' = effective_endian op eh ->
  converted md op eh s -> converted md op eh' s' -> converted md op (joined eh eh') s'' -> union_of s s' s''.
Proof.
  intros Ht Ht' HE HC HC' HC''. pose proof (endian_sfoptions op eh eh' HE) as HO.
  assert (HE'' : effective_endian op (joined eh eh') = effective_endian op eh) by reflexivity.
  assert (HO'' : conv_sfoptions op (joined eh eh') = conv_sfoptions op eh) by reflexivity.
  assert (Ht'' : eh_typed (joined eh eh')) by (apply Forall_app; auto).
  split; [rewrite (cv_options _ _ _ _ HC''), (cv_options _ _ _ _ HC'); congruence|].
  intros b. split.
  - intros Hb. destruct (built_from _ _ _ _ _ HC'' Hb) as (f & F1 & F2 & F3). rewrite HO'' in F2.
    apply joined_last in F1. destruct F1 as [F1|[F1 F4]].
    + left. eapply built_here; [exact Ht'|exact HC'|exact F1|rewrite HO; exact F2].
    + right. split; [exact (built_here _ _ _ _ _ _ Ht HC F1 F2)|]. intros b' Hb'.
      destruct (built_from _ _ _ _ _ HC' Hb') as (f' & F1' & _ & ->). rewrite F3. apply F4, F1'.
  - intros [Hb|[Hb Hd]].
    + destruct (built_from _ _ _ _ _ HC' Hb) as (f & F1 & F2 & F3).
      eapply built_here; [exact Ht''|exact HC''|apply joined_last; left; exact F1|rewrite HO'', <- HO; exact F2].
    + destruct (built_from _ _ _ _ _ HC Hb) as (f & F1 & F2 & F3).
      eapply built_here; [exact Ht''|exact HC''| |rewrite HO''; exact F2]. apply joined_last. right. split; [exact F1|].
      intros f' Hf'. destruct (built_in _ _ _ _ _ Ht' HC' Hf') as (b' & B1 & B2 & _). rewrite <- B2, <- F3. apply Hd, B1.
Qed.

Theorem joined_converts md op eh eh' : eh_typed eh -> eh_typed eh' ->
  effective_endian op eh' = effective_endian op eh -> ents_end (eh_entries eh) = None ->
  (forall s'', dwarf2sframe md op (joined eh eh') = Ok s'' ->
     exists s s', dwarf2sframe md op eh = Ok s /\ dwarf2sframe md op eh' = Ok s' /\ union_of s s' s'') /\
  (forall s s', dwarf2sframe md op eh = Ok s -> dwarf2sframe md op eh' = Ok s' ->
     exists s'', dwarf2sframe md op (joined eh eh') = Ok s'' /\ union_of s s' s'').
Proof.
  intros Ht Ht' HE Hend. assert (Ht'' : eh_typed (joined eh eh')) by (apply Forall_app; auto).
  pose proof (endian_fixed op eh eh' HE) as HX.
  assert (HX'' : fixed_ra_of op (joined eh eh') = fixed_ra_of op eh) by reflexivity.
  split.
  - intros s'' H''. pose proof (dwarf2sframe_converted _ _ _ _ Ht'' H'') as HC''.
    pose proof (cv_fine _ _ _ _ HC'') as [F1 F2]. rewrite HX'' in F1. unfold joined, entries_of at 1 in F1.
    cbn [eh_entries ents_list] in F1. apply Forall_app in F1. destruct F1 as [F1 F1'].
    destruct (fine_converts md op eh Ht) as (s & H & HC); [split; assumption|].
    destruct (fine_converts md op eh' Ht') as (s' & H' & HC'); [split; [rewrite HX; exact F1'|exact F2]|].
    exists s, s'. split; [exact H|]. split; [exact H'|]. exact (joined_union _ _ _ _ _ _ _ Ht Ht' HE HC HC' HC'').
  - intros s s' H H'. pose proof (dwarf2sframe_converted _ _ _ _ Ht H) as HC.
    pose proof (dwarf2sframe_converted _ _ _ _ Ht' H') as HC'.
    pose proof (cv_fine _ _ _ _ HC) as [F1 F2]. pose proof (cv_fine _ _ _ _ HC') as [F1' F2'].
    destruct (fine_converts md op (joined eh eh') Ht'') as (s'' & H'' & HC'').
    { split; [|exact F2']. rewrite HX''. rewrite HX in F1'. apply Forall_app. auto. }
    exists s''. split; [exact H''|]. exact (joined_union _ _ _ _ _ _ _ Ht Ht' HE HC HC' HC'').
Qed.

(** The same after reading the two sections. *)
Lemma built_reads md e s b i : wf_mode md -> sfb_wf s -> ~ too_large s -> nth_error (fdes_of s) i = Some b ->
  rows_inside b -> exists en good, In en (all_fdes (built_sf e s)) /\ same_descriptor b en /\
    all_fres md e en = Ok (map inl good) /\ map view_fre good = map written (rows_of b).
Proof.
  intros Hm W HT Hi Hr. destruct (built_entries e s W HT) as [_ HN]. pose proof (HN i b Hi) as HE.
  destruct (built_rows md e s i b Hm W HT Hi) as [HR _]. destruct (HR Hr) as (good & G1 & G2).
  exists (built_entry e s i b), good. split; [eapply nth_error_In, HE|]. split; [apply built_same|]. split; [exact G1|].
  clear - G2. induction G2 as [|r fr l l' H _ IH]; cbn; [reflexivity|]. rewrite H, IH. reflexivity.
Qed.

Lemma built_inside op o f b : so_fixed_fp o = None -> fde_built op o f b -> rows_inside b.
Proof.
  intros Hfp B. destruct (built_inv _ _ _ _ Hfp B) as (_ & _ & _ & _ & Hsz & _).
  destruct (built_rows_any _ _ _ _ Hfp B) as [H _]. apply Forall_forall. intros x Hx.
  destruct (H x Hx) as (r & R1 & R2 & _). rewrite R2, Hsz. fold (off f r).
  destruct (built_fine _ _ _ _ _ B R1) as [_ (_ & R3 & _)]. exact R3.
Qed.

Theorem function_reads_on_its_own md md' md1 md1' mdr op eh eh' s s' f e bs bs' : eh_typed eh -> eh_typed eh' ->
  effective_endian op eh' = effective_endian op eh ->
  dwarf2sframe md op eh = Ok s -> dwarf2sframe md' op eh' = Ok s' -> last_at eh f -> last_at eh' f ->
  build md1 e s = Ok bs -> build md1' e s' = Ok bs' -> wf_mode mdr -> rust_slice mdr bs -> rust_slice mdr bs' ->
  exists sf sf' en en', load mdr e bs = Ok sf /\ load mdr e bs' = Ok sf' /\
    In en (all_fdes sf) /\ In en' (all_fdes sf') /\ en_start_address en = df_start f /\ same_function mdr e en en' /\
    fixed_ra_offset sf = fixed_ra_offset sf' /\ fixed_fp_offset sf = fixed_fp_offset sf'.
Proof.
  intros Ht Ht' HE H H' Hf Hf' B B' Hm Hs Hs'.
  destruct (function_on_its_own _ _ _ _ _ _ _ _ Ht Ht' HE H H' Hf Hf') as (b & Hb & Hb' & Hst).
  pose proof (dwarf2sframe_converted _ _ _ _ Ht H) as HC. pose proof (dwarf2sframe_converted _ _ _ _ Ht' H') as HC'.
  pose proof (conv_wf _ _ _ _ HC) as W. pose proof (conv_wf _ _ _ _ HC') as W'.
  destruct (built_image _ _ _ _ W B) as [HT ->]. destruct (built_image _ _ _ _ W' B') as [HT' ->].
  destruct (built_from _ _ _ _ _ HC Hb) as (g & _ & G & _).
  pose proof (built_inside _ _ _ _ (proj1 (options_eq op eh)) G) as HI.
  destruct (In_nth_error _ _ Hb) as [i Hi]. destruct (In_nth_error _ _ Hb') as [j Hj].
  destruct (built_reads mdr e s b i Hm W HT Hi HI) as (en & good & E1 & (E2 & E3 & E4 & E5 & E6 & _) & E8 & E9).
  destruct (built_reads mdr e s' b j Hm W' HT' Hj HI) as (en' & good' & E1' & (E2' & E3' & E4' & E5' & E6' & _) & E8' & E9').
  exists (built_sf e s), (built_sf e s'), en, en'.
  split; [apply image_loads; assumption|]. split; [apply image_loads; assumption|].
  split; [exact E1|]. split; [exact E1'|]. split; [congruence|]. split.
  - unfold same_function. rewrite E2, E3, E4, E5, E6, E2', E3', E4', E5', E6'. repeat (split; [reflexivity|]).
    exists good, good'. rewrite E9, E9'. auto.
  - destruct (built_fixed e s W) as [-> ->]. destruct (built_fixed e s' W') as [-> ->].
    rewrite (cv_options _ _ _ _ HC), (cv_options _ _ _ _ HC'), (endian_sfoptions op eh eh' HE). auto.
Qed.

(** ** C121: tables with the same meaning *)

Lemma row_payload_eq (r r' : row) : r_start r = r_start r' -> payload r = payload r' -> r = r'.
Proof. destruct r, r'. unfold payload. cbn. congruence. Qed.

Lemma eff_head r t : ascends (r :: t) -> eff (r :: t) (r_start r) = Some (payload r).
Proof.
  intros H. cbn. rewrite Z.leb_refl. inversion H as [|? ? _ HF]; subst.
  destruct t as [|r1 t]; [reflexivity|]. inversion HF; subst. cbn. destruct (Z.leb_spec (r_start r1) (r_start r)); [lia|reflexivity].
Qed.

Lemma eff_tail r t x : ascends (r :: t) -> eff t x <> None -> eff (r :: t) x = eff t x.
Proof.
  intros H Hx. cbn. destruct (eff t x) as [p|] eqn:E; [|congruence].
  destruct (Z.leb_spec (r_start r) x); [reflexivity|]. exfalso.
  assert (eff t x = None); [|congruence]. apply eff_none. destruct t as [|r1 t]; [exact I|].
  inversion H as [|? ? _ HF]; subst. inversion HF; subst. lia.
Qed.

Lemma eff_some l x : match l with [] => False | r :: _ => r_start r <= x end -> eff l x <> None.
Proof. intros H E. apply eff_none in E. destruct l; [exact H|lia]. Qed.

(** Rows without repetitions are determined by what they say. *)
Lemma canonical_rows l : forall l', ascends l -> ascends l' ->
  (forall a b, neighbours l a b -> payload a <> payload b) ->
  (forall a b, neighbours l' a b -> payload a <> payload b) ->
  (forall x, eff l x = eff l' x) -> l = l'.
Proof.
  assert (HT : forall r t r' t', ascends (r :: t) -> ascends (r' :: t') -> r_start r = r_start r' -> payload r = payload r' ->
    (forall a b, neighbours (r :: t) a b -> payload a <> payload b) ->
    (forall x, eff (r :: t) x = eff (r' :: t') x) ->
    forall r1 t1, t = r1 :: t1 -> match t' with [] => False | r1' :: _ => r_start r1' <= r_start r1 end).
  { intros r t r' t' Ha Ha' Hs Hp Hd Hx r1 t1 ->.
    pose proof Ha as Ha0. inversion Ha0 as [|? ? Ha1 HF]; subst. inversion HF as [|? ? Hlt _]; subst.
    pose proof (Hx (r_start r1)) as E. rewrite eff_tail in E; [|exact Ha|apply eff_some; lia].
    rewrite eff_head in E by exact Ha1.
    assert (Hne : payload r <> payload r1) by (apply Hd; exists [], t1; reflexivity).
    cbn in E. destruct (r_start r' <=? r_start r1); [|discriminate].
    destruct t' as [|r1' t1']; [cbn in E; congruence|].
    destruct (Z.le_gt_cases (r_start r1') (r_start r1)); [assumption|].
    assert (eff (r1' :: t1') (r_start r1) = None) as E' by (apply eff_none; lia). rewrite E' in E. congruence. }
  induction l as [|r t IH]; intros [|r' t'] Ha Ha' Hd Hd' Hx.
  - reflexivity.
  - specialize (Hx (r_start r')). rewrite eff_head in Hx by exact Ha'. discriminate.
  - specialize (Hx (r_start r)). rewrite eff_head in Hx by exact Ha. discriminate.
  - assert (Hs : r_start r = r_start r').
    { pose proof (Hx (r_start r)) as H1. pose proof (Hx (r_start r')) as H2. rewrite eff_head in H1, H2 by assumption.
      destruct (Z.lt_trichotomy (r_start r) (r_start r')) as [L|[L|L]]; [|exact L|].
      - rewrite (proj2 (eff_none (r' :: t') _)) in H1 by exact L. discriminate.
      - rewrite (proj2 (eff_none (r :: t) _)) in H2 by exact L. discriminate. }
    assert (Hp : payload r = payload r').
    { pose proof (Hx (r_start r)) as H1. rewrite eff_head in H1 by exact Ha. rewrite Hs, eff_head in H1 by exact Ha'. congruence. }
    f_equal; [apply row_payload_eq; assumption|].
    pose proof (HT r t r' t' Ha Ha' Hs Hp Hd Hx) as T1.
    pose proof (HT r' t' r t Ha' Ha (eq_sym Hs) (eq_sym Hp) Hd' (fun x => eq_sym (Hx x))) as T2.
    pose proof Ha as Ha0. pose proof Ha' as Ha0'. inversion Ha0 as [|? ? A1 _]; inversion Ha0' as [|? ? A1' _]; subst.
    apply IH; [exact A1|exact A1'| | |].
    + intros a b (p & q & ->). apply Hd. exists (r :: p), q. reflexivity.
    + intros a b (p & q & ->). apply Hd'. exists (r' :: p), q. reflexivity.
    + intros x. specialize (Hx x). destruct t as [|r1 t1], t' as [|r1' t1'].
      * reflexivity.
      * destruct (T2 _ _ eq_refl).
      * destruct (T1 _ _ eq_refl).
      * pose proof (T1 _ _ eq_refl) as L1. pose proof (T2 _ _ eq_refl) as L2. cbn in L1, L2.
        destruct (Z.le_gt_cases (r_start r1) x) as [L|L].
        -- rewrite (eff_tail r), (eff_tail r') in Hx; [exact Hx|exact Ha'|apply eff_some; lia|exact Ha|apply eff_some; lia].
        -- rewrite (proj2 (eff_none (r1 :: t1) x)) by exact L. rewrite (proj2 (eff_none (r1' :: t1') x)) by lia. reflexivity.
Qed.

(** The rows of an orderly function before merging. *)
Section Table.
  Variables (op : options) (o : sframe_options) (f : dw_fde) (b b0 : fdb).
  Hypothesis Hfp : so_fixed_fp o = None.
  Hypothesis HB : fde_built op o f b.
  Hypothesis HS : sorted (fb_fres b0).
  Hypothesis HK : keyed (fb_fres b0).
  Hypothesis HP : Permutation (rows_of b0) (map (fun r => kept_row o (img (op_arch op) f r)) (wide_rows f)).
  Hypothesis HO : orderly f.

  Lemma table_ascends : ascends (rows_of b0).
  Proof. apply sorted_ascends; assumption. Qed.

  Lemma table_row x : In x (rows_of b0) -> exists r, In r (wide_rows f) /\ x = kept_row o (img (op_arch op) f r) /\ r_start x = off f r.
  Proof.
    intros Hx. apply (Permutation_in _ HP) in Hx. apply in_map_iff in Hx. destruct Hx as (r & <- & Hr).
    exists r. split; [exact Hr|]. split; [reflexivity|]. cbn. apply img_start.
  Qed.

  Lemma covers_wide X r : covers f X r -> In r (wide_rows f).
  Proof.
    intros [H1 H2]. apply filter_In. split; [exact H1|]. apply wideb_spec. unfold wide. lia.
  Qed.

  Lemma table_covers X r : covers f X r ->
    eff (rows_of b0) (X - df_start f) = Some (payload (kept_row o (img (op_arch op) f r))).
  Proof.
    intros Hc. pose proof (covers_wide X r Hc) as Hw. destruct Hc as [_ Hc]. destruct HO as (Hd & _ & Hpos).
    apply eff_complete; [apply table_ascends|]. split.
    - apply (Permutation_in _ (Permutation_sym HP)). apply in_map_iff. exists r. auto.
    - cbn. rewrite img_start. split; [unfold off; lia|]. intros x Hx Hle.
      destruct (table_row x Hx) as (r' & R1 & _ & R3). rewrite R3 in *. unfold off in *.
      destruct (Z.le_gt_cases (dr_start r') (dr_start r)) as [|L]; [lia|].
      pose proof (Hd r r' Hw R1 L). lia.
  Qed.

  Lemma table_silent X : X < df_start f + df_len f -> (forall r, ~ covers f X r) -> eff (rows_of b0) (X - df_start f) = None.
  Proof.
    intros HX Hn. destruct (eff (rows_of b0) (X - df_start f)) as [p|] eqn:E; [|reflexivity]. exfalso.
    apply eff_sound in E; [|apply table_ascends]. destruct E as (x & (Hx & Hle & _) & _).
    destruct (table_row x Hx) as (r & R1 & _ & R3). rewrite R3 in Hle. unfold off in Hle.
    destruct HO as (_ & Hg & _). destruct (Hg r X R1) as (r' & Hr'); [lia|]. exact (Hn r' Hr').
  Qed.

  Lemma table_before X : X < df_start f -> eff (rows_of b0) (X - df_start f) = None.
  Proof.
    intros HX. destruct (eff (rows_of b0) (X - df_start f)) as [p|] eqn:E; [|reflexivity]. exfalso.
    apply eff_sound in E; [|apply table_ascends]. destruct E as (x & (Hx & Hle & _) & _).
    destruct (table_row x Hx) as (r & R1 & _ & R3). destruct (built_fine _ _ _ _ _ HB R1) as [H0 _]. lia.
  Qed.

  Lemma table_after X Y : df_start f + df_len f - 1 <= X -> X <= Y -> 
    eff (rows_of b0) (Y - df_start f) = eff (rows_of b0) (X - df_start f).
  Proof.
    intros HX HY.
    assert (HI : forall x, In x (rows_of b0) -> r_start x <= X - df_start f).
    { intros x Hx. destruct (table_row x Hx) as (r & R1 & _ & R3). destruct (built_fine _ _ _ _ _ HB R1) as [_ (_ & H & _)]. lia. }
    destruct (eff (rows_of b0) (X - df_start f)) as [p|] eqn:E.
    - apply eff_sound in E; [|apply table_ascends]. destruct E as (x & (H1 & H2 & H3) & <-).
      apply eff_complete; [apply table_ascends|]. split; [exact H1|]. split; [lia|]. intros r' Hr' _. apply H3; auto.
    - destruct (eff (rows_of b0) (Y - df_start f)) as [p|] eqn:E'; [|reflexivity]. exfalso.
      apply eff_sound in E'; [|apply table_ascends]. destruct E' as (x & (H1 & _) & _). apply eff_none in E.
      destruct (rows_of b0) as [|r t] eqn:El; [destruct H1|]. specialize (HI r (or_introl eq_refl)). lia.
  Qed.
End Table.

Lemma same_rule_classify a r r' : same_rule a r r' -> classify a r = classify a r'.
Proof.
  intros H. destruct (classify a r) as [[[[base cfa] ra] fp]|] eqn:E.
  - apply classify_spec, H, classify_spec in E. congruence.
  - symmetry. apply classify_none. intros base cfa ra fp HR. apply H in HR. apply classify_spec in HR. congruence.
Qed.

Lemma same_rule_payload a o f f' r r' : same_rule a r r' ->
  payload (kept_row o (img a f r)) = payload (kept_row o (img a f' r')).
Proof.
  intros H. unfold payload, kept_row, img. rewrite (same_rule_classify a r r' H).
  destruct (classify a r') as [[[[base cfa] ra] fp]|]; reflexivity.
Qed.

Lemma classic_covers f X : (exists r, covers f X r) \/ forall r, ~ covers f X r.
Proof.
  unfold covers. induction (dw_rows_of f) as [|r t [(r' & H1 & H2)|IH]].
  - right. intros r [[] _].
  - left. exists r'. split; [right; exact H1|exact H2].
  - destruct (Z_le_dec (dr_start r) X), (Z_lt_dec X (dr_end r)).
    1: left; exists r; split; [left; reflexivity|lia].
    all: right; intros r' [[<-|H] H']; [lia|apply (IH r'); auto].
Qed.

Lemma same_meaning_eff op o f f' b b' b0 b0' : so_fixed_fp o = None ->
  fde_built op o f b -> fde_built op o f' b' ->
  sorted (fb_fres b0) -> keyed (fb_fres b0) -> sorted (fb_fres b0') -> keyed (fb_fres b0') ->
  Permutation (rows_of b0) (map (fun r => kept_row o (img (op_arch op) f r)) (wide_rows f)) ->
  Permutation (rows_of b0') (map (fun r => kept_row o (img (op_arch op) f' r)) (wide_rows f')) ->
  orderly f -> orderly f' -> same_meaning (op_arch op) f f' ->
  forall x, eff (rows_of b0) x = eff (rows_of b0') x.
Proof.
  intros Hfp B B' S K S' K' P P' O O' (Hst & Hln & HM).
  assert (Hin : forall X, in_range (df_start f) (df_len f) X -> eff (rows_of b0) (X - df_start f) = eff (rows_of b0') (X - df_start f')).
  { intros X HX. destruct (HM X HX) as (M1 & M2 & M3). unfold in_range in HX.
    destruct (eff (rows_of b0) (X - df_start f)) as [p|] eqn:E.
    - destruct (classic_covers f X) as [(r & Hr)|Hn].
      + destruct (M1 r Hr) as (r' & Hr'). rewrite (table_covers op o f b0 S K P O X r Hr) in E.
        rewrite (table_covers op o f' b0' S' K' P' O' X r' Hr'), <- E. f_equal. apply same_rule_payload, M3; assumption.
      + rewrite (table_silent op o f b0 S K P O X) in E; [discriminate|lia|exact Hn].
    - symmetry. destruct (classic_covers f' X) as [(r' & Hr')|Hn].
      + destruct (M2 r' Hr') as (r & Hr). rewrite (table_covers op o f b0 S K P O X r Hr) in E. discriminate.
      + apply (table_silent op o f' b0' S' K' P' O' X); [lia|exact Hn]. }
  intros x. replace x with (x + df_start f - df_start f) by lia. set (X := x + df_start f).
  rewrite <- Hst at 2.
  destruct (Z.lt_ge_cases X (df_start f)) as [L|L].
  - rewrite (table_before op o f b b0 B S K P X L). symmetry. apply (table_before op o f' b' b0' B' S' K' P'). lia.
  - destruct (Z.lt_ge_cases X (df_start f + df_len f)) as [L'|L']; [apply Hin; unfold in_range; lia|].
    rewrite (table_after op o f b b0 B S K P (df_start f + df_len f - 1) X) by lia.
    rewrite (table_after op o f' b' b0' B' S' K' P' (df_start f + df_len f - 1) X) by lia.
    destruct (Z_le_gt_dec (df_len f) 0) as [E0|E0].
    + rewrite (table_before op o f b b0 B S K P) by lia. symmetry. apply (table_before op o f' b' b0' B' S' K' P'). lia.
    + apply Hin. unfold in_range. lia.
Qed.

Lemma same_meaning_built op o f f' b b' : so_fixed_fp o = None -> op_merge_fres op = true ->
  fde_built op o f b -> fde_built op o f' b' -> orderly f -> orderly f' -> same_meaning (op_arch op) f f' -> b = b'.
Proof.
  intros Hfp Hm B B' O O' M.
  destruct (built_before _ _ _ _ Hfp B) as (b0 & H0 & S & K & P). destruct (built_before _ _ _ _ Hfp B') as (b0' & H0' & S' & K' & P').
  rewrite Hm in H0, H0'.
  destruct (built_inv _ _ _ _ Hfp B) as (SB & KB & E1 & E2 & E3 & E4 & E5).
  destruct (built_inv _ _ _ _ Hfp B') as (SB' & KB' & E1' & E2' & E3' & E4' & E5').
  assert (HR : rows_of b = rows_of b').
  { destruct (merge_rows_minimal b0 S K) as (b1 & M1 & M2 & _). rewrite H0 in M1. injection M1 as <-.
    destruct (merge_rows_minimal b0' S' K') as (b1' & M1' & M2' & _). rewrite H0' in M1'. injection M1' as <-.
    apply canonical_rows; [apply sorted_ascends; assumption|apply sorted_ascends; assumption|exact M2|exact M2'|].
    intros x. pose proof (same_meaning_eff op o f f' b b' b0 b0' Hfp B B' S K S' K' P P' O O' M x) as HE.
    assert (HG : forall c0 c, sorted (fb_fres c0) -> keyed (fb_fres c0) -> sorted (fb_fres c) -> keyed (fb_fres c) ->
              merge_adjacent_fres c0 = Ok c -> eff (rows_of c) x = eff (rows_of c0) x).
    { intros c0 c HS1 HK1 HS2 HK2 HM1. pose proof (fun p => merge_rows_preserves c0 c x p HS1 HK1 HM1) as Hpres.
      assert (Hq : forall p, eff (rows_of c) x = Some p <-> eff (rows_of c0) x = Some p).
      { intros p. rewrite <- !says_eff by (apply sorted_ascends; assumption). apply Hpres. }
      destruct (eff (rows_of c) x) as [p|]; [symmetry; apply Hq; reflexivity|].
      destruct (eff (rows_of c0) x) as [p|]; [|reflexivity]. apply Hq. reflexivity. }
    rewrite (HG b0 b), (HG b0' b') by assumption. exact HE. }
  destruct M as (M1 & M2 & _).
  assert (HF : fb_fres b = fb_fres b').
  { rewrite <- (keyed_map _ KB), <- (keyed_map _ KB'). unfold rows_of, bt_values in HR. rewrite HR. reflexivity. }
  destruct b, b'. cbn in *. congruence.
Qed.

Theorem same_meaning_same_result md md' op eh eh' s s' : eh_typed eh -> eh_typed eh' -> op_merge_fres op = true ->
  effective_endian op eh' = effective_endian op eh ->
  (forall f, last_at eh f -> orderly f) -> (forall f, last_at eh' f -> orderly f) ->
  same_meanings (op_arch op) eh eh' ->
  dwarf2sframe md op eh = Ok s -> dwarf2sframe md' op eh' = Ok s' -> s = s'.
Proof.
  intros Ht Ht' Hm HE HO HO' [HM HM'] H H'.
  pose proof (dwarf2sframe_converted _ _ _ _ Ht H) as HC. pose proof (dwarf2sframe_converted _ _ _ _ Ht' H') as HC'.
  pose proof (endian_sfoptions op eh eh' HE) as HOP. pose proof (proj1 (options_eq op eh)) as Hfp.
  rewrite (converted_sfb _ _ _ _ HC), (converted_sfb _ _ _ _ HC'), HOP. f_equal.
  pose proof (cv_fdes _ _ _ _ HC) as A. pose proof (cv_fdes _ _ _ _ HC') as A'. rewrite HOP in A'.
  eapply assembled_ext; [exact Hfp|exact A|exact A'| |].
  - intros f b Hf Hb. destruct (HM f Hf) as (f' & Hf' & M). exists f'. split; [exact Hf'|].
    split; [apply M|]. destruct (assembled_has _ _ _ _ Hfp A' f' Hf') as (b' & _ & B').
    rewrite (same_meaning_built op _ f f' b b' Hfp Hm Hb B' (HO f Hf) (HO' f' Hf') M). exact B'.
  - intros f' b' Hf' Hb'. destruct (HM' f' Hf') as (f & Hf & M). exists f. split; [exact Hf|].
    split; [symmetry; apply M|]. destruct (assembled_has _ _ _ _ Hfp A f Hf) as (b & _ & B).
    rewrite <- (same_meaning_built op _ f f' b b' Hfp Hm B Hb' (HO f Hf) (HO' f' Hf') M). exact B.
Qed.
