(** The first converter on related inputs: proofs (C117 to C119, C121). *)
From Verif Require Export RelateFacts ShiftFacts ToolsProps.
Open Scope Z_scope.
Open Scope list_scope.

(** ** What counts *)

Lemma v1_fine_converts md p ents : ents_typed ents -> v1_fine p ents ->
  exists s, v1_convert md p ents = Ok s.
Proof.
  intros Ht Hf. destruct (v1_fate md p ents Ht) as [(s & H & _)|(q & Hp & _)]; [eauto|].
  exfalso. eapply v1_problem_not_fine; eassumption.
Qed.
Lemma v1_ok_fine md p ents s : ents_typed ents -> v1_convert md p ents = Ok s -> v1_fine p ents.
Proof.
  intros Ht H. destruct (v1_fate md p ents Ht) as [(s' & H' & Hf & _)|(q & Hp & Hq)]; [exact Hf|].
  rewrite H in Hq. cbn in Hq. subst q. exfalso. eapply v1_problem_not_ok, Hp.
Qed.

Lemma v1_same_fdes s s' : sb_options s = v1_options -> sb_options s' = v1_options -> sb_fdes s = sb_fdes s' -> s = s'.
Proof. destruct s, s'. cbn. congruence. Qed.

(** What is built for a function that counts. *)
Lemma v1_built_in md p ents s f : ents_typed ents -> v1_convert md p ents = Ok s -> v1_last ents f ->
  exists b, In b (fdes_of s) /\ fb_start b = df_start f /\ fde_built v1_conv v1_options (norm f) b.
Proof.
  intros Ht H Hf. destruct (v1_converted _ _ _ _ Ht H) as [Ho Ha].
  destruct (assembled_has v1_conv v1_options _ _ eq_refl Ha _ (last_norm_back _ _ Hf)) as (b & G & B).
  exists b. split; [|split; [apply (built_inv v1_conv v1_options _ _ eq_refl B)|exact B]].
  unfold fdes_of. apply in_map_iff. exists (df_start (norm f), b). split; [reflexivity|apply bt_get_in, G].
Qed.
Lemma v1_built_from md p ents s b : ents_typed ents -> v1_convert md p ents = Ok s -> In b (fdes_of s) ->
  exists f, v1_last ents f /\ fde_built v1_conv v1_options (norm f) b /\ fb_start b = df_start f.
Proof.
  intros Ht H Hb. destruct (v1_converted _ _ _ _ Ht H) as [Ho Ha].
  assert (HW : sfb_wf s) by (eapply sfb_reach_wf, (sfb_sized_reach md), v1_sized; eassumption).
  assert (G : bt_get (fb_start b) (sb_fdes s) = Some b) by (apply (wf_get s _ _ HW); auto).
  destruct (assembled_get _ v1_options _ _ eq_refl Ha _ _ G) as (g & F1 & F2 & F3 & F4).
  apply last_norm in F1. destruct F1 as (f & F1 & ->). exists f. auto.
Qed.
Lemma v1_built_here md p ents s f b : ents_typed ents -> v1_convert md p ents = Ok s -> v1_last ents f ->
  fde_built v1_conv v1_options (norm f) b -> In b (fdes_of s).
Proof.
  intros Ht H Hf B. destruct (v1_built_in _ _ _ _ _ Ht H Hf) as (b' & B1 & _ & B3).
  rewrite (built_fun _ _ _ _ _ _ eq_refl eq_refl B3 B). exact B1.
Qed.

(** ** C117 *)

Lemma v1_reordered_once md p ents ents' s : ents_typed ents -> reordered (in_eh ents) (in_eh ents') ->
  (forall f, v1_last ents f <-> v1_last ents' f) -> v1_convert md p ents = Ok s -> v1_convert md p ents' = Ok s.
Proof.
  intros Ht HR HL H.
  assert (Ht' : ents_typed ents') by (apply (reordered_Forall _ (in_eh ents) (in_eh ents')); [exact I|exact HR|exact Ht]).
  destruct (v1_fine_converts md p ents' Ht') as (s' & H').
  { destruct (v1_ok_fine _ _ _ _ Ht H) as [F1 F2]. split.
    - apply (reordered_Forall _ (in_eh ents) (in_eh ents')); [exact I|exact HR|exact F1].
    - pose proof (rd_end _ _ HR) as E. cbn in E. congruence. }
  rewrite H'. f_equal. destruct (v1_converted _ _ _ _ Ht H) as [Ho Ha]. destruct (v1_converted _ _ _ _ Ht' H') as [Ho' Ha'].
  apply v1_same_fdes; [exact Ho'|exact Ho|].
  eapply (assembled_ext v1_conv v1_options); [reflexivity|exact Ha'|exact Ha| |]; intros g b Hg Hb; exists g;
    apply last_norm in Hg; destruct Hg as (f & Hf & ->); (split; [apply last_norm_back, HL, Hf|auto]).
Qed.

Theorem v1_order_harmless md p ents ents' s : ents_typed ents -> reordered (in_eh ents) (in_eh ents') ->
  (forall f, v1_last ents f <-> v1_last ents' f) ->
  (v1_convert md p ents = Ok s <-> v1_convert md p ents' = Ok s).
Proof.
  intros Ht HR HL. split.
  - apply v1_reordered_once; assumption.
  - apply v1_reordered_once; [|apply reordered_sym, HR|intros f; symmetry; apply HL].
    apply (reordered_Forall _ (in_eh ents) (in_eh ents')); [exact I|exact HR|exact Ht].
Qed.

(** ** C118 *)

Theorem v1_on_its_own md md' p p' ents ents' s s' f : ents_typed ents -> ents_typed ents' ->
  v1_convert md p ents = Ok s -> v1_convert md' p' ents' = Ok s' -> v1_last ents f -> v1_last ents' f ->
  exists b, In b (fdes_of s) /\ In b (fdes_of s') /\ fb_start b = df_start f.
Proof.
  intros Ht Ht' H H' Hf Hf'. destruct (v1_built_in _ _ _ _ _ Ht H Hf) as (b & B1 & B2 & B3).
  exists b. split; [exact B1|]. split; [exact (v1_built_here _ _ _ _ _ _ Ht' H' Hf' B3)|exact B2].
Qed.

Theorem v1_joined md p ents ents' : ents_typed ents -> ents_typed ents' -> ents_end ents = None ->
  let both := eh_entries (joined (in_eh ents) (in_eh ents')) in
  (forall s'', v1_convert md p both = Ok s'' ->
     exists s s', v1_convert md p ents = Ok s /\ v1_convert md p ents' = Ok s' /\ union_of s s' s'') /\
  (forall s s', v1_convert md p ents = Ok s -> v1_convert md p ents' = Ok s' ->
     exists s'', v1_convert md p both = Ok s'' /\ union_of s s' s'').
Proof.
  intros Ht Ht' Hend both. assert (Ht'' : ents_typed both) by (apply Forall_app; auto).
  assert (HL : forall f, v1_last both f <-> v1_last ents' f \/ (v1_last ents f /\ forall f', v1_last ents' f' -> df_start f' <> df_start f))
    by (intros f; apply (joined_last (in_eh ents) (in_eh ents'))).
  assert (HU : forall s s' s'', v1_convert md p ents = Ok s -> v1_convert md p ents' = Ok s' -> v1_convert md p both = Ok s'' -> union_of s s' s'').
  { intros s s' s'' H H' H''. split.
    { destruct (v1_converted _ _ _ _ Ht' H') as [-> _]. destruct (v1_converted _ _ _ _ Ht'' H'') as [-> _]. reflexivity. }
    intros b. split.
    - intros Hb. destruct (v1_built_from _ _ _ _ _ Ht'' H'' Hb) as (f & F1 & F2 & F3). apply HL in F1. destruct F1 as [F1|[F1 F4]].
      + left. exact (v1_built_here _ _ _ _ _ _ Ht' H' F1 F2).
      + right. split; [exact (v1_built_here _ _ _ _ _ _ Ht H F1 F2)|]. intros b' Hb'.
        destruct (v1_built_from _ _ _ _ _ Ht' H' Hb') as (f' & F1' & _ & ->). rewrite F3. apply F4, F1'.
    - intros [Hb|[Hb Hd]].
      + destruct (v1_built_from _ _ _ _ _ Ht' H' Hb) as (f & F1 & F2 & F3).
        apply (v1_built_here _ _ _ _ f _ Ht'' H''); [apply HL; left; exact F1|exact F2].
      + destruct (v1_built_from _ _ _ _ _ Ht H Hb) as (f & F1 & F2 & F3).
        apply (v1_built_here _ _ _ _ f _ Ht'' H''); [|exact F2]. apply HL. right. split; [exact F1|].
        intros f' Hf'. destruct (v1_built_in _ _ _ _ _ Ht' H' Hf') as (b' & B1 & B2 & _). rewrite <- B2, <- F3. apply Hd, B1. }
  split.
  - intros s'' H''. destruct (v1_ok_fine _ _ _ _ Ht'' H'') as [F1 F2]. apply Forall_app in F1. destruct F1 as [F1 F1'].
    destruct (v1_fine_converts md p ents Ht) as (s & H); [split; assumption|].
    destruct (v1_fine_converts md p ents' Ht') as (s' & H'); [split; assumption|].
    exists s, s'. split; [exact H|]. split; [exact H'|]. apply HU; assumption.
  - intros s s' H H'. destruct (v1_ok_fine _ _ _ _ Ht H) as [F1 F2], (v1_ok_fine _ _ _ _ Ht' H') as [F1' F2'].
    destruct (v1_fine_converts md p both Ht'') as (s'' & H''); [split; [apply Forall_app; auto|exact F2']|].
    exists s''. split; [exact H''|]. apply HU; assumption.
Qed.

(** ** Where a row ends does not matter if it has a width *)

Lemma built_ends op o f f' (src : list dw_row) (h h' : dw_row -> dw_row) en b :
  df_start f' = df_start f -> df_len f' = df_len f ->
  df_rows f = inl (DwRows (map h src) en) -> df_rows f' = inl (DwRows (map h' src) en) ->
  (forall r, In r src -> dr_start (h' r) = dr_start (h r) /\ dr_cfa (h' r) = dr_cfa (h r) /\ dr_regs (h' r) = dr_regs (h r) /\
     wideb (h r) = true /\ wideb (h' r) = true) ->
  fde_built op o f b -> fde_built op o f' b.
Proof.
  intros Es El Er Er' Hh [B1 B2 (l & L1 & L2) (b0 & [P] & M)].
  rewrite Er in L1. injection L1 as <- ->.
  assert (HO : forall r, In r src -> off f' (h' r) = off f (h r)).
  { intros r Hr. unfold off. destruct (Hh r Hr) as (-> & _). rewrite Es. reflexivity. }
  assert (HC : forall r, In r src -> classify (op_arch op) (h' r) = classify (op_arch op) (h r)).
  { intros r Hr. destruct (Hh r Hr) as (_ & E1 & E2 & _). unfold classify, dr_register. rewrite E1, E2. reflexivity. }
  assert (HI : forall r, In r src -> img (op_arch op) f' (h' r) = img (op_arch op) f (h r)).
  { intros r Hr. unfold img. rewrite HC, HO by assumption. reflexivity. }
  assert (HR : forall r base cfa ra fp, In r src -> (representable (op_arch op) (h' r) base cfa ra fp <-> representable (op_arch op) (h r) base cfa ra fp)).
  { intros r base cfa ra fp Hr. destruct (Hh r Hr) as (_ & E1 & E2 & _). unfold representable, dr_register. rewrite E1, E2. tauto. }
  constructor; [congruence|congruence| |].
  - exists (map h' src). split; [exact Er'|]. intros pre r post H Hw.
    apply map_eq_app in H. destruct H as (l1 & l2 & E & <- & H). apply map_eq_cons in H. destruct H as (x & l3 & -> & <- & <-).
    assert (Hx : In x src) by (rewrite E; apply in_or_app; right; left; reflexivity).
    destruct (L2 (map h l1) (h x) (map h l3)) as [H0 (H1 & H2 & H3 & H4)].
    { rewrite E, map_app. reflexivity. }
    { apply wideb_spec, Hh, Hx. }
    split; [rewrite HO by exact Hx; exact H0|]. unfold row_fits. rewrite HO, El by exact Hx.
    split; [exact H1|]. split; [exact H2|]. split.
    + intros base cfa ra fp y Hre. apply (H3 base cfa ra fp y). apply HR; assumption.
    + intros r' Hr' _. apply in_map_iff in Hr'. destruct Hr' as (y & <- & Hy).
      assert (Hy' : In y src) by (rewrite E; apply in_or_app; left; exact Hy).
      destruct (Hh y Hy') as (Ey & _ & _ & W & _). destruct (Hh x Hx) as (Ex & _). rewrite Ey, Ex.
      apply H4; [apply in_map, Hy|apply wideb_spec, W].
  - exists b0. split; [|exact M]. constructor. rewrite <- P, Es, El. f_equal.
    unfold dw_rows_of. rewrite Er, Er'. cbn [rows_list].
    assert (F : forall g, (forall r, In r src -> wideb (g r) = true) -> filter wideb (map g src) = map g src).
    { intros g. clear. induction src as [|r t IH]; intros Hg; [reflexivity|]. cbn. rewrite (Hg r) by (left; reflexivity).
      f_equal. apply IH. intros r' Hr'. apply Hg. right. exact Hr'. }
    rewrite !F by (intros r Hr; apply Hh, Hr). rewrite !map_map. apply map_ext_in. intros r Hr. apply HI, Hr.
Qed.

(** ** C119 *)

Lemma in_functions f l : In f (functions l) <-> In (DwGoodFde f) l.
Proof.
  induction l as [|[|g|f'] t IH]; cbn [functions In]; [tauto|..]; rewrite IH; intuition congruence.
Qed.

Lemma v1_fp_rule_move k r : v1_fp_rule (move_row k r) = v1_fp_rule r.
Proof. reflexivity. Qed.

Lemma v1_move_built k f b : df_start f + k <= i32_max ->
  fde_built v1_conv v1_options (norm f) b -> fde_built v1_conv v1_options (norm (move_fde k f)) (move_fdb k b).
Proof.
  intros Hk B. pose proof (move_built v1_conv v1_options k (norm f) b Hk B) as B'.
  destruct B as [_ _ (l & L & _) _]. cbn [norm df_rows] in L.
  destruct (df_rows f) as [[l0 en]|g] eqn:Er; [|discriminate]. cbn [rows_list rows_end] in L. injection L as <- ->.
  eapply (built_ends _ _ (move_fde k (norm f)) _ l0 (fun r => move_row k (norm_row r)) (fun r => norm_row (move_row k r)) None);
    [reflexivity|reflexivity| | | |exact B'].
  - unfold move_fde. cbn [norm df_rows]. rewrite Er. cbn [rows_list rows_end]. rewrite map_map. reflexivity.
  - unfold norm, move_fde. cbn [df_rows]. rewrite Er. cbn [df_rows rows_list rows_end]. rewrite map_map. reflexivity.
  - intros r _. split; [reflexivity|]. split; [reflexivity|]. split; [reflexivity|]. rewrite move_wideb. split; apply norm_wide.
Qed.

Theorem v1_moved md p p' ents k s : ents_typed ents -> ents_typed (eh_entries (move_eh k (in_eh ents))) ->
  (forall f, In f (functions (ents_list ents)) -> df_start f + k <= i32_max) ->
  (forall r, p' (move_row k r) = p r) ->
  v1_convert md p ents = Ok s -> v1_convert md p' (eh_entries (move_eh k (in_eh ents))) = Ok (move_sfb k s).
Proof.
  intros Ht Ht' Hk Hp H.
  destruct (v1_fine_converts md p' _ Ht') as (s' & H').
  { destruct (v1_ok_fine _ _ _ _ Ht H) as [F1 F2]. split; [|exact F2].
    cbn [move_eh eh_entries ents_list in_eh]. unfold entries_of. cbn [eh_entries].
    apply Forall_map, Forall_forall. intros x Hx. pose proof (proj1 (Forall_forall _ _) F1 x Hx) as Fx.
    destruct x as [|g|f]; [exact I|exact Fx|]. cbn in Fx |- *. destruct Fx as (A1 & A2 & A3 & l & A4 & A5).
    split; [cbn; apply Hk, in_functions, Hx|].
    split; [exact A2|]. split; [exact A3|]. exists (map (move_row k) l). split; [unfold move_fde; cbn; rewrite A4; reflexivity|].
    intros pre r post E. apply map_eq_app in E. destruct E as (l1 & l2 & -> & <- & E).
    apply map_eq_cons in E. destruct E as (x & l3 & -> & <- & _). destruct (A5 l1 x l3 eq_refl) as (C1 & C2 & C3 & C4).
    split; [rewrite Hp; exact C1|]. rewrite move_off_row. split; [exact C2|]. split; [exact C3|].
    intros r' Hr'. apply in_map_iff in Hr'. destruct Hr' as (y & <- & Hy). cbn. specialize (C4 y Hy). lia. }
  rewrite H'. f_equal. destruct (v1_converted _ _ _ _ Ht H) as [Ho Ha]. destruct (v1_converted _ _ _ _ Ht' H') as [Ho' Ha'].
  apply v1_same_fdes; [exact Ho'|exact Ho|].
  assert (HM : assembled v1_conv v1_options (map norm (functions (ents_list (eh_entries (move_eh k (in_eh ents)))))) (sb_fdes (move_sfb k s))).
  { cbn [move_eh eh_entries ents_list in_eh]. unfold entries_of. cbn [eh_entries]. rewrite move_functions.
    change (sb_fdes (move_sfb k s)) with (move_map k (sb_fdes s)).
    assert (Ht2 : forall f, In f (functions (ents_list ents)) -> dw_fde_typed (norm (move_fde k f))).
    { intros f Hf. apply norm_fde_typed. unfold ents_typed in Ht'. cbn [move_eh eh_entries ents_list in_eh] in Ht'.
      unfold entries_of in Ht'. cbn [eh_entries] in Ht'. rewrite Forall_map, Forall_forall in Ht'.
      apply (Ht' (DwGoodFde f)), in_functions, Hf. }
    change (eh_entries (in_eh ents)) with ents.
    clear -Ha Hk Ht2. remember (map norm (functions (ents_list ents))) as L eqn:EL. revert EL.
    generalize (functions (ents_list ents)) as l, Hk, Ht2.
    induction Ha as [|L f m b Ha IH Hty Hb]; intros l Hk2 Ht3 EL.
    - symmetry in EL. apply map_eq_nil in EL. subst l. apply as_nil.
    - symmetry in EL. apply map_eq_app in EL. destruct EL as (l1 & l2 & -> & E1 & E2).
      apply map_eq_cons in E2. destruct E2 as (g & l3 & -> & <- & E3). apply map_eq_nil in E3. subst l3.
      rewrite !map_app. cbn [map]. change (df_start (norm g)) with (df_start g). rewrite <- move_insert.
      change (df_start g + k) with (df_start (norm (move_fde k g))).
      apply as_snoc.
      + apply IH; [| |congruence].
        * intros f0 Hf. apply Hk2, in_or_app. left. exact Hf.
        * intros f0 Hf. apply Ht3, in_or_app. left. exact Hf.
      + apply Ht3, in_or_app. right. left. reflexivity.
      + apply v1_move_built; [apply Hk2, in_or_app; right; left; reflexivity|exact Hb]. }
  eapply (assembled_ext v1_conv v1_options); [reflexivity|exact Ha'|exact HM| |]; intros f b Hf Hb; exists f; auto.
Qed.

(** ** C121 *)

(** As [norm], but rows keep their ends. *)
Definition keep_row (r : dw_row) : dw_row := DwRow (dr_start r) (dr_end r) (dr_cfa r) ((6, v1_fp_rule r) :: dr_regs r).
Definition keep (f : dw_fde) : dw_fde :=
  DwFde (df_start f) (df_len f) (df_insns f)
    match df_rows f with
    | inl rs => inl (DwRows (map keep_row (rows_list rs)) (rows_end rs))
    | inr g => inr g
    end.

Lemma keep_rows_of f : dw_rows_of (keep f) = map keep_row (dw_rows_of f).
Proof. unfold dw_rows_of. cbn [keep df_rows]. destruct (df_rows f); reflexivity. Qed.

Lemma keep_built f b : (forall r, In r (dw_rows_of f) -> dr_start r < dr_end r) ->
  fde_built v1_conv v1_options (norm f) b -> fde_built v1_conv v1_options (keep f) b.
Proof.
  intros Hw B. pose proof B as [_ _ (l & L & _) _]. cbn [norm df_rows] in L. unfold dw_rows_of in Hw.
  destruct (df_rows f) as [[l0 en]|g] eqn:Er; [|discriminate]. cbn [rows_list rows_end] in *. injection L as <- ->.
  eapply (built_ends _ _ (norm f) _ l0 norm_row keep_row None); [reflexivity|reflexivity| | | |exact B].
  - cbn [norm df_rows]. rewrite Er. reflexivity.
  - unfold keep. cbn [df_rows]. rewrite Er. reflexivity.
  - intros r Hr. split; [reflexivity|]. split; [reflexivity|]. split; [reflexivity|]. split; [apply norm_wide|].
    apply wideb_spec. unfold wide. cbn. specialize (Hw r Hr). lia.
Qed.

Lemma keep_covers f x r : covers (keep f) x r <-> exists r0, covers f x r0 /\ r = keep_row r0.
Proof.
  unfold covers. rewrite keep_rows_of, in_map_iff. split.
  - intros [(r0 & <- & Hr) Hx]. exists r0. auto.
  - intros (r0 & [Hr Hx] & ->). split; [eauto|exact Hx].
Qed.
Lemma keep_wide f r : v1_orderly f -> (In r (wide_rows (keep f)) <-> exists r0, In r0 (wide_rows f) /\ r = keep_row r0).
Proof.
  intros [_ Hw]. unfold wide_rows. rewrite keep_rows_of, filter_In, in_map_iff. split.
  - intros [(r0 & <- & Hr) Hx]. exists r0. rewrite filter_In. auto.
  - intros (r0 & Hr & ->). apply filter_In in Hr. destruct Hr as [Hr Hx]. split; [eauto|exact Hx].
Qed.
Lemma keep_orderly f : v1_orderly f -> orderly (keep f).
Proof.
  intros HV. pose proof HV as [(O1 & O2 & O3) _]. split; [|split].
  - intros r r' Hr Hr' Hl. apply keep_wide in Hr; [|exact HV]. apply keep_wide in Hr'; [|exact HV].
    destruct Hr as (r0 & Hr & ->), Hr' as (r1 & Hr' & ->). exact (O1 r0 r1 Hr Hr' Hl).
  - intros r x Hr Hx. apply keep_wide in Hr; [|exact HV]. destruct Hr as (r0 & Hr & ->).
    destruct (O2 r0 x Hr Hx) as (r' & Hr'). exists (keep_row r'). apply keep_covers. eauto.
  - intros r Hr. apply keep_wide in Hr; [|exact HV]. destruct Hr as (r0 & Hr & ->). exact (O3 r0 Hr).
Qed.
Lemma keep_representable r base cfa ra fp :
  representable Amd64 (keep_row r) base cfa ra fp <-> v1_representable r base cfa ra fp.
Proof. rewrite <- norm_representable. reflexivity. Qed.
Lemma keep_alike f f' : says_alike v1_same_rule f f' -> same_meaning Amd64 (keep f) (keep f').
Proof.
  intros (A1 & A2 & A3). split; [exact A1|]. split; [exact A2|]. intros x Hx. destruct (A3 x Hx) as (B1 & B2 & B3).
  split; [|split].
  - intros r Hr. apply keep_covers in Hr. destruct Hr as (r0 & Hr & ->). destruct (B1 r0 Hr) as (r' & Hr').
    exists (keep_row r'). apply keep_covers. eauto.
  - intros r Hr. apply keep_covers in Hr. destruct Hr as (r0 & Hr & ->). destruct (B2 r0 Hr) as (r' & Hr').
    exists (keep_row r'). apply keep_covers. eauto.
  - intros r r' Hr Hr'. apply keep_covers in Hr. apply keep_covers in Hr'. destruct Hr as (r0 & Hr & ->), Hr' as (r1 & Hr' & ->).
    intros base cfa ra fp. rewrite !keep_representable. apply B3; assumption.
Qed.

Theorem v1_same_meaning md md' p p' ents ents' s s' : ents_typed ents -> ents_typed ents' ->
  (forall f, v1_last ents f -> v1_orderly f) -> (forall f, v1_last ents' f -> v1_orderly f) ->
  all_alike v1_same_rule (in_eh ents) (in_eh ents') ->
  v1_convert md p ents = Ok s -> v1_convert md' p' ents' = Ok s' -> s = s'.
Proof.
  intros Ht Ht' HO HO' [M1 M2] H H'.
  destruct (v1_converted _ _ _ _ Ht H) as [Ho Ha]. destruct (v1_converted _ _ _ _ Ht' H') as [Ho' Ha'].
  apply v1_same_fdes; [exact Ho|exact Ho'|].
  eapply (assembled_ext v1_conv v1_options); [reflexivity|exact Ha|exact Ha'| |]; intros g b Hg Hb;
    apply last_norm in Hg; destruct Hg as (f & Hf & ->).
  - destruct (M1 f Hf) as (f' & Hf' & HA). exists (norm f'). split; [apply last_norm_back, Hf'|]. split; [apply HA|].
    destruct (v1_built_in _ _ _ _ _ Ht' H' Hf') as (b' & _ & _ & B').
    replace b with b'; [exact B'|]. symmetry.
    eapply (same_meaning_built v1_conv v1_options (keep f) (keep f')); [reflexivity|reflexivity| | | | |].
    + apply keep_built; [apply HO, Hf|exact Hb].
    + apply keep_built; [apply HO', Hf'|exact B'].
    + apply keep_orderly, HO, Hf.
    + apply keep_orderly, HO', Hf'.
    + apply keep_alike, HA.
  - destruct (M2 f Hf) as (f' & Hf' & HA). exists (norm f'). split; [apply last_norm_back, Hf'|]. split; [symmetry; apply HA|].
    destruct (v1_built_in _ _ _ _ _ Ht H Hf') as (b' & _ & _ & B').
    replace b with b'; [exact B'|].
    eapply (same_meaning_built v1_conv v1_options (keep f') (keep f)); [reflexivity|reflexivity| | | | |].
    + apply keep_built; [apply HO, Hf'|exact B'].
    + apply keep_built; [apply HO', Hf|exact Hb].
    + apply keep_orderly, HO, Hf'.
    + apply keep_orderly, HO', Hf.
    + apply keep_alike, HA.
Qed.
