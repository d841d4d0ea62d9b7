(** Options and zero-width rows do not matter (C52-C54). *)
From Verif Require Export ConvProps.

(** ** C52 *)

Lemma convert_row_ext md op f g r : df_start f = df_start g -> df_len f = df_len g ->
  convert_row md op f r = convert_row md op g r.
Proof. intros H1 H2. unfold convert_row, warn. rewrite H1, H2. reflexivity. Qed.

Lemma convert_rows_strip md op f g l : df_start f = df_start g -> df_len f = df_len g ->
  forall b, convert_rows md op f (filter wideb l) b = convert_rows md op g l b.
Proof.
  intros H1 H2. induction l as [|r t IH]; intros b; cbn [filter convert_rows]; [reflexivity|].
  unfold wideb at 1. destruct (dr_start r =? dr_end r) eqn:E; cbn [negb]; [apply IH|].
  cbn [convert_rows]. rewrite E, H1, (convert_row_ext md op f g r H1 H2).
  destruct (sub_u64 md (dr_start r) (df_start g)); cbn [bind]; try reflexivity.
  destruct (negb _); [reflexivity|]. destruct (lift _); cbn [bind]; try reflexivity.
  destruct (match a0 with RowOk nr => _ | RowWarning => _ | RowFatal er => _ end); cbn [bind]; try reflexivity.
  destruct (fdb_row b a1); try reflexivity. apply IH.
Qed.

Lemma convert_fde_strip md op s f : convert_fde md op s (strip_fde f) = convert_fde md op s f.
Proof.
  assert (H : df_dump (strip_fde f) = df_dump f) by reflexivity.
  unfold convert_fde. rewrite H. unfold strip_fde. cbn [df_start df_len df_rows].
  match goal with |- bind ?x _ = _ => destruct x end; cbn [bind]; try reflexivity.
  destruct (i32_max <? df_start f); [reflexivity|]. destruct (i32_max <? df_len f); [reflexivity|].
  destruct (df_rows f) as [[l en]|g]; [|reflexivity]. cbn [rows_list rows_end].
  erewrite convert_rows_strip; [reflexivity|reflexivity|reflexivity].
Qed.

Theorem zero_width_ignored md op eh : dwarf2sframe md op (strip eh) = dwarf2sframe md op eh.
Proof.
  unfold dwarf2sframe, convert. cbn [strip eh_entries ents_list ents_end].
  assert (HO : conv_sfoptions op (strip eh) = conv_sfoptions op eh) by reflexivity. rewrite HO.
  assert (HE : forall l s, convert_entries md op (map strip_entry l) s = convert_entries md op l s).
  { induction l as [|[|g|f] t IH]; intros s; cbn [map strip_entry convert_entries]; try apply IH; try reflexivity.
    rewrite convert_fde_strip. destruct (convert_fde md op s f); cbn [bind]; [apply IH|reflexivity|reflexivity]. }
  rewrite HE. reflexivity.
Qed.

(** ** C53, C54: what the outcome depends on *)

(** The same architecture, byte order and dumping. *)
Record alike (op op' : options) : Prop := {
  al_arch : op_arch op' = op_arch op;
  al_endian : op_endian op' = op_endian op;
  al_dump : op_debugdump op' = op_debugdump op }.

Lemma alike_sym op op' : alike op op' -> alike op' op.
Proof. intros [? ? ?]. constructor; congruence. Qed.

Lemma alike_fixed op op' eh : alike op op' -> fixed_ra_of op' eh = fixed_ra_of op eh.
Proof. intros [A E _]. unfold fixed_ra_of, effective_endian. rewrite A, E. reflexivity. Qed.
Lemma alike_sfoptions op op' eh : alike op op' -> conv_sfoptions op' eh = conv_sfoptions op eh.
Proof. intros [A E _]. unfold conv_sfoptions, conv_abi. rewrite A, E. reflexivity. Qed.

Section Alike.
  Variables (md : mode) (op op' : options).
  Hypothesis Harch : op_arch op' = op_arch op.
  (** Dumping does not matter where it finds nothing wrong. *)
  Definition dump_same (f : dw_fde) : Prop :=
    (dump_overflows md op' f <-> dump_overflows md op f) /\
    forall g, (op_debugdump op' = true /\ df_dump f = Some g) <-> (op_debugdump op = true /\ df_dump f = Some g).

  Lemma dump_fine_same f : dump_same f -> dump_fine md op f -> dump_fine md op' f.
  Proof.
    intros [H1 H2] [H3 H4]. split; [rewrite H1; exact H3|]. intros H5.
    destruct (df_dump f) as [g|] eqn:E; [|reflexivity]. destruct (proj1 (H2 g) (conj H5 eq_refl)) as [H6 _]. auto.
  Qed.
  Lemma header_fine_same f : dump_same f -> header_fine md op f -> header_fine md op' f.
  Proof. intros H (H1 & H2 & H3). split; [apply dump_fine_same; assumption|auto]. Qed.
  Lemma fde_fine_same fixed f : dump_same f -> fde_fine md op fixed f -> fde_fine md op' fixed f.
  Proof.
    intros H [H1 H2]. split; [apply header_fine_same; assumption|]. rewrite Harch. exact H2.
  Qed.
  Lemma fde_problem_same fixed f q : dump_same f -> fde_problem md op fixed f q -> fde_problem md op' fixed f q.
  Proof.
    intros HS H. destruct H as [H0|g Hn Hd Hg|Hd Hb|Hd Hs Hb|g Hh Hr|pre r post en o Hh Hr Hpre Hw Hp|l' g Hh Hr Hpre].
    - apply fp_overflow, HS, H0.
    - apply fp_dump; [|apply (proj2 HS g); auto|exact Hg]. intros Ho. apply Hn, HS, Ho.
    - apply fp_start; [apply dump_fine_same; assumption|exact Hb].
    - apply fp_len; [apply dump_fine_same; assumption|exact Hs|exact Hb].
    - apply fp_rows; [apply header_fine_same; assumption|exact Hr].
    - eapply fp_row; [apply header_fine_same; assumption|exact Hr|rewrite Harch; exact Hpre|exact Hw|rewrite Harch; exact Hp].
    - eapply fp_end; [apply header_fine_same; assumption|exact Hr|rewrite Harch; exact Hpre].
  Qed.
  Definition entry_same (x : dw_entry) : Prop := match x with DwGoodFde f => dump_same f | _ => True end.
  Lemma entry_fine_same fixed x : entry_same x -> entry_fine md op fixed x -> entry_fine md op' fixed x.
  Proof. destruct x; cbn; auto. apply fde_fine_same. Qed.
  Lemma entry_problem_same fixed x q : entry_same x -> entry_problem md op fixed x q -> entry_problem md op' fixed x q.
  Proof. intros HS H. destruct H as [g|f o H]; [apply ep_bad|apply ep_fde, fde_problem_same; assumption]. Qed.

  Lemma entries_fine_same fixed l : Forall entry_same l -> Forall (entry_fine md op fixed) l -> Forall (entry_fine md op' fixed) l.
  Proof.
    intros H HF. rewrite Forall_forall in *. intros x Hx. apply entry_fine_same; auto.
  Qed.
  Lemma section_problem_same eh q : fixed_ra_of op' eh = fixed_ra_of op eh -> Forall entry_same (entries_of eh) ->
    section_problem md op eh q -> section_problem md op' eh q.
  Proof.
    intros He HS H. destruct H as [pre x post o Hx Hf Hp|g Hf Hg].
    - rewrite Hx in HS. pose proof HS as HS'. apply Forall_mid in HS'. apply Forall_app in HS. destruct HS as [HS _].
      eapply sp_entry; [exact Hx|rewrite He; apply entries_fine_same; assumption|].
      rewrite He. apply entry_problem_same; assumption.
    - apply sp_end; [rewrite He; apply entries_fine_same; assumption|exact Hg].
  Qed.
End Alike.

Lemma built_fun op op' o f b b' : op_arch op' = op_arch op -> op_merge_fres op' = op_merge_fres op ->
  fde_built op o f b -> fde_built op' o f b' -> b' = b.
Proof.
  intros HA HM [_ _ _ (b0 & [Hp] & Hm)] [_ _ _ (b0' & [Hp'] & Hm')].
  rewrite HA in Hp'. rewrite HM in Hm'. rewrite Hp in Hp'. injection Hp' as <-.
  destruct (op_merge_fres op); congruence.
Qed.

Lemma assembled_fun op op' o l m : op_arch op' = op_arch op -> op_merge_fres op' = op_merge_fres op ->
  assembled op o l m -> forall m', assembled op' o l m' -> m' = m.
Proof.
  intros HA HM. induction 1 as [|l m f b H IH Ht Hb]; intros m' H'.
  - inversion H' as [|l0 ? ? ? ? ? ? He]; [reflexivity|]. destruct l0; discriminate.
  - inversion H' as [He|l0 m0 f0 b0 H0 Ht0 Hb0 He]; [destruct l; discriminate|].
    apply app_inj_tail in He. destruct He as [-> ->].
    rewrite (IH m0 H0), (built_fun op op' o f b b0 HA HM Hb Hb0). reflexivity.
Qed.

(** The same result when nothing that matters differs. *)
Lemma result_same md op op' eh : eh_typed eh -> op_arch op' = op_arch op -> op_endian op' = op_endian op ->
  op_merge_fres op' = op_merge_fres op -> Forall (entry_same md op op') (entries_of eh) ->
  dwarf2sframe md op' eh = dwarf2sframe md op eh.
Proof.
  intros Ht HA HE HM HS.
  assert (HX : fixed_ra_of op' eh = fixed_ra_of op eh) by (unfold fixed_ra_of, effective_endian; rewrite HA, HE; reflexivity).
  assert (HO : conv_sfoptions op' eh = conv_sfoptions op eh) by (unfold conv_sfoptions, conv_abi; rewrite HA, HE; reflexivity).
  destruct (dwarf2sframe_fate md op eh Ht) as [(s & H1 & [C1 C2 C3])|(q & P1 & P2)].
  - assert (F : section_fine md op' eh).
    { destruct C1 as [F1 F2]. split; [|exact F2]. rewrite HX. apply (entries_fine_same md op op' HA); assumption. }
    destruct (dwarf2sframe_fate md op' eh Ht) as [(s' & H1' & [C1' C2' C3'])|(q & P1 & P2)].
    + rewrite H1, H1'. f_equal. rewrite HO in C2', C3'.
      pose proof (assembled_fun op op' _ _ _ HA HM C3 _ C3') as Hm. destruct s, s'; cbn in *. congruence.
    + exfalso. eapply section_problem_not_fine; eassumption.
  - pose proof (section_problem_same md op op' HA eh q HX HS P1) as P1'.
    assert (P2' : forget (dwarf2sframe md op' eh) = q) by (apply dwarf2sframe_exact; auto).
    destruct (dwarf2sframe md op eh), (dwarf2sframe md op' eh); cbn in *; try congruence.
    all: subst q; exfalso; eapply section_problem_not_ok; eassumption.
Qed.

Lemma entry_same_dump md op op' x : op_debugdump op' = op_debugdump op -> entry_same md op op' x.
Proof.
  intros H. destruct x as [| |f]; cbn; auto. split; [unfold dump_overflows; rewrite H; reflexivity|].
  intros g. rewrite H. reflexivity.
Qed.

Theorem warnings_harmless md op eh v : eh_typed eh ->
  dwarf2sframe md (set_warnings v op) eh = dwarf2sframe md op eh.
Proof.
  intros Ht. apply result_same; try reflexivity; [exact Ht|].
  rewrite Forall_forall. intros x _. apply entry_same_dump. reflexivity.
Qed.

Theorem debugdump_harmless md op eh v : eh_typed eh ->
  (forall f, In f (functions (entries_of eh)) -> dumpable md f) ->
  dwarf2sframe md (set_debugdump v op) eh = dwarf2sframe md op eh.
Proof.
  intros Ht Hd. apply result_same; try reflexivity; [exact Ht|].
  rewrite Forall_forall. intros [| |f] Hx; cbn; auto.
  assert (Hf : dumpable md f).
  { apply Hd. apply in_split in Hx. destruct Hx as (p & q & Hx). rewrite Hx, functions_app. apply in_or_app. right. left. reflexivity. }
  destruct Hf as [Hn Ho]. split.
  - unfold dump_overflows. split; intros (_ & H2 & H3); specialize (Ho H2); lia.
  - intros g. rewrite Hn. split; intros [_ [=]].
Qed.

Theorem function_merging_does_nothing md op eh v : eh_typed eh ->
  dwarf2sframe md (set_merge_fdes v op) eh = dwarf2sframe md op eh.
Proof.
  intros Ht. apply result_same; try reflexivity; [exact Ht|].
  rewrite Forall_forall. intros x _. apply entry_same_dump. reflexivity.
Qed.

(** ** C53 *)

Lemma converted_unwind md op op' eh s s' : eh_typed eh -> op_arch op' = op_arch op ->
  converted md op eh s -> converted md op' eh s' -> sb_options s' = sb_options s ->
  forall a k p, unwind_at s a k p -> unwind_at s' a k p.
Proof.
  intros Ht HA HC HC' HO a k p (b & Hb & Hin & Hk & Hsay).
  pose proof (conv_opt_fp _ _ _ _ HC) as Hfp.
  destruct (conv_in _ _ _ _ HC b Hb) as (f & F1 & _ & F3).
  destruct (conv_has _ _ _ _ HC' f F1) as (b' & Hb' & F3'). rewrite HO in F3'.
  destruct (built_inv _ _ _ _ Hfp F3) as (_ & _ & _ & E2 & E3 & E4 & E5).
  destruct (built_inv _ _ _ _ Hfp F3') as (_ & _ & _ & E2' & E3' & E4' & E5').
  exists b'. split; [exact Hb'|]. rewrite E2', E3', E5', <- E2, <- E3. split; [exact Hin|]. split; [congruence|].
  unfold offset_in in *. rewrite E4 in Hsay. rewrite E4', E2', <- E2.
  destruct F3 as [_ _ _ (b0 & Hp & Hm)], F3' as [_ _ _ (b0' & Hp' & Hm')].
  assert (b0' = b0) by (destruct Hp as [Hp], Hp' as [Hp']; rewrite HA in Hp'; congruence). subst b0'.
  destruct (partway_inv _ _ _ _ _ Hp) as (S & K & _).
  assert (H1 : says (rows_of b0) (a - fb_start b) p).
  { destruct (op_merge_fres op); [|subst; exact Hsay].
    destruct (merge_rows_preserves b0 b (a - fb_start b) p S K Hm) as (_ & _ & _ & _ & _ & HS). apply HS, Hsay. }
  destruct (op_merge_fres op'); [|subst; exact H1].
  destruct (merge_rows_preserves b0 b' (a - fb_start b) p S K Hm') as (_ & _ & _ & _ & _ & HS). apply HS, H1.
Qed.

Lemma sorted_same_members (l l' : list Z) : StronglySorted Z.lt l -> StronglySorted Z.lt l' ->
  (forall x, In x l <-> In x l') -> l = l'.
Proof.
  intros H. revert l'. induction H as [|x l Hs IH Hx]; intros l' H' Hi.
  - destruct l' as [|y]; [reflexivity|]. destruct (proj2 (Hi y) (or_introl eq_refl)).
  - destruct H' as [|y l' Hs' Hy]; [destruct (proj1 (Hi x) (or_introl eq_refl))|].
    rewrite Forall_forall in Hx, Hy.
    assert (x = y).
    { destruct (proj1 (Hi x) (or_introl eq_refl)) as [E|E]; [congruence|].
      destruct (proj2 (Hi y) (or_introl eq_refl)) as [E'|E']; [congruence|]. apply Hx in E'. apply Hy in E. lia. }
    subst y. f_equal. apply IH; [exact Hs'|]. intros z. split; intros Hz.
    + destruct (proj1 (Hi z) (or_intror Hz)) as [E|E]; [|exact E]. subst z. apply Hx in Hz. lia.
    + destruct (proj2 (Hi z) (or_intror Hz)) as [E|E]; [|exact E]. subst z. apply Hy in Hz. lia.
Qed.

Theorem merging_harmless md op eh v w : eh_typed eh ->
  same_unwinding (dwarf2sframe md op eh) (dwarf2sframe md (set_merge_fres v (set_merge_fdes w op)) eh).
Proof.
  intros Ht. set (op' := set_merge_fres v (set_merge_fdes w op)).
  assert (HA : op_arch op' = op_arch op) by reflexivity.
  assert (HX : fixed_ra_of op' eh = fixed_ra_of op eh) by reflexivity.
  assert (HO : conv_sfoptions op' eh = conv_sfoptions op eh) by reflexivity.
  assert (HS : Forall (entry_same md op op') (entries_of eh)) by (rewrite Forall_forall; intros x _; apply entry_same_dump; reflexivity).
  destruct (dwarf2sframe_fate md op eh Ht) as [(s & H1 & HC)|(q & P1 & P2)].
  - assert (F : section_fine md op' eh).
    { destruct HC as [[F1 F2] _ _]. split; [|exact F2]. rewrite HX. apply (entries_fine_same md op op' HA); assumption. }
    destruct (dwarf2sframe_fate md op' eh Ht) as [(s' & H1' & HC')|(q & P1 & P2)].
    2:{ exfalso. eapply section_problem_not_fine; eassumption. }
    rewrite H1, H1'. cbn [same_unwinding].
    assert (HOS : sb_options s' = sb_options s) by (rewrite (cv_options _ _ _ _ HC), (cv_options _ _ _ _ HC'); exact HO).
    split; [exact HOS|]. split.
    + apply sorted_same_members; [apply sorted_fdes; eapply conv_wf; eassumption|apply sorted_fdes; eapply conv_wf; eassumption|].
      destruct (conv_functions _ _ _ _ Ht H1) as (G1 & G2 & _). destruct (conv_functions _ _ _ _ Ht H1') as (G1' & G2' & _).
      intros z. split; intros Hz; apply in_map_iff in Hz; destruct Hz as (b & <- & Hb).
      * destruct (G2' b Hb) as (f & F1 & F2 & _). destruct (G1 f F1) as (b2 & B1 & B2 & _).
        rewrite F2, <- B2. apply in_map, B1.
      * destruct (G2 b Hb) as (f & F1 & F2 & _). destruct (G1' f F1) as (b2 & B1 & B2 & _).
        rewrite F2, <- B2. apply in_map, B1.
    + intros a k p. split.
      * apply (converted_unwind md op' op eh s' s Ht (eq_sym HA) HC' HC (eq_sym HOS)).
      * apply (converted_unwind md op op' eh s s' Ht HA HC HC' HOS).
  - pose proof (section_problem_same md op op' HA eh q HX HS P1) as P1'.
    assert (P2' : forget (dwarf2sframe md op' eh) = q) by (apply dwarf2sframe_exact; auto).
    destruct (dwarf2sframe md op eh), (dwarf2sframe md op' eh); cbn in *; try congruence; try exact I.
    all: subst q; exfalso; eapply section_problem_not_ok; eassumption.
Qed.
