(** Errors and panics of the converter (C50, C51). *)
From Verif Require Export ConvOptions.

(** ** C50 *)

Theorem conv_panic_exact md op eh : eh_typed eh ->
  (dwarf2sframe md op eh = Panic <-> section_problem md op eh Panic).
Proof.
  intros Ht.
  pose proof (dwarf2sframe_exact md op eh Panic Ht) as HX. split.
  - intros H. rewrite H in HX. destruct (proj1 HX eq_refl) as [[[=] _]|HP]. exact HP.
  - intros H. assert (forget (dwarf2sframe md op eh) = Panic) by (apply HX; auto).
    destruct (dwarf2sframe md op eh); cbn in *; congruence.
Qed.

Theorem conv_no_panic md op eh : eh_typed eh ->
  (forall f, In f (functions (entries_of eh)) -> tame md op (fixed_ra_of op eh) f) ->
  dwarf2sframe md op eh <> Panic.
Proof.
  intros Ht HT H. apply conv_panic_exact in H; [|exact Ht].
  inversion H as [pre x post o He Hf Hp|]; subst.
  inversion Hp as [|f o Hq]; subst.
  assert (Hin : In f (functions (entries_of eh))).
  { rewrite He, functions_app. apply in_or_app. right. left. reflexivity. }
  destruct (HT f Hin) as (T1 & T2 & T3).
  inversion Hq as [H0| | | | |pre' r post' en o Hh Hr Hpre Hw Hrow|]; subst; [contradiction|].
  assert (Hsplit : wide_rows f = filter wideb pre' ++ r :: filter wideb post').
  { unfold wide_rows, dw_rows_of. rewrite Hr. cbn [rows_list]. rewrite filter_app. cbn [filter].
    rewrite (proj2 (wideb_spec r) Hw). reflexivity. }
  assert (Hrin : In r (wide_rows f)) by (rewrite Hsplit; apply in_or_app; right; left; reflexivity).
  destruct (T3 r Hrin) as (R1 & R2 & R3). inversion Hrow as [Hn|Hn|Hn|Hn Hnf]; subst; [lia|].
  apply Hnf. split; [exact R2|]. split; [lia|]. split; [exact R3|].
  intros r' Hr' Hw' Heq. rewrite Hsplit, map_app in T2. cbn [map] in T2. apply NoDup_remove_2 in T2. apply T2.
  apply in_or_app. left. rewrite <- Heq. apply in_map, filter_In. split; [exact Hr'|apply wideb_spec, Hw'].
Qed.

(** ** C51 *)

Theorem conv_first_error md op eh pre x post er : eh_typed eh ->
  entries_of eh = pre ++ x :: post -> Forall (entry_fine md op (fixed_ra_of op eh)) pre ->
  entry_error x er -> (forall f, x = DwGoodFde f -> dump_fine md op f) ->
  dwarf2sframe md op eh = Err er.
Proof.
  intros Ht He Hf Hx Hd.
  assert (HP : section_problem md op eh (Err er)).
  { eapply sp_entry; [exact He|exact Hf|]. destruct Hx as [g|f H1|f H1 H2|f g H1 H2 H3].
    - apply ep_bad.
    - apply ep_fde, fp_start; [apply Hd; reflexivity|exact H1].
    - apply ep_fde, fp_len; [apply Hd; reflexivity|exact H1|exact H2].
    - apply ep_fde, fp_rows; [split; [apply Hd; reflexivity|auto]|exact H3]. }
  assert (HQ : forget (dwarf2sframe md op eh) = Err er) by (apply dwarf2sframe_exact; auto).
  destruct (dwarf2sframe md op eh); cbn in *; congruence.
Qed.

Theorem conv_end_error md op eh g : eh_typed eh ->
  Forall (entry_fine md op (fixed_ra_of op eh)) (entries_of eh) -> ents_end (eh_entries eh) = Some g ->
  dwarf2sframe md op eh = Err (InvalidEhFrameEntry g).
Proof.
  intros Ht Hf He.
  assert (HQ : forget (dwarf2sframe md op eh) = Err (InvalidEhFrameEntry g)) by (apply dwarf2sframe_exact; [exact Ht|right; apply sp_end; assumption]).
  destruct (dwarf2sframe md op eh); cbn in *; congruence.
Qed.

Theorem conv_ok_clean md op eh s : eh_typed eh -> dwarf2sframe md op eh = Ok s ->
  ents_end (eh_entries eh) = None /\
  (forall g, ~ In (DwBadFde g) (entries_of eh)) /\
  forall f, In (DwGoodFde f) (entries_of eh) ->
    df_start f <= i32_max /\ df_len f <= i32_max /\ exists l, df_rows f = inl (DwRows l None) /\
    forall r, In r l -> wide r -> 0 <= dr_start r - df_start f < df_len f.
Proof.
  intros Ht H. destruct (dwarf2sframe_converted _ _ _ _ Ht H) as [[HF HE] _ _]. rewrite Forall_forall in HF.
  split; [exact HE|]. split; [intros g Hg; exact (HF _ Hg)|].
  intros f Hf. destruct (HF _ Hf) as [(_ & H1 & H2) (l & Hl & Hr)]. split; [exact H1|]. split; [exact H2|].
  exists l. split; [exact Hl|]. intros r Hi Hw. apply in_split in Hi. destruct Hi as (p & q & ->).
  destruct (Hr p r q eq_refl Hw) as [R1 (_ & R2 & _)]. unfold off in *. lia.
Qed.
