(** The writer's theorems over all call histories, and the concrete cases that
    go with them. *)
From Verif Require Export Witness MergeFdeFacts.
From Coq Require Import Permutation.

(** ** Over call histories *)

Lemma reach_row_accepts b r : fdb_reach b ->
  (snd (fdb_row_st b r) = Ok tt <-> Forall (fun p => fst p) (row_conditions b r)) /\
  (forall er, snd (fdb_row_st b r) = Err er <-> first_violated (row_conditions b r) er) /\
  snd (fdb_row_st b r) <> Panic.
Proof. intros H. apply fdb_reach_wf in H. apply row_accepts; apply H. Qed.

Lemma reach_row_effect b r : fdb_reach b ->
  let b' := fst (fdb_row_st b r) in
  match snd (fdb_row_st b r) with
  | Ok _ =>
      fb_options b' = fb_options b /\ fb_start b' = fb_start b /\ fb_size b' = fb_size b /\
      fb_rep_size b' = fb_rep_size b /\ fb_pauth b' = fb_pauth b /\
      Permutation (rows_of b') (kept_row (fb_options b) r :: rows_of b)
  | _ => b' = b
  end.
Proof. intros H. apply fdb_reach_wf in H. apply row_effect; apply H. Qed.

Lemma wf_get s a b : sfb_wf s ->
  (bt_get a (sb_fdes s) = Some b <-> In b (fdes_of s) /\ fb_start b = a).
Proof.
  intros [_ S K _]. unfold fdes_of. split.
  - intros G. apply bt_get_in in G. split; [|symmetry; apply (K _ _ G)].
    apply in_map_iff. exists (a, b). auto.
  - intros [Hi <-]. apply in_map_iff in Hi. destruct Hi as ([k v] & E & Hi). cbn in E. subst v.
    apply in_bt_get; [exact S|]. rewrite <- (K _ _ Hi). exact Hi.
Qed.

Lemma reach_fde_effect md s b : sfb_reach md s -> fdb_reach b ->
  (fb_options b <> sb_options s <-> sfb_fde s b = Panic) /\
  (fb_options b = sb_options s ->
   exists s', sfb_fde s b = Ok s' /\ sb_options s' = sb_options s /\
     (forall c, In c (fdes_of s') <-> c = b \/ (In c (fdes_of s) /\ fb_start c <> fb_start b)) /\
     StronglySorted Z.lt (map fb_start (fdes_of s'))).
Proof.
  intros H Hb. pose proof (sfb_reach_wf _ _ H) as W. destruct (fde_effect s b (sw_sorted _ W)) as [H1 H2].
  split; [exact H1|]. intros Ho. destruct (H2 Ho) as (s' & E & Eo & G). exists s'.
  split; [exact E|]. split; [exact Eo|].
  assert (W' : sfb_wf s') by (eapply sfb_reach_wf, sr_fde; eauto).
  split.
  - intros c. split.
    + intros Hc. assert (G1 : bt_get (fb_start c) (sb_fdes s') = Some c) by (apply (wf_get _ _ _ W'); auto).
      rewrite G in G1. destruct (Z.eqb_spec (fb_start c) (fb_start b)); [left; congruence|].
      apply (wf_get _ _ _ W) in G1. tauto.
    + intros [->|[Hc Hn]].
      * apply (wf_get s' (fb_start b)); [exact W'|]. rewrite G, Z.eqb_refl. reflexivity.
      * apply (wf_get s' (fb_start c)); [exact W'|]. rewrite G.
        destruct (Z.eqb_spec (fb_start c) (fb_start b)); [contradiction|]. apply (wf_get _ _ _ W). auto.
  - destruct W' as [_ S K _]. unfold fdes_of. rewrite map_map.
    unfold sorted, bt_keys in S. erewrite map_ext_in; [exact S|].
    intros [k v] Hi. cbn. symmetry. apply (K _ _ Hi).
Qed.

Lemma reach_rows_order b l1 l2 b' : fdb_reach b ->
  Permutation l1 l2 -> NoDup (map r_start l1) ->
  (add_rows b l1 = Ok b' <-> add_rows b l2 = Ok b').
Proof.
  intros H HP Hn. apply fdb_reach_wf in H. destruct H as [_ _ _ _ S K _]. split.
  - apply rows_order; assumption.
  - apply rows_order; try assumption; [symmetry; exact HP|].
    eapply Permutation_NoDup; [apply Permutation_map, HP|exact Hn].
Qed.

Lemma reach_fdes_order md s l1 l2 : sfb_reach md s ->
  Permutation l1 l2 -> NoDup (map fb_start l1) ->
  add_fdes s l1 = add_fdes s l2.
Proof. intros H. apply sfb_reach_wf in H. apply fdes_order, H. Qed.

Lemma reach_merge_rows b b' x p : fdb_reach b -> merge_adjacent_fres b = Ok b' ->
  fb_options b' = fb_options b /\ fb_start b' = fb_start b /\ fb_size b' = fb_size b /\
  fb_rep_size b' = fb_rep_size b /\ fb_pauth b' = fb_pauth b /\
  (says (rows_of b') x p <-> says (rows_of b) x p).
Proof. intros H. apply fdb_reach_wf in H. apply merge_rows_preserves; apply H. Qed.

Lemma reach_merge_minimal b : fdb_reach b ->
  exists b', merge_adjacent_fres b = Ok b' /\
    (forall r1 r2, neighbours (rows_of b') r1 r2 -> payload r1 <> payload r2) /\
    incl (rows_of b') (rows_of b) /\
    hd_error (rows_of b') = hd_error (rows_of b) /\
    merge_adjacent_fres b' = Ok b'.
Proof. intros H. apply fdb_reach_wf in H. apply merge_rows_minimal; apply H. Qed.

(** ** C28: the witness *)

Definition no_ra_row : row := row_new Sp 0 {| ro_cfa := 16; ro_ra := None; ro_fp := Some (-16) |}.
Definition no_fp_row : row := row_new Sp 0 {| ro_cfa := 16; ro_ra := Some (-8); ro_fp := None |}.
Definition blank : fdb := fdb_new options_new 0x100 16.

Lemma options_new_reach : opts_reach options_new.
Proof. constructor. Qed.
Lemma blank_reach : fdb_reach blank.
Proof. constructor; [constructor|unfold in_i32, i32_min, i32_max; lia|unfold in_u32, u32_max; lia]. Qed.
Lemma no_ra_typed : row_typed no_ra_row /\ row_typed no_fp_row.
Proof.
  unfold row_typed, offsets_typed, in_u32, in_i32, u32_max, i32_min, i32_max. cbn. lia.
Qed.

Lemma missing_accepted :
  fdb_reach blank /\ row_typed no_ra_row /\ row_typed no_fp_row /\
  so_fixed_ra (fb_options blank) = None /\ so_fixed_fp (fb_options blank) = None /\
  snd (fdb_row_st blank no_ra_row) = Ok tt /\ snd (fdb_row_st blank no_fp_row) = Ok tt.
Proof.
  split; [apply blank_reach|]. split; [apply no_ra_typed|]. split; [apply no_ra_typed|].
  vm_compute. auto.
Qed.

(** ** Builders used by the examples *)

Definition amd_opts : sframe_options :=
  options_fixed_ra (Some (-8)) (options_abi 3 (options_frame_pointer true options_new)).
Lemma amd_opts_reach : opts_reach amd_opts.
Proof. repeat (constructor; try (cbn; unfold in_u8, in_i8; lia)). Qed.

Definition sample0 : fdb := fdb_new amd_opts 0x400 64.
Lemma sample0_reach : fdb_reach sample0.
Proof. constructor; [apply amd_opts_reach|unfold in_i32, i32_min, i32_max; lia|unfold in_u32, u32_max; lia]. Qed.

Definition sample_rows : list row :=
  [ row3 0 8 (-8) (-16); row3 4 16 (-8) (-16); row3 8 16 (-8) (-16); row3 20 8 (-8) (-16) ].
Definition sample : fdb := get_ok sample0 (add_rows sample0 sample_rows).

Lemma add_rows_reach l b b' : fdb_reach b -> Forall row_typed l -> add_rows b l = Ok b' -> fdb_reach b'.
Proof.
  revert b. induction l as [|r t IH]; intros b Hb Hl H; cbn in H.
  - injection H as <-. exact Hb.
  - apply bind_ok in H. destruct H as (b1 & H1 & H). inversion Hl as [|? ? Hr Ht]; subst.
    apply (IH b1); try assumption. unfold fdb_row in H1.
    destruct (fdb_row_st b r) as [x o] eqn:E. destruct o; cbn in H1; try discriminate.
    injection H1 as <-. replace x with (fst (fdb_row_st b r)) by (rewrite E; reflexivity).
    constructor; assumption.
Qed.

Lemma sample_reach : fdb_reach sample.
Proof.
  apply (add_rows_reach sample_rows sample0); [apply sample0_reach| |vm_compute; reflexivity].
  repeat constructor; cbn; try (unfold in_u32, in_i32, u32_max, i32_min, i32_max; lia).
Qed.

Lemma add_fdes_reach md l s s' : sfb_reach md s -> Forall fdb_reach l -> add_fdes s l = Ok s' -> sfb_reach md s'.
Proof.
  revert s. induction l as [|b t IH]; intros s Hs Hl H; cbn in H.
  - injection H as <-. exact Hs.
  - apply bind_ok in H. destruct H as (s1 & H1 & H). inversion Hl as [|? ? Hb Ht]; subst.
    apply (IH s1); try assumption. apply (sr_fde md s b s1); assumption.
Qed.

Lemma demo_f1_reach : fdb_reach demo_f1.
Proof.
  apply (add_rows_reach [row3 0 8 (-8) (-16); row3 4 16 (-8) (-16)] (fdb_new options_new 0x100 16));
    [constructor; [constructor|unfold in_i32, i32_min, i32_max; lia|unfold in_u32, u32_max; lia]| |vm_compute; reflexivity].
  repeat constructor; cbn; try (unfold in_u32, in_i32, u32_max, i32_min, i32_max; lia).
Qed.
Lemma demo_f2_reach : fdb_reach demo_f2.
Proof.
  apply (add_rows_reach [row3 2 24 (-8) (-16)] (fdb_new options_new 0x200 300));
    [constructor; [constructor|unfold in_i32, i32_min, i32_max; lia|unfold in_u32, u32_max; lia]| |vm_compute; reflexivity].
  repeat constructor; cbn; try (unfold in_u32, in_i32, u32_max, i32_min, i32_max; lia).
Qed.
Lemma demo_reach md : sfb_reach md demo_sfb.
Proof.
  apply (add_fdes_reach md [demo_f2; demo_f1] (sfb_new options_new)).
  - constructor. constructor.
  - repeat constructor; [apply demo_f2_reach|apply demo_f1_reach].
  - vm_compute. reflexivity.
Qed.
