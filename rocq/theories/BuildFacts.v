(** Proofs about the builders' setters (C78). *)
From Verif Require Import Base BTree Write Convert BuildSpec WriteFacts MergeRowFacts.

Lemma last_call_fold {C A S} (step : S -> C -> S) (get : S -> A) (f : C -> option A) :
  (forall s c, get (step s c) = match f c with Some a => a | None => get s end) ->
  forall l s, get (fold_left step l s) = last_call f (get s) l.
Proof. intros H l. induction l as [|c t IH]; intros s; cbn; [reflexivity|]. rewrite IH, H. reflexivity. Qed.

Lemma row_st_same b r : let b' := fst (fdb_row_st b r) in
  fb_options b' = fb_options b /\ fb_start b' = fb_start b /\ fb_size b' = fb_size b /\
  fb_rep_size b' = fb_rep_size b /\ fb_pauth b' = fb_pauth b.
Proof.
  cbn. unfold fdb_row_st.
  repeat match goal with |- context [if ?c then _ else _] => destruct c; cbn [fst]; [auto 6|] end.
  destruct (normalise_offsets (fb_options b) r) as [r'| |]; cbn [fst]; [|auto 6|auto 6].
  destruct (bt_get (r_start r') (fb_fres b)); cbn; auto 6.
Qed.

Lemma merge_same b b' : merge_adjacent_fres b = Ok b' ->
  fb_options b' = fb_options b /\ fb_start b' = fb_start b /\ fb_size b' = fb_size b /\
  fb_rep_size b' = fb_rep_size b /\ fb_pauth b' = fb_pauth b.
Proof.
  unfold merge_adjacent_fres. intros H.
  destruct (bt_first (fb_fres b)) as [[address r]|]; [|inversion H; subst; auto 6].
  destruct (merge_fres_loop _ address (fb_fres b)) as [m| |]; cbn in H; [|discriminate|discriminate].
  inversion H. subst b'. cbn. auto 6.
Qed.

Lemma fdb_run_fields o start size l :
  fb_options (fdb_run o start size l) = o /\
  fb_start (fdb_run o start size l) = asked_start start l /\
  fb_size (fdb_run o start size l) = asked_size size l /\
  fb_rep_size (fdb_run o start size l) = asked_rep l /\
  fb_pauth (fdb_run o start size l) = asked_key l.
Proof.
  unfold fdb_run.
  assert (HM : forall b, let b' := match merge_adjacent_fres b with Ok b' => b' | _ => b end in
    fb_options b' = fb_options b /\ fb_start b' = fb_start b /\ fb_size b' = fb_size b /\
    fb_rep_size b' = fb_rep_size b /\ fb_pauth b' = fb_pauth b).
  { intros b. cbn. destruct (merge_adjacent_fres b) as [b'| |] eqn:Hb; [apply merge_same, Hb|auto 6|auto 6]. }
  split; [|split; [|split; [|split]]].
  - change o with (fb_options (fdb_new o start size)) at 2.
    generalize (fdb_new o start size). induction l as [|c t IH]; intros b; cbn [fold_left]; [reflexivity|].
    rewrite IH. destruct c; cbn [fdb_run_call]; try reflexivity; [apply (row_st_same b r)|apply HM].
  - apply (last_call_fold fdb_run_call fb_start). intros b c.
    destruct c; cbn [fdb_run_call]; try reflexivity; [apply (row_st_same b r)|apply HM].
  - apply (last_call_fold fdb_run_call fb_size). intros b c.
    destruct c; cbn [fdb_run_call]; try reflexivity; [apply (row_st_same b r)|apply HM].
  - apply (last_call_fold fdb_run_call fb_rep_size). intros b c.
    destruct c; cbn [fdb_run_call]; try reflexivity; [apply (row_st_same b r)|apply HM].
  - apply (last_call_fold fdb_run_call fb_pauth). intros b c.
    destruct c; cbn [fdb_run_call]; try reflexivity; [apply (row_st_same b r)|apply HM].
Qed.

Lemma setters_keep_rows b c : touches_rows c = false -> fb_fres (fdb_run_call b c) = fb_fres b.
Proof. destruct c; cbn; intros H; try reflexivity; discriminate. Qed.

Lemma row_constructors start x v :
  row_new_from_sp start x = Row start (Some x) false Sp /\
  row_new_from_fp start x = Row start (Some x) false Fp /\
  row_invalid start = Row start None false Fp /\
  forall r, row_mangled_ra_p v r = Row (r_start r) (r_offsets r) v (r_base r).
Proof. repeat split; reflexivity. Qed.

Lemma conv_run_fields a l :
  conv_run a l = Options (asked_arch a l) (asked_merge_fres l) (asked_merge_fdes l) (asked_warnings l)
                   (asked_debugdump l) (asked_endian l).
Proof.
  unfold conv_run.
  assert (H1 : op_arch (fold_left conv_run_call l (conv_options_new a)) = asked_arch a l)
    by (apply (last_call_fold conv_run_call op_arch); intros s c; destruct c; reflexivity).
  assert (H2 : op_merge_fres (fold_left conv_run_call l (conv_options_new a)) = asked_merge_fres l)
    by (apply (last_call_fold conv_run_call op_merge_fres); intros s c; destruct c; reflexivity).
  assert (H3 : op_merge_fdes (fold_left conv_run_call l (conv_options_new a)) = asked_merge_fdes l)
    by (apply (last_call_fold conv_run_call op_merge_fdes); intros s c; destruct c; reflexivity).
  assert (H4 : op_warnings (fold_left conv_run_call l (conv_options_new a)) = asked_warnings l)
    by (apply (last_call_fold conv_run_call op_warnings); intros s c; destruct c; reflexivity).
  assert (H5 : op_debugdump (fold_left conv_run_call l (conv_options_new a)) = asked_debugdump l)
    by (apply (last_call_fold conv_run_call op_debugdump); intros s c; destruct c; reflexivity).
  assert (H6 : op_endian (fold_left conv_run_call l (conv_options_new a)) = asked_endian l)
    by (apply (last_call_fold conv_run_call op_endian); intros s c; destruct c; reflexivity).
  destruct (fold_left conv_run_call l (conv_options_new a)). cbn in *. congruence.
Qed.
