(** Proofs about the converter: rows, functions, entries (C46-C54). *)
From Verif Require Export ConvSpec EmitWitness.

(** ** Rows *)

(** What an SFrame row can express of a DWARF row, as a function. *)
Definition classify (a : arch) (r : dw_row) : option (base_reg * Z * Z * option Z) :=
  match dr_cfa r with
  | CfaExpression _ => None
  | CfaReg reg cfa =>
      match (if reg =? reg_sp a then Some Sp else if reg =? reg_fp a then Some Fp else None) with
      | None => None
      | Some base =>
          if in_i32b cfa then
            match (match dr_register r (reg_fp a) with
                   | ROffset o => if in_i32b o then Some (Some o) else None
                   | RSameValue | RUndefined => Some None
                   | _ => None
                   end) with
            | None => None
            | Some fp =>
                match dr_register r (reg_ra a) with
                | ROffset ra => if in_i32b ra then Some (base, cfa, ra, fp) else None
                | _ => None
                end
            end
          else None
      end
  end.

Lemma reg_base_inj a b b' : reg_base a b = reg_base a b' -> b = b'.
Proof. destruct a, b, b'; cbn; try reflexivity; discriminate. Qed.

Lemma classify_spec a r base cfa ra fp :
  classify a r = Some (base, cfa, ra, fp) <-> representable a r base cfa ra fp.
Proof.
  unfold classify, representable. split.
  - destruct (dr_cfa r) as [reg c|]; [|discriminate].
    destruct (Z.eqb_spec reg (reg_sp a)) as [->|Hsp];
      [|destruct (Z.eqb_spec reg (reg_fp a)) as [->|Hfp]; [|discriminate]].
    all: destruct (in_i32b c) eqn:Ec; [|discriminate]; apply in_i32b_spec in Ec.
    all: destruct (dr_register r (reg_fp a)) as [| |o| | | | | |]; try discriminate.
    all: try (destruct (in_i32b o) eqn:Eo; [apply in_i32b_spec in Eo|discriminate]).
    all: destruct (dr_register r (reg_ra a)) as [| |o'| | | | | |]; try discriminate.
    all: destruct (in_i32b o') eqn:Eo'; [apply in_i32b_spec in Eo'|discriminate].
    all: intros [= <- <- <- <-]; cbn; auto 10.
  - intros (-> & Hc & -> & Hr & Hf). apply in_i32b_spec in Hc, Hr. rewrite Hc, Hr.
    assert ((if reg_base a base =? reg_sp a then Some Sp
             else if reg_base a base =? reg_fp a then Some Fp else None) = Some base) as ->
      by (destruct a, base; reflexivity).
    destruct fp as [o|].
    + destruct Hf as [-> Ho]. apply in_i32b_spec in Ho. rewrite Ho. reflexivity.
    + destruct Hf as [-> | ->]; reflexivity.
Qed.

Lemma classify_none a r : classify a r = None <-> unrepresentable a r.
Proof.
  unfold unrepresentable. split.
  - intros H base cfa ra fp Hr. apply classify_spec in Hr. congruence.
  - intros H. destruct (classify a r) as [[[[base cfa] ra] fp]|] eqn:E; [|reflexivity].
    apply classify_spec in E. exfalso. eapply H, E.
Qed.

Lemma representable_fun a r b c x f b' c' x' f' :
  representable a r b c x f -> representable a r b' c' x' f' -> (b, c, x, f) = (b', c', x', f').
Proof. intros H H'. apply classify_spec in H, H'. congruence. Qed.

(** The row handed to [row()]. *)
Definition img (a : arch) (f : dw_fde) (r : dw_row) : row :=
  match classify a r with
  | Some (base, cfa, ra, fp) => row_new base (off f r) {| ro_cfa := cfa; ro_ra := Some ra; ro_fp := fp |}
  | None => row_invalid (off f r)
  end.

Lemma img_start a f r : r_start (img a f r) = off f r.
Proof. unfold img. destruct (classify a r) as [[[[? ?] ?] ?]|]; reflexivity. Qed.

Lemma sub_u64_ok {E} md a b : 0 <= a - b -> @sub_u64 E md a b = Ok (a - b).
Proof. intros H. unfold sub_u64. destruct (Z.leb_spec 0 (a - b)); [reflexivity|lia]. Qed.

Lemma convert_row_eq md op f r : 0 <= off f r < i32_max ->
  convert_row md op f r =
  match classify (op_arch op) r with
  | Some _ => Ok (RowOk (img (op_arch op) f r))
  | None => warn md op f r
  end.
Proof.
  intros Hd. unfold convert_row, img, classify.
  change arch_fp with reg_fp. change arch_sp with reg_sp. change arch_ra with reg_ra.
  destruct (dr_cfa r) as [reg cfa|]; [|reflexivity].
  destruct (if reg =? reg_sp (op_arch op) then Some Sp else if reg =? reg_fp (op_arch op) then Some Fp else None)
    as [base|]; [|reflexivity].
  unfold off in *. rewrite sub_u64_ok by lia. cbn [bind].
  unfold row_start_ok. destruct (Z.ltb_spec (dr_start r - df_start f) i32_max); [|lia]. cbn [negb].
  destruct (in_i32b cfa); cbn [negb]; [|reflexivity].
  destruct (dr_register r (reg_fp (op_arch op))) as [| |o| | | | | |]; try reflexivity;
    try (destruct (in_i32b o); [|reflexivity]);
    (destruct (dr_register r (reg_ra (op_arch op))) as [| |o'| | | | | |]; try reflexivity;
     destruct (in_i32b o'); reflexivity).
Qed.

Lemma warn_eq md op f r : 0 <= off f r ->
  warn md op f r = if op_warnings op && (df_len f =? 0) then Panic else Ok RowWarning.
Proof.
  intros Hd. unfold warn. destruct (op_warnings op); cbn [negb andb]; [|reflexivity].
  unfold off in Hd. rewrite sub_u64_ok by exact Hd. reflexivity.
Qed.

(** One row. *)
Definition row_step (md : mode) (op : options) (f : dw_fde) (b : fdb) (r : dw_row) : outcome conv_error fdb :=
  if wideb r then
    if off f r <? 0 then
      if overflow_checks md then Panic else Err (InvalidRowOffset (dr_start r) (off f r + 2 ^ 64))
    else if i32_max <=? off f r then Err (InvalidRowOffset (dr_start r) (off f r))
    else match fdb_row b (img (op_arch op) f r) with Ok b' => Ok b' | _ => Panic end
  else Ok b.

Lemma fdb_row_outside b r : fb_size b <= r_start r -> forall b', fdb_row b r <> Ok b'.
Proof.
  intros H b'. unfold fdb_row, fdb_row_st. destruct (_ <=? _); [discriminate|].
  destruct (match fb_rep_size b with Some rep => _ | None => _ end); [discriminate|].
  destruct (Z.leb_spec (fb_size b) (r_start r)); [discriminate|lia].
Qed.

Lemma convert_rows_step md op f r t b :
  dw_row_typed r -> 0 <= df_start f <= i32_max -> fb_size b = df_len f ->
  convert_rows md op f (r :: t) b = (let* b' := row_step md op f b r in convert_rows md op f t b').
Proof.
  intros [[H1 H2] _] [Hf1 Hf2] Hsz. cbn [convert_rows]. unfold row_step, wideb.
  destruct (dr_start r =? dr_end r); cbn [negb]; [reflexivity|].
  destruct (Z.ltb_spec (off f r) 0) as [Hlt|Hge].
  - unfold sub_u64. fold (off f r). destruct (Z.leb_spec 0 (off f r)); [lia|].
    destruct (overflow_checks md); cbn [bind]; [reflexivity|].
    assert (as_u 64 (off f r) = off f r + 2 ^ 64) as ->.
    { unfold as_u. symmetry. apply Z.mod_unique with (-1); [|lia]. unfold off, i32_max in *. lia. }
    unfold row_start_ok. destruct (Z.ltb_spec (off f r + 2 ^ 64) i32_max) as [Hx|Hx]; [|reflexivity].
    unfold off, i32_max in *. lia.
  - unfold off in Hge. rewrite sub_u64_ok by exact Hge. cbn [bind]. fold (off f r) in *.
    unfold row_start_ok. destruct (Z.leb_spec i32_max (off f r)) as [Hx|Hx];
      (destruct (Z.ltb_spec (off f r) i32_max); [|]); try lia; cbn [negb bind]; [reflexivity|].
    rewrite convert_row_eq by lia.
    destruct (classify (op_arch op) r) eqn:Ec.
    + cbn [lift bind]. destruct (fdb_row b (img (op_arch op) f r)); reflexivity.
    + rewrite warn_eq by lia.
      assert (Hi : img (op_arch op) f r = row_invalid (off f r)) by (unfold img; rewrite Ec; reflexivity).
      destruct (op_warnings op && (df_len f =? 0)) eqn:Ew; cbn [lift bind].
      * destruct (fdb_row b (img (op_arch op) f r)) eqn:Eb; try reflexivity.
        exfalso. eapply fdb_row_outside; [|exact Eb]. rewrite img_start. lia.
      * rewrite Hi. destruct (fdb_row b (row_invalid (off f r))); reflexivity.
Qed.

(** ** Rows of a function *)

Lemma add_rows_app b l1 l2 : add_rows b (l1 ++ l2) = (let* b' := add_rows b l1 in add_rows b' l2).
Proof.
  revert b. induction l1 as [|r t IH]; intros b; cbn [app add_rows]; [reflexivity|].
  destruct (fdb_row b r); cbn [bind]; [apply IH|reflexivity|reflexivity].
Qed.

Lemma fdb_row_inv b r b' : sorted (fb_fres b) -> keyed (fb_fres b) -> fdb_row b r = Ok b' ->
  sorted (fb_fres b') /\ keyed (fb_fres b') /\
  fb_options b' = fb_options b /\ fb_start b' = fb_start b /\ fb_size b' = fb_size b /\
  fb_rep_size b' = fb_rep_size b /\ fb_pauth b' = fb_pauth b /\
  Permutation (rows_of b') (kept_row (fb_options b) r :: rows_of b).
Proof.
  intros Hs Hk H. destruct (row_keeps b r b' Hs Hk H) as [Hs' Hk']. split; [exact Hs'|]. split; [exact Hk'|].
  pose proof (row_effect b r Hs Hk) as HE. unfold fdb_row in H.
  destruct (fdb_row_st b r) as [x o] eqn:E. destruct o; cbn in H; try discriminate. injection H as <-.
  cbn [fst snd] in HE. exact HE.
Qed.

Lemma add_rows_inv l : forall b b', sorted (fb_fres b) -> keyed (fb_fres b) -> add_rows b l = Ok b' ->
  sorted (fb_fres b') /\ keyed (fb_fres b') /\
  fb_options b' = fb_options b /\ fb_start b' = fb_start b /\ fb_size b' = fb_size b /\
  fb_rep_size b' = fb_rep_size b /\ fb_pauth b' = fb_pauth b /\
  Permutation (rows_of b') (map (kept_row (fb_options b)) l ++ rows_of b).
Proof.
  induction l as [|r t IH]; intros b b' Hs Hk H; cbn [add_rows] in H.
  - injection H as <-. cbn. auto 10.
  - apply bind_ok in H. destruct H as (b1 & H1 & H2).
    destruct (fdb_row_inv b r b1 Hs Hk H1) as (S1 & K1 & E1 & E2 & E3 & E4 & E5 & E6).
    destruct (IH b1 b' S1 K1 H2) as (S2 & K2 & F1 & F2 & F3 & F4 & F5 & F6).
    split; [exact S2|]. split; [exact K2|]. repeat (split; [congruence|]).
    rewrite F6, E1. cbn [map app]. rewrite E6. symmetry. apply Permutation_middle.
Qed.

(** The builder of a function after its first rows [pre]. *)
Record partway (a : arch) (o : sframe_options) (f : dw_fde) (pre : list dw_row) (b : fdb) : Prop := {
  pw_rows : add_rows (fdb_new o (df_start f) (df_len f)) (map (img a f) (filter wideb pre)) = Ok b }.

Section Partway.
  Variables (a : arch) (o : sframe_options) (f : dw_fde).
  Hypothesis Hfp : so_fixed_fp o = None.

  Lemma partway_inv pre b : partway a o f pre b ->
    sorted (fb_fres b) /\ keyed (fb_fres b) /\ fb_options b = o /\ fb_start b = df_start f /\
    fb_size b = df_len f /\ fb_rep_size b = None /\ fb_pauth b = KeyA /\
    Permutation (rows_of b) (map (fun r => kept_row o (img a f r)) (filter wideb pre)).
  Proof.
    intros [H]. apply add_rows_inv in H; [|apply sorted_nil|intros ? ? []].
    destruct H as (S & K & E1 & E2 & E3 & E4 & E5 & E6). cbn in *. rewrite app_nil_r, map_map in E6. auto 10.
  Qed.

  Lemma partway_row pre b r : partway a o f pre b -> wideb r = true ->
    (exists b', fdb_row b (img a f r) = Ok b' /\ partway a o f (pre ++ [r]) b') /\
      row_fits a (so_fixed_ra o) f pre r \/
    (forall b', fdb_row b (img a f r) <> Ok b') /\ ~ row_fits a (so_fixed_ra o) f pre r.
  Proof.
    intros Hp Hw. pose proof (partway_inv _ _ Hp) as (S & K & E1 & E2 & E3 & E4 & E5 & E6).
    assert (HC : Forall (fun p => fst p) (row_conditions b (img a f r)) <-> row_fits a (so_fixed_ra o) f pre r).
    { rewrite conditions_unfold. unfold row_fits, ra_agrees, fp_agrees. rewrite img_start, E1, E3, E4, Hfp.
      assert (HD : (forall r', In r' (rows_of b) -> r_start r' <> off f r) <->
                   (forall r', In r' pre -> wide r' -> dr_start r' <> dr_start r)).
      { split.
        - intros H r' Hi Hwr Heq. apply (H (kept_row o (img a f r'))).
          + eapply Permutation_in; [symmetry; exact E6|]. apply in_map_iff. exists r'. split; [reflexivity|].
            apply filter_In. split; [exact Hi|]. unfold wideb, wide in *. destruct (Z.eqb_spec (dr_start r') (dr_end r')); [contradiction|reflexivity].
          + cbn. rewrite img_start. unfold off. lia.
        - intros H x Hx Heq. eapply Permutation_in in Hx; [|exact E6]. apply in_map_iff in Hx.
          destruct Hx as (r' & <- & Hi). apply filter_In in Hi. destruct Hi as [Hi Hwr].
          cbn in Heq. rewrite img_start in Heq. apply (H r' Hi); [|unfold off in Heq; lia].
          unfold wide, wideb in *. destruct (Z.eqb_spec (dr_start r') (dr_end r')); [discriminate|assumption]. }
      rewrite HD. split.
      - intros (H1 & _ & H3 & H4 & _ & H6). split; [exact H1|]. split; [exact H3|]. split; [|exact H6].
        intros base cfa ra fp x Hr Hx. apply classify_spec in Hr. unfold img in H4. rewrite Hr in H4.
        eapply H4; [reflexivity|exact Hx|reflexivity].
      - intros (H1 & H3 & H4 & H6). split; [exact H1|]. split; [discriminate|]. split; [exact H3|].
        split; [|split; [|exact H6]].
        + intros y Hy. unfold img in Hy. destruct (classify a r) as [[[[base cfa] ra] fp]|] eqn:Ec; [|discriminate].
          injection Hy as <-. intros x g Hx [= <-]. apply classify_spec in Ec. eapply H4; eassumption.
        + intros y _ x g [=]. }
    destruct (fdb_row b (img a f r)) as [b'|er|] eqn:Eb.
    - left. split.
      + exists b'. split; [reflexivity|]. constructor. rewrite filter_app, map_app, add_rows_app.
        destruct Hp as [->]. cbn [filter]. rewrite Hw. cbn [map bind add_rows]. rewrite Eb. reflexivity.
      + apply HC. apply fdb_row_ok in Eb; tauto.
    - right. split; [discriminate|]. rewrite <- HC. intros HF.
      assert (HX := proj2 (fdb_row_ok b (img a f r) _ S K) (conj HF eq_refl)). congruence.
    - right. split; [discriminate|]. rewrite <- HC. intros HF.
      assert (HX := proj2 (fdb_row_ok b (img a f r) _ S K) (conj HF eq_refl)). congruence.
  Qed.
End Partway.

Lemma wideb_spec r : wideb r = true <-> wide r.
Proof. unfold wideb, wide. destruct (Z.eqb_spec (dr_start r) (dr_end r)); cbn; split; congruence. Qed.

(** Exactly one of: all rows are fine; or there is a first problem. *)
Lemma convert_rows_fate md op o f : so_fixed_fp o = None -> 0 <= df_start f <= i32_max ->
  forall l pre b, Forall dw_row_typed l ->
  partway (op_arch op) o f pre b -> rows_fine (op_arch op) (so_fixed_ra o) f pre ->
  (exists b', convert_rows md op f l b = Ok b' /\ partway (op_arch op) o f (pre ++ l) b' /\
     rows_fine (op_arch op) (so_fixed_ra o) f (pre ++ l)) \/
  (exists pre' r post q, l = pre' ++ r :: post /\ rows_fine (op_arch op) (so_fixed_ra o) f (pre ++ pre') /\ wide r /\
     row_problem md (op_arch op) (so_fixed_ra o) f (pre ++ pre') r q /\ forget (convert_rows md op f l b) = q).
Proof.
  intros Hfp Hst. induction l as [|r t IH]; intros pre b Ht Hp Hf.
  { left. exists b. rewrite app_nil_r. auto. }
  inversion Ht as [|? ? Hr Ht']; subst.
  pose proof (partway_inv _ _ _ _ _ Hp) as (_ & _ & _ & _ & E3 & _ & _ & _).
  rewrite convert_rows_step by assumption.
  assert (Hnext : forall b', partway (op_arch op) o f (pre ++ [r]) b' ->
    rows_fine (op_arch op) (so_fixed_ra o) f (pre ++ [r]) ->
    (exists b'', convert_rows md op f t b' = Ok b'' /\ partway (op_arch op) o f (pre ++ r :: t) b'' /\
     rows_fine (op_arch op) (so_fixed_ra o) f (pre ++ r :: t)) \/
    (exists pre' r' post q, r :: t = pre' ++ r' :: post /\
     rows_fine (op_arch op) (so_fixed_ra o) f (pre ++ pre') /\ wide r' /\
     row_problem md (op_arch op) (so_fixed_ra o) f (pre ++ pre') r' q /\ forget (convert_rows md op f t b') = q)).
  { intros b' Hp' Hf'. destruct (IH (pre ++ [r]) b' Ht' Hp' Hf') as [(b'' & H1 & H2 & H3)|(pre' & r' & post & q & H1 & H2 & H3 & H4 & H5)].
    - left. exists b''. rewrite <- app_assoc in H2, H3. auto.
    - right. exists (r :: pre'), r', post, q. rewrite <- app_assoc in H2, H4. cbn [app] in *. split; [rewrite H1; reflexivity|auto]. }
  assert (Hext : forall x, (wide x -> row_fine (op_arch op) (so_fixed_ra o) f pre x) ->
    rows_fine (op_arch op) (so_fixed_ra o) f (pre ++ [x])).
  { intros x Hx p y q Heq Hy. 
    destruct q as [|z q] using rev_ind.
    - apply app_inj_tail in Heq. destruct Heq as [<- <-]. auto.
    - rewrite app_comm_cons, app_assoc in Heq. apply app_inj_tail in Heq. destruct Heq as [-> _].
      eapply Hf; [reflexivity|exact Hy]. }
  unfold row_step. destruct (wideb r) eqn:Ew.
  2:{ cbn [bind]. apply Hnext.
      - destruct Hp as [Hp]. constructor. rewrite filter_app. cbn [filter]. rewrite Ew, app_nil_r. exact Hp.
      - apply Hext. intros Hw. apply wideb_spec in Hw. congruence. }
  assert (Hw : wide r) by (apply wideb_spec, Ew).
  assert (Hstop : forall q : outcome conv_error unit, row_problem md (op_arch op) (so_fixed_ra o) f pre r q -> forall c : outcome conv_error fdb,
    forget c = q ->
    (exists b', c = Ok b' /\ partway (op_arch op) o f (pre ++ r :: t) b' /\
       rows_fine (op_arch op) (so_fixed_ra o) f (pre ++ r :: t)) \/
    (exists pre' r' post q, r :: t = pre' ++ r' :: post /\
       rows_fine (op_arch op) (so_fixed_ra o) f (pre ++ pre') /\ wide r' /\
       row_problem md (op_arch op) (so_fixed_ra o) f (pre ++ pre') r' q /\ forget c = q)).
  { intros q Hq c Hc. right. exists [], r, t, q. rewrite app_nil_r. auto. }
  destruct (Z.ltb_spec (off f r) 0) as [Hlt|Hge].
  { destruct (overflow_checks md) eqn:Eo; cbn [bind].
    - eapply Hstop; [apply rp_before_checked; assumption|reflexivity].
    - eapply Hstop; [apply rp_before; assumption|reflexivity]. }
  destruct (Z.leb_spec i32_max (off f r)) as [Hfar|Hnear].
  { eapply Hstop; [apply rp_far; assumption|reflexivity]. }
  destruct (partway_row _ _ _ Hfp pre b r Hp Ew) as [[(b' & Eb & Hp') Hfits]|[Hno Hfits]].
  - rewrite Eb. cbn [bind]. apply Hnext; [exact Hp'|]. apply Hext. intros _. split; assumption.
  - eapply Hstop; [apply rp_rejected; [lia|exact Hfits]|].
    destruct (fdb_row b (img (op_arch op) f r)) as [b'| |] eqn:Eb; [|reflexivity|reflexivity].
    exfalso. exact (Hno b' eq_refl).
Qed.
