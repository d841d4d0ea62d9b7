(** The first-generation tool: every outcome. *)
From Verif Require Export ToolsSpec ConvErrors.

(** ** Its rows, seen as rows of the converter *)

(** Any rule for RBP other than CFA+offset is dropped; no row has no width. *)
Definition v1_fp_rule (r : dw_row) : reg_rule :=
  match dr_register r 6 with ROffset o => ROffset o | _ => RUndefined end.
Definition norm_row (r : dw_row) : dw_row :=
  DwRow (dr_start r) (if dr_start r =? 0 then 1 else 0) (dr_cfa r) ((6, v1_fp_rule r) :: dr_regs r).
Definition norm (f : dw_fde) : dw_fde :=
  DwFde (df_start f) (df_len f) (df_insns f)
    match df_rows f with
    | inl rs => inl (DwRows (map norm_row (rows_list rs)) (rows_end rs))
    | inr g => inr g
    end.

Lemma norm_wide r : wideb (norm_row r) = true.
Proof.
  unfold wideb, norm_row. cbn [dr_start dr_end].
  destruct (Z.eqb_spec (dr_start r) 0) as [E|E]; [rewrite E; reflexivity|].
  destruct (Z.eqb_spec (dr_start r) 0); [contradiction|reflexivity].
Qed.
Lemma norm_all_wide l : filter wideb (map norm_row l) = map norm_row l.
Proof. induction l as [|r t IH]; [reflexivity|]. cbn [map filter]. rewrite norm_wide, IH. reflexivity. Qed.
Lemma norm_typed r : dw_row_typed r -> dw_row_typed (norm_row r).
Proof.
  intros [H1 _]. split; [exact H1|]. cbn [norm_row dr_end]. destruct (dr_start r =? 0); unfold in_u64; lia.
Qed.
Lemma norm_ra r : dr_register (norm_row r) 16 = dr_register r 16.
Proof. reflexivity. Qed.
Lemma norm_fp r : dr_register (norm_row r) 6 = v1_fp_rule r.
Proof. reflexivity. Qed.

Lemma norm_representable r base cfa ra fp :
  representable Amd64 (norm_row r) base cfa ra fp <-> v1_representable r base cfa ra fp.
Proof.
  unfold representable, v1_representable. change (reg_ra Amd64) with 16. change (reg_fp Amd64) with 6.
  rewrite norm_ra, norm_fp. unfold v1_fp_rule. change (dr_cfa (norm_row r)) with (dr_cfa r).
  destruct fp as [o|].
  - destruct (dr_register r 6); intuition (try discriminate).
  - split; intros (H1 & H2 & H3 & H4 & H5); (split; [exact H1|]); (split; [exact H2|]); (split; [exact H3|]); (split; [exact H4|]).
    + intros o Ho. rewrite Ho in H5. destruct H5; discriminate.
    + destruct (dr_register r 6) eqn:E; auto. exfalso. eapply H5, eq_refl.
Qed.

Lemma norm_fde_typed f : dw_fde_typed f -> dw_fde_typed (norm f).
Proof.
  intros (H1 & H2 & H3). split; [exact H1|]. split; [exact H2|]. unfold dw_rows_of in *. cbn [norm df_rows].
  destruct (df_rows f) as [rs|g]; [|constructor]. cbn [rows_list] in *.
  apply Forall_forall. intros x Hx. apply in_map_iff in Hx. destruct Hx as (r & <- & Hr).
  apply norm_typed. rewrite Forall_forall in H3. apply H3, Hr.
Qed.

Lemma norm_off f r : off (norm f) (norm_row r) = off f r.
Proof. reflexivity. Qed.

(** The row it tries first. *)
Lemma v1_translate_eq f r : v1_translate (off f r) r =
  match classify Amd64 (norm_row r) with Some _ => Some (img Amd64 (norm f) (norm_row r)) | None => None end.
Proof.
  unfold v1_translate, img, classify. change (dr_cfa (norm_row r)) with (dr_cfa r).
  destruct (dr_cfa r) as [reg c|]; [|reflexivity].
  change (reg_ra Amd64) with 16. change (reg_fp Amd64) with 6. change (reg_sp Amd64) with 7.
  rewrite norm_ra, norm_fp, norm_off. unfold v1_fp_rule.
  destruct (Z.eqb_spec reg 7) as [->|Hsp].
  - change (7 =? 6) with false. cbn match.
    destruct (in_i32b c), (dr_register r 6) as [| |o| | | | | |], (dr_register r 16) as [| |o'| | | | | |];
      cbn; try destruct (in_i32b o); try destruct (in_i32b o'); reflexivity.
  - destruct (reg =? 6); [|reflexivity].
    destruct (in_i32b c), (dr_register r 6) as [| |o| | | | | |], (dr_register r 16) as [| |o'| | | | | |];
      cbn; try destruct (in_i32b o); try destruct (in_i32b o'); reflexivity.
Qed.

(** Without fixed offsets only the position of a row matters. *)
Definition v1_position (b : fdb) (d : Z) : option row_error :=
  if 0x10000000 <=? d then Some StartAddressTooLarge
  else if fb_size b <=? d then Some StartAddressOutsideFde
  else match bt_get d (fb_fres b) with Some _ => Some DuplicateRow | None => None end.

Lemma position_rejects b nr : fb_options b = v1_options -> fb_rep_size b = None ->
  match v1_position b (r_start nr) with
  | Some er => fdb_row b nr = Err er
  | None => exists b', fdb_row b nr = Ok b'
  end.
Proof.
  intros Ho Hr. unfold v1_position, fdb_row, fdb_row_st. rewrite Ho, Hr.
  destruct (0x10000000 <=? r_start nr); [reflexivity|].
  destruct (fb_size b <=? r_start nr); [reflexivity|].
  destruct nr as [st [offs|] mg bs]; cbn.
  - destruct (bt_get st (fb_fres b)); [reflexivity|eauto].
  - destruct (bt_get st (fb_fres b)); [reflexivity|eauto].
Qed.

Lemma v1_add_row_eq b f r : fb_options b = v1_options -> fb_rep_size b = None ->
  v1_add_row b (off f r) r =
  match v1_position b (off f r) with
  | Some er => Err (V1InvalidRow er)
  | None => map_err V1InvalidRow (fdb_row b (img Amd64 (norm f) (norm_row r)))
  end.
Proof.
  intros Ho Hr. unfold v1_add_row. rewrite v1_translate_eq.
  pose proof (position_rejects b (row_invalid (off f r)) Ho Hr) as HI. cbn [r_start row_invalid] in HI.
  pose proof (position_rejects b (img Amd64 (norm f) (norm_row r)) Ho Hr) as HR. rewrite img_start, norm_off in HR.
  destruct (v1_position b (off f r)) as [er|].
  - rewrite HI. destruct (classify Amd64 (norm_row r)); [rewrite HR|]; reflexivity.
  - destruct HR as [b' HR].
    destruct (classify Amd64 (norm_row r)) as [p|] eqn:E; [rewrite HR; reflexivity|].
    unfold img. rewrite E. reflexivity.
Qed.

Notation v1_part := (partway Amd64 v1_options) (only parsing).

Lemma v1_fits f pre r :
  row_fits Amd64 None (norm f) (map norm_row pre) (norm_row r) <->
  off f r < 0x10000000 /\ off f r < df_len f /\ forall r', In r' pre -> dr_start r' <> dr_start r.
Proof.
  unfold row_fits. rewrite norm_off. change (df_len (norm f)) with (df_len f). split.
  - intros (H1 & H2 & _ & H3). split; [exact H1|]. split; [exact H2|]. intros r' Hr'.
    apply (H3 (norm_row r')); [apply in_map, Hr'|apply wideb_spec, norm_wide].
  - intros (H1 & H2 & H3). split; [exact H1|]. split; [exact H2|]. split; [discriminate|].
    intros x Hx _. apply in_map_iff in Hx. destruct Hx as (r' & <- & Hr'). exact (H3 r' Hr').
Qed.

(** The row loop: all rows are fine, or there is a first problem. *)
Lemma v1_rows_fate md p f : 0 <= df_start f <= i32_max ->
  forall l pre b, Forall dw_row_typed l ->
  v1_part (norm f) (map norm_row pre) b -> v1_rows_fine p f pre ->
  (exists b', v1_rows md p f l b = Ok b' /\ v1_part (norm f) (map norm_row (pre ++ l)) b' /\
     v1_rows_fine p f (pre ++ l)) \/
  (exists pre' r post q, l = pre' ++ r :: post /\ v1_rows_fine p f (pre ++ pre') /\
     v1_row_problem md p f (pre ++ pre') r q /\ forget (v1_rows md p f l b) = q).
Proof.
  intros Hst. induction l as [|r t IH]; intros pre b Ht Hp Hf.
  { left. exists b. rewrite app_nil_r. auto. }
  inversion Ht as [|? ? [[Hr1 Hr2] Hr3] Ht']; subst.
  pose proof (partway_inv _ _ _ _ _ Hp) as (HS & HK & E1 & E2 & E3 & E4 & _ & HP).
  assert (Hstop : forall q : outcome v1_error unit, v1_row_problem md p f pre r q -> forall c : outcome v1_error fdb,
    forget c = q ->
    (exists b', c = Ok b' /\ v1_part (norm f) (map norm_row (pre ++ r :: t)) b' /\ v1_rows_fine p f (pre ++ r :: t)) \/
    (exists pre' r' post q, r :: t = pre' ++ r' :: post /\ v1_rows_fine p f (pre ++ pre') /\
       v1_row_problem md p f (pre ++ pre') r' q /\ forget c = q)).
  { intros q Hq c Hc. right. exists [], r, t, q. rewrite app_nil_r. auto. }
  cbn [v1_rows]. change (dr_start r - df_start f) with (off f r).
  destruct (Z_lt_ge_dec (off f r) 0) as [Hlt|Hge].
  { unfold sub_u64. destruct (Z.leb_spec 0 (dr_start r - df_start f)) as [X|X]; [unfold off in Hlt; lia|].
    destruct (overflow_checks md) eqn:Eo; cbn [bind].
    - eapply Hstop; [apply v1p_before_checked; assumption|reflexivity].
    - assert (HW : as_u 64 (dr_start r - df_start f) = off f r + 2 ^ 64).
      { unfold as_u, off. rewrite <- (Z.mod_add _ 1) by lia. rewrite Z.mod_small; [lia|]. unfold i32_max in *. lia. }
      rewrite HW. unfold row_start_ok. destruct (Z.ltb_spec (off f r + 2 ^ 64) i32_max) as [Y|Y].
      + unfold off, i32_max in *. lia.
      + cbn [negb]. eapply Hstop; [apply v1p_before; assumption|reflexivity]. }
  rewrite sub_u64_ok by (unfold off in Hge; lia). cbn [bind]. change (dr_start r - df_start f) with (off f r).
  unfold row_start_ok. destruct (Z.ltb_spec (off f r) i32_max) as [Hn|Hn]; cbn [negb].
  2:{ eapply Hstop; [apply v1p_far; lia|reflexivity]. }
  destruct (p r) eqn:Ep; cbn [negb].
  2:{ eapply Hstop; [apply v1p_print; [lia|exact Ep]|reflexivity]. }
  rewrite v1_add_row_eq by assumption. unfold v1_position. rewrite E3. change (df_len (norm f)) with (df_len f).
  destruct (Z.leb_spec 0x10000000 (off f r)) as [Hl|Hl]; cbn [bind].
  { eapply Hstop; [apply v1p_large; [lia|exact Ep]|reflexivity]. }
  destruct (Z.leb_spec (df_len f) (off f r)) as [Ho|Ho]; cbn [bind].
  { eapply Hstop; [apply v1p_outside; [lia|exact Ep|exact Ho]|reflexivity]. }
  destruct (bt_get (off f r) (fb_fres b)) as [x|] eqn:Eg; cbn [bind].
  { apply bt_get_in in Eg. assert (Hx : In x (rows_of b)) by (unfold rows_of; apply in_map_iff; exists (off f r, x); auto).
    pose proof (HK _ _ Eg) as Hkx. eapply Permutation_in in Hx; [|exact HP]. rewrite norm_all_wide in Hx.
    apply in_map_iff in Hx. destruct Hx as (r0 & <- & Hr0). apply in_map_iff in Hr0. destruct Hr0 as (r' & <- & Hr').
    cbn [r_start kept_row] in Hkx. rewrite img_start, norm_off in Hkx.
    eapply Hstop; [apply (v1p_twice md p f pre r r'); [lia|exact Ep|exact Ho|exact Hr'|unfold off in Hkx; lia]|reflexivity]. }
  destruct (partway_row Amd64 v1_options (norm f) eq_refl _ b (norm_row r) Hp (norm_wide r)) as [[(b' & Eb & Hp') Hfits]|[Hno _]].
  2:{ exfalso. pose proof (position_rejects b (img Amd64 (norm f) (norm_row r)) E1 E4) as HR.
      unfold v1_position in HR. rewrite img_start, norm_off, E3 in HR. change (df_len (norm f)) with (df_len f) in HR.
      destruct (Z.leb_spec 0x10000000 (off f r)); [lia|]. destruct (Z.leb_spec (df_len f) (off f r)); [lia|].
      rewrite Eg in HR. destruct HR as [b' HR]. exact (Hno b' HR). }
  rewrite Eb. cbn [map_err bind].
  change (so_fixed_ra v1_options) with (@None Z) in Hfits. apply v1_fits in Hfits. destruct Hfits as (_ & _ & Hdup).
  assert (Hf' : v1_rows_fine p f (pre ++ [r])).
  { intros p0 y q Heq. destruct q as [|z q] using rev_ind.
    - apply app_inj_tail in Heq. destruct Heq as [<- <-]. split; [exact Ep|]. split; [lia|]. split; [lia|exact Hdup].
    - rewrite app_comm_cons, app_assoc in Heq. apply app_inj_tail in Heq. destruct Heq as [-> _]. eapply Hf, eq_refl. }
  assert (Hp2 : v1_part (norm f) (map norm_row (pre ++ [r])) b') by (rewrite map_app; exact Hp').
  destruct (IH (pre ++ [r]) b' Ht' Hp2 Hf') as [(b'' & H1 & H2 & H3)|(pre' & r' & post & q & H1 & H2 & H3 & H4)].
  - left. exists b''. rewrite <- app_assoc in H2, H3. auto.
  - right. exists (r :: pre'), r', post, q. rewrite <- app_assoc in H2, H3. cbn [app] in *. split; [rewrite H1; reflexivity|auto].
Qed.

(** ** A function *)

(** The options under which the converter merges rows, as this tool does. *)
Definition v1_conv : options := conv_options_new Amd64.

Lemma v1_fde_fate md p s f : dw_fde_typed f -> sb_options s = v1_options ->
  (exists b, v1_fde_fine p f /\ fde_built v1_conv v1_options (norm f) b /\
     v1_fde md p s f = Ok {| sb_options := v1_options; sb_fdes := bt_insert (df_start f) b (sb_fdes s) |}) \/
  (exists q, v1_fde_problem md p f q /\ forget (v1_fde md p s f) = q).
Proof.
  intros (Hs & Hn & Hr) Ho. unfold v1_fde.
  destruct (Z.ltb_spec i32_max (df_start f)) as [Hb|Hb].
  { right. eexists. split; [apply v1f_start; exact Hb|reflexivity]. }
  destruct (Z.ltb_spec i32_max (df_len f)) as [Hl|Hl].
  { right. eexists. split; [apply v1f_len; assumption|reflexivity]. }
  destruct (df_rows f) as [[l en]|g] eqn:Er.
  2:{ right. eexists. split; [apply v1f_rows; eassumption|reflexivity]. }
  destruct (df_dump f) as [g|] eqn:Ed.
  { right. eexists. split; [eapply v1f_dump; eassumption|reflexivity]. }
  cbn [rows_list rows_end].
  assert (HS : as_s 32 (df_start f) = df_start f).
  { unfold as_s, in_u64, i32_max in *. rewrite Z.mod_small by lia. destruct (Z.ltb_spec (df_start f) (2 ^ (32 - 1))); lia. }
  assert (HL : as_u 32 (df_len f) = df_len f) by (unfold as_u, in_u64, i32_max in *; apply Z.mod_small; lia).
  rewrite HS, HL, Ho.
  assert (Hl0 : Forall dw_row_typed l) by (unfold dw_rows_of in Hr; rewrite Er in Hr; exact Hr).
  destruct (v1_rows_fate md p f ltac:(unfold in_u64 in *; lia) l [] (fdb_new v1_options (df_start f) (df_len f)) Hl0)
    as [(b & H1 & H2 & H3)|(pre & r & post & q & H1 & H2 & H3 & H4)].
  { constructor. reflexivity. }
  { intros pre r post H. destruct pre; discriminate. }
  - rewrite H1. cbn [bind app] in *. destruct en as [g|].
    + right. eexists. split; [eapply v1f_end; eassumption|reflexivity].
    + assert (Hrows : dw_rows_of (norm f) = map norm_row l) by (unfold dw_rows_of; cbn [norm df_rows]; rewrite Er; reflexivity).
      pose proof (partway_inv _ _ _ _ _ H2) as (S & K & E1 & E2 & _).
      rewrite merge_fres_eq by assumption. cbn [map_err bind].
      left. eexists. split; [|split].
      * split; [exact Hb|]. split; [exact Hl|]. split; [exact Ed|]. exists l. auto.
      * constructor.
        -- exact Hb.
        -- exact Hl.
        -- exists (map norm_row l). split; [cbn [norm df_rows]; rewrite Er; reflexivity|].
           intros pre r post Heq _. apply map_eq_app in Heq. destruct Heq as (l1 & l2 & -> & <- & Heq).
           apply map_eq_cons in Heq. destruct Heq as (r0 & l3 & -> & <- & _).
           destruct (H3 l1 r0 l3 eq_refl) as (_ & R1 & R2 & R3). split; [rewrite norm_off; lia|].
           apply (v1_fits f). split; [exact R2|]. split; [lia|exact R3].
        -- exists b. split; [rewrite Hrows; exact H2|]. cbn [v1_conv conv_options_new op_merge_fres].
           rewrite merge_fres_eq by assumption. reflexivity.
      * unfold sfb_fde. cbn [fdb_set_fres fb_options fb_start]. rewrite Ho, E1, E2.
        assert (HX : options_eqb v1_options v1_options = true) by reflexivity. rewrite HX. reflexivity.
  - right. exists q. split.
    + rewrite H1 in Er. eapply v1f_row; eassumption.
    + cbn [app] in *. rewrite <- H4. destruct (v1_rows md p f l _) as [b|er|] eqn:Ev; cbn [bind forget]; [|reflexivity|reflexivity].
      exfalso. cbn in H4. subst q. inversion H3.
Qed.

(** ** All entries *)

Lemma v1_entries_fate md p : forall l pre s, Forall dw_entry_typed l -> sb_options s = v1_options ->
  assembled v1_conv v1_options (map norm (functions pre)) (sb_fdes s) ->
  (exists s', v1_entries md p l s = Ok s' /\ sb_options s' = v1_options /\
     assembled v1_conv v1_options (map norm (functions (pre ++ l))) (sb_fdes s') /\ Forall (v1_entry_fine p) l) \/
  (exists pre' x post q, l = pre' ++ x :: post /\ Forall (v1_entry_fine p) pre' /\
     v1_entry_problem md p x q /\ forget (v1_entries md p l s) = q).
Proof.
  induction l as [|x t IH]; intros pre s Ht Ho HA.
  { left. exists s. rewrite app_nil_r. auto. }
  inversion Ht as [|? ? Hx Ht']; subst.
  assert (Hnext : forall s', sb_options s' = v1_options ->
    assembled v1_conv v1_options (map norm (functions (pre ++ [x]))) (sb_fdes s') -> v1_entry_fine p x ->
    (exists s'', v1_entries md p t s' = Ok s'' /\ sb_options s'' = v1_options /\
       assembled v1_conv v1_options (map norm (functions (pre ++ x :: t))) (sb_fdes s'') /\ Forall (v1_entry_fine p) (x :: t)) \/
    (exists pre' y post q, x :: t = pre' ++ y :: post /\ Forall (v1_entry_fine p) pre' /\
       v1_entry_problem md p y q /\ forget (v1_entries md p t s') = q)).
  { intros s' Ho' HA' Hfine. destruct (IH (pre ++ [x]) s' Ht' Ho' HA') as [(s'' & H1 & H2 & H3 & H4)|(pre' & y & post & q & H1 & H2 & H3 & H4)].
    - left. exists s''. rewrite <- app_assoc in H3. cbn [app] in H3. split; [exact H1|]. split; [exact H2|]. split; [exact H3|]. constructor; assumption.
    - right. exists (x :: pre'), y, post, q. cbn [app]. split; [rewrite H1; reflexivity|]. split; [constructor; assumption|auto]. }
  destruct x as [|g|f]; cbn [v1_entries].
  - apply Hnext; [exact Ho| |exact I]. rewrite functions_app. cbn [functions]. rewrite app_nil_r. exact HA.
  - right. exists [], (DwBadFde g), t. eexists. split; [reflexivity|]. split; [constructor|]. split; [apply v1e_bad|reflexivity].
  - destruct (v1_fde_fate md p s f Hx Ho) as [(b & H1 & H2 & H3)|(q & H1 & H2)].
    + rewrite H3. cbn [bind]. apply Hnext; [reflexivity| |exact H1].
      rewrite functions_app, map_app. cbn [functions map sb_fdes].
      change (df_start f) with (df_start (norm f)). apply as_snoc; [exact HA|apply norm_fde_typed, Hx|exact H2].
    + right. exists [], (DwGoodFde f), t, q. split; [reflexivity|]. split; [constructor|]. split; [apply v1e_fde, H1|].
      rewrite <- H2. destruct (v1_fde md p s f) eqn:E; cbn [bind forget]; [|reflexivity|reflexivity].
      exfalso. cbn in H2. subst q. inversion H1; subst. match goal with H : v1_row_problem _ _ _ _ _ _ |- _ => inversion H end.
Qed.

Lemma v1_opts_reached : opts_reach v1_options.
Proof. apply or_abi; [unfold in_u8, ABI_AMD64_LE; lia|apply or_new]. Qed.

Theorem v1_fate md p ents : ents_typed ents ->
  (exists s, v1_convert md p ents = Ok s /\ v1_fine p ents /\ sb_options s = v1_options /\
     assembled v1_conv v1_options (map norm (functions (ents_list ents))) (sb_fdes s)) \/
  (exists q, v1_problem md p ents q /\ forget (v1_convert md p ents) = q).
Proof.
  intros Ht. unfold v1_convert.
  destruct (v1_entries_fate md p (ents_list ents) [] (sfb_new v1_options) Ht eq_refl) as [(s & H1 & H2 & H3 & H4)|(pre & x & post & q & H1 & H2 & H3 & H4)].
  { apply as_nil. }
  - rewrite H1. cbn [bind app] in *. destruct (ents_end ents) as [g|] eqn:Ee.
    + right. eexists. split; [apply v1s_end; eassumption|reflexivity].
    + left. exists s. destruct s as [o m]. cbn [sb_options sb_fdes] in *. subst o.
      rewrite (merge_noop md v1_conv v1_options _ m v1_opts_reached eq_refl H3). cbn [map_err].
      split; [reflexivity|]. split; [split; assumption|auto].
  - right. exists q. split; [eapply v1s_entry; eassumption|]. rewrite <- H4.
    destruct (v1_entries md p (ents_list ents) _) eqn:E; cbn [bind forget]; [|reflexivity|reflexivity].
    exfalso. cbn in H4. subst q. inversion H3 as [|f o Hf]; subst. inversion Hf; subst.
    match goal with H : v1_row_problem _ _ _ _ _ _ |- _ => inversion H end.
Qed.
