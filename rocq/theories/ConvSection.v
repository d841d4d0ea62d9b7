(** Proofs about the converter: functions, entries and whole sections. *)
From Verif Require Export ConvFacts.

(** ** Functions *)

(** [b] is the builder made for the function [f]. *)
Record fde_built (op : options) (o : sframe_options) (f : dw_fde) (b : fdb) : Prop := {
  bu_start : df_start f <= i32_max;
  bu_len : df_len f <= i32_max;
  bu_rows : exists l, df_rows f = inl (DwRows l None) /\ rows_fine (op_arch op) (so_fixed_ra o) f l;
  bu_made : exists b0, partway (op_arch op) o f (dw_rows_of f) b0 /\
    (if op_merge_fres op then merge_adjacent_fres b0 = Ok b else b = b0) }.

Lemma add_u64_cases {E} md a b :
  (2 ^ 64 <= a + b /\ overflow_checks md = true /\ @add_u64 E md a b = Panic) \/
  ((2 ^ 64 <= a + b -> overflow_checks md = false) /\ exists z, @add_u64 E md a b = Ok z).
Proof.
  unfold add_u64. destruct (Z.ltb_spec (a + b) (2 ^ 64)).
  - right. split; [lia|eauto].
  - destruct (overflow_checks md); [left|right]; eauto.
Qed.

Lemma dump_cases md op f :
  let step : outcome conv_error unit :=
    if op_debugdump op then
      let* _ := add_u64 md (df_start f) (df_len f) in
      match df_dump f with Some g => Err (InvalidDwarfFde g) | None => Ok tt end
    else Ok tt in
  (step = Ok tt /\ dump_fine md op f) \/
  (step = Panic /\ dump_overflows md op f) \/
  (exists g, step = Err (InvalidDwarfFde g) /\ ~ dump_overflows md op f /\ op_debugdump op = true /\ df_dump f = Some g).
Proof.
  cbv zeta. unfold dump_fine, dump_overflows. destruct (op_debugdump op).
  2:{ left. split; [reflexivity|]. split; [intros ([=] & _)|discriminate]. }
  destruct (@add_u64_cases conv_error md (df_start f) (df_len f)) as [(H1 & H2 & ->)|(H1 & z & ->)]; cbn [bind].
  - right. left. auto.
  - assert (HN : ~ (true = true /\ overflow_checks md = true /\ 2 ^ 64 <= df_start f + df_len f))
      by (intros (_ & H2 & H3); specialize (H1 H3); congruence).
    destruct (df_dump f) as [g|]; [right; right; exists g; auto|left; auto].
Qed.

Lemma convert_fde_fate md op s f : dw_fde_typed f -> so_fixed_fp (sb_options s) = None ->
  (exists b, fde_fine md op (so_fixed_ra (sb_options s)) f /\ fde_built op (sb_options s) f b /\
     convert_fde md op s f =
       Ok {| sb_options := sb_options s; sb_fdes := bt_insert (df_start f) b (sb_fdes s) |}) \/
  (exists q, fde_problem md op (so_fixed_ra (sb_options s)) f q /\ forget (convert_fde md op s f) = q).
Proof.
  intros (Hs & Hn & Hr) Hfp. unfold convert_fde.
  destruct (dump_cases md op f) as [[-> Hd]|[[-> Hd]|(g & -> & Hd)]]; cbn [bind].
  2:{ right. eexists. split; [apply fp_overflow, Hd|reflexivity]. }
  2:{ right. eexists. destruct Hd as (D1 & D2 & D3). split; [eapply fp_dump; eassumption|reflexivity]. }
  destruct (Z.ltb_spec i32_max (df_start f)) as [Hbig|Hst].
  { right. eexists. split; [apply fp_start; assumption|reflexivity]. }
  destruct (Z.ltb_spec i32_max (df_len f)) as [Hbig|Hln].
  { right. eexists. split; [apply fp_len; assumption|reflexivity]. }
  assert (Hhead : header_fine md op f) by (split; auto).
  rewrite as_s_32_id, as_u_32_id by (unfold in_u64, in_u32, in_i32, i32_min, i32_max, u32_max in *; lia).
  destruct (df_rows f) as [[rl re]|g] eqn:Er.
  2:{ right. eexists. split; [eapply fp_rows; eassumption|reflexivity]. }
  assert (Hrow : dw_rows_of f = rl) by (unfold dw_rows_of; rewrite Er; reflexivity).
  assert (Hty : Forall dw_row_typed rl) by (rewrite <- Hrow; exact Hr).
  assert (H0 : partway (op_arch op) (sb_options s) f [] (fdb_new (sb_options s) (df_start f) (df_len f)))
    by (constructor; reflexivity).
  assert (Hf0 : rows_fine (op_arch op) (so_fixed_ra (sb_options s)) f [])
    by (intros pre r post H; destruct pre; discriminate).
  assert (Hst' : 0 <= df_start f <= i32_max) by (unfold in_u64 in Hs; lia).
  cbn [rows_list rows_end].
  destruct (convert_rows_fate md op (sb_options s) f Hfp Hst' rl [] _ Hty H0 Hf0)
    as [(b & Hc & Hp & Hfine)|(pre & r & post & q & Hl & Hfine & Hw & Hprob & Hq)]; cbn [app] in *.
  - rewrite Hc. cbn [bind]. destruct re as [g|].
    { right. eexists. split; [|reflexivity]. eapply fp_end; [exact Hhead|rewrite Er; reflexivity|exact Hfine]. }
    left. pose proof (partway_inv _ _ _ _ _ Hp) as (S & K & E1 & E2 & _).
    assert (HF : fde_fine md op (so_fixed_ra (sb_options s)) f)
      by (split; [exact Hhead|]; exists rl; rewrite Er; auto).
    destruct (op_merge_fres op) eqn:Em.
    + pose proof (merge_fres_eq b S K) as Hm. rewrite Hm. cbn [of_fuel bind].
      exists (fdb_set_fres (squashed (fb_fres b)) b). split; [exact HF|]. split.
      * constructor; [exact Hst|exact Hln|destruct HF; assumption|]. exists b. rewrite Em, Hrow. auto.
      * unfold sfb_fde. cbn [fdb_set_fres fb_options fb_start]. rewrite E1, E2.
        rewrite (proj2 (options_eqb_spec _ _) eq_refl). reflexivity.
    + cbn [bind]. exists b. split; [exact HF|]. split.
      * constructor; [exact Hst|exact Hln|destruct HF; assumption|]. exists b. rewrite Em, Hrow. auto.
      * unfold sfb_fde. rewrite E1, E2. rewrite (proj2 (options_eqb_spec _ _) eq_refl). reflexivity.
  - right. exists q. split.
    + eapply fp_row; [exact Hhead|rewrite Er, Hl; reflexivity|exact Hfine|exact Hw|exact Hprob].
    + destruct (convert_rows md op f rl _) as [b| |]; cbn [bind forget] in *; try exact Hq.
      subst q. inversion Hprob.
Qed.

(** ** Entries *)

(** The map of functions after converting [l]. *)
Inductive assembled (op : options) (o : sframe_options) : list dw_fde -> btree fdb -> Prop :=
| as_nil : assembled op o [] []
| as_snoc l m f b : assembled op o l m -> dw_fde_typed f -> fde_built op o f b ->
    assembled op o (l ++ [f]) (bt_insert (df_start f) b m).

Lemma functions_app a b : functions (a ++ b) = functions a ++ functions b.
Proof. induction a as [|[|g|f] t IH]; cbn; rewrite ?IH; reflexivity. Qed.

Lemma convert_entries_fate md op o : so_fixed_fp o = None -> forall l pre s, Forall dw_entry_typed l ->
  sb_options s = o -> assembled op o (functions pre) (sb_fdes s) ->
  (exists s', convert_entries md op l s = Ok s' /\ sb_options s' = o /\
     assembled op o (functions (pre ++ l)) (sb_fdes s') /\ Forall (entry_fine md op (so_fixed_ra o)) l) \/
  (exists pre' x post q, l = pre' ++ x :: post /\ Forall (entry_fine md op (so_fixed_ra o)) pre' /\
     entry_problem md op (so_fixed_ra o) x q /\ forget (convert_entries md op l s) = q).
Proof.
  intros Hfp. induction l as [|x t IH]; intros pre s Ht Ho Ha.
  { left. exists s. rewrite app_nil_r. auto. }
  inversion Ht as [|? ? Hx Ht']; subst.
  assert (Hcons : forall s', convert_entries md op (x :: t) s = convert_entries md op t s' ->
    entry_fine md op (so_fixed_ra (sb_options s)) x -> sb_options s' = sb_options s ->
    assembled op (sb_options s) (functions (pre ++ [x])) (sb_fdes s') ->
    (exists s', convert_entries md op (x :: t) s = Ok s' /\ sb_options s' = sb_options s /\
       assembled op (sb_options s) (functions (pre ++ x :: t)) (sb_fdes s') /\
       Forall (entry_fine md op (so_fixed_ra (sb_options s))) (x :: t)) \/
    (exists pre' x' post q, x :: t = pre' ++ x' :: post /\
       Forall (entry_fine md op (so_fixed_ra (sb_options s))) pre' /\
       entry_problem md op (so_fixed_ra (sb_options s)) x' q /\ forget (convert_entries md op (x :: t) s) = q)).
  { intros s' -> Hf Ho' Ha'. destruct (IH (pre ++ [x]) s' Ht' Ho' Ha') as [(s2 & H1 & H2 & H3 & H4)|(pre' & x' & post & q & H1 & H2 & H3 & H4)].
    - left. exists s2. rewrite <- app_assoc in H3. split; [exact H1|]. split; [exact H2|]. split; [exact H3|].
      constructor; assumption.
    - right. exists (x :: pre'), x', post, q. split; [rewrite H1; reflexivity|]. split; [constructor; assumption|auto]. }
  destruct x as [|g|f].
  - apply (Hcons s); [reflexivity|exact I|reflexivity|]. rewrite functions_app. cbn. rewrite app_nil_r. exact Ha.
  - right. exists [], (DwBadFde g), t. eexists. split; [reflexivity|]. split; [constructor|].
    split; [apply ep_bad|reflexivity].
  - cbn in Hx. destruct (convert_fde_fate md op s f Hx Hfp) as [(b & H1 & H2 & H3)|(q & H1 & H2)].
    + eapply Hcons; [cbn [convert_entries]; rewrite H3; reflexivity|exact H1|reflexivity|].
      cbn [sb_fdes]. rewrite functions_app. cbn [functions]. constructor; assumption.
    + right. exists [], (DwGoodFde f), t, q. split; [reflexivity|]. split; [constructor|].
      split; [apply ep_fde, H1|]. cbn [convert_entries].
      destruct (convert_fde md op s f); cbn [bind forget] in *; try exact H2.
      subst q. inversion H1. match goal with H : row_problem _ _ _ _ _ _ _ |- _ => inversion H end.
Qed.

Lemma options_eq op eh : so_fixed_fp (conv_sfoptions op eh) = None /\
  so_fixed_ra (conv_sfoptions op eh) = fixed_ra_of op eh /\
  so_abi (conv_sfoptions op eh) = abi_number (op_arch op) (effective_endian op eh) /\
  so_flags (conv_sfoptions op eh) = 1.
Proof.
  unfold conv_sfoptions, conv_abi, fixed_ra_of, effective_endian, header_ra.
  destruct (op_endian op) as [[]|], (op_arch op), (eh_big_endian eh); vm_compute; auto.
Qed.

(** Before merging functions. *)
Lemma convert_fate md op eh : eh_typed eh ->
  (exists s, convert md op eh (sfb_new (conv_sfoptions op eh)) = Ok s /\ section_fine md op eh /\
     sb_options s = conv_sfoptions op eh /\
     assembled op (conv_sfoptions op eh) (functions (entries_of eh)) (sb_fdes s)) \/
  (exists q, section_problem md op eh q /\
     forget (convert md op eh (sfb_new (conv_sfoptions op eh))) = q).
Proof.
  intros Ht. destruct (options_eq op eh) as (Hfp & Hra & _). unfold convert.
  destruct (convert_entries_fate md op _ Hfp (entries_of eh) [] (sfb_new (conv_sfoptions op eh)) Ht eq_refl (as_nil _ _))
    as [(s & H1 & H2 & H3 & H4)|(pre & x & post & q & H1 & H2 & H3 & H4)];
    rewrite Hra in *; cbn [app] in *; fold (entries_of eh).
  - rewrite H1. cbn [bind]. destruct (ents_end (eh_entries eh)) as [g|] eqn:Ee.
    + right. eexists. split; [|reflexivity]. apply sp_end; assumption.
    + left. exists s. split; [reflexivity|]. split; [split; assumption|auto].
  - right. exists q. split; [eapply sp_entry; eassumption|].
    destruct (convert_entries md op (entries_of eh) _); cbn [bind forget] in *; try exact H4.
    exfalso. subst q. inversion H3 as [|? ? Hp]; subst. inversion Hp.
    match goal with H : row_problem _ _ _ _ _ _ _ |- _ => inversion H end.
Qed.

(** ** The first problem is unique *)

Lemma split_compare {A} (l : list A) : forall pre x post pre' x' post',
  l = pre ++ x :: post -> l = pre' ++ x' :: post' ->
  (pre = pre' /\ x = x' /\ post = post') \/ (exists m, pre = pre' ++ x' :: m) \/ (exists m, pre' = pre ++ x :: m).
Proof.
  induction l as [|y l IH]; intros pre x post pre' x' post' H H'.
  { destruct pre; discriminate. }
  destruct pre as [|z pre], pre' as [|z' pre']; cbn in *.
  - injection H as -> ->. injection H' as -> ->. auto.
  - injection H as -> ->. injection H' as -> H'. right. right. exists pre'. reflexivity.
  - injection H as -> H. injection H' as -> ->. right. left. exists pre. reflexivity.
  - injection H as -> H. injection H' as -> H'.
    destruct (IH _ _ _ _ _ _ H H') as [(-> & -> & ->)|[[m ->]|[m ->]]]; [auto|right; left|right; right]; exists m; reflexivity.
Qed.

Lemma row_problem_not_fine md a fixed f pre r q : row_problem md a fixed f pre r q -> ~ row_fine a fixed f pre r.
Proof.
  intros H [H1 H2]. inversion H; subst; try lia; try contradiction.
  destruct H2 as (H2 & _). unfold i32_max in *. lia.
Qed.

Lemma row_problem_fun md a fixed f pre r q q' :
  row_problem md a fixed f pre r q -> row_problem md a fixed f pre r q' -> q = q'.
Proof.
  intros H H'. inversion H; subst; inversion H'; subst; try reflexivity; try congruence; unfold i32_max in *; lia.
Qed.

Lemma fde_problem_not_fine md op fixed f q : fde_problem md op fixed f q -> ~ fde_fine md op fixed f.
Proof.
  intros H [((D1 & D2) & D3 & D4) (l & Hl & Hf)]. inversion H as [H0|g Hn Hd Hg|Hd Hb|Hd Hs Hb|g Hh Hr|pre r post en o Hh Hr Hpre Hw Hp|l' g Hh Hr Hpre]; subst.
  - contradiction.
  - specialize (D2 Hd). congruence.
  - lia.
  - lia.
  - congruence.
  - assert (l = pre ++ r :: post) by congruence.
    eapply row_problem_not_fine; [exact Hp|]. eapply Hf; eassumption.
  - congruence.
Qed.

Lemma fde_problem_fun md op fixed f q q' : fde_problem md op fixed f q -> fde_problem md op fixed f q' -> q = q'.
Proof.
  intros H H'.
  inversion H as [H0|g Hn Hd Hg|Hd Hb|Hd Hs Hb|g Hh Hr|pre r post en o Hh Hr Hpre Hw Hp|l' g Hh Hr Hpre]; subst;
  inversion H' as [H0'|g' Hn' Hd' Hg'|Hd' Hb'|Hd' Hs' Hb'|g' Hh' Hr'|pre' r' post' en' o' Hh' Hr' Hpre' Hw' Hp'|l'' g' Hh' Hr' Hpre']; subst;
  try reflexivity; try congruence; try contradiction;
  repeat match goal with
  | H : header_fine _ _ _ |- _ => destruct H as (? & ? & ?)
  | H : dump_fine _ _ _ |- _ => destruct H as [? ?]
  end; try contradiction; try lia;
  try (match goal with H : op_debugdump _ = true -> _, H' : op_debugdump _ = true |- _ => specialize (H H') end; congruence).
  - assert (He : pre ++ r :: post = pre' ++ r' :: post') by congruence.
    destruct (split_compare _ _ _ _ _ _ _ eq_refl He) as [(<- & <- & _)|[[m ->]|[m ->]]].
    + eapply row_problem_fun; eassumption.
    + exfalso. eapply row_problem_not_fine; [exact Hp'|]. eapply Hpre; [reflexivity|exact Hw'].
    + exfalso. eapply row_problem_not_fine; [exact Hp|]. eapply Hpre'; [reflexivity|exact Hw].
  - exfalso. assert (l'' = pre ++ r :: post) by congruence.
    eapply row_problem_not_fine; [exact Hp|]. eapply Hpre'; eassumption.
  - exfalso. assert (l' = pre' ++ r' :: post') by congruence.
    eapply row_problem_not_fine; [exact Hp'|]. eapply Hpre; eassumption.
Qed.

Lemma entry_problem_not_fine md op fixed x q : entry_problem md op fixed x q -> ~ entry_fine md op fixed x.
Proof. intros [g|f o H]; cbn; [auto|]. eapply fde_problem_not_fine, H. Qed.

Lemma entry_problem_fun md op fixed x q q' : entry_problem md op fixed x q -> entry_problem md op fixed x q' -> q = q'.
Proof. intros [g|f o H] H'; inversion H'; subst; [reflexivity|]. eapply fde_problem_fun; eassumption. Qed.

Lemma Forall_mid {A} (P : A -> Prop) pre x post : Forall P (pre ++ x :: post) -> P x.
Proof. intros H. rewrite Forall_forall in H. apply H. apply in_or_app. right. left. reflexivity. Qed.

Lemma section_problem_not_fine md op eh q : section_problem md op eh q -> ~ section_fine md op eh.
Proof.
  intros [pre x post o He Hf Hp|g Hf Hg] [HF HE]; [|congruence].
  rewrite He in HF. apply Forall_mid in HF. eapply entry_problem_not_fine; eassumption.
Qed.

Lemma section_problem_fun md op eh q q' : section_problem md op eh q -> section_problem md op eh q' -> q = q'.
Proof.
  intros [pre x post o He Hf Hp|g Hf Hg] [pre' x' post' o' He' Hf' Hp'|g' Hf' Hg'].
  - destruct (split_compare _ _ _ _ _ _ _ He He') as [(<- & <- & _)|[[m ->]|[m ->]]].
    + eapply entry_problem_fun; eassumption.
    + apply Forall_mid in Hf. exfalso. exact (entry_problem_not_fine _ _ _ _ _ Hp' Hf).
    + apply Forall_mid in Hf'. exfalso. exact (entry_problem_not_fine _ _ _ _ _ Hp Hf').
  - rewrite He in Hf'. apply Forall_mid in Hf'. exfalso. exact (entry_problem_not_fine _ _ _ _ _ Hp Hf').
  - rewrite He' in Hf. apply Forall_mid in Hf. exfalso. exact (entry_problem_not_fine _ _ _ _ _ Hp' Hf).
  - congruence.
Qed.

(** ** What was built *)

Lemma built_inv op o f b : so_fixed_fp o = None -> fde_built op o f b ->
  sorted (fb_fres b) /\ keyed (fb_fres b) /\ fb_options b = o /\ fb_start b = df_start f /\
  fb_size b = df_len f /\ fb_rep_size b = None /\ fb_pauth b = KeyA.
Proof.
  intros Hfp [_ _ _ (b0 & Hp & Hm)].
  destruct (partway_inv _ _ _ _ _ Hp) as (S & K & E1 & E2 & E3 & E4 & E5 & _).
  destruct (op_merge_fres op).
  - rewrite merge_fres_eq in Hm by assumption. injection Hm as <-. cbn.
    split; [apply squashed_sorted, S|]. split; [apply squashed_keyed, K|]. auto 10.
  - subst b0. auto 10.
Qed.

Lemma img_typed a f r : 0 <= off f r < 0x10000000 -> row_typed (img a f r).
Proof.
  intros H. unfold row_typed. rewrite img_start. split; [unfold in_u32, u32_max; lia|].
  unfold img. destruct (classify a r) as [[[[base cfa] ra] fp]|] eqn:E; cbn; [|exact I].
  apply classify_spec in E. destruct E as (_ & Hc & _ & Hr & Hf). unfold offsets_typed; cbn.
  split; [exact Hc|]. split; [exact Hr|]. destruct fp; cbn; tauto.
Qed.

Lemma opts_reached op eh : opts_reach (conv_sfoptions op eh).
Proof.
  unfold conv_sfoptions.
  assert (in_u8 (conv_abi op eh)).
  { unfold conv_abi. destruct (op_arch op), (match op_endian op with Some en => en | None => _ end); unfold in_u8; vm_compute; intuition discriminate. }
  destruct (conv_abi op eh =? ABI_AMD64_LE); repeat first [apply or_new|apply or_abi|apply or_fixed_ra]; try assumption.
  cbn. unfold in_i8. lia.
Qed.

Lemma built_sized op o f b : opts_reach o -> so_fixed_fp o = None -> dw_fde_typed f -> fde_built op o f b -> fdb_sized b.
Proof.
  intros Ho Hfp (Hs & Hn & _) [B1 B2 (l & Hl & Hf) (b0 & [Hp] & Hm)].
  assert (Hrow : dw_rows_of f = l) by (unfold dw_rows_of; rewrite Hl; reflexivity). rewrite Hrow in *.
  assert (H0 : fdb_sized b0).
  { eapply add_rows_sized; [| |exact Hp].
    - constructor; [exact Ho| |]; unfold in_u64, in_i32, in_u32, i32_min, i32_max, u32_max in *; lia.
    - rewrite Forall_forall. intros x Hx. apply in_map_iff in Hx. destruct Hx as (r & <- & Hr).
      apply filter_In in Hr. destruct Hr as [Hr Hw]. apply wideb_spec in Hw.
      apply in_split in Hr. destruct Hr as (p & q & ->).
      destruct (Hf p r q eq_refl Hw) as [F1 (F2 & _)]. apply img_typed. lia. }
  destruct (op_merge_fres op); [eapply bs_merge; eassumption|subst; exact H0].
Qed.

Lemma assembled_sorted op o l m : so_fixed_fp o = None -> assembled op o l m ->
  sorted m /\ (forall k b, In (k, b) m -> exists f, In f l /\ dw_fde_typed f /\ k = df_start f /\ fde_built op o f b).
Proof.
  intros Hfp. induction 1 as [|l m f b _ [IH1 IH2] Ht Hb].
  - split; [apply sorted_nil|intros ? ? []].
  - split; [apply insert_sorted, IH1|]. intros k x Hx. apply in_insert in Hx. destruct Hx as [Hx|Hx].
    + injection Hx as -> ->. exists f. split; [apply in_or_app; right; left; reflexivity|auto].
    + destruct (IH2 k x Hx) as (f' & F1 & F2). exists f'. split; [apply in_or_app; left; exact F1|exact F2].
Qed.

Lemma assembled_sized md op o l m : opts_reach o -> so_fixed_fp o = None -> assembled op o l m ->
  sfb_sized md {| sb_options := o; sb_fdes := m |}.
Proof.
  intros Ho Hfp. induction 1 as [|l m f b HA IH Ht Hb].
  - apply ss_new, Ho.
  - destruct (built_inv _ _ _ _ Hfp Hb) as (_ & _ & E1 & E2 & _).
    eapply ss_fde; [exact IH|eapply built_sized; eassumption|].
    unfold sfb_fde. cbn [sb_options sb_fdes]. rewrite E1, E2, (proj2 (options_eqb_spec _ _) eq_refl). reflexivity.
Qed.

(** [last_in l f]: [f] is the last function of [l] with its start. *)
Definition last_in (l : list dw_fde) (f : dw_fde) : Prop :=
  exists pre post, l = pre ++ f :: post /\ forall f', In f' post -> df_start f' <> df_start f.

Lemma last_in_snoc l f g : last_in (l ++ [g]) f <-> f = g \/ (last_in l f /\ df_start f <> df_start g).
Proof.
  split.
  - intros (pre & post & He & Hl). destruct post as [|z post] using rev_ind.
    + apply app_inj_tail in He. left. symmetry. apply He.
    + rewrite app_comm_cons, app_assoc in He. apply app_inj_tail in He. destruct He as [-> ->]. right. split.
      * exists pre, post. split; [reflexivity|]. intros f' Hf'. apply Hl, in_or_app. left. exact Hf'.
      * intros He. apply (Hl z); [apply in_or_app; right; left; reflexivity|]. symmetry. exact He.
  - intros [->|[(pre & post & -> & Hl) Hne]].
    + exists l, []. split; [reflexivity|intros ? []].
    + exists pre, (post ++ [g]). split; [rewrite <- app_assoc; reflexivity|].
      intros f' Hf'. apply in_app_or in Hf'. destruct Hf' as [Hf'|[<-|[]]]; [apply Hl, Hf'|auto].
Qed.

Lemma last_in_fun l f g : last_in l f -> last_in l g -> df_start f = df_start g -> f = g.
Proof.
  intros (pre & post & H & Hf) (pre' & post' & H' & Hg) He.
  destruct (split_compare _ _ _ _ _ _ _ H H') as [(_ & Hx & _)|[[m ->]|[m ->]]]; [exact Hx| |].
  - exfalso. rewrite H, <- app_assoc in H'. apply app_inv_head in H'. cbn in H'. injection H' as H'.
    apply (Hg f); [|exact He]. rewrite <- H'. apply in_or_app. right. left. reflexivity.
  - exfalso. rewrite H, <- app_assoc in H'. apply app_inv_head in H'. cbn in H'. injection H' as H'.
    apply (Hf g); [|symmetry; exact He]. rewrite H'. apply in_or_app. right. left. reflexivity.
Qed.

Lemma last_in_exists l f : In f l -> exists g, last_in l g /\ df_start g = df_start f.
Proof.
  induction l as [|g l IH] using rev_ind; [intros []|].
  intros H. apply in_app_or in H.
  destruct (Z.eq_dec (df_start f) (df_start g)) as [E|E].
  - exists g. split; [apply last_in_snoc; auto|congruence].
  - destruct H as [H|[->|[]]]; [|congruence]. destruct (IH H) as (h & H1 & H2).
    exists h. split; [apply last_in_snoc; right; split; [exact H1|congruence]|exact H2].
Qed.

Lemma assembled_get op o l m : so_fixed_fp o = None -> assembled op o l m -> forall k b,
  bt_get k m = Some b -> exists f, last_in l f /\ df_start f = k /\ dw_fde_typed f /\ fde_built op o f b.
Proof.
  intros Hfp HA. pose proof (assembled_sorted op o l m Hfp HA) as [HS _].
  induction HA as [|l m f b HA IH Ht Hb]; intros k x Hk; [discriminate|].
  pose proof (assembled_sorted op o l m Hfp HA) as [HS' _].
  rewrite bt_get_insert in Hk by exact HS'. destruct (Z.eqb_spec k (df_start f)) as [->|Hne].
  - injection Hk as <-. exists f. rewrite last_in_snoc. auto.
  - destruct (IH HS' k x Hk) as (g & G1 & G2 & G3 & G4). exists g. split; [|auto].
    apply last_in_snoc. right. split; [exact G1|congruence].
Qed.

Lemma assembled_has op o l m : so_fixed_fp o = None -> assembled op o l m -> forall f,
  last_in l f -> exists b, bt_get (df_start f) m = Some b /\ fde_built op o f b.
Proof.
  intros Hfp HA. induction HA as [|l m g b HA IH Ht Hb]; intros f Hf.
  { destruct Hf as (pre & post & H & _). destruct pre; discriminate. }
  pose proof (assembled_sorted op o l m Hfp HA) as [HS' _].
  rewrite bt_get_insert by exact HS'. apply last_in_snoc in Hf. destruct Hf as [->|[Hf Hne]].
  - rewrite Z.eqb_refl. eauto.
  - destruct (Z.eqb_spec (df_start f) (df_start g)); [contradiction|]. apply IH, Hf.
Qed.

(** Merging functions never merges anything. *)
Lemma merge_noop md op o l m : opts_reach o -> so_fixed_fp o = None -> assembled op o l m ->
  merge_adjacent_fdes md {| sb_options := o; sb_fdes := m |} = Ok {| sb_options := o; sb_fdes := m |}.
Proof.
  intros Ho Hfp HA. pose proof (assembled_sized md op o l m Ho Hfp HA) as HZ.
  apply sfb_sized_reach in HZ. destruct HZ as [HR _]. pose proof (sfb_reach_wf _ _ HR) as HW.
  apply merge_fdes_noop; [exact HR|]. intros x y Hn.
  assert (Hlt : fb_start x < fb_start y) by (eapply neighbours_lt; [apply (sw_sorted _ HW)|apply (sw_keyed _ HW)|exact Hn]).
  apply neighbours_in in Hn. destruct Hn as [Hx Hy].
  assert (HB : forall z, In z (fdes_of {| sb_options := o; sb_fdes := m |}) -> 0 <= fb_start z <= i32_max /\ 0 <= fb_size z <= i32_max).
  { intros z Hz. unfold fdes_of in Hz. apply in_map_iff in Hz. destruct Hz as ([k z'] & <- & Hz). cbn [snd].
    destruct (assembled_sorted op o l m Hfp HA) as [_ HI]. destruct (HI k z' Hz) as (f & _ & (Ht1 & Ht2 & _) & _ & Hb).
    destruct (built_inv _ _ _ _ Hfp Hb) as (_ & _ & _ & -> & -> & _). destruct Hb as [B1 B2 _ _].
    unfold in_u64 in *. lia. }
  pose proof (HB x Hx) as [X1 X2]. pose proof (HB y Hy) as [Y1 Y2]. unfold i32_max in *. split; [lia|right; lia].
Qed.

(** ** The whole conversion *)

Record converted (md : mode) (op : options) (eh : eh_frame) (s : sfb) : Prop := {
  cv_fine : section_fine md op eh;
  cv_options : sb_options s = conv_sfoptions op eh;
  cv_fdes : assembled op (conv_sfoptions op eh) (functions (entries_of eh)) (sb_fdes s) }.

Theorem dwarf2sframe_fate md op eh : eh_typed eh ->
  (exists s, dwarf2sframe md op eh = Ok s /\ converted md op eh s) \/
  (exists q, section_problem md op eh q /\ forget (dwarf2sframe md op eh) = q).
Proof.
  intros Ht. unfold dwarf2sframe.
  destruct (convert_fate md op eh Ht) as [(s & H1 & H2 & H3 & H4)|(q & H1 & H2)].
  - left. exists s. rewrite H1. cbn [bind]. split; [|constructor; assumption].
    destruct (op_merge_fdes op); [|reflexivity].
    destruct s as [o m]; cbn in *. subst o.
    rewrite (merge_noop md op _ _ _ (opts_reached op eh) (proj1 (options_eq op eh)) H4). reflexivity.
  - right. exists q. split; [exact H1|].
    destruct (convert md op eh _); cbn [bind forget] in *; try exact H2.
    exfalso. subst q. inversion H1 as [pre x post o He Hf Hp| ]; subst. inversion Hp as [|f o Hp']; subst. inversion Hp'.
    match goal with H : row_problem _ _ _ _ _ _ _ |- _ => inversion H end.
Qed.

Lemma section_problem_not_ok md op eh : ~ section_problem md op eh (Ok tt).
Proof.
  intros H. inversion H as [pre x post o He Hf Hp| ]; subst. inversion Hp as [|f o Hp']; subst. inversion Hp'.
  match goal with H : row_problem _ _ _ _ _ _ _ |- _ => inversion H end.
Qed.

Theorem dwarf2sframe_exact md op eh q : eh_typed eh ->
  (forget (dwarf2sframe md op eh) = q <->
   (q = Ok tt /\ section_fine md op eh) \/ section_problem md op eh q).
Proof.
  intros Ht. destruct (dwarf2sframe_fate md op eh Ht) as [(s & -> & [Hf _ _])|(q0 & Hp & ->)]; cbn [forget].
  - split.
    + intros <-. auto.
    + intros [[-> _]|Hp]; [reflexivity|]. exfalso. eapply section_problem_not_fine; eassumption.
  - split.
    + intros <-. auto.
    + intros [[-> Hf]|Hp']; [exfalso; eapply section_problem_not_fine; eassumption|].
      eapply section_problem_fun; eassumption.
Qed.

Lemma dwarf2sframe_converted md op eh s : eh_typed eh -> dwarf2sframe md op eh = Ok s -> converted md op eh s.
Proof.
  intros Ht H. destruct (dwarf2sframe_fate md op eh Ht) as [(s' & H' & Hc)|(q & Hp & Hq)].
  - rewrite H in H'. injection H' as ->. exact Hc.
  - rewrite H in Hq. cbn in Hq. subst q. exfalso. eapply section_problem_not_ok, Hp.
Qed.

Lemma converted_sized md op eh s : converted md op eh s -> sfb_sized md s.
Proof.
  intros [_ Ho Ha]. destruct s as [o m]. cbn in *. subst o.
  eapply assembled_sized; [apply opts_reached|apply options_eq|exact Ha].
Qed.
