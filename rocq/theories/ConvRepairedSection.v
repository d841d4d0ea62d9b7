(** The repaired converter: functions, entries and whole sections. *)
From Verif Require Export ConvRepairedFacts.
From Verif Require Import BaseFacts MergeRowFacts WriteFacts ConvErrors.

(** ** Functions *)

(** [b] is the builder made for the function [f]. *)
Record xbuilt (op : options) (c : dw_fde -> Z) (o : sframe_options) (f : dw_fde) (b : fdb) : Prop := {
  xb_fine : fde_faultless (op_arch op) (so_fixed_ra o) c f;
  xb_made : exists b0, xpartway (op_arch op) (c f) o f (dw_rows_of f) b0 /\
    (if op_merge_fres op then merge_adjacent_fres b0 = Ok b else b = b0) }.

Lemma xfde_fate md op c s f : dw_fde_typed f -> so_fixed_fp (sb_options s) = None ->
  (exists b, xbuilt op c (sb_options s) f b /\
     convert_fde_with all_cfixes md op c s f =
       Ok {| sb_options := sb_options s; sb_fdes := bt_insert (df_start f) b (sb_fdes s) |}) \/
  (exists er, fde_fault (op_arch op) (so_fixed_ra (sb_options s)) c f er /\ convert_fde_with all_cfixes md op c s f = Err er).
Proof.
  intros (Hs & Hn & Hr) Hfp. unfold convert_fde_with. cbn [fix_dump fix_end all_cfixes negb andb]. rewrite Bool.andb_false_r. cbn [bind].
  destruct (Z.ltb_spec i32_max (df_start f)) as [Hbig|Hst].
  { right. eexists. split; [apply ff_start; assumption|reflexivity]. }
  destruct (Z.ltb_spec i32_max (df_len f)) as [Hbig|Hln]; cbn [orb].
  { right. eexists. split; [apply ff_end; [assumption|unfold in_u64 in Hs; lia]|reflexivity]. }
  destruct (Z.ltb_spec i32_max (df_start f + df_len f)) as [Hbig|Hend].
  { right. eexists. split; [apply ff_end; assumption|reflexivity]. }
  assert (Hhead : fits_section f) by (split; assumption).
  rewrite as_s_32_id, as_u_32_id by (unfold in_u64, in_u32, in_i32, i32_min, i32_max, u32_max in *; lia).
  destruct (df_rows f) as [[rl re]|g] eqn:Er.
  2:{ right. eexists. split; [eapply ff_table; eassumption|reflexivity]. }
  assert (Hrow : dw_rows_of f = rl) by (unfold dw_rows_of; rewrite Er; reflexivity).
  assert (H0 : xpartway (op_arch op) (c f) (sb_options s) f [] (fdb_new (sb_options s) (df_start f) (df_len f)))
    by (constructor; reflexivity).
  assert (Hf0 : rows_faultless (op_arch op) (so_fixed_ra (sb_options s)) (c f) f [])
    by (intros pre r post H; destruct pre; discriminate).
  cbn [rows_list rows_end].
  destruct (xrows_fate md op (c f) (sb_options s) f Hfp rl [] _ H0 Hf0)
    as [(b & Hc & Hp & Hfine)|(pre & r & post & er & Hl & Hfine & Hw & Hfault & Hq)]; cbn [app] in *.
  - rewrite Hc. cbn [bind]. destruct re as [g|].
    { right. eexists. split; [|reflexivity]. eapply ff_rest; [exact Hhead|rewrite Er; reflexivity|exact Hfine]. }
    left. pose proof (xpartway_inv _ _ _ _ _ _ Hp) as (S & K & E1 & E2 & _).
    assert (HF : fde_faultless (op_arch op) (so_fixed_ra (sb_options s)) c f)
      by (split; [exact Hhead|]; exists rl; rewrite Er; auto).
    destruct (op_merge_fres op) eqn:Em.
    + pose proof (merge_fres_eq b S K) as Hm. rewrite Hm. cbn [of_fuel as_before bind].
      exists (fdb_set_fres (squashed (fb_fres b)) b). split.
      * constructor; [exact HF|]. exists b. rewrite Em, Hrow. auto.
      * unfold sfb_fde. cbn [fdb_set_fres fb_options fb_start]. rewrite E1, E2.
        rewrite (proj2 (options_eqb_spec _ _) eq_refl). reflexivity.
    + cbn [bind]. exists b. split.
      * constructor; [exact HF|]. exists b. rewrite Em, Hrow. auto.
      * unfold sfb_fde. rewrite E1, E2. rewrite (proj2 (options_eqb_spec _ _) eq_refl). reflexivity.
  - right. exists er. split.
    + eapply ff_row; [exact Hhead|rewrite Er, Hl; reflexivity|exact Hfine|exact Hw|exact Hfault].
    + rewrite Hq. reflexivity.
Qed.

(** ** Entries *)

Inductive xassembled (op : options) (c : dw_fde -> Z) (o : sframe_options) : list dw_fde -> btree fdb -> Prop :=
| xa_nil : xassembled op c o [] []
| xa_snoc l m f b : xassembled op c o l m -> dw_fde_typed f -> xbuilt op c o f b ->
    xassembled op c o (l ++ [f]) (bt_insert (df_start f) b m).

Lemma xentries_fate md op c o : so_fixed_fp o = None -> forall l pre s, Forall dw_entry_typed l ->
  sb_options s = o -> xassembled op c o (functions pre) (sb_fdes s) ->
  (exists s', convert_entries_with all_cfixes md op c l s = Ok s' /\ sb_options s' = o /\
     xassembled op c o (functions (pre ++ l)) (sb_fdes s') /\ Forall (entry_faultless (op_arch op) (so_fixed_ra o) c) l) \/
  (exists pre' x post er, l = pre' ++ x :: post /\ Forall (entry_faultless (op_arch op) (so_fixed_ra o) c) pre' /\
     entry_fault (op_arch op) (so_fixed_ra o) c x er /\ convert_entries_with all_cfixes md op c l s = Err er).
Proof.
  intros Hfp. induction l as [|x t IH]; intros pre s Ht Ho Ha.
  { left. exists s. rewrite app_nil_r. auto. }
  inversion Ht as [|? ? Hx Ht']; subst.
  assert (Hcons : forall s', convert_entries_with all_cfixes md op c (x :: t) s = convert_entries_with all_cfixes md op c t s' ->
    entry_faultless (op_arch op) (so_fixed_ra (sb_options s)) c x -> sb_options s' = sb_options s ->
    xassembled op c (sb_options s) (functions (pre ++ [x])) (sb_fdes s') ->
    (exists s', convert_entries_with all_cfixes md op c (x :: t) s = Ok s' /\ sb_options s' = sb_options s /\
       xassembled op c (sb_options s) (functions (pre ++ x :: t)) (sb_fdes s') /\
       Forall (entry_faultless (op_arch op) (so_fixed_ra (sb_options s)) c) (x :: t)) \/
    (exists pre' x' post er, x :: t = pre' ++ x' :: post /\
       Forall (entry_faultless (op_arch op) (so_fixed_ra (sb_options s)) c) pre' /\
       entry_fault (op_arch op) (so_fixed_ra (sb_options s)) c x' er /\ convert_entries_with all_cfixes md op c (x :: t) s = Err er)).
  { intros s' -> Hf Ho' Ha'. destruct (IH (pre ++ [x]) s' Ht' Ho' Ha') as [(s2 & H1 & H2 & H3 & H4)|(pre' & x' & post & q & H1 & H2 & H3 & H4)].
    - left. exists s2. rewrite <- app_assoc in H3. split; [exact H1|]. split; [exact H2|]. split; [exact H3|].
      constructor; assumption.
    - right. exists (x :: pre'), x', post, q. split; [rewrite H1; reflexivity|]. split; [constructor; assumption|auto]. }
  destruct x as [|g|f].
  - apply (Hcons s); [reflexivity|exact I|reflexivity|]. rewrite functions_app. cbn. rewrite app_nil_r. exact Ha.
  - right. exists [], (DwBadFde g), t. eexists. split; [reflexivity|]. split; [constructor|].
    split; [apply ef_bad|reflexivity].
  - cbn in Hx. destruct (xfde_fate md op c s f Hx Hfp) as [(b & H1 & H2)|(q & H1 & H2)].
    + eapply Hcons; [cbn [convert_entries_with]; rewrite H2; reflexivity|exact (xb_fine _ _ _ _ _ H1)|reflexivity|].
      cbn [sb_fdes]. rewrite functions_app. cbn [functions]. constructor; assumption.
    + right. exists [], (DwGoodFde f), t, q. split; [reflexivity|]. split; [constructor|].
      split; [apply ef_fde, H1|]. cbn [convert_entries_with]. rewrite H2. reflexivity.
Qed.

(** ** What was built *)

Lemma xbuilt_inv op c o f b : xbuilt op c o f b ->
  sorted (fb_fres b) /\ keyed (fb_fres b) /\ fb_options b = o /\ fb_start b = df_start f /\
  fb_size b = df_len f /\ fb_rep_size b = None /\ fb_pauth b = KeyA.
Proof.
  intros [_ (b0 & Hp & Hm)].
  destruct (xpartway_inv _ _ _ _ _ _ Hp) as (S & K & E1 & E2 & E3 & E4 & E5 & _).
  destruct (op_merge_fres op).
  - rewrite merge_fres_eq in Hm by assumption. injection Hm as <-. cbn.
    split; [apply squashed_sorted, S|]. split; [apply squashed_keyed, K|]. auto 10.
  - subst b0. auto 10.
Qed.

Lemma ximg_typed a c f r : 0 <= off f r < 0x10000000 -> row_typed (ximg a c f r).
Proof.
  intros H. unfold row_typed. rewrite ximg_start. split; [unfold in_u32, u32_max; lia|].
  unfold ximg. destruct (express a c r) as [[[[[base m] cfa] ra] fp]|] eqn:E; cbn; [|exact I].
  apply express_spec in E. destruct E as (_ & Hc & _ & _ & _ & Hf & Hr). unfold offsets_typed; cbn.
  split; [exact Hc|]. split; [destruct ra; cbn; tauto|destruct fp; cbn; tauto].
Qed.

(** What the absence of faults says of a row. *)
Lemma faultless_row a fixed c f pre r : no_fault (row_faults a fixed c f pre r) ->
  0 <= off f r < 0x10000000 /\ off f r < df_len f /\
  (forall base m cfa ra fp x, expressible a r c base m cfa (Some ra) fp -> fixed = Some x -> ra = x).
Proof.
  intros H. unfold no_fault, row_faults in H. rewrite !Forall_cons_iff in H. cbn [fst] in H.
  destruct H as (H1 & H2 & H3 & H4 & H5 & _). unfold off in *. split; [lia|]. split; [lia|].
  intros base m cfa ra fp x He Hx. destruct (Z.eq_dec ra x) as [|Hne]; [assumption|]. destruct H5. exists base, m, cfa, ra, fp, x. auto.
Qed.

Lemma xbuilt_row op c o f b r : xbuilt op c o f b -> In r (wide_rows f) ->
  0 <= off f r < 0x10000000 /\ off f r < df_len f /\
  (forall base m cfa ra fp x, expressible (op_arch op) r (c f) base m cfa (Some ra) fp -> so_fixed_ra o = Some x -> ra = x).
Proof.
  intros [(_ & l & Hl & Hf) _] Hr. unfold wide_rows in Hr. apply filter_In in Hr. destruct Hr as [Hr Hw].
  apply wideb_spec in Hw. unfold dw_rows_of in Hr. rewrite Hl in Hr. cbn in Hr.
  apply in_split in Hr. destruct Hr as (p & q & ->). eapply faultless_row, Hf; [reflexivity|exact Hw].
Qed.

Lemma xbuilt_sized op c o f b : opts_reach o -> dw_fde_typed f -> xbuilt op c o f b -> fdb_sized b.
Proof.
  intros Ho (Hs & Hn & _) HB. pose proof HB as [((B1 & B2) & _) (b0 & [Hp] & Hm)].
  assert (H0 : fdb_sized b0).
  { eapply add_rows_sized; [| |exact Hp].
    - constructor; [exact Ho| |]; unfold in_u64, in_i32, in_u32, i32_min, i32_max, u32_max in *; lia.
    - rewrite Forall_forall. intros x Hx. apply in_map_iff in Hx. destruct Hx as (r & <- & Hr).
      apply ximg_typed. apply (xbuilt_row _ _ _ _ _ r HB), Hr. }
  destruct (op_merge_fres op); [eapply bs_merge; eassumption|subst; exact H0].
Qed.

Lemma xassembled_sorted op c o l m : xassembled op c o l m ->
  sorted m /\ (forall k b, In (k, b) m -> exists f, In f l /\ dw_fde_typed f /\ k = df_start f /\ xbuilt op c o f b).
Proof.
  induction 1 as [|l m f b _ [IH1 IH2] Ht Hb].
  - split; [apply sorted_nil|intros ? ? []].
  - split; [apply insert_sorted, IH1|]. intros k x Hx. apply in_insert in Hx. destruct Hx as [Hx|Hx].
    + injection Hx as -> ->. exists f. split; [apply in_or_app; right; left; reflexivity|auto].
    + destruct (IH2 k x Hx) as (f' & F1 & F2). exists f'. split; [apply in_or_app; left; exact F1|exact F2].
Qed.

Lemma xassembled_sized md op c o l m : opts_reach o -> xassembled op c o l m ->
  sfb_sized md {| sb_options := o; sb_fdes := m |}.
Proof.
  intros Ho. induction 1 as [|l m f b HA IH Ht Hb].
  - apply ss_new, Ho.
  - destruct (xbuilt_inv _ _ _ _ _ Hb) as (_ & _ & E1 & E2 & _).
    eapply ss_fde; [exact IH|eapply xbuilt_sized; eassumption|].
    unfold sfb_fde. cbn [sb_options sb_fdes]. rewrite E1, E2, (proj2 (options_eqb_spec _ _) eq_refl). reflexivity.
Qed.

Lemma xassembled_get op c o l m : xassembled op c o l m -> forall k b,
  bt_get k m = Some b -> exists f, last_in l f /\ df_start f = k /\ dw_fde_typed f /\ xbuilt op c o f b.
Proof.
  intros HA. induction HA as [|l m f b HA IH Ht Hb]; intros k x Hk; [discriminate|].
  pose proof (xassembled_sorted op c o l m HA) as [HS' _].
  rewrite bt_get_insert in Hk by exact HS'. destruct (Z.eqb_spec k (df_start f)) as [->|Hne].
  - injection Hk as <-. exists f. rewrite last_in_snoc. auto.
  - destruct (IH k x Hk) as (g & G1 & G2 & G3 & G4). exists g. split; [|auto].
    apply last_in_snoc. right. split; [exact G1|congruence].
Qed.

Lemma xassembled_has op c o l m : xassembled op c o l m -> forall f,
  last_in l f -> exists b, bt_get (df_start f) m = Some b /\ xbuilt op c o f b.
Proof.
  intros HA. induction HA as [|l m g b HA IH Ht Hb]; intros f Hf.
  { destruct Hf as (pre & post & H & _). destruct pre; discriminate. }
  pose proof (xassembled_sorted op c o l m HA) as [HS' _].
  rewrite bt_get_insert by exact HS'. apply last_in_snoc in Hf. destruct Hf as [->|[Hf Hne]].
  - rewrite Z.eqb_refl. eauto.
  - destruct (Z.eqb_spec (df_start f) (df_start g)); [contradiction|]. apply IH, Hf.
Qed.

Lemma xmerge_noop md op c o l m : opts_reach o -> xassembled op c o l m ->
  merge_adjacent_fdes md {| sb_options := o; sb_fdes := m |} = Ok {| sb_options := o; sb_fdes := m |}.
Proof.
  intros Ho HA. pose proof (xassembled_sized md op c o l m Ho HA) as HZ.
  apply sfb_sized_reach in HZ. destruct HZ as [HR _]. pose proof (sfb_reach_wf _ _ HR) as HW.
  apply merge_fdes_noop; [exact HR|]. intros x y Hn.
  assert (Hlt : fb_start x < fb_start y) by (eapply neighbours_lt; [apply (sw_sorted _ HW)|apply (sw_keyed _ HW)|exact Hn]).
  apply neighbours_in in Hn. destruct Hn as [Hx Hy].
  assert (HB : forall z, In z (fdes_of {| sb_options := o; sb_fdes := m |}) -> 0 <= fb_start z <= i32_max /\ 0 <= fb_size z <= i32_max).
  { intros z Hz. unfold fdes_of in Hz. apply in_map_iff in Hz. destruct Hz as ([k z'] & <- & Hz). cbn [snd].
    destruct (xassembled_sorted op c o l m HA) as [_ HI]. destruct (HI k z' Hz) as (f & _ & (Ht1 & Ht2 & _) & _ & Hb).
    destruct (xbuilt_inv _ _ _ _ _ Hb) as (_ & _ & _ & -> & -> & _). destruct Hb as [((B1 & B2) & _) _].
    unfold in_u64 in *. lia. }
  pose proof (HB x Hx) as [X1 X2]. pose proof (HB y Hy) as [Y1 Y2]. unfold i32_max in *. split; [lia|right; lia].
Qed.

(** ** The whole conversion *)

Record xconverted (op : options) (c : dw_fde -> Z) (eh : eh_frame) (s : sfb) : Prop := {
  xc_fine : section_faultless op c eh;
  xc_options : sb_options s = conv_sfoptions op eh;
  xc_fdes : xassembled op c (conv_sfoptions op eh) (functions (entries_of eh)) (sb_fdes s) }.

Theorem repaired_fate md op c eh : eh_typed eh ->
  (exists s, dwarf2sframe_repaired md op c eh = Ok s /\ xconverted op c eh s) \/
  (exists er, section_fault op c eh er /\ dwarf2sframe_repaired md op c eh = Err er).
Proof.
  intros Ht. destruct (options_eq op eh) as (Hfp & Hra & _). unfold dwarf2sframe_repaired, dwarf2sframe_with.
  destruct (xentries_fate md op c _ Hfp (entries_of eh) [] (sfb_new (conv_sfoptions op eh)) Ht eq_refl (xa_nil _ _ _))
    as [(s & H1 & H2 & H3 & H4)|(pre & x & post & q & H1 & H2 & H3 & H4)];
    rewrite Hra in *; cbn [app] in *; fold (entries_of eh).
  - rewrite H1. cbn [bind]. destruct (ents_end (eh_entries eh)) as [g|] eqn:Ee.
    + right. eexists. split; [|reflexivity]. apply sf_rest; assumption.
    + left. exists s. split; [|constructor; [split|..]; assumption].
      destruct (op_merge_fdes op); [|reflexivity].
      destruct s as [o m]; cbn in *. subst o. rewrite (xmerge_noop md op c _ _ _ (opts_reached op eh) H3). reflexivity.
  - right. exists q. split; [eapply sf_entry; eassumption|]. rewrite H4. reflexivity.
Qed.

(** ** The first fault is unique *)

Lemma first_fault_not_none l er : first_fault l er -> ~ no_fault l.
Proof.
  induction l as [|[p x] t IH]; cbn; [tauto|]. intros [[H _]|[_ H]] HN; inversion HN; subst; [contradiction|]. apply IH; assumption.
Qed.
Lemma first_fault_fun l er er' : first_fault l er -> first_fault l er' -> er = er'.
Proof.
  induction l as [|[p x] t IH]; cbn; [tauto|]. intros [[H ->]|[H H1]] [[H' ->]|[H' H1']]; try contradiction; [reflexivity|auto].
Qed.

Lemma fde_fault_not a fixed c f er : fde_fault a fixed c f er -> ~ fde_faultless a fixed c f.
Proof.
  intros H ((D1 & D2) & l & Hl & Hf). inversion H as [Hb|Hs Hb|g Hh Hr|pre r post en er' Hh Hr Hpre Hw Hp|l' g Hh Hr Hpre]; subst; try lia; try congruence.
  assert (l = pre ++ r :: post) by congruence. eapply first_fault_not_none; [exact Hp|]. eapply Hf; eassumption.
Qed.

Lemma fde_fault_fun a fixed c f er er' : fde_fault a fixed c f er -> fde_fault a fixed c f er' -> er = er'.
Proof.
  intros H H'.
  inversion H as [Hb|Hs Hb|g Hh Hr|pre r post en e1 Hh Hr Hpre Hw Hp|l' g Hh Hr Hpre]; subst;
  inversion H' as [Hb'|Hs' Hb'|g' Hh' Hr'|pre' r' post' en' e1' Hh' Hr' Hpre' Hw' Hp'|l'' g' Hh' Hr' Hpre']; subst;
  try reflexivity; try congruence;
  repeat match goal with H : fits_section _ |- _ => destruct H as [? ?] end; try lia.
  - assert (He : pre ++ r :: post = pre' ++ r' :: post') by congruence.
    destruct (split_compare _ _ _ _ _ _ _ eq_refl He) as [(<- & <- & _)|[[m ->]|[m ->]]].
    + eapply first_fault_fun; eassumption.
    + exfalso. eapply first_fault_not_none; [exact Hp'|]. eapply Hpre; [reflexivity|exact Hw'].
    + exfalso. eapply first_fault_not_none; [exact Hp|]. eapply Hpre'; [reflexivity|exact Hw].
  - exfalso. assert (l'' = pre ++ r :: post) by congruence.
    eapply first_fault_not_none; [exact Hp|]. eapply Hpre'; eassumption.
  - exfalso. assert (l' = pre' ++ r' :: post') by congruence.
    eapply first_fault_not_none; [exact Hp'|]. eapply Hpre; eassumption.
Qed.

Lemma entry_fault_not a fixed c x er : entry_fault a fixed c x er -> ~ entry_faultless a fixed c x.
Proof. intros [g|f er' H]; cbn; [auto|]. eapply fde_fault_not, H. Qed.

Lemma entry_fault_fun a fixed c x er er' : entry_fault a fixed c x er -> entry_fault a fixed c x er' -> er = er'.
Proof. intros [g|f e1 H] H'; inversion H'; subst; [reflexivity|]. eapply fde_fault_fun; eassumption. Qed.

Lemma section_fault_not op c eh er : section_fault op c eh er -> ~ section_faultless op c eh.
Proof.
  intros [pre x post er' He Hf Hp|g Hf Hg] [HF HE]; [|congruence].
  rewrite He in HF. apply Forall_mid in HF. eapply entry_fault_not; eassumption.
Qed.

Lemma section_fault_fun op c eh er er' : section_fault op c eh er -> section_fault op c eh er' -> er = er'.
Proof.
  intros [pre x post e1 He Hf Hp|g Hf Hg] [pre' x' post' e1' He' Hf' Hp'|g' Hf' Hg'].
  - destruct (split_compare _ _ _ _ _ _ _ He He') as [(<- & <- & _)|[[m ->]|[m ->]]].
    + eapply entry_fault_fun; eassumption.
    + apply Forall_mid in Hf. exfalso. exact (entry_fault_not _ _ _ _ _ Hp' Hf).
    + apply Forall_mid in Hf'. exfalso. exact (entry_fault_not _ _ _ _ _ Hp Hf').
  - rewrite He in Hf'. apply Forall_mid in Hf'. exfalso. exact (entry_fault_not _ _ _ _ _ Hp Hf').
  - rewrite He' in Hf. apply Forall_mid in Hf. exfalso. exact (entry_fault_not _ _ _ _ _ Hp' Hf).
  - congruence.
Qed.

(** ** Outcomes *)

Theorem repaired_outcome md op c eh : eh_typed eh ->
  ((exists s, dwarf2sframe_repaired md op c eh = Ok s) <-> section_faultless op c eh) /\
  (forall er, dwarf2sframe_repaired md op c eh = Err er <-> section_fault op c eh er) /\
  dwarf2sframe_repaired md op c eh <> Panic.
Proof.
  intros Ht. destruct (repaired_fate md op c eh Ht) as [(s & -> & [Hf _ _])|(er & Hp & ->)].
  - split; [split; [auto|eauto]|]. split; [|discriminate]. intros er. split; [discriminate|].
    intros H. destruct (section_fault_not _ _ _ _ H Hf).
  - split; [split; [intros (s & [=])|intros Hf; destruct (section_fault_not _ _ _ _ Hp Hf)]|]. split; [|discriminate].
    intros er'. split; [intros [= <-]; exact Hp|]. intros H. f_equal. eapply section_fault_fun; eassumption.
Qed.

Lemma repaired_converted md op c eh s : eh_typed eh -> dwarf2sframe_repaired md op c eh = Ok s -> xconverted op c eh s.
Proof.
  intros Ht H. destruct (repaired_fate md op c eh Ht) as [(s' & H' & Hc)|(q & Hp & Hq)]; congruence.
Qed.

(** The profile and the two options that are meant to change nothing change nothing. *)
Lemma xrow_any md md' op op' c f r : op_arch op' = op_arch op -> 0 <= off f r ->
  convert_row_with all_cfixes md op c f r = convert_row_with all_cfixes md' op' c f r.
Proof.
  intros HA Hd. unfold convert_row_with, warn_with. cbn [fix_reject all_cfixes]. rewrite HA. unfold off in Hd.
  rewrite !sub_u64_ok by exact Hd. reflexivity.
Qed.

Lemma xrows_any md md' op op' c f l : op_arch op' = op_arch op -> forall b,
  convert_rows_with all_cfixes md op c f l b = convert_rows_with all_cfixes md' op' c f l b.
Proof.
  intros HA. induction l as [|r t IH]; intros b; [reflexivity|]. rewrite !xrows_step, HA.
  destruct (xstep (op_arch op) c f b r); cbn [bind]; [apply IH|reflexivity|reflexivity].
Qed.

Lemma xentries_any md md' op op' c l : op_arch op' = op_arch op -> op_merge_fres op' = op_merge_fres op -> forall s,
  convert_entries_with all_cfixes md op c l s = convert_entries_with all_cfixes md' op' c l s.
Proof.
  intros HA HM. induction l as [|[|g|f] t IH]; intros s; cbn [convert_entries_with]; [reflexivity|apply IH|reflexivity|].
  assert (convert_fde_with all_cfixes md op c s f = convert_fde_with all_cfixes md' op' c s f) as ->.
  { unfold convert_fde_with. cbn [fix_dump fix_end all_cfixes negb]. rewrite !Bool.andb_false_r, HM. cbn [bind].
    destruct (i32_max <? df_start f); [reflexivity|]. destruct (_ || _); [reflexivity|]. destruct (df_rows f) as [rows|]; [|reflexivity].
    rewrite (xrows_any md md' op op' (c f) f _ HA). reflexivity. }
  destruct (convert_fde_with all_cfixes md' op' c s f); cbn [bind]; [apply IH|reflexivity|reflexivity].
Qed.

Theorem repaired_same_options md md' op op' c eh : eh_typed eh -> op_arch op' = op_arch op ->
  op_merge_fres op' = op_merge_fres op -> op_endian op' = op_endian op ->
  dwarf2sframe_repaired md op c eh = dwarf2sframe_repaired md' op' c eh.
Proof.
  intros Ht HA HM HE.
  assert (HO : conv_sfoptions op' eh = conv_sfoptions op eh) by (unfold conv_sfoptions, conv_abi; rewrite HA, HE; reflexivity).
  assert (HX : forall md op, dwarf2sframe_repaired md op c eh =
    (let* s := convert_entries_with all_cfixes md op c (entries_of eh) (sfb_new (conv_sfoptions op eh)) in
     match ents_end (eh_entries eh) with Some g => Err (AsBefore (InvalidEhFrameEntry g)) | None => Ok s end)).
  { intros md0 op0. destruct (options_eq op0 eh) as (Hfp & Hra & _). unfold dwarf2sframe_repaired, dwarf2sframe_with.
    destruct (xentries_fate md0 op0 c _ Hfp (entries_of eh) [] (sfb_new (conv_sfoptions op0 eh)) Ht eq_refl (xa_nil _ _ _))
      as [(s & H1 & H2 & H3 & H4)|(pre & x & post & q & H1 & H2 & H3 & H4)]; cbn [app] in *; fold (entries_of eh).
    - rewrite H1. cbn [bind]. destruct (ents_end (eh_entries eh)); [reflexivity|]. destruct (op_merge_fdes op0); [|reflexivity].
      destruct s as [o m]; cbn in *. subst o. rewrite (xmerge_noop md0 op0 c _ _ _ (opts_reached op0 eh) H3). reflexivity.
    - rewrite H4. reflexivity. }
  rewrite !HX, HO, (xentries_any md md' op op' c _ HA HM). reflexivity.
Qed.
