(** From call frame programs to a section that says the same: proofs (C124, C125). *)
From Verif Require Export CfiFacts LookupFacts.
Open Scope Z_scope.
Open Scope list_scope.

(** ** C125: never more functions or rows than the DWARF has *)

Lemma lt_sorted_nodup (l : list Z) : StronglySorted Z.lt l -> NoDup l.
Proof.
  induction 1 as [|x l H IH F]; constructor; [|exact IH]. intros Hx. rewrite Forall_forall in F. specialize (F x Hx). lia.
Qed.

Lemma built_count op o f b : so_fixed_fp o = None -> fde_built op o f b -> zlen (rows_of b) <= zlen (wide_rows f).
Proof.
  intros Hfp HB. destruct (built_inv op o f b Hfp HB) as (S & K & _).
  destruct (built_rows_any op o f b Hfp HB) as [HR _].
  assert (HN : NoDup (map r_start (rows_of b))).
  { replace (map r_start (rows_of b)) with (map fst (fb_fres b)); [apply lt_sorted_nodup; exact S|].
    unfold rows_of. rewrite map_map. apply map_ext_in. intros [k x] Hk. exact (K k x Hk). }
  assert (HI : incl (map r_start (rows_of b)) (map (fun r => dr_start r - df_start f) (wide_rows f))).
  { intros k Hk. apply in_map_iff in Hk. destruct Hk as (x & <- & Hx). destruct (HR x Hx) as (r & Hr & (E & _)).
    apply in_map_iff. exists r. split; [symmetry; exact E|exact Hr]. }
  pose proof (NoDup_incl_length HN HI) as H. rewrite !map_length in H. unfold zlen. lia.
Qed.

Lemma insert_rows k b m : row_count (map snd (bt_insert k b m)) <= row_count (map snd m) + zlen (rows_of b).
Proof.
  unfold row_count. induction m as [|[k' b'] m IH]; cbn [bt_insert map snd].
  - change (sumz (?x :: ?l)) with (x + sumz l). unfold sumz. cbn. lia.
  - destruct (k <? k'); [|destruct (k =? k')]; cbn [map snd]; unfold sumz in *; cbn [fold_right] in *;
      pose proof (zlen_nonneg (rows_of b')); lia.
Qed.
Lemma insert_count k (b : fdb) m : zlen (bt_insert k b m) <= zlen m + 1.
Proof.
  induction m as [|[k' b'] m IH]; cbn [bt_insert]; [unfold zlen; cbn; lia|].
  destruct (k <? k'); [|destruct (k =? k')]; unfold zlen in *; cbn [length] in *; lia.
Qed.

Lemma assembled_count op o l m : so_fixed_fp o = None -> assembled op o l m ->
  row_count (map snd m) <= sumz (map (fun f => zlen (wide_rows f)) l) /\ zlen m <= zlen l.
Proof.
  intros Hfp. induction 1 as [|l m f b H [IH1 IH2] Ht HB]; [unfold row_count, sumz, zlen; cbn; lia|].
  pose proof (insert_rows (df_start f) b m). pose proof (insert_count (df_start f) b m). pose proof (built_count op o f b Hfp HB).
  rewrite map_app, sumz_app, zlen_app. cbn [map]. unfold sumz at 2. cbn [fold_right]. change (zlen [f]) with 1. lia.
Qed.

Theorem converted_count md op eh s : eh_typed eh -> dwarf2sframe md op eh = Ok s ->
  zlen (fdes_of s) <= function_count eh /\ row_count (fdes_of s) <= table_rows eh.
Proof.
  intros Ht H. destruct (dwarf2sframe_converted _ _ _ _ Ht H) as [_ _ A].
  destruct (assembled_count _ _ _ _ (proj1 (options_eq op eh)) A) as [H1 H2].
  unfold function_count, table_rows, fdes_of. split; [|exact H1]. unfold zlen in *. rewrite map_length. exact H2.
Qed.

Theorem converted_size md md' op eh s e bs : eh_typed eh -> dwarf2sframe md op eh = Ok s -> build md' e s = Ok bs ->
  zlen bs <= 28 + 20 * function_count eh + 17 * table_rows eh.
Proof.
  intros Ht H B. destruct (converted_count _ _ _ _ Ht H) as [H1 H2].
  assert (HR : sfb_reach md' s).
  { apply sfb_sized_reach. destruct (dwarf2sframe_converted _ _ _ _ Ht H) as [_ Ho Ha]. destruct s as [o m]; cbn in *; subst o.
    eapply assembled_sized; [apply opts_reached|apply options_eq|exact Ha]. }
  pose proof (size_bounds _ _ _ _ HR B). lia.
Qed.

(** ** C124: the whole way *)

Lemma follows_clash a fixed c f r : 0 <= df_len f -> follows_dwarf c f -> unconfused a fixed c f -> In r (wide_rows f) -> ~ clash a fixed r.
Proof.
  intros Hl F U Hr (base & cfa & ra & fp & m & R & Hm).
  apply filter_In in Hr. destruct Hr as [Hr Hw]. apply wideb_spec in Hw. unfold wide in Hw.
  destruct (follows_rows c f F) as (rows & T & S).
  assert (HC : chain (df_start f) (df_start f + df_len f) (dw_rows_of f)) by exact (same_chain _ _ _ _ S (table_chain c f rows Hl T)).
  destruct (chain_in _ _ _ r HC Hr) as (C1 & C2 & C3).
  destruct (follows_at c f (dr_start r) r Hl F C1) as (st & S1 & S2 & S3); [split; [exact Hr|lia]|].
  apply (U (dr_start r) st); [unfold in_range; lia|exact S1|]. exists base, cfa, ra, fp, m. split; [|exact Hm].
  apply (as_row_same a r st S2 S3), R.
Qed.

Lemma apart_builds md md' op eh s e : eh_typed eh -> dwarf2sframe md op eh = Ok s -> apart eh ->
  countable (function_count eh) (table_rows eh) -> exists bs, build md' e s = Ok bs.
Proof.
  intros Ht H HA [K1 K2]. destruct (converted_count _ _ _ _ Ht H) as [H1 H2].
  assert (HR : sfb_reach md' s).
  { apply sfb_sized_reach. destruct (dwarf2sframe_converted _ _ _ _ Ht H) as [_ Ho Ha]. destruct s as [o m]; cbn in *; subst o.
    eapply assembled_sized; [apply opts_reached|apply options_eq|exact Ha]. }
  destruct (conv_functions _ _ _ _ Ht H) as (_ & F & _).
  assert (HS : forall b, In b (fdes_of s) -> 0 <= fb_start b <= i32_max).
  { intros b Hb. destruct (F b Hb) as (f & Hf & -> & _). pose proof Hf as Hl. apply last_at_in in Hl.
    destruct (dwarf2sframe_converted _ _ _ _ Ht H) as [_ _ A].
    destruct (assembled_has _ _ _ _ (proj1 (options_eq op eh)) A f Hl) as (b' & _ & [B1 _ _ _]).
    destruct (last_typed eh f Ht Hf) as (Hs & _). unfold in_u64 in Hs. lia. }
  destruct (too_large_exact md' e s HR) as [_ T].
  - intros (a & b & Ha & Hb & Hne & Hin). destruct (F a Ha) as (f & Hf & E1 & E2 & _), (F b Hb) as (f' & Hf' & E3 & _).
    apply (HA f f' Hf Hf'); [congruence|]. rewrite <- E1, <- E2, <- E3. exact Hin.
  - right. intros (a & b & Hn & Hw). apply neighbours_in in Hn. destruct Hn as [Ha Hb].
    pose proof (HS a Ha). pose proof (HS b Hb). lia.
  - apply T. pose proof (fre_size_bounds s). unfold too_large. lia.
Qed.

Theorem ordinary_section md md' op eh e : eh_typed eh -> ents_end (eh_entries eh) = None ->
  (forall x, In x (entries_of eh) -> match x with DwCie => True | DwBadFde _ => False
     | DwGoodFde f => ordinary op eh f /\ dump_fine md op f end) ->
  apart eh -> countable (function_count eh) (table_rows eh) ->
  (forall c f, last_at eh f -> follows_dwarf c f -> unconfused (op_arch op) (fixed_ra_of op eh) c f) ->
  exists s bs, dwarf2sframe md op eh = Ok s /\ build md' e s = Ok bs /\
    zlen bs <= 28 + 20 * function_count eh + 17 * table_rows eh /\
    forall md'', wf_mode md'' -> rust_slice md'' bs ->
    exists sf, load md'' e bs = Ok sf /\
      (forall c f x, last_at eh f -> follows_dwarf c f -> in_range (df_start f) (df_len f) x ->
         exists st u, cfi_at c f x = Some st /\ section_says md'' e sf x u /\ matches (op_arch op) (as_row st) u /\
           forall u', section_says md'' e sf x u' -> u' = u) /\
      (forall x u, section_says md'' e sf x u -> exists f, last_at eh f /\ in_range (df_start f) (df_len f) x).
Proof.
  intros Ht He Hord HA HK HU. destruct (ordinary_converts md op eh Ht He Hord) as (s & H).
  destruct (apart_builds md md' op eh s e Ht H HA HK) as (bs & B). exists s, bs.
  split; [exact H|]. split; [exact B|]. split; [eapply converted_size; eassumption|]. intros md'' Hm Hs.
  eapply program_preserved; try eassumption. intros f Hf.
  assert (HF : exists c, follows_dwarf c f).
  { pose proof Hf as (pre & post & E & _).
    assert (Hi : In (DwGoodFde f) (entries_of eh)).
    { assert (In f (functions (entries_of eh))) as Hi by (rewrite E; apply in_or_app; right; left; reflexivity).
      clear -Hi. induction (entries_of eh) as [|[|g|f'] t IH]; cbn [functions In] in *; intuition congruence. }
    destruct (Hord _ Hi) as ((_ & _ & c & F & _) & _). eauto. }
  split; [exact HF|]. destruct HF as (c & F). intros r Hr. apply (follows_clash _ _ c f r (last_len _ _ Ht Hf) F); [|exact Hr].
  apply HU; assumption.
Qed.

(** ** The first converter *)

Lemma v1_count md p ents s : ents_typed ents -> v1_convert md p ents = Ok s ->
  zlen (fdes_of s) <= function_count (in_eh ents) /\ row_count (fdes_of s) <= v1_rows_total ents.
Proof.
  intros Ht H. destruct (v1_converted _ _ _ _ Ht H) as [_ A]. destruct (assembled_count v1_conv v1_options _ _ eq_refl A) as [H1 H2].
  unfold function_count, v1_rows_total, fdes_of. split.
  - unfold zlen in *. rewrite map_length in *. exact H2.
  - etransitivity; [exact H1|]. rewrite map_map. apply Z.eq_le_incl. f_equal. apply map_ext. intros f.
    rewrite norm_wide_rows. unfold zlen. rewrite map_length. reflexivity.
Qed.

Theorem v1_size md md' p ents s e bs : ents_typed ents -> v1_convert md p ents = Ok s -> build md' e s = Ok bs ->
  zlen bs <= 28 + 20 * function_count (in_eh ents) + 17 * v1_rows_total ents.
Proof.
  intros Ht H B. destruct (v1_count _ _ _ _ Ht H) as [H1 H2].
  assert (HR : sfb_reach md' s) by (apply sfb_sized_reach; eapply v1_sized; eassumption).
  pose proof (size_bounds _ _ _ _ HR B). lia.
Qed.

Lemma v1_ordinary_fine p f : dw_fde_typed f -> v1_ordinary p f -> v1_fde_fine p f.
Proof.
  intros (Hs & Hn & _) (O1 & O2 & O3 & (c & F & A) & O5). assert (Hl : 0 <= df_len f) by (unfold in_u64 in Hn; lia).
  pose proof (advances_v1 c f Hl F A) as [_ W]. pose proof F as (l & rows & L1 & L2 & L3).
  pose proof (same_chain _ _ _ _ L3 (table_chain c f rows Hl L2)) as HC.
  assert (HD : dw_rows_of f = l) by (unfold dw_rows_of; rewrite L1; reflexivity). rewrite HD in W, O5.
  split; [exact O1|]. split; [unfold i32_max; lia|]. split; [exact O3|]. exists l. split; [exact L1|].
  intros pre r post E. rewrite E in HC. assert (Hr : In r l) by (rewrite E; apply in_or_app; right; left; reflexivity).
  destruct (chain_in _ _ _ r HC) as (C1 & C2 & C3); [rewrite <- E; exact Hr|]. specialize (W r Hr).
  unfold v1_row_fine, off. split; [apply O5, Hr|]. split; [lia|]. split; [lia|].
  intros r' Hr'. pose proof (chain_before _ _ _ _ _ r' HC Hr').
  assert (dr_start r' < dr_end r') by (apply (advances_v1 c f Hl F A); rewrite HD, E; apply in_or_app; left; exact Hr'). lia.
Qed.

Lemma v1_follows_clash c f r : 0 <= df_len f -> follows_dwarf c f -> advances c f -> v1_unconfused c f -> In r (dw_rows_of f) -> ~ v1_clash r.
Proof.
  intros Hl F A U Hr (base & cfa & ra & fp & m & R & Hm). pose proof (advances_v1 c f Hl F A) as [_ W]. specialize (W r Hr).
  destruct (follows_rows c f F) as (rows & T & S).
  assert (HC : chain (df_start f) (df_start f + df_len f) (dw_rows_of f)) by exact (same_chain _ _ _ _ S (table_chain c f rows Hl T)).
  destruct (chain_in _ _ _ r HC Hr) as (C1 & C2 & C3).
  destruct (follows_at c f (dr_start r) r Hl F C1) as (st & S1 & S2 & S3); [split; [exact Hr|lia]|].
  apply (U (dr_start r) st); [unfold in_range; lia|exact S1|]. exists base, cfa, ra, fp, m. split; [|exact Hm].
  apply (v1_as_row_same r st S2 S3), R.
Qed.

Lemma v1_apart_builds md md' p ents s e : ents_typed ents -> v1_convert md p ents = Ok s -> apart (in_eh ents) ->
  countable (function_count (in_eh ents)) (v1_rows_total ents) -> exists bs, build md' e s = Ok bs.
Proof.
  intros Ht H HA [K1 K2]. assert (Te : eh_typed (in_eh ents)) by exact Ht. destruct (v1_count _ _ _ _ Ht H) as [H1 H2].
  assert (HR : sfb_reach md' s) by (apply sfb_sized_reach; eapply v1_sized; eassumption).
  assert (F : forall b, In b (fdes_of s) -> exists f, v1_last ents f /\ fb_start b = df_start f /\ fb_size b = df_len f /\ df_start f <= i32_max).
  { intros b Hb. destruct (v1_built_from md p ents s b Ht H Hb) as (f & Hf & HB & E). exists f. split; [exact Hf|]. split; [exact E|].
    destruct (built_inv v1_conv v1_options _ _ eq_refl HB) as (_ & _ & _ & _ & E2 & _). split; [exact E2|]. exact (bu_start _ _ _ _ HB). }
  assert (HS : forall b, In b (fdes_of s) -> 0 <= fb_start b <= i32_max).
  { intros b Hb. destruct (F b Hb) as (f & Hf & -> & _ & B1). destruct (last_typed (in_eh ents) f Te Hf) as (Hs & _). unfold in_u64 in Hs. lia. }
  destruct (too_large_exact md' e s HR) as [_ T].
  - intros (a & b & Ha & Hb & Hne & Hin). destruct (F a Ha) as (f & Hf & E1 & E2 & _), (F b Hb) as (f' & Hf' & E3 & _).
    apply (HA f f' Hf Hf'); [congruence|]. rewrite <- E1, <- E2, <- E3. exact Hin.
  - right. intros (a & b & Hn & Hw). apply neighbours_in in Hn. destruct Hn as [Ha Hb].
    pose proof (HS a Ha). pose proof (HS b Hb). lia.
  - apply T. pose proof (fre_size_bounds s). unfold too_large. lia.
Qed.

Theorem v1_ordinary_section md md' p ents e : ents_typed ents -> ents_end ents = None ->
  (forall x, In x (ents_list ents) -> match x with DwCie => True | DwBadFde _ => False | DwGoodFde f => v1_ordinary p f end) ->
  apart (in_eh ents) -> countable (function_count (in_eh ents)) (v1_rows_total ents) ->
  (forall c f, v1_last ents f -> follows_dwarf c f -> v1_unconfused c f) ->
  exists s bs, v1_convert md p ents = Ok s /\ build md' e s = Ok bs /\
    zlen bs <= 28 + 20 * function_count (in_eh ents) + 17 * v1_rows_total ents /\
    forall md'', wf_mode md'' -> rust_slice md'' bs ->
    exists sf, load md'' e bs = Ok sf /\
      (forall c f x, v1_last ents f -> follows_dwarf c f -> in_range (df_start f) (df_len f) x ->
         exists st u, cfi_at c f x = Some st /\ section_says md'' e sf x u /\
           (forall base cfa ra fp, v1_representable (as_row st) base cfa ra fp -> u = Unwind base false (Some cfa) (Some ra) fp) /\
           ((forall base cfa ra fp, ~ v1_representable (as_row st) base cfa ra fp) -> uw_cfa u = None /\ uw_mangled u = false) /\
           forall u', section_says md'' e sf x u' -> u' = u) /\
      (forall x u, section_says md'' e sf x u -> exists f, v1_last ents f /\ in_range (df_start f) (df_len f) x).
Proof.
  intros Ht He Hord HA HK HU. assert (Te : eh_typed (in_eh ents)) by exact Ht.
  assert (HF : v1_fine p ents).
  { split; [|exact He]. apply Forall_forall. intros x Hx. specialize (Hord x Hx). unfold ents_typed in Ht. rewrite Forall_forall in Ht.
    specialize (Ht x Hx). destruct x as [|g|f]; [exact I|destruct Hord|]. apply v1_ordinary_fine; assumption. }
  destruct (v1_fate md p ents Ht) as [(s & H & _)|(q & Hp & _)]; [|exfalso; exact (v1_problem_not_fine _ _ _ _ Hp HF)].
  destruct (v1_apart_builds md md' p ents s e Ht H HA HK) as (bs & B). exists s, bs.
  split; [exact H|]. split; [exact B|]. split; [eapply v1_size; eassumption|]. intros md'' Hm Hs.
  eapply v1_program_preserved; try eassumption. intros f Hf.
  assert (HO : v1_ordinary p f).
  { pose proof Hf as (pre & post & E & _).
    assert (Hi : In (DwGoodFde f) (ents_list ents)).
    { assert (In f (functions (ents_list ents))) as Hi by (rewrite E; apply in_or_app; right; left; reflexivity).
      clear -Hi. induction (ents_list ents) as [|[|g|f'] t IH]; cbn [functions In] in *; intuition congruence. }
    exact (Hord _ Hi). }
  destruct HO as (_ & _ & _ & (c & F & A) & _). split; [eauto|]. intros r Hr.
  apply (v1_follows_clash c f r (last_len _ _ Te Hf) F A); [|exact Hr]. apply HU; assumption.
Qed.

Theorem v1_no_larger md md' p ents s e bs : ents_typed ents -> v1_convert md p ents = Ok s ->
  (zlen (fdes_of s) <= function_count (in_eh ents) /\ row_count (fdes_of s) <= v1_rows_total ents) /\
  (build md' e s = Ok bs -> zlen bs <= 28 + 20 * function_count (in_eh ents) + 17 * v1_rows_total ents).
Proof. intros Ht H. split; [eapply v1_count; eassumption|eapply v1_size; eassumption]. Qed.
