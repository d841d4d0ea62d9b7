(** The repaired converter, the repaired writer and the repaired look-ups together. *)
From Verif Require Export ConvRepairedSection WriteRepairedSpec ReadRepairedBuilt.
From Verif Require Import BaseFacts MergeRowFacts WriteFacts ConvErrors WalkFacts.

(** ** What the builder is asked for *)

Lemma ximg_conveys a c o f r : so_fixed_fp o = None ->
  (forall base m cfa ra fp x, expressible a r c base m cfa (Some ra) fp -> so_fixed_ra o = Some x -> ra = x) ->
  (so_fixed_ra o <> None -> a = Amd64) ->
  conveys a r c (intended o (kept_row o (ximg a c f r))).
Proof.
  intros Hfp Hra Hamd. split.
  - intros base m cfa ra fp Hr. pose proof (proj2 (express_spec _ _ _ _ _ _ _ _) Hr) as E. unfold ximg. rewrite E.
    unfold intended, kept_row. cbn. rewrite Hfp. cbn.
    destruct (so_fixed_ra o) as [x|] eqn:Ex; cbn; [|reflexivity].
    destruct ra as [ra|].
    + rewrite (Hra _ _ _ _ _ _ Hr eq_refl). reflexivity.
    + exfalso. destruct Hr as (_ & _ & _ & _ & _ & _ & HA & _). rewrite Hamd in HA; [discriminate|discriminate].
  - intros Hu. apply express_none in Hu. unfold ximg. rewrite Hu. split; reflexivity.
Qed.

Lemma fixed_amd op eh : fixed_ra_of op eh <> None -> op_arch op = Amd64.
Proof. unfold fixed_ra_of, header_ra. destruct (op_arch op); [reflexivity|congruence]. Qed.

(** What is known of a builder that was made from the entries with all repairs: which options
    are set does not matter. *)
Record xmade (op : options) (c : dw_fde -> Z) (eh : eh_frame) (s : sfb) : Prop := {
  xm_reach : opts_reach (sb_options s);
  xm_fp : so_fixed_fp (sb_options s) = None;
  xm_ra : so_fixed_ra (sb_options s) <> None -> op_arch op = Amd64;
  xm_fdes : xassembled op c (sb_options s) (functions (entries_of eh)) (sb_fdes s) }.
Lemma xconverted_made op c eh s : xconverted op c eh s -> xmade op c eh s.
Proof.
  intros [_ Ho Ha]. split; rewrite Ho; [apply opts_reached|apply options_eq| |exact Ha].
  assert (so_fixed_ra (conv_sfoptions op eh) = fixed_ra_of op eh) as -> by apply options_eq. apply fixed_amd.
Qed.

Section Converted.
  Variables (op : options) (c : dw_fde -> Z) (eh : eh_frame) (s : sfb).
  Hypothesis HC : xmade op c eh s.

  Lemma xconv_sized md : sfb_sized md s.
  Proof.
    destruct HC as [Hr _ _ Ha]. destruct s as [o m]. cbn in *. eapply xassembled_sized; [exact Hr|exact Ha].
  Qed.
  Lemma xconv_reach md : sfb_reach md s.
  Proof. apply sfb_sized_reach, xconv_sized. Qed.
  Lemma xconv_wf : sfb_wf s.
  Proof. eapply sfb_reach_wf, (xconv_reach rel64). Qed.
  Lemma xconv_fp : so_fixed_fp (sb_options s) = None.
  Proof. exact (xm_fp _ _ _ _ HC). Qed.

  Lemma xconv_in b : In b (fdes_of s) -> exists f, last_at eh f /\ dw_fde_typed f /\ xbuilt op c (sb_options s) f b.
  Proof.
    intros Hb. assert (G : bt_get (fb_start b) (sb_fdes s) = Some b) by (apply (wf_get s _ _ xconv_wf); auto).
    pose proof (xm_fdes _ _ _ _ HC) as HA.
    destruct (xassembled_get _ _ _ _ _ HA _ _ G) as (f & F1 & _ & F3 & F4). eauto.
  Qed.

  Lemma xconv_has f : last_at eh f -> exists b, In b (fdes_of s) /\ xbuilt op c (sb_options s) f b.
  Proof.
    intros Hf. pose proof (xm_fdes _ _ _ _ HC) as HA.
    destruct (xassembled_has _ _ _ _ _ HA f Hf) as (b & G & B).
    apply (wf_get s _ _ xconv_wf) in G. exists b. tauto.
  Qed.

  (** Before merging rows. *)
  Lemma xbuilt_before f b : xbuilt op c (sb_options s) f b -> exists b0, sorted (fb_fres b0) /\ keyed (fb_fres b0) /\
    Permutation (rows_of b0) (map (fun r => kept_row (sb_options s) (ximg (op_arch op) (c f) f r)) (wide_rows f)) /\
    (forall x, In x (rows_of b) -> In x (rows_of b0)) /\
    (forall x p, says (rows_of b) x p <-> says (rows_of b0) x p).
  Proof.
    intros [_ (b0 & Hp & Hm)]. destruct (xpartway_inv _ _ _ _ _ _ Hp) as (S & K & _ & _ & _ & _ & _ & E).
    exists b0. split; [exact S|]. split; [exact K|]. split; [exact E|]. split.
    - destruct (op_merge_fres op); [|subst; auto]. rewrite merge_fres_eq in Hm by assumption. injection Hm as <-.
      unfold rows_of. cbn. intros x Hx. apply in_map_iff in Hx. destruct Hx as (kv & <- & Hx).
      apply in_map, squashed_in, Hx.
    - intros x p. destruct (op_merge_fres op); [|subst; reflexivity].
      destruct (merge_rows_preserves b0 b x p S K Hm) as (_ & _ & _ & _ & _ & HS). exact HS.
  Qed.

  Lemma xconv_sayable : ~ unsayable s.
  Proof.
    intros (b & Hb & H). destruct (xconv_in b Hb) as (f & _ & _ & HB).
    destruct (xbuilt_inv _ _ _ _ _ HB) as (_ & _ & _ & _ & _ & E4 & _).
    destruct H as [H|(x & Hx & Hn & y & Hy & Hra & Hfp)]; [congruence|].
    destruct (xbuilt_before f b HB) as (b0 & _ & _ & HP & Hsub & _). apply Hsub in Hx.
    eapply Permutation_in in Hx; [|exact HP]. apply in_map_iff in Hx. destruct Hx as (r & <- & Hr).
    unfold kept_row, ximg in Hy. destruct (express (op_arch op) (c f) r) as [[[[[base m] cfa] ra] fp]|] eqn:E; [|discriminate].
    cbn in Hy. injection Hy as <-. cbn in Hra, Hfp. rewrite Hn in Hra. rewrite xconv_fp in Hfp. cbn in Hra, Hfp.
    apply express_spec in E. destruct E as (_ & _ & _ & _ & _ & _ & HR). subst ra. destruct HR as (_ & -> & _). congruence.
  Qed.

  Lemma xconv_overlap : overlapping s <-> functions_overlap eh.
  Proof.
    split.
    - intros (a & b & Ha & Hb & Hne & Hin). destruct (xconv_in a Ha) as (f & F1 & _ & FB). destruct (xconv_in b Hb) as (g & G1 & _ & GB).
      destruct (xbuilt_inv _ _ _ _ _ FB) as (_ & _ & _ & E2 & E3 & _). destruct (xbuilt_inv _ _ _ _ _ GB) as (_ & _ & _ & E2' & _).
      exists f, g. rewrite <- E2, <- E2', <- E3. auto.
    - intros (f & g & Hf & Hg & Hne & Hin). destruct (xconv_has f Hf) as (a & Ha & FB). destruct (xconv_has g Hg) as (b & Hb & GB).
      destruct (xbuilt_inv _ _ _ _ _ FB) as (_ & _ & _ & E2 & E3 & _). destruct (xbuilt_inv _ _ _ _ _ GB) as (_ & _ & _ & E2' & _).
      exists a, b. rewrite E2, E2', E3. auto.
  Qed.

  (** The builder is asked for what the current row says. *)
  Lemma xconv_asked f x r : last_at eh f -> in_range (df_start f) (df_len f) x -> In r (wide_rows f) -> dr_start r <= x ->
    (forall r', In r' (wide_rows f) -> dr_start r' <= x -> dr_start r' <= dr_start r) ->
    exists u, asked_with_key s x KeyA u /\ conveys (op_arch op) r (c f) u.
  Proof.
    intros Hf Hin Hr Hle Hmax. destruct (xconv_has f Hf) as (b & Hb & HB).
    destruct (xbuilt_inv _ _ _ _ _ HB) as (_ & _ & _ & E2 & E3 & E4 & E5).
    destruct (xbuilt_before f b HB) as (b0 & S & K & HP & Hsub & Hsays).
    destruct (xbuilt_row _ _ _ _ _ r HB Hr) as (R1 & R2 & R3).
    set (x0 := kept_row (sb_options s) (ximg (op_arch op) (c f) f r)).
    assert (HV : conveys (op_arch op) r (c f) (intended (sb_options s) x0)).
    { apply ximg_conveys; [exact xconv_fp|exact R3|exact (xm_ra _ _ _ _ HC)]. }
    assert (Hs0 : says (rows_of b0) (x - df_start f) (payload x0)).
    { exists x0. split; [|reflexivity]. split.
      - eapply Permutation_in; [symmetry; exact HP|]. apply in_map_iff. exists r. auto.
      - cbn [x0 r_start kept_row]. rewrite ximg_start. unfold off. split; [lia|]. intros x' Hx' Hle'.
        eapply Permutation_in in Hx'; [|exact HP]. apply in_map_iff in Hx'. destruct Hx' as (r' & <- & Hr').
        cbn [r_start kept_row] in *. rewrite ximg_start in *. unfold off in *. specialize (Hmax r' Hr'). lia. }
    apply Hsays in Hs0. destruct Hs0 as (y & Hy & Hp).
    assert (HI : intended (sb_options s) y = intended (sb_options s) x0).
    { unfold payload in Hp. pose proof (f_equal (fun p => fst (fst p)) Hp) as P1. pose proof (f_equal (fun p => snd (fst p)) Hp) as P2.
      pose proof (f_equal snd Hp) as P3. cbn [fst snd] in P1, P2, P3. unfold intended. rewrite P1, P2, P3. reflexivity. }
    exists (intended (sb_options s) y). split; [|rewrite HI; exact HV].
    exists b, y. split; [exact Hb|]. split; [rewrite E2, E3; exact Hin|].
    split; [unfold offset_in; rewrite E4, E2; exact Hy|]. split; [exact E5|reflexivity].
  Qed.

  (** Only inside a function, behind the start of one of its rows, and only one thing. *)
  Lemma xconv_only x k u : asked_with_key s x k u -> k = KeyA /\
    exists f r, last_at eh f /\ in_range (df_start f) (df_len f) x /\ In r (wide_rows f) /\ dr_start r <= x.
  Proof.
    intros (b & y & Hb & Hin & (Hy & Hle & _) & Hk & _). destruct (xconv_in b Hb) as (f & F1 & _ & HB).
    destruct (xbuilt_inv _ _ _ _ _ HB) as (_ & _ & _ & E2 & E3 & E4 & E5). split; [congruence|].
    destruct (xbuilt_before f b HB) as (b0 & _ & _ & HP & Hsub & _). apply Hsub in Hy.
    eapply Permutation_in in Hy; [|exact HP]. apply in_map_iff in Hy. destruct Hy as (r & <- & Hr).
    exists f, r. rewrite <- E2, <- E3. split; [exact F1|]. split; [exact Hin|]. split; [exact Hr|].
    unfold offset_in in Hle. rewrite E4, E2 in Hle. cbn [r_start kept_row] in Hle. rewrite ximg_start in Hle. unfold off in Hle. lia.
  Qed.

  Lemma xconv_i32 f x : last_at eh f -> in_range (df_start f) (df_len f) x -> in_i32 x.
  Proof.
    intros Hf Hin. destruct (xconv_has f Hf) as (b & Hb & HB). pose proof HB as [((F1 & F2) & _) _].
    destruct (xconv_in b Hb) as (g & G1 & (T1 & _) & GB).
    destruct (xbuilt_inv _ _ _ _ _ HB) as (_ & _ & _ & E2 & _). destruct (xbuilt_inv _ _ _ _ _ GB) as (_ & _ & _ & E2' & _).
    assert (0 <= df_start f) by (unfold in_u64 in T1; lia).
    unfold in_range, in_i32, i32_min in *. lia.
  Qed.
End Converted.

(** ** Building what was converted *)

Theorem made_builds md' op c eh s e : xmade op c eh s ->
  (build_repaired md' e s = Err (Emitting OverlappingFdes) <-> functions_overlap eh) /\
  (build_repaired md' e s = Err (Emitting SectionTooLarge) <-> ~ functions_overlap eh /\ exact_too_large s) /\
  ((exists bs, build_repaired md' e s = Ok bs) <-> ~ functions_overlap eh /\ ~ exact_too_large s) /\
  build_repaired md' e s <> Err CannotBeSaid /\ build_repaired md' e s <> Panic.
Proof.
  intros HC. pose proof (xconv_sayable _ _ _ _ HC) as HU.
  destruct (repaired_outcomes md' e s (xconv_reach _ _ _ _ HC md')) as (H1 & H2 & H3 & H4 & H5).
  rewrite (xconv_overlap _ _ _ _ HC) in H2, H3, H4. tauto.
Qed.

Theorem repaired_builds md md' op c eh s e : eh_typed eh -> dwarf2sframe_repaired md op c eh = Ok s ->
  (build_repaired md' e s = Err (Emitting OverlappingFdes) <-> functions_overlap eh) /\
  (build_repaired md' e s = Err (Emitting SectionTooLarge) <-> ~ functions_overlap eh /\ exact_too_large s) /\
  ((exists bs, build_repaired md' e s = Ok bs) <-> ~ functions_overlap eh /\ ~ exact_too_large s) /\
  build_repaired md' e s <> Err CannotBeSaid /\ build_repaired md' e s <> Panic.
Proof.
  intros Ht H. eapply made_builds, xconverted_made, repaired_converted; eassumption.
Qed.

(** ** From DWARF to look-ups *)

Theorem made_end_to_end md' md'' op c eh s e bs : xmade op c eh s ->
  build_repaired md' e s = Ok bs -> wf_mode md'' -> rust_slice md'' bs ->
  (forall f, last_at eh f -> rows_disjoint f) ->
  exists sf, load md'' e bs = Ok sf /\
    (forall x r k, dw_says eh c x r k -> exists u, looked_up_whole md'' e sf x u /\ conveys (op_arch op) r k u) /\
    (forall x u, looked_up_whole md'' e sf x u ->
       exists f r, last_at eh f /\ in_range (df_start f) (df_len f) x /\ In r (wide_rows f) /\ dr_start r <= x) /\
    (forall x, in_i32 x -> lookup_key all_rfixes md'' e sf x = Ok None \/ exists u, lookup_key all_rfixes md'' e sf x = Ok (Some (KeyA, u))).
Proof.
  intros HC B Hm Hs Hdis.
  destruct (both_repaired md' e s bs (xconv_reach _ _ _ _ HC md') B md'' Hm Hs) as (sf & HL & HK).
  exists sf. split; [exact HL|]. split; [|split].
  - intros x r k (f & F1 & F2 & F3 & F4 & ->).
    assert (Hw : In r (wide_rows f)) by (unfold wide_rows; apply filter_In; split; [exact F3|]; apply wideb_spec; unfold wide; lia).
    destruct (xconv_asked _ _ _ _ HC f x r F1 F2 Hw) as (u & Hu & Hv); [lia| |].
    { intros r' Hr' Hle. destruct (Z_lt_ge_dec (dr_start r) (dr_start r')) as [Hlt|]; [|lia].
      specialize (Hdis f F1 r r' Hw Hr' Hlt). lia. }
    pose proof (xconv_i32 _ _ _ _ HC f x F1 F2) as Hx. exists u. split; [|exact Hv]. split; [exact Hx|].
    exists KeyA. apply (HK x Hx), Hu.
  - intros x u (Hx & k & Hk). apply (HK x Hx) in Hk. apply (xconv_only _ _ _ _ HC x k u Hk).
  - intros x Hx. destruct (HK x Hx) as [K1 K2].
    destruct (lookup_key all_rfixes md'' e sf x) as [[[k u]|]|er|] eqn:E; [|left; reflexivity| |].
    + right. exists u. assert (HA : asked_with_key s x k u) by (apply K1; reflexivity).
      destruct (xconv_only _ _ _ _ HC x k u HA) as [-> _]. reflexivity.
    + exfalso. assert (HN : forall k u, ~ asked_with_key s x k u) by (intros k u HA; apply K1 in HA; discriminate).
      apply K2 in HN. discriminate.
    + exfalso. assert (HN : forall k u, ~ asked_with_key s x k u) by (intros k u HA; apply K1 in HA; discriminate).
      apply K2 in HN. discriminate.
Qed.

Theorem repaired_end_to_end md md' md'' op c eh s e bs : eh_typed eh -> dwarf2sframe_repaired md op c eh = Ok s ->
  build_repaired md' e s = Ok bs -> wf_mode md'' -> rust_slice md'' bs ->
  (forall f, last_at eh f -> rows_disjoint f) ->
  exists sf, load md'' e bs = Ok sf /\
    (forall x r k, dw_says eh c x r k -> exists u, looked_up_whole md'' e sf x u /\ conveys (op_arch op) r k u) /\
    (forall x u, looked_up_whole md'' e sf x u ->
       exists f r, last_at eh f /\ in_range (df_start f) (df_len f) x /\ In r (wide_rows f) /\ dr_start r <= x) /\
    (forall x, in_i32 x -> lookup_key all_rfixes md'' e sf x = Ok None \/ exists u, lookup_key all_rfixes md'' e sf x = Ok (Some (KeyA, u))).
Proof.
  intros Ht H. eapply made_end_to_end, xconverted_made, repaired_converted; eassumption.
Qed.

(** ** Walks *)

Lemma looked_up_once md e sf x u u' : looked_up_whole md e sf x u -> looked_up_whole md e sf x u' -> u = u'.
Proof. intros (_ & k & H) (_ & k' & H'). congruence. Qed.

Section Steps.
Variable w : world.
Variable a : arch.
Variable says : Z -> dw_row -> Z -> Prop.
Variable tells : Z -> unwind -> Prop.
Hypothesis said : forall x r c, says x r c -> exists u, tells x u /\ conveys a r c u.
Hypothesis told : forall x u, tells x u -> exists r c, says x r c.
Hypothesis once : forall x u u', tells x u -> tells x u' -> u = u'.

Lemma link_base x y base v : same_link_point a x y -> dx_regs x (reg_base a base) = Some v -> lk_base y base = Some v.
Proof.
  intros (_ & _ & Hs & Hf & _) H. destruct base; cbn in *.
  - apply Hf, H.
  - rewrite Hs in H. exact H.
Qed.

Lemma ra_not_sp : reg_ra a <> reg_sp a.
Proof. destruct a; discriminate. Qed.

Lemma link_forward x x' y : same_link_point a x y -> dw_step w a says x x' ->
  (exists y', lk_step w tells y y' /\ same_link_point a x' y') \/
  (exists r c, says (w_look w (lx_first y) (lx_pc y)) r c /\ cannot_tell a (lx_first y) r c /\ forall z, ~ lk_step w tells y z).
Proof.
  intros Hp (r & col & cfa & v & Hsays & Hcfa & Hv & Hfirst & Hsig & Hpc & Hregs).
  pose proof Hp as (P1 & P2 & P3 & P4 & P5 & P6). rewrite <- P1, <- P2 in Hsays.
  destruct (said _ _ _ Hsays) as (u & Hu & Hm & Hn).
  destruct (express a col r) as [[[[[base m] o] ra] fp]|] eqn:Ec.
  2:{ right. apply express_none in Ec. exists r, col. split; [exact Hsays|]. split; [left; exact Ec|].
      intros z (u' & b & q & t & Ht & _ & Hc & _). rewrite (once _ _ _ Ht Hu) in Hc.
      destruct (Hn Ec) as [Hn' _]. congruence. }
  apply express_spec in Ec. pose proof (Hm _ _ _ _ _ Ec) as ->. clear Hm Hn.
  pose proof Ec as (E1 & E2 & Esp & -> & Esg & Efp & Era).
  unfold cfa_value in Hcfa. rewrite E1 in Hcfa.
  destruct (dx_regs x (reg_base a base)) as [b|] eqn:Eb; [|discriminate]. cbn in Hcfa. injection Hcfa as <-.
  pose proof (link_base _ _ _ _ Hp Eb) as Hb.
  assert (HS : forall fpv, (forall q, dx_regs x' (reg_fp a) = Some q -> fpv = Some q) ->
    same_link_point a x' (LkFrame false (if m then w_strip w v else v) (plus64 b o) fpv None)).
  { intros fpv Hfpv. split; [cbn; congruence|]. split.
    - cbn. destruct m; symmetry; [apply Hsig, Esg; reflexivity|]. apply Hpc. intros HS. apply Esg in HS. discriminate.
    - split; [rewrite Hregs; cbn; apply sp_value; [exact Esp|apply plus64_again]|]. split; [exact Hfpv|].
      split; [intros HT; congruence|reflexivity]. }
  assert (Hfpq : forall q, dx_regs x' (reg_fp a) = Some q ->
    match fp with Some f => w_mem w (plus64 (plus64 b o) f) | None => lx_fp y end = Some q).
  { intros q Hq. rewrite Hregs in Hq. unfold caller_value in Hq. pose proof (sp_not_fp a) as Hne.
    destruct fp as [z|].
    - destruct Efp as [Efp _]. rewrite Efp in Hq. exact Hq.
    - destruct Efp as [Efp|Efp]; rewrite Efp in Hq; [apply P4, Hq|].
      rewrite (proj2 (Z.eqb_neq _ _)) in Hq by congruence. cbn in Hq.
      destruct (w_keep w); [apply P4, Hq|discriminate]. }
  destruct ra as [ra|].
  - left. destruct Era as [Era _]. unfold caller_value in Hv. rewrite Era in Hv. cbn in Hv.
    exists (LkFrame false (if m then w_strip w v else v) (plus64 b o)
      match fp with Some f => w_mem w (plus64 (plus64 b o) f) | None => lx_fp y end None).
    split; [|apply HS, Hfpq]. exists (Unwind base m (Some o) (Some ra) fp), b, o, v. cbn. tauto.
  - destruct Era as (Ha & -> & Era). destruct (lx_first y) eqn:Efirst.
    + left. exists (LkFrame false (if m then w_strip w v else v) (plus64 b o) (lx_fp y) None). split; [|apply HS, Hfpq].
      assert (Hlr : lx_lr y = Some v).
      { apply P5; [congruence|]. unfold caller_value in Hv. destruct Era as [Era|Era]; rewrite Era in Hv; [exact Hv|].
        rewrite (proj2 (Z.eqb_neq _ _)) in Hv by apply ra_not_sp. cbn in Hv. destruct (w_keep w); [exact Hv|discriminate]. }
      exists (Unwind base m (Some o) None None), b, o, v. rewrite Efirst. cbn. tauto.
    + right. exists r, (reg_ra a). split; [exact Hsays|]. split; [right; split; [reflexivity|eauto 10]|].
      intros z (u' & b' & q & t & Ht & _ & _ & Hl & _). rewrite Efirst in Ht. rewrite (once _ _ _ Ht Hu) in Hl. cbn in Hl.
      rewrite P6 in Hl by congruence. discriminate.
Qed.

Lemma link_backward x y y' : w_keep w = true -> same_link_point_exact a x y -> lk_step w tells y y' ->
  exists x', dw_step w a says x x' /\ same_link_point_exact a x' y'.
Proof.
  intros Hk (P1 & P2 & P3 & P4 & P5) (u & b & o & v & Ht & Hb & Hc & Hv & Q1 & Q2 & Q3 & Q4 & Q5).
  destruct (told _ _ Ht) as (r & col & Hsays). destruct (said _ _ _ Hsays) as (u' & Hu & Hm & Hn).
  rewrite (once _ _ _ Hu Ht) in *. clear u' Hu.
  destruct (express a col r) as [[[[[base m] o'] ra] fp]|] eqn:Ec.
  2:{ apply express_none in Ec. destruct (Hn Ec) as [Hn' _]. congruence. }
  apply express_spec in Ec. pose proof (Hm _ _ _ _ _ Ec) as ->. clear Hm Hn. cbn in *.
  injection Hc as ->. destruct Ec as (E1 & E2 & Esp & -> & Esg & Efp & Era).
  pose (regs := caller_value w a r (plus64 b o) (dx_regs x)).
  assert (Hra : regs (reg_ra a) = Some v).
  { unfold regs, caller_value. destruct ra as [ra|].
    - destruct Era as [-> _]. exact Hv.
    - assert (HR : dx_regs x (reg_ra a) = Some v) by (rewrite P5 in Hv; destruct (dx_first x); [exact Hv|discriminate]).
      destruct Era as (_ & _ & [-> | ->]); [exact HR|].
      rewrite (proj2 (Z.eqb_neq _ _)) by apply ra_not_sp. cbn. rewrite Hk. exact HR. }
  exists (DwFrame false (lx_pc y') regs). split.
  - exists r, (reg_ra a), (plus64 b o), v. cbn.
    split; [rewrite <- P1, <- P2; exact Hsays|].
    split.
    { unfold cfa_value. rewrite E1. destruct base; cbn in *; [rewrite P4, Hb|rewrite P3, Hb]; reflexivity. }
    split; [exact Hra|]. split; [reflexivity|]. rewrite Q2. split; [|split].
    + intros HS. apply Esg in HS. rewrite HS. reflexivity.
    + intros HS. destruct m; [|reflexivity]. destruct HS. apply Esg. reflexivity.
    + intros reg. reflexivity.
  - split; [exact Q1|]. split; [reflexivity|]. cbn. split.
    + unfold regs. rewrite Q3. apply sp_value; [exact Esp|apply plus64_again].
    + split; [|exact Q5]. rewrite Q4. unfold regs, caller_value. pose proof (sp_not_fp a) as Hne. destruct fp as [q|].
      * destruct Efp as [Efp _]. rewrite Efp. reflexivity.
      * destruct Efp as [Efp|Efp]; rewrite Efp; [exact P4|].
        rewrite (proj2 (Z.eqb_neq _ _)) by congruence. cbn. rewrite Hk. exact P4.
Qed.

Lemma link_walks_same : same_link_walks w a says tells.
Proof.
  split.
  - intros x y l Hp H. revert y Hp. induction H as [x|x x' l Hst _ IH]; intros y Hp.
    + exists [], [], []. split; [reflexivity|]. split; [constructor|]. split; [constructor|]. left. reflexivity.
    + destruct (link_forward _ _ _ Hp Hst) as [(y' & Hy & Hp')|(r & c & H1 & H2 & H3)].
      * destruct (IH _ Hp') as (l1 & l2 & m & -> & Hw & HF & Hend).
        exists (x' :: l1), l2, (y' :: m). split; [reflexivity|]. split; [econstructor; eassumption|].
        split; [constructor; assumption|].
        replace (last (y' :: m) y) with (last m y'); [exact Hend|].
        clear. destruct m as [|z m]; [reflexivity|]. revert z. induction m as [|q m IH]; intros z; [reflexivity|].
        change (last (z :: q :: m) y') with (last (q :: m) y').
        change (last (y' :: z :: q :: m) y) with (last (y' :: q :: m) y). apply IH.
      * exists [], (x' :: l), []. split; [reflexivity|]. split; [constructor|]. split; [constructor|]. right.
        exists r, c. cbn. tauto.
  - intros Hk x y m Hp H. revert x Hp. induction H as [y|y y' m Hst _ IH]; intros x Hp.
    + exists []. split; constructor.
    + destruct (link_backward _ _ _ Hk Hp Hst) as (x' & Hx & Hp'). destruct (IH _ Hp') as (l & Hl & HF).
      exists (x' :: l). split; [econstructor; eassumption|constructor; assumption].
Qed.
End Steps.

Theorem made_walks md' md'' op c eh s e bs w : xmade op c eh s ->
  build_repaired md' e s = Ok bs -> wf_mode md'' -> rust_slice md'' bs ->
  (forall f, last_at eh f -> rows_disjoint f /\ rows_cover f) ->
  exists sf, load md'' e bs = Ok sf /\
    same_link_walks w (op_arch op) (dw_says eh c) (looked_up_whole md'' e sf).
Proof.
  intros HC B Hm Hs Hg.
  destruct (made_end_to_end md' md'' op c eh s e bs HC B Hm Hs) as (sf & HL & H1 & H2 & _).
  { intros f Hf. apply (Hg f Hf). }
  exists sf. split; [exact HL|]. apply link_walks_same.
  - exact H1.
  - intros x u Hu. destruct (H2 _ _ Hu) as (f & _ & F1 & F2 & _). destruct (Hg f F1) as [_ G].
    destruct (G _ F2) as (r & R1 & R2). exists r, (c f), f. tauto.
  - apply looked_up_once.
Qed.

Theorem repaired_walks md md' md'' op c eh s e bs w : eh_typed eh -> dwarf2sframe_repaired md op c eh = Ok s ->
  build_repaired md' e s = Ok bs -> wf_mode md'' -> rust_slice md'' bs ->
  (forall f, last_at eh f -> rows_disjoint f /\ rows_cover f) ->
  exists sf, load md'' e bs = Ok sf /\
    same_link_walks w (op_arch op) (dw_says eh c) (looked_up_whole md'' e sf).
Proof.
  intros Ht H. eapply made_walks, xconverted_made, repaired_converted; eassumption.
Qed.
