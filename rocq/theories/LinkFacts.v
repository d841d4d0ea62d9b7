(** Converting two tables together or apart (C150). *)
From Coq Require Import Permutation.
From Verif Require Import BTreeFacts SectionFacts MergeRowFacts ConvFacts ConvSection ConvProps ToolsProps RelateFacts V1Relate WriteWitness TripWitness.
From Verif Require Export RelateSpec JoinFacts.

(** ** Joining is taking the union *)

Lemma union_unique md1 md2 s s' t1 t2 : sfb_reach md1 t1 -> sfb_reach md2 t2 -> union_of s s' t1 -> union_of s s' t2 -> t1 = t2.
Proof.
  intros R1 R2 [O1 U1] [O2 U2]. pose proof (sfb_reach_wf _ _ R1) as [_ S1 K1 _]. pose proof (sfb_reach_wf _ _ R2) as [_ S2 K2 _].
  assert (HP : Permutation (fdes_of t1) (fdes_of t2)).
  { apply NoDup_Permutation; [apply (NoDup_map_inv fb_start), (starts_nodup _ _ R1)|apply (NoDup_map_inv fb_start), (starts_nodup _ _ R2)|].
    intros b. rewrite U1, U2. reflexivity. }
  destruct t1 as [o1 m1], t2 as [o2 m2]. cbn [sb_options sb_fdes] in *. f_equal; [congruence|]. apply sorted_unique; assumption.
Qed.
Lemma add_union md l : forall s t, sfb_reach md s -> Forall fdb_reach l -> NoDup (map fb_start l) -> add_fdes s l = Ok t ->
  forall b, In b (fdes_of t) <-> In b l \/ (In b (fdes_of s) /\ forall b', In b' l -> fb_start b' <> fb_start b).
Proof.
  induction l as [|c l IH]; intros s t R HF HN H b; cbn [add_fdes] in H.
  - injection H as <-. split; [intros Hb; right; split; [exact Hb|intros ? []]|]. intros [[]|[Hb _]]. exact Hb.
  - apply BaseFacts.bind_ok in H. destruct H as (s1 & HA & H). inversion HF as [|? ? Fc Fl]; subst. inversion HN as [|? ? Nc Nl]; subst.
    pose proof (sr_fde md s c s1 R Fc HA) as R1. rewrite (IH s1 t R1 Fl Nl H b).
    split.
    + intros [Hb|[Hb Hd]]; [left; right; exact Hb|]. destruct (added_others s s1 c HA b Hb) as [->|Hs]; [left; left; reflexivity|].
      destruct (Z.eq_dec (fb_start c) (fb_start b)) as [E|E].
      * left. left. pose proof (sfb_reach_wf _ _ R1) as W1. pose proof (added_in s s1 c HA) as Hc.
        unfold fdes_of in Hb, Hc. apply in_map_iff in Hb, Hc. destruct Hb as ([k x] & Ex & Hx), Hc as ([k' y] & Ey & Hy). cbn [snd] in *. subst x y.
        pose proof (sw_keyed _ W1 _ _ Hx) as Kx. pose proof (sw_keyed _ W1 _ _ Hy) as Ky.
        pose proof (in_bt_get _ _ _ (sw_sorted _ W1) Hx) as Gx. pose proof (in_bt_get _ _ _ (sw_sorted _ W1) Hy) as Gy.
        rewrite Kx, <- E, <- Ky, Gy in Gx. congruence.
      * right. split; [exact Hs|]. intros b' [<-|Hb']; [exact E|apply Hd, Hb'].
    + intros [[<-|Hb]|[Hb Hd]].
      * right. split; [apply (added_in s s1 c HA)|]. intros b' Hb' E. apply Nc. rewrite <- E. apply in_map, Hb'.
      * left. exact Hb.
      * right. split; [|intros b' Hb'; apply Hd; right; exact Hb'].
        destruct (added_kept md s s1 c R HA b Hb) as [HR|HK]; [|exact HK]. exfalso. apply (Hd c (or_introl eq_refl)).
        unfold replaced in HR. apply bt_get_in in HR. pose proof (sfb_reach_wf _ _ R) as W. exact (sw_keyed _ W _ _ HR).
Qed.
Theorem join_union md1 md2 md s s' t : sfb_reach md1 s -> sfb_reach md2 s' -> sb_options s = sb_options s' -> sfb_reach md t ->
  (joined_sfb s s' t <-> union_of s s' t).
Proof.
  intros R R' HO RT.
  assert (HX : exists t', joined_sfb s s' t' /\ union_of s s' t' /\ sfb_reach md1 t').
  { assert (HE : forall l u, sb_options u = sb_options s -> Forall (fun c => fb_options c = sb_options s) l ->
      exists t', add_fdes u l = Ok t' /\ sb_options t' = sb_options s).
    { clear. induction l as [|c l IH]; intros u Hu HF; [exists u; auto|]. inversion HF as [|? ? Hc Hl]; subst. cbn [add_fdes]. unfold sfb_fde.
      replace (options_eqb (sb_options u) (fb_options c)) with true by (symmetry; apply options_eqb_spec; congruence). cbn [bind].
      apply IH; [exact Hu|exact Hl]. }
    destruct (HE (fdes_of s') s eq_refl) as (t' & E1 & E2); [rewrite HO; apply (reach_options _ _ R')|].
    exists t'. split; [exact E1|]. split; [|apply (add_fdes_reach md1 _ _ _ R (reach_functions _ _ R') E1)]. split; [congruence|].
    apply (add_union md1 (fdes_of s') s t' R (reach_functions _ _ R') (starts_nodup _ _ R') E1). }
  destruct HX as (t' & J & U & R1). split; intros H.
  - unfold joined_sfb in *. replace t with t' by congruence. exact U.
  - replace t with t' by (apply (union_unique md1 md s s'); assumption). exact J.
Qed.

(** ** Sections read back *)

Lemma insert_map {V W} (g : V -> W) k v (m : btree V) :
  bt_insert k (g v) (map (fun x => (fst x, g (snd x))) m) = map (fun x => (fst x, g (snd x))) (bt_insert k v m).
Proof. induction m as [|[k' v'] m IH]; cbn; [reflexivity|]. destruct (k <? k'), (k =? k'); cbn; rewrite ?IH; reflexivity. Qed.
Lemma again_added l : forall s t, add_fdes s l = Ok t ->
  add_fdes (again_sfb s) (map (again_fdb (sb_options s)) l) = Ok (again_sfb t).
Proof.
  induction l as [|c l IH]; intros s t H; cbn [add_fdes map] in *; [injection H as <-; reflexivity|].
  unfold sfb_fde in *. change (fb_options (again_fdb (sb_options s) c)) with (fb_options c). change (fb_start (again_fdb (sb_options s) c)) with (fb_start c).
  change (sb_options (again_sfb s)) with (sb_options s).
  destruct (options_eqb (sb_options s) (fb_options c)); cbn [bind] in *; [|discriminate]. apply IH in H. rewrite <- H. f_equal.
  unfold again_sfb. cbn [sb_options sb_fdes]. f_equal. apply insert_map.
Qed.

(** ** What the converters make *)

Lemma img_made a f r o : made_invalid (kept_row o (img a f r)).
Proof. unfold made_invalid, img. destruct (classify a r) as [[[[base cfa] ra] fp]|]; cbn; [discriminate|reflexivity]. Qed.
Lemma assembled_made op o l m : so_fixed_fp o = None -> assembled op o l m ->
  forall b r, In b (map snd m) -> In r (rows_of b) -> made_invalid r.
Proof.
  intros Hfp HA b r Hb Hr. destruct (assembled_sorted op o l m Hfp HA) as [_ HI]. apply in_map_iff in Hb. destruct Hb as ([k x] & E & Hx).
  cbn [snd] in E. subst x. destruct (HI k b Hx) as (f & _ & _ & _ & F3).
  destruct (built_before _ _ _ _ Hfp F3) as (b0 & Hm & S & K & HP).
  assert (Hr0 : In r (rows_of b0)).
  { destruct (op_merge_fres op); [|subst; exact Hr]. rewrite merge_fres_eq in Hm by assumption. injection Hm as <-.
    unfold rows_of in *. cbn in Hr. apply in_map_iff in Hr. destruct Hr as (kv & <- & Hr). apply in_map, squashed_in, Hr. }
  apply (Permutation_in _ HP) in Hr0. apply in_map_iff in Hr0. destruct Hr0 as (d & <- & _). apply img_made.
Qed.

(** A builder that was made by a converter, and the two sections of it. *)
Section Linked.
  Variables (md mdb mdb' mdr mdr' : mode) (e e' : endian) (s s' s'' : sfb) (bs bs' : bytes) (sf sf' : sframe).
  Hypothesis Z1 : sfb_sized md s.
  Hypothesis Z2 : sfb_sized md s'.
  Hypothesis Z3 : sfb_sized md s''.
  Hypothesis M1 : forall b r, In b (fdes_of s) -> In r (rows_of b) -> made_invalid r.
  Hypothesis M2 : forall b r, In b (fdes_of s') -> In r (rows_of b) -> made_invalid r.
  Hypothesis HO : sb_options s = sb_options s'.
  Hypothesis HU : union_of s s' s''.
  Hypothesis B1 : build mdb e s = Ok bs.
  Hypothesis B2 : build mdb' e' s' = Ok bs'.
  Hypothesis W1 : wf_mode mdr.
  Hypothesis W2 : wf_mode mdr'.
  Hypothesis R1 : rust_slice mdr bs.
  Hypothesis R2 : rust_slice mdr' bs'.
  Hypothesis L1 : load mdr e bs = Ok sf.
  Hypothesis L2 : load mdr' e' bs' = Ok sf'.

  Lemma union_linked : exists r r' t,
    section_read mdr e sf = Some r /\ section_read mdr' e' sf' = Some r' /\ joined_sfb r r' t /\
    forall md2 e2, build md2 e2 t = build md2 e2 s''.
  Proof using All.
    destruct (sfb_sized_reach md s Z1) as [X1 I1]. destruct (sfb_sized_reach md s' Z2) as [X2 I2]. destruct (sfb_sized_reach md s'' Z3) as [X3 _].
    pose proof (sfb_reach_wf _ _ X1) as Y1. pose proof (sfb_reach_wf _ _ X2) as Y2. pose proof (sfb_reach_wf _ _ X3) as Y3.
    destruct (built_image mdb e s bs Y1 B1) as [T1 E1]. destruct (built_image mdb' e' s' bs' Y2 B2) as [T2 E2].
    assert (F1 : sf = built_sf e s) by (subst bs; pose proof (image_loads mdr e s W1 Y1 T1 R1); congruence).
    assert (F2 : sf' = built_sf e' s') by (subst bs'; pose proof (image_loads mdr' e' s' W2 Y2 T2 R2); congruence).
    exists (again_sfb s), (again_sfb s'), (again_sfb s''). subst sf sf'.
    split; [apply section_read_built; assumption|]. split; [apply section_read_built; assumption|].
    split; [|intros md2 e2; apply again_build, Y3].
    pose proof (proj2 (join_union md md md s s' s'' X1 X2 HO X3) HU) as J. apply again_added in J.
    unfold joined_sfb. rewrite again_fdes, <- HO. exact J.
  Qed.
End Linked.

Theorem linked md op eh eh' s s' : eh_typed eh -> eh_typed eh' -> effective_endian op eh' = effective_endian op eh ->
  ents_end (eh_entries eh) = None -> dwarf2sframe md op eh = Ok s -> dwarf2sframe md op eh' = Ok s' ->
  forall mdb mdb' e e' bs bs', build mdb e s = Ok bs -> build mdb' e' s' = Ok bs' ->
  forall mdr mdr' sf sf', wf_mode mdr -> wf_mode mdr' -> rust_slice mdr bs -> rust_slice mdr' bs' ->
  load mdr e bs = Ok sf -> load mdr' e' bs' = Ok sf' ->
  exists r r' t s'', section_read mdr e sf = Some r /\ section_read mdr' e' sf' = Some r' /\ joined_sfb r r' t /\
    dwarf2sframe md op (joined eh eh') = Ok s'' /\ forall md2 e2, build md2 e2 t = build md2 e2 s''.
Proof.
  intros Ht Ht' HE Hend H H' mdb mdb' e e' bs bs' B B' mdr mdr' sf sf' W W' R R' L L'.
  destruct (joined_converts md op eh eh' Ht Ht' HE Hend) as [_ HJ]. destruct (HJ s s' H H') as (s'' & H'' & HU).
  assert (Ht'' : eh_typed (joined eh eh')) by (apply Forall_app; auto).
  pose proof (dwarf2sframe_converted _ _ _ _ Ht H) as C. pose proof (dwarf2sframe_converted _ _ _ _ Ht' H') as C'.
  pose proof (dwarf2sframe_converted _ _ _ _ Ht'' H'') as C''.
  assert (HO : sb_options s = sb_options s').
  { rewrite (cv_options _ _ _ _ C), <- (proj1 HU), (cv_options _ _ _ _ C''). reflexivity. }
  assert (HM : forall x u, converted md op x u -> forall b r, In b (fdes_of u) -> In r (rows_of b) -> made_invalid r).
  { intros x u Cx. apply (assembled_made op (conv_sfoptions op x) (functions (entries_of x))); [|apply (cv_fdes _ _ _ _ Cx)].
    rewrite <- (cv_options _ _ _ _ Cx). apply (conv_opt_fp _ _ _ _ Cx). }
  destruct (union_linked md mdb mdb' mdr mdr' e e' s s' s'' bs bs' sf sf') as (r & r' & t & X1 & X2 & X3 & X4); try assumption;
    try (eapply converted_sized; eassumption); try (eapply HM; eassumption).
  exists r, r', t, s''. auto.
Qed.
Theorem v1_linked md p ents ents' s s' : ents_typed ents -> ents_typed ents' -> ents_end ents = None ->
  v1_convert md p ents = Ok s -> v1_convert md p ents' = Ok s' ->
  forall mdb mdb' e e' bs bs', build mdb e s = Ok bs -> build mdb' e' s' = Ok bs' ->
  forall mdr mdr' sf sf', wf_mode mdr -> wf_mode mdr' -> rust_slice mdr bs -> rust_slice mdr' bs' ->
  load mdr e bs = Ok sf -> load mdr' e' bs' = Ok sf' ->
  exists r r' t s'', section_read mdr e sf = Some r /\ section_read mdr' e' sf' = Some r' /\ joined_sfb r r' t /\
    v1_convert md p (eh_entries (joined (in_eh ents) (in_eh ents'))) = Ok s'' /\ forall md2 e2, build md2 e2 t = build md2 e2 s''.
Proof.
  intros Ht Ht' Hend H H' mdb mdb' e e' bs bs' B B' mdr mdr' sf sf' W W' R R' L L'.
  destruct (v1_joined md p ents ents' Ht Ht' Hend) as [_ HJ]. cbv zeta in HJ. destruct (HJ s s' H H') as (s'' & H'' & HU).
  assert (Ht'' : ents_typed (eh_entries (joined (in_eh ents) (in_eh ents')))) by (apply Forall_app; auto).
  destruct (v1_converted _ _ _ _ Ht H) as [O1 A1]. destruct (v1_converted _ _ _ _ Ht' H') as [O2 A2].
  destruct (union_linked md mdb mdb' mdr mdr' e e' s s' s'' bs bs' sf sf') as (r & r' & t & X1 & X2 & X3 & X4); try assumption;
    [apply (v1_sized md md p ents s Ht H)|apply (v1_sized md md p ents' s' Ht' H')|apply (v1_sized md md p _ s'' Ht'' H'')| | |congruence|].
  - apply (assembled_made v1_conv v1_options _ _ eq_refl A1).
  - apply (assembled_made v1_conv v1_options _ _ eq_refl A2).
  - exists r, r', t, s''. auto.
Qed.
