(** Stack walks with DWARF and with a converted section. *)
From Verif Require Import ConvFacts ConvProps ToolsFacts ToolsProps WalkSpec.

Lemma plus64_again x o : plus64 (plus64 x o) 0 = plus64 x o.
Proof. unfold plus64, as_u. rewrite Z.add_0_r, Z.mod_mod by lia. reflexivity. Qed.

Lemma sp_not_fp a : reg_sp a <> reg_fp a.
Proof. destruct a; discriminate. Qed.

(** ** One step *)

Section Steps.
Variable w : world.
Variable a : arch.
Variable says : Z -> dw_row -> Z -> Prop.
Variable tells : Z -> unwind -> Prop.
Hypothesis said : forall x r c, says x r c -> exists u, tells x u /\ matches a r u.
Hypothesis told : forall x u, tells x u -> exists r c, says x r c.
Hypothesis once : forall x u u', tells x u -> tells x u' -> u = u'.
Hypothesis plain : forall x r c, says x r c -> plain_row a r c.

Lemma base_value x y base v : same_point a x y -> dx_regs x (reg_base a base) = Some v -> sf_base y base = Some v.
Proof.
  intros (_ & _ & Hs & Hf) H. destruct base; cbn in *.
  - apply Hf, H.
  - rewrite Hs in H. exact H.
Qed.

Lemma sp_value r cfa regs : dr_register r (reg_sp a) = RUndefined \/ dr_register r (reg_sp a) = RValOffset 0 ->
  plus64 cfa 0 = cfa -> caller_value w a r cfa regs (reg_sp a) = Some cfa.
Proof.
  intros [H|H] Hc; unfold caller_value; rewrite H.
  - rewrite Z.eqb_refl. reflexivity.
  - cbn. rewrite Hc. reflexivity.
Qed.

Lemma forward x x' y : same_point a x y -> dw_step w a says x x' ->
  (exists y', sf_step w tells y y' /\ same_point a x' y') \/
  (exists r c, says (w_look w (sx_first y) (sx_pc y)) r c /\ unrepresentable a r /\ forall z, ~ sf_step w tells y z).
Proof.
  intros Hp (r & col & cfa & v & Hsays & Hcfa & Hv & Hfirst & Hsig & Hpc & Hregs).
  pose proof Hp as (P1 & P2 & P3 & P4). rewrite <- P1, <- P2 in Hsays.
  destruct (said _ _ _ Hsays) as (u & Hu & Hm & Hn).
  destruct (classify a r) as [[[[base c] ra] fp]|] eqn:Ec.
  - left. apply classify_spec in Ec. pose proof (Hm _ _ _ _ Ec) as ->. clear Hm Hn.
    destruct (plain _ _ _ Hsays) as (Hsp & -> & Hns); [eauto|].
    destruct Ec as (E1 & E2 & E3 & E4 & E5).
    unfold cfa_value in Hcfa. rewrite E1 in Hcfa.
    destruct (dx_regs x (reg_base a base)) as [b|] eqn:Eb; [|discriminate]. cbn in Hcfa. injection Hcfa as <-.
    pose proof (base_value _ _ _ _ Hp Eb) as Hb.
    unfold caller_value in Hv. rewrite E3 in Hv. cbn in Hv.
    exists (SfFrame false v (plus64 b c) match fp with Some f => w_mem w (plus64 (plus64 b c) f) | None => sx_fp y end).
    split.
    + exists (Unwind base false (Some c) (Some ra) fp), b, c, ra, v. cbn. tauto.
    + split; [cbn; congruence|]. split; [cbn; symmetry; apply Hpc, Hns|]. split.
      * rewrite Hregs. cbn. apply sp_value; [exact Hsp|apply plus64_again].
      * intros q Hq. rewrite Hregs in Hq. unfold caller_value in Hq. cbn [sx_fp].
        pose proof (sp_not_fp a) as Hne.
        destruct fp as [o|].
        -- destruct E5 as [E5 _]. rewrite E5 in Hq. exact Hq.
        -- destruct E5 as [E5|E5]; rewrite E5 in Hq; [apply P4, Hq|].
           rewrite (proj2 (Z.eqb_neq _ _)) in Hq by congruence. cbn in Hq.
           destruct (w_keep w); [apply P4, Hq|discriminate].
  - right. apply classify_none in Ec. exists r, col. split; [exact Hsays|]. split; [exact Ec|].
    intros z (u' & b & c & o & q & Ht & _ & Hc & _). rewrite (once _ _ _ Ht Hu) in Hc.
    destruct (Hn Ec) as [Hn' _]. congruence.
Qed.

Lemma backward x y y' : w_keep w = true -> same_point_exact a x y -> sf_step w tells y y' ->
  exists x', dw_step w a says x x' /\ same_point_exact a x' y'.
Proof.
  intros Hk (P1 & P2 & P3 & P4) (u & b & c & o & v & Ht & Hb & Hc & Ho & Hv & Q1 & Q2 & Q3 & Q4).
  destruct (told _ _ Ht) as (r & col & Hsays). destruct (said _ _ _ Hsays) as (u' & Hu & Hm & Hn).
  rewrite (once _ _ _ Hu Ht) in *. clear u' Hu.
  destruct (classify a r) as [[[[base c'] ra] fp]|] eqn:Ec.
  2:{ apply classify_none in Ec. destruct (Hn Ec) as [Hn' _]. congruence. }
  apply classify_spec in Ec. pose proof (Hm _ _ _ _ Ec) as ->. clear Hm Hn. cbn in *.
  injection Hc as ->. injection Ho as ->.
  destruct (plain _ _ _ Hsays) as (Hsp & -> & Hns); [eauto|].
  destruct Ec as (E1 & E2 & E3 & E4 & E5).
  pose (regs := caller_value w a r (plus64 b c) (dx_regs x)).
  exists (DwFrame false v regs). split.
  - exists r, (reg_ra a), (plus64 b c), v. cbn.
    split; [rewrite <- P1, <- P2; exact Hsays|].
    split.
    { unfold cfa_value. rewrite E1. destruct base; cbn in *; [rewrite P4, Hb|rewrite P3, Hb]; reflexivity. }
    split; [unfold caller_value; rewrite E3; cbn; exact Hv|].
    split; [reflexivity|]. split; [intros Hsg; contradiction|]. split; [reflexivity|]. intros reg. reflexivity.
  - split; [exact Q1|]. split; [exact Q2|]. cbn. split.
    + unfold regs. rewrite Q3. apply sp_value; [exact Hsp|apply plus64_again].
    + rewrite Q4. unfold regs, caller_value. pose proof (sp_not_fp a) as Hne. destruct fp as [q|].
      * destruct E5 as [E5 _]. rewrite E5. reflexivity.
      * destruct E5 as [E5|E5]; rewrite E5; [exact P4|].
        rewrite (proj2 (Z.eqb_neq _ _)) by congruence. cbn. rewrite Hk. exact P4.
Qed.

Lemma walks_same : same_walks w a says tells.
Proof.
  split.
  - intros x y l Hp H. revert y Hp. induction H as [x|x x' l Hst _ IH]; intros y Hp.
    + exists [], [], []. split; [reflexivity|]. split; [constructor|]. split; [constructor|]. left. reflexivity.
    + destruct (forward _ _ _ Hp Hst) as [(y' & Hy & Hp')|(r & c & H1 & H2 & H3)].
      * destruct (IH _ Hp') as (l1 & l2 & m & -> & Hw & HF & Hend).
        exists (x' :: l1), l2, (y' :: m). split; [reflexivity|]. split; [econstructor; eassumption|].
        split; [constructor; assumption|].
        replace (last (y' :: m) y) with (last m y'); [exact Hend|].
        clear. destruct m as [|z m]; [reflexivity|]. revert z. induction m as [|q m IH]; intros z; [reflexivity|].
        change (last (z :: q :: m) y') with (last (q :: m) y').
        change (last (y' :: z :: q :: m) y) with (last (y' :: q :: m) y). apply IH.
      * exists [], (x' :: l), []. split; [reflexivity|]. split; [constructor|]. split; [constructor|]. right.
        exists r, c. cbn. tauto.
  - intros Hk x y m Hp H. revert x Hp. induction H as [y|y y' m Hst _ IH]; intros x Hp.
    + exists []. split; constructor.
    + destruct (backward _ _ _ Hk Hp Hst) as (x' & Hx & Hp'). destruct (IH _ Hp') as (l & Hl & HF).
      exists (x' :: l). split; [econstructor; eassumption|constructor; assumption].
Qed.
End Steps.

(** ** The second converter *)

Lemma conv_walks md md' md'' op eh s e bs column w :
  eh_typed eh -> dwarf2sframe md op eh = Ok s -> build md' e s = Ok bs -> wf_mode md'' -> rust_slice md'' bs ->
  (forall f, last_at eh f -> rows_disjoint f /\ rows_cover f /\
     forall r, In r (wide_rows f) -> ~ clash (op_arch op) (fixed_ra_of op eh) r /\ plain_row (op_arch op) r (column f)) ->
  exists sf, load md'' e bs = Ok sf /\
    same_walks w (op_arch op) (dw_says eh column) (section_says md'' e sf).
Proof.
  intros Ht H B Hm Hs Hg.
  destruct (conv_end_to_end md md' md'' op eh s e bs Ht H B Hm Hs) as (sf & HL & H1 & H2 & H3).
  { intros f Hf. destruct (Hg f Hf) as (G1 & _ & G2). split; [exact G1|]. intros r Hr. apply (G2 r Hr). }
  exists sf. split; [exact HL|]. apply walks_same.
  - intros x r c (f & F1 & F2 & F3 & F4 & _). apply H1. exists f. tauto.
  - intros x u Hu. destruct (H2 _ _ Hu) as (f & _ & F1 & F2 & _). destruct (Hg f F1) as (_ & G & _).
    destruct (G _ F2) as (r & R1 & R2). exists r, (column f), f. tauto.
  - exact H3.
  - intros x r c (f & F1 & F2 & F3 & F4 & ->). destruct (Hg f F1) as (_ & _ & G). apply G.
    unfold wide_rows. apply filter_In. split; [exact F3|]. unfold wideb.
    rewrite (proj2 (Z.eqb_neq _ _)) by lia. reflexivity.
Qed.

(** ** The first converter *)

Lemma v1_walks md md' md'' p eh s e bs column w :
  eh_typed eh -> v1_convert md p (eh_entries eh) = Ok s -> build md' e s = Ok bs -> wf_mode md'' -> rust_slice md'' bs ->
  (forall f, last_at eh f -> rows_disjoint f /\ rows_cover f /\
     forall r, In r (dw_rows_of f) -> wide r /\ ~ v1_clash r /\ plain_row Amd64 r (column f) /\ plain_fp r) ->
  exists sf, load md'' e bs = Ok sf /\
    same_walks w Amd64 (dw_says eh column) (section_says md'' e sf).
Proof.
  intros Ht H B Hm Hs Hg.
  destruct (v1_end_to_end md md' md'' p (eh_entries eh) s e bs Ht H B Hm Hs) as (sf & HL & H1 & H2 & H3).
  { intros f r Hf Hr. destruct (Hg f Hf) as (_ & _ & G). apply (G r Hr). }
  exists sf. split; [exact HL|]. apply walks_same.
  - intros x r c (f & F1 & F2 & F3 & F4 & _). destruct (Hg f F1) as (G1 & _ & G3).
    assert (W : forall q, In q (dw_rows_of f) -> In q (wide_rows f)).
    { intros q Hq. unfold wide_rows. apply filter_In. split; [exact Hq|]. apply wideb_spec, G3, Hq. }
    destruct (H1 x f r F1 F2 F3) as (u & Hu & M1 & M2); [lia| |].
    + intros r' Hr' Hle. destruct (Z_lt_ge_dec (dr_start r) (dr_start r')) as [Hlt|]; [|lia].
      specialize (G1 r r' (W _ F3) (W _ Hr') Hlt). lia.
    + exists u. split; [exact Hu|]. split.
      * intros base cfa ra fp (E1 & E2 & E3 & E4 & E5). apply M1. repeat (split; [assumption|]).
        destruct fp as [o|]; [exact E5|]. intros o Ho. destruct E5; congruence.
      * intros Hn. apply M2. intros base cfa ra fp HR. pose proof HR as (E1 & E2 & E3 & E4 & E5).
        apply (Hn base cfa ra fp). repeat (split; [assumption|]). destruct fp as [o|]; [exact E5|].
        apply (G3 r F3) in HR. exact HR.
  - intros x u Hu. destruct (H2 _ _ Hu) as (f & _ & F1 & F2 & _). destruct (Hg f F1) as (_ & G & _).
    destruct (G _ F2) as (r & R1 & R2). exists r, (column f), f. tauto.
  - exact H3.
  - intros x r c (f & F1 & F2 & F3 & F4 & ->). destruct (Hg f F1) as (_ & _ & G). apply (G r F3).
Qed.

(** ** Both converters on the same file *)

Lemma v1_representable_dec r :
  (exists base cfa ra fp, v1_representable r base cfa ra fp) \/ forall base cfa ra fp, ~ v1_representable r base cfa ra fp.
Proof.
  destruct (classify Amd64 (norm_row r)) as [[[[base cfa] ra] fp]|] eqn:E.
  - left. exists base, cfa, ra, fp. apply norm_representable, classify_spec, E.
  - right. intros base cfa ra fp H. apply norm_representable, classify_spec in H. congruence.
Qed.

Lemma same_row_agree r u1 u2 :
  (forall base cfa ra fp, v1_representable r base cfa ra fp -> u1 = Unwind base false (Some cfa) (Some ra) fp) ->
  ((forall base cfa ra fp, ~ v1_representable r base cfa ra fp) -> uw_cfa u1 = None /\ uw_mangled u1 = false) ->
  matches Amd64 r u2 ->
  agree u1 u2 \/ odd_fp_rule r /\ uw_cfa u1 <> None /\ uw_fp u1 = None /\ uw_cfa u2 = None.
Proof.
  intros A1 A2 [B1 B2]. destruct (v1_representable_dec r) as [(base & cfa & ra & fp & HR)|Hn].
  - rewrite (A1 _ _ _ _ HR). pose proof HR as (E1 & E2 & E3 & E4 & E5). destruct fp as [o|].
    + left. left. symmetry. apply B1. repeat (split; [assumption|]). exact E5.
    + destruct (dr_register r (reg_fp Amd64)) eqn:E.
      1,2: left; left; symmetry; apply B1; repeat (split; [assumption|]); rewrite E; auto.
      1: destruct (E5 _ eq_refl).
      all: right; unfold odd_fp_rule; rewrite E; split; [exact I|]; split; [discriminate|]; split; [reflexivity|];
        apply B2; intros base' cfa' ra' fp' (_ & _ & _ & _ & H); rewrite E in H; destruct fp'; [destruct H|destruct H]; discriminate.
  - left. right. split; [apply A2, Hn|]. apply B2. intros base cfa ra fp HR. pose proof HR as (E1 & E2 & E3 & E4 & E5).
    apply (Hn base cfa ra fp). repeat (split; [assumption|]). destruct fp as [o|]; [exact E5|].
    intros o Ho. destruct E5; congruence.
Qed.

Lemma both_agree md md1 md2 md' op p eh s1 s2 e1 e2 bs1 bs2 : op_arch op = Amd64 ->
  eh_typed eh -> v1_convert md p (eh_entries eh) = Ok s1 -> dwarf2sframe md op eh = Ok s2 ->
  build md1 e1 s1 = Ok bs1 -> build md2 e2 s2 = Ok bs2 -> wf_mode md' -> rust_slice md' bs1 -> rust_slice md' bs2 ->
  (forall f r, last_at eh f -> In r (dw_rows_of f) -> wide r /\ ~ v1_clash r /\ ~ clash Amd64 (fixed_ra_of op eh) r) ->
  exists sf1 sf2, load md' e1 bs1 = Ok sf1 /\ load md' e2 bs2 = Ok sf2 /\
    (forall a f r, last_at eh f -> in_range (df_start f) (df_len f) a -> current_row f a r ->
       exists u1 u2, section_says md' e1 sf1 a u1 /\ section_says md' e2 sf2 a u2 /\
         (agree u1 u2 \/ odd_fp_rule r /\ uw_cfa u1 <> None /\ uw_fp u1 = None /\ uw_cfa u2 = None)) /\
    (forall a, (exists u1, section_says md' e1 sf1 a u1) <-> exists u2, section_says md' e2 sf2 a u2) /\
    (forall a u1 u2, section_says md' e1 sf1 a u1 -> section_says md' e2 sf2 a u2 -> agree u1 u2 \/
       exists f r, last_at eh f /\ in_range (df_start f) (df_len f) a /\ In r (dw_rows_of f) /\ odd_fp_rule r /\
         uw_cfa u1 <> None /\ uw_fp u1 = None /\ uw_cfa u2 = None).
Proof.
  intros Harch Ht V1 V2 B1 B2 Hm Hs1 Hs2 Hg.
  destruct (v1_end_to_end md md1 md' p (eh_entries eh) s1 e1 bs1 Ht V1 B1 Hm Hs1) as (sf1 & L1 & P1 & Q1 & U1).
  { intros f r Hf Hr. apply (Hg f r Hf Hr). }
  pose proof (dwarf2sframe_converted _ _ _ _ Ht V2) as HC. pose proof (conv_fixed _ _ _ _ HC) as Hra. destruct HC as [_ Ho Ha].
  assert (W : forall f r, last_at eh f -> In r (wide_rows f) <-> In r (dw_rows_of f)).
  { intros f r Hf. unfold wide_rows. rewrite filter_In. split; [tauto|]. intros Hr. split; [exact Hr|].
    apply wideb_spec. apply (Hg f r Hf Hr). }
  destruct (assembled_end_to_end md2 md' op _ _ s2 e2 bs2 (opts_reached op eh) (proj1 (options_eq op eh)) Ho Ha B2 Hm Hs2)
    as (sf2 & L2 & P2 & Q2 & U2).
  { intros f r F1 Hr. rewrite <- Ho, Hra, Harch. apply (W f r F1) in Hr. apply (Hg f r F1 Hr). }
  rewrite Harch in P2. exists sf1, sf2. split; [exact L1|]. split; [exact L2|].
  assert (K : forall a f r, last_at eh f -> in_range (df_start f) (df_len f) a -> current_row f a r ->
    exists u1 u2, section_says md' e1 sf1 a u1 /\ section_says md' e2 sf2 a u2 /\
      (agree u1 u2 \/ odd_fp_rule r /\ uw_cfa u1 <> None /\ uw_fp u1 = None /\ uw_cfa u2 = None)).
  { intros a f r Hf Hin (C1 & C2 & C3).
    destruct (P1 a f r Hf Hin C1 C2 C3) as (u1 & X1 & X2 & X3).
    destruct (P2 a f r Hf Hin) as (u2 & Y1 & Y2); [apply W; assumption|exact C2| |].
    { intros r' Hr'. apply C3, (W f r' Hf), Hr'. }
    exists u1, u2. split; [exact X1|]. split; [exact Y1|]. apply same_row_agree; assumption. }
  assert (J : forall f a r, last_at eh f -> In r (dw_rows_of f) -> dr_start r <= a -> exists r', current_row f a r').
  { intros f a r _ Hr Hle. unfold current_row. revert r Hr Hle. induction (dw_rows_of f) as [|q l IH]; [intros r []|].
    intros r Hr Hle.
    destruct (in_dec Z.eq_dec 1 (map (fun r => if dr_start r <=? a then 1 else 0) l)) as [Hi|Hi].
    - apply in_map_iff in Hi. destruct Hi as (q' & E & Hq'). destruct (Z.leb_spec (dr_start q') a) as [Hle'|]; [|discriminate].
      destruct (IH q' Hq' Hle') as (m & M1 & M2 & M3).
      destruct (Z_le_gt_dec (dr_start q) a) as [Hqa|Hqa]; [destruct (Z_le_gt_dec (dr_start q) (dr_start m)) as [Hqm|Hqm]|].
      + exists m. split; [right; exact M1|]. split; [exact M2|]. intros x [<-|Hx] Hxa; [exact Hqm|apply M3; assumption].
      + exists q. split; [left; reflexivity|]. split; [exact Hqa|]. intros x [<-|Hx] Hxa; [lia|]. specialize (M3 x Hx Hxa). lia.
      + exists m. split; [right; exact M1|]. split; [exact M2|]. intros x [<-|Hx] Hxa; [lia|apply M3; assumption].
    - assert (Hnone : forall x, In x l -> ~ dr_start x <= a).
      { intros x Hx Hxa. apply Hi, in_map_iff. exists x. split; [|exact Hx]. rewrite (proj2 (Z.leb_le _ _) Hxa). reflexivity. }
      destruct Hr as [<-|Hr]; [|destruct (Hnone r Hr Hle)].
      exists q. split; [left; reflexivity|]. split; [exact Hle|]. intros x [<-|Hx] Hxa; [lia|destruct (Hnone x Hx Hxa)]. }
  split; [exact K|]. split.
  - intros a. split; intros (u & Hu).
    + apply Q1 in Hu. destruct Hu as (f & r & F1 & F2 & F3 & F4). destruct (J f a r F1 F3 F4) as (r' & Hr').
      destruct (K a f r' F1 F2 Hr') as (_ & u2 & _ & H & _). exists u2. exact H.
    + apply Q2 in Hu. destruct Hu as (f & r & F1 & F2 & F3 & F4). apply (W f r F1) in F3.
      destruct (J f a r F1 F3 F4) as (r' & Hr').
      destruct (K a f r' F1 F2 Hr') as (u1 & _ & H & _). exists u1. exact H.
  - intros a u1 u2 H1 H2. destruct (Q1 _ _ H1) as (f & r & F1 & F2 & F3 & F4).
    destruct (J f a r F1 F3 F4) as (r' & Hr'). destruct (K a f r' F1 F2 Hr') as (v1 & v2 & G1 & G2 & G3).
    rewrite (U1 _ _ _ H1 G1), (U2 _ _ _ H2 G2). destruct G3 as [G3|G3]; [left; exact G3|right].
    exists f, r'. destruct Hr' as (R1 & _). tauto.
Qed.
