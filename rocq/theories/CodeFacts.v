(** A program given by its instructions and its stack: proofs. *)
From Verif Require Export CodeSpec.
From Verif Require Import BaseFacts ConvFacts CfiFacts CfiTotal RelateFacts StdConv WalkFacts ProgramFacts LookupFacts RunFacts.
Open Scope Z_scope.
Open Scope list_scope.

(** What is known is the case. *)
Definition facts (v : view) (m : Z -> Z) (cfa fp0 sp fp : Z) : Prop :=
  0 <= sp <= cfa - 8 /\ cfa < 2 ^ 64 /\
  (forall a, vw_sp v = Some a -> cfa = sp + a) /\ (forall b, vw_fp v = Some b -> cfa = fp + b) /\
  (forall k, vw_saved v = Some k -> m (cfa + k) = fp0 /\ 0 <= cfa + k /\ k <= -8 /\ (vw_sp v = None -> sp <= cfa + k)) /\
  (vw_same v = true -> fp = fp0).

Lemma facts_less v v' m cfa fp0 sp fp : claims_less v v' -> facts v m cfa fp0 sp fp -> facts v' m cfa fp0 sp fp.
Proof.
  intros (F1 & F2 & F3 & F4 & F5) (H1 & H2 & H3 & H4 & H5 & H6). split; [exact H1|]. split; [exact H2|]. split; [auto|]. split; [auto|]. split; [|auto].
  intros k K. destruct (H5 k (F4 k K)) as (K1 & K2 & K3 & K4). split; [exact K1|]. split; [exact K2|]. split; [exact K3|].
  intros N. specialize (F2 N). destruct (vw_sp v) as [a|]; [|auto]. specialize (F2 k K). specialize (H3 a eq_refl). lia.
Qed.
(** The saved word has not been written to. *)
Lemma facts_kept v m m' cfa fp0 sp fp : (forall k, vw_saved v = Some k -> m' (cfa + k) = m (cfa + k)) ->
  facts v m cfa fp0 sp fp -> facts v m' cfa fp0 sp fp.
Proof.
  intros K (H1 & H2 & H3 & H4 & H5 & H6). do 4 (split; [assumption|]). split; [|exact H6]. intros k E. rewrite (K k E). auto.
Qed.
Lemma facts_above v m cfa fp0 sp fp k : facts v m cfa fp0 sp fp ->
  match vw_sp v with Some a => not_below a (vw_saved v) | None => True end -> vw_saved v = Some k -> sp <= cfa + k.
Proof.
  intros (H1 & H2 & H3 & H4 & H5 & H6) A E. destruct (H5 k E) as (_ & _ & _ & K). destruct (vw_sp v) as [a|]; [|auto].
  specialize (A k E). specialize (H3 a eq_refl). lia.
Qed.

Section Program.
  Context (bias back : Z) (fs : list routine).
  Hypothesis HC : forall f, In f fs -> checked f.
  Hypothesis HA : routines_apart fs.
  Hypothesis HB : forall f i, In f fs -> In i (rt_items f) -> bias + rt_start f + it_at i <> back.

  Inductive stacked (m : Z -> Z) : list sf_frame -> Prop :=
  | stacked_bottom s p : 0 <= s < 2 ^ 64 -> stacked m [SfFrame false back s (Some p)]
  | stacked_more f i s p cfa fp0 t : In f fs -> In i (rt_items f) -> it_act i = CallFn ->
      facts (rt_view f (it_at i)) m cfa fp0 s p -> stacked m (SfFrame false (m (cfa - 8)) cfa (Some fp0) :: t) ->
      stacked m (SfFrame false (bias + rt_start f + (it_at i + it_len i)) s (Some p) :: SfFrame false (m (cfa - 8)) cfa (Some fp0) :: t).

  Inductive instant : list sf_frame -> thread -> Prop :=
  | instant_over sp fp m : instant [] (Thread back sp fp m)
  | instant_in f o sp fp m cfa fp0 t : In f fs -> (exists i, In i (rt_items f) /\ it_at i = o) ->
      facts (rt_view f o) m cfa fp0 sp fp -> stacked m (SfFrame false (m (cfa - 8)) cfa (Some fp0) :: t) ->
      instant (SfFrame false (m (cfa - 8)) cfa (Some fp0) :: t) (Thread (bias + rt_start f + o) sp fp m).

  Lemma item_in f i : In f fs -> In i (rt_items f) -> 0 <= it_at i /\ 1 <= it_len i /\ it_at i + it_len i <= rt_len f /\ item_checked f i.
  Proof. intros Hf Hi. apply (HC f Hf). exact Hi. Qed.

  Lemma stacked_bound m c t : stacked m (c :: t) -> 0 <= sx_sp c < 2 ^ 64.
  Proof.
    intros H. inversion H as [s p Hs|f i s p cfa fp0 t' Hf Hi Ha (F1 & F2 & _) HS]; subst; cbn; lia.
  Qed.

  Lemma call_view f i : In f fs -> In i (rt_items f) -> it_act i = CallFn ->
    rt_view f (it_at i + it_len i) = rt_view f (it_at i) /\
    match vw_sp (rt_view f (it_at i)) with Some a => not_below a (vw_saved (rt_view f (it_at i))) | None => True end /\
    exists j, In j (rt_items f) /\ it_at j = it_at i + it_len i.
  Proof.
    intros Hf Hi Ha. destruct (item_in f i Hf Hi) as (_ & _ & _ & (v & _ & N) & K). rewrite Ha in K. destruct K as [K1 K2].
    split; [exact K1|]. split; [exact K2|]. apply N. unfold next_of. rewrite Ha. left. reflexivity.
  Qed.

  (** Writing elsewhere leaves the stack as it is. *)
  Lemma stacked_guarded m m' c t : stacked m (c :: t) -> (forall a, guarded bias fs (sx_pc c) t a -> m' a = m a) -> stacked m' (c :: t).
  Proof.
    revert c. induction t as [|d t IH]; intros c H G; inversion H as [s p Hs|f i s p cfa fp0 t' Hf Hi Ha HF HS]; subst; [constructor; assumption|].
    cbn in G. assert (E : m' (cfa - 8) = m (cfa - 8)) by (apply G; apply (guarded_back bias fs _ (SfFrame false (m (cfa - 8)) cfa (Some fp0)))).
    destruct (call_view f i Hf Hi Ha) as (V1 & V2 & j & J1 & J2). destruct (item_in f j Hf J1) as (B1 & B2 & B3 & _).
    rewrite <- E. apply stacked_more; try assumption.
    - apply (facts_kept _ m); [|exact HF]. intros k K. apply G.
      apply (guarded_saved bias fs _ (SfFrame false (m (cfa - 8)) cfa (Some fp0)) t f (it_at i + it_len i)); [exact Hf|reflexivity|lia|congruence].
    - rewrite E. apply IH; [exact HS|]. intros a Ga. apply G, guarded_outer, Ga.
  Qed.
  (** All guarded words of a stack lie at or above its stack pointer. *)
  Lemma stacked_above m c t : stacked m (c :: t) -> forall a, guarded bias fs (sx_pc c) t a -> sx_sp c <= a.
  Proof.
    revert c. induction t as [|d t IH]; intros c H a G; inversion H as [s p Hs|f i s p cfa fp0 t' Hf Hi Ha HF HS]; subst; cbn in G |- *; [inversion G|].
    pose proof HF as (F1 & F2 & _). destruct (call_view f i Hf Hi Ha) as (V1 & V2 & j & J1 & J2). destruct (item_in f j Hf J1) as (B1 & B2 & B3 & _).
    inversion G as [pc c st|pc c st g o k Hg Ep Ho Ek|pc c st a' G']; subst; cbn.
    - lia.
    - assert (f = g) by (apply (HA f g (rt_start f + (it_at i + it_len i))); [assumption|assumption|lia|lia]). subst g.
      assert (o = it_at i + it_len i) by lia. subst o. rewrite V1 in Ek. apply (facts_above _ _ _ _ _ _ k HF V2 Ek).
    - specialize (IH _ HS a G'). cbn in IH. lia.
  Qed.
  Lemma stacked_kept m m' lo c t : stacked m (c :: t) -> kept lo m m' -> lo <= sx_sp c -> stacked m' (c :: t).
  Proof. intros H K L. apply (stacked_guarded m); [exact H|]. intros a G. apply K. pose proof (stacked_above m c t H a G). lia. Qed.

  Lemma begins_instant s0 : begins bias fs back s0 -> instant (fst s0) (snd s0).
  Proof.
    intros (f & sp & fp & m & Hf & H0 & H1 & E & ->). cbn. destruct (HC f Hf) as (_ & _ & Hi & Hv).
    pose proof (instant_in f 0 sp fp m (sp + 8) fp []) as HI. replace (sp + 8 - 8) with sp in HI by lia. rewrite E in HI.
    apply HI; [exact Hf|exact Hi| |constructor; lia].
    apply (facts_less _ _ _ _ _ _ _ Hv). unfold facts. cbn. split; [lia|]. split; [lia|]. split; [intros a Ea; injection Ea as <-; reflexivity|].
    split; [discriminate|]. split; [discriminate|reflexivity].
  Qed.

  (** A thread at an instruction of [f]. *)
  Lemma instant_at f i st sp fp m : In f fs -> In i (rt_items f) -> instant st (Thread (bias + rt_start f + it_at i) sp fp m) ->
    exists cfa fp0 t, st = SfFrame false (m (cfa - 8)) cfa (Some fp0) :: t /\ facts (rt_view f (it_at i)) m cfa fp0 sp fp /\ stacked m st.
  Proof.
    intros Hf Hi H. inversion H as [sp' fp' m' E1 E2|g o sp' fp' m' cfa fp0 t Hg (j & Hj & Ej) HF HS E1 E2].
    - exfalso. apply (HB f i Hf Hi). congruence.
    - subst sp' fp' m'. destruct (item_in f i Hf Hi) as (I1 & I2 & I3 & _). destruct (item_in g j Hg Hj) as (J1 & J2 & J3 & _).
      assert (f = g) by (apply (HA f g (rt_start f + it_at i)); [assumption|assumption|lia|lia]). subst g.
      assert (o = it_at i) by lia. subst o. rewrite H0 in *. exists cfa, fp0, t. auto.
  Qed.

  (** Going on behind an instruction that leaves memory alone. *)
  Lemma instant_next f i o v sp fp m cfa fp0 t : In f fs -> In i (rt_items f) ->
    after_act (it_act i) (rt_view f (it_at i)) = Some v -> In o (next_of i) -> facts v m cfa fp0 sp fp ->
    stacked m (SfFrame false (m (cfa - 8)) cfa (Some fp0) :: t) ->
    instant (SfFrame false (m (cfa - 8)) cfa (Some fp0) :: t) (Thread (bias + rt_start f + o) sp fp m).
  Proof.
    intros Hf Hi Hv Ho HF HS. destruct (item_in f i Hf Hi) as (_ & _ & _ & (v' & V1 & V2) & _). assert (v' = v) by congruence. subst v'.
    destruct (V2 o Ho) as [W1 W2]. apply instant_in; [exact Hf|exact W2|apply (facts_less v _ _ _ _ _ _ W1 HF)|exact HS].
  Qed.

  Lemma next_line i : match it_act i with Any _ _ _ | RetFn | JumpFn => False | _ => True end -> In (it_at i + it_len i) (next_of i).
  Proof. unfold next_of. destruct (it_act i); intros []; left; reflexivity. Qed.

  Lemma entered g sp fp m t : In g fs -> 0 <= sp -> sp + 8 < 2 ^ 64 -> stacked m (SfFrame false (m sp) (sp + 8) (Some fp) :: t) ->
    instant (SfFrame false (m sp) (sp + 8) (Some fp) :: t) (Thread (bias + rt_start g + 0) sp fp m).
  Proof.
    intros Hg H0 H1 HS. destruct (HC g Hg) as (_ & _ & Hi & Hv). pose proof (instant_in g 0 sp fp m (sp + 8) fp t) as HI.
    replace (sp + 8 - 8) with sp in HI by lia. apply HI; [exact Hg|exact Hi| |exact HS].
    apply (facts_less _ _ _ _ _ _ _ Hv). unfold facts. cbn. split; [lia|]. split; [lia|]. split; [intros a Ea; injection Ea as <-; reflexivity|].
    split; [discriminate|]. split; [discriminate|reflexivity].
  Qed.

  Ltac after H := match type of H with exists v, after_act ?a ?w = Some v /\ _ =>
    let v := fresh "v" in let V1 := fresh "V1" in destruct H as (v & V1 & _) end.

  Lemma acts_instant s s' : instant (fst s) (snd s) -> acts bias fs s s' -> instant (fst s') (snd s').
  Proof.
    intros HM Hs. destruct Hs as [st f i r sp fp m m' Hf Hi Ha Hsp Hm Hk|st f i r sp fp m Hf Hi Ha Hr|st f i n sp fp m Hf Hi Ha Hn|st f i n sp fp m Hf Hi Ha
      |st f i sp fp m Hf Hi Ha|st f i n sp fp m Hf Hi Ha Hn|st f i sp fp m Hf Hi Ha Hn|st f i st' ft next o sp sp' fp fp' m m' Hf Hi Ha Ho Hsp Hfp H0' HG
      |st f g i sp fp m m' Hf Hg Hi Ha Hsp Hm Hk|c0 st f i sp fp m Hf Hi Ha|st f g i sp fp m Hf Hg Hi Ha]; cbn in HM |- *;
      destruct (instant_at f i st sp fp m Hf Hi HM) as (cfa & fp0 & t & -> & HF & HS) || destruct (instant_at f i (c0 :: st) sp fp m Hf Hi HM) as (cfa & fp0 & t & Est & HF & HS);
      destruct (item_in f i Hf Hi) as (I1 & I2 & I3 & (v & V1 & V2) & VK); pose proof HF as (F1 & F2 & F3 & F4 & F5 & F6);
      pose proof V1 as V1'; rewrite Ha in V1'; cbn [after_act] in V1'; rewrite Ha in VK.
    - (* push *)
      assert (Er : m' (cfa - 8) = m (cfa - 8)) by (apply Hk; lia). rewrite <- Er.
      apply (instant_next f i _ v); [exact Hf|exact Hi|exact V1|apply next_line; rewrite Ha; exact I| |].
      2: { rewrite Er. apply (stacked_kept m m' sp); [exact HS|exact Hk|cbn; lia]. }
      destruct (vw_sp (rt_view f (it_at i))) as [d|] eqn:Ed.
      + injection V1' as <-. specialize (F3 d eq_refl). unfold facts. cbn [vw_sp vw_fp vw_saved vw_same].
        split; [lia|]. split; [lia|]. split; [intros a Ea; injection Ea as <-; lia|]. split; [exact F4|]. split; [|exact F6].
        intros k Ek. destruct ((r =? 6) && vw_same (rt_view f (it_at i))) eqn:Eb.
        * apply andb_prop in Eb. destruct Eb as [E1 E2]. apply Z.eqb_eq in E1. injection Ek as <-. replace (cfa + - (d + 8)) with (sp - 8) by lia.
          split; [rewrite (Hm E1); apply F6, E2|]. split; [lia|]. split; [lia|discriminate].
        * unfold unless_below in Ek. destruct (vw_saved (rt_view f (it_at i))) as [k'|]; [|discriminate]. destruct (Z.leb_spec (- d) k'); [|discriminate].
          injection Ek as ->. destruct (F5 k eq_refl) as (K1 & K2 & K3 & K4). split; [rewrite Hk by lia; exact K1|]. split; [exact K2|]. split; [exact K3|discriminate].
      + injection V1' as <-. unfold facts. rewrite Ed. split; [lia|]. split; [lia|]. split; [discriminate|]. split; [exact F4|]. split; [|exact F6].
        intros k Ek. destruct (F5 k Ek) as (K1 & K2 & K3 & K4). specialize (K4 eq_refl). split; [rewrite Hk by lia; exact K1|]. split; [exact K2|]. split; [exact K3|lia].
    - (* pop *)
      destruct (vw_sp (rt_view f (it_at i))) as [d|] eqn:Ed; [|discriminate]. specialize (F3 d eq_refl).
      destruct ((r =? 7) || (d <? 16)) eqn:Eb; [discriminate|]. apply orb_false_elim in Eb. destruct Eb as [_ Eb]. apply Z.ltb_ge in Eb.
      apply (instant_next f i _ v); [exact Hf|exact Hi|exact V1|apply next_line; rewrite Ha; exact I| |exact HS].
      destruct (r =? 6) eqn:E6; injection V1' as <-; unfold facts; cbn [vw_sp vw_fp vw_saved vw_same].
      + split; [lia|]. split; [lia|]. split; [intros a Ea; injection Ea as <-; lia|]. split; [discriminate|]. split.
        * intros k Ek. destruct (F5 k Ek) as (K1 & K2 & K3 & K4). split; [exact K1|]. split; [exact K2|]. split; [exact K3|discriminate].
        * destruct (vw_saved (rt_view f (it_at i))) as [k|]; [|discriminate]. intros E. apply Z.eqb_eq in E. destruct (F5 k eq_refl) as (K1 & _).
          replace sp with (cfa + k) by lia. exact K1.
      + split; [lia|]. split; [lia|]. split; [intros a Ea; injection Ea as <-; lia|]. split; [exact F4|]. split; [|exact F6].
        intros k Ek. destruct (F5 k Ek) as (K1 & K2 & K3 & K4). split; [exact K1|]. split; [exact K2|]. split; [exact K3|discriminate].
    - (* sub *)
      destruct (Z.ltb_spec n 0); [discriminate|]. injection V1' as E.
      apply (instant_next f i _ v); [exact Hf|exact Hi|exact V1|apply next_line; rewrite Ha; exact I| |exact HS].
      subst v. unfold facts. cbn [vw_sp vw_fp vw_saved vw_same]. split; [lia|]. split; [lia|]. split; [|split; [exact F4|split; [|exact F6]]].
      + intros a Ea. destruct (vw_sp (rt_view f (it_at i))) as [d|]; [|discriminate]. injection Ea as <-. specialize (F3 d eq_refl). lia.
      + intros k Ek. destruct (F5 k Ek) as (K1 & K2 & K3 & K4). split; [exact K1|]. split; [exact K2|]. split; [exact K3|].
        destruct (vw_sp (rt_view f (it_at i))) as [d|]; [discriminate|]. intros _. specialize (K4 eq_refl). lia.
    - (* add *)
      destruct (vw_sp (rt_view f (it_at i))) as [d|] eqn:Ed; [|discriminate]. specialize (F3 d eq_refl).
      destruct (Z.ltb_spec n 0); [discriminate|]. destruct (Z.ltb_spec (d - n) 8); [discriminate|]. injection V1' as E.
      apply (instant_next f i _ v); [exact Hf|exact Hi|exact V1|apply next_line; rewrite Ha; exact I| |exact HS].
      subst v. unfold facts. cbn [vw_sp vw_fp vw_saved vw_same]. split; [lia|]. split; [lia|]. split; [intros a Ea; injection Ea as <-; lia|].
      split; [exact F4|]. split; [|exact F6].
      intros k Ek. destruct (F5 k Ek) as (K1 & K2 & K3 & K4). split; [exact K1|]. split; [exact K2|]. split; [exact K3|discriminate].
    - (* mov *)
      injection V1' as E. apply (instant_next f i _ v); [exact Hf|exact Hi|exact V1|apply next_line; rewrite Ha; exact I| |exact HS].
      subst v. unfold facts. cbn [vw_sp vw_fp vw_saved vw_same]. do 2 (split; [lia|]). split; [exact F3|]. split; [exact F3|]. split; [exact F5|discriminate].
    - (* lea *)
      destruct (vw_fp (rt_view f (it_at i))) as [b|] eqn:Eb; [|discriminate]. specialize (F4 b eq_refl).
      destruct (Z.ltb_spec (b + n) 8); [discriminate|]. injection V1' as E.
      apply (instant_next f i _ v); [exact Hf|exact Hi|exact V1|apply next_line; rewrite Ha; exact I| |exact HS].
      subst v. unfold facts. cbn [vw_sp vw_fp vw_saved vw_same]. split; [lia|]. split; [lia|]. split; [intros a Ea; injection Ea as <-; lia|].
      split; [intros b' Eb'; injection Eb' as <-; exact F4|]. split; [|exact F6].
      intros k Ek. destruct (F5 k Ek) as (K1 & K2 & K3 & K4). split; [exact K1|]. split; [exact K2|]. split; [exact K3|discriminate].
    - (* leave *)
      destruct (vw_fp (rt_view f (it_at i))) as [b|] eqn:Eb; [|discriminate]. specialize (F4 b eq_refl).
      destruct (Z.ltb_spec b 16); [discriminate|]. injection V1' as E.
      apply (instant_next f i _ v); [exact Hf|exact Hi|exact V1|apply next_line; rewrite Ha; exact I| |exact HS].
      subst v. unfold facts. cbn [vw_sp vw_fp vw_saved vw_same]. split; [lia|]. split; [lia|]. split; [intros a Ea; injection Ea as <-; lia|].
      split; [discriminate|]. split.
      + intros k Ek. destruct (F5 k Ek) as (K1 & K2 & K3 & K4). split; [exact K1|]. split; [exact K2|]. split; [exact K3|discriminate].
      + destruct (vw_saved (rt_view f (it_at i))) as [k|]; [|discriminate]. intros E. apply Z.eqb_eq in E. destruct (F5 k eq_refl) as (K1 & _).
        replace fp with (cfa + k) by lia. exact K1.
    - (* anything else *)
      assert (Er : m' (cfa - 8) = m (cfa - 8)) by (apply HG; apply (guarded_back bias fs _ (SfFrame false (m (cfa - 8)) cfa (Some fp0)))).
      assert (Ek' : forall k, vw_saved (rt_view f (it_at i)) = Some k -> m' (cfa + k) = m (cfa + k) /\ (st' = true -> sp' <= cfa + k)).
      { intros k Ek. apply HG. apply (guarded_saved bias fs _ (SfFrame false (m (cfa - 8)) cfa (Some fp0)) t f (it_at i)); [exact Hf|reflexivity|lia|exact Ek]. }
      assert (Es : st' = true -> sp' <= cfa - 8) by (apply HG; apply (guarded_back bias fs _ (SfFrame false (m (cfa - 8)) cfa (Some fp0)))).
      rewrite <- Er. apply (instant_next f i _ v); [exact Hf|exact Hi|exact V1|unfold next_of; rewrite Ha; exact Ho| |].
      2: { rewrite Er. apply (stacked_guarded m); [exact HS|]. intros a Ga. apply HG, guarded_outer, Ga. }
      injection V1' as <-. unfold facts. cbn [vw_sp vw_fp vw_saved vw_same].
      destruct st', ft; try (specialize (Hsp eq_refl); subst sp'); try (specialize (Hfp eq_refl); subst fp'); try specialize (Es eq_refl);
        (split; [lia|]); (split; [lia|]); (split; [first [exact F3|discriminate]|]); (split; [first [exact F4|discriminate]|]);
        (split; [|first [exact F6|discriminate]]); intros k Ek; destruct (F5 k Ek) as (K1 & K2 & K3 & K4); destruct (Ek' k Ek) as (G1 & G2);
        rewrite G1; (split; [exact K1|]); (split; [exact K2|]); (split; [exact K3|]); first [exact K4|intros _; apply G2; reflexivity].
    - (* call *)
      destruct (call_view f i Hf Hi Ha) as (W1 & W2 & _).
      assert (Er : m' (cfa - 8) = m (cfa - 8)) by (apply Hk; lia).
      pose proof (entered g (sp - 8) fp m' (SfFrame false (m (cfa - 8)) cfa (Some fp0) :: t) Hg ltac:(lia) ltac:(lia)) as HE.
      replace (sp - 8 + 8) with sp in HE by lia. rewrite Hm in HE. apply HE. rewrite <- Er. apply stacked_more; try assumption.
      + apply (facts_kept _ m); [|exact HF]. intros k Ek. apply Hk. apply (facts_above _ _ _ _ _ _ k HF W2 Ek).
      + rewrite Er. apply (stacked_kept m m' sp); [exact HS|exact Hk|cbn; lia].
    - (* ret *)
      destruct VK as [U1 U2]. specialize (F3 8 U1). specialize (F6 U2). injection Est as -> ->.
      replace sp with (cfa - 8) by lia. replace (cfa - 8 + 8) with cfa by lia. subst fp0.
      inversion HS as [s p Hs E1|g j s p cfa' fp0' t' Hg Hj Hb HF' HS' E1].
      + rewrite <- E1. apply instant_over.
      + destruct (call_view g j Hg Hj Hb) as (W1 & W2 & W3). apply instant_in; [exact Hg|exact W3|rewrite W1; exact HF'|exact HS'].
    - (* jump *)
      destruct VK as [U1 U2]. specialize (F3 8 U1). specialize (F6 U2). subst fp0.
      assert (E8 : cfa = sp + 8) by lia. subst cfa. replace (sp + 8 - 8) with sp in * by lia. apply entered; [exact Hg|lia|lia|exact HS].
  Qed.

  Theorem goes_instant s0 s : begins bias fs back s0 -> goes bias fs s0 s -> instant (fst s) (snd s).
  Proof. intros H0 R. induction R as [|s s' R IH M]; [apply begins_instant, H0|apply (acts_instant s s' IH M)]. Qed.

  (** ** Walks *)

  Context (eh : eh_frame) (cie : dw_fde -> cie_info) (tells : Z -> unwind -> Prop) (w : world) (x : thread).
  Hypothesis HD : code_described eh cie fs.
  Hypothesis HT : forall d a st base cfa ra fp, last_at eh d -> in_range (df_start d) (df_len d) a -> cfi_at (cie d) d a = Some st ->
    representable Amd64 (as_row st) base cfa ra fp -> forall u, tells a u <-> u = Unwind base false (Some cfa) (Some ra) fp.
  Hypothesis HN : forall a u, tells a u -> exists d, last_at eh d /\ in_range (df_start d) (df_len d) a.
  Hypothesis HO : forall d, last_at eh d -> ~ in_range (df_start d) (df_len d) (back - bias) /\
    ~ in_range (df_start d) (df_len d) (back - bias - 1).
  Hypothesis HS : sees bias w x.

  Lemma step_known y f i b cfa fp0 s p : In f fs -> In i (rt_items f) -> it_at i <= b < it_at i + it_len i ->
    w_look w (sx_first y) (sx_pc y) = rt_start f + b -> sx_sp y = s -> sx_fp y = Some p ->
    facts (rt_view f (it_at i)) (t_mem x) cfa fp0 s p ->
    forall z, sf_step w tells y z <-> z = SfFrame false (t_mem x (cfa - 8)) cfa (Some fp0).
  Proof.
    intros Hf Hi Hb El Es Ep (F1 & F2 & F3 & F4 & F5 & F6) z.
    destruct (HD f i b Hf Hi Hb) as (d & st & D1 & D2 & D3 & base & c & fp & D4 & D5 & D6).
    assert (B : exists q, sf_base y base = Some q /\ q + c = cfa).
    { destruct base; cbn [sf_base]; [exists p; split; [exact Ep|]; rewrite (F4 c D5); lia|exists s; split; [congruence|]; rewrite (F3 c D5); lia]. }
    destruct B as (q & B1 & B2).
    rewrite (step_of bias eh cie tells w x HT HN HS y _ base c fp q El (HT _ _ _ _ _ _ _ D1 D2 D3 D4) B1); [|lia|lia|].
    - rewrite B2. destruct fp as [k|]; [destruct (F5 k D6) as (K1 & _); rewrite K1; reflexivity|]. rewrite Ep, (F6 D6). reflexivity.
    - rewrite B2. destruct fp as [k|]; [|exact I]. destruct (F5 k D6) as (_ & K2 & K3 & _). lia.
  Qed.

  Lemma behind_nothing : (forall u, ~ tells (back - bias) u) /\ forall u, ~ tells (back - bias - 1) u.
  Proof. split; intros u T; destruct (HN _ _ T) as (d & D1 & D2); destruct (HO d D1); contradiction. Qed.

  Lemma stacked_walked c t : stacked (t_mem x) (c :: t) -> forall l, walk (sf_step w tells) c l <-> exists rest, t = l ++ rest.
  Proof.
    destruct HS as (_ & _ & Hl). revert c.
    induction t as [|d t IH]; intros c HK; inversion HK as [s p Hs E|f i s p cfa fp0 t' Hf Hi Ha HF HK' E]; subst; apply walk_nil_or.
    - destruct behind_nothing as [N1 N2]. destruct (Hl back) as [E|E]; eapply stuck_at; [exact E|exact N1|exact E|exact N2].
    - split; [|apply IH, HK']. destruct (call_view f i Hf Hi Ha) as (W1 & W2 & j & J1 & J2). destruct (item_in f i Hf Hi) as (I1 & I2 & _).
      destruct (item_in f j Hf J1) as (_ & J3 & _).
      destruct (Hl (bias + rt_start f + (it_at i + it_len i))) as [E|E].
      + apply (step_known _ f j (it_at j) cfa fp0 s p Hf J1); [lia|cbn; rewrite E; lia|reflexivity|reflexivity|rewrite J2, W1; exact HF].
      + apply (step_known _ f i (it_at i + it_len i - 1) cfa fp0 s p Hf Hi); [lia|cbn; rewrite E; lia|reflexivity|reflexivity|exact HF].
  Qed.

  Theorem instant_walked st : instant st x -> walked w tells st x.
  Proof.
    intros HM. unfold walked. destruct HS as (_ & Hl & _). inversion HM as [sp fp m E0 Ex|f o sp fp m cfa fp0 t Hf (i & Hi & Ei) HF HK E0 Ex];
      assert (Xm : t_mem x = m) by (rewrite <- Ex; reflexivity); cbn [frame_of_thread t_pc t_sp t_fp]; apply walk_nil_or.
    - apply (stuck_at tells w _ (back - bias)); [cbn; apply Hl|apply behind_nothing].
    - rewrite <- Xm in *. split; [|apply stacked_walked, HK]. destruct (item_in f i Hf Hi) as (_ & I2 & _).
      apply (step_known _ f i o cfa fp0 sp fp Hf Hi); [lia|cbn; rewrite Hl; lia|reflexivity|reflexivity|rewrite Ei; exact HF].
  Qed.
End Program.

(** ** With the converters *)

Lemma code_always_walked_by eh cie fs tells : (forall f, In f fs -> checked f) -> routines_apart fs -> code_described eh cie fs ->
  (forall d a st base cfa ra fp, last_at eh d -> in_range (df_start d) (df_len d) a -> cfi_at (cie d) d a = Some st ->
     representable Amd64 (as_row st) base cfa ra fp -> forall u, tells a u <-> u = Unwind base false (Some cfa) (Some ra) fp) ->
  (forall a u, tells a u -> exists d, last_at eh d /\ in_range (df_start d) (df_len d) a) ->
  code_always_walked eh fs tells.
Proof.
  intros HC HA HD HT HN bias back s0 st x w H0 R HS HO.
  assert (HB : forall f i, In f fs -> In i (rt_items f) -> bias + rt_start f + it_at i <> back).
  { intros f i Hf Hi E. destruct (HC f Hf) as (Hc & _). destruct (Hc i Hi) as (_ & I2 & _).
    destruct (HD f i (it_at i) Hf Hi ltac:(lia)) as (d & _ & D1 & D2 & _).
    replace (rt_start f + it_at i) with (back - bias) in D2 by lia. destruct (HO d D1). contradiction. }
  apply (instant_walked bias back fs HC HB eh cie tells w x HD HT HN HO HS).
  exact (goes_instant bias back fs HC HA HB s0 (st, x) H0 R).
Qed.

Theorem code_walks md md' md'' op eh s e bs cie fs :
  eh_typed eh -> dwarf2sframe md op eh = Ok s -> op_arch op = Amd64 -> build md' e s = Ok bs -> wf_mode md'' -> rust_slice md'' bs ->
  programs_followed eh cie -> (forall d, last_at eh d -> unconfused Amd64 (fixed_ra_of op eh) (cie d) d) ->
  (forall f, In f fs -> checked f) -> routines_apart fs -> code_described eh cie fs ->
  (exists sf, load md'' e bs = Ok sf /\ code_always_walked eh fs (section_says md'' e sf)) /\ code_always_walked eh fs (std_tells e bs).
Proof.
  intros Ht H Ha B Hm Hs Hp Hu HW HA HD.
  assert (Hgood : forall f, last_at eh f -> (exists c, follows_dwarf c f) /\
     forall r, In r (wide_rows f) -> ~ clash (op_arch op) (fixed_ra_of op eh) r).
  { intros f Hf. split; [exists (cie f); apply Hp, Hf|]. intros r Hr. rewrite Ha.
    apply (follows_clash _ _ (cie f) f r (last_len _ _ Ht Hf) (Hp f Hf)); [apply Hu, Hf|exact Hr]. }
  split.
  - destruct (program_preserved md md' md'' op eh s e bs Ht H B Hm Hs Hgood) as (sf & HL & P1 & P2).
    exists sf. split; [exact HL|]. apply (code_always_walked_by eh cie); try assumption.
    intros d a st base cfa ra fp D1 D2 D3 R u. destruct (P1 (cie d) d a D1 (Hp d D1) D2) as (st' & u' & U1 & U2 & U3 & U4).
    assert (st' = st) as -> by congruence. rewrite Ha in U3. apply U3 in R. subst u'. split; [apply U4|intros ->; exact U2].
  - destruct (std_program_preserved md md' op eh s e bs Ht H B Hgood) as (P1 & P2). apply (code_always_walked_by eh cie); try assumption.
    + intros d a st base cfa ra fp D1 D2 D3 R u. destruct (P1 (cie d) d a D1 (Hp d D1) D2) as (st' & u' & U1 & U2 & U3 & U4).
      assert (st' = st) as -> by congruence. rewrite Ha in U3. apply U3 in R. subst u'.
      split; [intros T; exact (proj2 (U4 _ _ T))|intros ->; exact U2].
    + intros a u. apply P2.
Qed.

Theorem v1_code_walks md md' md'' p eh s e bs cie fs :
  eh_typed eh -> v1_convert md p (eh_entries eh) = Ok s -> build md' e s = Ok bs -> wf_mode md'' -> rust_slice md'' bs ->
  programs_followed eh cie -> (forall d, last_at eh d -> v1_unconfused (cie d) d /\ advances (cie d) d) ->
  (forall f, In f fs -> checked f) -> routines_apart fs -> code_described eh cie fs ->
  (exists sf, load md'' e bs = Ok sf /\ code_always_walked eh fs (section_says md'' e sf)) /\ code_always_walked eh fs (std_tells e bs).
Proof.
  intros Ht H B Hm Hs Hp Hg HW HA HD. assert (Te : ents_typed (eh_entries eh)) by exact Ht.
  assert (Hgood : forall f, v1_last (eh_entries eh) f -> (exists c, follows_dwarf c f) /\ forall r, In r (dw_rows_of f) -> ~ v1_clash r).
  { intros f Hf. split; [exists (cie f); apply Hp, Hf|]. intros r Hr. destruct (Hg f Hf) as (G1 & G2).
    apply (v1_follows_clash (cie f) f r (last_len _ _ Ht Hf) (Hp f Hf) G2 G1 Hr). }
  split.
  - destruct (v1_program_preserved md md' md'' p (eh_entries eh) s e bs Te H B Hm Hs Hgood) as (sf & HL & P1 & P2).
    exists sf. split; [exact HL|]. apply (code_always_walked_by eh cie); try assumption.
    intros d a st base cfa ra fp D1 D2 D3 R u. destruct (P1 (cie d) d a D1 (Hp d D1) D2) as (st' & u' & U1 & U2 & U3 & _ & U4).
    assert (st' = st) as -> by congruence. apply v1_of_representable, U3 in R. subst u'. split; [apply U4|intros ->; exact U2].
  - destruct (std_v1_preserved md md' p (eh_entries eh) s e bs Te H B Hgood) as (P1 & P2). apply (code_always_walked_by eh cie); try assumption.
    + intros d a st base cfa ra fp D1 D2 D3 R u. destruct (P1 (cie d) d a D1 (Hp d D1) D2) as (st' & u' & U1 & U2 & U3 & _ & U4).
      assert (st' = st) as -> by congruence. apply v1_of_representable, U3 in R. subst u'.
      split; [intros T; exact (proj2 (U4 _ _ T))|intros ->; exact U2].
    + intros a u. apply P2.
Qed.

(** Ordinary programs (C124) are converted and built. *)
Theorem code_converted md md' op eh e cie fs :
  eh_typed eh -> op_arch op = Amd64 -> ents_end (eh_entries eh) = None ->
  (forall x, In x (entries_of eh) -> match x with DwCie => True | DwBadFde _ => False
     | DwGoodFde f => ordinary op eh f /\ dump_fine md op f end) ->
  apart eh -> countable (function_count eh) (table_rows eh) ->
  (forall c d, last_at eh d -> follows_dwarf c d -> unconfused Amd64 (fixed_ra_of op eh) c d) ->
  programs_followed eh cie -> (forall f, In f fs -> checked f) -> routines_apart fs -> code_described eh cie fs ->
  exists s bs, dwarf2sframe md op eh = Ok s /\ build md' e s = Ok bs /\ code_always_walked eh fs (std_tells e bs) /\
    forall md'', wf_mode md'' -> rust_slice md'' bs -> exists sf, load md'' e bs = Ok sf /\ code_always_walked eh fs (section_says md'' e sf).
Proof.
  intros HT Ha He Hx Hap Hc Hu Hp HC HA HD. rewrite <- Ha in Hu.
  destruct (ordinary_section md md' op eh e HT He Hx Hap Hc Hu) as (s & bs & H1 & H2 & _). rewrite Ha in Hu.
  assert (HU' : forall d, last_at eh d -> unconfused Amd64 (fixed_ra_of op eh) (cie d) d) by (intros d Hd; apply Hu; [exact Hd|apply Hp, Hd]).
  exists s, bs. split; [exact H1|]. split; [exact H2|]. split.
  - destruct (conv_ordinary md md' op eh s e bs HT H1 H2) as (_ & Hs & _).
    apply (code_walks md md' rel64 op eh s e bs cie fs HT H1 Ha H2 wf_rel64 Hs Hp HU' HC HA HD).
  - intros md'' Hm Hs. apply (code_walks md md' md'' op eh s e bs cie fs HT H1 Ha H2 Hm Hs Hp HU' HC HA HD).
Qed.
