(** A program given by its instructions on AArch64 and its stack: proofs. *)
From Verif Require Export ArmCodeSpec.
From Verif Require Import BaseFacts ConvFacts CfiFacts CfiTotal RelateFacts StdConv WalkFacts ProgramFacts LookupFacts RunFacts ArmRunFacts.
Open Scope Z_scope.
Open Scope list_scope.

(** What is known is the case. *)
Definition afacts (strip : Z -> Z) (v : aview) (m : Z -> Z) (cfa ra fp0 sp fp lr : Z) : Prop :=
  0 <= sp <= cfa /\ cfa < 2 ^ 64 /\ canonical ra /\
  (forall a, av_sp v = Some a -> cfa = sp + a) /\ (forall b, av_fp v = Some b -> cfa = fp + b) /\
  (forall k, av_saved v = Some k -> m (cfa + k) = fp0 /\ sp <= cfa + k /\ k <= -8) /\
  (av_same v = true -> fp = fp0) /\
  (forall k sg, av_back v = Some (k, sg) -> un strip sg (m (cfa + k)) = ra /\ sp <= cfa + k /\ k <= -8) /\
  (forall sg, av_link v = Some sg -> un strip sg lr = ra).

Lemma afacts_less strip v v' m cfa ra fp0 sp fp lr : aclaims_less v v' -> afacts strip v m cfa ra fp0 sp fp lr -> afacts strip v' m cfa ra fp0 sp fp lr.
Proof.
  intros (L1 & L2 & L3 & L4 & L5 & L6) (F1 & F2 & F3 & F4 & F5 & F6 & F7 & F8 & F9). unfold afacts. split; [exact F1|]. split; [exact F2|]. split; [exact F3|]. auto 10.
Qed.
Lemma in_slots v k : In k (slots v) <-> av_saved v = Some k \/ exists sg, av_back v = Some (k, sg).
Proof.
  unfold slots. rewrite in_app_iff. split.
  - intros [H|H]; [destruct (av_saved v) as [a|]; [|destruct H]|destruct (av_back v) as [[b sg]|]; [|destruct H]]; destruct H as [<-|[]]; [left; reflexivity|right; eauto].
  - intros [H|[sg H]]; rewrite H; [left|right]; left; reflexivity.
Qed.
(** The saved words have not been written to. *)
Lemma afacts_kept strip v m m' cfa ra fp0 sp fp lr : (forall k, In k (slots v) -> m' (cfa + k) = m (cfa + k)) ->
  afacts strip v m cfa ra fp0 sp fp lr -> afacts strip v m' cfa ra fp0 sp fp lr.
Proof.
  intros K (F1 & F2 & F3 & F4 & F5 & F6 & F7 & F8 & F9). unfold afacts. do 5 (split; [assumption|]). split; [|split; [exact F7|split; [|exact F9]]].
  - intros k E. rewrite K; [auto|]. apply in_slots. auto.
  - intros k sg E. rewrite K; [auto|]. apply in_slots. eauto.
Qed.
Lemma afacts_above strip v m cfa ra fp0 sp fp lr k : afacts strip v m cfa ra fp0 sp fp lr -> In k (slots v) -> sp <= cfa + k.
Proof. intros (F1 & F2 & F3 & F4 & F5 & F6 & F7 & F8 & F9) H. apply in_slots in H. destruct H as [H|[sg H]]; [apply F6, H|apply (F8 k sg), H]. Qed.

(** Fewer words. *)
Lemma only_saved p v k : av_saved (only p v) = Some k -> av_saved v = Some k /\ p k = true.
Proof. unfold only. cbn. destruct (av_saved v) as [a|]; [|discriminate]. destruct (p a) eqn:E; [|discriminate]. intros H. injection H as ->. auto. Qed.
Lemma only_back p v k sg : av_back (only p v) = Some (k, sg) -> av_back v = Some (k, sg) /\ p k = true.
Proof. unfold only. cbn. destruct (av_back v) as [[a s]|]; [|discriminate]. destruct (p a) eqn:E; [|discriminate]. intros H. injection H as -> ->. auto. Qed.

Lemma moved_to strip v m cfa ra fp0 sp fp lr a : afacts strip v m cfa ra fp0 sp fp lr -> 0 <= a -> a <= cfa ->
  afacts strip (move_to a v) m cfa ra fp0 (cfa - a) fp lr.
Proof.
  intros (F1 & F2 & F3 & F4 & F5 & F6 & F7 & F8 & F9) H0 H1. unfold move_to, afacts. split; [lia|]. split; [exact F2|]. split; [exact F3|].
  split; [intros a' E; injection E as <-; lia|]. split; [exact F5|]. split; [|split; [exact F7|split; [|exact F9]]].
  - intros k E. apply only_saved in E. cbn in E. destruct E as [E P]. apply Z.leb_le in P. destruct (F6 k E) as (K1 & K2 & K3). split; [exact K1|]. lia.
  - intros k sg E. apply only_back in E. cbn in E. destruct E as [E P]. apply Z.leb_le in P. destruct (F8 k sg E) as (K1 & K2 & K3). split; [exact K1|]. lia.
Qed.
Lemma overwritten strip v m m' cfa ra fp0 sp fp lr k x : afacts strip v m cfa ra fp0 sp fp lr -> stores (cfa + k) x m m' ->
  afacts strip (overwrite k v) m' cfa ra fp0 sp fp lr.
Proof.
  intros F [_ S]. apply (afacts_kept strip _ m).
  - intros j Hj. apply S. apply in_slots in Hj. destruct Hj as [E|[sg E]]; [apply only_saved in E|apply only_back in E]; destruct E as [_ P];
      apply orb_true_iff in P; destruct P as [P|P]; apply Z.leb_le in P; lia.
  - apply (afacts_less strip v); [|exact F]. split; [auto|]. split; [auto|]. split; [intros j E; apply only_saved in E; apply E|]. split; [auto|].
    split; [intros [j sg] E; apply only_back in E; apply E|auto].
Qed.

Section Program.
  Context (sign : Z -> Z -> Z) (strip : Z -> Z) (bias back : Z) (fs : list aroutine).
  Hypothesis HG : signs sign strip.
  Hypothesis HL : aroutines_low bias fs.
  Hypothesis HK : canonical back.
  Hypothesis HC : forall f, In f fs -> achecked f.
  Hypothesis HA : aroutines_apart fs.
  Hypothesis HB : forall f i, In f fs -> In i (ar_items f) -> bias + ar_start f + ai_at i <> back.

  Definition facts_of (v : aview) (x : athread) (cfa ra fp0 : Z) : Prop := afacts strip v (at_mem x) cfa ra fp0 (at_sp x) (at_fp x) (at_lr x).

  (** One operation: what is known after it is the case, and nothing above the frame is written. *)
  Lemma op_facts o v v' x y cfa ra fp0 : does sign strip o x y -> after_op o v = Some v' -> facts_of v x cfa ra fp0 ->
    facts_of v' y cfa ra fp0 /\ forall a, cfa <= a -> at_mem y a = at_mem x a.
  Proof.
    intros D E F. unfold facts_of in *. pose proof F as (F1 & F2 & F3 & F4 & F5 & F6 & F7 & F8 & F9).
    destruct D as [n pc sp fp lr m Hn|n pc sp fp lr m|n pc sp fp lr m Hn|d pc sp fp lr m m' S|d pc sp fp lr m m' S|d pc sp fp lr m|d pc sp fp lr m|pc sp fp lr m|pc sp fp lr m];
      cbn [at_sp at_fp at_lr at_mem after_op] in *.
    - (* move *) split; [|reflexivity]. destruct (av_sp v) as [a|] eqn:Ea.
      + destruct (Z.ltb_spec (a - n) 0); [discriminate|]. injection E as <-. specialize (F4 a eq_refl). replace (sp + n) with (cfa - (a - n)) by lia.
        apply (moved_to strip v m cfa ra fp0 sp); [exact F|lia|lia].
      + destruct (Z.leb_spec n 0); [|discriminate]. injection E as <-. unfold afacts. rewrite Ea. split; [lia|]. split; [exact F2|]. split; [exact F3|].
        split; [discriminate|]. split; [exact F5|]. split; [|split; [exact F7|split; [|exact F9]]].
        * intros k Ek. destruct (F6 k Ek) as (K1 & K2 & K3). split; [exact K1|lia].
        * intros k sg Ek. destruct (F8 k sg Ek) as (K1 & K2 & K3). split; [exact K1|lia].
    - (* frame *) split; [|reflexivity]. injection E as <-. unfold afacts. cbn. do 4 (split; [assumption|]). split; [|split; [exact F6|split; [discriminate|split; [exact F8|exact F9]]]].
      intros b Eb. destruct (av_sp v) as [a|]; [|discriminate]. injection Eb as <-. specialize (F4 a eq_refl). lia.
    - (* unframe *) split; [|reflexivity]. destruct (av_fp v) as [b|]; [|discriminate]. destruct (Z.ltb_spec (b + n) 0); [discriminate|]. injection E as <-.
      specialize (F5 b eq_refl). replace (fp - n) with (cfa - (b + n)) by lia. apply (moved_to strip v m cfa ra fp0 sp); [exact F|lia|lia].
    - (* store x29 *) destruct (av_sp v) as [a|] eqn:Ea; [|discriminate]. specialize (F4 a eq_refl). destruct ((d <? 0) || (a - d <? 8)) eqn:Ed; [discriminate|].
      apply orb_false_elim in Ed. destruct Ed as [D1 D2]. apply Z.ltb_ge in D1, D2. injection E as <-.
      replace (sp + d) with (cfa + (d - a)) in S by lia. pose proof (overwritten strip v m m' cfa ra fp0 sp fp lr _ _ F S) as O.
      split; [|intros b Hb; destruct S as [_ S]; apply S; lia].
      destruct O as (O1 & O2 & O3 & O4 & O5 & O6 & O7 & O8 & O9). unfold afacts. cbn [av_sp av_fp av_saved av_same av_back av_link].
      do 5 (split; [assumption|]). split; [|split; [exact O7|split; [exact O8|exact O9]]].
      intros k Ek. destruct (av_same v); [|apply O6, Ek]. injection Ek as <-. destruct S as [S _]. rewrite S. split; [apply F7; reflexivity|lia].
    - (* store x30 *) destruct (av_sp v) as [a|] eqn:Ea; [|discriminate]. specialize (F4 a eq_refl). destruct ((d <? 0) || (a - d <? 8)) eqn:Ed; [discriminate|].
      apply orb_false_elim in Ed. destruct Ed as [D1 D2]. apply Z.ltb_ge in D1, D2. injection E as <-.
      replace (sp + d) with (cfa + (d - a)) in S by lia. pose proof (overwritten strip v m m' cfa ra fp0 sp fp lr _ _ F S) as O.
      split; [|intros b Hb; destruct S as [_ S]; apply S; lia].
      destruct O as (O1 & O2 & O3 & O4 & O5 & O6 & O7 & O8 & O9). unfold afacts. cbn [av_sp av_fp av_saved av_same av_back av_link].
      do 5 (split; [assumption|]). split; [exact O6|split; [exact O7|split; [|exact O9]]].
      intros k sg Ek. destruct (av_link v) as [sg'|]; [|apply O8, Ek]. injection Ek as <- <-. destruct S as [S _]. rewrite S. split; [apply F9; reflexivity|lia].
    - (* load x29 *) split; [|reflexivity]. injection E as <-. unfold afacts. cbn. do 4 (split; [assumption|]). split; [discriminate|]. split; [exact F6|].
      split; [|split; [exact F8|exact F9]]. destruct (av_sp v) as [a|]; [|discriminate]. destruct (av_saved v) as [k|]; [|discriminate]. intros Ek. apply Z.eqb_eq in Ek.
      specialize (F4 a eq_refl). destruct (F6 k eq_refl) as (K1 & _). replace (sp + d) with (cfa + k) by lia. exact K1.
    - (* load x30 *) split; [|reflexivity]. injection E as <-. unfold afacts. cbn. do 8 (split; [assumption|]).
      intros sg Es. destruct (av_sp v) as [a|]; [|discriminate]. destruct (av_back v) as [[k sg']|]; [|discriminate]. destruct (Z.eqb_spec k (d - a)); [|discriminate]. injection Es as ->.
      specialize (F4 a eq_refl). destruct (F8 k sg eq_refl) as (K1 & _). replace (sp + d) with (cfa + k) by lia. exact K1.
    - (* sign *) split; [|reflexivity]. injection E as <-. unfold afacts. cbn. do 8 (split; [assumption|]).
      intros sg Es. destruct (av_link v) as [[|]|]; try discriminate. injection Es as <-. specialize (F9 false eq_refl). cbn in F9 |- *. subst lr. apply HG, F3.
    - (* auth *) split; [|reflexivity]. injection E as <-. unfold afacts. cbn. do 8 (split; [assumption|]).
      intros sg Es. destruct (av_link v) as [[|]|]; try discriminate. injection Es as <-. exact (F9 true eq_refl).
  Qed.
  Lemma ops_facts l x y : does_all sign strip l x y -> forall v v' cfa ra fp0, after_ops l v = Some v' -> facts_of v x cfa ra fp0 ->
    facts_of v' y cfa ra fp0 /\ forall a, cfa <= a -> at_mem y a = at_mem x a.
  Proof.
    induction 1 as [x|o l x y z D R IH]; intros v v' cfa ra fp0 E F; cbn in E.
    - injection E as <-. auto.
    - destruct (after_op o v) as [u|] eqn:Eu; [|discriminate]. destruct (op_facts o v u x y cfa ra fp0 D Eu F) as [G1 G2].
      destruct (IH u v' cfa ra fp0 E G1) as [I1 I2]. split; [exact I1|]. intros a Ha. rewrite I2, G2 by exact Ha. reflexivity.
  Qed.

  (** The callers; what [x30] was does not matter. *)
  Inductive astacked (m : Z -> Z) : list lk_frame -> Prop :=
  | astacked_bottom s p : 0 <= s < 2 ^ 64 -> astacked m [caller back s p]
  | astacked_more f i s p cfa ra fp0 lr t : In f fs -> In i (ar_items f) -> ai_act i = ACall ->
      afacts strip (ar_view f (ai_at i)) m cfa ra fp0 s p lr -> astacked m (caller ra cfa fp0 :: t) ->
      astacked m (caller (bias + ar_start f + (ai_at i + 4)) s p :: caller ra cfa fp0 :: t).

  Inductive ainstant : list lk_frame -> athread -> Prop :=
  | ainstant_over sp fp lr m : ainstant [] (AThread back sp fp lr m)
  | ainstant_in f o sp fp lr m cfa ra fp0 t : In f fs -> (exists i, In i (ar_items f) /\ ai_at i = o) ->
      afacts strip (ar_view f o) m cfa ra fp0 sp fp lr -> astacked m (caller ra cfa fp0 :: t) ->
      ainstant (caller ra cfa fp0 :: t) (AThread (bias + ar_start f + o) sp fp lr m).

  Lemma aitem_in f i : In f fs -> In i (ar_items f) -> 0 <= ai_at i /\ ai_at i + 4 <= ar_len f /\ aitem_checked f i.
  Proof. intros Hf Hi. apply (HC f Hf). exact Hi. Qed.
  Lemma acall_view f i : In f fs -> In i (ar_items f) -> ai_act i = ACall ->
    ar_view f (ai_at i + 4) = ar_view f (ai_at i) /\ av_link (ar_view f (ai_at i)) = None /\ exists j, In j (ar_items f) /\ ai_at j = ai_at i + 4.
  Proof.
    intros Hf Hi Ha. destruct (aitem_in f i Hf Hi) as (_ & _ & (v & _ & N) & K). rewrite Ha in K. destruct K as [K1 K2].
    split; [exact K1|]. split; [exact K2|]. apply N. unfold anext_of. rewrite Ha. left. reflexivity.
  Qed.
  Lemma astacked_bound m c t : astacked m (c :: t) -> 0 <= lx_sp c < 2 ^ 64 /\ canonical (lx_pc c).
  Proof.
    intros H. inversion H as [s p Hs|f i s p cfa ra fp0 lr t' Hf Hi Ha (F1 & F2 & _) HS]; subst; cbn; [split; [lia|exact HK]|]. split; [lia|].
    destruct (aitem_in f i Hf Hi) as (I1 & I2 & _). destruct (HL f Hf). unfold canonical. lia.
  Qed.

  (** Writing elsewhere leaves the stack as it is. *)
  Lemma astacked_guarded m m' c t : astacked m (c :: t) -> (forall a, aguarded bias fs (lx_pc c) t a -> m' a = m a) -> astacked m' (c :: t).
  Proof.
    revert c. induction t as [|d t IH]; intros c H G; inversion H as [s p Hs|f i s p cfa ra fp0 lr t' Hf Hi Ha HF HS]; subst; [constructor; assumption|].
    cbn in G. destruct (acall_view f i Hf Hi Ha) as (V1 & V2 & j & J1 & J2). destruct (aitem_in f j Hf J1) as (B1 & B2 & _).
    apply (astacked_more m' f i s p cfa ra fp0 lr); try assumption.
    - apply (afacts_kept strip _ m); [|exact HF]. intros k K. apply G.
      apply (aguarded_slot bias fs _ (caller ra cfa fp0) t f (ai_at i + 4)); [exact Hf|reflexivity|lia|rewrite V1; exact K].
    - apply IH; [exact HS|]. intros a Ga. apply G, aguarded_outer, Ga.
  Qed.
  (** All guarded words of a stack lie at or above its stack pointer. *)
  Lemma astacked_above m c t : astacked m (c :: t) -> forall a, aguarded bias fs (lx_pc c) t a -> lx_sp c <= a.
  Proof.
    revert c. induction t as [|d t IH]; intros c H a G; inversion H as [s p Hs|f i s p cfa ra fp0 lr t' Hf Hi Ha HF HS]; subst; cbn in G |- *; [inversion G|].
    pose proof HF as (F1 & F2 & _). destruct (acall_view f i Hf Hi Ha) as (V1 & V2 & j & J1 & J2). destruct (aitem_in f j Hf J1) as (B1 & B2 & _).
    inversion G as [pc c st g o k Hg Ep Ho Ek|pc c st a' G']; subst; cbn.
    - assert (f = g) by (apply (HA f g (ar_start f + (ai_at i + 4))); [assumption|assumption|lia|lia]). subst g.
      assert (o = ai_at i + 4) by lia. subst o. rewrite V1 in Ek. apply (afacts_above _ _ _ _ _ _ _ _ _ k HF Ek).
    - specialize (IH _ HS a G'). cbn in IH. lia.
  Qed.
  Lemma astacked_kept m m' c t : astacked m (c :: t) -> (forall a, lx_sp c <= a -> m' a = m a) -> astacked m' (c :: t).
  Proof. intros H K. apply (astacked_guarded m); [exact H|]. intros a G. apply K, (astacked_above m c t H a G). Qed.

  Lemma aentered g sp fp lr m t : In g fs -> astacked m (caller lr sp fp :: t) ->
    ainstant (caller lr sp fp :: t) (AThread (bias + ar_start g + 0) sp fp lr m).
  Proof.
    intros Hg HS. destruct (HC g Hg) as (_ & Hi & Hv). destruct (astacked_bound _ _ _ HS) as [B1 B2]. cbn in B1, B2.
    apply ainstant_in; [exact Hg|exact Hi| |exact HS]. apply (afacts_less strip entry_view _ _ _ _ _ _ _ _ Hv). unfold afacts, entry_view. cbn.
    split; [lia|]. split; [lia|]. split; [exact B2|]. split; [intros a Ea; injection Ea as <-; lia|]. split; [discriminate|]. split; [discriminate|].
    split; [reflexivity|]. split; [discriminate|]. intros sg E. injection E as <-. reflexivity.
  Qed.
  Lemma abegins_ainstant s0 : abegins bias fs back s0 -> ainstant (fst s0) (snd s0).
  Proof. intros (f & sp & fp & m & Hf & H0 & ->). cbn. apply aentered; [exact Hf|constructor; exact H0]. Qed.

  (** A thread at an instruction of [f]. *)
  Lemma ainstant_at f i st sp fp lr m : In f fs -> In i (ar_items f) -> ainstant st (AThread (bias + ar_start f + ai_at i) sp fp lr m) ->
    exists cfa ra fp0 t, st = caller ra cfa fp0 :: t /\ afacts strip (ar_view f (ai_at i)) m cfa ra fp0 sp fp lr /\ astacked m st.
  Proof.
    intros Hf Hi H. inversion H as [sp' fp' lr' m' E1 E2|g o sp' fp' lr' m' cfa ra fp0 t Hg (j & Hj & Ej) HF HS E1 E2].
    - exfalso. apply (HB f i Hf Hi). congruence.
    - subst sp' fp' lr' m'. destruct (aitem_in f i Hf Hi) as (I1 & I2 & _). destruct (aitem_in g j Hg Hj) as (J1 & J2 & _).
      assert (f = g) by (apply (HA f g (ar_start f + ai_at i)); [assumption|assumption|lia|lia]). subst g.
      assert (o = ai_at i) by lia. subst o. rewrite H0 in *. exists cfa, ra, fp0, t. auto.
  Qed.
  Lemma ainstant_next f i o v sp fp lr m cfa ra fp0 t : In f fs -> In i (ar_items f) ->
    after_aact (ai_act i) (ar_view f (ai_at i)) = Some v -> In o (anext_of i) -> afacts strip v m cfa ra fp0 sp fp lr ->
    astacked m (caller ra cfa fp0 :: t) -> ainstant (caller ra cfa fp0 :: t) (AThread (bias + ar_start f + o) sp fp lr m).
  Proof.
    intros Hf Hi Hv Ho HF HS. destruct (aitem_in f i Hf Hi) as (_ & _ & (v' & V1 & V2) & _). assert (v' = v) by congruence. subst v'.
    destruct (V2 o Ho) as [W1 W2]. apply ainstant_in; [exact Hf|exact W2|apply (afacts_less strip v _ _ _ _ _ _ _ _ W1 HF)|exact HS].
  Qed.

  Lemma aacts_ainstant s s' : ainstant (fst s) (snd s) -> aacts sign strip bias fs s s' -> ainstant (fst s') (snd s').
  Proof.
    intros HM Hs. destruct Hs as [st f i l sp fp lr m y Hf Hi Ha D|st f i st' ft lt next o sp sp' fp fp' lr lr' m m' Hf Hi Ha Ho Hsp Hfp Hlr H0' HW
      |st f g i sp fp lr m Hf Hg Hi Ha|c0 st f i sp fp lr m Hf Hi Ha|st f g i sp fp lr m Hf Hg Hi Ha]; cbn in HM |- *;
      destruct (ainstant_at f i st sp fp lr m Hf Hi HM) as (cfa & ra & fp0 & t & -> & HF & HS) || destruct (ainstant_at f i (c0 :: st) sp fp lr m Hf Hi HM) as (cfa & ra & fp0 & t & Est & HF & HS);
      destruct (aitem_in f i Hf Hi) as (I1 & I2 & (v & V1 & V2) & VK); pose proof HF as (F1 & F2 & F3 & F4 & F5 & F6 & F7 & F8 & F9);
      pose proof V1 as V1'; rewrite Ha in V1'; cbn [after_aact] in V1'; rewrite Ha in VK.
    - (* operations *)
      destruct (ops_facts l _ y D _ v cfa ra fp0 V1' HF) as [G1 G2].
      apply (ainstant_next f i _ v); [exact Hf|exact Hi|exact V1|unfold anext_of; rewrite Ha; left; reflexivity|exact G1|].
      apply (astacked_kept m); [exact HS|]. intros a La. apply G2, La.
    - (* anything else *)
      assert (Ek : forall k, In k (slots (ar_view f (ai_at i))) -> m' (cfa + k) = m (cfa + k) /\ (st' = true -> sp' <= cfa + k)).
      { intros k Ek. apply HW. apply (aguarded_slot bias fs _ (caller ra cfa fp0) t f (ai_at i)); [exact Hf|reflexivity|lia|exact Ek]. }
      apply (ainstant_next f i _ v); [exact Hf|exact Hi|exact V1|unfold anext_of; rewrite Ha; exact Ho| |].
      2: { apply (astacked_guarded m); [exact HS|]. intros a Ga. apply HW, aguarded_outer, Ga. }
      assert (Bd : 0 <= sp' <= cfa /\ forall k, In k (slots (ar_view f (ai_at i))) -> sp' <= cfa + k).
      { destruct st'; [split; [cbn in H0'; apply H0'; reflexivity|intros k Hk; apply Ek; [exact Hk|reflexivity]]|].
        rewrite (Hsp eq_refl). split; [lia|]. intros k Hk. exact (afacts_above _ _ _ _ _ _ _ _ _ k HF Hk). }
      destruct Bd as [Bd1 Bd2]. injection V1' as <-. unfold afacts. cbn [av_sp av_fp av_saved av_same av_back av_link].
      split; [lia|]. split; [exact F2|]. split; [exact F3|].
      split; [destruct st'; [discriminate|rewrite (Hsp eq_refl); exact F4]|].
      split; [destruct ft; [discriminate|rewrite (Hfp eq_refl); exact F5]|].
      split; [intros k E; assert (Hk : In k (slots (ar_view f (ai_at i)))) by (apply in_slots; auto); rewrite (proj1 (Ek k Hk)); destruct (F6 k E) as (K1 & _ & K3); auto|].
      split; [destruct ft; [discriminate|rewrite (Hfp eq_refl); exact F7]|].
      split; [intros k sg E; assert (Hk : In k (slots (ar_view f (ai_at i)))) by (apply in_slots; eauto); rewrite (proj1 (Ek k Hk)); destruct (F8 k sg E) as (K1 & _ & K3); auto|].
      destruct lt; [discriminate|rewrite (Hlr eq_refl); exact F9].
    - (* call *)
      apply aentered; [exact Hg|]. apply (astacked_more m f i sp fp cfa ra fp0 lr); assumption.
    - (* ret *)
      destruct VK as (U1 & U2 & U3). specialize (F4 0 U1). specialize (F7 U2). specialize (F9 false U3). cbn in F9. injection Est as -> ->. subst ra fp0.
      replace cfa with sp in * by lia.
      inversion HS as [s p Hs E1|g j s p cfa' ra' fp0' lr' t' Hg Hj Hb HF' HS' E1].
      + rewrite <- E1. apply ainstant_over.
      + destruct (acall_view g j Hg Hj Hb) as (W1 & W2 & W3). apply ainstant_in; [exact Hg|exact W3|rewrite W1|exact HS'].
        destruct HF' as (X1 & X2 & X3 & X4 & X5 & X6 & X7 & X8 & _). unfold afacts. do 8 (split; [assumption|]). rewrite W2. discriminate.
    - (* jump *)
      destruct VK as (U1 & U2 & U3). specialize (F4 0 U1). specialize (F7 U2). specialize (F9 false U3). cbn in F9. subst ra fp0.
      replace cfa with sp in * by lia. apply aentered; [exact Hg|exact HS].
  Qed.

  Theorem agoes_ainstant s0 s : abegins bias fs back s0 -> agoes sign strip bias fs s0 s -> ainstant (fst s) (snd s).
  Proof. intros H0 R. induction R as [|s s' R IH M]; [apply abegins_ainstant, H0|apply (aacts_ainstant s s' IH M)]. Qed.

  (** ** Walks *)

  Context (eh : eh_frame) (tells : Z -> unwind -> Prop) (w : world) (x : athread).
  Definition atold (f : aroutine) (i : aitem) : Prop := forall b, ai_at i <= b < ai_at i + 4 ->
    exists base mg cfa ra fp, (forall u, tells (ar_start f + b) u <-> u = Unwind base mg (Some cfa) ra fp) /\
      match base with Sp => av_sp (ar_view f (ai_at i)) = Some cfa | Fp => av_fp (ar_view f (ai_at i)) = Some cfa end /\
      match fp with Some k => av_saved (ar_view f (ai_at i)) = Some k | None => av_same (ar_view f (ai_at i)) = true end /\
      match ra with Some k => av_back (ar_view f (ai_at i)) = Some (k, mg) | None => av_link (ar_view f (ai_at i)) = Some mg end.
  Hypothesis HTs : forall f i, In f fs -> In i (ar_items f) -> on_stack f i -> atold f i.
  Hypothesis HT1 : forall f i, In f fs -> In i (ar_items f) -> at_pc x = bias + ar_start f + ai_at i -> atold f i.
  Hypothesis HN : forall a u, tells a u -> exists d, last_at eh d /\ in_range (df_start d) (df_len d) a.
  Hypothesis HO : forall d, last_at eh d -> ~ in_range (df_start d) (df_len d) (back - bias) /\
    ~ in_range (df_start d) (df_len d) (back - bias - 1).
  Hypothesis HS : asees strip bias w x.

  Lemma astep_known y f i b cfa ra fp0 s p lr : In f fs -> In i (ar_items f) -> atold f i -> ai_at i <= b < ai_at i + 4 ->
    w_look w (lx_first y) (lx_pc y) = ar_start f + b -> lx_sp y = s -> lx_fp y = Some p ->
    (lx_lr y = Some lr \/ av_link (ar_view f (ai_at i)) = None) ->
    afacts strip (ar_view f (ai_at i)) (at_mem x) cfa ra fp0 s p lr ->
    forall z, lk_step w tells y z <-> z = caller ra cfa fp0.
  Proof.
    intros Hf Hi Ht Hb El Es Ep Er (F1 & F2 & F3 & F4 & F5 & F6 & F7 & F8 & F9) z.
    destruct (Ht b Hb) as (base & mg & c & r & fp & D1 & D2 & D3 & D4).
    assert (B : exists q, lk_base y base = Some q /\ q + c = cfa).
    { destruct base; cbn [lk_base]; [exists p; split; [exact Ep|]; rewrite (F5 c D2); lia|exists s; split; [congruence|]; rewrite (F4 c D2); lia]. }
    destruct B as (q & B1 & B2).
    rewrite (astep_of strip bias [] eh tells w x (fun f o H => match H with end) (fun f o H => match H with end) HN HS y _ base mg c r fp q El D1 B1);
      [|lia|destruct r as [k|]; [|exact I]; destruct (F8 k mg D4) as (_ & K2 & K3); lia|destruct fp as [k|]; [|exact I]; destruct (F6 k D3) as (_ & K2 & K3); lia].
    rewrite B2. assert (Ef : match fp with Some o => Some (at_mem x (cfa + o)) | None => lx_fp y end = Some fp0).
    { destruct fp as [k|]; [destruct (F6 k D3) as (K1 & _); rewrite K1; reflexivity|]. rewrite Ep, (F7 D3). reflexivity. }
    assert (Ev : exists v, match r with Some o => Some (at_mem x (cfa + o)) | None => lx_lr y end = Some v /\ un strip mg v = ra).
    { destruct r as [k|]; [destruct (F8 k mg D4) as (K1 & _); eauto|]. destruct Er as [Er|Er]; [|congruence]. exists lr. split; [exact Er|apply F9, D4]. }
    destruct Ev as (v & Ev1 & Ev2). rewrite Ev1, Ef. unfold caller. split.
    - intros (v' & V & ->). injection V as <-. rewrite Ev2. reflexivity.
    - intros ->. exists v. rewrite Ev2. auto.
  Qed.

  Lemma astacked_walked c t : astacked (at_mem x) (c :: t) -> forall l, walk (lk_step w tells) c l <-> exists rest, t = l ++ rest.
  Proof.
    destruct HS as (_ & _ & _ & Hl). destruct (anothing_behind bias back eh tells HN HO) as [N1 N2]. revert c.
    induction t as [|d t IH]; intros c HH; inversion HH as [s p Hs E|f i s p cfa ra fp0 lr t' Hf Hi Ha HF HH' E]; subst; apply awalk_nil_or.
    - destruct (Hl back) as [E|E]; eapply astuck_at; [exact E|exact N1|exact E|exact N2].
    - split; [|apply IH, HH']. destruct (acall_view f i Hf Hi Ha) as (W1 & W2 & j & J1 & J2).
      destruct (Hl (bias + ar_start f + (ai_at i + 4))) as [E|E].
      + apply (astep_known _ f j (ai_at j) cfa ra fp0 s p lr Hf J1); [apply HTs; [exact Hf|exact J1|unfold on_stack; rewrite J2, W1; exact W2]|lia|cbn; rewrite E; lia|reflexivity|reflexivity
          |right; rewrite J2, W1; exact W2|rewrite J2, W1; exact HF].
      + apply (astep_known _ f i (ai_at i + 4 - 1) cfa ra fp0 s p lr Hf Hi); [apply HTs; [exact Hf|exact Hi|exact W2]|lia|cbn; rewrite E; lia|reflexivity|reflexivity
          |right; exact W2|exact HF].
  Qed.

  Theorem ainstant_walked st : ainstant st x -> awalked w tells st x.
  Proof.
    intros HM. unfold awalked. destruct HS as (_ & _ & Hl & _).
    inversion HM as [sp fp lr m E0 Ex|f o sp fp lr m cfa ra fp0 t Hf (i & Hi & Ei) HF HH E0 Ex];
      assert (Xm : at_mem x = m) by (rewrite <- Ex; reflexivity); cbn [frame_of_athread at_pc at_sp at_fp at_lr]; apply awalk_nil_or.
    - apply (astuck_at tells w _ (back - bias)); [cbn; apply Hl|apply (anothing_behind bias back eh tells HN HO)].
    - rewrite <- Xm in *. split; [|apply astacked_walked, HH]. subst o.
      apply (astep_known _ f i (ai_at i) cfa ra fp0 sp fp lr Hf Hi); [apply HT1; [exact Hf|exact Hi|rewrite <- Ex; reflexivity]|lia|cbn; rewrite Hl; lia|reflexivity|reflexivity
        |left; reflexivity|exact HF].
  Qed.
End Program.

(** ** With the converters *)

Lemma acode_walked_by eh cie fs ok tells : (forall f, In f fs -> achecked f) -> aroutines_apart fs -> acode_described eh cie fs ->
  (forall f i, In f fs -> In i (ar_items f) -> ok f i \/ on_stack f i -> atold tells f i) ->
  (forall a u, tells a u -> exists d, last_at eh d /\ in_range (df_start d) (df_len d) a) ->
  acode_walked eh fs ok tells.
Proof.
  intros HC HA HD HT HN sign strip bias back s0 st x w HG HL HK H0 R HS HO Hok.
  assert (HB : forall f i, In f fs -> In i (ar_items f) -> bias + ar_start f + ai_at i <> back).
  { intros f i Hf Hi E. destruct (HD f i (ai_at i) Hf Hi ltac:(lia)) as (d & _ & D1 & D2 & _).
    replace (ar_start f + ai_at i) with (back - bias) in D2 by lia. destruct (HO d D1). contradiction. }
  apply (ainstant_walked strip bias back fs HC HB eh tells w x); try assumption.
  - intros f i Hf Hi Hs. apply HT; auto.
  - intros f i Hf Hi E. apply HT; auto.
  - exact (agoes_ainstant sign strip bias back fs HG HL HK HC HA HB s0 (st, x) H0 R).
Qed.
