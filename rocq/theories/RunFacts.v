(** A running program and its stack: proofs. *)
From Verif Require Export RunSpec.
From Verif Require Import BaseFacts ConvFacts CfiFacts CfiTotal RelateFacts StdConv WalkFacts ProgramFacts LookupFacts.
Open Scope Z_scope.
Open Scope list_scope.

Lemma plus64_small x o : 0 <= x + o < 2 ^ 64 -> plus64 x o = x + o.
Proof. intros H. unfold plus64, as_u. apply Z.mod_small. exact H. Qed.

(** ** What is true at every moment *)

Section Program.
  Context (bias back : Z) (fs : list func).
  Hypothesis HW : forall f, In f fs -> fn_wf f.
  Hypothesis HA : functions_apart fs.
  Hypothesis HB : forall f, In f fs -> ~ fn_start f <= back - bias < fn_start f + fn_len f.

  (** A frame in the body of [f] with the registers [s] and [p] was called from [c]. *)
  Definition links (f : func) (m : Z -> Z) (s p : Z) (c : sf_frame) : Prop :=
    match fn_kind f with
    | WithFp _ => s <= p /\ sx_fp c = Some (m p) /\ sx_pc c = m (p + 8) /\ sx_sp c = p + 16
    | WithoutFp room _ => sx_pc c = m (s + room) /\ sx_sp c = s + room + 8 /\ sx_fp c = Some p
    end.

  Inductive chain (m : Z -> Z) : list sf_frame -> Prop :=
  | chain_bottom s p : 0 <= s < 2 ^ 64 -> chain m [SfFrame false back s (Some p)]
  | chain_more f j s p d t : In f fs -> 1 <= j <= fn_body f -> 0 <= s -> links f m s p d -> chain m (d :: t) ->
      chain m (SfFrame false (bias + fn_start f + fn_first f + j) s (Some p) :: d :: t).

  Lemma links_up f m s p c : In f fs -> links f m s p c -> s + 8 <= sx_sp c.
  Proof. intros Hf. apply HW in Hf. unfold fn_wf in Hf. unfold links. destruct (fn_kind f); lia. Qed.
  Lemma chain_bound m c t : chain m (c :: t) -> 0 <= sx_sp c < 2 ^ 64.
  Proof.
    revert c. induction t as [|d t IH]; intros c H; inversion H; subst; cbn; [lia|].
    match goal with H1 : chain m (d :: t) |- _ => specialize (IH _ H1) end.
    match goal with H1 : In ?f fs, H2 : links ?f _ _ _ _ |- _ => pose proof (links_up f _ _ _ _ H1 H2) end. lia.
  Qed.
  Lemma links_kept f m m' s p c lo : In f fs -> links f m s p c -> kept lo m m' -> lo <= s -> links f m' s p c.
  Proof.
    intros Hf H K L. apply HW in Hf. unfold fn_wf in Hf. unfold links in *. destruct (fn_kind f).
    - destruct H as (H1 & H2 & H3 & H4). rewrite !K by lia. auto.
    - destruct H as (H1 & H2 & H3). rewrite !K by lia. auto.
  Qed.
  Lemma chain_kept m m' lo c t : chain m (c :: t) -> kept lo m m' -> lo <= sx_sp c -> chain m' (c :: t).
  Proof.
    revert c. induction t as [|d t IH]; intros c H K L; inversion H; subst; cbn in L; [constructor; assumption|].
    match goal with H1 : In ?f fs, H2 : links ?f _ _ _ _, H3 : chain m (d :: t) |- _ =>
      pose proof (links_up f _ _ _ _ H1 H2); specialize (IH d H3 K ltac:(lia)) end.
    apply chain_more; try assumption. eapply links_kept; eassumption.
  Qed.

  Inductive moment : list sf_frame -> thread -> Prop :=
  | moment_over sp fp m : moment [] (Thread back sp fp m)
  | moment_edge f o c t sp fp m : In f fs -> o = 0 \/ o = fn_ret f -> 0 <= sp -> chain m (c :: t) ->
      c = SfFrame false (m sp) (sp + 8) (Some fp) ->
      (forall n, o = fn_ret f -> fn_kind f = WithFp n -> 8 <= sp /\ m (sp - 8) = fp) ->
      moment (c :: t) (Thread (bias + fn_start f + o) sp fp m)
  | moment_pushed f n c t sp fp m : In f fs -> fn_kind f = WithFp n -> 0 <= sp -> chain m (c :: t) ->
      c = SfFrame false (m (sp + 8)) (sp + 16) (Some fp) -> m sp = fp ->
      moment (c :: t) (Thread (bias + fn_start f + 1) sp fp m)
  | moment_body f j c t sp fp m : In f fs -> 0 <= j <= fn_body f -> 0 <= sp -> chain m (c :: t) -> links f m sp fp c ->
      moment (c :: t) (Thread (bias + fn_start f + fn_first f + j) sp fp m).

  Lemma chain_first m c t : chain m (c :: t) -> sx_first c = false.
  Proof. intros H. inversion H; reflexivity. Qed.

  (** Where a thread is decides which function it is in. *)
  Lemma same_spot f g o o' : In f fs -> In g fs -> 0 <= o < fn_len f -> 0 <= o' < fn_len g ->
    bias + fn_start f + o = bias + fn_start g + o' -> f = g /\ o = o'.
  Proof.
    intros Hf Hg Ho Ho' E. assert (f = g) as ->; [|split; [reflexivity|lia]].
    apply (HA f g (fn_start f + o)); [assumption|assumption|lia|lia].
  Qed.

  Lemma starts_moment s0 : starts bias fs back s0 -> moment (fst s0) (snd s0).
  Proof.
    intros (f & sp & fp & m & Hf & H0 & H1 & E & ->). cbn. replace (bias + fn_start f) with (bias + fn_start f + 0) by lia.
    apply (moment_edge f 0); [exact Hf|left; reflexivity|exact H0|constructor; lia|rewrite E; reflexivity|].
    intros n En K. apply HW in Hf. unfold fn_wf, fn_ret in *. rewrite K in *. lia.
  Qed.

  Ltac kinds := unfold fn_len, fn_ret, fn_first, fn_body in *.

  (** The moments a thread at the distance [o] from the start of [f] can be in. *)
  Lemma moment_at f o st sp fp m : In f fs -> 0 <= o < fn_len f -> moment st (Thread (bias + fn_start f + o) sp fp m) ->
    exists c t, st = c :: t /\ 0 <= sp /\ chain m st /\
      ((o = 0 \/ o = fn_ret f) /\ c = SfFrame false (m sp) (sp + 8) (Some fp) /\
         (forall n, o = fn_ret f -> fn_kind f = WithFp n -> 8 <= sp /\ m (sp - 8) = fp) \/
       (o = 1 /\ (exists n, fn_kind f = WithFp n) /\ c = SfFrame false (m (sp + 8)) (sp + 16) (Some fp) /\ m sp = fp) \/
       (exists j, o = fn_first f + j /\ 0 <= j <= fn_body f /\ links f m sp fp c)).
  Proof.
    intros Hf Ho H. assert (Wf : fn_wf f) by (apply HW, Hf). inversion H as [sp' fp' m' E1 E2|g o' c t sp' fp' m' Hg Ho' H0 HC Ec HR E1 E2|g n c t sp' fp' m' Hg K H0 HC Ec Em E1 E2|g j c t sp' fp' m' Hg Hj H0 HC HL E1 E2].
    - exfalso. apply (HB f Hf). lia.
    - assert (Wg : fn_wf g) by (apply HW, Hg). destruct (same_spot f g o o') as [-> ->]; [assumption|assumption|assumption| |lia|].
      { unfold fn_wf in Wg. kinds. destruct (fn_kind g); lia. }
      exists c, t. split; [reflexivity|]. split; [exact H0|]. split; [exact HC|]. left. auto.
    - assert (Wg : fn_wf g) by (apply HW, Hg). destruct (same_spot f g o 1) as [-> ->]; [assumption|assumption|assumption| |lia|].
      { unfold fn_wf in Wg. kinds. rewrite K in *. lia. }
      exists c, t. split; [reflexivity|]. split; [exact H0|]. split; [exact HC|]. right. left. eauto.
    - assert (Wg : fn_wf g) by (apply HW, Hg). destruct (same_spot f g o (fn_first g + j)) as [-> ->]; [assumption|assumption|assumption| |lia|].
      { unfold fn_wf in Wg. kinds. destruct (fn_kind g); lia. }
      exists c, t. split; [reflexivity|]. split; [exact H0|]. split; [exact HC|]. right. right. eauto.
  Qed.

  Lemma moves_moment s s' : moment (fst s) (snd s) -> moves bias fs s s' -> moment (fst s') (snd s').
  Proof.
    intros HM Hs. destruct Hs as [st f n sp fp m m' Hf K Hsp Hm Hk|st f n sp fp m Hf K|st f n i j sp sp' fp m m' Hf K Hi Hj Hsp Hk|st f n sp fp m Hf K
      |st f room n sp fp m Hf K Hsp|st f room n i j sp fp m m' Hf K Hi Hj Hk|st f room n sp fp m Hf K
      |st f g i j sp fp m m' Hf Hg Hi Hj Hsp Hm Hk|c0 st f sp fp m Hf]; cbn in HM |- *;
      pose proof (HW f Hf) as Wf; unfold fn_wf in Wf; try rewrite K in Wf.
    - (* push *)
      replace (bias + fn_start f) with (bias + fn_start f + 0) in HM by lia.
      apply moment_at in HM; [|exact Hf|kinds; rewrite K; lia].
      destruct HM as (c & t & -> & H0 & HC & [(_ & -> & _)|[(E & _)|(j & E & Hj & _)]]); [|lia|kinds; rewrite K in *; lia].
      apply (moment_pushed f n); [exact Hf|exact K|lia| | |exact Hm].
      + eapply chain_kept; [exact HC|exact Hk|cbn; lia].
      + replace (sp - 8 + 8) with sp by lia. replace (sp - 8 + 16) with (sp + 8) by lia. rewrite Hk by lia. reflexivity.
    - (* mov *)
      apply moment_at in HM; [|exact Hf|kinds; rewrite K; lia].
      destruct HM as (c & t & -> & H0 & HC & [([E|E] & _)|[(_ & _ & -> & E)|(j & E & Hj & _)]]); [lia|kinds; rewrite K in *; lia| |kinds; rewrite K in *; lia].
      replace (bias + fn_start f + 4) with (bias + fn_start f + fn_first f + 0) by (kinds; rewrite K; lia).
      apply moment_body; [exact Hf|kinds; rewrite K; lia|exact H0|exact HC|].
      unfold links. rewrite K. cbn. rewrite E. split; [lia|]. auto.
    - (* an instruction of the body *)
      replace (bias + fn_start f + 4 + i) with (bias + fn_start f + (4 + i)) in HM by lia.
      apply moment_at in HM; [|exact Hf|kinds; rewrite K; lia].
      destruct HM as (c & t & -> & H0 & HC & [([E|E] & _)|[(E & _)|(k & E & Hk' & HL)]]); [lia|kinds; rewrite K in *; lia|lia|].
      replace (bias + fn_start f + 4 + j) with (bias + fn_start f + fn_first f + j) by (kinds; rewrite K; lia).
      unfold links in HL. rewrite K in HL. destruct HL as (L1 & L2 & L3 & L4).
      apply moment_body; [exact Hf|kinds; rewrite K; lia|lia| |].
      + eapply chain_kept; [exact HC|exact Hk|lia].
      + unfold links. rewrite K. rewrite !Hk by lia. split; [lia|]. auto.
    - (* leave *)
      replace (bias + fn_start f + 4 + n) with (bias + fn_start f + (4 + n)) in HM by lia.
      apply moment_at in HM; [|exact Hf|kinds; rewrite K; lia].
      destruct HM as (c & t & -> & H0 & HC & [([E|E] & _)|[(E & _)|(k & E & Hk' & HL)]]); [lia|kinds; rewrite K in *; lia|lia|].
      unfold links in HL. rewrite K in HL. destruct HL as (L1 & L2 & L3 & L4).
      replace (bias + fn_start f + 5 + n) with (bias + fn_start f + fn_ret f) by (kinds; rewrite K; lia).
      apply moment_edge; [exact Hf|right; reflexivity|lia|exact HC| |].
      + pose proof (chain_first _ _ _ HC) as F. destruct c as [c1 c2 c3 c4]. cbn in *. subst.
        f_equal; try lia.
      + intros n' _ _. replace (fp + 8 - 8) with fp by lia. split; [lia|reflexivity].
    - (* sub *)
      replace (bias + fn_start f) with (bias + fn_start f + 0) in HM by lia.
      apply moment_at in HM; [|exact Hf|kinds; rewrite K; lia].
      destruct HM as (c & t & -> & H0 & HC & [(_ & -> & _)|[(E & _)|(j & E & Hj & _)]]); [|lia|kinds; rewrite K in *; lia].
      replace (bias + fn_start f + 7) with (bias + fn_start f + fn_first f + 0) by (kinds; rewrite K; lia).
      apply moment_body; [exact Hf|kinds; rewrite K; lia|lia|exact HC|].
      unfold links. rewrite K. cbn. replace (sp - room + room) with sp by lia. auto.
    - (* an instruction of the body *)
      replace (bias + fn_start f + 7 + i) with (bias + fn_start f + (7 + i)) in HM by lia.
      apply moment_at in HM; [|exact Hf|kinds; rewrite K; lia].
      destruct HM as (c & t & -> & H0 & HC & [([E|E] & _)|[(E & _)|(k & E & Hk' & HL)]]); [lia|kinds; rewrite K in *; lia|lia|].
      replace (bias + fn_start f + 7 + j) with (bias + fn_start f + fn_first f + j) by (kinds; rewrite K; lia).
      unfold links in HL. rewrite K in HL. destruct HL as (L1 & L2 & L3).
      apply moment_body; [exact Hf|kinds; rewrite K; lia|lia| |].
      + eapply chain_kept; [exact HC|exact Hk|lia].
      + unfold links. rewrite K. rewrite !Hk by lia. auto.
    - (* add *)
      replace (bias + fn_start f + 7 + n) with (bias + fn_start f + (7 + n)) in HM by lia.
      apply moment_at in HM; [|exact Hf|kinds; rewrite K; lia].
      destruct HM as (c & t & -> & H0 & HC & [([E|E] & _)|[(E & _)|(k & E & Hk' & HL)]]); [lia|kinds; rewrite K in *; lia|lia|].
      unfold links in HL. rewrite K in HL. destruct HL as (L1 & L2 & L3).
      replace (bias + fn_start f + 14 + n) with (bias + fn_start f + fn_ret f) by (kinds; rewrite K; lia).
      apply moment_edge; [exact Hf|right; reflexivity|lia|exact HC| |].
      + pose proof (chain_first _ _ _ HC) as F. destruct c as [c1 c2 c3 c4]. cbn in *. subst. reflexivity.
      + intros n' _ K'. rewrite K in K'. discriminate.
    - (* call *)
      replace (bias + fn_start f + fn_first f + i) with (bias + fn_start f + (fn_first f + i)) in HM by lia.
      apply moment_at in HM; [|exact Hf|kinds; destruct (fn_kind f); lia].
      destruct HM as (c & t & -> & H0 & HC & [([E|E] & _)|[(E & _)|(k & E & Hk' & HL)]]); [kinds; destruct (fn_kind f); lia|kinds; destruct (fn_kind f); lia|kinds; destruct (fn_kind f); lia|].
      assert (k = i) by lia. subst k. pose proof (links_up f _ _ _ _ Hf HL) as U.
      replace (bias + fn_start g) with (bias + fn_start g + 0) by lia.
      apply (moment_edge g 0); [exact Hg|left; reflexivity|lia| | |].
      + apply chain_more; [exact Hf|lia|lia|eapply links_kept; [exact Hf|exact HL|exact Hk|lia]|].
        eapply chain_kept; [exact HC|exact Hk|lia].
      + rewrite Hm. replace (sp - 8 + 8) with sp by lia. reflexivity.
      + intros n' E' K'. apply HW in Hg. unfold fn_wf in Hg. kinds. rewrite K' in *. lia.
    - (* ret *)
      apply moment_at in HM; [|exact Hf|kinds; destruct (fn_kind f); lia].
      destruct HM as (c & t & Ec & H0 & HC & [(_ & -> & _)|[(E & (n & K) & _)|(k & E & Hk' & HL)]]); [|kinds; rewrite K in *; lia|kinds; destruct (fn_kind f); lia].
      injection Ec as -> ->. inversion HC as [s p Hs E1|g j s p d t' Hg Hj Hs HL HC' E1].
      + rewrite <- E1. apply moment_over.
      + apply moment_body; [exact Hg|lia|lia|exact HC'|exact HL].
  Qed.

  Theorem runs_moment s0 s : starts bias fs back s0 -> runs bias fs s0 s -> moment (fst s) (snd s).
  Proof. intros H0 R. induction R as [|s s' R IH M]; [apply starts_moment, H0|apply (moves_moment s s' IH M)]. Qed.

  (** ** Walks *)

  Context (eh : eh_frame) (cie : dw_fde -> cie_info) (tells : Z -> unwind -> Prop) (w : world) (x : thread).
  Hypothesis HD : describes eh cie fs.
  Hypothesis HT : forall d a st base cfa ra fp, last_at eh d -> in_range (df_start d) (df_len d) a -> cfi_at (cie d) d a = Some st ->
    representable Amd64 (as_row st) base cfa ra fp -> forall u, tells a u <-> u = Unwind base false (Some cfa) (Some ra) fp.
  Hypothesis HN : forall a u, tells a u -> exists d, last_at eh d /\ in_range (df_start d) (df_len d) a.
  Hypothesis HO : forall d, last_at eh d -> ~ in_range (df_start d) (df_len d) (back - bias) /\
    ~ in_range (df_start d) (df_len d) (back - bias - 1).
  Hypothesis HS : sees bias w x.

  Lemma step_of y a base cfa fp b : w_look w (sx_first y) (sx_pc y) = a ->
    (forall u, tells a u <-> u = Unwind base false (Some cfa) (Some (-8)) fp) -> sf_base y base = Some b ->
    0 <= b + cfa < 2 ^ 64 -> 8 <= b + cfa -> match fp with Some f => 0 <= b + cfa + f < 2 ^ 64 | None => True end ->
    forall z, sf_step w tells y z <->
      z = SfFrame false (t_mem x (b + cfa - 8)) (b + cfa)
            (match fp with Some f => Some (t_mem x (b + cfa + f)) | None => sx_fp y end).
  Proof.
    intros El Ht Hb R1 R2 R3 z. destruct HS as (M & _ & _). split.
    - intros (u & b' & c' & o & v & T & B & C & O & V & Z1 & Z2 & Z3 & Z4). rewrite El in T. apply Ht in T. subst u.
      cbn in B, C, O, V, Z2, Z4. rewrite Hb in B. injection B as <-. injection C as <-. injection O as <-.
      rewrite plus64_small in Z3 by lia. rewrite (plus64_small b cfa), (plus64_small (b + cfa)), M in V by lia. injection V as <-.
      destruct z as [q1 q2 q3 q4]. cbn in *. subst. replace (b + cfa + -8) with (b + cfa - 8) by lia. f_equal.
      destruct fp; [|reflexivity]. rewrite (plus64_small b cfa), plus64_small, M by lia. reflexivity.
    - intros ->. exists (Unwind base false (Some cfa) (Some (-8)) fp), b, cfa, (-8), (t_mem x (b + cfa - 8)).
      rewrite El. cbn. split; [apply Ht; reflexivity|]. split; [exact Hb|]. do 2 (split; [reflexivity|]).
      rewrite (plus64_small b cfa), (plus64_small (b + cfa)), M by lia. replace (b + cfa + -8) with (b + cfa - 8) by lia.
      do 4 (split; [reflexivity|]). destruct fp; [|reflexivity]. rewrite plus64_small, M by lia. reflexivity.
  Qed.

  Lemma stuck_at y a : w_look w (sx_first y) (sx_pc y) = a -> (forall u, ~ tells a u) -> forall z, ~ sf_step w tells y z.
  Proof. intros E H z (u & b & c & o & v & T & _). rewrite E in T. exact (H u T). Qed.

  Lemma rule_at f o : In f fs -> 0 <= o < fn_len f -> exists d st, last_at eh d /\ in_range (df_start d) (df_len d) (fn_start f + o) /\
      cfi_at (cie d) d (fn_start f + o) = Some st /\ right_rule f o (as_row st).
  Proof. intros H H0. apply HD; assumption. Qed.

  (** From a frame in a body. *)
  Lemma step_body y f o s p c t : In f fs -> w_look w (sx_first y) (sx_pc y) = fn_start f + o -> fn_first f <= o <= fn_first f + fn_body f ->
    sx_sp y = s -> sx_fp y = Some p -> 0 <= s -> links f (t_mem x) s p c -> chain (t_mem x) (c :: t) -> forall z, sf_step w tells y z <-> z = c.
  Proof.
    intros Hf El Ho Es Ep H0 HL HC. pose proof (chain_bound _ _ _ HC) as Bd. pose proof (chain_first _ _ _ HC) as Fc. pose proof (HW f Hf) as Wf.
    unfold fn_wf in Wf. destruct (rule_at f o Hf) as (d & st & D1 & D2 & D3 & D4); [kinds; destruct (fn_kind f); lia|].
    unfold right_rule in D4. unfold links in HL. kinds. destruct (fn_kind f) as [n|room n].
    - destruct HL as (L1 & L2 & L3 & L4). destruct D4 as [[E _]|[[E _]|[[_ D4]|[E _]]]]; [lia|lia| |lia].
      intros z. rewrite (step_of y _ Fp 16 (Some (-16)) p El (HT _ _ _ _ _ _ _ D1 D2 D3 D4) Ep) by lia.
      destruct c as [c1 c2 c3 c4]. cbn in *. subst. replace (p + 16 - 8) with (p + 8) by lia. replace (p + 16 + -16) with p by lia. reflexivity.
    - destruct HL as (L1 & L2 & L3). destruct D4 as [[[E|E] _]|[_ D4]]; [lia|lia|].
      assert (Es' : sf_base y Sp = Some s) by (cbn; congruence).
      intros z. rewrite (step_of y _ Sp (room + 8) None s El (HT _ _ _ _ _ _ _ D1 D2 D3 D4) Es') by (trivial; lia).
      destruct c as [c1 c2 c3 c4]. cbn in *. subst. rewrite Ep. replace (sx_sp y + (room + 8) - 8) with (sx_sp y + room) by lia.
      replace (sx_sp y + (room + 8)) with (sx_sp y + room + 8) by lia. reflexivity.
  Qed.

  Lemma looks_false p : w_look w false p = p - bias \/ w_look w false p = p - bias - 1.
  Proof. apply HS. Qed.

  Lemma nothing_behind : (forall u, ~ tells (back - bias) u) /\ forall u, ~ tells (back - bias - 1) u.
  Proof. split; intros u T; destruct (HN _ _ T) as (d & D1 & D2); destruct (HO d D1); contradiction. Qed.

  Lemma walk_nil_or (y : sf_frame) st : (match st with [] => forall z, ~ sf_step w tells y z | c :: t => (forall z, sf_step w tells y z <-> z = c) /\
      forall l, walk (sf_step w tells) c l <-> exists rest, t = l ++ rest end) ->
    forall l, walk (sf_step w tells) y l <-> exists rest, st = l ++ rest.
  Proof.
    intros H l. destruct st as [|c t].
    - split.
      + intros Hw. inversion Hw as [|? y' l' S']; subst; [exists []; reflexivity|]. exfalso. exact (H _ S').
      + intros (rest & E). destruct l; [constructor|discriminate].
    - destruct H as [H1 H2]. split.
      + intros Hw. inversion Hw as [|? y' l' S' Hw']; subst; [exists (c :: t); reflexivity|]. apply H1 in S'. subst y'.
        apply H2 in Hw'. destruct Hw' as (rest & ->). exists rest. reflexivity.
      + intros (rest & E). destruct l as [|y' l]; [constructor|]. injection E as -> E. econstructor; [apply H1; reflexivity|]. apply H2. eauto.
  Qed.

  Lemma chain_walked c t : chain (t_mem x) (c :: t) -> forall l, walk (sf_step w tells) c l <-> exists rest, t = l ++ rest.
  Proof.
    revert c. induction t as [|d t IH]; intros c HC; inversion HC as [s p Hs E|f j s p d' t' Hf Hj Hs HL HC' E]; subst; apply walk_nil_or.
    - destruct nothing_behind as [N1 N2]. destruct (looks_false back) as [E|E]; eapply stuck_at; [exact E|exact N1|exact E|exact N2].
    - split; [|apply IH, HC'].
      destruct (looks_false (bias + fn_start f + fn_first f + j)) as [E|E].
      + apply (step_body _ f (fn_first f + j) s p d t Hf); cbn; try reflexivity; try assumption; lia.
      + apply (step_body _ f (fn_first f + j - 1) s p d t Hf); cbn; try reflexivity; try assumption; lia.
  Qed.

  Theorem moment_walked st : moment st x -> walked w tells st x.
  Proof.
    intros HM. unfold walked. destruct HS as (_ & Hl & _).
    inversion HM as [sp fp m E0 Ex|f o c t sp fp m Hf Ho H0 HC Ec HR E0 Ex|f n c t sp fp m Hf K H0 HC Ec Em E0 Ex|f j c t sp fp m Hf Hj H0 HC HL E0 Ex];
      assert (Xm : t_mem x = m) by (rewrite <- Ex; reflexivity); cbn [frame_of_thread t_pc t_sp t_fp]; apply walk_nil_or.
    - apply (stuck_at _ (back - bias)); [cbn; apply Hl|apply nothing_behind].
    - rewrite <- Xm in HC. split; [|apply chain_walked, HC]. pose proof (chain_bound _ _ _ HC) as Bd. pose proof (HW f Hf) as Wf. unfold fn_wf in Wf.
      assert (El : w_look w true (bias + fn_start f + o) = fn_start f + o) by (rewrite Hl; lia).
      destruct (rule_at f o Hf) as (d & st' & D1 & D2 & D3 & D4); [kinds; destruct (fn_kind f); lia|]. subst c. cbn in Bd.
      assert (R : representable Amd64 (as_row st') Sp 8 (-8) None \/
        representable Amd64 (as_row st') Sp 8 (-8) (Some (-16)) /\ 8 <= sp /\ m (sp - 8) = fp).
      { unfold right_rule in D4. kinds. destruct (fn_kind f) as [n|room n] eqn:K.
        - destruct D4 as [[_ D4]|[[E _]|[[E _]|[E D4]]]]; [left; exact D4|lia|lia|]. destruct D4 as [D4|D4]; [left; exact D4|].
          right. split; [exact D4|]. apply (HR n); [exact E|reflexivity].
        - destruct D4 as [[_ D4]|[E _]]; [left; exact D4|lia]. }
      intros z. destruct R as [R|(R & R1 & R2)].
      + rewrite (step_of (SfFrame true (bias + fn_start f + o) sp (Some fp)) _ Sp 8 None sp El (HT _ _ _ _ _ _ _ D1 D2 D3 R) eq_refl) by (trivial; lia).
        cbn. rewrite Xm. replace (sp + 8 - 8) with sp by lia. reflexivity.
      + rewrite (step_of (SfFrame true (bias + fn_start f + o) sp (Some fp)) _ Sp 8 (Some (-16)) sp El (HT _ _ _ _ _ _ _ D1 D2 D3 R) eq_refl) by (trivial; lia).
        cbn. rewrite Xm. replace (sp + 8 - 8) with sp by lia. replace (sp + 8 + -16) with (sp - 8) by lia. rewrite R2. reflexivity.
    - rewrite <- Xm in HC. split; [|apply chain_walked, HC]. pose proof (chain_bound _ _ _ HC) as Bd. pose proof (HW f Hf) as Wf. unfold fn_wf in Wf. rewrite K in Wf.
      assert (El : w_look w true (bias + fn_start f + 1) = fn_start f + 1) by (rewrite Hl; lia).
      destruct (rule_at f 1 Hf) as (d & st' & D1 & D2 & D3 & D4); [kinds; rewrite K; lia|].
      unfold right_rule in D4. rewrite K in D4. destruct D4 as [[E _]|[[_ D4]|[[E _]|[E _]]]]; [lia| |lia|lia].
      subst c. cbn in Bd. intros z.
      rewrite (step_of (SfFrame true (bias + fn_start f + 1) sp (Some fp)) _ Sp 16 (Some (-16)) sp El (HT _ _ _ _ _ _ _ D1 D2 D3 D4) eq_refl) by (trivial; lia).
      cbn. rewrite Xm. replace (sp + 16 - 8) with (sp + 8) by lia. replace (sp + 16 + -16) with sp by lia. rewrite Em. reflexivity.
    - rewrite <- Xm in HC, HL. split; [|apply chain_walked, HC].
      apply (step_body _ f (fn_first f + j) sp fp c t Hf); cbn; try reflexivity; try assumption; try lia. rewrite Hl. lia.
  Qed.
End Program.

(** ** With the converters *)

Lemma always_walked_by eh cie fs tells : (forall f, In f fs -> fn_wf f) -> functions_apart fs -> describes eh cie fs ->
  (forall d a st base cfa ra fp, last_at eh d -> in_range (df_start d) (df_len d) a -> cfi_at (cie d) d a = Some st ->
     representable Amd64 (as_row st) base cfa ra fp -> forall u, tells a u <-> u = Unwind base false (Some cfa) (Some ra) fp) ->
  (forall a u, tells a u -> exists d, last_at eh d /\ in_range (df_start d) (df_len d) a) ->
  always_walked eh fs tells.
Proof.
  intros HW HA HD HT HN bias back s0 st x w H0 R HS HO.
  assert (HB : forall f, In f fs -> ~ fn_start f <= back - bias < fn_start f + fn_len f).
  { intros f Hf Hx. destruct (HD f (back - bias - fn_start f) Hf ltac:(lia)) as (d & _ & D1 & D2 & _).
    replace (fn_start f + (back - bias - fn_start f)) with (back - bias) in D2 by lia. destruct (HO d D1). contradiction. }
  apply (moment_walked bias back fs HW HB eh cie tells w x HD HT HN HO HS).
  exact (runs_moment bias back fs HW HA HB s0 (st, x) H0 R).
Qed.

Theorem run_walks md md' md'' op eh s e bs cie fs :
  eh_typed eh -> dwarf2sframe md op eh = Ok s -> op_arch op = Amd64 -> build md' e s = Ok bs -> wf_mode md'' -> rust_slice md'' bs ->
  programs_followed eh cie -> (forall d, last_at eh d -> unconfused Amd64 (fixed_ra_of op eh) (cie d) d) ->
  (forall f, In f fs -> fn_wf f) -> functions_apart fs -> describes eh cie fs ->
  (exists sf, load md'' e bs = Ok sf /\ always_walked eh fs (section_says md'' e sf)) /\ always_walked eh fs (std_tells e bs).
Proof.
  intros Ht H Ha B Hm Hs Hp Hu HW HA HD.
  assert (Hgood : forall f, last_at eh f -> (exists c, follows_dwarf c f) /\
     forall r, In r (wide_rows f) -> ~ clash (op_arch op) (fixed_ra_of op eh) r).
  { intros f Hf. split; [exists (cie f); apply Hp, Hf|]. intros r Hr. rewrite Ha.
    apply (follows_clash _ _ (cie f) f r (last_len _ _ Ht Hf) (Hp f Hf)); [apply Hu, Hf|exact Hr]. }
  split.
  - destruct (program_preserved md md' md'' op eh s e bs Ht H B Hm Hs Hgood) as (sf & HL & P1 & P2).
    exists sf. split; [exact HL|]. apply (always_walked_by eh cie); try assumption.
    intros d a st base cfa ra fp D1 D2 D3 R u. destruct (P1 (cie d) d a D1 (Hp d D1) D2) as (st' & u' & U1 & U2 & U3 & U4).
    assert (st' = st) as -> by congruence. rewrite Ha in U3. apply U3 in R. subst u'. split; [apply U4|intros ->; exact U2].
  - destruct (std_program_preserved md md' op eh s e bs Ht H B Hgood) as (P1 & P2). apply (always_walked_by eh cie); try assumption.
    + intros d a st base cfa ra fp D1 D2 D3 R u. destruct (P1 (cie d) d a D1 (Hp d D1) D2) as (st' & u' & U1 & U2 & U3 & U4).
      assert (st' = st) as -> by congruence. rewrite Ha in U3. apply U3 in R. subst u'.
      split; [intros T; exact (proj2 (U4 _ _ T))|intros ->; exact U2].
    + intros a u. apply P2.
Qed.

Lemma v1_of_representable r base cfa ra fp : representable Amd64 r base cfa ra fp -> v1_representable r base cfa ra fp.
Proof.
  intros (E1 & E2 & E3 & E4 & E5). repeat (split; [assumption|]). destruct fp; [exact E5|]. intros o Ho. destruct E5; congruence.
Qed.

Theorem v1_run_walks md md' md'' p eh s e bs cie fs :
  eh_typed eh -> v1_convert md p (eh_entries eh) = Ok s -> build md' e s = Ok bs -> wf_mode md'' -> rust_slice md'' bs ->
  programs_followed eh cie -> (forall d, last_at eh d -> v1_unconfused (cie d) d /\ advances (cie d) d) ->
  (forall f, In f fs -> fn_wf f) -> functions_apart fs -> describes eh cie fs ->
  (exists sf, load md'' e bs = Ok sf /\ always_walked eh fs (section_says md'' e sf)) /\ always_walked eh fs (std_tells e bs).
Proof.
  intros Ht H B Hm Hs Hp Hg HW HA HD. assert (Te : ents_typed (eh_entries eh)) by exact Ht.
  assert (Hgood : forall f, v1_last (eh_entries eh) f -> (exists c, follows_dwarf c f) /\ forall r, In r (dw_rows_of f) -> ~ v1_clash r).
  { intros f Hf. split; [exists (cie f); apply Hp, Hf|]. intros r Hr. destruct (Hg f Hf) as (G1 & G2).
    apply (v1_follows_clash (cie f) f r (last_len _ _ Ht Hf) (Hp f Hf) G2 G1 Hr). }
  split.
  - destruct (v1_program_preserved md md' md'' p (eh_entries eh) s e bs Te H B Hm Hs Hgood) as (sf & HL & P1 & P2).
    exists sf. split; [exact HL|]. apply (always_walked_by eh cie); try assumption.
    intros d a st base cfa ra fp D1 D2 D3 R u. destruct (P1 (cie d) d a D1 (Hp d D1) D2) as (st' & u' & U1 & U2 & U3 & _ & U4).
    assert (st' = st) as -> by congruence. apply v1_of_representable, U3 in R. subst u'. split; [apply U4|intros ->; exact U2].
  - destruct (std_v1_preserved md md' p (eh_entries eh) s e bs Te H B Hgood) as (P1 & P2). apply (always_walked_by eh cie); try assumption.
    + intros d a st base cfa ra fp D1 D2 D3 R u. destruct (P1 (cie d) d a D1 (Hp d D1) D2) as (st' & u' & U1 & U2 & U3 & _ & U4).
      assert (st' = st) as -> by congruence. apply v1_of_representable, U3 in R. subst u'.
      split; [intros T; exact (proj2 (U4 _ _ T))|intros ->; exact U2].
    + intros a u. apply P2.
Qed.

(** ** What compilers write *)

Ltac kinds := unfold fn_len, fn_ret, fn_first, fn_body in *.
Ltac leb_true := match goal with |- context [(?a <=? ?b)] => rewrite (proj2 (Z.leb_le a b)) by lia end; cbn [andb].

Definition usual_row (r : dw_row) : Prop :=
  dr_start r < dr_end r /\ dr_register r 16 = ROffset (-8) /\
  (dr_register r 6 = RUndefined \/ dr_register r 6 = ROffset (-16)) /\ exists reg cfa, dr_cfa r = CfaReg reg cfa /\ 0 <= cfa.

Lemma entry_table f d : fn_wf f -> df_start d = fn_start f -> df_len d = fn_len f -> df_insns d = Insns (program_of f) None ->
  exists rows, cfi_table usual_cie d = Some rows /\ zlen rows <= 4 /\ Forall usual_row rows.
Proof.
  intros W E1 E2 E3. unfold fn_wf in W. unfold cfi_table. rewrite E1, E2, E3. unfold program_of. kinds. destruct (fn_kind f) as [n|room n].
  - cbn [is_end is_list cfi_initial ci_initial usual_cie cfi_step set_cfa set_rule option_map cs_cfa cs_regs].
    cbn [cfi_rows next_loc ci_code_align ci_data_align usual_cie cfi_step set_cfa set_rule option_map cs_cfa cs_regs row_at].
    repeat leb_true. eexists. split; [reflexivity|]. split; [unfold zlen; cbn; lia|].
    repeat (apply Forall_cons); try apply Forall_nil; unfold usual_row, dr_register; cbn [dr_start dr_end dr_cfa dr_regs rule_lookup];
      (split; [lia|]); (split; [reflexivity|]); (split; [auto|]); do 2 eexists; (split; [reflexivity|lia]).
  - cbn [is_end is_list cfi_initial ci_initial usual_cie cfi_step set_cfa set_rule option_map cs_cfa cs_regs].
    cbn [cfi_rows next_loc ci_code_align ci_data_align usual_cie cfi_step set_cfa set_rule option_map cs_cfa cs_regs row_at].
    repeat leb_true. eexists. split; [reflexivity|]. split; [unfold zlen; cbn; lia|].
    repeat (apply Forall_cons); try apply Forall_nil; unfold usual_row, dr_register; cbn [dr_start dr_end dr_cfa dr_regs rule_lookup];
      (split; [lia|]); (split; [reflexivity|]); (split; [auto|]); do 2 eexists; (split; [reflexivity|lia]).
Qed.

Ltac at_case := match goal with |- context [(?a <? ?b)] => destruct (Z.ltb_spec a b) end.

Lemma entry_at f d o : fn_wf f -> match fn_kind f with WithFp _ => True | WithoutFp room _ => room + 8 <= i32_max end ->
  df_start d = fn_start f -> df_insns d = Insns (program_of f) None -> 0 <= o < fn_len f ->
  exists st, cfi_at usual_cie d (fn_start f + o) = Some st /\ right_rule f o (as_row st).
Proof.
  intros W Wr E1 E3 Ho. unfold fn_wf in W. unfold cfi_at, right_rule. rewrite E1, E3. unfold program_of. kinds. unfold i32_max in Wr.
  destruct (fn_kind f) as [n|room n].
  - cbn [is_end is_list cfi_initial ci_initial usual_cie cfi_step set_cfa set_rule option_map cs_cfa cs_regs].
    cbn [cfi_until next_loc ci_code_align ci_data_align usual_cie cfi_step set_cfa set_rule option_map cs_cfa cs_regs].
    repeat at_case; eexists; (split; [reflexivity|]);
    [left|right; left|right; right; left|right; right; right; split; [lia|right]]; try (split; [lia|]);
    unfold representable, as_row, dr_register; cbn; unfold in_i32, i32_min, i32_max; repeat split; try lia; auto.
  - cbn [is_end is_list cfi_initial ci_initial usual_cie cfi_step set_cfa set_rule option_map cs_cfa cs_regs].
    cbn [cfi_until next_loc ci_code_align ci_data_align usual_cie cfi_step set_cfa set_rule option_map cs_cfa cs_regs].
    repeat at_case; eexists; (split; [reflexivity|]); [left|right|left]; (split; [lia|]);
    unfold representable, as_row, dr_register; cbn; unfold in_i32, i32_min, i32_max; repeat split; try lia; auto.
Qed.

Lemma entry_rows f d : fn_wf f -> written_for f d -> zlen (dw_rows_of d) <= 4 /\ Forall usual_row (dw_rows_of d) /\ advances usual_cie d.
Proof.
  intros W (E1 & E2 & E3 & l & rows & R1 & R2 & R3). destruct (entry_table f d W E1 E2 E3) as (rows' & T1 & T2 & T3).
  assert (rows' = rows) as -> by congruence. unfold dw_rows_of. rewrite R1. cbn [rows_list].
  split; [|split].
  - assert (zlen l = zlen rows) by (clear - R3; unfold zlen; induction R3; cbn [Datatypes.length]; lia). lia.
  - clear - R3 T3. induction R3 as [|r r' l l' (S1 & S2 & S3 & S4) R3 IH]; [constructor|]. inversion T3 as [|? ? (U1 & U2 & U3 & U4) T4]; subst.
    constructor; [|exact (IH T4)]. unfold usual_row. rewrite S1, S2, S3, !S4. auto.
  - exists rows. split; [exact T1|]. intros r Hr. rewrite Forall_forall in T3. apply T3, Hr.
Qed.

Lemma usual_dominant fixed r base cfa ra fp m : usual_row r -> representable Amd64 r base cfa ra fp \/ v1_representable r base cfa ra fp ->
  (fixed = None \/ fixed = Some (-8)) -> dominant (stored_for fixed cfa ra fp) = Some m -> ra = -8 /\ m <> -128 /\ m <> -32768.
Proof.
  intros (_ & U1 & U2 & reg & cfa' & U3 & U4) R Hx Hd.
  assert (Hc : cfa = cfa' /\ ra = -8 /\ (fp = None \/ fp = Some (-16))).
  { destruct R as [(H1 & _ & H2 & _ & H3)|(H1 & _ & H2 & _ & H3)]; cbn [reg_ra reg_fp] in *; rewrite U3 in H1; rewrite U1 in H2;
      injection H1 as _ <-; injection H2 as <-; (split; [reflexivity|]); (split; [reflexivity|]);
      (destruct fp; [destruct H3 as [H3 _]; destruct U2 as [U2|U2]; rewrite U2 in H3; [discriminate|injection H3 as <-; auto]|auto]). }
  destruct Hc as (-> & -> & Hfp). assert (Hm : m = cfa' \/ m = -16 \/ m = -8).
  { unfold dominant, stored_for in Hd. destruct Hx as [-> | ->], Hfp as [-> | ->]; cbn in Hd;
      repeat match type of Hd with context [if ?b then _ else _] => destruct b end; injection Hd as <-; auto. }
  lia.
Qed.

Lemma usual_state c d x st : 0 <= df_len d -> Forall usual_row (dw_rows_of d) -> follows_dwarf c d -> in_range (df_start d) (df_len d) x ->
  cfi_at c d x = Some st -> exists r, usual_row r /\ same_rule Amd64 r (as_row st) /\ v1_same_rule r (as_row st).
Proof.
  intros Hl HU F Hx S. assert (Hx' : df_start d <= x < df_start d + df_len d) by (unfold in_range in Hx; lia).
  destruct (follows_covers c d x Hl F Hx') as (r & Hr0).
  destruct (follows_at c d x r Hl F ltac:(lia) Hr0) as (t & T1 & T2 & T3). assert (t = st) by congruence. subst t.
  exists r. split; [rewrite Forall_forall in HU; apply HU, Hr0|]. split; [apply as_row_same; assumption|apply v1_as_row_same; assumption].
Qed.

Lemma usual_unconfused fixed c d : 0 <= df_len d -> Forall usual_row (dw_rows_of d) -> follows_dwarf c d -> (fixed = None \/ fixed = Some (-8)) ->
  unconfused Amd64 fixed c d /\ v1_unconfused c d /\ ra_fixed Amd64 fixed c d.
Proof.
  intros Hl HU F Hx. split; [|split].
  - intros x st Hr S (base & cfa & ra & fp & m & R & Hd & Hm & _). destruct (usual_state c d x st Hl HU F Hr S) as (r & U & S1 & S2).
    destruct (usual_dominant fixed r base cfa ra fp m U (or_introl (proj2 (S1 base cfa ra fp) R)) Hx Hd) as (_ & ? & ?). intuition.
  - intros x st Hr S (base & cfa & ra & fp & m & R & Hd & Hm & _). destruct (usual_state c d x st Hl HU F Hr S) as (r & U & S1 & S2).
    destruct (usual_dominant None r base cfa ra fp m U (or_intror (proj2 (S2 base cfa ra fp) R)) (or_introl eq_refl) Hd) as (_ & ? & ?). intuition.
  - intros x st base cfa ra fp o Hr S R Ho. destruct (usual_state c d x st Hl HU F Hr S) as (r & U & S1 & _). apply S1 in R.
    destruct R as (_ & _ & R & _). destruct U as (_ & U & _). cbn [reg_ra] in R. assert (ra = -8) by congruence. destruct Hx as [-> | ->]; congruence.
Qed.

Lemma entries_in fs l d : Forall2 written_for fs l -> In d l -> exists f, In f fs /\ written_for f d.
Proof.
  induction 1 as [|f x fs l E H IH]; intros Hd; [destruct Hd|]. destruct Hd as [<-|Hd]; [exists f; split; [left; reflexivity|exact E]|].
  destruct (IH Hd) as (g & G1 & G2). exists g. split; [right; exact G1|exact G2].
Qed.
Lemma in_entries fs l f : Forall2 written_for fs l -> In f fs -> exists d, In d l /\ written_for f d.
Proof.
  induction 1 as [|g x fs l E H IH]; intros Hf; [destruct Hf|]. destruct Hf as [<-|Hf]; [exists x; split; [left; reflexivity|exact E]|].
  destruct (IH Hf) as (d & D1 & D2). exists d. split; [right; exact D1|exact D2].
Qed.
Lemma fn_len_pos f : fn_wf f -> 0 < fn_len f.
Proof. unfold fn_wf. kinds. destruct (fn_kind f); lia. Qed.
Lemma in_functions l d : In (DwGoodFde d) l <-> In d (functions l).
Proof.
  induction l as [|x l IH]; [reflexivity|]. destruct x; cbn; rewrite <- IH; intuition (try discriminate); try (left; congruence); auto.
  all: match goal with H : DwGoodFde _ = DwGoodFde _ |- _ => injection H as -> | _ => idtac end; auto.
Qed.

Lemma entries_distinct fs l : Forall2 written_for fs l -> NoDup fs -> (forall f, In f fs -> fn_wf f) -> functions_apart fs ->
  NoDup (map df_start l).
Proof.
  induction 1 as [|f x fs l E H IH]; intros N W A; [constructor|]. inversion N as [|? ? N1 N2]; subst. cbn. constructor.
  - intros Hi. apply in_map_iff in Hi. destruct Hi as (d & Ed & Hd). destruct (entries_in _ _ _ H Hd) as (g & G1 & (G2 & _)).
    destruct E as (E1 & _). assert (f = g); [|congruence].
    apply (A f g (fn_start f)); [left; reflexivity|right; exact G1| |]; [pose proof (fn_len_pos f (W f (or_introl eq_refl))); lia|].
    pose proof (fn_len_pos g (W g (or_intror G1))). lia.
  - apply IH; [exact N2|intros g Hg; apply W; right; exact Hg|]. intros g g' a Hg Hg'. apply A; right; assumption.
Qed.

Section Compiled.
  Context (fs : list func) (eh : eh_frame).
  Hypothesis HT : eh_typed eh.
  Hypothesis HC : compiled fs (eh_entries eh).
  Hypothesis HM : moderate fs.

  Lemma compiled_last d : last_at eh d <-> In d (functions (entries_of eh)).
  Proof.
    apply distinct_last. destruct HC as (_ & _ & H), HM as (M1 & M2 & M3 & _). apply (entries_distinct fs); try assumption.
    intros f Hf. apply M1, Hf.
  Qed.
  Lemma compiled_entry d : last_at eh d -> exists f, In f fs /\ written_for f d.
  Proof. intros H. apply compiled_last in H. destruct HC as (_ & _ & H2). exact (entries_in _ _ _ H2 H). Qed.
  Lemma compiled_wf f : In f fs -> fn_wf f.
  Proof. intros H. apply HM, H. Qed.
  Lemma compiled_followed : programs_followed eh (fun _ => usual_cie).
  Proof. intros d Hd. destruct (compiled_entry d Hd) as (f & _ & (_ & _ & _ & H)). exact H. Qed.
  Lemma compiled_describes : describes eh (fun _ => usual_cie) fs.
  Proof.
    intros f o Hf Ho. destruct HC as (_ & _ & H2). destruct (in_entries _ _ _ H2 Hf) as (d & Hd & (E1 & E2 & E3 & _)).
    destruct HM as (M1 & _). destruct (M1 f Hf) as (W & _ & _ & Wr). destruct (entry_at f d o W Wr E1 E3 Ho) as (st & S1 & S2).
    exists d, st. split; [apply compiled_last, Hd|]. split; [unfold in_range; lia|]. auto.
  Qed.
  Lemma compiled_apart : apart eh.
  Proof.
    intros d d' Hd Hd' Hne Hr. destruct (compiled_entry d Hd) as (f & F1 & (E1 & E2 & _)). destruct (compiled_entry d' Hd') as (g & G1 & (E1' & E2' & _)).
    unfold in_range in Hr. pose proof (fn_len_pos g (compiled_wf g G1)).
    destruct HM as (_ & _ & A & _). assert (f = g) by (apply (A f g (df_start d')); [assumption|assumption|lia|lia]). subst g. lia.
  Qed.
  Lemma compiled_len d : last_at eh d -> 0 <= df_len d.
  Proof. intros H. exact (last_len _ _ HT H). Qed.
  Lemma compiled_rows d : last_at eh d -> zlen (dw_rows_of d) <= 4 /\ Forall usual_row (dw_rows_of d) /\ advances usual_cie d.
  Proof. intros H. destruct (compiled_entry d H) as (f & F1 & E). exact (entry_rows f d (compiled_wf f F1) E). Qed.

  Lemma entries_sum (size : dw_fde -> Z) l l' : Forall2 written_for l l' -> (forall d, In d l' -> size d <= 4) ->
    zlen l' = zlen l /\ sumz (map size l') <= 4 * zlen l.
  Proof.
    induction 1 as [|f x l l' E H IH]; intros HS; [unfold zlen, sumz; cbn; lia|]. destruct IH as [I1 I2]; [intros d Hd; apply HS; right; exact Hd|].
    specialize (HS x (or_introl eq_refl)). unfold zlen in *. cbn [Datatypes.length map sumz fold_right] in *. unfold sumz in *. cbn [fold_right]. lia.
  Qed.
  Lemma compiled_count : countable (function_count eh) (table_rows eh) /\ countable (function_count eh) (v1_rows_total (eh_entries eh)).
  Proof.
    destruct HC as (_ & _ & H2). destruct HM as (_ & _ & _ & M). unfold countable, function_count, table_rows, v1_rows_total.
    destruct (entries_sum (fun f => zlen (wide_rows f)) _ _ H2) as [S1 S2].
    { intros d Hd. assert (L : last_at eh d) by (apply compiled_last; exact Hd). destruct (compiled_rows d L) as (R1 & _).
      assert (zlen (wide_rows d) <= zlen (dw_rows_of d)); [|lia]. unfold wide_rows, zlen.
      clear. induction (dw_rows_of d) as [|r l IH]; cbn [filter]; [lia|]. destruct (wideb r); cbn [Datatypes.length]; lia. }
    destruct (entries_sum (fun f => zlen (dw_rows_of f)) _ _ H2) as [_ S3].
    { intros d Hd. apply compiled_rows, compiled_last, Hd. }
    unfold entries_of. rewrite S1. pose proof (zlen_nonneg fs). split; split; lia.
  Qed.
  Lemma compiled_dump d : last_at eh d -> df_dump d = None.
  Proof.
    intros H. destruct (compiled_entry d H) as (f & _ & (_ & _ & E & _)). unfold df_dump. rewrite E. unfold program_of. destruct (fn_kind f); reflexivity.
  Qed.
  Lemma compiled_bounds d : last_at eh d -> df_start d <= i32_max /\ df_len d <= 0x10000000.
  Proof. intros H. destruct (compiled_entry d H) as (f & F1 & (E1 & E2 & _)). destruct HM as (M & _). destruct (M f F1) as (_ & M2 & M3 & _). lia. Qed.

  Theorem compiled_walks md md' op e : op_arch op = Amd64 ->
    exists s bs, dwarf2sframe md op eh = Ok s /\ build md' e s = Ok bs /\
      always_walked eh fs (std_tells e bs) /\
      forall md'', wf_mode md'' -> rust_slice md'' bs -> exists sf, load md'' e bs = Ok sf /\ always_walked eh fs (section_says md'' e sf).
  Proof.
    intros Ha. assert (Hx : fixed_ra_of op eh = None \/ fixed_ra_of op eh = Some (-8)).
    { unfold fixed_ra_of, header_ra. rewrite Ha. destruct (effective_endian op eh); auto. }
    assert (HU : forall c d, last_at eh d -> follows_dwarf c d -> unconfused Amd64 (fixed_ra_of op eh) c d /\ v1_unconfused c d /\ ra_fixed Amd64 (fixed_ra_of op eh) c d).
    { intros c d Hd F. apply usual_unconfused; [apply compiled_len, Hd|apply compiled_rows, Hd|exact F|exact Hx]. }
    destruct (ordinary_section md md' op eh e HT) as (s & bs & H1 & H2 & _).
    - apply HC.
    - intros x Hi. destruct x as [|g|d]; [exact I|destruct HC as (_ & N & _); exact (N g Hi)|].
      assert (L : last_at eh d) by (apply compiled_last, in_functions, Hi). destruct (compiled_bounds d L) as [B1 B2]. split.
      + split; [exact B1|]. split; [exact B2|]. exists usual_cie. split; [exact (compiled_followed d L)|]. rewrite Ha. apply HU; [exact L|exact (compiled_followed d L)].
      + split; [|intros _; apply compiled_dump, L]. intros (_ & _ & O). unfold i32_max in B1. lia.
    - exact compiled_apart.
    - apply compiled_count.
    - intros c d Hd F. rewrite Ha. apply HU; assumption.
    - exists s, bs. split; [exact H1|]. split; [exact H2|].
      assert (HU' : forall d, last_at eh d -> unconfused Amd64 (fixed_ra_of op eh) ((fun _ => usual_cie) d) d).
      { intros d Hd. apply HU; [exact Hd|exact (compiled_followed d Hd)]. }
      assert (HA : functions_apart fs) by apply HM.
      split.
      + destruct (conv_ordinary md md' op eh s e bs HT H1 H2) as (_ & Hs & _).
        apply (run_walks md md' rel64 op eh s e bs (fun _ => usual_cie) fs HT H1 Ha H2 wf_rel64 Hs compiled_followed HU' compiled_wf HA compiled_describes).
      + intros md'' Hm Hs.
        apply (run_walks md md' md'' op eh s e bs (fun _ => usual_cie) fs HT H1 Ha H2 Hm Hs compiled_followed HU' compiled_wf HA compiled_describes).
  Qed.

  Theorem v1_compiled_walks md md' p e : (forall r, p r = true) ->
    exists s bs, v1_convert md p (eh_entries eh) = Ok s /\ build md' e s = Ok bs /\
      always_walked eh fs (std_tells e bs) /\
      forall md'', wf_mode md'' -> rust_slice md'' bs -> exists sf, load md'' e bs = Ok sf /\ always_walked eh fs (section_says md'' e sf).
  Proof.
    intros Hp. assert (HU : forall c d, last_at eh d -> follows_dwarf c d -> v1_unconfused c d).
    { intros c d Hd F. apply (usual_unconfused None); [apply compiled_len, Hd|apply compiled_rows, Hd|exact F|auto]. }
    assert (Te : ents_typed (eh_entries eh)) by exact HT.
    destruct (v1_ordinary_section md md' p (eh_entries eh) e Te) as (s & bs & H1 & H2 & _).
    - apply HC.
    - intros x Hi. destruct x as [|g|d]; [exact I|destruct HC as (_ & N & _); exact (N g Hi)|].
      assert (L : last_at eh d) by (apply compiled_last, in_functions, Hi). destruct (compiled_bounds d L) as [B1 B2].
      split; [exact B1|]. split; [exact B2|]. split; [apply compiled_dump, L|]. split; [|auto].
      exists usual_cie. split; [exact (compiled_followed d L)|]. apply compiled_rows, L.
    - exact compiled_apart.
    - apply compiled_count.
    - intros c d Hd F. apply HU; assumption.
    - exists s, bs. split; [exact H1|]. split; [exact H2|].
      assert (HU' : forall d, last_at eh d -> v1_unconfused ((fun _ => usual_cie) d) d /\ advances ((fun _ => usual_cie) d) d).
      { intros d Hd. split; [apply HU; [exact Hd|exact (compiled_followed d Hd)]|apply compiled_rows, Hd]. }
      assert (HA : functions_apart fs) by apply HM.
      split.
      + destruct (StdConv.v1_ordinary md md' p (eh_entries eh) s e bs Te H1 H2) as (_ & Hs & _).
        apply (v1_run_walks md md' rel64 p eh s e bs (fun _ => usual_cie) fs HT H1 H2 wf_rel64 Hs compiled_followed HU' compiled_wf HA compiled_describes).
      + intros md'' Hm Hs.
        apply (v1_run_walks md md' md'' p eh s e bs (fun _ => usual_cie) fs HT H1 H2 Hm Hs compiled_followed HU' compiled_wf HA compiled_describes).
  Qed.
End Compiled.
