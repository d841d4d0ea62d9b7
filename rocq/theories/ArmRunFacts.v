(** A running AArch64 program and its stack: proofs. *)
From Verif Require Export ArmRunSpec.
From Verif Require Import BaseFacts ConvFacts CfiFacts CfiTotal RelateFacts StdConv WalkFacts ProgramFacts LookupFacts RunFacts.
From Verif Require Import WriteRepairedFacts WriteRepairedSpec ConvRepairedSection ConvRepairedWalk ConvRepairedProps.
Open Scope Z_scope.
Open Scope list_scope.

(** ** What is true at every moment *)

Section Program.
  Context (sign : Z -> Z -> Z) (strip : Z -> Z) (bias back : Z) (fs : list afunc).
  Hypothesis HG : signs sign strip.
  Hypothesis HL : loaded_low bias fs.
  Hypothesis HK : canonical back.
  Hypothesis HW : forall f, In f fs -> af_wf f.
  Hypothesis HA : afunctions_apart fs.
  Hypothesis HB : forall f, In f fs -> ~ af_start f <= back - bias < af_start f + af_len f.

  Definition un (signed : bool) (v : Z) : Z := if signed then strip v else v.

  (** The caller of a function that has saved its registers at [s]. *)
  Definition above (signed : bool) (k : Z) (m : Z -> Z) (s : Z) : lk_frame := caller (un signed (m (s + 8))) (s + 8 * k) (m s).

  Inductive achain (m : Z -> Z) : list lk_frame -> Prop :=
  | achain_bottom s p : 0 <= s < 2 ^ 64 -> achain m [caller back s p]
  | achain_more f signed k n j s t : In f fs -> af_kind f = AFrame signed k n -> 1 <= j <= n -> 0 <= s -> achain m (above signed k m s :: t) ->
      achain m (caller (bias + af_start f + af_save signed + 8 + 4 * j) s s :: above signed k m s :: t).

  Lemma achain_bound m c t : achain m (c :: t) -> 0 <= lx_sp c < 2 ^ 64.
  Proof.
    revert c. induction t as [|d t IH]; intros c H; inversion H as [s p Hs|f signed k n j s t' Hf K Hj Hs HC]; subst; cbn; [lia|].
    specialize (IH _ HC). cbn in IH. pose proof (HW f Hf) as W. unfold af_wf in W. rewrite K in W. lia.
  Qed.
  Lemma above_kept signed k m m' s lo : kept lo m m' -> lo <= s -> above signed k m' s = above signed k m s.
  Proof. intros K L. unfold above. rewrite !K by lia. reflexivity. Qed.
  Lemma achain_kept m m' lo c t : achain m (c :: t) -> kept lo m m' -> lo <= lx_sp c -> achain m' (c :: t).
  Proof.
    revert c. induction t as [|d t IH]; intros c H Hk L; inversion H as [s p Hs|f signed k n j s t' Hf K Hj Hs HC]; subst; cbn in L; [constructor; assumption|].
    pose proof (HW f Hf) as W. unfold af_wf in W. rewrite K in W. specialize (IH _ HC Hk). cbn in IH. specialize (IH ltac:(lia)).
    rewrite <- (above_kept signed k m m' s lo Hk L) in *. eapply achain_more; eassumption.
  Qed.
  Lemma achain_canonical m c t : achain m (c :: t) -> canonical (lx_pc c).
  Proof.
    intros H. inversion H as [s p Hs|f signed k n j s t' Hf K Hj Hs HC]; subst; cbn; [exact HK|].
    destruct (HL f Hf) as [L1 L2]. unfold af_len, af_ret in L2. rewrite K in L2. unfold canonical. unfold af_save in *. destruct signed; lia.
  Qed.

  (** The registers and the caller at the distance [o] from the start of [f]. *)
  Definition phase (f : afunc) (o sp fp lr : Z) (m : Z -> Z) (c : lk_frame) : Prop :=
    match af_kind f with
    | ALeaf room n =>
        (o = 0 \/ o = 8 + 4 * n) /\ c = caller lr sp fp \/
        exists j, 0 <= j <= n /\ o = 4 + 4 * j /\ 0 <= sp /\ c = caller lr (sp + room) fp
    | AFrame signed k n =>
        (o = 0 \/ o = af_ret f) /\ c = caller lr sp fp \/
        signed = true /\ (o = 4 \/ o = 16 + 4 * n) /\ c = caller (strip lr) sp fp \/
        o = af_save signed + 4 /\ 0 <= sp /\ c = above signed k m sp /\ m sp = fp \/
        exists j, 0 <= j <= n /\ o = af_save signed + 8 + 4 * j /\ 0 <= sp /\ fp = sp /\ c = above signed k m sp
    end.

  Inductive amoment : list lk_frame -> athread -> Prop :=
  | amoment_over sp fp lr m : amoment [] (AThread back sp fp lr m)
  | amoment_in f o c t sp fp lr m : In f fs -> phase f o sp fp lr m c -> achain m (c :: t) ->
      amoment (c :: t) (AThread (bias + af_start f + o) sp fp lr m).

  Lemma same_aspot f g o o' : In f fs -> In g fs -> 0 <= o < af_len f -> 0 <= o' < af_len g ->
    bias + af_start f + o = bias + af_start g + o' -> f = g /\ o = o'.
  Proof.
    intros Hf Hg Ho Ho' E. assert (f = g) as ->; [|split; [reflexivity|lia]].
    apply (HA f g (af_start f + o)); [assumption|assumption|lia|lia].
  Qed.

  Ltac akinds := unfold af_len, af_ret, af_save in *.

  Lemma phase_range f o sp fp lr m c : In f fs -> phase f o sp fp lr m c -> 0 <= o < af_len f.
  Proof.
    intros Hf H. pose proof (HW f Hf) as W. unfold af_wf, phase in *. akinds. destruct (af_kind f) as [room n|[|] k n];
    repeat match goal with H : _ \/ _ |- _ => destruct H | H : _ /\ _ |- _ => destruct H | H : exists _, _ |- _ => destruct H end; lia.
  Qed.

  Lemma amoment_at f o st sp fp lr m pc : pc = bias + af_start f + o -> In f fs -> 0 <= o < af_len f -> amoment st (AThread pc sp fp lr m) ->
    exists c t, st = c :: t /\ achain m (c :: t) /\ phase f o sp fp lr m c.
  Proof.
    intros Ep Hf Ho H. inversion H as [sp' fp' lr' m' E1 E2|g o' c t sp' fp' lr' m' Hg HP HC E1 E2].
    - exfalso. apply (HB f Hf). lia.
    - destruct (same_aspot f g o o') as [-> ->]; [assumption|assumption|assumption|eapply phase_range; eassumption|lia|]. exists c, t. auto.
  Qed.
  Lemma amoment_to f o c t sp fp lr m pc : pc = bias + af_start f + o -> In f fs -> phase f o sp fp lr m c -> achain m (c :: t) ->
    amoment (c :: t) (AThread pc sp fp lr m).
  Proof. intros ->. apply amoment_in. Qed.

  Lemma astarts_amoment s0 : astarts bias fs back s0 -> amoment (fst s0) (snd s0).
  Proof.
    intros (f & sp & fp & m & Hf & H0 & ->). cbn. apply (amoment_to f 0); [lia|exact Hf| |constructor; lia].
    unfold phase. destruct (af_kind f); left; (split; [left; reflexivity|reflexivity]).
  Qed.

  (** The one case of a phase that is at the right place. *)
  Ltac at_phase HM := destruct HM as (c & t & -> & HC & HP); unfold phase in HP;
    match type of HP with context [af_kind ?f] => match goal with K : af_kind f = _ |- _ => rewrite K in HP end end.
  Ltac pick := match goal with HP : _ \/ _ |- _ => destruct HP as [HP|HP]; [try (exfalso; lia)|] | _ => idtac end.

  Lemma amoves_amoment s s' : amoment (fst s) (snd s) -> amoves sign strip bias fs s s' -> amoment (fst s') (snd s').
  Proof.
    intros HM Hs. destruct Hs as [st f room n sp fp lr m Hf K Hsp|st f room n i j sp fp lr m m' Hf K Hi Hj Hk|st f room n sp fp lr m Hf K
      |st f k n sp fp lr m Hf K|st f signed k n sp fp lr m m' Hf K Hsp Hm1 Hm2 Hk|st f signed k n sp fp lr m Hf K
      |st f signed k n i j sp fp lr lr' m m' Hf K Hi Hj Hm1 Hm2 Hk|st f signed k n sp fp lr m Hf K|st f k n sp fp lr m Hf K
      |st f g signed k n i j sp fp lr m Hf Hg K Hi Hj|c0 st f sp fp lr m Hf]; cbn in HM |- *;
      pose proof (HW f Hf) as Wf; unfold af_wf in Wf; try rewrite K in Wf.
    - (* sub *)
      apply (amoment_at f 0) in HM; [|lia|exact Hf|akinds; rewrite K; lia]. at_phase HM.
      destruct HP as [[_ ->]|(j & Hj0 & E & _)]; [|lia].
      apply (amoment_to f 4); [lia|exact Hf| |exact HC]. unfold phase. rewrite K. right. exists 0. split; [lia|]. split; [lia|]. split; [lia|].
      replace (sp - room + room) with sp by lia. reflexivity.
    - (* the body of a leaf *)
      apply (amoment_at f (4 + 4 * i)) in HM; [|lia|exact Hf|akinds; rewrite K; lia]. at_phase HM.
      destruct HP as [[[E|E] _]|(j' & Hj0 & E & H0 & ->)]; [lia|lia|].
      apply (amoment_to f (4 + 4 * j)); [lia|exact Hf| |eapply achain_kept; [exact HC|exact Hk|cbn; lia]].
      unfold phase. rewrite K. right. exists j. auto.
    - (* add *)
      apply (amoment_at f (4 + 4 * n)) in HM; [|lia|exact Hf|akinds; rewrite K; lia]. at_phase HM.
      destruct HP as [[[E|E] _]|(j' & Hj0 & E & H0 & ->)]; [lia|lia|].
      apply (amoment_to f (8 + 4 * n)); [lia|exact Hf| |exact HC]. unfold phase. rewrite K. left. auto.
    - (* paciasp *)
      apply (amoment_at f 0) in HM; [|lia|exact Hf|akinds; rewrite K; lia]. at_phase HM.
      destruct HP as [[_ ->]|[(_ & E & _)|[(E & _)|(j & Hj0 & E & _)]]]; [|lia|unfold af_save in *; lia|unfold af_save in *; lia].
      apply (amoment_to f 4); [lia|exact Hf| |exact HC]. unfold phase. rewrite K. right. left. split; [reflexivity|]. split; [left; reflexivity|].
      pose proof (achain_canonical _ _ _ HC) as Cn. cbn in Cn. rewrite HG by exact Cn. reflexivity.
    - (* stp *)
      apply (amoment_at f (af_save signed)) in HM; [|lia|exact Hf|akinds; rewrite K; destruct signed; lia]. at_phase HM.
      assert (Ec : c = caller (un signed lr) sp fp).
      { destruct HP as [[E ->]|[(E & E' & ->)|[(E & _)|(j & Hj0 & E & _)]]]; unfold un, af_ret, af_save in *; try rewrite K in *; [|rewrite E; reflexivity|lia|lia].
        destruct signed; [destruct E; lia|reflexivity]. }
      assert (Ec' : c = above signed k m' (sp - 8 * k)).
      { unfold above. rewrite Hm1, Hm2. replace (sp - 8 * k + 8 * k) with sp by lia. exact Ec. }
      apply (amoment_to f (af_save signed + 4)); [lia|exact Hf| |eapply achain_kept; [exact HC|exact Hk|rewrite Ec; cbn; lia]].
      unfold phase. rewrite K. right. right. left. split; [reflexivity|]. split; [lia|]. auto.
    - (* mov *)
      apply (amoment_at f (af_save signed + 4)) in HM; [|lia|exact Hf|akinds; rewrite K; destruct signed; lia]. at_phase HM.
      destruct HP as [[E _]|[(E & E' & _)|[(_ & H0 & Ec & Em)|(j & Hj0 & E & _)]]];
        [unfold af_ret, af_save in *; rewrite K in *; destruct signed; lia|unfold af_save in *; rewrite E in *; lia| |lia].
      apply (amoment_to f (af_save signed + 8)); [lia|exact Hf| |exact HC]. unfold phase. rewrite K. right. right. right. exists 0.
      split; [lia|]. split; [lia|]. auto.
    - (* the body *)
      apply (amoment_at f (af_save signed + 8 + 4 * i)) in HM; [|lia|exact Hf|akinds; rewrite K; destruct signed; lia]. at_phase HM.
      destruct HP as [[E _]|[(E & E' & _)|[(E & _)|(j' & Hj0 & E0 & H0 & Ef & Ec)]]];
        [unfold af_ret, af_save in *; rewrite K in *; destruct signed; lia|unfold af_save in *; rewrite E in *; lia|lia|].
      assert (Ec' : c = above signed k m' sp) by (unfold above; rewrite Hm1, Hm2; exact Ec).
      apply (amoment_to f (af_save signed + 8 + 4 * j)); [lia|exact Hf| |eapply achain_kept; [exact HC|exact Hk|rewrite Ec; cbn; lia]].
      unfold phase. rewrite K. right. right. right. exists j. auto.
    - (* ldp *)
      apply (amoment_at f (af_save signed + 8 + 4 * n)) in HM; [|lia|exact Hf|akinds; rewrite K; destruct signed; lia]. at_phase HM.
      destruct HP as [[E _]|[(E & E' & _)|[(E & _)|(j' & Hj0 & E0 & H0 & Ef & Ec)]]];
        [unfold af_ret, af_save in *; rewrite K in *; destruct signed; lia|unfold af_save in *; rewrite E in *; lia|unfold af_save in *; lia|].
      apply (amoment_to f (af_save signed + 12 + 4 * n)); [lia|exact Hf| |exact HC]. unfold phase. rewrite K. unfold above, un in Ec.
      destruct signed; [right; left|left]; unfold af_ret, af_save; rewrite ?K; cbn [af_save] in *; [split; [reflexivity|]|];
        (split; [right; unfold af_save; lia|exact Ec]).
    - (* autiasp *)
      apply (amoment_at f (16 + 4 * n)) in HM; [|lia|exact Hf|akinds; rewrite K; lia]. at_phase HM.
      destruct HP as [[E _]|[(_ & _ & Ec)|[(E & _)|(j' & Hj0 & E & _)]]];
        [unfold af_ret, af_save in *; rewrite K in *; lia| |unfold af_save in *; lia|unfold af_save in *; lia].
      apply (amoment_to f (20 + 4 * n)); [lia|exact Hf| |exact HC]. unfold phase. rewrite K. left. split; [|exact Ec].
      right. unfold af_ret, af_save. rewrite K. lia.
    - (* bl *)
      apply (amoment_at f (af_save signed + 8 + 4 * i)) in HM; [|lia|exact Hf|akinds; rewrite K; destruct signed; lia]. at_phase HM.
      destruct HP as [[E _]|[(E & E' & _)|[(E & _)|(j' & Hj0 & E0 & H0 & Ef & Ec)]]];
        [unfold af_ret, af_save in *; rewrite K in *; destruct signed; lia|unfold af_save in *; rewrite E in *; lia|lia|].
      subst fp c. apply (amoment_to g 0); [lia|exact Hg| |eapply achain_more; try eassumption; lia].
      unfold phase. destruct (af_kind g); left; (split; [left; reflexivity|reflexivity]).
    - (* ret *)
      apply (amoment_at f (af_ret f)) in HM; [|lia|exact Hf|unfold af_len, af_ret, af_save; destruct (af_kind f) as [|[|]]; lia].
      destruct HM as (c & t & Ec & HC & HP). injection Ec as -> ->.
      assert (E : c = caller lr sp fp).
      { unfold phase, af_ret, af_save in HP. destruct (af_kind f) as [room n|[|] k n];
        repeat match goal with H : _ \/ _ |- _ => destruct H | H : _ /\ _ |- _ => destruct H | H : exists _, _ |- _ => destruct H end;
        try assumption; try discriminate; lia. }
      subst c. inversion HC as [s p Hs|g signed k n j s t' Hg K Hj Hs HC']; subst.
      + apply amoment_over.
      + apply (amoment_to g (af_save signed + 8 + 4 * j)); [lia|exact Hg| |exact HC'].
        unfold phase. rewrite K. right. right. right. exists j. split; [lia|]. auto.
  Qed.

  Theorem aruns_amoment s0 s : astarts bias fs back s0 -> aruns sign strip bias fs s0 s -> amoment (fst s) (snd s).
  Proof. intros H0 R. induction R as [|s s' R IH M]; [apply astarts_amoment, H0|apply (amoves_amoment s s' IH M)]. Qed.

  (** ** Walks *)

  Context (eh : eh_frame) (tells : Z -> unwind -> Prop) (w : world) (x : athread).
  Definition told (f : afunc) (o : Z) : Prop :=
    exists u0, right_unwind f o u0 /\ forall u, tells (af_start f + o) u <-> u = u0.
  Hypothesis HTs : forall f o, In f fs -> saved f o -> told f o.
  Hypothesis HT1 : forall f o, In f fs -> 0 <= o < af_len f -> at_pc x = bias + af_start f + o -> told f o.
  Hypothesis HN : forall a u, tells a u -> exists d, last_at eh d /\ in_range (df_start d) (df_len d) a.
  Hypothesis HO : forall d, last_at eh d -> ~ in_range (df_start d) (df_len d) (back - bias) /\
    ~ in_range (df_start d) (df_len d) (back - bias - 1).
  Hypothesis HS : asees strip bias w x.

  Lemma astep_of y a base mg cfa ra fp b : w_look w (lx_first y) (lx_pc y) = a ->
    (forall u, tells a u <-> u = Unwind base mg (Some cfa) ra fp) -> lk_base y base = Some b ->
    0 <= b + cfa < 2 ^ 64 -> match ra with Some o => 0 <= b + cfa + o < 2 ^ 64 | None => True end ->
    match fp with Some o => 0 <= b + cfa + o < 2 ^ 64 | None => True end ->
    forall z, lk_step w tells y z <->
      exists v, match ra with Some o => Some (at_mem x (b + cfa + o)) | None => lx_lr y end = Some v /\
        z = LkFrame false (un mg v) (b + cfa) (match fp with Some o => Some (at_mem x (b + cfa + o)) | None => lx_fp y end) None.
  Proof.
    intros El Ht Hb R1 R2 R3 z. destruct HS as (M & St & _ & _).
    assert (Ra : match ra with Some o => w_mem w (plus64 (plus64 b cfa) o) | None => lx_lr y end =
      match ra with Some o => Some (at_mem x (b + cfa + o)) | None => lx_lr y end).
    { destruct ra; [|reflexivity]. rewrite (plus64_small b cfa), plus64_small, M by lia. reflexivity. }
    assert (Rf : match fp with Some o => w_mem w (plus64 (plus64 b cfa) o) | None => lx_fp y end =
      match fp with Some o => Some (at_mem x (b + cfa + o)) | None => lx_fp y end).
    { destruct fp; [|reflexivity]. rewrite (plus64_small b cfa), plus64_small, M by lia. reflexivity. }
    split.
    - intros (u & b' & c' & v & T & B & C & V & Z1 & Z2 & Z3 & Z4 & Z5). rewrite El in T. apply Ht in T. subst u.
      cbn in B, C, V, Z2, Z4. rewrite Hb in B. injection B as <-. injection C as <-. rewrite Ra in V. rewrite Rf in Z4. rewrite plus64_small in Z3 by lia.
      exists v. split; [exact V|]. destruct z as [q1 q2 q3 q4 q5]. cbn in *. subst. f_equal. unfold un. destruct mg; [apply St|reflexivity].
    - intros (v & V & ->). exists (Unwind base mg (Some cfa) ra fp), b, cfa, v. rewrite El. cbn. split; [apply Ht; reflexivity|].
      split; [exact Hb|]. split; [reflexivity|]. split; [rewrite Ra; exact V|]. split; [reflexivity|]. split; [unfold un; destruct mg; [symmetry; apply St|reflexivity]|].
      split; [rewrite plus64_small by lia; reflexivity|]. split; [rewrite Rf; reflexivity|reflexivity].
  Qed.

  Lemma astuck_at y a : w_look w (lx_first y) (lx_pc y) = a -> (forall u, ~ tells a u) -> forall z, ~ lk_step w tells y z.
  Proof. intros E H z (u & b & c & v & T & _). rewrite E in T. exact (H u T). Qed.

  (** From a function that has saved its registers at [s]. *)
  Lemma astep_saved y f signed k n o s : In f fs -> af_kind f = AFrame signed k n -> w_look w (lx_first y) (lx_pc y) = af_start f + o ->
    saved f o -> lx_sp y = s -> (af_save signed + 8 <= o -> lx_fp y = Some s) -> 0 <= s -> s + 8 * k < 2 ^ 64 ->
    forall z, lk_step w tells y z <-> z = above signed k (at_mem x) s.
  Proof.
    intros Hf K El Hs Es Ef H0 H1 z. pose proof (HW f Hf) as W. unfold af_wf in W. rewrite K in W.
    destruct (HTs f o Hf Hs) as (u0 & U1 & U2). unfold saved in Hs. rewrite K in Hs.
    assert (Hu : exists base, u0 = Unwind base signed (Some (8 * k)) (Some (8 - 8 * k)) (Some (- (8 * k))) /\ lk_base y base = Some s).
    { unfold right_unwind in U1. rewrite K in U1. unfold af_save in *. destruct U1 as [[E _]|[(E & E' & _)|[(_ & E)|(E' & E)]]];
        [destruct signed; lia|rewrite E in *; lia|exists Sp; split; [exact E|cbn; congruence]|exists Fp; split; [exact E|cbn; apply Ef; destruct signed; lia]]. }
    destruct Hu as (base & -> & Hb). rewrite (astep_of y _ base signed (8 * k) (Some (8 - 8 * k)) (Some (- (8 * k))) s El U2 Hb) by lia.
    unfold above, caller. replace (s + 8 * k + (8 - 8 * k)) with (s + 8) by lia. replace (s + 8 * k + - (8 * k)) with s by lia. split.
    - intros (v & V & ->). injection V as <-. reflexivity.
    - intros ->. eauto.
  Qed.

  Lemma anothing_behind : (forall u, ~ tells (back - bias) u) /\ forall u, ~ tells (back - bias - 1) u.
  Proof. split; intros u T; destruct (HN _ _ T) as (d & D1 & D2); destruct (HO d D1); contradiction. Qed.

  Lemma awalk_nil_or (y : lk_frame) st : (match st with [] => forall z, ~ lk_step w tells y z | c :: t => (forall z, lk_step w tells y z <-> z = c) /\
      forall l, walk (lk_step w tells) c l <-> exists rest, t = l ++ rest end) ->
    forall l, walk (lk_step w tells) y l <-> exists rest, st = l ++ rest.
  Proof.
    intros H l. destruct st as [|c t].
    - split.
      + intros Hw. inversion Hw as [|? y' l' S']; subst; [exists []; reflexivity|]. exfalso. exact (H _ S').
      + intros (rest & E). destruct l; [constructor|discriminate].
    - destruct H as [H1 H2]. split.
      + intros Hw. inversion Hw as [|? y' l' S' Hw']; subst; [exists (c :: t); reflexivity|]. apply H1 in S'. subst y'.
        apply H2 in Hw'. destruct Hw' as (rest & ->). exists rest. reflexivity.
      + intros (rest & E). destruct l as [|y' l]; [constructor|]. injection E as -> E. econstructor; [apply H1; reflexivity|]. apply H2. eauto.
  Qed.

  Lemma achain_walked c t : achain (at_mem x) (c :: t) -> forall l, walk (lk_step w tells) c l <-> exists rest, t = l ++ rest.
  Proof.
    destruct HS as (_ & _ & _ & Lk).
    revert c. induction t as [|d t IH]; intros c HC; inversion HC as [s p Hs|f signed k n j s t' Hf K Hj Hs HC']; subst; apply awalk_nil_or.
    - destruct anothing_behind as [N1 N2]. destruct (Lk back) as [E|E]; eapply astuck_at; [exact E|exact N1|exact E|exact N2].
    - split; [|apply IH, HC']. pose proof (achain_bound _ _ _ HC') as Bd. cbn in Bd.
      destruct (Lk (bias + af_start f + af_save signed + 8 + 4 * j)) as [E|E].
      + apply (astep_saved _ f signed k n (af_save signed + 8 + 4 * j) s Hf K); cbn; try reflexivity; try assumption; try lia.
        unfold saved. rewrite K. lia.
      + apply (astep_saved _ f signed k n (af_save signed + 8 + 4 * j - 1) s Hf K); cbn; try reflexivity; try assumption; try lia.
        unfold saved. rewrite K. lia.
  Qed.

  Theorem amoment_walked st : amoment st x -> awalked w tells st x.
  Proof.
    intros HM. unfold awalked. pose proof HS as (_ & _ & Lk & _).
    inversion HM as [sp fp lr m E0 Ex|f o c t sp fp lr m Hf HP HC E0 Ex]; assert (Xm : at_mem x = m) by (rewrite <- Ex; reflexivity);
      cbn [frame_of_athread at_pc at_sp at_fp at_lr]; apply awalk_nil_or.
    - apply (astuck_at _ (back - bias)); [cbn; apply Lk|apply anothing_behind].
    - rewrite <- Xm in HC, HP. split; [|apply achain_walked, HC]. pose proof (achain_bound _ _ _ HC) as Bd. pose proof (HW f Hf) as W. unfold af_wf in W.
      set (y := frame_of_athread _). assert (El : w_look w (lx_first y) (lx_pc y) = af_start f + o) by (cbn; rewrite Lk; lia).
      pose proof (phase_range f o sp fp lr _ c Hf HP) as Ho.
      destruct (HT1 f o Hf Ho) as (u0 & U1 & U2); [rewrite <- Ex; reflexivity|].
      assert (Edge : forall mg cfa, u0 = Unwind Sp mg (Some cfa) None None -> c = caller (un mg lr) (sp + cfa) fp -> forall z, lk_step w tells y z <-> z = c).
      { intros mg cfa -> Ec z. rewrite Ec in Bd. cbn in Bd. rewrite (astep_of y _ Sp mg cfa None None sp El U2 eq_refl) by (trivial; lia).
        rewrite Ec. unfold caller. cbn. split; [intros (v & V & ->); injection V as <-; reflexivity|intros ->; eauto]. }
      unfold phase in HP. unfold right_unwind in U1. unfold af_len, af_ret in Ho. destruct (af_kind f) as [room n|signed k n] eqn:K.
      + destruct HP as [[E Ec]|(j & Hj & E & H0 & Ec)].
        * destruct U1 as [[_ Eu]|[E' _]]; [|lia]. apply (Edge _ _ Eu). cbn. rewrite Z.add_0_r. exact Ec.
        * destruct U1 as [[E' _]|[_ Eu]]; [lia|]. apply (Edge _ _ Eu). exact Ec.
      + assert (Saved : saved f o -> 0 <= sp -> c = above signed k (at_mem x) sp -> (af_save signed + 8 <= o -> fp = sp) -> forall z, lk_step w tells y z <-> z = c).
        { intros Hs H0 Ec Ef z. rewrite Ec in Bd |- *. cbn in Bd. apply (astep_saved y f signed k n o sp Hf K El Hs); cbn; [reflexivity| |exact H0|lia].
          intros Hx. rewrite (Ef Hx). reflexivity. }
        unfold saved in Saved. unfold af_ret in HP. rewrite K in HP, Saved. unfold af_save in *.
        destruct HP as [[E Ec]|[(Sg & E & Ec)|[(E & H0 & Ec & _)|(j & Hj & E & H0 & Ef & Ec)]]].
        * destruct U1 as [[_ Eu]|[(E1 & E' & _)|[[E' _]|[E' _]]]]; [|rewrite E1 in *; lia|destruct signed; lia|destruct signed; lia].
          apply (Edge _ _ Eu). cbn. rewrite Z.add_0_r. exact Ec.
        * rewrite Sg in *. destruct U1 as [[E' _]|[(_ & _ & Eu)|[[E' _]|[E' _]]]]; [lia| |lia|lia].
          apply (Edge _ _ Eu). cbn. rewrite Z.add_0_r. exact Ec.
        * apply Saved; [lia|exact H0|exact Ec|lia].
        * apply Saved; [lia|exact H0|exact Ec|auto].
  Qed.
End Program.

(** ** With the converters *)

Lemma aalways_walked_by eh fs ok tells : (forall f, In f fs -> af_wf f) -> afunctions_apart fs ->
  (forall f o, In f fs -> 0 <= o < af_len f -> exists d, last_at eh d /\ in_range (df_start d) (df_len d) (af_start f + o)) ->
  (forall f o, In f fs -> 0 <= o < af_len f -> ok f o \/ saved f o -> told tells f o) ->
  (forall a u, tells a u -> exists d, last_at eh d /\ in_range (df_start d) (df_len d) a) ->
  aalways_walked eh fs ok tells.
Proof.
  intros HW HA HD HT HN sign strip bias back s0 st x w HG HL HK H0 R HS HO Hok.
  assert (HB : forall f, In f fs -> ~ af_start f <= back - bias < af_start f + af_len f).
  { intros f Hf Hx. destruct (HD f (back - bias - af_start f) Hf ltac:(lia)) as (d & D1 & D2).
    replace (af_start f + (back - bias - af_start f)) with (back - bias) in D2 by lia. destruct (HO d D1). contradiction. }
  pose proof (aruns_amoment sign strip bias back fs HG HL HK HW HA HB s0 (st, x) H0 R) as HM.
  assert (H1 : forall f o, In f fs -> saved f o -> told tells f o).
  { intros f o Hf Hs. apply HT; [exact Hf| |right; exact Hs]. pose proof (HW f Hf) as W. unfold af_wf, saved, af_len, af_ret, af_save in *.
    destruct (af_kind f) as [|[|]]; lia. }
  assert (H2 : forall f o, In f fs -> 0 <= o < af_len f -> at_pc x = bias + af_start f + o -> told tells f o).
  { intros f o Hf Ho E. apply HT; [exact Hf|exact Ho|left; apply Hok; assumption]. }
  eapply (amoment_walked strip bias back fs); eassumption.
Qed.

(** ** What compilers write *)

Ltac akinds := unfold af_len, af_ret, af_save in *.

(** The rows of [f], as far as they matter. *)
Definition arm_row (f : afunc) (r : dw_row) : Prop :=
  dr_register r 30 = RUndefined \/
  exists signed k n, af_kind f = AFrame signed k n /\ dr_register r 30 = ROffset (8 - 8 * k) /\ dr_register r 29 = ROffset (- (8 * k)) /\
    dr_cfa r = CfaReg 31 (8 * k).

Ltac eqbs := repeat match goal with |- context [?a =? ?b] => let v := eval vm_compute in (a =? b) in change (a =? b) with v end; cbn iota.
Ltac run_cfi :=
  cbn [is_end is_list cfi_initial ci_initial ausual_cie cfi_step set_cfa set_rule option_map cs_cfa cs_regs];
  cbn [cfi_rows cfi_until next_loc ci_code_align ci_data_align ausual_cie cfi_step set_cfa set_rule option_map cs_cfa cs_regs row_at
       rule_lookup]; eqbs;
  cbn [cfi_rows cfi_until next_loc ci_code_align ci_data_align ausual_cie cfi_step set_cfa set_rule option_map cs_cfa cs_regs row_at rule_lookup]; eqbs;
  cbn [cfi_rows cfi_until next_loc ci_code_align ci_data_align ausual_cie cfi_step set_cfa set_rule option_map cs_cfa cs_regs row_at].

Lemma aentry_table f d : af_wf f -> df_start d = af_start f -> df_len d = af_len f -> df_insns d = Insns (aprogram_of f) None ->
  exists rows, cfi_table ausual_cie d = Some rows /\ zlen rows <= 5 /\ Forall (arm_row f) rows.
Proof.
  intros W E1 E2 E3. unfold af_wf in W. unfold cfi_table. rewrite E1, E2, E3. unfold aprogram_of, arm_row. akinds. destruct (af_kind f) as [room n|[|] k n];
  run_cfi; repeat leb_true; (eexists; split; [reflexivity|]; split; [unfold zlen; cbn; lia|]);
  repeat (apply Forall_cons); try apply Forall_nil; unfold dr_register; cbn [dr_regs dr_cfa rule_lookup]; eqbs;
  try (left; reflexivity); right; do 3 eexists; (split; [reflexivity|]); (split; [f_equal; lia|]); (split; [f_equal; lia|reflexivity]).
Qed.

(** The state at a distance from the start, and what SFrame can say of it. *)
Lemma aentry_at f d o : af_wf f -> match af_kind f with ALeaf room _ => room <= i32_max | AFrame _ k _ => 8 * k <= i32_max end ->
  df_start d = af_start f -> df_insns d = Insns (aprogram_of f) None -> 0 <= o < af_len f ->
  exists st base mg cfa ra fp, cfi_at ausual_cie d (af_start f + o) = Some st /\ expressible Aarch64 (as_row st) 30 base mg cfa ra fp /\
    right_unwind f o (Unwind base mg (Some cfa) ra fp) /\
    (saved f o -> forall k n, af_kind f = AFrame false k n -> base = Sp /\ mg = false /\ cfa = 8 * k /\ ra = Some (8 - 8 * k) /\ fp = Some (- (8 * k))).
Proof.
  intros W Wr E1 E3 Ho. unfold af_wf in W. unfold cfi_at, right_unwind, saved. rewrite E1, E3. unfold aprogram_of. akinds. unfold i32_max in Wr.
  destruct (af_kind f) as [room n|[|] k n]; run_cfi; repeat at_case.
  Ltac say b m c r p := eexists; exists b, m, c, r, p; split; [reflexivity|]; split;
    [unfold expressible, as_row, dr_register, signed_row, ra_signed, dr_register, in_i32, i32_min, i32_max, reg_base, reg_sp, reg_fp, reg_ra;
     cbn [cs_cfa cs_regs dr_cfa dr_regs rule_lookup]; eqbs; (split; [reflexivity|]); (split; [lia|]); (split; [left; reflexivity|]); (split; [reflexivity|]);
     (split; [split; [intros HE; try discriminate HE; split; reflexivity|intros [_ HE]; try discriminate HE; reflexivity]|]);
     (split; [try (right; reflexivity); (split; [f_equal; lia|lia])|]); first [(split; [f_equal; lia|lia])|(split; [reflexivity|]; split; [reflexivity|right; reflexivity])]|].
  all: try (exfalso; lia).
  - say Sp false 0 (@None Z) (@None Z). split; [left; split; [lia|reflexivity]|contradiction].
  - say Sp false room (@None Z) (@None Z). split; [right; split; [lia|reflexivity]|contradiction].
  - say Sp false 0 (@None Z) (@None Z). split; [left; split; [lia|reflexivity]|contradiction].
  - say Sp false 0 (@None Z) (@None Z). split; [left; split; [lia|reflexivity]|intros; lia].
  - say Sp true 0 (@None Z) (@None Z). split; [right; left; split; [reflexivity|]; split; [lia|reflexivity]|intros; lia].
  - say Sp true (8 * k) (Some (8 - 8 * k)) (Some (- (8 * k))). split; [right; right; left; split; [lia|reflexivity]|intros _ k' n' HE; discriminate HE].
  - say Sp true 0 (@None Z) (@None Z). split; [right; left; split; [reflexivity|]; split; [lia|reflexivity]|intros; lia].
  - say Sp false 0 (@None Z) (@None Z). split; [left; split; [lia|reflexivity]|intros; lia].
  - say Sp false 0 (@None Z) (@None Z). split; [left; split; [lia|reflexivity]|intros; lia].
  - say Sp false (8 * k) (Some (8 - 8 * k)) (Some (- (8 * k))). split; [right; right; left; split; [lia|reflexivity]|].
    intros _ k' n' HE. injection HE as <- <-. auto.
  - say Sp false 0 (@None Z) (@None Z). split; [left; split; [lia|reflexivity]|intros; lia].
Qed.
