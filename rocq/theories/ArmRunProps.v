(** Walks of running AArch64 programs by what the converters make of them. *)
From Verif Require Export ArmRunFacts.
From Verif Require Import BaseFacts ConvFacts CfiFacts CfiTotal RelateFacts StdConv WalkFacts ProgramFacts LookupFacts RunFacts.
From Verif Require Import WriteRepairedFacts WriteRepairedSpec ConvRepairedSection ConvRepairedWalk ConvRepairedProps.
Open Scope Z_scope.
Open Scope list_scope.

Lemma lk_walk_ext w t t' : (forall a u, t a u <-> t' a u) -> forall x l, walk (lk_step w t) x l -> walk (lk_step w t') x l.
Proof.
  intros H x l Hw. induction Hw as [|x y l S Hw IH]; [constructor|]. econstructor; [|exact IH].
  destruct S as (u & b & c & v & T & R). exists u, b, c, v. split; [apply H, T|exact R].
Qed.

Lemma aentry_rows f d : af_wf f -> awritten_for f d -> zlen (dw_rows_of d) <= 5 /\ Forall (arm_row f) (dw_rows_of d).
Proof.
  intros W (E1 & E2 & E3 & l & rows & R1 & R2 & R3). destruct (aentry_table f d W E1 E2 E3) as (rows' & T1 & T2 & T3).
  assert (rows' = rows) as -> by congruence. unfold dw_rows_of. rewrite R1. cbn [rows_list].
  split.
  - assert (zlen l = zlen rows) by (clear - R3; unfold zlen; induction R3; cbn [Datatypes.length]; lia). lia.
  - clear - R3 T3. induction R3 as [|r r' l l' (S1 & S2 & S3 & S4) R3 IH]; [constructor|]. inversion T3 as [|? ? U T4]; subst.
    constructor; [|exact (IH T4)]. unfold arm_row in *. rewrite S3, !S4. exact U.
Qed.

Lemma arm_unclashed f r : af_wf f -> arm_row f r -> ~ clash Aarch64 None r.
Proof.
  intros HWf HR (base & cfa & ra & fp & m & (R1 & _ & R3 & _ & R5) & Hd & Hm & Hi). cbn [reg_ra reg_fp] in *.
  destruct HR as [E|(signed & k & n & K & E1 & E2 & E3)]; [congruence|]. unfold af_wf in HWf. rewrite K in HWf.
  assert (cfa = 8 * k) by congruence. assert (ra = 8 - 8 * k) by congruence.
  assert (Hfp : fp = Some (- (8 * k))).
  { destruct fp as [o|]; [destruct R5 as [R5 _]; congruence|destruct R5; congruence]. }
  subst. unfold stored_for in Hi, Hd. cbn [app In] in Hi. unfold dominant in Hd. cbn -[Z.mul Z.sub Z.opp Z.abs Z.ltb] in Hd.
  repeat match type of Hd with context [if ?a <? ?b then _ else _] => destruct (Z.ltb_spec a b) end; injection Hd as <-; lia.
Qed.

Lemma arm_unconfused f c d : af_wf f -> 0 <= df_len d -> Forall (arm_row f) (dw_rows_of d) -> follows_dwarf c d ->
  unconfused Aarch64 None c d.
Proof.
  intros HWf Hl HU F x st Hr S HC. assert (Hx' : df_start d <= x < df_start d + df_len d) by (unfold in_range in Hr; lia).
  destruct (follows_covers c d x Hl F Hx') as (r & Hr0).
  destruct (follows_at c d x r Hl F ltac:(lia) Hr0) as (t & T1 & T2 & T3). assert (t = st) by congruence. subst t.
  rewrite Forall_forall in HU. specialize (HU r (proj1 Hr0)). apply (arm_unclashed f r HWf HU).
  destruct HC as (base & cfa & ra & fp & m & R & Hm). exists base, cfa, ra, fp, m. split; [|exact Hm].
  apply (as_row_same Aarch64 r st T2 T3), R.
Qed.

Lemma aentries_in fs l d : Forall2 awritten_for fs l -> In d l -> exists f, In f fs /\ awritten_for f d.
Proof.
  induction 1 as [|f x fs l E H IH]; intros Hd; [destruct Hd|]. destruct Hd as [<-|Hd]; [exists f; split; [left; reflexivity|exact E]|].
  destruct (IH Hd) as (g & G1 & G2). exists g. split; [right; exact G1|exact G2].
Qed.
Lemma in_aentries fs l f : Forall2 awritten_for fs l -> In f fs -> exists d, In d l /\ awritten_for f d.
Proof.
  induction 1 as [|g x fs l E H IH]; intros Hf; [destruct Hf|]. destruct Hf as [<-|Hf]; [exists x; split; [left; reflexivity|exact E]|].
  destruct (IH Hf) as (d & D1 & D2). exists d. split; [right; exact D1|exact D2].
Qed.
Lemma af_len_pos f : af_wf f -> 0 < af_len f.
Proof. unfold af_wf. akinds. destruct (af_kind f) as [|[|]]; lia. Qed.

Lemma aentries_distinct fs l : Forall2 awritten_for fs l -> NoDup fs -> (forall f, In f fs -> af_wf f) -> afunctions_apart fs ->
  NoDup (map df_start l).
Proof.
  induction 1 as [|f x fs l E H IH]; intros N W A; [constructor|]. inversion N as [|? ? N1 N2]; subst. cbn. constructor.
  - intros Hi. apply in_map_iff in Hi. destruct Hi as (d & Ed & Hd). destruct (aentries_in _ _ _ H Hd) as (g & G1 & (G2 & _)).
    destruct E as (E1 & _). assert (f = g); [|congruence].
    apply (A f g (af_start f)); [left; reflexivity|right; exact G1| |]; [pose proof (af_len_pos f (W f (or_introl eq_refl))); lia|].
    pose proof (af_len_pos g (W g (or_intror G1))). lia.
  - apply IH; [exact N2|intros g Hg; apply W; right; exact Hg|]. intros g g' a Hg Hg'. apply A; right; assumption.
Qed.

Section Compiled.
  Context (fs : list afunc) (eh : eh_frame).
  Hypothesis HT : eh_typed eh.
  Hypothesis HC : acompiled fs (eh_entries eh).
  Hypothesis HM : amoderate fs.

  Lemma acompiled_last d : last_at eh d <-> In d (functions (entries_of eh)).
  Proof.
    apply distinct_last. destruct HC as (_ & _ & H), HM as (M1 & M2 & M3 & _). apply (aentries_distinct fs); try assumption.
    intros f Hf. apply M1, Hf.
  Qed.
  Lemma acompiled_entry d : last_at eh d -> exists f, In f fs /\ awritten_for f d.
  Proof. intros H. apply acompiled_last in H. destruct HC as (_ & _ & H2). exact (aentries_in _ _ _ H2 H). Qed.
  Lemma acompiled_wf f : In f fs -> af_wf f.
  Proof. intros H. apply HM, H. Qed.
  Lemma acompiled_followed : programs_followed eh (fun _ => ausual_cie).
  Proof. intros d Hd. destruct (acompiled_entry d Hd) as (f & _ & (_ & _ & _ & H)). exact H. Qed.
  Lemma acompiled_at f o : In f fs -> 0 <= o < af_len f ->
    exists d st base mg cfa ra fp, last_at eh d /\ in_range (df_start d) (df_len d) (af_start f + o) /\ cfi_at ausual_cie d (af_start f + o) = Some st /\
      expressible Aarch64 (as_row st) 30 base mg cfa ra fp /\ right_unwind f o (Unwind base mg (Some cfa) ra fp) /\
      (saved f o -> forall k n, af_kind f = AFrame false k n -> base = Sp /\ mg = false /\ cfa = 8 * k /\ ra = Some (8 - 8 * k) /\ fp = Some (- (8 * k))).
  Proof.
    intros Hf Ho. destruct HC as (_ & _ & H2). destruct (in_aentries _ _ _ H2 Hf) as (d & Hd & (E1 & E2 & E3 & _)).
    destruct HM as (M1 & _). destruct (M1 f Hf) as (W & _ & _ & _ & Wr). destruct (aentry_at f d o W Wr E1 E3 Ho) as (st & base & mg & cfa & ra & fp & S).
    exists d, st, base, mg, cfa, ra, fp. split; [apply acompiled_last, Hd|]. split; [unfold in_range; lia|]. exact S.
  Qed.
  Lemma acompiled_apart : apart eh.
  Proof.
    intros d d' Hd Hd' Hne Hr. destruct (acompiled_entry d Hd) as (f & F1 & (E1 & E2 & _)). destruct (acompiled_entry d' Hd') as (g & G1 & (E1' & E2' & _)).
    unfold in_range in Hr. pose proof (af_len_pos g (acompiled_wf g G1)).
    destruct HM as (_ & _ & A & _). assert (f = g) by (apply (A f g (df_start d')); [assumption|assumption|lia|lia]). subst g. lia.
  Qed.
  Lemma acompiled_len d : last_at eh d -> 0 <= df_len d.
  Proof. intros H. exact (last_len _ _ HT H). Qed.

  Lemma aentries_sum (size : dw_fde -> Z) l l' : Forall2 awritten_for l l' -> (forall d, In d l' -> size d <= 5) ->
    zlen l' = zlen l /\ sumz (map size l') <= 5 * zlen l.
  Proof.
    induction 1 as [|f x l l' E H IH]; intros HS; [unfold zlen, sumz; cbn; lia|]. destruct IH as [I1 I2]; [intros d Hd; apply HS; right; exact Hd|].
    specialize (HS x (or_introl eq_refl)). unfold zlen in *. cbn [Datatypes.length map sumz fold_right] in *. unfold sumz in *. cbn [fold_right]. lia.
  Qed.
  Lemma acompiled_rows d : last_at eh d -> zlen (dw_rows_of d) <= 5 /\ exists f, In f fs /\ Forall (arm_row f) (dw_rows_of d).
  Proof.
    intros H. destruct (acompiled_entry d H) as (f & F1 & E). destruct (aentry_rows f d (acompiled_wf f F1) E). eauto.
  Qed.
  Lemma acompiled_count : countable (function_count eh) (table_rows eh).
  Proof.
    destruct HC as (_ & _ & H2). destruct HM as (_ & _ & _ & M). unfold countable, function_count, table_rows.
    destruct (aentries_sum (fun f => zlen (wide_rows f)) _ _ H2) as [S1 S2].
    { intros d Hd. assert (L : last_at eh d) by (apply acompiled_last; exact Hd). destruct (acompiled_rows d L) as (R1 & _).
      assert (zlen (wide_rows d) <= zlen (dw_rows_of d)); [|lia]. unfold wide_rows, zlen.
      clear. induction (dw_rows_of d) as [|r l IH]; cbn [filter]; [lia|]. destruct (wideb r); cbn [Datatypes.length]; lia. }
    unfold entries_of. rewrite S1. pose proof (zlen_nonneg fs). split; lia.
  Qed.
  Lemma acompiled_dump d : last_at eh d -> df_dump d = None.
  Proof.
    intros H. destruct (acompiled_entry d H) as (f & _ & (_ & _ & E & _)). unfold df_dump. rewrite E. unfold aprogram_of. destruct (af_kind f) as [|[|]]; reflexivity.
  Qed.
  Lemma acompiled_bounds d : last_at eh d -> fits_section d /\ df_len d <= 0x10000000.
  Proof.
    intros H. destruct (acompiled_entry d H) as (f & F1 & (E1 & E2 & _)). destruct HM as (M & _). destruct (M f F1) as (W & M2 & M3 & M4 & _).
    pose proof (af_len_pos f W). unfold fits_section. lia.
  Qed.

  (** *** With the repairs *)

  Theorem acompiled_repaired md md' op c e : op_arch op = Aarch64 -> (forall d, c d = 30) ->
    exists s bs, dwarf2sframe_repaired md op c eh = Ok s /\ build_repaired md' e s = Ok bs /\
      aalways_walked eh fs anywhere (std_tells e bs) /\
      forall md'', wf_mode md'' -> rust_slice md'' bs ->
        exists sf, load md'' e bs = Ok sf /\ aalways_walked eh fs anywhere (looked_up_whole md'' e sf).
  Proof.
    intros Ha H30. destruct (takeable_walks md md' op c eh (fun _ => ausual_cie) e HT) as (s & bs & H1 & H2 & _).
    - apply HC.
    - intros x Hi. destruct x as [|g|d]; [exact I|destruct HC as (_ & N & _); exact (N g Hi)|].
      assert (L : last_at eh d) by (apply acompiled_last, in_functions, Hi). destruct (acompiled_bounds d L) as [B1 B2].
      split; [exact B1|]. split; [exact B2|]. split; [exact (acompiled_followed d L)|].
      intros x st base mg cfa ra fp o _ _ _ Hx. unfold fixed_ra_of, header_ra in Hx. rewrite Ha in Hx. discriminate.
    - intros (f & g & F & G & Hne & Hr). exact (acompiled_apart f g F G Hne Hr).
    - exact acompiled_count.
    - exists s, bs. split; [exact H1|]. split; [exact H2|].
      assert (HA : afunctions_apart fs) by apply HM.
      assert (HD : forall f o, In f fs -> 0 <= o < af_len f -> exists d, last_at eh d /\ in_range (df_start d) (df_len d) (af_start f + o)).
      { intros f o Hf Ho. destruct (acompiled_at f o Hf Ho) as (d & st & _ & _ & _ & _ & _ & D1 & D2 & _). eauto. }
      assert (Both : forall md'', wf_mode md'' -> rust_slice md'' bs -> exists sf, load md'' e bs = Ok sf /\
        aalways_walked eh fs anywhere (std_tells e bs) /\ aalways_walked eh fs anywhere (looked_up_whole md'' e sf)).
      { intros md'' Hm Hs.
        destruct (repaired_program md md' md'' op c eh s e bs _ HT H1 H2 Hm Hs acompiled_followed) as (sf & HL & P1 & P2 & P3 & P4).
        assert (W : aalways_walked eh fs anywhere (std_tells e bs)).
        { apply aalways_walked_by; [exact acompiled_wf|exact HA|exact HD| |].
          - intros f o Hf Ho _. destruct (acompiled_at f o Hf Ho) as (d & st & base & mg & cfa & ra & fp & D1 & D2 & D3 & D4 & D5 & _).
            destruct (P1 (af_start f + o) (as_row st) 30) as (u & [U1 _] & _ & U2).
            { exists d, st. rewrite H30. auto. }
            rewrite Ha in U1. apply U1 in D4. subst u. exists (Unwind base mg (Some cfa) ra fp). split; [exact D5|].
            intros u. split; [intros T; exact (P4 _ _ _ T U2)|intros ->; exact U2].
          - intros a u T. destruct (P3 a KeyA u T) as (_ & r & k & d & st & D1 & D2 & _). eauto. }
        exists sf. split; [exact HL|]. split; [exact W|].
        intros sign strip bias back s0 st x w X1 X2 X3 X4 X5 X6 X7 X8 l. specialize (W sign strip bias back s0 st x w X1 X2 X3 X4 X5 X6 X7 X8 l).
        rewrite <- W. split; apply lk_walk_ext; intros a u; [|symmetry]; apply P2. }
      split; [|intros md'' Hm Hs; destruct (Both md'' Hm Hs) as (sf & HL & _ & W); eauto].
      assert (Hs : rust_slice rel64 bs).
      { pose proof (xconverted_made _ _ _ _ (repaired_converted _ _ _ _ _ HT H1)) as HX.
        destruct (x_header md' e s bs (xconv_reach _ _ _ _ HX md') H2) as (Hz & _).
        destruct (made_count _ _ _ _ HX) as [N1 N2]. destruct acompiled_count as [K1 K2]. pose proof (exact_bound s).
        unfold rust_slice. change (usize_bits rel64) with 64. unfold u32_max in *. lia. }
      destruct (Both rel64 wf_rel64 Hs) as (sf & _ & W & _). exact W.
  Qed.

  (** *** As the converter is *)

  Section AsIs.
    Context (md md' : mode) (op : options) (e : endian) (s : sfb) (bs : bytes).
    Hypothesis Ha : op_arch op = Aarch64.

    Lemma acompiled_fixed : fixed_ra_of op eh = None.
    Proof. unfold fixed_ra_of, header_ra. rewrite Ha. reflexivity. Qed.
    Lemma acompiled_unconfused c d : last_at eh d -> follows_dwarf c d -> unconfused Aarch64 None c d.
    Proof.
      intros Hd F. destruct (acompiled_rows d Hd) as (_ & f & Hf & HR). apply (arm_unconfused f); [apply acompiled_wf, Hf|apply acompiled_len, Hd|exact HR|exact F].
    Qed.
    Theorem acompiled_converts : exists s bs, dwarf2sframe md op eh = Ok s /\ build md' e s = Ok bs.
    Proof.
      destruct (ordinary_section md md' op eh e HT) as (s' & bs' & H1 & H2 & _); [apply HC| |exact acompiled_apart|exact acompiled_count| |eauto].
      - intros x Hi. destruct x as [|g|d]; [exact I|destruct HC as (_ & N & _); exact (N g Hi)|].
        assert (L : last_at eh d) by (apply acompiled_last, in_functions, Hi). destruct (acompiled_bounds d L) as [[B1 B1'] B2]. split.
        + split; [exact B1|]. split; [exact B2|]. exists ausual_cie. split; [exact (acompiled_followed d L)|].
          intros x st base cfa ra fp o _ _ _ Hx. rewrite acompiled_fixed in Hx. discriminate.
        + split; [|intros _; apply acompiled_dump, L]. intros (_ & _ & O). unfold i32_max in B1. lia.
      - intros c d Hd F. rewrite acompiled_fixed, Ha. apply acompiled_unconfused; assumption.
    Qed.

    Hypothesis H1 : dwarf2sframe md op eh = Ok s.
    Hypothesis H2 : build md' e s = Ok bs.

    (** What is told, by the library or by the specification. *)
    Definition tells_as_is (tells : Z -> unwind -> Prop) : Prop :=
      (forall d x, last_at eh d -> in_range (df_start d) (df_len d) x -> exists st u, cfi_at ausual_cie d x = Some st /\ tells x u /\
         matches Aarch64 (as_row st) u /\ forall u', tells x u' -> u' = u) /\
      forall x u, tells x u -> exists d, last_at eh d /\ in_range (df_start d) (df_len d) x.

    Lemma acompiled_good : forall f, last_at eh f -> (exists c, follows_dwarf c f) /\
      forall r, In r (wide_rows f) -> ~ clash (op_arch op) (fixed_ra_of op eh) r.
    Proof.
      intros f Hf. split; [exists ausual_cie; apply acompiled_followed, Hf|]. intros r Hr. rewrite acompiled_fixed, Ha.
      destruct (acompiled_rows f Hf) as (_ & g & Hg & HR). rewrite Forall_forall in HR. apply filter_In in Hr.
      apply (arm_unclashed g); [apply acompiled_wf, Hg|apply HR, Hr].
    Qed.
    Lemma acompiled_std : tells_as_is (std_tells e bs).
    Proof.
      destruct (std_program_preserved md md' op eh s e bs HT H1 H2 acompiled_good) as (P1 & P2). split.
      - intros d x Hd Hx. destruct (P1 ausual_cie d x Hd (acompiled_followed d Hd) Hx) as (st & u & U1 & U2 & U3 & U4). rewrite Ha in U3.
        exists st, u. split; [exact U1|]. split; [exact U2|]. split; [exact U3|]. intros u' T. exact (proj2 (U4 _ _ T)).
      - intros x u. apply P2.
    Qed.
    Lemma acompiled_lib md'' : wf_mode md'' -> rust_slice md'' bs -> exists sf, load md'' e bs = Ok sf /\ tells_as_is (section_says md'' e sf).
    Proof.
      intros Hm Hs. destruct (program_preserved md md' md'' op eh s e bs HT H1 H2 Hm Hs acompiled_good) as (sf & HL & P1 & P2). exists sf. split; [exact HL|]. split.
      - intros d x Hd Hx. destruct (P1 ausual_cie d x Hd (acompiled_followed d Hd) Hx) as (st & u & U1 & U2 & U3 & U4). rewrite Ha in U3. exists st, u. auto.
      - exact P2.
    Qed.

    (** Right where the return address has been saved, if no function signs. *)
    Lemma as_is_saved tells : tells_as_is tells -> (forall f k n, In f fs -> af_kind f <> AFrame true k n) -> aalways_walked eh fs saved tells.
    Proof.
      intros (P1 & P2) HU. apply aalways_walked_by; [exact acompiled_wf|apply HM| | |exact P2].
      - intros f o Hf Ho. destruct (acompiled_at f o Hf Ho) as (d & st & _ & _ & _ & _ & _ & D1 & D2 & _). eauto.
      - intros f o Hf Ho Hs. assert (Hs' : saved f o) by tauto. destruct (acompiled_at f o Hf Ho) as (d & st & base & mg & cfa & ra & fp & D1 & D2 & D3 & D4 & D5 & D6).
        specialize (D6 Hs'). unfold saved in Hs'. destruct (af_kind f) as [|[|] k n] eqn:K; [destruct Hs'|destruct (HU f k n Hf K)|].
        destruct (D6 k n eq_refl) as (-> & -> & -> & -> & ->).
        destruct (P1 d (af_start f + o) D1 D2) as (st' & u & U1 & U2 & [U3 _] & U4). assert (st' = st) as -> by congruence.
        assert (R : representable Aarch64 (as_row st) Sp (8 * k) (8 - 8 * k) (Some (- (8 * k)))).
        { destruct D4 as (X1 & X2 & _ & _ & _ & X5 & X6 & X7). repeat (split; [assumption|]). exact X5. }
        apply U3 in R. subst u. exists (Unwind Sp false (Some (8 * k)) (Some (8 - 8 * k)) (Some (- (8 * k)))). split; [exact D5|].
        intros u. split; [apply U4|intros ->; exact U2].
    Qed.

    (** Nothing is said of the first instruction of any function, so no walk from there finds the caller. *)
    Lemma as_is_first tells f : tells_as_is tells -> In f fs -> ~ aalways_walked eh fs anywhere tells.
    Proof.
      intros (P1 & P2) Hf HX.
      assert (Ho : 0 <= 0 < af_len f) by (pose proof (af_len_pos f (acompiled_wf f Hf)); lia).
      assert (Hlow : forall g, In g fs -> 0 <= af_start g /\ af_start g + af_len g <= 2147483647).
      { intros g Hg. destruct HM as (M & _). destruct (M g Hg) as (W & M1 & M2 & _). unfold i32_max in M2. lia. }
      set (x := AThread (af_start f) 0 0 (2 ^ 40) (fun _ => 0)).
      set (w := World (fun _ => Some 0) (fun _ _ _ => None) (fun v => v) (fun _ p => p) true).
      assert (Hw : awalked w tells [caller (2 ^ 40) 0 0] x).
      { apply (HX (fun v _ => v) (fun v => v) 0 (2 ^ 40) ([caller (2 ^ 40) 0 0], x)).
        - intros v s' _. reflexivity.
        - intros g Hg. specialize (Hlow g Hg). lia.
        - unfold canonical. lia.
        - exists f, 0, 0, (fun _ => 0). split; [exact Hf|]. split; [lia|reflexivity].
        - apply aruns_none.
        - split; [reflexivity|]. split; [reflexivity|]. split; [intros p; cbn; lia|]. intros p. left. cbn. lia.
        - intros d Hd. destruct (acompiled_entry d Hd) as (g & Hg & (E1 & E2 & _)). specialize (Hlow g Hg). unfold in_range. lia.
        - intros g o _ _ _. exact I. }
      assert (H : walk (lk_step w tells) (frame_of_athread x) [caller (2 ^ 40) 0 0]) by (apply Hw; exists []; reflexivity).
      inversion H as [|? y l (u & b & c & v & T & _ & C & _) _]; subst. cbn in T.
      destruct (acompiled_at f 0 Hf Ho) as (d & st & base & mg & cfa & ra & fp & D1 & D2 & D3 & D4 & D5 & _). rewrite Z.add_0_r in D2, D3.
      destruct (P1 d (af_start f) D1 D2) as (st' & u' & U1 & U2 & [_ U3] & U4). assert (st' = st) as -> by congruence. apply U4 in T. subst u'.
      destruct U3 as [U3 _]; [|congruence]. intros base' cfa' ra' fp' (_ & _ & R3 & _).
      assert (Er : ra = None).
      { unfold right_unwind in D5. unfold af_len, af_ret, af_save in *. destruct (af_kind f) as [|[|]];
        repeat match goal with H : _ \/ _ |- _ => destruct H | H : _ /\ _ |- _ => destruct H end;
        try match goal with H : Unwind _ _ _ _ _ = Unwind _ _ _ _ _ |- _ => injection H; intros; subst end; first [reflexivity|lia|discriminate]. }
      subst ra. destruct D4 as (_ & _ & _ & _ & _ & _ & _ & _ & R). cbn [reg_ra] in *. destruct R; congruence.
    Qed.

    (** Where a signed return address has been saved, the walk gives it with its signature. *)
    Lemma as_is_signed tells f k n : tells_as_is tells -> In f fs -> af_kind f = AFrame true k n -> ~ aalways_walked eh fs saved tells.
    Proof.
      intros (P1 & P2) Hf K HX. pose proof (acompiled_wf f Hf) as W. unfold af_wf in W. rewrite K in W.
      assert (Ho : 0 <= 8 < af_len f) by (unfold af_len, af_ret, af_save; rewrite K; lia).
      assert (Hlow : forall g, In g fs -> 0 <= af_start g /\ af_start g + af_len g <= 2147483647).
      { intros g Hg. destruct HM as (M & _). destruct (M g Hg) as (Wg & M1 & M2 & _). unfold i32_max in M2. lia. }
      assert (Hk : 8 * k <= 2147483647).
      { destruct HM as (M & _). destruct (M f Hf) as (_ & _ & _ & _ & M5). rewrite K in M5. unfold i32_max in M5. exact M5. }
      set (v0 := 2 ^ 40 + 2 ^ 48). set (mem := fun a => if a =? 8 then v0 else 0).
      set (x := AThread (0 + af_start f + af_save true + 4) (8 * k - 8 * k) 0 v0 mem).
      set (w := World (fun a => Some (mem a)) (fun _ _ _ => None) (fun v => v mod 2 ^ 48) (fun _ p => p) true).
      assert (Hw : awalked w tells [caller (2 ^ 40) (8 * k) 0] x).
      { apply (HX (fun v _ => v + 2 ^ 48) (fun v => v mod 2 ^ 48) 0 (2 ^ 40) ([caller (2 ^ 40) (8 * k) 0], AThread (0 + af_start f) (8 * k) 0 (2 ^ 40) (fun _ => 0))).
        - intros v s' Hv. unfold canonical in Hv. rewrite <- (Z.mul_1_l (2 ^ 48)) at 1. rewrite Z.mod_add by lia. apply Z.mod_small, Hv.
        - intros g Hg. specialize (Hlow g Hg). lia.
        - unfold canonical. lia.
        - exists f, (8 * k), 0, (fun _ => 0). split; [exact Hf|]. split; [lia|reflexivity].
        - eapply aruns_more; [eapply aruns_more; [apply aruns_none|]|].
          + apply (a_pac _ _ _ _ _ f k n); assumption.
          + apply (a_stp _ _ _ _ _ f true k n); [exact Hf|exact K|lia| | |].
            * replace (8 * k - 8 * k) with 0 by lia. reflexivity.
            * replace (8 * k - 8 * k + 8) with 8 by lia. reflexivity.
            * intros a Ha'. unfold mem. destruct (Z.eqb_spec a 8); [lia|reflexivity].
        - split; [reflexivity|]. split; [reflexivity|]. split; [intros p; cbn; lia|]. intros p. left. cbn. lia.
        - intros d Hd. destruct (acompiled_entry d Hd) as (g & Hg & (E1 & E2 & _)). specialize (Hlow g Hg). unfold in_range. lia.
        - intros g o Hg Ho' E. assert (g = f) as ->.
          { destruct HM as (_ & _ & A & _). apply (A g f (af_start g + o)); [exact Hg|exact Hf|lia|]. cbn in E. lia. }
          unfold saved. rewrite K. cbn in E. cbn. lia. }
      assert (H : walk (lk_step w tells) (frame_of_athread x) [caller (2 ^ 40) (8 * k) 0]) by (apply Hw; exists []; reflexivity).
      inversion H as [|? y l (u & b & c & v & T & B & C & V & _ & Y & _) _]; subst.
      replace (w_look w (lx_first (frame_of_athread x)) (lx_pc (frame_of_athread x))) with (af_start f + 8) in T by (cbn; lia).
      destruct (acompiled_at f 8 Hf Ho) as (d & st & base & mg & cfa & ra & fp & D1 & D2 & D3 & D4 & D5 & _).
      destruct (P1 d (af_start f + 8) D1 D2) as (st' & u' & U1 & U2 & [U3 _] & U4). assert (st' = st) as -> by congruence. apply U4 in T. subst u'.
      assert (E : base = Sp /\ cfa = 8 * k /\ ra = Some (8 - 8 * k) /\ fp = Some (- (8 * k))).
      { unfold right_unwind in D5. rewrite K in D5. unfold af_save in D5. destruct D5 as [[D5 _]|[(_ & D5 & _)|[(_ & D5)|(D5 & _)]]]; [lia|lia| |lia].
        injection D5 as -> _ -> -> ->. auto. }
      destruct E as (-> & -> & -> & ->).
      assert (R : representable Aarch64 (as_row st) Sp (8 * k) (8 - 8 * k) (Some (- (8 * k)))).
      { destruct D4 as (X1 & X2 & _ & _ & _ & X5 & X6 & X7). repeat (split; [assumption|]). exact X5. }
      apply U3 in R. subst u. cbn [uw_base uw_cfa uw_ra uw_mangled] in *. cbn in B. injection B as <-. injection C as <-.
      rewrite (plus64_small (8 * k - 8 * k) (8 * k)), plus64_small in V by lia.
      replace (8 * k - 8 * k + 8 * k + (8 - 8 * k)) with 8 in V by lia. cbn in V. injection V as <-. vm_compute in Y. discriminate Y.
    Qed.
  End AsIs.
End Compiled.

(** ** As in the statements *)

Theorem arm_first fs eh md md' op e : eh_typed eh -> acompiled fs (eh_entries eh) -> amoderate fs -> fs <> [] ->
  op_arch op = Aarch64 ->
  exists s bs, dwarf2sframe md op eh = Ok s /\ build md' e s = Ok bs /\ ~ aalways_walked eh fs anywhere (std_tells e bs) /\
    forall md'', wf_mode md'' -> rust_slice md'' bs -> exists sf, load md'' e bs = Ok sf /\ ~ aalways_walked eh fs anywhere (section_says md'' e sf).
Proof.
  intros HT HC HM Hn Ha. destruct fs as [|f fs']; [contradiction|]. destruct (acompiled_converts _ eh HT HC HM md md' op e Ha) as (s & bs & H1 & H2).
  exists s, bs. split; [exact H1|]. split; [exact H2|]. split.
  - apply (as_is_first (f :: fs') eh HC HM _ f); [|left; reflexivity]. eapply acompiled_std; eassumption.
  - intros md'' Hm Hs. destruct (acompiled_lib _ eh HT HC HM md md' op e s bs Ha H1 H2 md'' Hm Hs) as (sf & HL & P). exists sf. split; [exact HL|].
    apply (as_is_first (f :: fs') eh HC HM _ f); [exact P|left; reflexivity].
Qed.

Theorem arm_signed fs eh md md' op e f k n : eh_typed eh -> acompiled fs (eh_entries eh) -> amoderate fs ->
  In f fs -> af_kind f = AFrame true k n -> op_arch op = Aarch64 ->
  exists s bs, dwarf2sframe md op eh = Ok s /\ build md' e s = Ok bs /\ ~ aalways_walked eh fs saved (std_tells e bs) /\
    forall md'', wf_mode md'' -> rust_slice md'' bs -> exists sf, load md'' e bs = Ok sf /\ ~ aalways_walked eh fs saved (section_says md'' e sf).
Proof.
  intros HT HC HM Hf K Ha. destruct (acompiled_converts _ eh HT HC HM md md' op e Ha) as (s & bs & H1 & H2).
  exists s, bs. split; [exact H1|]. split; [exact H2|]. split.
  - apply (as_is_signed fs eh HC HM _ f k n); [|exact Hf|exact K]. eapply acompiled_std; eassumption.
  - intros md'' Hm Hs. destruct (acompiled_lib _ eh HT HC HM md md' op e s bs Ha H1 H2 md'' Hm Hs) as (sf & HL & P). exists sf. split; [exact HL|].
    apply (as_is_signed fs eh HC HM _ f k n); assumption.
Qed.

Theorem arm_saved fs eh md md' op e : eh_typed eh -> acompiled fs (eh_entries eh) -> amoderate fs ->
  (forall f k n, In f fs -> af_kind f <> AFrame true k n) -> op_arch op = Aarch64 ->
  exists s bs, dwarf2sframe md op eh = Ok s /\ build md' e s = Ok bs /\ aalways_walked eh fs saved (std_tells e bs) /\
    forall md'', wf_mode md'' -> rust_slice md'' bs -> exists sf, load md'' e bs = Ok sf /\ aalways_walked eh fs saved (section_says md'' e sf).
Proof.
  intros HT HC HM HU Ha. destruct (acompiled_converts _ eh HT HC HM md md' op e Ha) as (s & bs & H1 & H2).
  exists s, bs. split; [exact H1|]. split; [exact H2|]. split.
  - apply (as_is_saved fs eh HC HM); [|exact HU]. eapply acompiled_std; eassumption.
  - intros md'' Hm Hs. destruct (acompiled_lib _ eh HT HC HM md md' op e s bs Ha H1 H2 md'' Hm Hs) as (sf & HL & P). exists sf. split; [exact HL|].
    apply (as_is_saved fs eh HC HM); assumption.
Qed.
