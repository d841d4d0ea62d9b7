(** Proofs about AArch64 programs with right call frame information. *)
From Verif Require Export ArmWrittenSpec ArmCodeProps WalkLookSpec.
From Verif Require Import BaseFacts ConvFacts CfiFacts CfiTotal RelateFacts StdConv WalkFacts ProgramFacts LookupFacts RunFacts RunLook ArmRunFacts DownFacts WrittenFacts.
From Verif Require Import ConvRepairedProps ConvRepairedWalk ConvWitness ArmRunProps.
Open Scope Z_scope.
Open Scope list_scope.

Section Written.
  Context (fs : list aroutine) (eh : eh_frame) (cie : dw_fde -> cie_info).
  Hypothesis HT : eh_typed eh.
  Hypothesis HW : acode_written fs eh cie.
  Hypothesis HS : aof_size fs.

  Lemma awritten_checked f : In f fs -> achecked f.
  Proof. intros H. apply HS, H. Qed.
  Lemma awritten_len f : In f fs -> 4 <= ar_len f.
  Proof. intros H. destruct (awritten_checked f H) as (H1 & (i & Hi & E) & _). destruct (H1 i Hi) as (A & B & _). lia. Qed.
  Lemma awritten_apart : aroutines_apart fs.
  Proof. apply HS. Qed.
  Lemma awritten_back d : In d (functions (entries_of eh)) -> exists f, In f fs /\ aentry_for cie f d.
  Proof.
    destruct HW as (_ & _ & H & _). revert H. generalize (functions (entries_of eh)) as l. clear. intros l H.
    induction H as [|f x fs l E H IH]; intros Hd; [destruct Hd|]. destruct Hd as [<-|Hd]; [exists f; split; [left; reflexivity|exact E]|].
    destruct (IH Hd) as (g & G1 & G2). exists g. split; [right; exact G1|exact G2].
  Qed.
  Lemma awritten_distinct : NoDup (map df_start (functions (entries_of eh))).
  Proof.
    destruct HW as (_ & _ & H & _). destruct HS as (_ & N & A & _). pose proof awritten_len as L. revert H N A L.
    generalize (functions (entries_of eh)) as l. clear. intros l H. induction H as [|f x fs l E H IH]; intros N A L; [constructor|].
    inversion N as [|? ? N1 N2]; subst. cbn. constructor.
    - intros Hi. apply in_map_iff in Hi. destruct Hi as (d & Ed & Hd).
      assert (G : exists g, In g fs /\ aentry_for cie g d).
      { clear - H Hd. induction H as [|g x fs l E H IH]; [destruct Hd|]. destruct Hd as [<-|Hd]; [exists g; split; [left; reflexivity|exact E]|].
        destruct (IH Hd) as (g' & G1 & G2). exists g'. split; [right; exact G1|exact G2]. }
      destruct G as (g & G1 & (G2 & _)). destruct E as (E1 & _). assert (f = g); [|congruence].
      pose proof (L f (or_introl eq_refl)). pose proof (L g (or_intror G1)).
      apply (A f g (ar_start f)); [left; reflexivity|right; exact G1|lia|lia].
    - apply IH; [exact N2| |intros g Hg; apply L; right; exact Hg]. intros g g' a Hg Hg'. apply A; right; assumption.
  Qed.
  Lemma awritten_last d : last_at eh d <-> In d (functions (entries_of eh)).
  Proof. apply distinct_last, awritten_distinct. Qed.
  Lemma awritten_entry d : last_at eh d -> exists f, In f fs /\ aentry_for cie f d.
  Proof. intros H. apply awritten_back, awritten_last, H. Qed.
  Lemma awritten_followed : programs_followed eh cie.
  Proof. intros d Hd. destruct (awritten_entry d Hd) as (f & _ & (_ & _ & _ & H)). exact H. Qed.
  Lemma awritten_described : acode_described eh cie fs.
  Proof. apply HW. Qed.
  Lemma awritten_nonneg d : last_at eh d -> 0 <= df_len d.
  Proof. intros H. exact (last_len _ _ HT H). Qed.
  Lemma awritten_bounds d : last_at eh d -> fits_section d /\ df_len d <= 0x10000000 /\ df_start d <= i32_max.
  Proof.
    intros H. destruct (awritten_entry d H) as (f & F1 & (E1 & E2 & _)). pose proof (awritten_len f F1). destruct HS as (S & _).
    destruct (S f F1) as (_ & _ & S1 & S2). unfold fits_section. lia.
  Qed.
  Lemma awritten_dump d : last_at eh d -> df_dump d = None.
  Proof. intros H. destruct (awritten_entry d H) as (f & _ & (_ & _ & E & _)). exact E. Qed.
  Lemma awritten_eh_apart : apart eh.
  Proof.
    intros d d' Hd Hd' Hne Hr. destruct (awritten_entry d Hd) as (f & F1 & (E1 & E2 & _)). destruct (awritten_entry d' Hd') as (g & G1 & (E1' & E2' & _)).
    unfold in_range in Hr. pose proof (awritten_len g G1).
    assert (f = g) by (apply (awritten_apart f g (df_start d')); [assumption|assumption|lia|lia]). subst g. lia.
  Qed.
  Lemma awritten_sum (size : dw_fde -> Z) : (forall d, In d (functions (entries_of eh)) -> size d <= df_len d) ->
    zlen (functions (entries_of eh)) = zlen fs /\ sumz (map size (functions (entries_of eh))) <= sumz (map ar_len fs).
  Proof.
    destruct HW as (_ & _ & H & _). revert H. generalize (functions (entries_of eh)) as l. clear. intros l H.
    induction H as [|f x fs l E H IH]; intros HZ; [unfold zlen, sumz; cbn; lia|]. destruct IH as [I1 I2]; [intros d Hd; apply HZ; right; exact Hd|].
    specialize (HZ x (or_introl eq_refl)). destruct E as (_ & E & _). unfold zlen in *. cbn [Datatypes.length map sumz fold_right] in *. unfold sumz in *. cbn [fold_right]. lia.
  Qed.
  Lemma awritten_count : countable (function_count eh) (table_rows eh).
  Proof.
    destruct (awritten_sum (fun f => zlen (wide_rows f))) as [S1 S2].
    { intros d Hd. apply awritten_last in Hd. exact (wide_count _ d (awritten_nonneg d Hd) (awritten_followed d Hd)). }
    destruct HS as (_ & _ & _ & K1 & K2). unfold countable, function_count, table_rows. rewrite S1. lia.
  Qed.

  (** At every address of an entry its rule is right. *)
  Lemma awritten_right d x : last_at eh d -> in_range (df_start d) (df_len d) x ->
    exists f i st, In f fs /\ In i (ar_items f) /\ cfi_at (cie d) d x = Some st /\ arule_right (ar_view f (ai_at i)) (as_row st).
  Proof.
    intros Hd Hx. destruct (awritten_entry d Hd) as (f & F1 & (E1 & E2 & _ & _)). pose proof Hx as Hx'. unfold in_range in Hx'.
    destruct HS as (S & _). destruct (S f F1) as (_ & T & _).
    destruct (T (x - ar_start f) ltac:(lia)) as (i & Hi & Hb). destruct (awritten_described f i (x - ar_start f) F1 Hi Hb) as (d' & st & D1 & D2 & D3 & D4).
    replace (ar_start f + (x - ar_start f)) with x in * by lia.
    assert (d' = d) as ->.
    { destruct (awritten_entry d' D1) as (g & G1 & (E1' & E2' & _)). unfold in_range in D2. pose proof (awritten_len g G1).
      assert (f = g) by (apply (awritten_apart f g x); [assumption|assumption|lia|lia]). subst g.
      apply (last_in_fun (functions (entries_of eh))); [apply last_at_in, D1|apply last_at_in, Hd|lia]. }
    exists f, i, st. auto.
  Qed.
  Lemma awritten_down c d : (forall f, In f fs -> aupright f) -> last_at eh d -> follows_dwarf c d -> downward_program Aarch64 c d.
  Proof.
    intros HU Hd F x st Hx Hst. destruct (awritten_right d x Hd Hx) as (f & i & st' & F1 & I1 & S & (base & mg & cfa & ra & fp & X & V1 & V2 & V3)).
    destruct (follow_alike c (cie d) d x st st' (awritten_nonneg d Hd) F (awritten_followed d Hd) Hx Hst S) as (A1 & A2).
    destruct (HU f F1 i I1) as (U1 & U2). destruct X as (X1 & _ & _ & _ & _ & X6 & X7). split.
    - intros n k E. rewrite A1, X1 in E. injection E as _ <-. apply U1. destruct base; auto.
    - intros n k Hn E. rewrite A2 in E. apply U2. unfold slots. apply in_or_app. destruct Hn as [-> | ->].
      + right. destruct ra as [o|]; [|destruct X7 as (_ & _ & [X7|X7]); congruence]. destruct X7 as [X7 _]. assert (k = o) as -> by congruence.
        rewrite V3. left. reflexivity.
      + left. destruct fp as [o|]; [|destruct X6 as [X6|X6]; congruence]. destruct X6 as [X6 _]. assert (k = o) as -> by congruence.
        rewrite V2. left. reflexivity.
  Qed.
  Lemma awritten_entries md op x : op_arch op = Aarch64 -> In x (entries_of eh) -> match x with DwCie => True | DwBadFde _ => False
    | DwGoodFde f => ordinary op eh f /\ dump_fine md op f end.
  Proof.
    intros Ha Hi. destruct x as [|g|d]; [exact I|destruct HW as (_ & N & _); exact (N g Hi)|].
    assert (L : last_at eh d) by (apply awritten_last, in_functions, Hi). destruct (awritten_bounds d L) as (_ & B2 & B1). split.
    - split; [exact B1|]. split; [exact B2|]. exists (cie d). split; [exact (awritten_followed d L)|].
      intros y st base cfa ra fp o _ _ _ E. unfold fixed_ra_of, header_ra in E. rewrite Ha in E. discriminate.
    - split; [|intros _; apply awritten_dump, L]. intros (_ & _ & O). unfold i32_max in B1. lia.
  Qed.

  Theorem awritten_walks md md' op e : op_arch op = Aarch64 -> (forall f, In f fs -> aupright f) -> saved_unsigned fs ->
    exists s bs, dwarf2sframe md op eh = Ok s /\ build md' e s = Ok bs /\ acode_walked eh fs on_stack (std_tells e bs) /\
      forall md'', wf_mode md'' -> rust_slice md'' bs -> exists sf, load md'' e bs = Ok sf /\ acode_walked eh fs on_stack (section_says md'' e sf).
  Proof.
    intros Ha HU HX. apply (acode_converted md md' op eh e cie fs HT Ha (proj1 HW) (fun x => awritten_entries md op x Ha) awritten_eh_apart awritten_count).
    - intros c d. apply awritten_down, HU.
    - exact awritten_followed.
    - exact awritten_checked.
    - exact awritten_apart.
    - exact awritten_described.
    - exact HX.
  Qed.

  (** By the look-ups of the library, with the repairs of C65. *)
  Lemma awritten_within d : last_at eh d -> df_start d + df_len d <= i32_max + 1.
  Proof. intros H. destruct (awritten_bounds d H) as ((_ & B) & _). lia. Qed.
  Theorem awritten_looks md md' op e : op_arch op = Aarch64 -> (forall f, In f fs -> aupright f) -> saved_unsigned fs ->
    exists s bs, dwarf2sframe md op eh = Ok s /\ build md' e s = Ok bs /\
      forall md'', wf_mode md'' -> rust_slice md'' bs ->
      exists sf, load md'' e bs = Ok sf /\ acode_walked eh fs on_stack (looked_up all_repairs md'' e sf).
  Proof.
    intros Ha HU HX. destruct (awritten_walks md md' op e Ha HU HX) as (s & bs & H1 & H2 & _ & H3). exists s, bs.
    split; [exact H1|]. split; [exact H2|]. intros md'' Hm Hs. destruct (H3 md'' Hm Hs) as (sf & HL & W). exists sf. split; [exact HL|].
    destruct (conv_ordinary md md' op eh s e bs HT H1 H2) as (R & _ & O).
    intros sign strip bias back s0 st x w X1 X2 X3 X4 X5 X6 X7 X8 l. rewrite <- (W sign strip bias back s0 st x w X1 X2 X3 X4 X5 X6 X7 X8 l).
    pose proof (fun a u => repaired_looked_up md' md'' e s bs sf R H2 O Hm Hs HL a u (converted_within md op eh s HT H1 awritten_within)) as P.
    split; apply lk_walk_ext; intros a u; [symmetry|]; apply P.
  Qed.

  Theorem awritten_repaired md md' op c e : op_arch op = Aarch64 -> (forall d, c d = 30) ->
    exists s bs, dwarf2sframe_repaired md op c eh = Ok s /\ build_repaired md' e s = Ok bs /\ acode_walked eh fs everywhere (std_tells e bs) /\
      forall md'', wf_mode md'' -> rust_slice md'' bs -> exists sf, load md'' e bs = Ok sf /\ acode_walked eh fs everywhere (looked_up_whole md'' e sf).
  Proof.
    intros Ha H30. apply (acode_repaired_converted md md' op c eh e cie fs HT Ha H30 (proj1 HW)).
    - intros x Hi. destruct x as [|g|d]; [exact I|destruct HW as (_ & N & _); exact (N g Hi)|].
      assert (L : last_at eh d) by (apply awritten_last, in_functions, Hi). destruct (awritten_bounds d L) as (B1 & B2 & _).
      split; [exact B1|]. split; [exact B2|exact (awritten_followed d L)].
    - intros (f & g & F & G & Hne & Hr). exact (awritten_eh_apart f g F G Hne Hr).
    - exact awritten_count.
    - exact awritten_checked.
    - exact awritten_apart.
    - exact awritten_described.
  Qed.
End Written.
