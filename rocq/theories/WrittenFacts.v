(** Proofs about programs with right call frame information. *)
From Verif Require Export WrittenSpec.
From Verif Require Import BaseFacts ConvFacts ConvSection ConvProps CfiFacts CfiTotal RelateFacts StdConv WalkFacts ProgramFacts LookupFacts RunFacts CodeFacts.
From Verif Require Import WriteRepairedFacts WriteRepairedSpec ConvRepairedSection ConvRepairedWalk ConvRepairedProps ConvWitness V1Witness.
Open Scope Z_scope.
Open Scope list_scope.

(** A chain of rows that have some width is no longer than what it covers. *)
Lemma chain_wide a b l : CfiFacts.chain a b l -> zlen (filter wideb l) <= b - a.
Proof.
  revert a. induction l as [|r l IH]; cbn; intros a H; [unfold zlen; cbn; lia|]. destruct H as (H0 & H1 & H2). specialize (IH _ H2).
  unfold wideb at 1. destruct (Z.eqb_spec (dr_start r) (dr_end r)) as [E|E]; cbn [negb]; [lia|]. unfold zlen in *. cbn [Datatypes.length]. lia.
Qed.
Lemma wide_count c d : 0 <= df_len d -> follows_dwarf c d -> zlen (wide_rows d) <= df_len d.
Proof.
  intros Hl (l & rows & L1 & L2 & L3). pose proof (same_chain _ _ _ _ L3 (table_chain c d rows Hl L2)) as HC.
  unfold wide_rows, dw_rows_of. rewrite L1. cbn [rows_list]. apply chain_wide in HC. lia.
Qed.
Lemma all_wide c d : follows_dwarf c d -> advances c d -> wide_rows d = dw_rows_of d.
Proof.
  intros (l & rows & L1 & L2 & L3) (rows' & A1 & A2). assert (rows' = rows) as -> by congruence.
  unfold wide_rows, dw_rows_of. rewrite L1. cbn [rows_list]. clear - L3 A2.
  induction L3 as [|r r' l l' (S1 & S2 & _) L3 IH]; [reflexivity|]. cbn [filter]. unfold wideb at 1. pose proof (A2 r' (or_introl eq_refl)).
  destruct (Z.eqb_spec (dr_start r) (dr_end r)); [lia|]. cbn [negb]. f_equal. apply IH. intros q Hq. apply A2. right. exact Hq.
Qed.

(** Two CIEs by which the same rows follow give the same rules. *)
Lemma follow_alike c c' d x st st' : 0 <= df_len d -> follows_dwarf c d -> follows_dwarf c' d -> in_range (df_start d) (df_len d) x ->
  cfi_at c d x = Some st -> cfi_at c' d x = Some st' ->
  dr_cfa (as_row st) = dr_cfa (as_row st') /\ forall reg, dr_register (as_row st) reg = dr_register (as_row st') reg.
Proof.
  intros Hl F F' Hx S S'. assert (Hx' : df_start d <= x < df_start d + df_len d) by (unfold in_range in Hx; lia).
  destruct (follows_covers c d x Hl F Hx') as (r & Hr).
  destruct (follows_at c d x r Hl F ltac:(lia) Hr) as (t & T1 & T2 & T3). assert (t = st) by congruence. subst t.
  destruct (follows_at c' d x r Hl F' ltac:(lia) Hr) as (t & T1' & T2' & T3'). assert (t = st') by congruence. subst t.
  split; [unfold as_row; cbn; rewrite T2, T2'; reflexivity|]. intros reg. unfold as_row, dr_register. cbn. rewrite <- T3, <- T3'. reflexivity.
Qed.

Section Written.
  Context (fs : list routine) (eh : eh_frame) (cie : dw_fde -> cie_info).
  Hypothesis HT : eh_typed eh.
  Hypothesis HW : code_written fs eh cie.
  Hypothesis HS : of_size fs.

  Lemma written_checked f : In f fs -> checked f.
  Proof. intros H. apply HS, H. Qed.
  Lemma written_len f : In f fs -> 1 <= rt_len f.
  Proof. intros H. destruct (written_checked f H) as (H1 & _ & (i & Hi & E) & _). destruct (H1 i Hi) as (A & B & C & _). lia. Qed.
  Lemma written_back d : In d (functions (entries_of eh)) -> exists f, In f fs /\ entry_for cie f d.
  Proof.
    destruct HW as (_ & _ & H & _). revert H. generalize (functions (entries_of eh)) as l. clear. intros l H.
    induction H as [|f x fs l E H IH]; intros Hd; [destruct Hd|]. destruct Hd as [<-|Hd]; [exists f; split; [left; reflexivity|exact E]|].
    destruct (IH Hd) as (g & G1 & G2). exists g. split; [right; exact G1|exact G2].
  Qed.
  Lemma written_apart : routines_apart fs.
  Proof. apply HS. Qed.
  Lemma written_distinct : NoDup (map df_start (functions (entries_of eh))).
  Proof.
    destruct HW as (_ & _ & H & _). destruct HS as (_ & N & A & _). pose proof written_len as L. revert H N A L.
    generalize (functions (entries_of eh)) as l. clear. intros l H. induction H as [|f x fs l E H IH]; intros N A L; [constructor|].
    inversion N as [|? ? N1 N2]; subst. cbn. constructor.
    - intros Hi. apply in_map_iff in Hi. destruct Hi as (d & Ed & Hd).
      assert (G : exists g, In g fs /\ entry_for cie g d).
      { clear - H Hd. induction H as [|g x fs l E H IH]; [destruct Hd|]. destruct Hd as [<-|Hd]; [exists g; split; [left; reflexivity|exact E]|].
        destruct (IH Hd) as (g' & G1 & G2). exists g'. split; [right; exact G1|exact G2]. }
      destruct G as (g & G1 & (G2 & _)). destruct E as (E1 & _). assert (f = g); [|congruence].
      pose proof (L f (or_introl eq_refl)). pose proof (L g (or_intror G1)).
      apply (A f g (rt_start f)); [left; reflexivity|right; exact G1|lia|lia].
    - apply IH; [exact N2| |intros g Hg; apply L; right; exact Hg]. intros g g' a Hg Hg'. apply A; right; assumption.
  Qed.
  Lemma written_last d : last_at eh d <-> In d (functions (entries_of eh)).
  Proof. apply distinct_last, written_distinct. Qed.
  Lemma written_entry d : last_at eh d -> exists f, In f fs /\ entry_for cie f d.
  Proof. intros H. apply written_back, written_last, H. Qed.
  Lemma written_followed : programs_followed eh cie.
  Proof. intros d Hd. destruct (written_entry d Hd) as (f & _ & (_ & _ & _ & H & _)). exact H. Qed.
  Lemma written_described : code_described eh cie fs.
  Proof. apply HW. Qed.
  Lemma written_nonneg d : last_at eh d -> 0 <= df_len d.
  Proof. intros H. exact (last_len _ _ HT H). Qed.
  Lemma written_bounds d : last_at eh d -> fits_section d /\ df_len d <= 0x10000000 /\ df_start d <= i32_max.
  Proof.
    intros H. destruct (written_entry d H) as (f & F1 & (E1 & E2 & _)). pose proof (written_len f F1). destruct HS as (S & _).
    destruct (S f F1) as (_ & _ & _ & S1 & S2). unfold fits_section. lia.
  Qed.
  Lemma written_dump d : last_at eh d -> df_dump d = None.
  Proof. intros H. destruct (written_entry d H) as (f & _ & (_ & _ & E & _)). exact E. Qed.
  Lemma written_eh_apart : apart eh.
  Proof.
    intros d d' Hd Hd' Hne Hr. destruct (written_entry d Hd) as (f & F1 & (E1 & E2 & _)). destruct (written_entry d' Hd') as (g & G1 & (E1' & E2' & _)).
    unfold in_range in Hr. pose proof (written_len g G1).
    assert (f = g) by (apply (written_apart f g (df_start d')); [assumption|assumption|lia|lia]). subst g. lia.
  Qed.

  (** At every address of an entry its rule is right. *)
  Lemma written_right d x : last_at eh d -> in_range (df_start d) (df_len d) x ->
    exists f i st, In f fs /\ In i (rt_items f) /\ cfi_at (cie d) d x = Some st /\ rule_right (rt_view f (it_at i)) (as_row st) /\
      dr_register (as_row st) 7 = RUndefined.
  Proof.
    intros Hd Hx. destruct (written_entry d Hd) as (f & F1 & (E1 & E2 & _ & _ & E5)). pose proof Hx as Hx'. unfold in_range in Hx'.
    destruct HS as (S & _). destruct (S f F1) as (_ & T & _).
    destruct (T (x - rt_start f) ltac:(lia)) as (i & Hi & Hb). destruct (written_described f i (x - rt_start f) F1 Hi Hb) as (d' & st & D1 & D2 & D3 & D4).
    replace (rt_start f + (x - rt_start f)) with x in * by lia.
    assert (d' = d) as ->.
    { destruct (written_entry d' D1) as (g & G1 & (E1' & E2' & _)). unfold in_range in D2. pose proof (written_len g G1).
      assert (f = g) by (apply (written_apart f g x); [assumption|assumption|lia|lia]). subst g.
      apply (last_in_fun (functions (entries_of eh))); [apply last_at_in, D1|apply last_at_in, Hd|lia]. }
    exists f, i, st. split; [exact F1|]. split; [exact Hi|]. split; [exact D3|]. split; [exact D4|]. exact (E5 x st Hx D3).
  Qed.

  Lemma written_rule c d x st base cfa ra fp : last_at eh d -> follows_dwarf c d -> in_range (df_start d) (df_len d) x -> cfi_at c d x = Some st ->
    representable Amd64 (as_row st) base cfa ra fp ->
    exists f i, In f fs /\ In i (rt_items f) /\ ra = -8 /\
      match base with Sp => vw_sp (rt_view f (it_at i)) = Some cfa | Fp => vw_fp (rt_view f (it_at i)) = Some cfa end /\
      match fp with Some k => vw_saved (rt_view f (it_at i)) = Some k | None => True end.
  Proof.
    intros Hd F Hx Hst R. destruct (written_right d x Hd Hx) as (f & i & st' & F1 & I1 & S & (base' & cfa' & fp' & R' & V1 & V2) & _).
    destruct (follow_alike c (cie d) d x st st' (written_nonneg d Hd) F (written_followed d Hd) Hx Hst S) as (A1 & A2).
    exists f, i. split; [exact F1|]. split; [exact I1|]. destruct R as (R1 & _ & R3 & _ & R5). destruct R' as (Q1 & _ & Q3 & _ & Q5).
    rewrite A1, Q1 in R1. rewrite A2, Q3 in R3. rewrite !A2 in R5. injection R3 as <-. split; [reflexivity|].
    assert (base = base' /\ cfa = cfa') as [-> ->] by (destruct base, base'; cbn in R1; injection R1; intros; subst; try discriminate; auto).
    split; [exact V1|]. destruct fp as [k|]; [|exact I]. destruct R5 as [R5 _]. rewrite R5 in Q5. destruct fp' as [k'|].
    - destruct Q5 as [Q5 _]. injection Q5 as ->. exact V2.
    - destruct Q5; discriminate.
  Qed.
  Lemma written_v1_rule c d x st base cfa ra fp : last_at eh d -> follows_dwarf c d -> in_range (df_start d) (df_len d) x -> cfi_at c d x = Some st ->
    v1_representable (as_row st) base cfa ra fp ->
    exists f i, In f fs /\ In i (rt_items f) /\ ra = -8 /\
      match base with Sp => vw_sp (rt_view f (it_at i)) = Some cfa | Fp => vw_fp (rt_view f (it_at i)) = Some cfa end /\
      match fp with Some k => vw_saved (rt_view f (it_at i)) = Some k | None => True end.
  Proof.
    intros Hd F Hx Hst R. destruct (written_right d x Hd Hx) as (f & i & st' & F1 & I1 & S & (base' & cfa' & fp' & R' & V1 & V2) & _).
    destruct (follow_alike c (cie d) d x st st' (written_nonneg d Hd) F (written_followed d Hd) Hx Hst S) as (A1 & A2).
    exists f, i. split; [exact F1|]. split; [exact I1|]. destruct R as (R1 & _ & R3 & _ & R5). destruct R' as (Q1 & _ & Q3 & _ & Q5).
    rewrite A1, Q1 in R1. rewrite A2, Q3 in R3. injection R3 as <-. split; [reflexivity|].
    assert (base = base' /\ cfa = cfa') as [-> ->] by (destruct base, base'; cbn in R1; injection R1; intros; subst; try discriminate; auto).
    split; [exact V1|]. destruct fp as [k|]; [|exact I]. destruct R5 as [R5 _]. rewrite A2 in R5. rewrite R5 in Q5. destruct fp' as [k'|].
    - destruct Q5 as [Q5 _]. injection Q5 as ->. exact V2.
    - destruct Q5; discriminate.
  Qed.

  Lemma upright_stored fixed cfa fp m : 0 <= cfa -> (fixed = None \/ fixed = Some (-8)) -> dominant (stored_for fixed cfa (-8) fp) = Some m ->
    (m = -128 \/ m = -32768) -> In (- m) (stored_for fixed cfa (-8) fp) -> False.
  Proof.
    intros Hc Hx Hd Hm Hi. unfold stored_for in *. destruct Hx as [-> | ->], fp as [k|]; cbn -[Z.abs Z.ltb] in Hd, Hi;
      repeat match type of Hd with context [if ?a <? ?b then _ else _] => destruct (Z.ltb_spec a b) end; injection Hd as <-; lia.
  Qed.
  Lemma written_upright f i base cfa : In f fs -> In i (rt_items f) ->
    match base with Sp => vw_sp (rt_view f (it_at i)) = Some cfa | Fp => vw_fp (rt_view f (it_at i)) = Some cfa end -> 0 <= cfa.
  Proof. intros Hf Hi H. destruct HS as (S & _). destruct (S f Hf) as (_ & _ & U & _). apply (U i cfa Hi). destruct base; auto. Qed.
  Lemma written_unconfused fixed c d : (fixed = None \/ fixed = Some (-8)) -> last_at eh d -> follows_dwarf c d -> unconfused Amd64 fixed c d.
  Proof.
    intros Hx Hd F x st Hr S (base & cfa & ra & fp & m & R & Hm & Hv & Hi).
    destruct (written_rule c d x st base cfa ra fp Hd F Hr S R) as (f & i & F1 & I1 & -> & V1 & V2).
    exact (upright_stored fixed cfa fp m (written_upright f i base cfa F1 I1 V1) Hx Hm Hv Hi).
  Qed.
  Lemma written_v1_unconfused c d : last_at eh d -> follows_dwarf c d -> v1_unconfused c d.
  Proof.
    intros Hd F x st Hr S (base & cfa & ra & fp & m & R & Hm & Hv & Hi).
    destruct (written_v1_rule c d x st base cfa ra fp Hd F Hr S R) as (f & i & F1 & I1 & -> & V1 & V2).
    exact (upright_stored None cfa fp m (written_upright f i base cfa F1 I1 V1) (or_introl eq_refl) Hm Hv Hi).
  Qed.

  Lemma written_sum (size : dw_fde -> Z) : (forall d, In d (functions (entries_of eh)) -> size d <= df_len d) ->
    zlen (functions (entries_of eh)) = zlen fs /\ sumz (map size (functions (entries_of eh))) <= sumz (map rt_len fs).
  Proof.
    destruct HW as (_ & _ & H & _). revert H. generalize (functions (entries_of eh)) as l. clear. intros l H.
    induction H as [|f x fs l E H IH]; intros HZ; [unfold zlen, sumz; cbn; lia|]. destruct IH as [I1 I2]; [intros d Hd; apply HZ; right; exact Hd|].
    specialize (HZ x (or_introl eq_refl)). destruct E as (_ & E & _). unfold zlen in *. cbn [Datatypes.length map sumz fold_right] in *. unfold sumz in *. cbn [fold_right]. lia.
  Qed.
  Lemma written_count : countable (function_count eh) (table_rows eh).
  Proof.
    destruct (written_sum (fun f => zlen (wide_rows f))) as [S1 S2].
    { intros d Hd. apply written_last in Hd. exact (wide_count _ d (written_nonneg d Hd) (written_followed d Hd)). }
    destruct HS as (_ & _ & _ & K1 & K2). unfold countable, function_count, table_rows. rewrite S1. lia.
  Qed.
  Lemma written_v1_count : no_empty_rows eh cie -> countable (function_count eh) (v1_rows_total (eh_entries eh)).
  Proof.
    intros HN. destruct (written_sum (fun f => zlen (dw_rows_of f))) as [S1 S2].
    { intros d Hd. apply written_last in Hd. rewrite <- (all_wide (cie d) d (written_followed d Hd) (HN d Hd)).
      exact (wide_count _ d (written_nonneg d Hd) (written_followed d Hd)). }
    destruct HS as (_ & _ & _ & K1 & K2). unfold countable, function_count, v1_rows_total. rewrite S1. unfold entries_of in S2. lia.
  Qed.

  Lemma fixed_either op : op_arch op = Amd64 -> fixed_ra_of op eh = None \/ fixed_ra_of op eh = Some (-8).
  Proof. intros Ha. unfold fixed_ra_of, header_ra. rewrite Ha. destruct (effective_endian op eh); auto. Qed.
  Lemma written_fixed op c d : op_arch op = Amd64 -> last_at eh d -> follows_dwarf c d -> ra_fixed Amd64 (fixed_ra_of op eh) c d.
  Proof.
    intros Ha Hd F x st base cfa ra fp o Hr S R Ho. destruct (written_rule c d x st base cfa ra fp Hd F Hr S R) as (_ & _ & _ & _ & -> & _).
    destruct (fixed_either op Ha) as [E|E]; congruence.
  Qed.
  Lemma written_entries md op x : op_arch op = Amd64 -> In x (entries_of eh) -> match x with DwCie => True | DwBadFde _ => False
    | DwGoodFde f => ordinary op eh f /\ dump_fine md op f end.
  Proof.
    intros Ha Hi. destruct x as [|g|d]; [exact I|destruct HW as (_ & N & _); exact (N g Hi)|].
    assert (L : last_at eh d) by (apply written_last, in_functions, Hi). destruct (written_bounds d L) as (_ & B2 & B1). split.
    - split; [exact B1|]. split; [exact B2|]. exists (cie d). split; [exact (written_followed d L)|]. rewrite Ha.
      apply written_fixed; [exact Ha|exact L|exact (written_followed d L)].
    - split; [|intros _; apply written_dump, L]. intros (_ & _ & O). unfold i32_max in B1. lia.
  Qed.

  (** ** The converters *)

  Theorem written_walks md md' op e : op_arch op = Amd64 ->
    exists s bs, dwarf2sframe md op eh = Ok s /\ build md' e s = Ok bs /\ code_always_walked eh fs (std_tells e bs) /\
      forall md'', wf_mode md'' -> rust_slice md'' bs -> exists sf, load md'' e bs = Ok sf /\ code_always_walked eh fs (section_says md'' e sf).
  Proof.
    intros Ha. apply (code_converted md md' op eh e cie fs HT Ha (proj1 HW) (fun x => written_entries md op x Ha) written_eh_apart written_count).
    - intros c d. apply written_unconfused, fixed_either, Ha.
    - exact written_followed.
    - exact written_checked.
    - exact written_apart.
    - exact written_described.
  Qed.

  Theorem v1_written_walks md md' p e : (forall r, p r = true) -> no_empty_rows eh cie ->
    exists s bs, v1_convert md p (eh_entries eh) = Ok s /\ build md' e s = Ok bs /\ code_always_walked eh fs (std_tells e bs) /\
      forall md'', wf_mode md'' -> rust_slice md'' bs -> exists sf, load md'' e bs = Ok sf /\ code_always_walked eh fs (section_says md'' e sf).
  Proof.
    intros Hp HN. assert (Te : ents_typed (eh_entries eh)) by exact HT.
    destruct (v1_ordinary_section md md' p (eh_entries eh) e Te) as (s & bs & H1 & H2 & _).
    - apply HW.
    - intros x Hi. destruct x as [|g|d]; [exact I|destruct HW as (_ & N & _); exact (N g Hi)|].
      assert (L : last_at eh d) by (apply written_last, in_functions, Hi). destruct (written_bounds d L) as (_ & B2 & B1).
      split; [exact B1|]. split; [exact B2|]. split; [apply written_dump, L|]. split; [|auto].
      exists (cie d). split; [exact (written_followed d L)|exact (HN d L)].
    - exact written_eh_apart.
    - exact (written_v1_count HN).
    - intros c d. apply written_v1_unconfused.
    - exists s, bs. split; [exact H1|]. split; [exact H2|].
      assert (HG : forall d, last_at eh d -> v1_unconfused (cie d) d /\ advances (cie d) d).
      { intros d Hd. split; [apply written_v1_unconfused; [exact Hd|exact (written_followed d Hd)]|exact (HN d Hd)]. }
      split.
      + destruct (StdConv.v1_ordinary md md' p (eh_entries eh) s e bs Te H1 H2) as (_ & Hs & _).
        apply (v1_code_walks md md' rel64 p eh s e bs cie fs HT H1 H2 wf_rel64 Hs written_followed HG written_checked written_apart written_described).
      + intros md'' Hm Hs.
        apply (v1_code_walks md md' md'' p eh s e bs cie fs HT H1 H2 Hm Hs written_followed HG written_checked written_apart written_described).
  Qed.

  (** ** With the repairs *)

  Theorem written_repaired md md' op c e : op_arch op = Amd64 -> (forall d, c d = 16) ->
    exists s bs, dwarf2sframe_repaired md op c eh = Ok s /\ build_repaired md' e s = Ok bs /\ code_always_walked eh fs (std_tells e bs) /\
      forall md'', wf_mode md'' -> rust_slice md'' bs -> exists sf, load md'' e bs = Ok sf /\ code_always_walked eh fs (looked_up_whole md'' e sf).
  Proof.
    intros Ha H16. destruct (takeable_walks md md' op c eh cie e HT) as (s & bs & H1 & H2 & _).
    - apply HW.
    - intros x Hi. destruct x as [|g|d]; [exact I|destruct HW as (_ & N & _); exact (N g Hi)|].
      assert (L : last_at eh d) by (apply written_last, in_functions, Hi). destruct (written_bounds d L) as (B1 & B2 & _).
      split; [exact B1|]. split; [exact B2|]. split; [exact (written_followed d L)|].
      intros x st base mg cfa ra fp o Hr S X Ho. rewrite Ha in X. destruct X as (X1 & X2 & _ & _ & _ & X3 & X4).
      apply (written_fixed op (cie d) d Ha L (written_followed d L) x st base cfa ra fp o Hr S); [|exact Ho].
      split; [exact X1|]. split; [exact X2|]. split; [apply X4|]. split; [apply X4|exact X3].
    - intros (f & g & F & G & Hne & Hr). exact (written_eh_apart f g F G Hne Hr).
    - exact written_count.
    - exists s, bs. split; [exact H1|]. split; [exact H2|].
      assert (Both : forall md'', wf_mode md'' -> rust_slice md'' bs -> exists sf, load md'' e bs = Ok sf /\
        code_always_walked eh fs (std_tells e bs) /\ code_always_walked eh fs (looked_up_whole md'' e sf)).
      { intros md'' Hm Hs.
        destruct (repaired_program md md' md'' op c eh s e bs _ HT H1 H2 Hm Hs written_followed) as (sf & HL & P1 & P2 & P3 & P4).
        exists sf. split; [exact HL|].
        assert (W : forall tells : Z -> unwind -> Prop, (forall x u, tells x u <-> std_tells e bs x u) -> code_always_walked eh fs tells).
        { intros tells HE. apply (code_always_walked_by eh cie); [exact written_checked|exact written_apart|exact written_described| |].
          - intros d a st base cfa ra fp D1 D2 D3 R u. destruct (written_right d a D1 D2) as (_ & _ & st' & _ & _ & S & _ & Hsp).
            assert (st' = st) as -> by congruence.
            destruct (P1 a (as_row st) 16) as (u' & [U1 _] & _ & U2); [exists d, st; rewrite H16; auto|].
            rewrite Ha in U1. destruct R as (R1 & R2 & R3 & R4 & R5). specialize (U1 base false cfa (Some ra) fp). rewrite U1 in U2.
            2: { split; [exact R1|]. split; [exact R2|]. split; [left; exact Hsp|]. split; [reflexivity|]. split; [|split; [exact R5|split; assumption]].
                 split; [discriminate|]. intros X. exfalso. destruct X as (X & _). discriminate X. }
            rewrite HE. split; [intros T; exact (P4 _ _ _ T U2)|intros ->; exact U2].
          - intros a u T. apply HE in T. destruct (P3 a KeyA u T) as (_ & r & k & d & st & D1 & D2 & _). eauto. }
        split; apply W; [tauto|exact P2]. }
      split; [|intros md'' Hm Hs; destruct (Both md'' Hm Hs) as (sf & HL & _ & W); eauto].
      assert (Hs : rust_slice rel64 bs).
      { pose proof (xconverted_made _ _ _ _ (repaired_converted _ _ _ _ _ HT H1)) as HX.
        destruct (x_header md' e s bs (xconv_reach _ _ _ _ HX md') H2) as (Hz & _).
        destruct (made_count _ _ _ _ HX) as [N1 N2]. destruct written_count as [K1 K2]. pose proof (exact_bound s).
        unfold rust_slice. change (usize_bits rel64) with 64. unfold u32_max in *. lia. }
      destruct (Both rel64 wf_rel64 Hs) as (sf & _ & W & _). exact W.
  Qed.
End Written.
