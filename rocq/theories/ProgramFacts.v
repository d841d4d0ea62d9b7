(** Walking a stack by call frame programs: proofs. *)
From Verif Require Export ProgramSpec.
From Verif Require Import BaseFacts CfiFacts CfiTotal StdConv WalkFacts ConvRepairedSection ConvRepairedWalk ConvRepairedProps.
From Verif Require Import WriteRepairedFacts WriteRepairedSpec V1RepairedFacts V1RepairedProps LookupFacts ConvErrors.
Open Scope Z_scope.
Open Scope list_scope.

(** ** Rules in force *)

Lemma cfi_covered eh cie column f x : eh_typed eh -> programs_followed eh cie -> last_at eh f ->
  in_range (df_start f) (df_len f) x -> exists st, cfi_at (cie f) f x = Some st /\ cfi_says eh cie column x (as_row st) (column f).
Proof.
  intros Ht Hp Hf Hx. pose proof (last_len eh f Ht Hf) as Hl. pose proof (Hp f Hf) as F.
  assert (Hx' : df_start f <= x < df_start f + df_len f) by (unfold in_range in Hx; lia).
  destruct (follows_covers (cie f) f x Hl F Hx') as (r & Hr).
  destruct (follows_at (cie f) f x r Hl F ltac:(lia) Hr) as (st & S1 & _). exists st. split; [exact S1|].
  exists f, st. auto.
Qed.

Lemma same_expressible a r r' k base m cfa ra fp : dr_cfa r' = dr_cfa r -> (forall reg, dr_register r' reg = dr_register r reg) ->
  expressible a r k base m cfa ra fp -> expressible a r' k base m cfa ra fp.
Proof.
  intros E1 E2. unfold expressible, signed_row, ra_signed. rewrite E1, !E2. tauto.
Qed.
Lemma same_conveys a r r' k u : dr_cfa r' = dr_cfa r -> (forall reg, dr_register r' reg = dr_register r reg) ->
  conveys a r k u -> conveys a r' k u.
Proof.
  intros E1 E2 [C1 C2]. split.
  - intros base m cfa ra fp H. apply C1. revert H. apply same_expressible; [symmetry; exact E1|intros; symmetry; apply E2].
  - intros H. apply C2. intros base m cfa ra fp Hx. apply (H base m cfa ra fp). revert Hx. apply same_expressible; assumption.
Qed.

(** ** As the converters are *)

Theorem program_walks md md' md'' op eh s e bs cie column w :
  eh_typed eh -> dwarf2sframe md op eh = Ok s -> build md' e s = Ok bs -> wf_mode md'' -> rust_slice md'' bs ->
  programs_followed eh cie -> (forall f, last_at eh f -> plain_program op eh cie column f) ->
  (exists sf, load md'' e bs = Ok sf /\ same_walks w (op_arch op) (cfi_says eh cie column) (section_says md'' e sf)) /\
  same_walks w (op_arch op) (cfi_says eh cie column) (std_tells e bs).
Proof.
  intros Ht H B Hm Hs Hp Hg.
  assert (Hgood : forall f, last_at eh f -> (exists c, follows_dwarf c f) /\
     forall r, In r (wide_rows f) -> ~ clash (op_arch op) (fixed_ra_of op eh) r).
  { intros f Hf. split; [exists (cie f); apply Hp, Hf|]. intros r Hr.
    apply (follows_clash _ _ (cie f) f r (last_len _ _ Ht Hf) (Hp f Hf)); [apply Hg, Hf|exact Hr]. }
  split.
  - destruct (program_preserved md md' md'' op eh s e bs Ht H B Hm Hs Hgood) as (sf & HL & P1 & P2).
    exists sf. split; [exact HL|]. apply walks_same.
    + intros x r k (f & st & F1 & F2 & F3 & -> & ->). destruct (P1 (cie f) f x F1 (Hp f F1) F2) as (st' & u & U1 & U2 & U3 & _).
      assert (st' = st) as -> by congruence. eauto.
    + intros x u Hu. destruct (P2 x u Hu) as (f & F1 & F2). destruct (cfi_covered eh cie column f x Ht Hp F1 F2) as (st & _ & S). eauto.
    + intros x u u' Hu Hu'. destruct (P2 x u Hu) as (f & F1 & F2). destruct (P1 (cie f) f x F1 (Hp f F1) F2) as (st & v & _ & _ & _ & V).
      rewrite (V u Hu), (V u' Hu'). reflexivity.
    + intros x r k (f & st & F1 & F2 & F3 & -> & ->). apply (proj2 (Hg f F1) x st F2 F3).
  - destruct (std_program_preserved md md' op eh s e bs Ht H B Hgood) as (P1 & P2). apply walks_same.
    + intros x r k (f & st & F1 & F2 & F3 & -> & ->). destruct (P1 (cie f) f x F1 (Hp f F1) F2) as (st' & u & U1 & U2 & U3 & _).
      assert (st' = st) as -> by congruence. exists u. auto.
    + intros x u Hu. destruct (P2 x KeyA u Hu) as (f & F1 & F2). destruct (cfi_covered eh cie column f x Ht Hp F1 F2) as (st & _ & S). eauto.
    + intros x u u' Hu Hu'. destruct (P2 x KeyA u Hu) as (f & F1 & F2). destruct (P1 (cie f) f x F1 (Hp f F1) F2) as (st & v & _ & _ & _ & V).
      destruct (V _ _ Hu) as [_ ->], (V _ _ Hu') as [_ ->]. reflexivity.
    + intros x r k (f & st & F1 & F2 & F3 & -> & ->). apply (proj2 (Hg f F1) x st F2 F3).
Qed.

Lemma v1_matches r u : plain_fp r ->
  (forall base cfa ra fp, v1_representable r base cfa ra fp -> u = Unwind base false (Some cfa) (Some ra) fp) ->
  ((forall base cfa ra fp, ~ v1_representable r base cfa ra fp) -> uw_cfa u = None /\ uw_mangled u = false) -> matches Amd64 r u.
Proof.
  intros HP M1 M2. split.
  - intros base cfa ra fp (E1 & E2 & E3 & E4 & E5). apply M1. repeat (split; [assumption|]).
    destruct fp as [o|]; [exact E5|]. intros o Ho. destruct E5; congruence.
  - intros Hn. apply M2. intros base cfa ra fp HR. pose proof HR as (E1 & E2 & E3 & E4 & E5).
    apply (Hn base cfa ra fp). repeat (split; [assumption|]). destruct fp as [o|]; [exact E5|].
    apply HP in HR. exact HR.
Qed.

Theorem v1_program_walks md md' md'' p eh s e bs cie column w :
  eh_typed eh -> v1_convert md p (eh_entries eh) = Ok s -> build md' e s = Ok bs -> wf_mode md'' -> rust_slice md'' bs ->
  programs_followed eh cie -> (forall f, last_at eh f -> v1_plain_program cie column f) ->
  (exists sf, load md'' e bs = Ok sf /\ same_walks w Amd64 (cfi_says eh cie column) (section_says md'' e sf)) /\
  same_walks w Amd64 (cfi_says eh cie column) (std_tells e bs).
Proof.
  intros Ht H B Hm Hs Hp Hg. assert (Te : ents_typed (eh_entries eh)) by exact Ht.
  assert (Hgood : forall f, v1_last (eh_entries eh) f -> (exists c, follows_dwarf c f) /\ forall r, In r (dw_rows_of f) -> ~ v1_clash r).
  { intros f Hf. split; [exists (cie f); apply Hp, Hf|]. intros r Hr. destruct (Hg f Hf) as (G1 & G2 & _).
    apply (v1_follows_clash (cie f) f r (last_len _ _ Ht Hf) (Hp f Hf) G2 G1 Hr). }
  split.
  - destruct (v1_program_preserved md md' md'' p (eh_entries eh) s e bs Te H B Hm Hs Hgood) as (sf & HL & P1 & P2).
    exists sf. split; [exact HL|]. apply walks_same.
    + intros x r k (f & st & F1 & F2 & F3 & -> & ->). destruct (P1 (cie f) f x F1 (Hp f F1) F2) as (st' & u & U1 & U2 & U3 & U4 & _).
      assert (st' = st) as -> by congruence. exists u. split; [exact U2|]. apply v1_matches; [|exact U3|exact U4].
      apply (proj2 (proj2 (Hg f F1)) x st F2 F3).
    + intros x u Hu. destruct (P2 x u Hu) as (f & F1 & F2). destruct (cfi_covered eh cie column f x Ht Hp F1 F2) as (st & _ & S). eauto.
    + intros x u u' Hu Hu'. destruct (P2 x u Hu) as (f & F1 & F2). destruct (P1 (cie f) f x F1 (Hp f F1) F2) as (st & v & _ & _ & _ & _ & V).
      rewrite (V u Hu), (V u' Hu'). reflexivity.
    + intros x r k (f & st & F1 & F2 & F3 & -> & ->). apply (proj2 (proj2 (Hg f F1)) x st F2 F3).
  - destruct (std_v1_preserved md md' p (eh_entries eh) s e bs Te H B Hgood) as (P1 & P2). apply walks_same.
    + intros x r k (f & st & F1 & F2 & F3 & -> & ->). destruct (P1 (cie f) f x F1 (Hp f F1) F2) as (st' & u & U1 & U2 & U3 & U4 & _).
      assert (st' = st) as -> by congruence. exists u. split; [exact U2|]. apply v1_matches; [|exact U3|exact U4].
      apply (proj2 (proj2 (Hg f F1)) x st F2 F3).
    + intros x u Hu. destruct (P2 x KeyA u Hu) as (f & F1 & F2). destruct (cfi_covered eh cie column f x Ht Hp F1 F2) as (st & _ & S). eauto.
    + intros x u u' Hu Hu'. destruct (P2 x KeyA u Hu) as (f & F1 & F2). destruct (P1 (cie f) f x F1 (Hp f F1) F2) as (st & v & _ & _ & _ & _ & V).
      destruct (V _ _ Hu) as [_ ->], (V _ _ Hu') as [_ ->]. reflexivity.
    + intros x r k (f & st & F1 & F2 & F3 & -> & ->). apply (proj2 (proj2 (Hg f F1)) x st F2 F3).
Qed.

(** ** With the repairs *)

Theorem made_program md' md'' op c eh s e bs cie : eh_typed eh -> xmade op c eh s ->
  build_repaired md' e s = Ok bs -> wf_mode md'' -> rust_slice md'' bs -> programs_followed eh cie ->
  exists sf, load md'' e bs = Ok sf /\
    (forall x r k, cfi_says eh cie c x r k -> exists u, conveys (op_arch op) r k u /\ looked_up_whole md'' e sf x u /\ std_tells e bs x u) /\
    (forall x u, looked_up_whole md'' e sf x u <-> std_tells e bs x u) /\
    (forall x k u, std_says e bs x k u -> k = KeyA /\ exists r k', cfi_says eh cie c x r k') /\
    (forall x u u', std_tells e bs x u -> std_tells e bs x u' -> u = u').
Proof.
  intros Ht HC B Hm Hs Hp.
  assert (HO : forall f, last_at eh f -> rows_disjoint f).
  { intros f Hf. apply (follows_orderly (cie f) f (last_len _ _ Ht Hf) (Hp f Hf)). }
  pose proof (xconv_reach _ _ _ _ HC md') as HR.
  destruct (both_repaired md' e s bs HR B md'' Hm Hs) as (sf & HL & HK).
  destruct (made_end_to_end md' md'' op c eh s e bs HC B Hm Hs HO) as (sf' & HL' & P1 & P2 & _).
  assert (sf' = sf) as -> by congruence. clear HL'.
  pose proof (repaired_says md' e s bs HR B) as HS.
  assert (Hin : forall x k u, std_says e bs x k u -> k = KeyA /\ in_i32 x /\ exists f, last_at eh f /\ in_range (df_start f) (df_len f) x).
  { intros x k u Hu. apply HS in Hu. destruct (xconv_only _ _ _ _ HC x k u Hu) as (E & f & r & F1 & F2 & _).
    split; [exact E|]. split; [exact (xconv_i32 _ _ _ _ HC f x F1 F2)|eauto]. }
  assert (Heq : forall x u, looked_up_whole md'' e sf x u <-> std_tells e bs x u).
  { intros x u. split.
    - intros (Hx & k & Hk). apply (HK x Hx), HS in Hk. destruct (Hin x k u Hk) as (E & _). subst k. exact Hk.
    - intros Hu. destruct (Hin x KeyA u Hu) as (_ & Hx & _). split; [exact Hx|]. exists KeyA. apply (HK x Hx), HS, Hu. }
  exists sf. split; [exact HL|]. split; [|split; [exact Heq|split]].
  - intros x r k (f & st & F1 & F2 & F3 & -> & ->). pose proof (last_len eh f Ht F1) as Hl.
    assert (Hx' : df_start f <= x < df_start f + df_len f) by (unfold in_range in F2; lia).
    destruct (follows_covers (cie f) f x Hl (Hp f F1) Hx') as (r & Hr).
    destruct (follows_at (cie f) f x r Hl (Hp f F1) ltac:(lia) Hr) as (st' & S1 & S2 & S3).
    assert (st' = st) as -> by congruence. destruct Hr as [Hr1 Hr2].
    destruct (P1 x r (c f)) as (u & U1 & U2); [exists f; auto|].
    exists u. split; [|split; [exact U1|apply Heq, U1]]. revert U2. apply same_conveys.
    + unfold as_row. cbn. rewrite S2. reflexivity.
    + intros reg. rewrite S3. reflexivity.
  - intros x k u Hu. destruct (Hin x k u Hu) as (E & _ & f & F1 & F2). split; [exact E|].
    destruct (cfi_covered eh cie c f x Ht Hp F1 F2) as (st & _ & S). eauto.
  - intros x u u' Hu Hu'. apply Heq in Hu, Hu'. eapply looked_up_once; eassumption.
Qed.

Theorem made_program_walks md' md'' op c eh s e bs cie w : eh_typed eh -> xmade op c eh s ->
  build_repaired md' e s = Ok bs -> wf_mode md'' -> rust_slice md'' bs -> programs_followed eh cie ->
  exists sf, load md'' e bs = Ok sf /\
    same_link_walks w (op_arch op) (cfi_says eh cie c) (looked_up_whole md'' e sf) /\
    same_link_walks w (op_arch op) (cfi_says eh cie c) (std_tells e bs).
Proof.
  intros Ht HC B Hm Hs Hp. destruct (made_program md' md'' op c eh s e bs cie Ht HC B Hm Hs Hp) as (sf & HL & P1 & P2 & P3 & P4).
  exists sf. split; [exact HL|]. split; apply link_walks_same.
  - intros x r k H. destruct (P1 x r k H) as (u & U1 & U2 & _). eauto.
  - intros x u Hu. apply P2 in Hu. destruct (P3 x KeyA u Hu) as (_ & H). exact H.
  - apply looked_up_once.
  - intros x r k H. destruct (P1 x r k H) as (u & U1 & _ & U2). eauto.
  - intros x u Hu. destruct (P3 x KeyA u Hu) as (_ & H). exact H.
  - exact P4.
Qed.

(** ** How much is written *)

Lemma xbuilt_count op c eh s f b : xmade op c eh s -> xbuilt op c (sb_options s) f b -> zlen (rows_of b) <= zlen (wide_rows f).
Proof.
  intros HC HB. destruct (xbuilt_inv _ _ _ _ _ HB) as (S & K & _).
  destruct (xbuilt_before _ _ _ f b HB) as (b0 & _ & _ & HP & Hsub & _).
  assert (HN : NoDup (map r_start (rows_of b))).
  { replace (map r_start (rows_of b)) with (map fst (fb_fres b)); [apply lt_sorted_nodup; exact S|].
    unfold rows_of. rewrite map_map. apply map_ext_in. intros [k x] Hk. exact (K k x Hk). }
  assert (HI : incl (map r_start (rows_of b)) (map (fun r => dr_start r - df_start f) (wide_rows f))).
  { intros k Hk. apply in_map_iff in Hk. destruct Hk as (x & <- & Hx). apply Hsub in Hx.
    eapply Permutation_in in Hx; [|exact HP]. apply in_map_iff in Hx. destruct Hx as (r & <- & Hr).
    apply in_map_iff. exists r. split; [|exact Hr]. cbn [r_start kept_row]. rewrite ximg_start. reflexivity. }
  pose proof (NoDup_incl_length HN HI) as H. rewrite !map_length in H. unfold zlen. lia.
Qed.

Lemma made_count op c eh s : xmade op c eh s -> zlen (fdes_of s) <= function_count eh /\ row_count (fdes_of s) <= table_rows eh.
Proof.
  intros HC. pose proof (xm_fdes _ _ _ _ HC) as HA. unfold function_count, table_rows, fdes_of.
  assert (G : row_count (map snd (sb_fdes s)) <= sumz (map (fun f => zlen (wide_rows f)) (functions (entries_of eh))) /\
    zlen (sb_fdes s) <= zlen (functions (entries_of eh))).
  { revert HA. generalize (functions (entries_of eh)) (sb_fdes s).
    induction 1 as [|l m f b H [IH1 IH2] Ht HB]; [unfold row_count, sumz, zlen; cbn; lia|].
    pose proof (insert_rows (df_start f) b m). pose proof (insert_count (df_start f) b m).
    pose proof (xbuilt_count op c eh s f b HC HB).
    rewrite map_app, sumz_app, zlen_app. cbn [map]. unfold sumz at 2. cbn [fold_right]. change (zlen [f]) with 1. lia. }
  destruct G as [H1 H2]. split; [|exact H1]. unfold zlen in *. rewrite map_length. exact H2.
Qed.

Lemma exact_row_bound aw r : aw <= 4 -> exact_row_size aw r <= 17.
Proof.
  intros Ha. unfold exact_row_size.
  assert (1 <= needed r <= 4) by (unfold needed; destruct (forallb _ _); [lia|destruct (forallb _ _); lia]).
  assert (0 <= zlen (stored_values r) <= 3).
  { unfold stored_values, zlen. destruct (r_offsets r) as [[cfa [ra|] [fp|]]|]; cbn; lia. }
  nia.
Qed.
Lemma exact_bound s : exact_fre_size s <= 17 * row_count (fdes_of s).
Proof.
  unfold exact_fre_size, row_count. induction (fdes_of s) as [|b l IH]; [unfold sumz; cbn; lia|]. unfold sumz in *. cbn [map fold_right].
  assert (exact_fde_size b <= 17 * zlen (rows_of b)).
  { unfold exact_fde_size. assert (Hw : start_width (rows_of b) <= 4) by (unfold start_width; destruct (_ <=? _); [lia|destruct (_ <=? _); lia]).
    revert Hw. generalize (start_width (rows_of b)) as aw. intros aw Hw.
    induction (rows_of b) as [|r t IHr]; [unfold sumz, zlen; cbn; lia|]. unfold sumz in *. cbn [map fold_right].
    pose proof (exact_row_bound aw r Hw). unfold zlen in *. cbn [length]. lia. }
  lia.
Qed.

(** ** The whole way *)

Lemma as_row_cfa r st : cs_cfa st = Some (dr_cfa r) -> dr_cfa (as_row st) = dr_cfa r.
Proof. intros H. unfold as_row. cbn. rewrite H. reflexivity. Qed.

Lemma takeable_faultless op eh cie c f : dw_fde_typed f -> takeable op eh cie c f ->
  fde_faultless (op_arch op) (fixed_ra_of op eh) c f.
Proof.
  intros (Hs & Hn & _) (O1 & O2 & F & Hra). pose proof F as (l & rows & L1 & L2 & L3).
  assert (Hl : 0 <= df_len f) by (unfold in_u64 in Hn; lia).
  pose proof (same_chain _ _ _ _ L3 (table_chain (cie f) f rows Hl L2)) as HC.
  split; [exact O1|]. exists l. split; [exact L1|].
  intros pre r post E Hw. rewrite E in HC.
  assert (Hr : In r l) by (rewrite E; apply in_or_app; right; left; reflexivity).
  destruct (chain_in _ _ _ r HC) as (C1 & C2 & C3); [rewrite <- E; exact Hr|]. unfold wide in Hw.
  assert (Hx : covers f (dr_start r) r) by (split; [unfold dw_rows_of; rewrite L1; exact Hr|lia]).
  unfold no_fault, row_faults, off, i32_max. repeat (apply Forall_cons || apply Forall_nil); cbn [fst]; [lia|lia|lia|lia| |].
  - intros (base & m & cfa & ra & fp & x & Hex & Hfix & Hne). apply Hne.
    destruct (follows_at (cie f) f (dr_start r) r Hl F C1 Hx) as (st & S1 & S2 & S3).
    apply (Hra (dr_start r) st base m cfa ra fp x); [unfold in_range; lia|exact S1| |exact Hfix].
    revert Hex. apply same_expressible; [exact (as_row_cfa r st S2)|intros reg; rewrite S3; reflexivity].
  - intros (r' & Hr' & Hw' & Heq). pose proof (chain_before _ _ _ _ _ r' HC Hr').
    assert (dr_start r' <= dr_end r') by (apply (chain_in _ _ _ r' HC), in_or_app; left; exact Hr'). unfold wide in Hw'. lia.
Qed.

Theorem takeable_walks md md' op c eh cie e : eh_typed eh -> ents_end (eh_entries eh) = None ->
  (forall x, In x (entries_of eh) -> match x with DwCie => True | DwBadFde _ => False | DwGoodFde f => takeable op eh cie c f end) ->
  ~ functions_overlap eh -> countable (function_count eh) (table_rows eh) ->
  exists s bs, dwarf2sframe_repaired md op c eh = Ok s /\ build_repaired md' e s = Ok bs /\
    forall md'' w, wf_mode md'' -> rust_slice md'' bs ->
    exists sf, load md'' e bs = Ok sf /\
      same_link_walks w (op_arch op) (cfi_says eh cie c) (looked_up_whole md'' e sf) /\
      same_link_walks w (op_arch op) (cfi_says eh cie c) (std_tells e bs).
Proof.
  intros Ht He Hall Ho [K1 K2].
  destruct (proj2 (proj1 (repaired_outcome md op c eh Ht))) as (s & H).
  { split; [|exact He]. apply Forall_forall. intros x Hx. specialize (Hall x Hx). unfold eh_typed in Ht. rewrite Forall_forall in Ht.
    specialize (Ht x Hx). destruct x as [|g|f]; cbn; [exact I|exact Hall|]. apply (takeable_faultless op eh cie); assumption. }
  pose proof (xconverted_made _ _ _ _ (repaired_converted _ _ _ _ _ Ht H)) as HC.
  destruct (made_count _ _ _ _ HC) as [N1 N2].
  destruct (made_builds md' op c eh s e HC) as (_ & _ & HB & _).
  destruct (proj2 HB) as (bs & B).
  { split; [exact Ho|]. pose proof (exact_bound s). unfold exact_too_large. lia. }
  exists s, bs. split; [exact H|]. split; [exact B|]. intros md'' w Hm Hs.
  apply (made_program_walks md' md'' op c eh s e bs cie w Ht HC B Hm Hs).
  intros f Hf. pose proof Hf as (pre & post & E & _).
  assert (Hi : In (DwGoodFde f) (entries_of eh)).
  { assert (In f (functions (entries_of eh))) as Hi by (rewrite E; apply in_or_app; right; left; reflexivity).
    clear -Hi. induction (entries_of eh) as [|[|g|f'] t IH]; cbn [functions In] in *; intuition congruence. }
  apply (Hall _ Hi).
Qed.

(** ** As in the statements *)

Theorem repaired_program md md' md'' op c eh s e bs cie : eh_typed eh -> dwarf2sframe_repaired md op c eh = Ok s ->
  build_repaired md' e s = Ok bs -> wf_mode md'' -> rust_slice md'' bs -> programs_followed eh cie ->
  exists sf, load md'' e bs = Ok sf /\
    (forall x r k, cfi_says eh cie c x r k -> exists u, conveys (op_arch op) r k u /\ looked_up_whole md'' e sf x u /\ std_tells e bs x u) /\
    (forall x u, looked_up_whole md'' e sf x u <-> std_tells e bs x u) /\
    (forall x k u, std_says e bs x k u -> k = KeyA /\ exists r k', cfi_says eh cie c x r k') /\
    (forall x u u', std_tells e bs x u -> std_tells e bs x u' -> u = u').
Proof. intros Ht H. apply made_program; [exact Ht|]. eapply xconverted_made, repaired_converted; eassumption. Qed.

Theorem repaired_program_walks md md' md'' op c eh s e bs cie w : eh_typed eh -> dwarf2sframe_repaired md op c eh = Ok s ->
  build_repaired md' e s = Ok bs -> wf_mode md'' -> rust_slice md'' bs -> programs_followed eh cie ->
  exists sf, load md'' e bs = Ok sf /\
    same_link_walks w (op_arch op) (cfi_says eh cie c) (looked_up_whole md'' e sf) /\
    same_link_walks w (op_arch op) (cfi_says eh cie c) (std_tells e bs).
Proof. intros Ht H. apply made_program_walks; [exact Ht|]. eapply xconverted_made, repaired_converted; eassumption. Qed.

Theorem v1_repaired_program_walks fx p m md md' md'' c eh s e bs cie w : repairs_rows fx -> eh_typed eh ->
  snd (v1_convert_with fx p m md c (eh_entries eh)) = Ok s ->
  build_repaired md' e s = Ok bs -> wf_mode md'' -> rust_slice md'' bs -> programs_followed eh cie ->
  exists sf, load md'' e bs = Ok sf /\
    same_link_walks w Amd64 (cfi_says eh cie c) (looked_up_whole md'' e sf) /\
    same_link_walks w Amd64 (cfi_says eh cie c) (std_tells e bs).
Proof.
  intros HF Ht H. destruct (v1_made fx p m md c eh s HF Ht H) as (_ & HM & _).
  apply (made_program_walks md' md'' v1_conv c eh s e bs cie w Ht HM).
Qed.
