(** Call frame programs and their tables: proofs (C122-C124). *)
From Verif Require Export CfiSpec RelateFacts V1Relate.
Open Scope Z_scope.
Open Scope list_scope.

(** ** The rows of a table follow each other *)

(** [l] covers [a] to [b] without gap or overlap. *)
Fixpoint chain (a b : Z) (l : list dw_row) : Prop :=
  match l with
  | [] => a = b
  | r :: t => dr_start r = a /\ a <= dr_end r /\ chain (dr_end r) b t
  end.

Lemma chain_le a b l : chain a b l -> a <= b.
Proof. revert a. induction l as [|r t IH]; cbn; intros a H; [lia|]. destruct H as (_ & H1 & H2). apply IH in H2. lia. Qed.
Lemma chain_in a b l r : chain a b l -> In r l -> a <= dr_start r /\ dr_start r <= dr_end r /\ dr_end r <= b.
Proof.
  revert a. induction l as [|x t IH]; cbn; intros a H Hr; [destruct Hr|]. destruct H as (H0 & H1 & H2).
  pose proof (chain_le _ _ _ H2). destruct Hr as [<-|Hr]; [lia|]. destruct (IH _ H2 Hr). lia.
Qed.
Lemma chain_covers a b l x : chain a b l -> a <= x < b -> exists r, In r l /\ dr_start r <= x < dr_end r.
Proof.
  revert a. induction l as [|r t IH]; cbn; intros a H Hx; [lia|]. destruct H as (H0 & H1 & H2).
  destruct (Z.lt_ge_cases x (dr_end r)) as [L|L]; [exists r; split; [auto|lia]|].
  destruct (IH _ H2 ltac:(lia)) as (r' & Hr' & Hx'). eauto.
Qed.
Lemma chain_disjoint a b l r r' : chain a b l -> In r l -> In r' l -> dr_start r < dr_start r' -> dr_end r <= dr_start r'.
Proof.
  revert a. induction l as [|x t IH]; cbn; intros a H Hr Hr' L; [destruct Hr|]. destruct H as (H0 & H1 & H2).
  destruct Hr as [<-|Hr].
  - destruct Hr' as [<-|Hr']; [lia|]. apply (chain_in _ _ _ _ H2 Hr').
  - destruct Hr' as [<-|Hr']; [|exact (IH _ H2 Hr Hr' L)]. pose proof (chain_in _ _ _ _ H2 Hr). lia.
Qed.

Lemma row_at_spec a b st r : row_at a b st = Some r -> dr_start r = a /\ dr_end r = b /\ cs_cfa st = Some (dr_cfa r) /\ dr_regs r = cs_regs st.
Proof. unfold row_at. destruct (cs_cfa st) as [c|]; [|discriminate]. intros H. injection H as <-. auto. Qed.

Lemma rows_chain c st0 b l : forall loc stack st rows, loc <= b ->
  cfi_rows c st0 b l loc stack st = Some rows -> chain loc b rows.
Proof.
  induction l as [|i t IH]; intros loc stack st rows Hb H; cbn [cfi_rows] in H.
  - destruct (row_at loc b st) as [r|] eqn:E; [|discriminate]. injection H as <-. apply row_at_spec in E. cbn. intuition lia.
  - destruct (next_loc c loc i) as [loc'|].
    + destruct (Z.leb_spec loc loc'); [|discriminate]. destruct (Z.leb_spec loc' b); [|discriminate]. cbn [andb] in H.
      destruct (row_at loc loc' st) as [r|] eqn:E; [|discriminate].
      destruct (cfi_rows c st0 b t loc' stack st) as [rows'|] eqn:E'; [|discriminate]. injection H as <-.
      apply row_at_spec in E. destruct E as (E1 & E2 & _). cbn. rewrite E2. split; [exact E1|]. split; [lia|]. eapply IH; eassumption.
    + destruct (cfi_step c (Some st0) i stack st) as [[stack' st']|]; [|discriminate]. eapply IH; eassumption.
Qed.

(** The row for an address holds the rules in force there. *)
Lemma rows_until c st0 b x l : forall loc stack st rows r, loc <= b -> loc <= x ->
  cfi_rows c st0 b l loc stack st = Some rows -> In r rows -> dr_start r <= x < dr_end r ->
  exists st', cfi_until c st0 x l loc stack st = Some st' /\ cs_cfa st' = Some (dr_cfa r) /\ dr_regs r = cs_regs st'.
Proof.
  induction l as [|i t IH]; intros loc stack st rows r Hb Hx H Hr Hc; cbn [cfi_rows] in H; cbn [cfi_until].
  - destruct (row_at loc b st) as [r0|] eqn:E; [|discriminate]. injection H as <-. destruct Hr as [<-|[]].
    apply row_at_spec in E. exists st. intuition.
  - destruct (next_loc c loc i) as [loc'|].
    + destruct (Z.leb_spec loc loc'); [|discriminate]. destruct (Z.leb_spec loc' b); [|discriminate]. cbn [andb] in H.
      destruct (row_at loc loc' st) as [r0|] eqn:E; [|discriminate].
      destruct (cfi_rows c st0 b t loc' stack st) as [rows'|] eqn:E'; [|discriminate]. injection H as <-.
      apply row_at_spec in E. destruct E as (E1 & E2 & E3 & E4). destruct Hr as [<-|Hr].
      * destruct (Z.ltb_spec x loc'); [|lia]. exists st. auto.
      * pose proof (chain_in _ _ _ _ (rows_chain c st0 b t loc' stack st rows' ltac:(lia) E') Hr).
        destruct (Z.ltb_spec x loc'); [lia|]. eapply IH; [| |exact E'|exact Hr|exact Hc]; lia.
    + destruct (cfi_step c (Some st0) i stack st) as [[stack' st']|]; [|discriminate]. eapply IH; eassumption.
Qed.

(** ** Tables of functions *)

Lemma table_chain c f rows : 0 <= df_len f -> cfi_table c f = Some rows -> chain (df_start f) (df_start f + df_len f) rows.
Proof.
  unfold cfi_table. intros Hl H. destruct (is_end (df_insns f)); [discriminate|].
  destruct (cfi_initial c (ci_initial c) [] (CfiState None [])) as [st0|]; [|discriminate]. eapply rows_chain; [lia|exact H].
Qed.
Lemma table_at c f rows r x : 0 <= df_len f -> cfi_table c f = Some rows -> df_start f <= x -> In r rows -> dr_start r <= x < dr_end r ->
  exists st, cfi_at c f x = Some st /\ cs_cfa st = Some (dr_cfa r) /\ dr_regs r = cs_regs st.
Proof.
  unfold cfi_table, cfi_at. intros Hl H Hx Hr Hc. destruct (is_end (df_insns f)); [discriminate|].
  destruct (cfi_initial c (ci_initial c) [] (CfiState None [])) as [st0|]; [|discriminate]. eapply rows_until; [| |exact H|exact Hr|exact Hc]; lia.
Qed.

Lemma same_rows_in l rows r : Forall2 same_row l rows -> In r l -> exists r', In r' rows /\ same_row r r'.
Proof. induction 1 as [|x y l l' H _ IH]; intros Hr; [destruct Hr|]. destruct Hr as [<-|Hr]; [cbn; eauto|]. destruct (IH Hr) as (r' & ? & ?). cbn. eauto. Qed.
Lemma same_rows_back l rows r : Forall2 same_row l rows -> In r rows -> exists r', In r' l /\ same_row r' r.
Proof. induction 1 as [|x y l l' H _ IH]; intros Hr; [destruct Hr|]. destruct Hr as [<-|Hr]; [cbn; eauto|]. destruct (IH Hr) as (r' & ? & ?). cbn. eauto. Qed.

Lemma follows_rows c f : follows_dwarf c f -> exists rows, cfi_table c f = Some rows /\ Forall2 same_row (dw_rows_of f) rows.
Proof. intros (l & rows & H1 & H2 & H3). exists rows. unfold dw_rows_of. rewrite H1. auto. Qed.

Theorem follows_orderly c f : 0 <= df_len f -> follows_dwarf c f -> orderly f.
Proof.
  intros Hl H. destruct (follows_rows c f H) as (rows & H1 & H2). pose proof (table_chain _ _ _ Hl H1) as HC.
  assert (HI : forall r, In r (wide_rows f) -> exists r', In r' rows /\ same_row r r').
  { intros r Hr. apply filter_In in Hr. eapply same_rows_in; [exact H2|apply Hr]. }
  split; [|split].
  - intros r r' Hr Hr' L. destruct (HI r Hr) as (q & Q1 & E1 & E2 & _), (HI r' Hr') as (q' & Q1' & E1' & E2' & _).
    pose proof (chain_disjoint _ _ _ q q' HC Q1 Q1'). lia.
  - intros r x Hr Hx. destruct (HI r Hr) as (q & Q1 & E1 & _). pose proof (chain_in _ _ _ _ HC Q1).
    destruct (chain_covers _ _ _ x HC ltac:(lia)) as (q' & Q' & Hq'). destruct (same_rows_back _ _ _ H2 Q') as (r' & R' & S1 & S2 & _).
    exists r'. split; [exact R'|lia].
  - intros r Hr. destruct (HI r Hr) as (q & Q1 & E1 & E2 & _). pose proof (chain_in _ _ _ _ HC Q1).
    apply filter_In in Hr. destruct Hr as [_ Hw]. apply wideb_spec in Hw. unfold wide in Hw. lia.
Qed.

Lemma as_row_same a r st : cs_cfa st = Some (dr_cfa r) -> (forall reg, dr_register r reg = rule_lookup reg (cs_regs st)) -> same_rule a r (as_row st).
Proof.
  intros H1 H2 base cfa ra fp.
  assert (E1 : dr_cfa (as_row st) = dr_cfa r) by (unfold as_row; cbn; rewrite H1; reflexivity).
  assert (E2 : forall reg, dr_register (as_row st) reg = dr_register r reg) by (intros reg; rewrite H2; reflexivity).
  unfold representable. rewrite E1, !E2. tauto.
Qed.

(** Every address of the function is covered, by a row with the rules in force. *)
Theorem follows_covers c f x : 0 <= df_len f -> follows_dwarf c f -> df_start f <= x < df_start f + df_len f ->
  exists r, covers f x r.
Proof.
  intros Hl H Hx. destruct (follows_rows c f H) as (rows & H1 & H2). pose proof (table_chain _ _ _ Hl H1) as HC.
  destruct (chain_covers _ _ _ x HC Hx) as (q' & Q' & Hq'). destruct (same_rows_back _ _ _ H2 Q') as (r' & R' & S1 & S2 & _).
  exists r'. split; [exact R'|lia].
Qed.
Theorem follows_at c f x r : 0 <= df_len f -> follows_dwarf c f -> df_start f <= x -> covers f x r ->
  exists st, cfi_at c f x = Some st /\ cs_cfa st = Some (dr_cfa r) /\ forall reg, dr_register r reg = rule_lookup reg (cs_regs st).
Proof.
  intros Hl H Hx [Hr Hc]. destruct (follows_rows c f H) as (rows & H1 & H2).
  destruct (same_rows_in _ _ _ H2 Hr) as (q & Q & S1 & S2 & S3 & S4).
  destruct (table_at c f rows q x Hl H1 Hx Q ltac:(lia)) as (st & T1 & T2 & T3). exists st.
  split; [exact T1|]. split; [congruence|]. intros reg. rewrite S4. unfold dr_register. rewrite T3. reflexivity.
Qed.

(** ** C122 *)

Lemma same_rule_matches a r r' u : same_rule a r r' -> matches a r u -> matches a r' u.
Proof.
  intros H [M1 M2]. split.
  - intros base cfa ra fp Hr. apply M1, H, Hr.
  - intros Hn. apply M2. intros base cfa ra fp Hr. apply (Hn base cfa ra fp), H, Hr.
Qed.

Lemma last_typed eh f : eh_typed eh -> last_at eh f -> dw_fde_typed f.
Proof.
  intros Ht (pre & post & E & _). unfold eh_typed in Ht. rewrite Forall_forall in Ht.
  assert (Hf : In (DwGoodFde f) (entries_of eh)).
  { assert (In f (functions (entries_of eh))) as Hi by (rewrite E; apply in_or_app; right; left; reflexivity).
    clear -Hi. induction (entries_of eh) as [|[|g|f'] t IH]; cbn [functions In] in *; intuition congruence. }
  exact (Ht _ Hf).
Qed.
Lemma last_len eh f : eh_typed eh -> last_at eh f -> 0 <= df_len f.
Proof.
  intros Ht (pre & post & E & _). unfold eh_typed in Ht. rewrite Forall_forall in Ht.
  assert (Hf : In (DwGoodFde f) (entries_of eh)).
  { assert (In f (functions (entries_of eh))) as Hi by (rewrite E; apply in_or_app; right; left; reflexivity).
    clear -Hi. induction (entries_of eh) as [|[|g|f'] t IH]; cbn [functions In] in *; intuition congruence. }
  destruct (Ht _ Hf) as (_ & Hn & _). unfold in_u64 in Hn. lia.
Qed.

Theorem program_preserved md md' md'' op eh s e bs : eh_typed eh -> dwarf2sframe md op eh = Ok s ->
  build md' e s = Ok bs -> wf_mode md'' -> rust_slice md'' bs ->
  (forall f, last_at eh f -> (exists c, follows_dwarf c f) /\
     forall r, In r (wide_rows f) -> ~ clash (op_arch op) (fixed_ra_of op eh) r) ->
  exists sf, load md'' e bs = Ok sf /\
    (forall c f x, last_at eh f -> follows_dwarf c f -> in_range (df_start f) (df_len f) x ->
      exists st u, cfi_at c f x = Some st /\ section_says md'' e sf x u /\ matches (op_arch op) (as_row st) u /\
        forall u', section_says md'' e sf x u' -> u' = u) /\
    forall x u, section_says md'' e sf x u -> exists f, last_at eh f /\ in_range (df_start f) (df_len f) x.
Proof.
  intros Ht H B Hm Hs Hgood.
  pose proof (fun f => last_len eh f Ht) as HL.
  destruct (conv_end_to_end md md' md'' op eh s e bs Ht H B Hm Hs) as (sf & L & P1 & P2 & P3).
  { intros f Hf. destruct (Hgood f Hf) as [[c Hc] Hn]. split; [|exact Hn]. apply (follows_orderly c f (HL f Hf) Hc). }
  exists sf. split; [exact L|]. split; [|intros x u Hu; destruct (P2 x u Hu) as (f & _ & Q1 & Q2 & _); eauto]. intros c f x Hf Hc Hx.
  assert (Hx' : df_start f <= x < df_start f + df_len f) by (unfold in_range in Hx; lia).
  destruct (follows_covers c f x (HL f Hf) Hc Hx') as (r & Hr).
  destruct (follows_at c f x r (HL f Hf) Hc ltac:(lia) Hr) as (st & S1 & S2 & S3).
  destruct (P1 x r) as (u & U1 & U2).
  { exists f. destruct Hr as [Hr1 Hr2]. auto. }
  exists st, u. split; [exact S1|]. split; [exact U1|]. split; [|intros u' Hu'; eapply P3; eassumption].
  eapply same_rule_matches; [apply as_row_same; eassumption|exact U2].
Qed.

Lemma v1_as_row_same r st : cs_cfa st = Some (dr_cfa r) -> (forall reg, dr_register r reg = rule_lookup reg (cs_regs st)) -> v1_same_rule r (as_row st).
Proof.
  intros H1 H2 base cfa ra fp. unfold v1_representable, as_row. cbn [dr_cfa]. rewrite H1.
  change (dr_register (DwRow 0 1 (dr_cfa r) (cs_regs st))) with (fun reg => rule_lookup reg (cs_regs st)). cbn beta. rewrite <- !H2. tauto.
Qed.

Lemma same_chain a b l rows : Forall2 same_row l rows -> chain a b rows -> chain a b l.
Proof.
  intros H. revert a. induction H as [|x y l l' (E1 & E2 & _) _ IH]; cbn; intros a HC; [exact HC|].
  destruct HC as (C1 & C2 & C3). rewrite E1, E2. auto.
Qed.

Lemma chain_latest a b l r r' x : chain a b l -> In r l -> In r' l -> dr_start r <= x < dr_end r -> dr_start r' <= x -> dr_start r' <= dr_start r.
Proof.
  intros H Hr Hr' Hx Hx'. destruct (Z.le_gt_cases (dr_start r') (dr_start r)) as [G|G]; [exact G|].
  pose proof (chain_disjoint a b l r r' H Hr Hr' ltac:(lia)). lia.
Qed.

Theorem v1_program_preserved md md' md'' p ents s e bs : ents_typed ents -> v1_convert md p ents = Ok s ->
  build md' e s = Ok bs -> wf_mode md'' -> rust_slice md'' bs ->
  (forall f, v1_last ents f -> (exists c, follows_dwarf c f) /\ forall r, In r (dw_rows_of f) -> ~ v1_clash r) ->
  exists sf, load md'' e bs = Ok sf /\
    (forall c f x, v1_last ents f -> follows_dwarf c f -> in_range (df_start f) (df_len f) x ->
      exists st u, cfi_at c f x = Some st /\ section_says md'' e sf x u /\
        (forall base cfa ra fp, v1_representable (as_row st) base cfa ra fp -> u = Unwind base false (Some cfa) (Some ra) fp) /\
        ((forall base cfa ra fp, ~ v1_representable (as_row st) base cfa ra fp) -> uw_cfa u = None /\ uw_mangled u = false) /\
        forall u', section_says md'' e sf x u' -> u' = u) /\
    forall x u, section_says md'' e sf x u -> exists f, v1_last ents f /\ in_range (df_start f) (df_len f) x.
Proof.
  intros Ht H B Hm Hs Hgood. assert (Te : eh_typed (in_eh ents)) by exact Ht.
  destruct (v1_end_to_end md md' md'' p ents s e bs Ht H B Hm Hs) as (sf & L & P1 & P2 & P3).
  { intros f r Hf. apply (Hgood f Hf). }
  exists sf. split; [exact L|]. split; [|intros x u Hu; destruct (P2 x u Hu) as (f & _ & Q1 & Q2 & _); eauto]. intros c f x Hf Hc Hx. pose proof (last_len _ _ Te Hf) as HL.
  assert (Hx' : df_start f <= x < df_start f + df_len f) by (unfold in_range in Hx; lia).
  destruct (follows_covers c f x HL Hc Hx') as (r & Hr).
  destruct (follows_at c f x r HL Hc ltac:(lia) Hr) as (st & S1 & S2 & S3). destruct Hr as [Hr1 Hr2].
  destruct (follows_rows c f Hc) as (rows & T & S).
  assert (HC : chain (df_start f) (df_start f + df_len f) (dw_rows_of f)) by exact (same_chain _ _ _ _ S (table_chain c f rows HL T)).
  destruct (P1 x f r Hf Hx Hr1 ltac:(lia)) as (u & U1 & U2 & U3).
  { intros r' Hr' Hle. exact (chain_latest _ _ _ r r' x HC Hr1 Hr' Hr2 Hle). }
  pose proof (v1_as_row_same r st S2 S3) as R.
  exists st, u. split; [exact S1|]. split; [exact U1|]. split; [|split; [|intros u' Hu'; eapply P3; eassumption]].
  - intros base cfa ra fp Hre. apply U2, R, Hre.
  - intros Hn. apply U3. intros base cfa ra fp Hre. apply (Hn base cfa ra fp), R, Hre.
Qed.

(** ** C123 *)

Lemma effect_says (same : dw_row -> dw_row -> Prop) c c' f f' : 0 <= df_len f -> follows_dwarf c f -> follows_dwarf c' f' ->
  (forall r st, cs_cfa st = Some (dr_cfa r) -> (forall reg, dr_register r reg = rule_lookup reg (cs_regs st)) ->
     forall r', same (as_row st) r' -> same r r') ->
  (forall r st, cs_cfa st = Some (dr_cfa r) -> (forall reg, dr_register r reg = rule_lookup reg (cs_regs st)) ->
     forall r', same r' (as_row st) -> same r' r) ->
  effect_alike same c c' f f' -> says_alike same f f'.
Proof.
  intros Hl H H' T1 T2 (E1 & E2 & E3). split; [exact E1|]. split; [exact E2|]. intros x Hx.
  assert (Hx' : df_start f <= x < df_start f + df_len f) by (unfold in_range in Hx; lia). split; [|split].
  - intros _ _. apply (follows_covers c'); [lia|exact H'|lia].
  - intros _ _. apply (follows_covers c); [lia|exact H|lia].
  - intros r r' Hr Hr'. destruct (follows_at c f x r Hl H ltac:(lia) Hr) as (st & S1 & S2 & S3).
    destruct (follows_at c' f' x r' ltac:(lia) H' ltac:(lia) Hr') as (st' & S1' & S2' & S3').
    apply (T1 r st S2 S3), (T2 r' st' S2' S3'), (E3 x st st' Hx S1 S1').
Qed.
Lemma same_effect_meaning a c c' f f' : 0 <= df_len f -> follows_dwarf c f -> follows_dwarf c' f' -> same_effect a c c' f f' ->
  same_meaning a f f'.
Proof.
  intros Hl H H'. apply effect_says; try assumption.
  - intros r st S1 S2 r' R base cfa ra fp. rewrite (as_row_same a r st S1 S2 base). apply R.
  - intros r st S1 S2 r' R base cfa ra fp. rewrite (as_row_same a r st S1 S2 base). apply R.
Qed.
Lemma v1_effect_meaning c c' f f' : 0 <= df_len f -> follows_dwarf c f -> follows_dwarf c' f' -> effect_alike v1_same_rule c c' f f' ->
  says_alike v1_same_rule f f'.
Proof.
  intros Hl H H'. apply effect_says; try assumption.
  - intros r st S1 S2 r' R base cfa ra fp. rewrite (v1_as_row_same r st S1 S2 base). apply R.
  - intros r st S1 S2 r' R base cfa ra fp. rewrite (v1_as_row_same r st S1 S2 base). apply R.
Qed.

Theorem same_effect_same_section md md' op eh eh' s s' : eh_typed eh -> eh_typed eh' -> op_merge_fres op = true ->
  effective_endian op eh' = effective_endian op eh -> same_programs (same_rule (op_arch op)) follows_dwarf eh eh' ->
  dwarf2sframe md op eh = Ok s -> dwarf2sframe md' op eh' = Ok s' -> s = s'.
Proof.
  intros Ht Ht' Hm HE [H1 H2] H H'. eapply (same_meaning_same_result md md' op eh eh'); try eassumption.
  - intros f Hf. destruct (H1 f Hf) as (c & _ & _ & F & _). exact (follows_orderly c f (last_len _ _ Ht Hf) F).
  - intros f Hf. destruct (H2 f Hf) as (c & _ & _ & F & _). exact (follows_orderly c f (last_len _ _ Ht' Hf) F).
  - split.
    + intros f Hf. destruct (H1 f Hf) as (c & f' & c' & F & L' & F' & E). exists f'. split; [exact L'|].
      exact (same_effect_meaning _ c c' f f' (last_len _ _ Ht Hf) F F' E).
    + intros f' Hf'. destruct (H2 f' Hf') as (c' & f & c & F' & L & F & E). exists f. split; [exact L|].
      exact (same_effect_meaning _ c c' f f' (last_len _ _ Ht L) F F' E).
Qed.

Lemma advances_v1 c f : 0 <= df_len f -> follows_dwarf c f -> advances c f -> v1_orderly f.
Proof.
  intros Hl F (rows & T & W). split; [exact (follows_orderly c f Hl F)|].
  destruct (follows_rows c f F) as (rows' & T' & S). assert (rows' = rows) by congruence. subst rows'.
  intros r Hr. destruct (same_rows_in _ _ r S Hr) as (r' & Hr' & E1 & E2 & _). rewrite E1, E2. apply W, Hr'.
Qed.

Theorem v1_same_effect md md' p p' ents ents' s s' : ents_typed ents -> ents_typed ents' ->
  same_programs v1_same_rule (fun c f => follows_dwarf c f /\ advances c f) (in_eh ents) (in_eh ents') ->
  v1_convert md p ents = Ok s -> v1_convert md' p' ents' = Ok s' -> s = s'.
Proof.
  intros Ht Ht' [H1 H2] H H'. assert (Te : eh_typed (in_eh ents)) by exact Ht. assert (Te' : eh_typed (in_eh ents')) by exact Ht'.
  eapply (v1_same_meaning md md' p p' ents ents'); try eassumption.
  - intros f Hf. destruct (H1 f Hf) as (c & _ & _ & [F A] & _). exact (advances_v1 c f (last_len _ _ Te Hf) F A).
  - intros f Hf. destruct (H2 f Hf) as (c & _ & _ & [F A] & _). exact (advances_v1 c f (last_len _ _ Te' Hf) F A).
  - split.
    + intros f Hf. destruct (H1 f Hf) as (c & f' & c' & [F _] & L' & [F' _] & E). exists f'. split; [exact L'|].
      exact (v1_effect_meaning c c' f f' (last_len _ _ Te Hf) F F' E).
    + intros f' Hf'. destruct (H2 f' Hf') as (c' & f & c & [F' _] & L & [F _] & E). exists f. split; [exact L|].
      exact (v1_effect_meaning c c' f f' (last_len _ _ Te L) F F' E).
Qed.

(** ** C124 *)

Lemma chain_before a b pre r post r' : chain a b (pre ++ r :: post) -> In r' pre -> dr_end r' <= dr_start r.
Proof.
  revert a. induction pre as [|x t IH]; cbn; intros a H Hr; [destruct Hr|]. destruct H as (H0 & H1 & H2).
  destruct Hr as [<-|Hr]; [|exact (IH _ H2 Hr)]. apply (chain_in _ _ _ r H2). apply in_or_app. right. left. reflexivity.
Qed.

Lemma ordinary_fine md op eh f : dw_fde_typed f -> dump_fine md op f -> ordinary op eh f -> fde_fine md op (fixed_ra_of op eh) f.
Proof.
  intros (Hs & Hn & _) Hd (O1 & O2 & c & F & Hra). pose proof F as (l & rows & L1 & L2 & L3).
  assert (Hl : 0 <= df_len f) by (unfold in_u64 in Hn; lia).
  pose proof (same_chain _ _ _ _ L3 (table_chain c f rows Hl L2)) as HC.
  split; [split; [exact Hd|split; [exact O1|unfold i32_max; lia]]|]. exists l. split; [exact L1|].
  intros pre r post E Hw. rewrite E in HC.
  assert (Hr : In r l) by (rewrite E; apply in_or_app; right; left; reflexivity).
  destruct (chain_in _ _ _ r HC) as (C1 & C2 & C3); [rewrite <- E; exact Hr|]. unfold wide in Hw.
  assert (Hx : covers f (dr_start r) r) by (split; [unfold dw_rows_of; rewrite L1; exact Hr|lia]).
  unfold row_fine, row_fits, off. split; [lia|]. split; [lia|]. split; [lia|]. split.
  - intros base cfa ra fp x Hre Hfix.
    destruct (follows_at c f (dr_start r) r Hl F C1 Hx) as (st & S1 & S2 & S3).
    eapply (Hra (dr_start r) st); [unfold in_range; lia|exact S1|apply (as_row_same _ r st S2 S3); exact Hre|exact Hfix].
  - intros r' Hr' Hw'. pose proof (chain_before _ _ _ _ _ r' HC Hr').
    assert (dr_start r' <= dr_end r') by (apply (chain_in _ _ _ r' HC), in_or_app; left; exact Hr'). unfold wide in Hw'. lia.
Qed.

Theorem ordinary_converts md op eh : eh_typed eh -> ents_end (eh_entries eh) = None ->
  (forall x, In x (entries_of eh) -> match x with DwCie => True | DwBadFde _ => False
     | DwGoodFde f => ordinary op eh f /\ dump_fine md op f end) ->
  exists s, dwarf2sframe md op eh = Ok s.
Proof.
  intros Ht He H. destruct (fine_converts md op eh Ht) as (s & Hs & _); [|eauto]. split; [|exact He].
  apply Forall_forall. intros x Hx. specialize (H x Hx). unfold eh_typed in Ht. rewrite Forall_forall in Ht. specialize (Ht x Hx).
  destruct x as [|g|f]; [exact I|destruct H|]. cbn. destruct H as [H1 H2]. apply ordinary_fine; assumption.
Qed.
