(** Concrete call frame programs for C122 to C125. *)
From Verif Require Export CfiTotal RelateWitness ConvWitness.
Open Scope Z_scope.
Open Scope list_scope.

(** The CIE gcc emits for amd64. *)
Definition cie_amd : cie_info := Cie 1 (-8) [IDefCfa 7 8; IOffset 16 1; INop].

(** [push rbp; mov rbp, rsp; ..; leave; ret]. *)
Definition push_program : list insn :=
  [ IAdvanceLoc 1; IDefCfaOffset 16; IOffset 6 2; IAdvanceLoc 3; IDefCfaRegister 6; IAdvanceLoc 27; IDefCfa 7 8;
    IRestore 6; INop ].
Definition push_rows : list dw_row :=
  [ amd_row 0x1000 0x1001 7 8 RUndefined; amd_row 0x1001 0x1004 7 16 (ROffset (-16));
    amd_row 0x1004 0x101f 6 16 (ROffset (-16)); amd_row 0x101f 0x1020 7 8 RUndefined ].
Definition fn_push : dw_fde := DwFde 0x1000 0x20 (Insns push_program None) (rows_ok push_rows).

(** The same with another program: the first rules are remembered and brought back,
    and there is a row too many. *)
Definition stack_program : list insn :=
  [ IRememberState; IAdvanceLoc 1; IDefCfa 7 16; IOffsetExtendedSf 6 2; IArgsSize 8; IAdvanceLoc 3; IDefCfaSf 6 (-2);
    IAdvanceLoc 12; INop; ISetLoc 0x101f; IRestoreState ].
Definition stack_rows : list dw_row :=
  [ amd_row 0x1000 0x1001 7 8 RUndefined; amd_row 0x1001 0x1004 7 16 (ROffset (-16));
    amd_row 0x1004 0x1010 6 16 (ROffset (-16)); amd_row 0x1010 0x101f 6 16 (ROffset (-16));
    amd_row 0x101f 0x1020 7 8 RUndefined ].
Definition fn_stack : dw_fde := DwFde 0x1000 0x20 (Insns stack_program None) (rows_ok stack_rows).

Definition eh_push : eh_frame := of_functions [fn_push].
Definition eh_stack : eh_frame := of_functions [fn_stack].
Definition push_sfb : sfb := Eval vm_compute in got (dwarf2sframe rel64 amd eh_push).
Definition push_bytes (e : endian) : bytes := section e push_sfb.

Ltac rows_agree :=
  repeat match goal with
  | |- Forall2 _ [] [] => constructor
  | |- Forall2 _ (_ :: _) (_ :: _) => constructor; [split; [reflexivity|split; [reflexivity|split; [reflexivity|]]]|]
  end;
  intros reg; unfold dr_register; cbn [dr_regs rule_lookup amd_row];
  repeat match goal with |- context [?a =? reg] => destruct (Z.eqb_spec a reg) end; first [reflexivity|exfalso; lia].

Lemma push_follows : follows_dwarf cie_amd fn_push.
Proof.
  eexists push_rows, _. split; [reflexivity|]. split; [vm_compute; reflexivity|]. unfold push_rows. rows_agree.
Qed.
Lemma stack_follows : follows_dwarf cie_amd fn_stack.
Proof.
  eexists stack_rows, _. split; [reflexivity|]. split; [vm_compute; reflexivity|]. unfold stack_rows. rows_agree.
Qed.

Lemma meaning_effect a c c' f f' : 0 <= df_len f -> follows_dwarf c f -> follows_dwarf c' f' -> same_meaning a f f' ->
  same_effect a c c' f f'.
Proof.
  intros Hl F F' (E1 & E2 & E3). split; [exact E1|]. split; [exact E2|]. intros x st st' Hx S S'.
  assert (Hx' : df_start f <= x < df_start f + df_len f) by (unfold in_range in Hx; lia).
  destruct (follows_covers c f x Hl F Hx') as (r & Hr). destruct (follows_covers c' f' x ltac:(lia) F' ltac:(lia)) as (r' & Hr').
  destruct (follows_at c f x r Hl F ltac:(lia) Hr) as (t & T1 & T2 & T3).
  destruct (follows_at c' f' x r' ltac:(lia) F' ltac:(lia) Hr') as (t' & T1' & T2' & T3').
  assert (t = st) by congruence. assert (t' = st') by congruence. subst t t'.
  pose proof (as_row_same a r st T2 T3) as R. pose proof (as_row_same a r' st' T2' T3') as R'.
  destruct (E3 x Hx) as (_ & _ & R''). specialize (R'' r r' Hr Hr'). intros base cfa ra fp. rewrite <- (R base), (R'' base), (R' base). tauto.
Qed.

Lemma push_stack_same : same_effect Amd64 cie_amd cie_amd fn_push fn_stack.
Proof.
  apply meaning_effect; [cbn; lia|apply push_follows|apply stack_follows|].
  split; [reflexivity|]. split; [reflexivity|]. intros x Hx.
  assert (Hx' : 0x1000 <= x < 0x1000 + 0x20) by (unfold in_range in Hx; cbn in Hx; lia).
  split; [|split].
  - intros _ _. apply (follows_covers cie_amd); [cbn; lia|apply stack_follows|exact Hx'].
  - intros _ _. apply (follows_covers cie_amd); [cbn; lia|apply push_follows|exact Hx'].
  - intros r r' [H1 H2] [H3 H4]. cbn in H1, H3.
    repeat (destruct H1 as [<-|H1]); try destruct H1; repeat (destruct H3 as [<-|H3]); try destruct H3;
      cbn in H2, H4; try (exfalso; lia); intros base cfa ra fp; unfold representable; cbn; tauto.
Qed.

Lemma push_last f : last_at eh_push f <-> f = fn_push.
Proof.
  split.
  - intros (pre & post & H & _). cbn in H. destruct pre as [|x [|y pre]]; try discriminate. injection H as <-. reflexivity.
  - intros ->. exists [], []. split; [reflexivity|intros ? []].
Qed.
Lemma stack_last f : last_at eh_stack f <-> f = fn_stack.
Proof.
  split.
  - intros (pre & post & H & _). cbn in H. destruct pre as [|x [|y pre]]; try discriminate. injection H as <-. reflexivity.
  - intros ->. exists [], []. split; [reflexivity|intros ? []].
Qed.

Lemma push_no_clash r : In r (wide_rows fn_push) -> ~ clash Amd64 (Some (-8)) r.
Proof.
  intros Hr (base & cfa & ra & fp & m & (H1 & _ & H2 & _ & H3) & Hd & Hm & _).
  assert (Hc : 0 <= cfa <= 16 /\ ra = -8 /\ (fp = None \/ fp = Some (-16))).
  { cbn in Hr. repeat (destruct Hr as [<-|Hr]; [cbn in H1, H2, H3; change (16 =? 16) with true in H2; change (16 =? 6) with false in H3;
      change (6 =? 6) with true in H3; cbv iota in H2, H3; injection H1 as _ <-; injection H2 as <-; (split; [lia|]); (split; [reflexivity|]);
      destruct fp; [destruct H3 as [H3 _]; first [discriminate|injection H3 as <-; auto]|auto]|]). destruct Hr. }
  destruct Hc as (Hc & -> & Hfp). assert (Hb : m = cfa \/ m = -16).
  { unfold dominant, stored_for in Hd. destruct Hfp as [-> | ->]; cbn in Hd; repeat match type of Hd with context [if ?b then _ else _] => destruct b end;
      injection Hd as <-; auto. }
  lia.
Qed.

Lemma push_case e :
  eh_typed eh_push /\ eh_typed eh_stack /\ ents_end (eh_entries eh_push) = None /\
  dwarf2sframe rel64 amd eh_push = Ok push_sfb /\ dwarf2sframe rel64 amd eh_stack = Ok push_sfb /\
  build rel64 e push_sfb = Ok (push_bytes e) /\ rust_slice dev32 (push_bytes e) /\
  last_at eh_push fn_push /\ last_at eh_stack fn_stack /\ fixed_ra_of amd eh_push = Some (-8).
Proof.
  split; [typed_eh|]. split; [typed_eh|]. split; [reflexivity|]. split; [vm_compute; reflexivity|]. split; [vm_compute; reflexivity|].
  split; [destruct e; vm_compute; reflexivity|]. split; [destruct e; vm_compute; reflexivity|].
  split; [apply push_last; reflexivity|]. split; [apply stack_last; reflexivity|reflexivity].
Qed.

(** Another function right behind it: no instructions, the CIE's rules throughout. *)
Definition fn_leaf : dw_fde := DwFde 0x1020 0x10 (Insns [INop] None) (rows_ok [amd_row 0x1020 0x1030 7 8 RUndefined]).
Definition eh_two : eh_frame := of_functions [fn_push; fn_leaf].
Definition two_sfb : sfb := Eval vm_compute in got (dwarf2sframe rel64 amd eh_two).

Lemma leaf_follows : follows_dwarf cie_amd fn_leaf.
Proof. eexists [amd_row 0x1020 0x1030 7 8 RUndefined], _. split; [reflexivity|]. split; [vm_compute; reflexivity|]. rows_agree. Qed.

Lemma two_last f : last_at eh_two f <-> f = fn_push \/ f = fn_leaf.
Proof.
  rewrite (distinct_last eh_two); [cbn; intuition congruence|]. unfold distinct_starts. cbn. repeat constructor; cbn; intuition discriminate.
Qed.

Lemma two_rows f r : f = fn_push \/ f = fn_leaf -> In r (dw_rows_of f) ->
  exists reg cfa fp, dr_cfa r = CfaReg reg cfa /\ 0 <= cfa <= 16 /\ dr_register r 16 = ROffset (-8) /\ dr_register r 6 = fp /\
    (fp = RUndefined \/ fp = ROffset (-16)).
Proof.
  intros [-> | ->] Hr; cbn in Hr; repeat (destruct Hr as [<-|Hr]; [do 3 eexists; repeat split; try reflexivity; try lia; cbn; auto|]); destruct Hr.
Qed.

Lemma two_state f c x st : f = fn_push \/ f = fn_leaf -> follows_dwarf c f -> in_range (df_start f) (df_len f) x -> cfi_at c f x = Some st ->
  exists r, In r (dw_rows_of f) /\ same_rule Amd64 r (as_row st) /\ v1_same_rule r (as_row st).
Proof.
  intros Hf F Hx S. assert (Hl : 0 <= df_len f) by (destruct Hf as [-> | ->]; cbn; lia).
  assert (Hx' : df_start f <= x < df_start f + df_len f) by (unfold in_range in Hx; lia).
  destruct (follows_covers c f x Hl F Hx') as (r & Hr0).
  destruct (follows_at c f x r Hl F ltac:(lia) Hr0) as (t & T1 & T2 & T3). assert (t = st) by congruence. subst t.
  exists r. split; [apply Hr0|]. split; [apply as_row_same; assumption|apply v1_as_row_same; assumption].
Qed.

Lemma two_clash fixed f r : (fixed = None \/ fixed = Some (-8)) -> f = fn_push \/ f = fn_leaf -> In r (dw_rows_of f) ->
  (forall base cfa ra fp m, representable Amd64 r base cfa ra fp \/ v1_representable r base cfa ra fp ->
     dominant (stored_for fixed cfa ra fp) = Some m -> m <> -128 /\ m <> -32768) .
Proof.
  intros Hx Hf Hr base cfa ra fp m HR Hd. destruct (two_rows f r Hf Hr) as (reg & c & rule & E1 & E2 & E3 & E4 & E5).
  assert (Hc : cfa = c /\ ra = -8 /\ (fp = None \/ fp = Some (-16))).
  { destruct HR as [(H1 & _ & H2 & _ & H3)|(H1 & _ & H2 & _ & H3)]; cbn [reg_ra reg_fp] in *; rewrite E1 in H1; rewrite E3 in H2;
      rewrite E4 in H3; injection H1 as _ <-; injection H2 as <-; (split; [reflexivity|]); (split; [reflexivity|]);
      (destruct fp; [destruct H3 as [H3 _]; destruct E5 as [-> | ->]; [discriminate|injection H3 as <-; auto]|auto]). }
  destruct Hc as (-> & -> & Hfp). assert (Hm : m = c \/ m = -16 \/ m = -8).
  { unfold dominant, stored_for in Hd. destruct Hx as [-> | ->], Hfp as [-> | ->]; cbn in Hd;
      repeat match type of Hd with context [if ?b then _ else _] => destruct b end; injection Hd as <-; auto. }
  lia.
Qed.

Lemma two_unconfused c f : f = fn_push \/ f = fn_leaf -> follows_dwarf c f ->
  unconfused Amd64 (Some (-8)) c f /\ v1_unconfused c f.
Proof.
  intros Hf F. split; intros x st Hx S (base & cfa & ra & fp & m & R & Hd & Hm & _);
    destruct (two_state f c x st Hf F Hx S) as (r & Hr & S1 & S2).
  - destruct (two_clash (Some (-8)) f r (or_intror eq_refl) Hf Hr base cfa ra fp m); [left; apply S1, R|exact Hd|intuition].
  - destruct (two_clash None f r (or_introl eq_refl) Hf Hr base cfa ra fp m); [right; apply S2, R|exact Hd|intuition].
Qed.

Lemma two_fixed c f : f = fn_push \/ f = fn_leaf -> follows_dwarf c f -> ra_fixed Amd64 (Some (-8)) c f.
Proof.
  intros Hf F x st base cfa ra fp o Hx S R Ho. injection Ho as <-. destruct (two_state f c x st Hf F Hx S) as (r & Hr & S1 & _).
  apply S1 in R. destruct R as (_ & _ & R & _). destruct (two_rows f r Hf Hr) as (reg & c' & rule & _ & _ & E & _). cbn [reg_ra] in R. congruence.
Qed.

Lemma two_ordinary f : f = fn_push \/ f = fn_leaf -> ordinary amd eh_two f /\ dump_fine rel64 amd f /\ v1_ordinary v1_any f.
Proof.
  intros Hf. assert (F : follows_dwarf cie_amd f) by (destruct Hf as [-> | ->]; [apply push_follows|apply leaf_follows]).
  assert (A : advances cie_amd f).
  { destruct Hf as [-> | ->]; (eexists; split; [vm_compute; reflexivity|]); intros r Hr; cbn in Hr;
      repeat (destruct Hr as [<-|Hr]; [cbn; lia|]); destruct Hr. }
  assert (B : df_start f <= i32_max /\ df_len f <= 0x10000000 /\ df_dump f = None) by (destruct Hf as [-> | ->]; vm_compute; intuition discriminate).
  destruct B as (B1 & B2 & B3). split; [|split].
  - split; [exact B1|]. split; [exact B2|]. exists cie_amd. split; [exact F|]. apply two_fixed; assumption.
  - split; [intros (H & _); discriminate|discriminate].
  - split; [exact B1|]. split; [exact B2|]. split; [exact B3|]. split; [exists cie_amd; auto|reflexivity].
Qed.

Lemma two_apart : apart eh_two.
Proof.
  intros f f' Hf Hf' Hne. apply two_last in Hf, Hf'. destruct Hf as [-> | ->], Hf' as [-> | ->]; try (contradiction Hne; reflexivity);
    unfold in_range; cbn; lia.
Qed.

Lemma two_case :
  eh_typed eh_two /\ ents_end (eh_entries eh_two) = None /\
  (forall x, In x (entries_of eh_two) -> match x with DwCie => True | DwBadFde _ => False
     | DwGoodFde f => (ordinary amd eh_two f /\ dump_fine rel64 amd f) /\ v1_ordinary v1_any f end) /\
  apart eh_two /\ function_count eh_two = 2 /\ table_rows eh_two = 5 /\ v1_rows_total (eh_entries eh_two) = 5 /\
  (forall c f, last_at eh_two f -> follows_dwarf c f -> unconfused Amd64 (fixed_ra_of amd eh_two) c f /\ v1_unconfused c f) /\
  dwarf2sframe rel64 amd eh_two = Ok two_sfb /\ last_at eh_two fn_leaf /\
  exists st, cfi_at cie_amd fn_push 0x1010 = Some st /\ cs_cfa st = Some (CfaReg 6 16).
Proof.
  split; [typed_eh|]. split; [reflexivity|]. split.
  { intros x Hx. cbn in Hx. repeat (destruct Hx as [<-|Hx]; [try exact I; destruct (two_ordinary fn_push (or_introl eq_refl)) as (P1 & P2 & P3);
      destruct (two_ordinary fn_leaf (or_intror eq_refl)) as (Q1 & Q2 & Q3); auto|]). destruct Hx. }
  split; [apply two_apart|]. split; [reflexivity|]. split; [reflexivity|]. split; [reflexivity|].
  split; [intros c f Hf F; apply two_last in Hf; exact (two_unconfused c f Hf F)|].
  split; [vm_compute; reflexivity|]. split; [apply two_last; auto|]. eexists. split; vm_compute; reflexivity.
Qed.

Lemma push_stack_v1 : effect_alike v1_same_rule cie_amd cie_amd fn_push fn_stack /\ advances cie_amd fn_push /\ advances cie_amd fn_stack.
Proof.
  split; [|split; (eexists; split; [vm_compute; reflexivity|]; intros r Hr; cbn in Hr; repeat (destruct Hr as [<-|Hr]; [cbn; lia|]); destruct Hr)].
  split; [reflexivity|]. split; [reflexivity|]. intros x st st' Hx S S'.
  assert (Hx' : 0x1000 <= x < 0x1000 + 0x20) by (unfold in_range in Hx; cbn in Hx; lia).
  destruct (follows_covers cie_amd fn_push x ltac:(cbn; lia) push_follows Hx') as (r & Hr).
  destruct (follows_covers cie_amd fn_stack x ltac:(cbn; lia) stack_follows Hx') as (r' & Hr').
  destruct (follows_at cie_amd fn_push x r ltac:(cbn; lia) push_follows ltac:(cbn; lia) Hr) as (t & T1 & T2 & T3).
  destruct (follows_at cie_amd fn_stack x r' ltac:(cbn; lia) stack_follows ltac:(cbn; lia) Hr') as (t' & T1' & T2' & T3').
  assert (t = st) by congruence. assert (t' = st') by congruence. subst t t'.
  assert (HR : v1_same_rule r r').
  { destruct Hr as [H1 H2], Hr' as [H3 H4]. cbn in H1, H3.
    repeat (destruct H1 as [<-|H1]); try destruct H1; repeat (destruct H3 as [<-|H3]); try destruct H3;
      cbn in H2, H4; try (exfalso; lia); intros base cfa ra fp; unfold v1_representable; cbn; tauto. }
  intros base cfa ra fp. rewrite <- (v1_as_row_same r st T2 T3 base), <- (v1_as_row_same r' st' T2' T3' base). apply HR.
Qed.
