(** Concrete inputs for C117 to C121. *)
From Verif Require Export ShiftFacts ConvWitness.
Open Scope Z_scope.
Open Scope list_scope.

(** ** Another order *)

Definition sample_backwards : eh_frame :=
  EhFrame false (DwEntries [DwGoodFde fn_plt; DwCie; DwGoodFde fn_prologue; DwCie] None).

Lemma backwards_reordered : reordered sample sample_backwards /\ distinct_starts sample /\
  entries_of sample <> entries_of sample_backwards.
Proof.
  split; [|split; [|discriminate]].
  - split; [|reflexivity|reflexivity]. cbn. apply perm_swap.
  - unfold distinct_starts. cbn. repeat constructor; cbn; intuition congruence.
Qed.

(** Two functions with the same start: the later one replaces the earlier one, so
    the order shows. *)
Definition fn_other : dw_fde := DwFde 0x1000 0x10 nops (rows_ok [amd_row 0x1000 0x1010 6 16 (ROffset (-16))]).
Definition same_start : eh_frame := of_functions [fn_prologue; fn_other].
Definition same_start_backwards : eh_frame := of_functions [fn_other; fn_prologue].

Theorem same_start_differs : eh_typed same_start /\ eh_typed same_start_backwards /\ reordered same_start same_start_backwards /\
  exists s s', dwarf2sframe rel64 amd same_start = Ok s /\ dwarf2sframe rel64 amd same_start_backwards = Ok s' /\ s <> s'.
Proof.
  split; [typed_eh|]. split; [typed_eh|]. split; [split; [cbn; apply perm_swap|reflexivity|reflexivity]|].
  do 2 eexists. split; [vm_compute; reflexivity|]. split; [vm_compute; reflexivity|]. discriminate.
Qed.

(** Which function a failure is reported for depends on the order. *)
Definition bad_pair : eh_frame := EhFrame false (DwEntries [DwBadFde (GimliError 1); DwBadFde (GimliError 2)] None).
Definition bad_pair_backwards : eh_frame := EhFrame false (DwEntries [DwBadFde (GimliError 2); DwBadFde (GimliError 1)] None).

Theorem errors_follow_order : eh_typed bad_pair /\ reordered bad_pair bad_pair_backwards /\ distinct_starts bad_pair /\
  dwarf2sframe rel64 amd bad_pair = Err (InvalidDwarfFde (GimliError 1)) /\
  dwarf2sframe rel64 amd bad_pair_backwards = Err (InvalidDwarfFde (GimliError 2)).
Proof.
  split; [unfold eh_typed, entries_of; cbn; repeat constructor|]. split; [split; [cbn; apply perm_swap|reflexivity|reflexivity]|].
  split; [constructor|]. split; vm_compute; reflexivity.
Qed.

(** ** Functions on their own *)

Definition alone : eh_frame := of_functions [fn_plt].
Definition alone_sfb : sfb := Eval vm_compute in got (dwarf2sframe rel64 amd alone).
Definition alone_bytes (e : endian) : bytes := section e alone_sfb.

Lemma alone_case e :
  eh_typed alone /\ eh_typed sample /\ effective_endian amd alone = effective_endian amd sample /\
  dwarf2sframe rel64 amd alone = Ok alone_sfb /\ dwarf2sframe rel64 amd sample = Ok sample_sfb /\
  last_at alone fn_plt /\ last_at sample fn_plt /\
  build rel64 e alone_sfb = Ok (alone_bytes e) /\ build rel64 e sample_sfb = Ok (sample_bytes e) /\
  rust_slice rel64 (alone_bytes e) /\ rust_slice rel64 (sample_bytes e) /\ alone_sfb <> sample_sfb.
Proof.
  split; [typed_eh|]. split; [apply sample_typed|]. split; [reflexivity|]. split; [vm_compute; reflexivity|].
  split; [apply sample_converts|]. split; [exists [], []; split; [reflexivity|intros ? []]|].
  split; [exists [fn_prologue], []; split; [reflexivity|intros ? []]|].
  split; [destruct e; vm_compute; reflexivity|]. split; [apply sample_builds|]. split; [destruct e; vm_compute; reflexivity|].
  split; [apply sample_slice, wf_rel64|discriminate].
Qed.

(** ** Another table with the same meaning *)

(** The prologue again: the body is cut in two, the zero-width row is gone, and the
    last row says nothing of the frame pointer instead of "same value". *)
Definition prologue_cut : list dw_row :=
  [ amd_row 0x1000 0x1001 7 8 RUndefined; amd_row 0x1001 0x1004 7 16 (ROffset (-16));
    amd_row 0x1004 0x1010 6 16 (ROffset (-16)); amd_row 0x1010 0x101f 6 16 (ROffset (-16));
    amd_row 0x101f 0x1020 7 8 RUndefined ].
Definition fn_cut : dw_fde := DwFde 0x1000 0x20 nops (rows_ok prologue_cut).
Definition sample_cut : eh_frame := of_functions [fn_cut; fn_plt].

Lemma prologue_orderly : orderly fn_prologue.
Proof.
  split; [|split].
  - intros r r' H H' L. cbn in H, H'. repeat (destruct H as [<-|H]); try destruct H; repeat (destruct H' as [<-|H']); try destruct H'; cbn in *; lia.
  - intros r x H Hx. cbn [df_start df_len fn_prologue] in Hx. unfold covers. cbn [dw_rows_of fn_prologue df_rows rows_ok rows_list prologue In].
    assert (0x1000 <= x) by (cbn in H; repeat (destruct H as [<-|H]; [cbn in Hx; lia|]); destruct H).
    destruct (Z.lt_ge_cases x 0x1001); [exists (amd_row 0x1000 0x1001 7 8 RUndefined); cbn; split; [auto|lia]|].
    destruct (Z.lt_ge_cases x 0x1004); [exists (amd_row 0x1001 0x1004 7 16 (ROffset (-16))); cbn; split; [auto|lia]|].
    destruct (Z.lt_ge_cases x 0x101f); [exists (amd_row 0x1004 0x101f 6 16 (ROffset (-16))); cbn; split; [auto|lia]|].
    exists (amd_row 0x101f 0x1020 7 8 RSameValue). cbn. split; [auto 10|lia].
  - intros r H. cbn in H. repeat (destruct H as [<-|H]; [cbn; lia|]). destruct H.
Qed.

Lemma cut_orderly : orderly fn_cut.
Proof.
  split; [|split].
  - intros r r' H H' L. cbn in H, H'. repeat (destruct H as [<-|H]); try destruct H; repeat (destruct H' as [<-|H']); try destruct H'; cbn in *; lia.
  - intros r x H Hx. cbn [df_start df_len fn_cut] in Hx. unfold covers. cbn [dw_rows_of fn_cut df_rows rows_ok rows_list prologue_cut In].
    assert (0x1000 <= x) by (cbn in H; repeat (destruct H as [<-|H]; [cbn in Hx; lia|]); destruct H).
    destruct (Z.lt_ge_cases x 0x1001); [exists (amd_row 0x1000 0x1001 7 8 RUndefined); cbn; split; [auto|lia]|].
    destruct (Z.lt_ge_cases x 0x1004); [exists (amd_row 0x1001 0x1004 7 16 (ROffset (-16))); cbn; split; [auto|lia]|].
    destruct (Z.lt_ge_cases x 0x1010); [exists (amd_row 0x1004 0x1010 6 16 (ROffset (-16))); cbn; split; [auto|lia]|].
    destruct (Z.lt_ge_cases x 0x101f); [exists (amd_row 0x1010 0x101f 6 16 (ROffset (-16))); cbn; split; [auto|lia]|].
    exists (amd_row 0x101f 0x1020 7 8 RUndefined). cbn. split; [auto 10|lia].
  - intros r H. cbn in H. repeat (destruct H as [<-|H]; [cbn; lia|]). destruct H.
Qed.

Lemma plt_orderly : orderly fn_plt.
Proof.
  split; [|split].
  - intros r r' H H' L. cbn in H, H'. repeat (destruct H as [<-|H]); try destruct H; repeat (destruct H' as [<-|H']); try destruct H'; cbn in *; lia.
  - intros r x H Hx. cbn [df_start df_len fn_plt] in Hx. unfold covers. cbn [dw_rows_of fn_plt df_rows rows_ok rows_list plt_rows_dw In].
    assert (0x2000 <= x) by (cbn in H; repeat (destruct H as [<-|H]; [cbn in Hx; lia|]); destruct H).
    destruct (Z.lt_ge_cases x 0x2006); [exists (amd_row 0x2000 0x2006 7 16 RUndefined); cbn; split; [auto|lia]|].
    destruct (Z.lt_ge_cases x 0x2010); [exists (amd_row 0x2006 0x2010 7 24 RUndefined); cbn; split; [auto|lia]|].
    eexists. split; [right; right; left; reflexivity|cbn; lia].
  - intros r H. cbn in H. repeat (destruct H as [<-|H]; [cbn; lia|]). destruct H.
Qed.

Lemma same_rule_refl a r : same_rule a r r.
Proof. intros base cfa ra fp. tauto. Qed.

Lemma plt_same : same_meaning Amd64 fn_plt fn_plt.
Proof.
  split; [reflexivity|]. split; [reflexivity|]. intros x Hx. split; [eauto|]. split; [eauto|].
  intros r r' [H1 H2] [H3 H4]. replace r' with r; [apply same_rule_refl|].
  cbn in H1, H3. intuition (subst; cbn in *; reflexivity || lia).
Qed.

Lemma cut_same : same_meaning Amd64 fn_prologue fn_cut.
Proof.
  split; [reflexivity|]. split; [reflexivity|]. intros x Hx. destruct prologue_orderly as (_ & G & _), cut_orderly as (_ & G' & _).
  assert (Hx' : 0x1000 <= x < 0x1020) by (unfold in_range in Hx; cbn in Hx; lia).
  split; [|split].
  - intros _ _. apply (G' (amd_row 0x1000 0x1001 7 8 RUndefined)); [left; reflexivity|exact Hx'].
  - intros _ _. apply (G (amd_row 0x1000 0x1001 7 8 RUndefined)); [left; reflexivity|exact Hx'].
  - intros r r' [H1 H2] [H3 H4].
    cbn in H1, H3.
    repeat (destruct H1 as [<-|H1]); try destruct H1; repeat (destruct H3 as [<-|H3]); try destruct H3;
      cbn in H2, H4; try (exfalso; lia); intros base cfa ra fp; unfold representable; cbn.
    all: change (16 =? 16) with true; change (16 =? 6) with false; change (6 =? 6) with true; cbv iota; destruct fp; intuition congruence.
Qed.

Lemma cut_case : eh_typed sample /\ eh_typed sample_cut /\ same_meanings Amd64 sample sample_cut /\
  (forall f, last_at sample f -> orderly f) /\ (forall f, last_at sample_cut f -> orderly f) /\
  dwarf2sframe rel64 amd sample = Ok sample_sfb /\ dwarf2sframe rel64 amd sample_cut = Ok sample_sfb.
Proof.
  assert (L : forall f, last_at sample f <-> f = fn_prologue \/ f = fn_plt).
  { intros f. rewrite (distinct_last sample) by apply backwards_reordered. cbn. intuition congruence. }
  assert (L' : forall f, last_at sample_cut f <-> f = fn_cut \/ f = fn_plt).
  { intros f. rewrite (distinct_last sample_cut); [cbn; intuition congruence|].
    unfold distinct_starts. cbn. repeat constructor; cbn; intuition congruence. }
  split; [apply sample_typed|]. split; [typed_eh|]. split.
  { split; intros f Hf; [apply L in Hf|apply L' in Hf]; destruct Hf as [-> | ->].
    - exists fn_cut. split; [apply L'; auto|apply cut_same].
    - exists fn_plt. split; [apply L'; auto|apply plt_same].
    - exists fn_prologue. split; [apply L; auto|apply cut_same].
    - exists fn_plt. split; [apply L; auto|apply plt_same]. }
  split; [intros f Hf; apply L in Hf; destruct Hf as [-> | ->]; [apply prologue_orderly|apply plt_orderly]|].
  split; [intros f Hf; apply L' in Hf; destruct Hf as [-> | ->]; [apply cut_orderly|apply plt_orderly]|].
  split; [apply sample_converts|vm_compute; reflexivity].
Qed.

(** The same for the first converter: the body in one piece. *)
Definition prologue_whole : list dw_row :=
  [ amd_row 0x1000 0x1001 7 8 RUndefined; amd_row 0x1001 0x1004 7 16 (ROffset (-16));
    amd_row 0x1004 0x101f 6 16 (ROffset (-16)); amd_row 0x101f 0x1020 7 8 RSameValue ].
Definition fn_whole : dw_fde := DwFde 0x1000 0x20 nops (rows_ok prologue_whole).
Definition v1_cut : dw_entries := DwEntries [DwCie; DwGoodFde fn_cut] None.
Definition v1_whole : dw_entries := DwEntries [DwGoodFde fn_whole; DwCie] None.

Lemma whole_orderly : orderly fn_whole.
Proof.
  split; [|split].
  - intros r r' H H' L. cbn in H, H'. repeat (destruct H as [<-|H]); try destruct H; repeat (destruct H' as [<-|H']); try destruct H'; cbn in *; lia.
  - intros r x H Hx. cbn [df_start df_len fn_whole] in Hx. unfold covers. cbn [dw_rows_of fn_whole df_rows rows_ok rows_list prologue_whole In].
    assert (0x1000 <= x) by (cbn in H; repeat (destruct H as [<-|H]; [cbn in Hx; lia|]); destruct H).
    destruct (Z.lt_ge_cases x 0x1001); [exists (amd_row 0x1000 0x1001 7 8 RUndefined); cbn; split; [auto|lia]|].
    destruct (Z.lt_ge_cases x 0x1004); [exists (amd_row 0x1001 0x1004 7 16 (ROffset (-16))); cbn; split; [auto|lia]|].
    destruct (Z.lt_ge_cases x 0x101f); [exists (amd_row 0x1004 0x101f 6 16 (ROffset (-16))); cbn; split; [auto|lia]|].
    exists (amd_row 0x101f 0x1020 7 8 RSameValue). cbn. split; [auto 10|lia].
  - intros r H. cbn in H. repeat (destruct H as [<-|H]; [cbn; lia|]). destruct H.
Qed.

Lemma v1_whole_same : says_alike v1_same_rule fn_whole fn_cut.
Proof.
  split; [reflexivity|]. split; [reflexivity|]. intros x Hx. destruct whole_orderly as (_ & G & _), cut_orderly as (_ & G' & _).
  assert (Hx' : 0x1000 <= x < 0x1020) by (unfold in_range in Hx; cbn in Hx; lia).
  split; [|split].
  - intros _ _. apply (G' (amd_row 0x1000 0x1001 7 8 RUndefined)); [left; reflexivity|exact Hx'].
  - intros _ _. apply (G (amd_row 0x1000 0x1001 7 8 RUndefined)); [left; reflexivity|exact Hx'].
  - intros r r' [H1 H2] [H3 H4].
    cbn in H1, H3.
    repeat (destruct H1 as [<-|H1]); try destruct H1; repeat (destruct H3 as [<-|H3]); try destruct H3;
      cbn in H2, H4; try (exfalso; lia); intros base cfa ra fp; unfold v1_representable; cbn.
    all: change (16 =? 16) with true; change (16 =? 6) with false; change (6 =? 6) with true; cbv iota; destruct fp; intuition congruence.
Qed.

Definition v1_any : dw_row -> bool := fun _ => true.
Definition v1_sfb : sfb := Eval vm_compute in get_ok (sfb_new options_new) (v1_convert rel64 v1_any v1_cut).

Lemma v1_case : ents_typed v1_whole /\ ents_typed v1_cut /\ all_alike v1_same_rule (in_eh v1_whole) (in_eh v1_cut) /\
  (forall f, v1_last v1_whole f -> v1_orderly f) /\ (forall f, v1_last v1_cut f -> v1_orderly f) /\
  v1_convert rel64 v1_any v1_whole = Ok v1_sfb /\ v1_convert rel64 v1_any v1_cut = Ok v1_sfb /\
  v1_last v1_cut fn_cut /\ ents_typed (eh_entries (move_eh 0x400000 (in_eh v1_cut))) /\
  v1_convert rel64 v1_any (eh_entries (move_eh 0x400000 (in_eh v1_cut))) = Ok (move_sfb 0x400000 v1_sfb) /\
  move_sfb 0x400000 v1_sfb <> v1_sfb.
Proof.
  assert (L : forall f, v1_last v1_whole f <-> f = fn_whole).
  { intros f. change (last_at (in_eh v1_whole) f <-> f = fn_whole). rewrite (distinct_last (in_eh v1_whole)); [cbn; intuition congruence|].
    unfold distinct_starts. cbn. repeat constructor. intros []. }
  assert (L' : forall f, v1_last v1_cut f <-> f = fn_cut).
  { intros f. change (last_at (in_eh v1_cut) f <-> f = fn_cut). rewrite (distinct_last (in_eh v1_cut)); [cbn; intuition congruence|].
    unfold distinct_starts. cbn. repeat constructor. intros []. }
  split; [change (eh_typed (in_eh v1_whole)); typed_eh|]. split; [change (eh_typed (in_eh v1_cut)); typed_eh|]. split.
  { split; intros f Hf; [apply L in Hf|apply L' in Hf]; subst f.
    - exists fn_cut. split; [apply L'; reflexivity|apply v1_whole_same].
    - exists fn_whole. split; [apply L; reflexivity|apply v1_whole_same]. }
  split; [intros f Hf; apply L in Hf; subst f; split; [apply whole_orderly|]|].
  { intros r H. cbn in H. repeat (destruct H as [<-|H]; [cbn; lia|]). destruct H. }
  split; [intros f Hf; apply L' in Hf; subst f; split; [apply cut_orderly|]|].
  { intros r H. cbn in H. repeat (destruct H as [<-|H]; [cbn; lia|]). destruct H. }
  split; [vm_compute; reflexivity|]. split; [vm_compute; reflexivity|]. split; [apply L'; reflexivity|].
  split; [change (eh_typed (move_eh 0x400000 (in_eh v1_cut))); typed_eh|]. split; [vm_compute; reflexivity|discriminate].
Qed.

(** Without merging, the rows stay apart. *)
Definition amd_apart : options := conv_merge_fres false amd.

Theorem apart_differs : exists s s',
  dwarf2sframe rel64 amd_apart sample = Ok s /\ dwarf2sframe rel64 amd_apart sample_cut = Ok s' /\ s <> s'.
Proof. do 2 eexists. split; [vm_compute; reflexivity|]. split; [vm_compute; reflexivity|]. discriminate. Qed.

(** ** Everything moved *)

Lemma moved_case :
  eh_typed sample /\ eh_typed (move_eh 0x400000 sample) /\ eh_typed (move_eh (-0x800) sample) /\
  (forall f, In f (functions (entries_of sample)) -> df_start f + 0x400000 <= i32_max) /\
  dwarf2sframe rel64 amd sample = Ok sample_sfb /\
  build rel64 LE sample_sfb = Ok (sample_bytes LE) /\ rust_slice rel64 (sample_bytes LE) /\
  forall k, k = 0x400000 \/ k = -0x800 \/ k = -0x1800 -> forall b, In b (fdes_of sample_sfb) -> in_i32 (fb_start b + k).
Proof.
  split; [apply sample_typed|]. split; [typed_eh|]. split; [typed_eh|].
  split; [intros f Hf; cbn in Hf; unfold i32_max; intuition (subst; cbn; lia)|].
  split; [apply sample_converts|]. split; [apply sample_builds|]. split; [apply sample_slice, wf_rel64|].
  intros k Hk b Hb. cbn in Hb. unfold in_i32, i32_min, i32_max. destruct Hb as [<-|[<-|[]]]; cbn; lia.
Qed.
