(** Proofs about programs with right call frame information and the repaired first converter. *)
From Coq Require Import String Lia.
From Verif Require Export DumpedRepaired V1RepairedProps.
From Verif Require Import BaseFacts ConvFacts CfiFacts CfiTotal RelateFacts StdConv WalkFacts ProgramFacts LookupFacts RunFacts CodeFacts WrittenFacts DownFacts PipeFacts ToolsProps ToolsFacts
  TripWitness WriteRepairedFacts ConvRepairedSection ConvRepairedWalk V1RepairedFacts.
Open Scope Z_scope.
Open Scope list_scope.

Lemma rows_faultless_free a fixed c f l : rows_faultless a fixed c f l -> rows_faultless a None c f l.
Proof.
  intros H pre r post E Hw. specialize (H pre r post E Hw). unfold no_fault, row_faults in *.
  repeat match goal with H : Forall _ (_ :: _) |- _ => inversion H; clear H; subst end. cbn [fst] in *.
  repeat (apply Forall_cons || apply Forall_nil); cbn [fst]; try assumption.
  intros (base & m & cfa & ra & fp & x & _ & X & _). discriminate.
Qed.

(** As [xconverted_dump]. *)
Lemma xmade_dump md' md'' op c eh s e bs abi_name : xmade op c eh s -> build_repaired md' e s = Ok bs ->
  (forall d, last_at eh d -> df_start d + df_len d <= i32_max + 1) -> wf_mode md'' -> rust_slice md'' bs -> (forall n, without newline_char (abi_name n)) ->
  exists sf l h rest, load md'' e bs = Ok sf /\ dump md'' e sf = Ok l /\ read_dump (stdout_text abi_name l) = Some (h, rest) /\ stderr_text l = ""%string /\
    forall x v, dump_says rest x v <-> exists u, std_tells e bs x u /\ v = looks u.
Proof.
  intros HX H2 HE Hm Hs Ha.
  destruct (sfb_sized_reach _ _ (xconv_sized _ _ _ _ HX md')) as [HR HI].
  apply (xb_dump md' md'' e s bs HR HI H2 Hm Hs); [|exact Ha].
  apply Forall_forall. intros b Hb. destruct (xconv_in _ _ _ _ HX b Hb) as (f & F1 & _ & F2).
  destruct (xbuilt_inv _ _ _ _ _ F2) as (_ & _ & _ & E1 & E2 & E3 & E4). split; [exact E3|]. split; [exact E4|].
  rewrite E1, E2. specialize (HE f F1). unfold i32_max in HE. lia.
Qed.

Section First.
  Context (fs : list routine) (eh : eh_frame) (cie : dw_fde -> cie_info) (HT : eh_typed eh) (HW : code_written fs eh cie) (HZ : of_size fs).

  Lemma written_faultless c : (forall d, c d = 16) -> v1_faultless c (eh_entries eh).
  Proof.
    intros H16. split; [|apply HW]. apply Forall_forall. intros x Hi. change (In x (entries_of eh)) in Hi.
    destruct x as [|g|d]; cbn; [exact I|destruct HW as (_ & N & _); exact (N g Hi)|].
    assert (L : last_at eh d) by (apply (written_last fs eh cie HW HZ), in_functions, Hi).
    destruct (written_bounds fs eh cie HW HZ d L) as (B1 & B2 & _).
    assert (Td : dw_fde_typed d) by (unfold eh_typed in HT; rewrite Forall_forall in HT; exact (HT _ Hi)).
    destruct (takeable_faultless (conv_options_new Amd64) eh cie c d Td) as (F1 & l & F2 & F3).
    - split; [exact B1|]. split; [exact B2|]. split; [exact (written_followed fs eh cie HW HZ d L)|].
      intros x st base mg cfa ra fp o Hr S X Ho. destruct X as (X1 & X2 & _ & _ & _ & X3 & X4).
      apply (written_fixed fs eh cie HT HW HZ (conv_options_new Amd64) (cie d) d eq_refl L (written_followed fs eh cie HW HZ d L) x st base cfa ra fp o Hr S); [|exact Ho].
      split; [exact X1|]. split; [exact X2|]. split; [apply X4|]. split; [apply X4|exact X3].
    - split; [exact F1|]. exists l. split; [exact F2|]. exact (rows_faultless_free _ _ _ _ _ F3).
  Qed.

  Theorem first_repaired fx p m md md' c e : repairs_rows fx -> (forall d, c d = 16) ->
    exists s bs, snd (v1_convert_with fx p m md c (eh_entries eh)) = Ok s /\ build_repaired md' e s = Ok bs /\ code_always_walked eh fs (std_tells e bs) /\
      (forall md'', wf_mode md'' -> rust_slice md'' bs -> exists sf, load md'' e bs = Ok sf /\ code_always_walked eh fs (looked_up_whole md'' e sf)) /\
      forall md'' arch en, wf_mode md'' -> dumped_well md'' e (OutFile arch en bs) (code_always_walked eh fs).
  Proof.
    intros HF H16. destruct (v1_with_fate fx p m md c (eh_entries eh) HF HT) as [(s & H1 & _)|(_ & N)]; [|destruct N; apply written_faultless, H16].
    destruct (v1_made fx p m md c eh s HF HT H1) as (_ & HX & _).
    destruct (made_count _ _ _ _ HX) as [N1 N2]. destruct (written_count fs eh cie HT HW HZ) as [K1 K2].
    destruct (made_builds md' _ c eh s e HX) as (_ & _ & HB & _). destruct (proj2 HB) as (bs & H2).
    { split; [intros (f & g & F & G & Hne & Hr); exact (written_eh_apart fs eh cie HW HZ f g F G Hne Hr)|].
      pose proof (exact_bound s). unfold exact_too_large. lia. }
    exists s, bs. split; [exact H1|]. split; [exact H2|].
    assert (W : forall md'', wf_mode md'' -> rust_slice md'' bs -> forall tells : Z -> unwind -> Prop,
      (forall x base cfa ra fp, std_tells e bs x (Unwind base false (Some cfa) ra fp) -> forall u, tells x u <-> u = Unwind base false (Some cfa) ra fp) ->
      (forall x u, tells x u -> exists v, std_tells e bs x v) -> code_always_walked eh fs tells).
    { intros md'' Hm Hs tells T1 T2.
      destruct (made_program md' md'' _ c eh s e bs cie HT HX H2 Hm Hs (written_followed fs eh cie HW HZ)) as (sf & _ & P1 & _ & P3 & _).
      apply (code_always_walked_by eh cie); [exact (written_checked fs HZ)|exact (written_apart fs HZ)|exact (written_described fs eh cie HW)| |].
      - intros d a st base cfa ra fp L1 L2 L3 R. destruct (written_right fs eh cie HW HZ d a L1 L2) as (_ & _ & st' & _ & _ & S & _ & Hsp).
        assert (st' = st) as -> by congruence.
        destruct (P1 a (as_row st) 16) as (u' & [U1 _] & _ & U2); [exists d, st; rewrite H16; auto|].
        destruct R as (R1 & R2 & R3 & R4 & R5). specialize (U1 base false cfa (Some ra) fp). rewrite U1 in U2; [exact (T1 _ _ _ _ _ U2)|].
        split; [exact R1|]. split; [exact R2|]. split; [left; exact Hsp|]. split; [reflexivity|]. split; [|split; [exact R5|split; assumption]].
        split; [discriminate|]. intros X. exfalso. destruct X as (X & _). discriminate X.
      - intros a u T. apply T2 in T. destruct T as (v & T). destruct (P3 a KeyA v T) as (_ & r & k & d & st & L1 & L2 & _). eauto. }
    assert (Q : forall md'', wf_mode md'' -> rust_slice md'' bs -> exists sf, load md'' e bs = Ok sf /\
      (forall x u, looked_up_whole md'' e sf x u <-> std_tells e bs x u) /\ (forall x u u', std_tells e bs x u -> std_tells e bs x u' -> u = u')).
    { intros md'' Hm Hs. destruct (made_program md' md'' _ c eh s e bs cie HT HX H2 Hm Hs (written_followed fs eh cie HW HZ)) as (sf & HL & _ & P2 & _ & P4). eauto. }
    assert (Hs0 : rust_slice rel64 bs).
    { destruct (x_header md' e s bs (xconv_reach _ _ _ _ HX md') H2) as (Hz & _). pose proof (exact_bound s).
      unfold rust_slice. change (usize_bits rel64) with 64. unfold u32_max in *. lia. }
    split; [|split].
    - destruct (Q rel64 wf_rel64 Hs0) as (sf & _ & _ & P4). apply (W rel64 wf_rel64 Hs0); [|eauto].
      intros x base cfa ra fp U u. split; [intros T; exact (P4 _ _ _ T U)|intros ->; exact U].
    - intros md'' Hm Hs. destruct (Q md'' Hm Hs) as (sf & HL & P2 & P4). exists sf. split; [exact HL|]. apply (W md'' Hm Hs).
      + intros x base cfa ra fp U u. rewrite P2. split; [intros T; exact (P4 _ _ _ T U)|intros ->; exact U].
      + intros x u T. apply P2 in T. eauto.
    - intros md'' arch en Hm dumped abi_name Hh Hs Hn. cbn [out_sframe] in Hs.
      destruct (xmade_dump md' md'' _ c eh s e bs abi_name HX H2) as (sf & l & h & rest & HL & HD & D1 & D2 & D3); [|exact Hm|exact Hs|exact Hn|].
      { intros d L. destruct (written_bounds fs eh cie HW HZ d L) as ((_ & B) & _). lia. }
      exists l, h, rest. split; [exact (holds_dump md'' e dumped (OutFile arch en bs) sf l Hm Hs Hh HL HD)|]. split; [exact D1|]. split; [exact D2|].
      destruct (Q md'' Hm Hs) as (_ & _ & _ & P4). apply (W md'' Hm Hs).
      + intros x base cfa ra fp U u. unfold shown_by. rewrite D3. split.
        * intros (v & V1 & V2). pose proof (P4 _ _ _ V1 U) as ->. exact (looks_inj_any _ _ _ _ _ _ V2).
        * intros ->. eexists. split; [exact U|reflexivity].
      + intros x u T. apply D3 in T. destruct T as (v & T & _). eauto.
  Qed.
End First.
