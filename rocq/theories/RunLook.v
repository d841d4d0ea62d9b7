(** A running program whose stack is walked by looking addresses up. *)
From Verif Require Export RunFacts WalkLook WalkLookSpec LookupConv LookupSpec.
From Verif Require Import BaseFacts ConvFacts ConvProps ConvSection CfiFacts CfiTotal RelateFacts V1Relate StdConv WalkFacts ProgramFacts LookupFacts.
Open Scope Z_scope.
Open Scope list_scope.

(** ** With the repairs *)

Lemma always_walked_ext eh fs t t' : (forall a u, t a u <-> t' a u) -> always_walked eh fs t -> always_walked eh fs t'.
Proof.
  intros H HA bias back s0 st x w H0 R HS HO l. rewrite <- (HA bias back s0 st x w H0 R HS HO l).
  split; apply walk_ext; [intros; symmetry; apply H|exact H].
Qed.

Lemma converted_within md op eh s : eh_typed eh -> dwarf2sframe md op eh = Ok s ->
  (forall d, last_at eh d -> df_start d + df_len d <= i32_max + 1) -> within_i32 s.
Proof.
  intros Ht H HB b Hb. destruct (conv_functions _ _ _ _ Ht H) as (_ & F & _). destruct (F b Hb) as (f & Hf & -> & -> & _). apply HB, Hf.
Qed.
Lemma v1_within md p ents s : ents_typed ents -> v1_convert md p ents = Ok s ->
  (forall d, v1_last ents d -> df_start d + df_len d <= i32_max + 1) -> within_i32 s.
Proof.
  intros Ht H HB b Hb. destruct (v1_built_from md p ents s b Ht H Hb) as (f & Hf & B & E).
  destruct (built_inv v1_conv v1_options _ _ eq_refl B) as (_ & _ & _ & _ & E2 & _). rewrite E, E2. change (df_len (norm f)) with (df_len f). apply HB, Hf.
Qed.

Section Compiled.
  Context (fs : list func) (eh : eh_frame).
  Hypothesis HT : eh_typed eh.
  Hypothesis HC : compiled fs (eh_entries eh).
  Hypothesis HM : moderate fs.
  Hypothesis HR : forall f, In f fs -> fn_start f + fn_len f <= i32_max + 1.

  Lemma compiled_within d : last_at eh d -> df_start d + df_len d <= i32_max + 1.
  Proof. intros H. destruct (compiled_entry fs eh HC HM d H) as (f & F1 & (E1 & E2 & _)). rewrite E1, E2. apply HR, F1. Qed.

  Theorem compiled_looks md md' op e : op_arch op = Amd64 ->
    exists s bs, dwarf2sframe md op eh = Ok s /\ build md' e s = Ok bs /\
      forall md'', wf_mode md'' -> rust_slice md'' bs ->
      exists sf, load md'' e bs = Ok sf /\ always_walked eh fs (looked_up all_repairs md'' e sf).
  Proof.
    intros Ha. destruct (compiled_walks fs eh HT HC HM md md' op e Ha) as (s & bs & H1 & H2 & _ & H3). exists s, bs.
    split; [exact H1|]. split; [exact H2|]. intros md'' Hm Hs. destruct (H3 md'' Hm Hs) as (sf & HL & HW). exists sf. split; [exact HL|].
    destruct (conv_ordinary md md' op eh s e bs HT H1 H2) as (R & _ & O).
    eapply always_walked_ext; [|exact HW]. intros a u.
    apply (repaired_looked_up md' md'' e s bs sf R H2 O Hm Hs HL a u (converted_within md op eh s HT H1 compiled_within)).
  Qed.

  Theorem v1_compiled_looks md md' p e : (forall r, p r = true) ->
    exists s bs, v1_convert md p (eh_entries eh) = Ok s /\ build md' e s = Ok bs /\
      forall md'', wf_mode md'' -> rust_slice md'' bs ->
      exists sf, load md'' e bs = Ok sf /\ always_walked eh fs (looked_up all_repairs md'' e sf).
  Proof.
    intros Hp. destruct (v1_compiled_walks fs eh HT HC HM md md' p e Hp) as (s & bs & H1 & H2 & _ & H3). exists s, bs.
    split; [exact H1|]. split; [exact H2|]. intros md'' Hm Hs. destruct (H3 md'' Hm Hs) as (sf & HL & HW). exists sf. split; [exact HL|].
    destruct (StdConv.v1_ordinary md md' p (eh_entries eh) s e bs HT H1 H2) as (R & _ & O).
    eapply always_walked_ext; [|exact HW]. intros a u.
    apply (repaired_looked_up md' md'' e s bs sf R H2 O Hm Hs HL a u (v1_within md p (eh_entries eh) s HT H1 compiled_within)).
  Qed.

  (** ** The look-ups as they are *)

  Hypothesis HS : forall f, In f fs -> fn_ret f <= 127.

  Lemma written_near f d : fn_wf f -> fn_ret f <= 127 -> written_for f d -> rows_near d.
  Proof.
    intros W Hr (E1 & E2 & E3 & l & rows & R1 & R2 & R3). unfold rows_near, wide_rows, dw_rows_of. rewrite R1. cbn [rows_list].
    assert (HI : forall r, In r l -> exists r', In r' rows /\ dr_start r = dr_start r' /\ dr_end r = dr_end r').
    { clear - R3. induction R3 as [|x y l l' (S1 & S2 & _) R3 IH]; intros r Hr; [destruct Hr|]. destruct Hr as [<-|Hr]; [exists y; split; [left; reflexivity|auto]|].
      destruct (IH r Hr) as (r' & I1 & I2). exists r'. split; [right; exact I1|exact I2]. }
    assert (HT' : exists r0 rest, rows = r0 :: rest /\ dr_start r0 = fn_start f /\ dr_start r0 < dr_end r0 /\
      forall r, In r rows -> dr_start r - fn_start f <= fn_ret f).
    { clear - W E1 E2 E3 R2. unfold fn_wf in W. unfold cfi_table in R2. rewrite E1, E2, E3 in R2. unfold program_of in R2. kinds. destruct (fn_kind f) as [n|room n].
      - cbn [is_end is_list cfi_initial ci_initial usual_cie cfi_step set_cfa set_rule option_map cs_cfa cs_regs] in R2.
        cbn [cfi_rows next_loc ci_code_align ci_data_align usual_cie cfi_step set_cfa set_rule option_map cs_cfa cs_regs row_at] in R2.
        repeat match type of R2 with context [(?a <=? ?b)] => rewrite (proj2 (Z.leb_le a b)) in R2 by lia end. cbn [andb] in R2.
        injection R2 as <-. do 2 eexists. split; [reflexivity|]. cbn [dr_start dr_end]. split; [lia|]. split; [lia|].
        intros r H. cbn in H. repeat (destruct H as [<-|H]; [cbn [dr_start]; lia|]). destruct H.
      - cbn [is_end is_list cfi_initial ci_initial usual_cie cfi_step set_cfa set_rule option_map cs_cfa cs_regs] in R2.
        cbn [cfi_rows next_loc ci_code_align ci_data_align usual_cie cfi_step set_cfa set_rule option_map cs_cfa cs_regs row_at] in R2.
        repeat match type of R2 with context [(?a <=? ?b)] => rewrite (proj2 (Z.leb_le a b)) in R2 by lia end. cbn [andb] in R2.
        injection R2 as <-. do 2 eexists. split; [reflexivity|]. cbn [dr_start dr_end]. split; [lia|]. split; [lia|].
        intros r H. cbn in H. repeat (destruct H as [<-|H]; [cbn [dr_start]; lia|]). destruct H. }
    destruct HT' as (r0 & rest & -> & T1 & T2 & T3). split.
    - right. inversion R3 as [|x y l1 l2 (S1 & S2 & _) R4]; subst. exists x. rewrite E1, S1. split; [|exact T1].
      apply filter_In. split; [left; reflexivity|]. unfold wideb. destruct (Z.eqb_spec (dr_start x) (dr_end x)); [lia|reflexivity].
    - intros r Hin. apply filter_In in Hin. destruct (HI r (proj1 Hin)) as (r' & I1 & I2 & _). specialize (T3 r' I1). lia.
  Qed.

  Lemma plus64_apart x y c : plus64 x c = plus64 y c -> 0 < y - x < 2 ^ 64 -> False.
  Proof.
    unfold plus64, as_u. intros H D. pose proof (Z.mod_eq (x + c) (2 ^ 64) ltac:(lia)). pose proof (Z.mod_eq (y + c) (2 ^ 64) ltac:(lia)).
    assert (E : y - x = 2 ^ 64 * ((y + c) / 2 ^ 64 - (x + c) / 2 ^ 64)) by lia.
    assert (Hq : (y + c) / 2 ^ 64 - (x + c) / 2 ^ 64 <= 0 \/ 1 <= (y + c) / 2 ^ 64 - (x + c) / 2 ^ 64) by lia. nia.
  Qed.

  Definition far : Z := 2 ^ 33.
  Lemma far_outside d : last_at eh d -> ~ in_range (df_start d) (df_len d) (far - 0) /\ ~ in_range (df_start d) (df_len d) (far - 0 - 1).
  Proof. intros H. pose proof (compiled_within d H). unfold in_range, far, i32_max in *. lia. Qed.

  Definition plain_world (m : Z -> Z) : world := World (fun a => Some (m a)) (fun _ _ _ => None) (fun v => v) (fun _ p => p - 0) true.

  (** If every walk were right, the one rule would lead to the right frame before the first
      instruction of a function and after it. *)
  Lemma one_rule tells u f x st : always_walked eh fs tells -> (forall a v, tells a v -> v = u) ->
    In f fs -> starts 0 fs far (st, x) -> forall y, runs 0 fs (st, x) (st, y) -> exists b c, sf_base (frame_of_thread y) (uw_base u) = Some b /\
      uw_cfa u = Some c /\ match st with d :: _ => sx_sp d = plus64 b c | [] => True end.
  Proof.
    intros HA HU Hf H0 y R.
    assert (HSe : sees 0 (plain_world (t_mem y)) y) by (split; [reflexivity|]; split; [reflexivity|]; intros p; left; reflexivity).
    pose proof (HA 0 far (st, x) st y (plain_world (t_mem y)) H0 R HSe far_outside) as HW.
    destruct H0 as (g & sp & fp & m & _ & _ & _ & _ & E). injection E as -> ->. cbn [sx_sp].
    assert (HX : walk (sf_step (plain_world (t_mem y)) tells) (frame_of_thread y) [SfFrame false far (sp + 8) (Some fp)]) by (apply HW; exists []; reflexivity).
    inversion HX as [|? ? ? HSt _]; subst. destruct HSt as (v & b & c & o & z & T & B & C & _ & _ & _ & _ & P & _). apply HU in T. subst v.
    exists b, c. split; [exact B|]. split; [exact C|]. exact P.
  Qed.

  Definition big : Z := 2 ^ 40.
  Definition begin (f : func) (fp : Z) : list sf_frame * thread :=
    ([SfFrame false far (big + 8) (Some fp)], Thread (0 + fn_start f) big fp (fun a => if a =? big then far else fp)).
  Lemma begin_starts f fp : In f fs -> starts 0 fs far (begin f fp).
  Proof. intros H. exists f, big, fp, (fun a => if a =? big then far else fp). unfold big. repeat split; try lia. exact H. Qed.

  Theorem compiled_astray md md' op e s bs md'' f : op_arch op = Amd64 -> dwarf2sframe md op eh = Ok s -> build md' e s = Ok bs ->
    wf_mode md'' -> rust_slice md'' bs -> overflow_checks md'' = false -> In f fs ->
    match fn_kind f with WithFp _ => True | WithoutFp room _ => 0 < room end ->
    exists sf, load md'' e bs = Ok sf /\ ~ always_walked eh fs (looked_up no_repairs md'' e sf).
  Proof.
    intros Ha H B Hm Hs Ho Hf Hk.
    assert (HN : forall d, In d (functions (entries_of eh)) -> rows_near d).
    { intros d Hd. destruct (compiled_entry fs eh HC HM d) as (g & G1 & G2); [apply (compiled_last fs eh HC HM), Hd|].
      apply (written_near g d); [apply (compiled_wf fs HM), G1|apply HS, G1|exact G2]. }
    destruct (conv_one_answer md md' md'' op eh s e bs HT H HN B Hm Hs) as (sf & u & HL & HU). exists sf. split; [exact HL|]. intros HA.
    assert (HU' : forall a v, looked_up no_repairs md'' e sf a v -> v = u).
    { intros a v [Hi Hv]. rewrite lookup_unrepaired in Hv. destruct (HU a Hi (or_introl Ho)) as [E|E]; congruence. }
    pose proof (fun fp y => one_rule _ u f (snd (begin f fp)) (fst (begin f fp)) HA HU' Hf (begin_starts f fp Hf) y) as P.
    destruct (P 0 _ (runs_none _ _ _)) as (b0 & c & B0 & C0 & E0). destruct (P 1 _ (runs_none _ _ _)) as (b1 & c1 & B1 & C1 & E1).
    rewrite C0 in C1. injection C1 as <-. cbn [begin fst snd sx_sp frame_of_thread sf_base sx_fp t_sp t_fp t_pc] in *.
    destruct (uw_base u).
    - injection B0 as <-. injection B1 as <-. apply (plus64_apart 0 1 c); [congruence|lia].
    - injection B0 as <-. clear B1 E1 b1.
      assert (Hsec : exists y, runs 0 fs (begin f 0) (fst (begin f 0), y) /\ 0 < big - t_sp y < 2 ^ 64).
      { pose proof (compiled_wf fs HM f Hf) as W. unfold fn_wf in W. destruct HM as (M & _). destruct (M f Hf) as (_ & _ & _ & Hroom).
        destruct (fn_kind f) as [n|room n] eqn:K.
        - eexists. split; [eapply runs_more; [apply runs_none|]|].
          + apply (do_push 0 fs _ f n big 0 _ (fun a => if a =? big then far else 0)); [exact Hf|exact K|unfold big; lia|reflexivity|intros a _; reflexivity].
          + cbn [t_sp]. lia.
        - eexists. split; [eapply runs_more; [apply runs_none|]|].
          + apply (do_sub 0 fs _ f room n big 0); [exact Hf|exact K|unfold big, i32_max in *; lia].
          + cbn [t_sp]. unfold i32_max in Hroom. lia. }
      destruct Hsec as (y & Y1 & Y2). destruct (P 0 y Y1) as (b & c' & B' & C' & E'). rewrite C0 in C'. injection C' as <-.
      cbn in B'. injection B' as <-. apply (plus64_apart (t_sp y) big c); [congruence|exact Y2].
  Qed.
End Compiled.
