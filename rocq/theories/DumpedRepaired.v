(** Proofs about the output of [sframedump] for sections of the repaired converter and writer. *)
From Coq Require Import String Lia.
From Verif Require Export DumpedFacts.
From Verif Require Import BaseFacts ConvFacts CfiFacts CfiTotal RelateFacts StdConv WalkFacts ProgramFacts LookupFacts RunFacts CodeFacts WrittenFacts ArmCodeFacts ArmCodeProps DownFacts PipeFacts ToolsProps
  TextFacts DumpFacts LoadFacts WriteFacts ReachFacts SectionFacts RoundFacts TripFacts TripWitness StdFacts CopyFacts ReadRepairedFacts WriteRepairedFacts RowRepairedRound ConvRepairedSection ConvRepairedWalk.
Open Scope Z_scope.
Open Scope list_scope.

Lemma looks_inj_any u base cfa ra fp mg : looks u = looks (Unwind base mg (Some cfa) ra fp) -> u = Unwind base mg (Some cfa) ra fp.
Proof.
  destruct u as [b m c r f]. unfold looks. cbn. intros H. injection H as H1 H2 H3 H4. destruct c as [c|]; [|discriminate]. injection H1 as -> ->.
  subst m. destruct r, ra; try discriminate; try injection H3 as ->; destruct f, fp; try discriminate; try injection H2 as ->; reflexivity.
Qed.

(** What the iterators of /repo read from a section of the repaired writer. *)
Section Built.
  Context (md md' : mode) (e : endian) (s : sfb) (bs : bytes).
  Context (HR : sfb_reach md s) (HI : Forall rows_inside (fdes_of s)) (HB : build_repaired md e s = Ok bs) (Hm : wf_mode md') (Hs : rust_slice md' bs).
  Context (HO : Forall (fun b => fb_rep_size b = None /\ fb_pauth b = KeyA /\ fb_start b + fb_size b <= 2 ^ 31) (fdes_of s)).

  Lemma xb_entry i b : nth_error (fdes_of s) i = Some b -> en_start_address (x_entry e s i b) = fb_start b /\ en_size (x_entry e s i b) = fb_size b /\
    plain_function md' e (x_entry e s i b) /\ forall a, offset_in b a = a - fb_start b.
  Proof.
    intros Hb. destruct (repaired_built md e s bs HR HB) as (W & _). destruct (in_fdes_wf s i b W Hb) as [Wb _].
    pose proof (nth_error_In _ _ Hb) as Hi. rewrite Forall_forall in HO. destruct (HO b Hi) as (O1 & O2 & O3).
    split; [reflexivity|]. split; [reflexivity|]. split.
    - split; [|split; [|exact O3]].
      + assert (EI : fde_info (en_fde (x_entry e s i b)) = std_info_of b) by (apply xraw_info, Wb).
        cbn [x_entry en_fde fde_info] in EI. unfold en_fdetype, fde_fdetype, x_entry. cbn [en_fde fde_info]. rewrite EI.
        unfold std_info_of. rewrite O1, O2. destruct (_ =? 1); [|destruct (_ =? 2)]; reflexivity.
      + destruct (x_rows no_rfixes md md' e s bs HR HB Hm (or_intror HI) i b Hb) as (good & HA & _).
        rewrite all_fres_unrepaired in HA. exists good. exact HA.
    - intros a. unfold offset_in. rewrite O1. reflexivity.
  Qed.

  Lemma xb_plain : Forall (fun en => fde_ok (en_fde en) /\ plain_function md' e en) (all_fdes (x_sf e s)).
  Proof.
    pose proof (written_loads md md' e s bs HR HB Hm Hs) as HL. destruct (repaired_built md e s bs HR HB) as (W & _).
    destruct (x_entries e s W) as [HLen HE].
    pose proof (loaded_fdes_ok _ _ _ _ Hm Hs HL) as Hok. rewrite Forall_forall in Hok |- *. intros en Hen. split.
    - rewrite all_fdes_map in Hen. apply in_map_iff in Hen. destruct Hen as (f & <- & Hf). exact (Hok f Hf).
    - apply In_nth_error in Hen. destruct Hen as [i Hen]. destruct (nth_error (fdes_of s) i) as [b|] eqn:Hb.
      2:{ apply nth_error_None in Hb. assert (i < length (all_fdes (x_sf e s)))%nat by (apply nth_error_Some; congruence). lia. }
      rewrite (HE i b Hb) in Hen. injection Hen as <-. apply xb_entry, Hb.
  Qed.

  Lemma xb_says a u : section_says md' e (x_sf e s) a u <-> std_tells e bs a u.
  Proof.
    unfold std_tells. rewrite (repaired_says md e s bs HR HB a KeyA u).
    destruct (repaired_built md e s bs HR HB) as (W & _). destruct (x_entries e s W) as [HLen HE]. split.
    - intros (en & good & fr & Hen & Hrng & HA & Hfr & Hle & Hmax & Hu).
      apply In_nth_error in Hen. destruct Hen as [i Hen]. destruct (nth_error (fdes_of s) i) as [b|] eqn:Hb.
      2:{ apply nth_error_None in Hb. assert (i < length (all_fdes (x_sf e s)))%nat by (apply nth_error_Some; congruence). lia. }
      rewrite (HE i b Hb) in Hen. injection Hen as <-. destruct (xb_entry i b Hb) as (E1 & E2 & _ & E4). rewrite E1, E2 in *.
      destruct (x_rows no_rfixes md md' e s bs HR HB Hm (or_intror HI) i b Hb) as (good' & HA' & HG). rewrite all_fres_unrepaired, HA in HA'.
      injection HA' as HA'. apply (@map_inl_inj _ read_error) in HA'. subst good'.
      pose proof (x_good md md' e s bs HR HB Hm Hs b good (nth_error_In _ _ Hb) HG) as HF.
      destruct (CopyFacts.Forall2_in_r _ _ _ HF fr Hfr) as (r & Hr & Es & Eu).
      exists b, r. split; [apply (nth_error_In _ _ Hb)|]. split; [exact Hrng|]. rewrite E4. split.
      + split; [exact Hr|]. split; [lia|]. intros r' Hr' Hle'. destruct (CopyFacts.Forall2_in_l _ _ _ HF r' Hr') as (fr' & Hfr' & Es' & _).
        specialize (Hmax fr' Hfr'). lia.
      + split; [|congruence]. rewrite Forall_forall in HO. apply (HO b (nth_error_In _ _ Hb)).
    - intros (b & r & Hb & Hrng & (Hr & Hle & Hmax) & Hk & Hu). apply In_nth_error in Hb. destruct Hb as [i Hb].
      destruct (xb_entry i b Hb) as (E1 & E2 & _ & E4). rewrite E4 in *.
      destruct (x_rows no_rfixes md md' e s bs HR HB Hm (or_intror HI) i b Hb) as (good & HA & HG). rewrite all_fres_unrepaired in HA.
      pose proof (x_good md md' e s bs HR HB Hm Hs b good (nth_error_In _ _ Hb) HG) as HF.
      destruct (CopyFacts.Forall2_in_l _ _ _ HF r Hr) as (fr & Hfr & Es & Eu).
      exists (x_entry e s i b), good, fr. split; [apply (nth_error_In _ _ (HE i b Hb))|]. rewrite E1, E2.
      split; [exact Hrng|]. split; [exact HA|]. split; [exact Hfr|]. split; [lia|]. split; [|congruence].
      intros fr' Hfr' Hle'. destruct (CopyFacts.Forall2_in_r _ _ _ HF fr' Hfr') as (r' & Hr' & Es' & _). rewrite Es, Es' in *. apply Hmax; [exact Hr'|lia].
  Qed.

  Theorem xb_dump abi_name : (forall n, without newline_char (abi_name n)) ->
    exists sf l h rest, load md' e bs = Ok sf /\ dump md' e sf = Ok l /\ read_dump (stdout_text abi_name l) = Some (h, rest) /\ stderr_text l = ""%string /\
      forall x v, dump_says rest x v <-> exists u, std_tells e bs x u /\ v = looks u.
  Proof.
    intros Ha. pose proof (written_loads md md' e s bs HR HB Hm Hs) as HL. pose proof xb_plain as HQ.
    destruct (dump_exact md' e bs _ Hm Hs HL) as [HD1 HD2].
    assert (HN : dump md' e (x_sf e s) <> Panic).
    { rewrite HD1. intros (en & Hen & Hpan). rewrite Forall_forall in HQ. destruct (HQ en Hen) as [Q1 Q2].
      destruct (PipeFacts.plain_rows md' e en Hm Q1 Q2) as (good & Hg & Hst).
      destruct Hpan as [Hpan|(good' & er & fr & HR' & Hfr & Hpan)]; [congruence|].
      unfold fre_results in HR'. rewrite Hg in HR'. apply ok_inj, no_error_item in HR'. destruct HR' as [-> _].
      rewrite Forall_forall in Hst. rewrite (Hst fr Hfr) in Hpan. discriminate. }
    destruct (HD2 HN) as (out & HD & _).
    destruct (dump_text_read md' e bs _ abi_name _ Hm Hs HL HD (Ha _)) as (rest & HE & HA & HT & _).
    destruct (lines_on_stdout md' e _ _ _ _ Hm HQ HA) as [O1 O2]. rewrite O1 in HT.
    eexists _, _, _, rest. split; [exact HL|]. split; [exact HD|]. split; [exact HT|]. split.
    - injection HE as <-. apply no_stderr. exact O2.
    - intros x v. rewrite (dump_says_section md' e _ rest x v Hm HQ HA).
      split; intros (u & U1 & U2); exists u; (split; [apply xb_says, U1|exact U2]).
  Qed.
End Built.

(** The section of the repaired converter, dumped: what is said at an address, and where anything is said. *)
Lemma xconverted_dump md md' md'' op c eh s e bs abi_name : eh_typed eh -> dwarf2sframe_repaired md op c eh = Ok s -> build_repaired md' e s = Ok bs ->
  (forall d, last_at eh d -> df_start d + df_len d <= i32_max + 1) -> wf_mode md'' -> rust_slice md'' bs -> (forall n, without newline_char (abi_name n)) ->
  exists sf l h rest, load md'' e bs = Ok sf /\ dump md'' e sf = Ok l /\ read_dump (stdout_text abi_name l) = Some (h, rest) /\ stderr_text l = ""%string /\
    forall x v, dump_says rest x v <-> exists u, std_tells e bs x u /\ v = looks u.
Proof.
  intros HT H1 H2 HE Hm Hs Ha. pose proof (xconverted_made _ _ _ _ (repaired_converted _ _ _ _ _ HT H1)) as HX.
  destruct (sfb_sized_reach _ _ (xconv_sized _ _ _ _ HX md')) as [HR HI].
  apply (xb_dump md' md'' e s bs HR HI H2 Hm Hs); [|exact Ha].
  apply Forall_forall. intros b Hb. destruct (xconv_in _ _ _ _ HX b Hb) as (f & F1 & _ & F2).
  destruct (xbuilt_inv _ _ _ _ _ F2) as (_ & _ & _ & E1 & E2 & E3 & E4). split; [exact E3|]. split; [exact E4|].
  rewrite E1, E2. specialize (HE f F1). unfold i32_max in HE. lia.
Qed.

(** ** AMD64 *)

Theorem dumped_repaired fs eh cie md md' op c e : eh_typed eh -> code_written fs eh cie -> of_size fs -> op_arch op = Amd64 -> (forall d, c d = 16) ->
  exists s bs, dwarf2sframe_repaired md op c eh = Ok s /\ build_repaired md' e s = Ok bs /\ code_always_walked eh fs (std_tells e bs) /\
    forall md'' arch en, wf_mode md'' -> dumped_well md'' e (OutFile arch en bs) (code_always_walked eh fs).
Proof.
  intros HT HW HZ Ha H16. destruct (written_repaired fs eh cie HT HW HZ md md' op c e Ha H16) as (s & bs & H1 & H2 & H3 & _).
  exists s, bs. split; [exact H1|]. split; [exact H2|]. split; [exact H3|]. intros md'' arch en Hm dumped abi_name Hh Hs Hn. cbn [out_sframe] in Hs.
  destruct (xconverted_dump md md' md'' op c eh s e bs abi_name HT H1 H2) as (sf & l & h & rest & HL & HD & D1 & D2 & D3); [|exact Hm|exact Hs|exact Hn|].
  { intros d L. destruct (written_bounds fs eh cie HW HZ d L) as ((_ & B) & _). lia. }
  exists l, h, rest. split; [exact (holds_dump md'' e dumped (OutFile arch en bs) sf l Hm Hs Hh HL HD)|]. split; [exact D1|]. split; [exact D2|].
  destruct (repaired_program md md' md'' op c eh s e bs _ HT H1 H2 Hm Hs (written_followed fs eh cie HW HZ)) as (sf' & _ & P1 & _ & P3 & P4).
  apply (code_always_walked_by eh cie); [exact (written_checked fs HZ)|exact (written_apart fs HZ)|exact (written_described fs eh cie HW)| |].
  - intros d a st base cfa ra fp L1 L2 L3 R u. destruct (written_right fs eh cie HW HZ d a L1 L2) as (_ & _ & st' & _ & _ & S & _ & Hsp).
    assert (st' = st) as -> by congruence.
    destruct (P1 a (as_row st) 16) as (u' & [U1 _] & _ & U2); [exists d, st; rewrite H16; auto|].
    rewrite Ha in U1. destruct R as (R1 & R2 & R3 & R4 & R5). specialize (U1 base false cfa (Some ra) fp). rewrite U1 in U2.
    2: { split; [exact R1|]. split; [exact R2|]. split; [left; exact Hsp|]. split; [reflexivity|]. split; [|split; [exact R5|split; assumption]].
         split; [discriminate|]. intros X. exfalso. destruct X as (X & _). discriminate X. }
    unfold shown_by. rewrite D3. split.
    + intros (v & V1 & V2). pose proof (P4 _ _ _ V1 U2) as ->. exact (looks_inj_any _ _ _ _ _ _ V2).
    + intros ->. eexists. split; [exact U2|reflexivity].
  - intros a u T. apply D3 in T. destruct T as (v & T & _). destruct (P3 a KeyA v T) as (_ & r & k & d & st & L1 & L2 & _). eauto.
Qed.

(** ** AArch64 *)

Theorem dumped_arm_repaired fs eh cie md md' op c e : eh_typed eh -> acode_written fs eh cie -> aof_size fs -> op_arch op = Aarch64 -> (forall d, c d = 30) ->
  exists s bs, dwarf2sframe_repaired md op c eh = Ok s /\ build_repaired md' e s = Ok bs /\ acode_walked eh fs everywhere (std_tells e bs) /\
    forall md'' arch en, wf_mode md'' -> dumped_well md'' e (OutFile arch en bs) (acode_walked eh fs everywhere).
Proof.
  intros HT HW HZ Ha H30. destruct (awritten_repaired fs eh cie HT HW HZ md md' op c e Ha H30) as (s & bs & H1 & H2 & H3 & _).
  exists s, bs. split; [exact H1|]. split; [exact H2|]. split; [exact H3|]. intros md'' arch en Hm dumped abi_name Hh Hs Hn. cbn [out_sframe] in Hs.
  destruct (xconverted_dump md md' md'' op c eh s e bs abi_name HT H1 H2) as (sf & l & h & rest & HL & HD & D1 & D2 & D3);
    [exact (awritten_within fs eh cie HW HZ)|exact Hm|exact Hs|exact Hn|].
  exists l, h, rest. split; [exact (holds_dump md'' e dumped (OutFile arch en bs) sf l Hm Hs Hh HL HD)|]. split; [exact D1|]. split; [exact D2|].
  destruct (repaired_program md md' md'' op c eh s e bs _ HT H1 H2 Hm Hs (awritten_followed fs eh cie HW HZ)) as (sf' & _ & P1 & _ & P3 & P4).
  apply (acode_walked_by eh cie); [exact (awritten_checked fs HZ)|exact (awritten_apart fs HZ)|exact (awritten_described fs eh cie HW)| |].
  - intros f i Hf Hi _ b Hb. destruct (awritten_described fs eh cie HW f i b Hf Hi Hb) as (d & st & L1 & L2 & L3 & base & mg & cfa & ra & fp & X & E1 & E2 & E3).
    destruct (P1 (ar_start f + b) (as_row st) 30) as (u & [U1 _] & _ & U2).
    { exists d, st. rewrite H30. auto. }
    rewrite Ha in U1. apply U1 in X. subst u. exists base, mg, cfa, ra, fp. split; [|auto].
    intros u. unfold shown_by. rewrite D3. split.
    + intros (v & V1 & V2). pose proof (P4 _ _ _ V1 U2) as ->. exact (looks_inj_any _ _ _ _ _ _ V2).
    + intros ->. eexists. split; [exact U2|reflexivity].
  - intros a u T. apply D3 in T. destruct T as (v & T & _). destruct (P3 a KeyA v T) as (_ & r & k & d & st & L1 & L2 & _). eauto.
Qed.
