(** Walks of AArch64 programs given by their instructions, by what the converters make of them. *)
From Verif Require Export ArmCodeFacts DownSpec.
From Verif Require Import BaseFacts ConvFacts CfiFacts CfiTotal RelateFacts StdConv WalkFacts ProgramFacts LookupFacts RunFacts ArmRunFacts ArmRunProps DownFacts.
From Verif Require Import WriteRepairedFacts WriteRepairedSpec ConvRepairedSection ConvRepairedWalk ConvRepairedProps.
Open Scope Z_scope.
Open Scope list_scope.

(** ** As the converter is *)

Lemma on_stack_represented v r : arule_right v r -> av_link v = None -> (forall k, av_back v <> Some (k, true)) ->
  exists base cfa k fp, representable Aarch64 r base cfa k fp /\
    match base with Sp => av_sp v = Some cfa | Fp => av_fp v = Some cfa end /\
    match fp with Some j => av_saved v = Some j | None => av_same v = true end /\ av_back v = Some (k, false).
Proof.
  intros (base & mg & cfa & ra & fp & X & D1 & D2 & D3) Hl Hu. destruct ra as [k|]; [|congruence]. destruct mg; [destruct (Hu k D3)|].
  exists base, cfa, k, fp. split; [|auto]. destruct X as (X1 & X2 & _ & _ & _ & X5 & X6 & X7). repeat (split; [assumption|]). exact X5.
Qed.

Lemma as_is_walked eh cie fs tells : (forall f, In f fs -> achecked f) -> aroutines_apart fs -> acode_described eh cie fs -> saved_unsigned fs ->
  (forall d x, last_at eh d -> in_range (df_start d) (df_len d) x -> exists st u, cfi_at (cie d) d x = Some st /\ tells x u /\
     matches Aarch64 (as_row st) u /\ forall u', tells x u' -> u' = u) ->
  (forall x u, tells x u -> exists d, last_at eh d /\ in_range (df_start d) (df_len d) x) ->
  acode_walked eh fs on_stack tells.
Proof.
  intros HC HA HD HU P1 P2. apply (acode_walked_by eh cie); try assumption. intros f i Hf Hi Hs b Hb. assert (Hs' : on_stack f i) by tauto.
  destruct (HD f i b Hf Hi Hb) as (d & st & D1 & D2 & D3 & D4).
  destruct (on_stack_represented _ _ D4 Hs' (fun k => HU f i k Hf Hi)) as (base & cfa & k & fp & R & E1 & E2 & E3).
  destruct (P1 d _ D1 D2) as (st' & u & U1 & U2 & [U3 _] & U4). assert (st' = st) as -> by congruence. apply U3 in R. subst u.
  exists base, false, cfa, (Some k), fp. split; [|auto]. intros u. split; [apply U4|intros ->; exact U2].
Qed.

Theorem acode_walks md md' md'' op eh s e bs cie fs :
  eh_typed eh -> dwarf2sframe md op eh = Ok s -> op_arch op = Aarch64 -> build md' e s = Ok bs -> wf_mode md'' -> rust_slice md'' bs ->
  programs_followed eh cie -> (forall d, last_at eh d -> unconfused Aarch64 None (cie d) d) ->
  (forall f, In f fs -> achecked f) -> aroutines_apart fs -> acode_described eh cie fs -> saved_unsigned fs ->
  (exists sf, load md'' e bs = Ok sf /\ acode_walked eh fs on_stack (section_says md'' e sf)) /\ acode_walked eh fs on_stack (std_tells e bs).
Proof.
  intros Ht H Ha B Hm Hs Hp Hu HC HA HD HU.
  assert (Hx : fixed_ra_of op eh = None) by (unfold fixed_ra_of, header_ra; rewrite Ha; reflexivity).
  assert (Hgood : forall f, last_at eh f -> (exists c, follows_dwarf c f) /\
     forall r, In r (wide_rows f) -> ~ clash (op_arch op) (fixed_ra_of op eh) r).
  { intros f Hf. split; [exists (cie f); apply Hp, Hf|]. intros r Hr. rewrite Ha, Hx.
    apply (follows_clash _ _ (cie f) f r (last_len _ _ Ht Hf) (Hp f Hf)); [apply Hu, Hf|exact Hr]. }
  split.
  - destruct (program_preserved md md' md'' op eh s e bs Ht H B Hm Hs Hgood) as (sf & HLd & P1 & P2).
    exists sf. split; [exact HLd|]. apply (as_is_walked eh cie); try assumption.
    intros d x D1 D2. rewrite <- Ha. exact (P1 (cie d) d x D1 (Hp d D1) D2).
  - destruct (std_program_preserved md md' op eh s e bs Ht H B Hgood) as (P1 & P2). apply (as_is_walked eh cie); try assumption.
    + intros d x D1 D2. destruct (P1 (cie d) d x D1 (Hp d D1) D2) as (st & u & U1 & U2 & U3 & U4). rewrite Ha in U3.
      exists st, u. split; [exact U1|]. split; [exact U2|]. split; [exact U3|]. intros u' T. exact (proj2 (U4 _ _ T)).
    + intros a u. apply P2.
Qed.

(** Where the stack grows down (C160), nothing more need be asked of the programs. *)
Theorem acode_down md md' md'' op eh s e bs cie fs :
  eh_typed eh -> dwarf2sframe md op eh = Ok s -> op_arch op = Aarch64 -> build md' e s = Ok bs -> wf_mode md'' -> rust_slice md'' bs ->
  programs_followed eh cie -> (forall d, last_at eh d -> downward_program Aarch64 (cie d) d) ->
  (forall f, In f fs -> achecked f) -> aroutines_apart fs -> acode_described eh cie fs -> saved_unsigned fs ->
  (exists sf, load md'' e bs = Ok sf /\ acode_walked eh fs on_stack (section_says md'' e sf)) /\ acode_walked eh fs on_stack (std_tells e bs).
Proof.
  intros Ht H Ha B Hm Hs Hp Hd. apply (acode_walks md md' md'' op eh s e bs cie fs Ht H Ha B Hm Hs Hp).
  intros d D. apply downward_unconfused, Hd, D.
Qed.

Theorem acode_converted md md' op eh e cie fs :
  eh_typed eh -> op_arch op = Aarch64 -> ents_end (eh_entries eh) = None ->
  (forall x, In x (entries_of eh) -> match x with DwCie => True | DwBadFde _ => False
     | DwGoodFde f => ordinary op eh f /\ dump_fine md op f end) ->
  apart eh -> countable (function_count eh) (table_rows eh) ->
  (forall c d, last_at eh d -> follows_dwarf c d -> downward_program Aarch64 c d) ->
  programs_followed eh cie ->
  (forall f, In f fs -> achecked f) -> aroutines_apart fs -> acode_described eh cie fs -> saved_unsigned fs ->
  exists s bs, dwarf2sframe md op eh = Ok s /\ build md' e s = Ok bs /\ acode_walked eh fs on_stack (std_tells e bs) /\
    forall md'', wf_mode md'' -> rust_slice md'' bs -> exists sf, load md'' e bs = Ok sf /\ acode_walked eh fs on_stack (section_says md'' e sf).
Proof.
  intros HT Ha He Hx Hap Hc Hdn Hp HC HA HD HU.
  destruct (ordinary_section md md' op eh e HT He Hx Hap Hc) as (s & bs & H1 & H2 & _).
  { intros c d D1 D2. rewrite Ha. apply downward_unconfused, Hdn; assumption. }
  assert (HD' : forall d, last_at eh d -> downward_program Aarch64 (cie d) d) by (intros d Hd; apply Hdn; [exact Hd|apply Hp, Hd]).
  exists s, bs. split; [exact H1|]. split; [exact H2|]. split.
  - destruct (conv_ordinary md md' op eh s e bs HT H1 H2) as (_ & Hs & _).
    apply (acode_down md md' rel64 op eh s e bs cie fs HT H1 Ha H2 wf_rel64 Hs Hp HD' HC HA HD HU).
  - intros md'' Hm Hs. apply (acode_down md md' md'' op eh s e bs cie fs HT H1 Ha H2 Hm Hs Hp HD' HC HA HD HU).
Qed.

(** ** With the repairs *)

Theorem acode_repaired md md' md'' op c eh s e bs cie fs :
  eh_typed eh -> dwarf2sframe_repaired md op c eh = Ok s -> op_arch op = Aarch64 -> (forall d, c d = 30) ->
  build_repaired md' e s = Ok bs -> wf_mode md'' -> rust_slice md'' bs -> programs_followed eh cie ->
  (forall f, In f fs -> achecked f) -> aroutines_apart fs -> acode_described eh cie fs ->
  (exists sf, load md'' e bs = Ok sf /\ acode_walked eh fs everywhere (looked_up_whole md'' e sf)) /\ acode_walked eh fs everywhere (std_tells e bs).
Proof.
  intros Ht H Ha H30 B Hm Hs Hp HC HA HD.
  destruct (repaired_program md md' md'' op c eh s e bs cie Ht H B Hm Hs Hp) as (sf & HLd & P1 & P2 & P3 & P4).
  assert (W : acode_walked eh fs everywhere (std_tells e bs)).
  { apply (acode_walked_by eh cie); try assumption.
    - intros f i Hf Hi _ b Hb. destruct (HD f i b Hf Hi Hb) as (d & st & D1 & D2 & D3 & base & mg & cfa & ra & fp & X & E1 & E2 & E3).
      destruct (P1 (ar_start f + b) (as_row st) 30) as (u & [U1 _] & _ & U2).
      { exists d, st. rewrite H30. auto. }
      rewrite Ha in U1. apply U1 in X. subst u. exists base, mg, cfa, ra, fp. split; [|auto].
      intros u. split; [intros T; exact (P4 _ _ _ T U2)|intros ->; exact U2].
    - intros a u T. destruct (P3 a KeyA u T) as (_ & r & k & d & st & D1 & D2 & _). eauto. }
  split; [|exact W]. exists sf. split; [exact HLd|].
  intros sign strip bias back s0 st x w X1 X2 X3 X4 X5 X6 X7 X8 l. specialize (W sign strip bias back s0 st x w X1 X2 X3 X4 X5 X6 X7 X8 l).
  rewrite <- W. split; apply lk_walk_ext; intros a u; [|symmetry]; apply P2.
Qed.

Theorem acode_repaired_converted md md' op c eh e cie fs :
  eh_typed eh -> op_arch op = Aarch64 -> (forall d, c d = 30) -> ents_end (eh_entries eh) = None ->
  (forall x, In x (entries_of eh) -> match x with DwCie => True | DwBadFde _ => False
     | DwGoodFde f => fits_section f /\ df_len f <= 0x10000000 /\ follows_dwarf (cie f) f end) ->
  ~ functions_overlap eh -> countable (function_count eh) (table_rows eh) ->
  (forall f, In f fs -> achecked f) -> aroutines_apart fs -> acode_described eh cie fs ->
  exists s bs, dwarf2sframe_repaired md op c eh = Ok s /\ build_repaired md' e s = Ok bs /\ acode_walked eh fs everywhere (std_tells e bs) /\
    forall md'', wf_mode md'' -> rust_slice md'' bs -> exists sf, load md'' e bs = Ok sf /\ acode_walked eh fs everywhere (looked_up_whole md'' e sf).
Proof.
  intros HT Ha H30 He Hx Hap Hc HC HA HD.
  assert (Hp : programs_followed eh cie).
  { intros d (pre & post & E & _). assert (Hd : In d (functions (entries_of eh))) by (rewrite E; apply in_or_app; right; left; reflexivity).
    apply in_functions in Hd. apply (Hx _ Hd). }
  destruct (takeable_walks md md' op c eh cie e HT He) as (s & bs & H1 & H2 & _).
  - intros x Hi. specialize (Hx x Hi). destruct x as [|g|d]; [exact I|exact Hx|]. destruct Hx as (B1 & B2 & B3). do 3 (split; [assumption|]).
    intros x st base mg cfa ra fp o _ _ _ E. unfold fixed_ra_of, header_ra in E. rewrite Ha in E. discriminate.
  - exact Hap.
  - exact Hc.
  - exists s, bs. split; [exact H1|]. split; [exact H2|]. split.
    + assert (Hs : rust_slice rel64 bs).
      { pose proof (xconverted_made _ _ _ _ (repaired_converted _ _ _ _ _ HT H1)) as HX.
        destruct (x_header md' e s bs (xconv_reach _ _ _ _ HX md') H2) as (Hz & _).
        destruct (made_count _ _ _ _ HX) as [N1 N2]. destruct Hc as [K1 K2]. pose proof (exact_bound s).
        unfold rust_slice. change (usize_bits rel64) with 64. unfold u32_max in *. lia. }
      apply (acode_repaired md md' rel64 op c eh s e bs cie fs HT H1 Ha H30 H2 wf_rel64 Hs Hp HC HA HD).
    + intros md'' Hm Hs. apply (acode_repaired md md' md'' op c eh s e bs cie fs HT H1 Ha H30 H2 Hm Hs Hp HC HA HD).
Qed.
