(** Walks of such programs by the look-ups of the library, with the repairs of C65. *)
From Verif Require Export WrittenFacts.
From Verif Require Import BaseFacts CfiFacts StdConv LookupFacts RunFacts RunLook WalkFacts ProgramFacts.
From Verif Require Export WalkLookSpec.
Open Scope Z_scope.

Lemma code_always_walked_ext eh fs t t' : (forall a u, t a u <-> t' a u) -> code_always_walked eh fs t -> code_always_walked eh fs t'.
Proof.
  intros H HA bias back s0 st x w H0 R HS HO l. rewrite <- (HA bias back s0 st x w H0 R HS HO l).
  split; apply walk_ext; [intros; symmetry; apply H|exact H].
Qed.

Section Written.
  Context (fs : list routine) (eh : eh_frame) (cie : dw_fde -> cie_info).
  Hypothesis HT : eh_typed eh.
  Hypothesis HW : code_written fs eh cie.
  Hypothesis HS : of_size fs.

  Lemma written_within d : last_at eh d -> df_start d + df_len d <= i32_max + 1.
  Proof. intros H. destruct (written_bounds fs eh cie HW HS d H) as ((_ & B) & _). lia. Qed.

  Theorem written_looks md md' op e : op_arch op = Amd64 ->
    exists s bs, dwarf2sframe md op eh = Ok s /\ build md' e s = Ok bs /\
      forall md'', wf_mode md'' -> rust_slice md'' bs ->
      exists sf, load md'' e bs = Ok sf /\ code_always_walked eh fs (looked_up all_repairs md'' e sf).
  Proof.
    intros Ha. destruct (written_walks fs eh cie HT HW HS md md' op e Ha) as (s & bs & H1 & H2 & _ & H3). exists s, bs.
    split; [exact H1|]. split; [exact H2|]. intros md'' Hm Hs. destruct (H3 md'' Hm Hs) as (sf & HL & W). exists sf. split; [exact HL|].
    destruct (conv_ordinary md md' op eh s e bs HT H1 H2) as (R & _ & O).
    eapply code_always_walked_ext; [|exact W]. intros a u.
    apply (repaired_looked_up md' md'' e s bs sf R H2 O Hm Hs HL a u (converted_within md op eh s HT H1 written_within)).
  Qed.

  Theorem v1_written_looks md md' p e : (forall r, p r = true) -> no_empty_rows eh cie ->
    exists s bs, v1_convert md p (eh_entries eh) = Ok s /\ build md' e s = Ok bs /\
      forall md'', wf_mode md'' -> rust_slice md'' bs ->
      exists sf, load md'' e bs = Ok sf /\ code_always_walked eh fs (looked_up all_repairs md'' e sf).
  Proof.
    intros Hp HN. destruct (v1_written_walks fs eh cie HT HW HS md md' p e Hp HN) as (s & bs & H1 & H2 & _ & H3). exists s, bs.
    split; [exact H1|]. split; [exact H2|]. intros md'' Hm Hs. destruct (H3 md'' Hm Hs) as (sf & HL & W). exists sf. split; [exact HL|].
    destruct (StdConv.v1_ordinary md md' p (eh_entries eh) s e bs HT H1 H2) as (R & _ & O).
    eapply code_always_walked_ext; [|exact W]. intros a u.
    apply (repaired_looked_up md' md'' e s bs sf R H2 O Hm Hs HL a u (v1_within md p (eh_entries eh) s HT H1 written_within)).
  Qed.
End Written.
