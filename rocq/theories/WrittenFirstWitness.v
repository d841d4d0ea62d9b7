(** A program with an empty row in its unwind table and the first converter. *)
From Coq Require Import String.
From Verif Require Export WrittenFirst DumpedRepairedWitness.
From Verif Require Import BaseFacts CfiFacts WalkFacts RelateFacts RunFacts ConvWitness CfiWitness V1Witness ProgramWitness RunWitness ConvRepairedWitness ArmRunWitness CodeWitness ToolsWitness.
Open Scope Z_scope.
Open Scope list_scope.

(** The function [cf_deep], with a row that ends where it starts. *)
Definition ce_insns : list insn :=
  [ IAdvanceLoc 4; IDefCfaOffset 112; IAdvanceLoc 0; IDefCfaOffset 120; IAdvanceLoc 1; IDefCfaOffset 128; IOffset 6 16; IAdvanceLoc 10; IDefCfaOffset 120;
    IRestore 6; IAdvanceLoc 4; IDefCfaOffset 8 ].
Definition ce_rows : list dw_row := Eval vm_compute in table_of 0x2000 20 ce_insns.
Definition ce_fde : dw_fde := DwFde 0x2000 20 (Insns ce_insns None) (rows_ok ce_rows).
Definition ce_eh : eh_frame := of_functions [ce_fde].

Lemma ce_typed : eh_typed ce_eh.
Proof. unfold ce_eh, ce_fde, ce_rows. typed_eh. Qed.
Lemma ce_last d : last_at ce_eh d <-> d = ce_fde.
Proof.
  transitivity (In d (functions (entries_of ce_eh))).
  - apply distinct_last. repeat constructor; cbn; intuition discriminate.
  - change (functions (entries_of ce_eh)) with [ce_fde]. cbn. intuition congruence.
Qed.
Lemma ce_follows : follows_dwarf usual_cie ce_fde.
Proof. exists ce_rows, ce_rows. split; [reflexivity|]. split; [vm_compute; reflexivity|apply same_rows_refl]. Qed.
Lemma ce_written : code_written cf_fs ce_eh (fun _ => usual_cie).
Proof.
  split; [reflexivity|]. split; [intros g; cbn; intuition discriminate|]. split.
  - change (functions (entries_of ce_eh)) with [ce_fde]. constructor; [|constructor].
    split; [reflexivity|]. split; [reflexivity|]. split; [vm_compute; reflexivity|]. split; [exact ce_follows|].
    apply no_sp_rule; [cbn; lia|exact ce_follows|].
    change (dw_rows_of ce_fde) with ce_rows. unfold ce_rows. repeat (apply Forall_cons; [reflexivity|]). apply Forall_nil.
  - intros f i b [<-|[]] Hi Hb.
    destruct (describedb_ok usual_cie ce_fde cf_deep ltac:(vm_compute; reflexivity) i b Hi Hb) as (st & S1 & S2 & S3).
    exists ce_fde, st. split; [apply ce_last; reflexivity|]. auto.
Qed.
Lemma ce_empty : ~ no_empty_rows ce_eh (fun _ => usual_cie).
Proof.
  intros H. destruct (H ce_fde (proj2 (ce_last _) eq_refl)) as (rows & E & A).
  assert (E' : cfi_table usual_cie ce_fde = Some ce_rows) by (vm_compute; reflexivity).
  assert (rows = ce_rows) as -> by congruence.
  assert (X : exists r, In r ce_rows /\ dr_start r = dr_end r) by (eexists; split; [right; left; reflexivity|reflexivity]).
  destruct X as (r & X1 & X2). specialize (A r X1). lia.
Qed.
Lemma ce_outside d : last_at ce_eh d ->
  ~ in_range (df_start d) (df_len d) (0x400000 - 0x100000) /\ ~ in_range (df_start d) (df_len d) (0x400000 - 0x100000 - 1).
Proof. intros Hd. apply ce_last in Hd. subst d. unfold in_range. cbn. lia. Qed.

Definition ce_whole : sfb := Eval vm_compute in
  match snd (v1_convert_with all_v1fixes some_texts1 ElfX86_64 rel64 column_16 (eh_entries ce_eh)) with Ok s => s | _ => cf_sfb end.
Definition ce_bytes : bytes := Eval vm_compute in match build_repaired rel64 LE ce_whole with Ok b => b | _ => [] end.
Definition ce_out : out_file := OutFile ElfX86_64 RtLittle ce_bytes.
Definition ce_dump : list dump_line := Eval vm_compute in
  match sframedump_main dev32 LE (Some (object_file ce_out)) with Ok l => l | _ => [] end.

Theorem first_repaired_case :
  eh_typed ce_eh /\ code_written cf_fs ce_eh (fun _ => usual_cie) /\ of_size cf_fs /\ ~ no_empty_rows ce_eh (fun _ => usual_cie) /\
  (forall s, v1_convert rel64 (fun _ => true) (eh_entries ce_eh) <> Ok s) /\
  repairs_rows all_v1fixes /\ (forall d, column_16 d = 16) /\
  snd (v1_convert_with all_v1fixes some_texts1 ElfX86_64 rel64 column_16 (eh_entries ce_eh)) = Ok ce_whole /\ build_repaired rel64 LE ce_whole = Ok ce_bytes /\
  begins 0x100000 cf_fs 0x400000 cf_begin /\ goes 0x100000 cf_fs cf_begin ([cf_frame0], cf_now) /\
  walk (sf_step cf_world (std_tells LE ce_bytes)) (frame_of_thread cf_now) [cf_frame0] /\
  rust_slice dev32 (out_sframe ce_out) /\ sframedump_main dev32 LE (Some (object_file ce_out)) = Ok ce_dump /\
  (exists h, read_dump (stdout_text some_abi ce_dump) = Some (h, rest_of ce_dump)) /\
  walk (sf_step cf_world (shown_by (rest_of ce_dump))) (frame_of_thread cf_now) [cf_frame0].
Proof.
  assert (H1 : snd (v1_convert_with all_v1fixes some_texts1 ElfX86_64 rel64 column_16 (eh_entries ce_eh)) = Ok ce_whole) by (vm_compute; reflexivity).
  assert (H2 : build_repaired rel64 LE ce_whole = Ok ce_bytes) by (vm_compute; reflexivity).
  assert (S : rust_slice dev32 (out_sframe ce_out)) by (vm_compute; reflexivity).
  assert (D : sframedump_main dev32 LE (Some (object_file ce_out)) = Ok ce_dump) by (vm_compute; reflexivity).
  split; [exact ce_typed|]. split; [exact ce_written|]. split; [exact cf_of_size|]. split; [exact ce_empty|].
  split; [intros s; vm_compute; discriminate|]. split; [exact V1RepairedProps.all_repairs_rows|]. split; [reflexivity|].
  split; [exact H1|]. split; [exact H2|]. split; [exact cf_begins|]. split; [exact cf_reaches|].
  destruct (first_repaired cf_fs ce_eh (fun _ => usual_cie) ce_typed ce_written cf_of_size all_v1fixes some_texts1 ElfX86_64 rel64 rel64 column_16 LE
    V1RepairedProps.all_repairs_rows (fun _ => eq_refl)) as (s & bs & Hc & Hb & W1 & _ & Hw).
  assert (s = ce_whole) as -> by congruence. assert (bs = ce_bytes) as -> by congruence.
  split; [apply (W1 _ _ _ _ _ _ cf_begins cf_reaches cf_sees ce_outside); exists []; reflexivity|]. split; [exact S|]. split; [exact D|].
  destruct (Hw dev32 ElfX86_64 RtLittle ltac:(vm_compute; intuition discriminate) (object_file ce_out) some_abi (object_holds _) S some_abi_line) as (l & h & rest & D1 & D2 & _ & W).
  assert (l = ce_dump) as -> by congruence.
  assert (rest_of ce_dump = rest) as -> by (unfold rest_of; rewrite D2; reflexivity).
  split; [eexists; exact D2|].
  apply (W _ _ _ _ _ _ cf_begins cf_reaches cf_sees ce_outside). exists []. reflexivity.
Qed.
