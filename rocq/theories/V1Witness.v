(** What the first-generation converter prints for concrete inputs. *)
From Coq Require Import String Ascii.
From Verif Require Export V1Text ToolsWitness LoudWitness.
Local Open Scope string_scope.

Definition some_texts1 : printers1 :=
  {| p1 := some_texts; pr_eval := fun _ => "Evaluation"; pr_chain := fun l => String.concat ", caused by: " l |}.
Ltac tidy_literal := split; [apply without_all; reflexivity|]; split; [eexists; eexists; split; [reflexivity|reflexivity]|literal_end].
Lemma some_tidy t : tidy_texts some_texts t.
Proof.
  constructor.
  - intros r n H. destruct t as [t|]; [|discriminate H]. cbn [reg_name pr_register some_texts] in H. name_cases H; tidy_literal.
  - intros o. assert (H : tidy "Other") by tidy_literal. destruct o; try exact H. destruct code; try exact H. tidy_literal.
  - intros o. destruct o; try reflexivity. destruct code; reflexivity.
  - intros d. cbn [pr_die some_texts]. apply tidy_app; [apply without_all; reflexivity|eexists; eexists; split; reflexivity|].
    destruct (tidy_dec d) as (H1 & (c & u & E & Hc) & _). split; [|split].
    + apply without_all. rewrite all_chars_app. apply without_all in H1. rewrite H1. reflexivity.
    + rewrite E. exists c, (u ++ ")"). auto.
    + exists (fmt_dec d), ")"%char. auto.
Qed.
Lemma some_readable t : clear_texts some_texts t /\ plain_texts some_texts t /\ tidy_texts some_texts t.
Proof. split; [apply some_clear|]. split; [apply some_plain|apply some_tidy]. Qed.

Definition file_of (m : elf_arch) (fs : list dw_fde) : elf_file := file_with m RtLittle (eh_entries (of_functions fs)).
Definition v1_said (md : mode) (m : elf_arch) (fs : list dw_fde) : list event * outcome v1_error out_file :=
  v1_main_loud some_texts1 md LE (Some (file_of m fs)).
Definition row_with (c : cfa_rule) (regs : list (Z * reg_rule)) : dw_fde :=
  DwFde 0x1000 0x10 nops (rows_ok [DwRow 0x1000 0x1010 c regs]).
Ltac typed_file := intros parse setup [= <-]; match goal with |- ents_typed ?x => change (eh_typed (EhFrame false x)) end; typed_eh.
Definition finishedb {E A} (o : outcome E A) : bool := match o with Ok _ => true | _ => false end.
Lemma finishedb_spec {E A} (o : outcome E A) : finishedb o = true -> finished o.
Proof. destruct o; [intros _; eexists; reflexivity|discriminate|discriminate]. Qed.

(** ** C83 *)

(** The bytes of an expression that ends in the middle of an operation. *)
Definition cut_expr : expression := Expression (map Zb [0x77; 0x08; 0x0c; 0xff]) [OpRegisterOffset 7 8 0] (Some (GimliError 19)).
Definition cut_cfa : dw_fde := row_with (CfaExpression cut_expr) [(16, ROffset (-8))].
Definition cut_rule : dw_fde := row_with (CfaReg 7 8) [(6, RExpression cut_expr); (16, ROffset (-8))].

Theorem cut_expression_crashes :
  (forall m, file_typed (file_of m [cut_cfa])) /\ (forall m, file_typed (file_of m [cut_rule])) /\
  (forall md m, snd (v1_said md m [cut_cfa]) = Panic) /\ (forall md m, snd (v1_said md m [cut_rule]) = Panic).
Proof.
  split; [intros m; typed_file|]. split; [intros m; typed_file|].
  split; intros md m; destruct md as [[] [] ? ?], m; vm_compute; reflexivity.
Qed.
(** In the instructions of a function it is an error. *)
Definition cut_insn : dw_fde :=
  DwFde 0x1000 0x10 (Insns [IDefCfaExpression cut_expr] None) (rows_ok [amd_row 0x1000 0x1010 7 8 RUndefined]).
Theorem cut_instruction_reported : forall md m, exists e, snd (v1_said md m [cut_insn]) = Err e.
Proof. intros md m. eexists. destruct md as [[] [] ? ?], m; vm_compute; reflexivity. Qed.

Lemma plt_no_crash md m : file_typed (file_of m [fn_plt]) /\
  Forall (fun r => row_printable r = true) (all_rows (v1_entries_of md (file_of m [fn_plt]))) /\
  (forall f r, In f (functions (v1_entries_of md (file_of m [fn_plt]))) -> In r (dw_rows_of f) -> df_start f <= dr_start r) /\
  exists r x, In r (all_rows (v1_entries_of md (file_of m [fn_plt]))) /\ dr_cfa r = CfaExpression x /\ ex_ops x <> [].
Proof.
  split; [typed_file|]. split; [cbn; repeat constructor|]. split.
  - intros f r Hf Hr. cbn in Hf. destruct Hf as [<-|[]]. cbn in Hr. repeat (destruct Hr as [<-|Hr]; [cbn; lia|]). destruct Hr.
  - eexists. eexists. split; [right; right; left; reflexivity|]. split; [reflexivity|discriminate].
Qed.

(** ** C84 *)

Definition odd_both : dw_fde := row_with (CfaReg 7 8) [(6, RRegister 3); (16, RRegister 3)].
Definition odd_only : dw_fde := row_with (CfaReg 7 8) [(6, RSameValue); (16, ROffset (-8))].
Theorem v1_reports_wrongly : forall m,
  file_typed (file_of m [odd_only]) /\ finished (snd (v1_said rel64 m [odd_only])) /\
  Forall (fun r => ~ v1_lost r) (all_rows (v1_entries_of rel64 (file_of m [odd_only]))) /\
  stderr_of (fst (v1_said rel64 m [odd_only])) = ["unsupported recovery rule for RBP: <same>"] /\
  file_typed (file_of m [odd_both]) /\ finished (snd (v1_said rel64 m [odd_both])) /\
  Datatypes.length (all_rows (v1_entries_of rel64 (file_of m [odd_both]))) = 1%nat /\
  Datatypes.length (stderr_of (fst (v1_said rel64 m [odd_both]))) = 2%nat.
Proof.
  intros m. split; [typed_file|]. split; [destruct m; vm_compute; eexists; reflexivity|]. split.
  { cbn. constructor; [|constructor]. intros H. apply (H Sp 8 (-8) None). apply norm_representable, classify_spec. reflexivity. }
  split; [destruct m; vm_compute; reflexivity|]. split; [typed_file|]. split; [destruct m; vm_compute; eexists; reflexivity|].
  split; [reflexivity|destruct m; vm_compute; reflexivity].
Qed.
Definition v1_file : elf_file := file_with ElfX86_64 RtLittle v1_sample.
Lemma v1_sample_reports :
  Forall row_payload_typed (all_rows (v1_entries_of rel64 v1_file)) /\
  finished (snd (v1_main_loud some_texts1 rel64 LE (Some v1_file))) /\
  stderr_of (fst (v1_main_loud some_texts1 rel64 LE (Some v1_file))) =
    ["unsupported recovery rule for RBP: <same>";
     "DWARF FDE unwind table row requires evaluating a DWARF expression: Evaluation";
     "unsupported recovery rule for RBP: 3"].
Proof.
  split; [|split; [vm_compute; eexists; reflexivity|vm_compute; reflexivity]].
  unfold all_rows. apply Forall_flat_map, Forall_forall. intros f Hf. apply Forall_forall. intros r Hr.
  revert f r Hf Hr. change (eh_payload_typed (EhFrame false v1_sample)). payload.
Qed.

(** ** C85 *)

(** A table of names for each architecture that has one. *)
Definition table_names : printers :=
  {| pr_gimli := fun _ => ""; pr_rule := fun _ => ""; pr_expression := fun _ => ""; pr_insn := fun _ => "";
     pr_op := fun _ => ""; pr_die := fun _ => "";
     pr_register := fun t r =>
       Some match t with
            | TX86_64 => "rax" | TX86 => "eax" | TAArch64 => "x0" | TArm => "r0" | TRiscV => "zero" | TLoongArch => "r0 "
            end |}.
Lemma names_right_iff m t : names_right m (fun pr r => register_text pr t r) <-> t = names_for m.
Proof.
  split.
  - intros H. specialize (H table_names 0 ltac:(lia)). unfold register_shown in H. rewrite register_text_spec in H.
    destruct t as [[]|], m; try reflexivity; cbn in H; try discriminate H.
  - intros -> pr r Hr. apply register_shown_text. lia.
Qed.
Theorem v1_names m : names_right m (fun pr r => v1_register (Printers1 pr (fun _ => "") (fun _ => "")) r) <->
  m = ElfX86_64 \/ m = ElfX86_64_X32.
Proof.
  change (names_right m (fun pr r => register_text pr (Some TX86_64) r) <-> m = ElfX86_64 \/ m = ElfX86_64_X32).
  rewrite names_right_iff. destruct m; cbn; intuition discriminate.
Qed.
Theorem rule_names m : names_right m (fun pr r => rule_register (Printers1 pr (fun _ => "") (fun _ => "")) m r) <->
  m <> ElfX86_64_X32 /\ m <> ElfI386.
Proof.
  change (names_right m (fun pr r => register_text pr (rule_table m) r) <-> m <> ElfX86_64_X32 /\ m <> ElfI386).
  rewrite names_right_iff. destruct m; cbn; intuition discriminate.
Qed.
Definition arm_fde : dw_fde := row_with (CfaReg 31 16) [(29, RRegister 29); (30, ROffset (-8))].
Theorem names_confused :
  pr_register some_texts TAArch64 31 = Some "SP" /\ pr_register some_texts TAArch64 29 = Some "X29" /\
  file_typed (file_of ElfAarch64 [arm_fde]) /\ finished (snd (v1_said rel64 ElfAarch64 [arm_fde])) /\
  In "    cfa:    31+16" (stdout_of (fst (v1_said rel64 ElfAarch64 [arm_fde]))) /\
  In "    reg:    29 = X29" (stdout_of (fst (v1_said rel64 ElfAarch64 [arm_fde]))).
Proof.
  split; [reflexivity|]. split; [reflexivity|]. split; [typed_file|]. split; [vm_compute; eexists; reflexivity|].
  split; vm_compute; tauto.
Qed.

(** ** C86 *)

Lemma v1_dump_case :
  Forall (fun s => in_u64 (snd s)) (elf_sections (file_of ElfX86_64 [fn_plt])) /\
  Forall function_full_typed (functions (v1_entries_of rel64 (file_of ElfX86_64 [fn_plt]))) /\
  finished (snd (v1_said rel64 ElfX86_64 [fn_plt])) /\
  exists views, read_dump1 (skipn 3 (stdout_of (fst (v1_said rel64 ElfX86_64 [fn_plt])))) = Some [views] /\
    fw_start views = 0x2000 /\ fw_end views = 0x2040 /\ Datatypes.length (fw_insns views) = 6%nat /\
    map rw_sframe (fw_rows views) = [Some (16, Some (-8), None); Some (24, Some (-8), None); None] /\
    map (fun r => expression_lines (rv_cfa (rw_row r))) (skipn 2 (fw_rows views)) =
      [["DW_OP_register_offset RSP 8 0"; "DW_OP_register_offset RA 0 0"; "DW_OP_uconst 15"; "DW_OP_and"; "DW_OP_uconst 11";
        "DW_OP_ge"; "DW_OP_uconst 3"; "DW_OP_shl"; "DW_OP_plus"]].
Proof.
  split; [cbn; unfold in_u64; repeat constructor; cbn; lia|].
  split; [cbn; repeat (apply Forall_cons || apply Forall_nil || split); cbn; unfold in_i64; cbn; try exact I; lia|].
  split; [vm_compute; eexists; reflexivity|]. eexists. split; [vm_compute; reflexivity|]. repeat (split; [vm_compute; reflexivity|]). vm_compute. reflexivity.
Qed.

(** ** C87 *)

Lemma v1_types_apart :
  stdout_of (fst (v1_said rel64 ElfX86_64 [typed_fde_dw 0x2a])) <> stdout_of (fst (v1_said rel64 ElfX86_64 [typed_fde_dw 0x31])) /\
  finished (snd (v1_said rel64 ElfX86_64 [typed_fde_dw 0x2a])) /\ finished (snd (v1_said rel64 ElfX86_64 [typed_fde_dw 0x31])) /\
  Forall function_full_typed (functions (v1_entries_of rel64 (file_of ElfX86_64 [typed_fde_dw 0x2a]))) /\
  Forall function_full_typed (functions (v1_entries_of rel64 (file_of ElfX86_64 [typed_fde_dw 0x31]))).
Proof.
  split; [vm_compute; discriminate|]. split; [vm_compute; eexists; reflexivity|]. split; [vm_compute; eexists; reflexivity|].
  split; cbn; repeat (apply Forall_cons || apply Forall_nil || split); cbn; unfold in_i64; cbn; try exact I; lia.
Qed.
