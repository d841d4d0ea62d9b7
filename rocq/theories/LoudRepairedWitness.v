(** Cases for the repaired printing, and what is wrong if one repair is left out
    (C72-C74, C76, C77). *)
From Coq Require Import String Ascii.
From Verif Require Export LoudRepairedProps.
Local Open Scope string_scope.

(** Texts for the operations without a case. *)
Definition piece_text (c : Z) : string := "DW_OP_piece " ++ fmt_dec c.
Lemma piece_names : more_names piece_text.
Proof.
  constructor.
  - intros c. exists ("piece " ++ fmt_dec c). reflexivity.
  - intros c. unfold piece_text. change ("DW_OP_piece " ++ ?x) with ("DW_OP_piece" ++ String " " x). rewrite lead_word_app by no_char.
    cbn. intuition discriminate.
  - intros c c' H. apply app_inj_l in H. apply dec_inj, H.
Qed.
Lemma some_unmarked t : unmarked some_texts t.
Proof.
  constructor.
  - intros r n H. destruct t as [t|]; [|discriminate H]. cbn [reg_name pr_register some_texts] in H. name_cases H; reflexivity.
  - intros x Hx. destruct x; try discriminate Hx; reflexivity.
Qed.

Definition repaired_said (fx : lfixes) (op : options) (eh : eh_frame) : list event := fst (dwarf2sframe_said fx some_texts rel64 op eh).
Definition lf_full : lfixes := lf_all piece_text.

(** ** Cases *)

Theorem sign_case :
  eh_typed low_eh /\ eh_payload_typed low_eh /\
  (exists s, dwarf2sframe_said lf_full some_texts rel64 (talk true false) low_eh =
    ([ErrOut "warning: FDE for 0x00001000+0x0000000000000000: CFA register offset -0x80000001 too large to be represented in the SFrame format"], Ok s)) /\
  read_signed "CFA register offset -0x80000001 too large to be represented in the SFrame format" = Some (ReasonCfaOffset (-0x80000001)).
Proof. split; [typed_eh|]. split; [payload|]. split; [eexists; vm_compute; reflexivity|]. vm_compute. reflexivity. Qed.
Theorem unnamed_case :
  clear_texts some_texts (names_of Amd64) /\ unmarked some_texts (names_of Amd64) /\
  stderr_of (repaired_said lf_full (talk true false) (fp_eh (RRegister 200))) =
    ["warning: FDE for 0x00001000+0x0000000000000000: Unsupport FP recovery rule: `reg200`"] /\
  stderr_of (repaired_said lf_full (talk true false) (fp_eh (RConstant 200))) =
    ["warning: FDE for 0x00001000+0x0000000000000000: Unsupport FP recovery rule: `200`"] /\
  stderr_of (repaired_said lf_full (talk true false) (fp_eh (RRegister 7))) =
    ["warning: FDE for 0x00001000+0x0000000000000000: Unsupport FP recovery rule: `RSP`"].
Proof. split; [apply some_clear|]. split; [apply some_unmarked|]. split; [vm_compute; reflexivity|]. split; vm_compute; reflexivity. Qed.
Theorem rule_frames_typed : forall x, In x [RRegister 200; RConstant 200; RRegister 7] ->
  eh_typed (fp_eh x) /\ eh_payload_typed (fp_eh x) /\ List.length (rows_met (fp_eh x)) = 1%nat.
Proof. intros x [<-|[<-|[<-|[]]]]; (split; [typed_eh|split; [payload|reflexivity]]). Qed.
Theorem digits_case :
  eh_typed (of_functions [far_fde 0x18]) /\
  stderr_of (repaired_said lf_full (talk true false) (of_functions [far_fde 0x18])) =
    [ "warning: FDE for 0x00001000+0x0000000000000000: unsupported CFA source register `reg0`";
      "warning: FDE for 0x00001000+0x0000000000000010: unsupported CFA source register `reg0`" ].
Proof. split; [typed_eh|]. vm_compute. reflexivity. Qed.
Definition plt_ops : list string :=
  [ "                  DW_OP_bregx RSP 8 0"; "                  DW_OP_bregx RA 0 0"; "                  DW_OP_constu 15";
    "                  DW_OP_and"; "                  DW_OP_constu 11"; "                  DW_OP_ge";
    "                  DW_OP_constu 3"; "                  DW_OP_shl"; "                  DW_OP_plus" ].
Theorem names_case :
  more_names piece_text /\ plain_texts some_texts (names_of Amd64) /\ eh_typed (of_functions [fn_plt]) /\
  Forall function_full_typed (functions (entries_of (of_functions [fn_plt]))) /\
  firstn 9 (skipn 8 (stdout_of (repaired_said lf_full (talk true true) (of_functions [fn_plt])))) = plt_ops.
Proof.
  split; [apply piece_names|]. split; [apply some_plain|]. split; [typed_eh|]. split; [apply (Forall_inv_tail sample_full)|].
  vm_compute. reflexivity.
Qed.
Theorem types_case :
  (forall d d', pr_die some_texts d = pr_die some_texts d' -> d = d') /\
  stdout_of (fst (dump_expression_said lf_full some_texts (display_register some_texts Amd64) "" (typed_expr 0x2a))) =
    ["DW_OP_bregx RSP 8 0"; "DW_OP_deref 42 8 false"] /\
  stdout_of (fst (dump_expression_said lf_full some_texts (display_register some_texts Amd64) "" (typed_expr 0x31))) =
    ["DW_OP_bregx RSP 8 0"; "DW_OP_deref 49 8 false"].
Proof. split; [apply some_die|]. split; vm_compute; reflexivity. Qed.

(** ** Each repair is needed *)

Theorem sign_needed :
  forall p, In p (rows_met low_eh) -> forall w,
  In w (stderr_of (repaired_said (LFixes false true true (Some piece_text) true) (talk true false) low_eh)) ->
  w = "warning: FDE for 0x00001000+0x0000000000000000: CFA register offset 0xffffffff7fffffff too large to be represented in the SFrame format" /\
  ~ warned_signed some_texts Amd64 p w.
Proof.
  intros p Hp w Hw.
  assert (Hm : p = (DwFde 0x1000 0x10 nops (rows_ok [low_row]), low_row)) by (destruct Hp as [<-|[]]; reflexivity).
  vm_compute in Hw. destruct Hw as [<-|[]]. split; [reflexivity|]. subst p. clear Hp.
  intros (m & why & H1 & H2 & H3). vm_compute in H1. apply some_inj in H1. assert (m = "CFA register offset 0xffffffff7fffffff too large to be represented in the SFrame format") by congruence.
  subst m. vm_compute in H2. apply some_inj in H2. subst why. destruct H3 as (reg & H3 & _). cbn [snd low_row dr_cfa] in H3.
  assert (-0x80000001 = 0xffffffff7fffffff) by congruence. discriminate.
Qed.
Theorem unnamed_needed :
  fp_eh (RRegister 200) <> fp_eh (RConstant 200) /\
  repaired_said (LFixes true false true (Some piece_text) true) (talk true false) (fp_eh (RRegister 200)) =
  repaired_said (LFixes true false true (Some piece_text) true) (talk true false) (fp_eh (RConstant 200)).
Proof. split; [discriminate|]. vm_compute. reflexivity. Qed.
Theorem digits_needed :
  map message_column (stderr_of (repaired_said (LFixes true true false (Some piece_text) true) (talk true false) (of_functions [far_fde 0x18]))) =
    [Some 22%nat; Some 23%nat].
Proof. vm_compute. reflexivity. Qed.
Theorem names_needed :
  In "                  DW_OP_register_offset RSP 8 0" (stdout_of (repaired_said (LFixes true true true None true) (talk true true) (of_functions [fn_plt]))) /\
  (forall o, ~ op_shown o "                  DW_OP_register_offset RSP 8 0" \/ exists c, o = OpOther c) /\
  In (OpRegisterOffset 7 8 0) (ex_ops plt_expr).
Proof.
  split; [vm_compute; tauto|]. split; [|vm_compute; tauto]. intros o.
  destruct o; try (right; eexists; reflexivity); left; intros (t & Ht & Hd); vm_compute in Ht; apply some_inj in Ht; subst t; cbn [dwarf_op] in Hd;
    change (upto " " "DW_OP_register_offset RSP 8 0") with (Some ("DW_OP_register_offset", "RSP 8 0")) in Hd; cbv beta iota in Hd;
    unfold numbered in Hd; cbn [In] in Hd;
    repeat match goal with
    | H : _ \/ _ |- _ => destruct H as [H|H]
    | H : exists _, _ |- _ => destruct H as (? & ?)
    | H : _ /\ _ |- _ => destruct H as [? ?]
    end; try discriminate; try contradiction.
  all: match goal with H : after _ _ = Some _ |- _ => vm_compute in H; apply some_inj in H; subst end;
    match goal with H : number _ _ = Some _ |- _ => vm_compute in H; discriminate H end.
Qed.
Theorem types_needed :
  ex_ops (typed_expr 0x2a) <> ex_ops (typed_expr 0x31) /\
  repaired_said (LFixes true true true (Some piece_text) false) (talk true true) (of_functions [typed_fde_dw 0x2a]) =
  repaired_said (LFixes true true true (Some piece_text) false) (talk true true) (of_functions [typed_fde_dw 0x31]).
Proof. split; [discriminate|]. vm_compute. reflexivity. Qed.

(** A function of length 0 is a panic only with the logarithm. *)
Definition empty_fde : dw_fde := DwFde 0x1000 0 nops (rows_ok [far_row 0x1000 0x1010]).
Theorem empty_function :
  dwarf2sframe rel64 (talk true false) (of_functions [empty_fde]) = Panic /\
  stderr_of (repaired_said lf_full (talk true false) (of_functions [empty_fde])) =
    [ "warning: FDE for 0x00001000+0x0000000000000000: unsupported CFA source register `reg0`" ].
Proof. split; vm_compute; reflexivity. Qed.
