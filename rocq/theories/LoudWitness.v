(** Concrete output of the converter, and inputs on which claims about the
    output fail. *)
From Coq Require Import String Ascii.
From Verif Require TextWitness.
From Verif Require Export LoudDump.
Local Open Scope string_scope.

(** ** Text of gimli, for some registers *)

Definition some_name (t : reg_table) (r : Z) : option string :=
  match t with
  | TX86_64 => if (r =? 6)%Z then Some "RBP" else if (r =? 7)%Z then Some "RSP" else if (r =? 16)%Z then Some "RA" else None
  | TAArch64 => if (r =? 29)%Z then Some "X29" else if (r =? 30)%Z then Some "X30" else if (r =? 31)%Z then Some "SP" else None
  | _ => None
  end.
Definition some_texts : printers :=
  {| pr_gimli := fun '(GimliError c) => "error " ++ fmt_dec c;
     pr_register := some_name;
     pr_rule := fun rule =>
       match rule with
       | RExpression _ => "Expression(..)" | RValExpression _ => "ValExpression(..)" | RArchitectural => "Architectural"
       | _ => ""
       end;
     pr_expression := fun _ => "Expression(..)";
     pr_insn := fun _ => "Other";
     pr_op := fun o => match o with OpOther 0 => "Minus" | _ => "Other" end;
     pr_die := fun d => "UnitRef(" ++ fmt_dec d ++ ")" |}.

Lemma some_name_cases t r n : some_name t r = Some n ->
  (t = TX86_64 /\ ((r = 6 /\ n = "RBP") \/ (r = 7 /\ n = "RSP") \/ (r = 16 /\ n = "RA"))) \/
  (t = TAArch64 /\ ((r = 29 /\ n = "X29") \/ (r = 30 /\ n = "X30") \/ (r = 31 /\ n = "SP"))).
Proof.
  unfold some_name. destruct t; try discriminate; intros H.
  - left. split; [reflexivity|]. destruct (Z.eqb_spec r 6); [left; split; congruence|].
    destruct (Z.eqb_spec r 7); [right; left; split; congruence|]. destruct (Z.eqb_spec r 16); [right; right; split; congruence|discriminate].
  - right. split; [reflexivity|]. destruct (Z.eqb_spec r 29); [left; split; congruence|].
    destruct (Z.eqb_spec r 30); [right; left; split; congruence|]. destruct (Z.eqb_spec r 31); [right; right; split; congruence|discriminate].
Qed.
Ltac name_cases H := apply some_name_cases in H; destruct H as [(_ & H)|(_ & H)]; destruct H as [(-> & ->)|[(-> & ->)|(-> & ->)]].

Lemma some_clear t : clear_texts some_texts t.
Proof.
  destruct t as [t|]; [|constructor; try discriminate].
  1: constructor; cbn [reg_name pr_register some_texts].
  - intros r r' n H H'. destruct t; apply some_name_cases in H, H';
      destruct H as [(E & H)|(E & H)]; try discriminate E; destruct H' as [(E' & H')|(E' & H')]; try discriminate E';
      destruct H as [(-> & ->)|[(-> & ->)|(-> & ->)]]; destruct H' as [(-> & H')|[(-> & H')|(-> & H')]]; try discriminate H'; reflexivity.
  - intros r n x H Hx. name_cases H; destruct x; try discriminate Hx; discriminate.
  - intros r n H Ht. unfold taken in Ht. name_cases H; destruct Ht as [Ht|[Ht|[Ht|[Ht|Ht]]]]; try discriminate Ht; apply Ht; reflexivity.
  - intros x Hx Ht. unfold taken in Ht.
    destruct x; try discriminate Hx; destruct Ht as [Ht|[Ht|[Ht|[Ht|Ht]]]]; try discriminate Ht; apply Ht; reflexivity.
  - intros x Hx Ht. unfold taken in Ht.
    destruct x; try discriminate Hx; destruct Ht as [Ht|[Ht|[Ht|[Ht|Ht]]]]; try discriminate Ht; apply Ht; reflexivity.
Qed.
Lemma some_plain t : plain_texts some_texts t.
Proof.
  constructor; cbn [pr_insn pr_op some_texts].
  - intros r n H. destruct t as [t|]; [|discriminate H]. cbn [reg_name pr_register some_texts] in H. name_cases H; split; apply without_all; reflexivity.
  - intros i. exists "O"%char, "ther". split; [reflexivity|]. split; [discriminate|reflexivity].
  - assert (Ho : begins_clean "Other") by (exists "O"%char, "ther"; split; [reflexivity|]; split; [discriminate|reflexivity]).
    intros o. destruct o; try exact Ho. destruct code; try exact Ho.
    exists "M"%char, "inus". split; [reflexivity|]. split; [discriminate|reflexivity].
Qed.
Lemma some_die d d' : pr_die some_texts d = pr_die some_texts d' -> d = d'.
Proof. cbn [pr_die some_texts]. intros H. apply app_inj_l in H. apply TextWitness.app_inj_r, dec_inj in H. exact H. Qed.

(** ** The sample *)

Definition talk (warnings debugdump : bool) : options :=
  {| op_arch := Amd64; op_merge_fres := true; op_merge_fdes := true; op_warnings := warnings;
     op_debugdump := debugdump; op_endian := None |}.
Definition said (op : options) (eh : eh_frame) : list event := fst (dwarf2sframe_loud some_texts rel64 op eh).
Definition plt_warning : string :=
  "warning: FDE for 0x00002000+0x10: CFA recovery rule requires evaluating a DWARF expression".
Lemma sample_said dump : dwarf2sframe_loud some_texts rel64 (talk true dump) sample = (said (talk true dump) sample, Ok sample_sfb).
Proof. destruct dump; vm_compute; reflexivity. Qed.
Lemma sample_stderr dump : stderr_of (said (talk true dump) sample) = [plt_warning].
Proof. destruct dump; vm_compute; reflexivity. Qed.
Lemma sample_quiet : stderr_of (said (talk false true) sample) = [].
Proof. vm_compute. reflexivity. Qed.

Definition plt_lines : list string :=
  [ "FDE:"; " start_address: 0x00002000"; "    range_size: 0x00000040 (end_addr = 0x00002040)";
    "                DW_CFA_def_cfa_offset (16)";
    "                DW_CFA_advance_loc (6)";
    "                DW_CFA_def_cfa_offset (24)";
    "                DW_CFA_advance_loc (10)";
    "                DW_CFA_def_cfa_expression (...)";
    "                  DW_OP_register_offset RSP 8";
    "                  DW_OP_register_offset RA 0";
    "                  DW_OP_uconst 15";
    "                  DW_OP_and";
    "                  DW_OP_uconst 11";
    "                  DW_OP_ge";
    "                  DW_OP_uconst 3";
    "                  DW_OP_shl";
    "                  DW_OP_plus";
    "                DW_CFA_nop";
    ""; "Rows:";
    "  - offset: 0x00002000 (end = 0x00002006)"; "    cfa:    RSP+16"; "    reg:    RA = *(CFA-8)"; "    reg:    RBP = <undefined>";
    "  - offset: 0x00002006 (end = 0x00002010)"; "    cfa:    RSP+24"; "    reg:    RA = *(CFA-8)"; "    reg:    RBP = <undefined>";
    "  - offset: 0x00002010 (end = 0x00002040)"; "    cfa:    Expression(..)"; "    reg:    RA = *(CFA-8)";
    "" ].
Lemma plt_said : stdout_of (said (talk true true) (of_functions [fn_plt])) = plt_lines.
Proof. vm_compute. reflexivity. Qed.

Lemma lookup_typed l : Forall (fun p => rule_typed (snd p)) l -> forall reg, rule_typed (rule_lookup reg l).
Proof.
  induction 1 as [|[r rule] l H Hl IH]; intros reg; cbn [rule_lookup]; [exact I|]. destruct (r =? reg)%Z; [exact H|apply IH].
Qed.
Lemma payload_all eh : Forall (fun f => Forall (fun r =>
    match dr_cfa r with CfaReg reg o => 0 <= reg < 2 ^ 16 /\ in_i64 o | CfaExpression _ => True end /\
    Forall (fun p => rule_typed (snd p)) (dr_regs r)) (dw_rows_of f)) (functions (entries_of eh)) -> eh_payload_typed eh.
Proof.
  intros H f r Hf Hr. rewrite Forall_forall in H. specialize (H f Hf). rewrite Forall_forall in H.
  destruct (H r Hr) as [H1 H2]. split; [exact H1|]. intros reg. apply lookup_typed, H2.
Qed.
Ltac payload := apply payload_all; cbn; repeat (apply Forall_cons || apply Forall_nil || split); cbn; unfold in_i64; cbn; try exact I; lia.
Lemma sample_payload : eh_payload_typed sample.
Proof. payload. Qed.
Lemma sample_full : Forall function_full_typed (functions (entries_of sample)).
Proof.
  cbn. repeat (apply Forall_cons || apply Forall_nil || split); cbn; unfold in_i64; cbn; try exact I; try lia.
Qed.

(** ** An offset below the range of 32 bits (C72) *)

Definition low_row : dw_row := DwRow 0x1000 0x1010 (CfaReg 7 (-0x80000001)) [(16, ROffset (-8))].
Definition low_eh : eh_frame := of_functions [DwFde 0x1000 0x10 nops (rows_ok [low_row])].
Definition low_warning : string :=
  "warning: FDE for 0x00001000+0x0: CFA register offset 0xffffffff7fffffff too large to be represented in the SFrame format".

(** ** A register and a constant (C73) *)

Definition fp_eh (rule : reg_rule) : eh_frame :=
  of_functions [DwFde 0x1000 0x10 nops (rows_ok [DwRow 0x1000 0x1010 (CfaReg 7 16) [(16, ROffset (-8)); (6, rule)]])].

(** ** A function of 24 bytes (C74) *)

Definition far_row (a b : Z) : dw_row := DwRow a b (CfaReg 0 8) [(16, ROffset (-8))].
Definition far_fde (len : Z) : dw_fde := DwFde 0x1000 len nops (rows_ok [far_row 0x1000 0x1010; far_row 0x1010 (0x1000 + len)]).

(** ** Theorems *)

Theorem loud_case :
  eh_typed sample /\ (forall dump, dwarf2sframe_loud some_texts rel64 (talk true dump) sample = (said (talk true dump) sample, Ok sample_sfb)) /\
  (forall dump, stderr_of (said (talk true dump) sample) = [plt_warning]) /\
  (exists pre post, rows_met sample = (pre ++ (fn_plt, DwRow 0x2010 0x2040 (CfaExpression plt_expr) [(16, ROffset (-8))]) :: post)%list /\
    row_lost Amd64 (fn_plt, DwRow 0x2010 0x2040 (CfaExpression plt_expr) [(16, ROffset (-8))]) /\
    located (fn_plt, DwRow 0x2010 0x2040 (CfaExpression plt_expr) [(16, ROffset (-8))]) plt_warning) /\
  stderr_of (said (talk false true) sample) = [].
Proof.
  split; [apply sample_typed|]. split; [apply sample_said|]. split; [apply sample_stderr|]. split.
  - exists (map (pair fn_prologue) (wide_rows fn_prologue) ++ map (pair fn_plt) (firstn 2 plt_rows_dw))%list, [].
    split; [vm_compute; reflexivity|]. split.
    + apply (row_message_lost some_texts). eexists. vm_compute. reflexivity.
    + eexists. vm_compute. reflexivity.
  - apply sample_quiet.
Qed.

Theorem warning_sign_lost :
  eh_typed low_eh /\ eh_payload_typed low_eh /\
  (exists s, dwarf2sframe_loud some_texts rel64 (talk true false) low_eh = ([ErrOut low_warning], Ok s)) /\
  (forall p, In p (rows_met low_eh) -> ~ warned (fun n => n) some_texts Amd64 p low_warning) /\
  (forall p, In p (rows_met low_eh) -> warned signed64 some_texts Amd64 p low_warning).
Proof.
  split; [typed_eh|]. split; [payload|]. split; [eexists; vm_compute; reflexivity|].
  assert (Hm : forall p, In p (rows_met low_eh) -> p = (DwFde 0x1000 0x10 nops (rows_ok [low_row]), low_row)).
  { intros p Hp. destruct Hp as [<-|[]]. reflexivity. }
  split; intros p Hp; rewrite (Hm p Hp).
  - intros (m & why & H1 & H2 & H3). vm_compute in H1. apply some_inj in H1. assert (m = "CFA register offset 0xffffffff7fffffff too large to be represented in the SFrame format") by congruence.
    subst m. vm_compute in H2. apply some_inj in H2. subst why. destruct H3 as (reg & H3 & _). cbn [snd low_row dr_cfa] in H3.
    assert (-0x80000001 = 0xffffffff7fffffff) by congruence. discriminate.
  - eexists. exists (ReasonCfaOffset 0xffffffff7fffffff). split; [vm_compute; reflexivity|]. split; [vm_compute; reflexivity|].
    exists 7. split; [reflexivity|]. vm_compute. intros [H _]. apply H. reflexivity.
Qed.

Theorem warnings_confused :
  clear_texts some_texts (names_of Amd64) /\ fp_eh (RRegister 200) <> fp_eh (RConstant 200) /\
  eh_typed (fp_eh (RRegister 200)) /\ eh_typed (fp_eh (RConstant 200)) /\
  said (talk true false) (fp_eh (RRegister 200)) = said (talk true false) (fp_eh (RConstant 200)) /\
  stderr_of (said (talk true false) (fp_eh (RConstant 200))) =
    ["warning: FDE for 0x00001000+0x0: Unsupport FP recovery rule: `200`"].
Proof.
  split; [apply some_clear|]. split; [discriminate|]. split; [typed_eh|]. split; [typed_eh|].
  split; vm_compute; reflexivity.
Qed.

Theorem warnings_not_aligned :
  eh_typed (of_functions [far_fde 0x18]) /\
  stderr_of (said (talk true false) (of_functions [far_fde 0x18])) =
    [ "warning: FDE for 0x00001000+0x0: unsupported CFA source register `0`";
      "warning: FDE for 0x00001000+0x10: unsupported CFA source register `0`" ] /\
  message_column "warning: FDE for 0x00001000+0x0: unsupported CFA source register `0`" <>
  message_column "warning: FDE for 0x00001000+0x10: unsupported CFA source register `0`".
Proof. split; [typed_eh|]. split; [vm_compute; reflexivity|]. vm_compute. discriminate. Qed.
Lemma odd_24 : odd_length 0x18.
Proof. exists 1. cbn. lia. Qed.
Lemma even_32 : ~ odd_length 0x20.
Proof.
  intros (j & Hj & H). assert (H1 : 16 ^ j < 16 ^ 2) by lia. apply Z.pow_lt_mono_r_iff in H1; [|lia|lia].
  assert (H2 : j = 0 \/ j = 1) by lia. destruct H2 as [-> | ->]; cbn in H; lia.
Qed.
Theorem aligned_case :
  odd_length 0x18 /\ ~ odd_length 0x20 /\ eh_typed (of_functions [far_fde 0x20]) /\
  stderr_of (said (talk true false) (of_functions [far_fde 0x20])) =
    [ "warning: FDE for 0x00001000+0x00: unsupported CFA source register `0`";
      "warning: FDE for 0x00001000+0x10: unsupported CFA source register `0`" ].
Proof. split; [apply odd_24|]. split; [apply even_32|]. split; [typed_eh|]. vm_compute. reflexivity. Qed.

Theorem dump_case :
  plain_texts some_texts (names_of Amd64) /\ eh_typed (of_functions [fn_plt]) /\ Forall function_full_typed (functions (entries_of (of_functions [fn_plt]))) /\
  (exists s, dwarf2sframe_loud some_texts rel64 (talk true true) (of_functions [fn_plt]) = (said (talk true true) (of_functions [fn_plt]), Ok s)) /\
  stdout_of (said (talk true true) (of_functions [fn_plt])) = plt_lines /\
  (exists views, read_debug (stdout_of (said (talk true true) sample)) = Some views /\
    map (fun v => Datatypes.length (fv_rows v)) views = [5%nat; 3%nat]).
Proof.
  split; [apply some_plain|]. split; [typed_eh|]. split; [apply (Forall_inv_tail sample_full)|].
  split; [eexists; vm_compute; reflexivity|]. split; [apply plt_said|].
  eexists. split; vm_compute; reflexivity.
Qed.

(** The names of operations are not those of DWARF (C76). *)
Theorem dump_names_wrong :
  exists v i, read_debug plt_lines = Some [v] /\ nth_error (fv_insns v) 4 = Some i /\
    block_of (IDefCfaExpression plt_expr) = Some plt_expr /\
    nth_error (is_list (df_insns fn_plt)) 4 = Some (IDefCfaExpression plt_expr) /\
    nth_error (ex_ops plt_expr) 0 = Some (OpRegisterOffset 7 8 0) /\
    nth_error (iv_below i) 0 = Some "                  DW_OP_register_offset RSP 8" /\
    ~ op_shown (OpRegisterOffset 7 8 0) "                  DW_OP_register_offset RSP 8" /\
    ~ ops_shown op_shown fn_plt v.
Proof.
  assert (Hno : ~ op_shown (OpRegisterOffset 7 8 0) "                  DW_OP_register_offset RSP 8").
  { intros (t & Ht & Hd). vm_compute in Ht. apply some_inj in Ht. subst t. cbn [dwarf_op] in Hd.
    change (upto " " "DW_OP_register_offset RSP 8") with (Some ("DW_OP_register_offset", "RSP 8")) in Hd. cbv beta iota in Hd.
    destruct Hd as [[Hd|[Hd|[]]]|(t & k & Hd & _)]; discriminate Hd. }
  eexists. eexists. split; [vm_compute; reflexivity|]. split; [vm_compute; reflexivity|].
  do 3 (split; [vm_compute; reflexivity|]). split; [reflexivity|]. split; [exact Hno|].
  intros H. unfold ops_shown in H.
  pose proof (forall2_nth _ _ _ H 4%nat (IDefCfaExpression plt_expr) _ eq_refl eq_refl) as H1. cbn [block_of] in H1.
  pose proof (forall2_nth _ _ _ H1 0%nat (OpRegisterOffset 7 8 0) _ eq_refl eq_refl) as H2.
  exact (Hno H2).
Qed.
(** Neither is there a name or an indentation for those without a case. *)
Theorem dump_names_missing :
  op_line some_texts (names_of Amd64) false (OpOther 0) = "Minus" /\ ~ op_shown (OpOther 0) (op_line some_texts (names_of Amd64) false (OpOther 0)).
Proof. split; [reflexivity|]. intros (t & Ht & _). vm_compute in Ht. discriminate Ht. Qed.

(** Expressions that differ in a type (C77). *)
Definition typed_expr (bt : Z) : expression := Expression (map Zb [0x77; 0x08; 0xa6; 0x08; bt]) [OpRegisterOffset 7 8 0; OpDeref bt 8 false] None.
Definition typed_fde_dw (bt : Z) : dw_fde :=
  DwFde 0x1000 0x10 (Insns [IDefCfaExpression (typed_expr bt)] None) (rows_ok [amd_row 0x1000 0x1010 7 8 RUndefined]).
Theorem dump_confuses_types :
  clear_texts some_texts (names_of Amd64) /\ plain_texts some_texts (names_of Amd64) /\ (forall d d', pr_die some_texts d = pr_die some_texts d' -> d = d') /\
  ex_ops (typed_expr 0x2a) <> ex_ops (typed_expr 0x31) /\
  eh_typed (of_functions [typed_fde_dw 0x2a]) /\ eh_typed (of_functions [typed_fde_dw 0x31]) /\
  said (talk true true) (of_functions [typed_fde_dw 0x2a]) = said (talk true true) (of_functions [typed_fde_dw 0x31]) /\
  In "                  DW_OP_deref 8 false" (stdout_of (said (talk true true) (of_functions [typed_fde_dw 0x2a]))).
Proof.
  split; [apply some_clear|]. split; [apply some_plain|]. split; [apply some_die|]. split; [discriminate|].
  split; [typed_eh|]. split; [typed_eh|]. split; vm_compute; [reflexivity|]. tauto.
Qed.
