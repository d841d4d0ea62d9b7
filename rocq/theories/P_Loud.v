(** Properties C71 to C77: what the converter prints. *)
From Coq Require Import String.
From Verif Require Import LoudWitness OperandFacts.
Local Open Scope string_scope.

(** * C71 One warning for each row left without information *)

(** In order, and each names its function and row; a conversion that fails
    has reported the rows it has seen. *)
Theorem C71_warnings : forall pr md op eh ev o,
  eh_typed eh -> op_warnings op = true -> dwarf2sframe_loud pr md op eh = (ev, o) ->
  exists pre post lost, rows_met eh = (pre ++ post)%list /\ (finished o -> post = []) /\
    sieve (row_lost (op_arch op)) pre lost /\ Forall2 located lost (stderr_of ev).
Proof. exact warnings_located. Qed.
Print Assumptions C71_warnings.

Theorem C71_warnings_off : forall pr md op eh ev o,
  eh_typed eh -> op_warnings op = false -> dwarf2sframe_loud pr md op eh = (ev, o) -> stderr_of ev = [].
Proof. exact warnings_off. Qed.
Print Assumptions C71_warnings_off.

(** The result is that of the conversion without output. *)
Theorem C71_result : forall pr md op eh, snd (dwarf2sframe_loud pr md op eh) = dwarf2sframe md op eh.
Proof. exact loud_result. Qed.
Print Assumptions C71_result.

Example C71_case :
  eh_typed sample /\ (forall dump, dwarf2sframe_loud some_texts rel64 (talk true dump) sample = (said (talk true dump) sample, Ok sample_sfb)) /\
  (forall dump, stderr_of (said (talk true dump) sample) = [plt_warning]) /\
  (exists pre post, rows_met sample = (pre ++ (fn_plt, DwRow 0x2010 0x2040 (CfaExpression plt_expr) [(16, ROffset (-8))]) :: post)%list /\
    row_lost Amd64 (fn_plt, DwRow 0x2010 0x2040 (CfaExpression plt_expr) [(16, ROffset (-8))]) /\
    located (fn_plt, DwRow 0x2010 0x2040 (CfaExpression plt_expr) [(16, ROffset (-8))]) plt_warning) /\
  stderr_of (said (talk false true) sample) = [].
Proof. exact loud_case. Qed.

(** * C72 The reason a warning gives is true: false *)

(** A negative offset is shown as a large positive one. *)
Theorem C72_reason_refuted :
  eh_typed low_eh /\ eh_payload_typed low_eh /\
  (exists s, dwarf2sframe_loud some_texts rel64 (talk true false) low_eh = ([ErrOut low_warning], Ok s)) /\
  (forall p, In p (rows_met low_eh) -> ~ warned (fun n => n) some_texts Amd64 p low_warning) /\
  (forall p, In p (rows_met low_eh) -> warned signed64 some_texts Amd64 p low_warning).
Proof. exact warning_sign_lost. Qed.
Print Assumptions C72_reason_refuted.

(** It is true if numbers are read as 64-bit patterns. *)
Theorem C72_reason_partial : forall pr md op eh ev o,
  eh_typed eh -> eh_payload_typed eh -> op_warnings op = true -> dwarf2sframe_loud pr md op eh = (ev, o) ->
  exists pre post lost, rows_met eh = (pre ++ post)%list /\ (finished o -> post = []) /\
    sieve (row_lost (op_arch op)) pre lost /\ Forall2 (warned signed64 pr (op_arch op)) lost (stderr_of ev).
Proof. exact warnings_true. Qed.
Print Assumptions C72_reason_partial.

Example C72_case : eh_payload_typed sample /\ stderr_of (said (talk true false) sample) = [plt_warning] /\
  read_warning plt_warning = Some (0x2000, 0x10, "CFA recovery rule requires evaluating a DWARF expression").
Proof. split; [apply sample_payload|]. split; [apply sample_stderr|]. reflexivity. Qed.

(** * C73 Different rules look different in a warning: false *)

(** A register without a name looks like a constant. *)
Theorem C73_rules_refuted :
  clear_texts some_texts (names_of Amd64) /\ fp_eh (RRegister 200) <> fp_eh (RConstant 200) /\
  eh_typed (fp_eh (RRegister 200)) /\ eh_typed (fp_eh (RConstant 200)) /\
  said (talk true false) (fp_eh (RRegister 200)) = said (talk true false) (fp_eh (RConstant 200)) /\
  stderr_of (said (talk true false) (fp_eh (RConstant 200))) =
    ["warning: FDE for 0x00001000+0x0: Unsupport FP recovery rule: `200`"].
Proof. exact warnings_confused. Qed.
Print Assumptions C73_rules_refuted.

(** All others do, except for expressions if gimli prints them alike. *)
Theorem C73_rules_partial : forall pr a x y,
  clear_texts pr (names_of a) -> display_rule pr a x = display_rule pr a y ->
  x = y \/ (opaque x = true /\ opaque y = true /\ pr_rule pr x = pr_rule pr y) \/
  exists n, reg_name pr (names_of a) n = None /\
    ((x = RRegister n /\ y = RConstant n) \/ (x = RConstant n /\ y = RRegister n)).
Proof. exact rule_text_injective. Qed.
Print Assumptions C73_rules_partial.

Example C73_case : clear_texts some_texts (names_of Amd64) /\
  display_rule some_texts Amd64 (RRegister 7) = "RSP" /\ display_rule some_texts Amd64 (RConstant 7) = "7" /\
  display_rule some_texts Amd64 (ROffset (-16)) = "*(CFA-16)" /\ display_rule some_texts Amd64 (RValOffset 8) = "CFA+8".
Proof. split; [apply some_clear|]. repeat split. Qed.

(** * C74 The warnings for one function line up: false *)

(** Not in a function of 24 bytes. *)
Theorem C74_aligned_refuted :
  eh_typed (of_functions [far_fde 0x18]) /\
  stderr_of (said (talk true false) (of_functions [far_fde 0x18])) =
    [ "warning: FDE for 0x00001000+0x0: unsupported CFA source register `0`";
      "warning: FDE for 0x00001000+0x10: unsupported CFA source register `0`" ] /\
  message_column "warning: FDE for 0x00001000+0x0: unsupported CFA source register `0`" <>
  message_column "warning: FDE for 0x00001000+0x10: unsupported CFA source register `0`".
Proof. exact warnings_not_aligned. Qed.
Print Assumptions C74_aligned_refuted.

(** They do unless the length is between a power of 16 and its double. *)
Theorem C74_aligned_partial : forall pr md op eh ev o,
  eh_typed eh -> op_warnings op = true -> dwarf2sframe_loud pr md op eh = (ev, o) ->
  exists lost, Forall2 located lost (stderr_of ev) /\
    forall i j f r r' w w', nth_error lost i = Some (f, r) -> nth_error lost j = Some (f, r') ->
      nth_error (stderr_of ev) i = Some w -> nth_error (stderr_of ev) j = Some w' ->
      off f r < df_len f -> off f r' < df_len f -> ~ odd_length (df_len f) ->
      message_column w <> None /\ message_column w = message_column w'.
Proof. exact warnings_aligned. Qed.
Print Assumptions C74_aligned_partial.

Example C74_case :
  odd_length 0x18 /\ ~ odd_length 0x20 /\ eh_typed (of_functions [far_fde 0x20]) /\
  stderr_of (said (talk true false) (of_functions [far_fde 0x20])) =
    [ "warning: FDE for 0x00001000+0x00: unsupported CFA source register `0`";
      "warning: FDE for 0x00001000+0x10: unsupported CFA source register `0`" ].
Proof. exact aligned_case. Qed.

(** * C75 The debug dump shows every function, instruction and row *)

(** Also rows that cover no address.  A conversion that fails has shown the
    functions in front of the one that fails. *)
Theorem C75_debug_dump : forall pr md op eh ev o,
  plain_texts pr (names_of (op_arch op)) -> eh_typed eh -> Forall function_full_typed (functions (entries_of eh)) ->
  op_debugdump op = true -> dwarf2sframe_loud pr md op eh = (ev, o) ->
  exists pre post whole rest views,
    functions (entries_of eh) = (pre ++ post)%list /\ stdout_of ev = (whole ++ rest)%list /\
    read_debug whole = Some views /\ Forall2 (function_shown pr (names_of (op_arch op))) pre views /\
    (finished o -> post = [] /\ rest = []).
Proof. exact debug_dump_read. Qed.
Print Assumptions C75_debug_dump.

Theorem C75_debug_dump_off : forall pr md op eh ev o,
  op_debugdump op = false -> dwarf2sframe_loud pr md op eh = (ev, o) -> stdout_of ev = [].
Proof. exact dump_off. Qed.
Print Assumptions C75_debug_dump_off.

Example C75_case :
  plain_texts some_texts (names_of Amd64) /\ eh_typed (of_functions [fn_plt]) /\ Forall function_full_typed (functions (entries_of (of_functions [fn_plt]))) /\
  (exists s, dwarf2sframe_loud some_texts rel64 (talk true true) (of_functions [fn_plt]) = (said (talk true true) (of_functions [fn_plt]), Ok s)) /\
  stdout_of (said (talk true true) (of_functions [fn_plt])) = plt_lines /\
  (exists views, read_debug (stdout_of (said (talk true true) sample)) = Some views /\
    map (fun v => Datatypes.length (fv_rows v)) views = [5%nat; 3%nat]).
Proof. exact dump_case. Qed.

(** * C76 The debug dump calls operations by their DWARF names: false *)

Theorem C76_names_refuted :
  exists v i, read_debug plt_lines = Some [v] /\ nth_error (fv_insns v) 4 = Some i /\
    block_of (IDefCfaExpression plt_expr) = Some plt_expr /\
    nth_error (is_list (df_insns fn_plt)) 4 = Some (IDefCfaExpression plt_expr) /\
    nth_error (ex_ops plt_expr) 0 = Some (OpRegisterOffset 7 8 0) /\
    nth_error (iv_below i) 0 = Some "                  DW_OP_register_offset RSP 8" /\
    ~ op_shown (OpRegisterOffset 7 8 0) "                  DW_OP_register_offset RSP 8" /\
    ~ ops_shown op_shown fn_plt v.
Proof. exact dump_names_wrong. Qed.
Print Assumptions C76_names_refuted.

(** Operations without a case have neither name nor indentation. *)
Theorem C76_missing_refuted :
  op_line some_texts (names_of Amd64) false (OpOther 0) = "Minus" /\ ~ op_shown (OpOther 0) (op_line some_texts (names_of Amd64) false (OpOther 0)).
Proof. exact dump_names_missing. Qed.
Print Assumptions C76_missing_refuted.

(** All operations but those of [renamed] have their names.  Those of [renamed]
    have not, if the text that gimli has for those without a case does not
    begin with a blank. *)
Theorem C76_names_partial : forall pr md op eh ev o,
  plain_texts pr (names_of (op_arch op)) -> eh_typed eh -> Forall function_full_typed (functions (entries_of eh)) ->
  op_debugdump op = true -> dwarf2sframe_loud pr md op eh = (ev, o) ->
  exists pre post whole rest views,
    functions (entries_of eh) = (pre ++ post)%list /\ stdout_of ev = (whole ++ rest)%list /\
    read_debug whole = Some views /\ Forall2 (ops_shown (fun o s => (renamed o = false -> op_shown o s) /\
      ((forall k, after " " (pr_op pr (OpOther k)) = None) -> renamed o = true -> ~ op_shown o s))) pre views /\
    (finished o -> post = [] /\ rest = []).
Proof. exact debug_dump_ops. Qed.
Print Assumptions C76_names_partial.

Example C76_case : plain_texts some_texts (names_of Amd64) /\ map renamed (ex_ops plt_expr) = [true; true; true; false; true; false; true; false; false] /\
  op_shown OpAnd "                  DW_OP_and" /\ (forall k, after " " (pr_op some_texts (OpOther k)) = None).
Proof. split; [apply some_plain|]. split; [reflexivity|]. split; [apply (op_line_shown some_texts (names_of Amd64) false OpAnd); reflexivity|]. intros []; reflexivity. Qed.

(** * C77 Different expressions are dumped differently: false *)

(** The types of operands are left out. *)
Theorem C77_expressions_refuted :
  clear_texts some_texts (names_of Amd64) /\ plain_texts some_texts (names_of Amd64) /\ (forall d d', pr_die some_texts d = pr_die some_texts d' -> d = d') /\
  ex_ops (typed_expr 0x2a) <> ex_ops (typed_expr 0x31) /\
  eh_typed (of_functions [typed_fde_dw 0x2a]) /\ eh_typed (of_functions [typed_fde_dw 0x31]) /\
  said (talk true true) (of_functions [typed_fde_dw 0x2a]) = said (talk true true) (of_functions [typed_fde_dw 0x31]) /\
  In "                  DW_OP_deref 8 false" (stdout_of (said (talk true true) (of_functions [typed_fde_dw 0x2a]))).
Proof. exact dump_confuses_types. Qed.
Print Assumptions C77_expressions_refuted.

(** Nothing else is lost. *)
Theorem C77_expressions_partial : forall pr a x y,
  clear_texts pr (names_of a) -> plain_texts pr (names_of a) -> (forall d d', pr_die pr d = pr_die pr d' -> d = d') ->
  fst (dump_expression pr (display_register pr a) false "                  " x) =
  fst (dump_expression pr (display_register pr a) false "                  " y) ->
  Forall2 (fun o o' => untyped o = untyped o' \/ exists c c', o = OpOther c /\ o' = OpOther c' /\ pr_op pr o = pr_op pr o')
    (ex_ops x) (ex_ops y).
Proof. exact expression_text_injective. Qed.
Print Assumptions C77_expressions_partial.

(** The operands can be read from the lines. *)
Theorem C77_operands_partial : forall pr md op eh ev o,
  plain_texts pr (names_of (op_arch op)) -> eh_typed eh -> Forall function_full_typed (functions (entries_of eh)) ->
  op_debugdump op = true -> dwarf2sframe_loud pr md op eh = (ev, o) ->
  exists pre post whole rest views,
    functions (entries_of eh) = (pre ++ post)%list /\ stdout_of ev = (whole ++ rest)%list /\
    read_debug whole = Some views /\ Forall2 (ops_shown (op_spelled pr (names_of (op_arch op)) false)) pre views /\
    (finished o -> post = [] /\ rest = []).
Proof. exact debug_dump_operands. Qed.
Print Assumptions C77_operands_partial.

Example C77_case : clear_texts some_texts (names_of Amd64) /\ plain_texts some_texts (names_of Amd64) /\
  stdout_of (fst (dump_expression some_texts (display_register some_texts Amd64) false "" plt_expr)) =
    ["DW_OP_register_offset RSP 8"; "DW_OP_register_offset RA 0"; "DW_OP_uconst 15"; "DW_OP_and"; "DW_OP_uconst 11";
     "DW_OP_ge"; "DW_OP_uconst 3"; "DW_OP_shl"; "DW_OP_plus"].
Proof. split; [apply some_clear|]. split; [apply some_plain|]. vm_compute. reflexivity. Qed.
Example C77_operands_case :
  map (op_operands false) (ex_ops plt_expr) =
    [Some [OpReg 7; OpNum 8]; Some [OpReg 16; OpNum 0]; Some [OpNum 15]; Some []; Some [OpNum 11]; Some []; Some [OpNum 3]; Some []; Some []] /\
  op_spelled some_texts (names_of Amd64) false (OpRegisterOffset 7 8 0) "                  DW_OP_register_offset RSP 8" /\
  ~ op_spelled some_texts (names_of Amd64) false (OpRegisterOffset 7 8 0) "                  DW_OP_register_offset RSP 9" /\
  ~ op_spelled some_texts (names_of Amd64) false (OpPlusConstant 8) "                  DW_OP_plusconstant x8".
Proof.
  split; [reflexivity|]. split; [apply (op_line_spelled some_texts (names_of Amd64) false (OpRegisterOffset 7 8 0))|].
  split; intros [_ (s & E & n & u & Hu & H)]; cbn in E; injection E as <-; cbn in Hu; injection Hu as <- <-.
  - destruct H as (a & b & Hab & Hb & _). cbn in Hab. injection Hab as <- <-. cbn in Hb. vm_compute in Hb. discriminate.
  - cbn in H. vm_compute in H. discriminate.
Qed.
