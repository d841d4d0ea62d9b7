(** C72 to C74, C76 and C77 with small repairs of what the second converter prints. *)
From Coq Require Import String Ascii.
From Verif Require Import LoudRepairedWitness.
Local Open Scope string_scope.

(** * C72 The reason a warning gives is true *)

(** Without repairs this is the converter as it is. *)
Theorem C72_unrepaired_partial : forall pr md op eh,
  dwarf2sframe_said lf_none pr md op eh = dwarf2sframe_loud pr md op eh.
Proof. exact said_none. Qed.
Print Assumptions C72_unrepaired_partial.

(** With any of them its result is the same; only a panic can go away. *)
Theorem C72_repaired_result_partial : forall fx pr md op eh,
  same_or_panic (snd (dwarf2sframe_said fx pr md op eh)) (dwarf2sframe md op eh).
Proof. exact said_result. Qed.
Print Assumptions C72_repaired_result_partial.

(** With the sign of the offset every reason is true as it is written. *)
Theorem C72_repaired_partial : forall fx pr md op eh ev o,
  lf_sign fx = true ->
  eh_typed eh -> eh_payload_typed eh -> op_warnings op = true -> dwarf2sframe_said fx pr md op eh = (ev, o) ->
  exists pre post lost, rows_met eh = (pre ++ post)%list /\ (finished o -> post = []) /\
    sieve (row_lost (op_arch op)) pre lost /\ Forall2 (warned_signed (voice fx pr) (op_arch op)) lost (stderr_of ev).
Proof. exact warnings_signed. Qed.
Print Assumptions C72_repaired_partial.

Example C72_repaired_case :
  eh_typed low_eh /\ eh_payload_typed low_eh /\
  (exists s, dwarf2sframe_said lf_full some_texts rel64 (talk true false) low_eh =
    ([ErrOut "warning: FDE for 0x00001000+0x0000000000000000: CFA register offset -0x80000001 too large to be represented in the SFrame format"], Ok s)) /\
  read_signed "CFA register offset -0x80000001 too large to be represented in the SFrame format" = Some (ReasonCfaOffset (-0x80000001)).
Proof. exact sign_case. Qed.

(** It is false with the other repairs only. *)
Theorem C72_sign_needed_refuted :
  forall p, In p (rows_met low_eh) -> forall w,
  In w (stderr_of (repaired_said (LFixes false true true (Some piece_text) true) (talk true false) low_eh)) ->
  w = "warning: FDE for 0x00001000+0x0000000000000000: CFA register offset 0xffffffff7fffffff too large to be represented in the SFrame format" /\
  ~ warned_signed some_texts Amd64 p w.
Proof. exact sign_needed. Qed.
Print Assumptions C72_sign_needed_refuted.

(** * C73 Different rules look different in a warning *)

(** A register without a name is shown as such. *)
Theorem C73_repaired_registers_partial : forall fx pr a r,
  lf_unnamed fx = true -> 0 <= r ->
  register_marked pr (names_of a) r (display_register (voice fx pr) a r).
Proof. exact registers_marked. Qed.
Print Assumptions C73_repaired_registers_partial.

(** Then no two rules print alike, except for those that gimli itself prints. *)
Theorem C73_repaired_partial : forall fx pr a x y,
  lf_unnamed fx = true ->
  clear_texts pr (names_of a) -> unmarked pr (names_of a) ->
  display_rule (voice fx pr) a x = display_rule (voice fx pr) a y ->
  x = y \/ (opaque x = true /\ opaque y = true /\ pr_rule pr x = pr_rule pr y).
Proof. exact rules_told_apart. Qed.
Print Assumptions C73_repaired_partial.

(** So the warnings of a conversion name the register or rule of the row they are about. *)
Theorem C73_repaired_warnings_partial : forall fx pr md op eh ev o,
  lf_sign fx = true -> lf_unnamed fx = true ->
  eh_typed eh -> eh_payload_typed eh -> op_warnings op = true -> dwarf2sframe_said fx pr md op eh = (ev, o) ->
  exists pre post lost, rows_met eh = (pre ++ post)%list /\ (finished o -> post = []) /\
    sieve (row_lost (op_arch op)) pre lost /\ Forall2 (warned_marked pr (op_arch op)) lost (stderr_of ev).
Proof. exact warnings_marked. Qed.
Print Assumptions C73_repaired_warnings_partial.

(** And two conversions that print the same warnings have lost the same rows for the same reasons. *)
Theorem C73_repaired_same_partial : forall fx pr md op eh ev o md' eh' ev' o',
  lf_sign fx = true -> lf_unnamed fx = true ->
  clear_texts pr (names_of (op_arch op)) -> unmarked pr (names_of (op_arch op)) -> op_warnings op = true ->
  eh_typed eh -> eh_payload_typed eh -> dwarf2sframe_said fx pr md op eh = (ev, o) ->
  eh_typed eh' -> eh_payload_typed eh' -> dwarf2sframe_said fx pr md' op eh' = (ev', o') ->
  stderr_of ev = stderr_of ev' ->
  exists pre post lost pre' post' lost',
    rows_met eh = (pre ++ post)%list /\ (finished o -> post = []) /\ sieve (row_lost (op_arch op)) pre lost /\
    rows_met eh' = (pre' ++ post')%list /\ (finished o' -> post' = []) /\ sieve (row_lost (op_arch op)) pre' lost' /\
    List.length lost = List.length lost' /\ Forall2 (warned_alike pr (op_arch op)) (combine lost lost') (stderr_of ev).
Proof. exact same_warnings. Qed.
Print Assumptions C73_repaired_same_partial.

Example C73_repaired_case :
  clear_texts some_texts (names_of Amd64) /\ unmarked some_texts (names_of Amd64) /\
  stderr_of (repaired_said lf_full (talk true false) (fp_eh (RRegister 200))) =
    ["warning: FDE for 0x00001000+0x0000000000000000: Unsupport FP recovery rule: `reg200`"] /\
  stderr_of (repaired_said lf_full (talk true false) (fp_eh (RConstant 200))) =
    ["warning: FDE for 0x00001000+0x0000000000000000: Unsupport FP recovery rule: `200`"] /\
  stderr_of (repaired_said lf_full (talk true false) (fp_eh (RRegister 7))) =
    ["warning: FDE for 0x00001000+0x0000000000000000: Unsupport FP recovery rule: `RSP`"].
Proof. exact unnamed_case. Qed.

Example C73_repaired_warnings_case : forall x, In x [RRegister 200; RConstant 200; RRegister 7] ->
  eh_typed (fp_eh x) /\ eh_payload_typed (fp_eh x) /\ List.length (rows_met (fp_eh x)) = 1%nat.
Proof. exact rule_frames_typed. Qed.

Theorem C73_unnamed_needed_refuted :
  fp_eh (RRegister 200) <> fp_eh (RConstant 200) /\
  repaired_said (LFixes true false true (Some piece_text) true) (talk true false) (fp_eh (RRegister 200)) =
  repaired_said (LFixes true false true (Some piece_text) true) (talk true false) (fp_eh (RConstant 200)).
Proof. exact unnamed_needed. Qed.
Print Assumptions C73_unnamed_needed_refuted.

(** * C74 The warnings for one function line up *)

(** With 16 digits all warnings of a conversion do, not only those for one function. *)
Theorem C74_repaired_partial : forall fx pr md op eh ev o,
  lf_digits fx = true ->
  eh_typed eh -> dwarf2sframe_said fx pr md op eh = (ev, o) ->
  Forall (fun w => message_column w = Some 37%nat) (stderr_of ev).
Proof. exact warnings_in_column. Qed.
Print Assumptions C74_repaired_partial.

Example C74_repaired_case :
  eh_typed (of_functions [far_fde 0x18]) /\
  stderr_of (repaired_said lf_full (talk true false) (of_functions [far_fde 0x18])) =
    [ "warning: FDE for 0x00001000+0x0000000000000000: unsupported CFA source register `reg0`";
      "warning: FDE for 0x00001000+0x0000000000000010: unsupported CFA source register `reg0`" ].
Proof. exact digits_case. Qed.

Theorem C74_digits_needed_refuted :
  map message_column (stderr_of (repaired_said (LFixes true true false (Some piece_text) true) (talk true false) (of_functions [far_fde 0x18]))) =
    [Some 22%nat; Some 23%nat].
Proof. exact digits_needed. Qed.
Print Assumptions C74_digits_needed_refuted.

(** The logarithm of the length, and the panic that it means for an empty function, are gone too. *)
Theorem C74_repaired_empty_partial :
  dwarf2sframe rel64 (talk true false) (of_functions [empty_fde]) = Panic /\
  stderr_of (repaired_said lf_full (talk true false) (of_functions [empty_fde])) =
    [ "warning: FDE for 0x00001000+0x0000000000000000: unsupported CFA source register `reg0`" ].
Proof. exact empty_function. Qed.
Print Assumptions C74_repaired_empty_partial.

(** * C76 The debug dump calls operations by their DWARF names *)

(** With names for the others as well; the rest of the dump is read as before. *)
Theorem C76_repaired_partial : forall fx other pr md op eh ev o,
  lf_names fx = Some other -> (forall c, exists u, other c = "DW_OP_" ++ u) ->
  plain_texts pr (names_of (op_arch op)) -> eh_typed eh -> Forall function_full_typed (functions (entries_of eh)) ->
  op_debugdump op = true -> dwarf2sframe_said fx pr md op eh = (ev, o) ->
  exists pre post whole rest views,
    functions (entries_of eh) = (pre ++ post)%list /\ stdout_of ev = (whole ++ rest)%list /\
    read_debug whole = Some views /\
    Forall2 (fun f v => function_shown (voice fx pr) (names_of (op_arch op)) f v /\ ops_shown op_shown f v) pre views /\
    (finished o -> post = [] /\ rest = []).
Proof. exact dump_named. Qed.
Print Assumptions C76_repaired_partial.

Example C76_repaired_case :
  more_names piece_text /\ plain_texts some_texts (names_of Amd64) /\ eh_typed (of_functions [fn_plt]) /\
  Forall function_full_typed (functions (entries_of (of_functions [fn_plt]))) /\
  firstn 9 (skipn 8 (stdout_of (repaired_said lf_full (talk true true) (of_functions [fn_plt])))) = plt_ops.
Proof. exact names_case. Qed.

Theorem C76_names_needed_refuted :
  In "                  DW_OP_register_offset RSP 8 0" (stdout_of (repaired_said (LFixes true true true None true) (talk true true) (of_functions [fn_plt]))) /\
  (forall o, ~ op_shown o "                  DW_OP_register_offset RSP 8 0" \/ exists c, o = OpOther c) /\
  In (OpRegisterOffset 7 8 0) (ex_ops plt_expr).
Proof. exact names_needed. Qed.
Print Assumptions C76_names_needed_refuted.

(** * C77 Different expressions are dumped differently *)

(** With the types shown, and names for the operations without a case. *)
Theorem C77_repaired_partial : forall fx other pr a i x y,
  lf_names fx = Some other -> lf_types fx = true -> more_names other ->
  clear_texts pr (names_of a) -> unmarked pr (names_of a) -> plain_texts pr (names_of a) ->
  (forall d d', pr_die pr d = pr_die pr d' -> d = d') ->
  fst (dump_expression_said fx (voice fx pr) (display_register (voice fx pr) a) i x) =
  fst (dump_expression_said fx (voice fx pr) (display_register (voice fx pr) a) i y) ->
  ex_ops x = ex_ops y.
Proof. exact expressions_told_apart. Qed.
Print Assumptions C77_repaired_partial.

(** In the dump of a section the line under an instruction is that of its operation
    and of no other. *)
Theorem C77_repaired_dump_partial : forall fx other pr md op eh ev o,
  lf_names fx = Some other -> lf_types fx = true -> more_names other ->
  clear_texts pr (names_of (op_arch op)) -> unmarked pr (names_of (op_arch op)) ->
  (forall d d', pr_die pr d = pr_die pr d' -> d = d') ->
  plain_texts pr (names_of (op_arch op)) -> eh_typed eh -> Forall function_full_typed (functions (entries_of eh)) ->
  op_debugdump op = true -> dwarf2sframe_said fx pr md op eh = (ev, o) ->
  exists pre post whole rest views,
    functions (entries_of eh) = (pre ++ post)%list /\ stdout_of ev = (whole ++ rest)%list /\
    read_debug whole = Some views /\
    Forall2 (ops_shown (fun x s => forall y,
      op_text_said fx (voice fx pr) (display_register (voice fx pr) (op_arch op)) "                  " y = s <-> y = x)) pre views /\
    (finished o -> post = [] /\ rest = []).
Proof. exact dump_exact. Qed.
Print Assumptions C77_repaired_dump_partial.

Example C77_repaired_case :
  (forall d d', pr_die some_texts d = pr_die some_texts d' -> d = d') /\
  stdout_of (fst (dump_expression_said lf_full some_texts (display_register some_texts Amd64) "" (typed_expr 0x2a))) =
    ["DW_OP_bregx RSP 8 0"; "DW_OP_deref 42 8 false"] /\
  stdout_of (fst (dump_expression_said lf_full some_texts (display_register some_texts Amd64) "" (typed_expr 0x31))) =
    ["DW_OP_bregx RSP 8 0"; "DW_OP_deref 49 8 false"].
Proof. exact types_case. Qed.

Theorem C77_types_needed_refuted :
  ex_ops (typed_expr 0x2a) <> ex_ops (typed_expr 0x31) /\
  repaired_said (LFixes true true true (Some piece_text) false) (talk true true) (of_functions [typed_fde_dw 0x2a]) =
  repaired_said (LFixes true true true (Some piece_text) false) (talk true true) (of_functions [typed_fde_dw 0x31]).
Proof. exact types_needed. Qed.
Print Assumptions C77_types_needed_refuted.

