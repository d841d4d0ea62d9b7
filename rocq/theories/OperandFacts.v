(** Proofs about the operands of operations in the dumps (C77, C84, C88). *)
From Coq Require Import String Ascii.
From Verif Require Export OperandSpec LoudDump.
Local Open Scope string_scope.

Lemma upto_last_none c b : without c b -> upto_last c b = None.
Proof.
  rewrite without_all. induction b as [|x b IH]; intros H; [reflexivity|]. cbn [all_chars] in H.
  apply andb_true_iff in H. destruct H as [Hx H]. cbn [upto_last]. rewrite (IH H).
  apply negb_true_iff in Hx. rewrite Hx. reflexivity.
Qed.
Lemma upto_last_app (c : ascii) a b : without c b -> upto_last c (a ++ String c b) = Some (a, b).
Proof.
  intros Hb. induction a as [|x a IH]; cbn [append upto_last].
  - rewrite (upto_last_none c b Hb), Ascii.eqb_refl. reflexivity.
  - rewrite IH. reflexivity.
Qed.

Lemma blank_dec z : without " " (fmt_dec z).
Proof. apply plain_without; [reflexivity|apply dec_plain]. Qed.
Lemma blank_flag (b : bool) : without " " (if b then "true" else "false").
Proof. destruct b; repeat (split; [discriminate|]); exact I. Qed.
Lemma op_reg_shown pr t r : op_operand_shown pr t (OpReg r) (register_text pr t r).
Proof. cbn [op_operand_shown]. rewrite register_text_spec. destruct (reg_name pr t r); [reflexivity|apply integer_dec]. Qed.

Lemma name_first name s (P : string -> Prop) : without " " name -> P s ->
  exists n u, upto " " (name ++ String " " s) = Some (n, u) /\ P u.
Proof. intros Hn Hs. exists name, s. split; [apply upto_app, Hn|exact Hs]. Qed.

Lemma read_last pr t o o' l a b : without " " b -> op_operand_shown pr t o b -> read_back pr t (o' :: l) a ->
  read_back pr t (o :: o' :: l) (a ++ String " " b).
Proof. intros Hb Ho Ha. exists a, b. split; [apply upto_last_app, Hb|]. split; [exact Ho|exact Ha]. Qed.

Lemma op_operands_text pr t full o : operands_shown pr t full o (op_text pr (register_text pr t) full "" o).
Proof.
  unfold operands_shown. destruct o; cbn [op_operands]; try exact I; try reflexivity.
  - destruct full; cbn [List.app rev op_text]; apply (name_first "DW_OP_deref"); try no_char.
    + match goal with |- read_back _ _ _ ?x =>
        replace x with ((fmt_dec base_type ++ String " " (fmt_dec size)) ++ String " " (if space then "true" else "false"))
          by (rewrite !app_assoc_s; reflexivity) end.
      apply read_last; [apply blank_flag|reflexivity|].
      apply read_last; [apply blank_dec|apply integer_dec|apply integer_dec].
    + apply read_last; [apply blank_flag|reflexivity|apply integer_dec].
  - apply (name_first "DW_OP_pick"); [no_char|apply integer_dec].
  - apply (name_first "DW_OP_plusconstant"); [no_char|apply integer_dec].
  - apply (name_first "DW_OP_bra"); [no_char|apply integer_dec].
  - apply (name_first "DW_OP_skip"); [no_char|apply integer_dec].
  - apply (name_first "DW_OP_uconst"); [no_char|apply integer_dec].
  - apply (name_first "DW_OP_sconst"); [no_char|apply integer_dec].
  - apply (name_first "DW_OP_register"); [no_char|apply op_reg_shown].
  - destruct full; cbn [List.app rev op_text]; apply (name_first "DW_OP_register_offset"); try no_char.
    + match goal with |- read_back _ _ _ ?x =>
        replace x with ((register_text pr t register ++ String " " (fmt_dec offset)) ++ String " " (fmt_dec base_type))
          by (rewrite !app_assoc_s; reflexivity) end.
      apply read_last; [apply blank_dec|apply integer_dec|].
      apply read_last; [apply blank_dec|apply integer_dec|apply op_reg_shown].
    + rewrite app_nil_r_s. apply read_last; [apply blank_dec|apply integer_dec|apply op_reg_shown].
  - apply (name_first "DW_OP_frame_offset"); [no_char|apply integer_dec].
  - apply (name_first "DW_OP_call"); [no_char|reflexivity].
Qed.

Lemma op_line_operands pr t full o : op_operands full o <> None ->
  after "                  " (op_line pr t full o) = Some (op_text pr (register_text pr t) full "" o).
Proof. unfold op_line. destruct o; intros H; cbn [op_text]; try (destruct H; reflexivity); apply after_app. Qed.
Lemma op_line_spelled pr t full o : op_spelled pr t full o (op_line pr t full o).
Proof.
  split; [apply op_line_shown|]. pose proof (op_line_operands pr t full o) as H.
  destruct (op_operands full o) eqn:E; [|exact I]. eexists. split; [apply H; discriminate|apply op_operands_text].
Qed.
Lemma insn_view_spelled pr t full i : plain_texts pr t -> insn_typed i -> insn_spelled pr t full i (view_insn pr t full i).
Proof.
  intros Hp Hi. split; [apply insn_view_shown; assumption|]. unfold view_insn, insn_lines. cbn [tl iv_below].
  destruct i; cbn [block_of insn_expression]; try reflexivity; apply forall2_map; intros o _; apply (op_line_spelled pr t full o).
Qed.

Theorem debug_dump_operands pr md op eh ev o :
  plain_texts pr (names_of (op_arch op)) -> eh_typed eh -> Forall function_full_typed (functions (entries_of eh)) ->
  op_debugdump op = true -> dwarf2sframe_loud pr md op eh = (ev, o) ->
  exists pre post whole rest views,
    functions (entries_of eh) = (pre ++ post)%list /\ stdout_of ev = (whole ++ rest)%list /\
    read_debug whole = Some views /\ Forall2 (ops_shown (op_spelled pr (names_of (op_arch op)) false)) pre views /\
    (finished o -> post = [] /\ rest = []).
Proof. apply debug_dump_views. intros f _. apply view_ops. intros x. apply op_line_spelled. Qed.
