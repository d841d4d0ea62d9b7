(** Proofs about the debug dump (C75). *)
From Coq Require Import String Ascii.
From Verif Require Export LoudFacts.
Local Open Scope string_scope.

(** ** The lines of a function *)

Definition insn_lines (pr : printers) (t : option reg_table) (full : bool) (i : insn) : list string :=
  insn_text pr (register_text pr t) i ::
  match insn_expression i with
  | Some x => map (op_text pr (register_text pr t) full "                  ") (ex_ops x)
  | None => []
  end.
Definition broken_lines (pr : printers) (en : option gimli_error) : list string :=
  match en with Some g => ["Failed to decode CFI instruction: " ++ pr_gimli pr g] | None => [] end.
Definition row_lines (pr : printers) (a : arch) (r : dw_row) : list string := stdout_of (row_dump pr a r).
Definition head_lines (f : dw_fde) : list string :=
  [ "FDE:"; " start_address: " ++ fmt_hex_alt_pad 64 10 (df_start f);
    "    range_size: " ++ fmt_hex_alt_pad 64 10 (df_len f) ++
    " (end_addr = " ++ fmt_hex_alt_pad 64 10 (df_start f + df_len f) ++ ")" ].
Definition function_lines (pr : printers) (a : arch) (f : dw_fde) : list string :=
  (head_lines f ++ (flat_map (insn_lines pr (names_of a) false) (is_list (df_insns f)) ++ broken_lines pr (is_end (df_insns f))) ++
   "" :: "Rows:" :: flat_map (row_lines pr a) (dw_rows_of f) ++ [""])%list.

Lemma stdout_outs {A} (g : A -> string) l : stdout_of (map (fun x => Out (g x)) l) = map g l.
Proof. induction l; [reflexivity|]. cbn. f_equal. exact IHl. Qed.

Lemma snd_ok_lbind {E A B} (m : loud E A) (k : A -> loud E B) b :
  snd (lbind m k) = Ok b -> exists a, snd m = Ok a /\ snd (k a) = Ok b /\ fst (lbind m k) = (fst m ++ fst (k a))%list.
Proof.
  intros H. rewrite snd_lbind in H. destruct (snd m) as [a|er|] eqn:Em; try discriminate H. exists a.
  split; [reflexivity|]. split; [exact H|]. apply fst_lbind_ok, Em.
Qed.

Lemma dump_insns_lines pr t full en : forall l,
  snd (dump_insn_list pr (register_text pr t) full l en []) = Ok tt ->
  stdout_of (fst (dump_insn_list pr (register_text pr t) full l en [])) =
  (flat_map (insn_lines pr t full) l ++ broken_lines pr en)%list.
Proof.
  induction l as [|i u IH]; cbn [dump_insn_list]; intros H; [destruct en; reflexivity|].
  apply snd_ok_lbind in H. destruct H as (v & _ & H & ->). apply snd_ok_lbind in H. destruct H as ([] & Hx & H & ->).
  rewrite !stdout_app, (IH H). cbn [flat_map]. unfold insn_lines at 2.
  destruct (insn_expression i) as [x|].
  - unfold dump_expression in *. cbn [fst snd say]. rewrite stdout_outs. cbn. rewrite <- app_assoc. reflexivity.
  - reflexivity.
Qed.

Lemma rows_stdout pr md op f : op_debugdump op = true -> forall l b b',
  snd (convert_rows_loud pr md op f l b) = Ok b' ->
  stdout_of (fst (convert_rows_loud pr md op f l b)) = flat_map (row_lines pr (op_arch op)) l.
Proof.
  intros Hd. induction l as [|r t IH]; intros b b' H; [reflexivity|]. cbn [convert_rows_loud flat_map] in *. rewrite Hd in *.
  apply snd_ok_lbind in H. destruct H as (u & _ & H & ->). rewrite stdout_app. f_equal.
  destruct (dr_start r =? dr_end r)%Z; [apply (IH _ _ H)|].
  apply snd_ok_lbind in H. destruct H as (d & _ & H & ->). rewrite stdout_app. cbn [quiet fst stdout_of flat_map app].
  destruct (negb (row_start_ok d)); [discriminate H|].
  apply snd_ok_lbind in H. destruct H as (res & _ & H & ->). rewrite stdout_app. cbn [quiet fst stdout_of flat_map app].
  apply snd_ok_lbind in H. destruct H as (nr & Hn & H & ->). rewrite stdout_app.
  match goal with |- (stdout_of ?e ++ _)%list = _ => assert (stdout_of e = []) as -> end.
  { destruct res as [r'|w|er]; try reflexivity. destruct (op_warnings op); reflexivity. }
  cbn [app]. destruct (fdb_row b nr); try discriminate H. apply (IH _ _ H).
Qed.

Lemma fde_stdout pr md op s f s' : op_debugdump op = true -> dw_fde_typed f ->
  snd (convert_fde_loud pr md op s f) = Ok s' ->
  stdout_of (fst (convert_fde_loud pr md op s f)) = function_lines pr (op_arch op) f.
Proof.
  intros Hd Ht H. pose proof Ht as (Hs & Hl & _). unfold in_u64 in *.
  unfold convert_fde_loud in *. rewrite Hd in *.
  apply snd_ok_lbind in H. destruct H as ([] & Hp & H & ->). rewrite stdout_app.
  destruct (i32_max <? df_start f)%Z eqn:E1; [discriminate H|]. destruct (i32_max <? df_len f)%Z eqn:E2; [discriminate H|].
  destruct (df_rows f) as [rows|g] eqn:Er; [|discriminate H].
  apply snd_ok_lbind in H. destruct H as (b & Hb & H & ->). rewrite stdout_app, (rows_stdout _ _ _ _ Hd _ _ _ Hb).
  destruct (rows_end rows) as [g|]; [discriminate H|].
  apply snd_ok_lbind in H. destruct H as (b1 & _ & H & ->). rewrite stdout_app. cbn [quiet fst stdout_of flat_map app].
  apply snd_ok_lbind in H. destruct H as (s1 & _ & H & ->). cbn [quiet fst app].
  apply snd_ok_lbind in H. destruct H as ([] & _ & H & ->). cbn [say fst quiet app].
  apply snd_ok_lbind in Hp. destruct Hp as ([] & _ & Hp & ->). rewrite stdout_app.
  apply snd_ok_lbind in Hp. destruct Hp as (e & He & Hp & ->). rewrite stdout_app.
  apply snd_ok_lbind in Hp. destruct Hp as ([] & _ & Hp & ->). rewrite stdout_app.
  apply snd_ok_lbind in Hp. destruct Hp as ([] & Hi & Hp & ->). rewrite stdout_app.
  assert (e = df_start f + df_len f) as ->.
  { cbn [quiet snd] in He. unfold add_u64 in He.
    assert (Hf : df_start f + df_len f < 2 ^ 64) by (apply Z.ltb_ge in E1, E2; unfold i32_max in *; lia).
    apply Z.ltb_lt in Hf. rewrite Hf in He. injection He as <-. reflexivity. }
  unfold function_lines, dump_cfi_instructions in *. unfold dw_rows_of at 1. rewrite Er.
  cbn [loud_err fst snd] in *. rewrite (dump_insns_lines pr (names_of (op_arch op)) false).
  - cbn [quiet say fst stdout_of flat_map app head_lines]. do 3 f_equal. rewrite <- !app_assoc. cbn [app]. reflexivity.
  - change (register_text pr (names_of (op_arch op))) with (display_register pr (op_arch op)). destruct (snd (dump_insn_list pr (display_register pr (op_arch op)) false (is_list (df_insns f)) (is_end (df_insns f)) [])) as [[]|g|];
      [reflexivity|discriminate Hi|discriminate Hi].
Qed.

(** ** Reading pieces *)

Lemma enclosed_hex p q n z rest : is_digit q = false -> 0 <= z < 2 ^ 64 ->
  enclosed p q (p ++ zero_pad n (fmt_hex 64 z) ++ String q rest) = Some (z, rest).
Proof.
  intros Hq Hz. unfold enclosed. rewrite after_app.
  rewrite upto_app by (apply digit_without; [exact Hq|apply hex_pad_digits; lia]).
  rewrite number_zero_pad by apply hex_nonempty. rewrite number_hex by lia.
  unfold as_u. rewrite Z.mod_small by lia. reflexivity.
Qed.

Lemma paragraph_app l t : Forall (fun s => s <> "") l -> paragraph (l ++ "" :: t) = Some (l, t).
Proof.
  induction 1 as [|x l Hx Hl IH]; [reflexivity|]. cbn [paragraph app].
  apply String.eqb_neq in Hx. rewrite Hx, IH. reflexivity.
Qed.

(** *** Instructions *)

Definition op_line (pr : printers) (t : option reg_table) (full : bool) (o : operation) : string :=
  op_text pr (register_text pr t) full "                  " o.
Definition bare_text (pr : printers) (t : option reg_table) (i : insn) : string :=
  match after "                " (insn_text pr (register_text pr t) i) with Some t => t | None => "" end.

Lemma op_line_other pr t full o : plain_texts pr t ->
  op_line pr t full o <> "" /\ after "Failed to decode CFI instruction: " (op_line pr t full o) = None /\ read_insn (op_line pr t full o) = None.
Proof.
  intros [_ _ Ho]. unfold op_line. destruct o; try (split; [discriminate|]; split; reflexivity).
  cbn [op_text]. destruct (Ho (OpOther code)) as (c & u & -> & Hc & Hf). split; [discriminate|]. split; [exact Hf|].
  unfold read_insn. cbn [after]. apply Ascii.eqb_neq in Hc. rewrite Ascii.eqb_sym in Hc. rewrite Hc. reflexivity.
Qed.

Lemma insn_text_bare pr t i : insn_text pr (register_text pr t) i = "                " ++ bare_text pr t i.
Proof. unfold bare_text. unfold insn_text at 2. rewrite after_app. reflexivity. Qed.
Lemma bare_head pr t i : plain_texts pr t -> exists c u, bare_text pr t i = String c u /\ c <> " "%char.
Proof.
  intros [_ Hi _]. unfold bare_text, insn_text. rewrite after_app.
  destruct i; try (eexists; eexists; split; [reflexivity|discriminate]).
  destruct (Hi (IOther code)) as (c & u & -> & Hc & _). exists c, u. split; [reflexivity|exact Hc].
Qed.
Lemma insn_line_read pr t i : plain_texts pr t ->
  insn_text pr (register_text pr t) i <> "" /\
  after "Failed to decode CFI instruction: " (insn_text pr (register_text pr t) i) = None /\
  read_insn (insn_text pr (register_text pr t) i) = Some (bare_text pr t i).
Proof.
  intros H. rewrite insn_text_bare. split; [discriminate|]. split; [reflexivity|]. unfold read_insn. rewrite after_app.
  destruct (bare_head pr t i H) as (c & u & -> & Hc). apply Ascii.eqb_neq in Hc. rewrite Hc. reflexivity.
Qed.

Definition view_insn (pr : printers) (t : option reg_table) (full : bool) (i : insn) : insn_view :=
  InsnView (bare_text pr t i) (tl (insn_lines pr t full i)).

Lemma read_ops pr t full is b : plain_texts pr t -> forall l rest, read_insns rest = ([], is, b) ->
  read_insns (map (op_line pr t full) l ++ rest) = (map (op_line pr t full) l, is, b).
Proof.
  intros Hp. induction l as [|o l IH]; intros rest H; [exact H|]. cbn [map app read_insns].
  rewrite (IH _ H). destruct (op_line_other pr t full o Hp) as (_ & -> & ->). reflexivity.
Qed.
Lemma read_insns_lines pr t full en : plain_texts pr t -> forall l,
  read_insns (flat_map (insn_lines pr t full) l ++ broken_lines pr en) =
  ([], map (view_insn pr t full) l, option_map (pr_gimli pr) en).
Proof.
  intros Hp. induction l as [|i l IH].
  - destruct en as [g|]; [|reflexivity]. cbn [flat_map app broken_lines read_insns]. rewrite after_app. reflexivity.
  - cbn [flat_map map]. rewrite <- app_assoc. unfold insn_lines at 1. cbn [app read_insns].
    destruct (insn_line_read pr t i Hp) as (_ & -> & ->).
    unfold view_insn at 1, insn_lines at 2. cbn [tl].
    destruct (insn_expression i) as [x|].
    + change (map (op_text pr (register_text pr t) full "                  ")) with (map (op_line pr t full)).
      rewrite (read_ops pr t full _ _ Hp _ _ IH). reflexivity.
    + cbn [app]. rewrite IH. reflexivity.
Qed.
Lemma insns_nonempty pr t full en : plain_texts pr t -> forall l,
  Forall (fun s => s <> "") (flat_map (insn_lines pr t full) l ++ broken_lines pr en).
Proof.
  intros Hp l. apply Forall_app. split.
  - induction l as [|i l IH]; [constructor|]. cbn [flat_map]. apply Forall_app. split; [|exact IH].
    constructor; [apply (insn_line_read pr t i Hp)|]. destruct (insn_expression i) as [x|]; [|constructor].
    apply Forall_forall. intros s Hs. apply in_map_iff in Hs. destruct Hs as (o & <- & _). apply (op_line_other pr t full o Hp).
  - destruct en; [|constructor]. constructor; [discriminate|constructor].
Qed.

(** *** Rows *)

Definition cfa_text (pr : printers) (a : arch) (c : cfa_rule) : string :=
  match c with CfaReg reg o => display_register pr a reg ++ fmt_plus o | CfaExpression x => pr_expression pr x end.
Definition view_reg (pr : printers) (a : arch) (p : Z * reg_rule) : string * string :=
  (display_register pr a (fst p), display_rule pr a (snd p)).
Definition view_row (pr : printers) (a : arch) (r : dw_row) : row_view :=
  RowView (dr_start r) (dr_end r) (cfa_text pr a (dr_cfa r)) (map (view_reg pr a) (dr_regs r)).
Definition reg_line (pr : printers) (a : arch) (p : Z * reg_rule) : string :=
  "    reg:    " ++ display_register pr a (fst p) ++ " = " ++ display_rule pr a (snd p).

Lemma register_no pr t r c : plain_texts pr t -> (c = " "%char \/ c = ","%char) -> without c (register_text pr t r).
Proof.
  intros [Hn _ _] Hc. rewrite register_text_spec.
  destruct (reg_name pr t r) as [n|] eqn:E.
  - destruct (Hn r n E). destruct Hc as [-> | ->]; assumption.
  - apply plain_without; [destruct Hc as [-> | ->]; reflexivity|apply dec_plain].
Qed.

Lemma read_reg_line pr a p : plain_texts pr (names_of a) -> read_reg (reg_line pr a p) = Some (view_reg pr a p).
Proof.
  intros Hp. unfold read_reg, reg_line. rewrite after_app.
  change (" = " ++ display_rule pr a (snd p)) with (String " " ("= " ++ display_rule pr a (snd p))).
  rewrite upto_app by (apply (register_no pr (names_of a)); [exact Hp|left; reflexivity]). rewrite after_app. reflexivity.
Qed.

Lemma row_lines_eq pr a r : row_lines pr a r =
  ("  - offset: " ++ fmt_hex_alt_pad 64 10 (dr_start r) ++ " (end = " ++ fmt_hex_alt_pad 64 10 (dr_end r) ++ ")") ::
   ("    cfa:    " ++ cfa_text pr a (dr_cfa r)) :: map (reg_line pr a) (dr_regs r).
Proof.
  unfold row_lines, row_dump. cbn [stdout_of flat_map app].
  f_equal. f_equal. apply (stdout_outs (reg_line pr a)).
Qed.

Lemma read_row_head_text a b : in_u64 a -> in_u64 b ->
  read_row_head ("  - offset: " ++ fmt_hex_alt_pad 64 10 a ++ " (end = " ++ fmt_hex_alt_pad 64 10 b ++ ")") = Some (a, b).
Proof.
  intros Ha Hb. unfold read_row_head, fmt_hex_alt_pad, in_u64 in *. rewrite !app_assoc_s.
  change ("  - offset: " ++ "0x" ++ ?x) with ("  - offset: 0x" ++ x).
  change (" (end = " ++ "0x" ++ ?x) with (String " " ("(end = 0x" ++ x)).
  rewrite enclosed_hex by (reflexivity || lia). change (?x ++ ")") with (x ++ String ")" "").
  rewrite enclosed_hex by (reflexivity || lia). reflexivity.
Qed.

Lemma read_regs pr a rows : plain_texts pr (names_of a) -> forall regs rest, read_rows rest = Some ([], rows) ->
  read_rows (map (reg_line pr a) regs ++ rest) = Some (map (view_reg pr a) regs, rows).
Proof.
  intros Hp. induction regs as [|p regs IH]; intros rest H; [exact H|]. cbn [map app read_rows].
  rewrite (read_reg_line pr a p Hp), (IH rest H). reflexivity.
Qed.
Lemma read_rows_lines pr a : plain_texts pr (names_of a) -> forall l, Forall row_full_typed l ->
  read_rows (flat_map (row_lines pr a) l) = Some ([], map (view_row pr a) l).
Proof.
  intros Hp. induction 1 as [|r l (H1 & H2 & _) Hl IH]; [reflexivity|]. cbn [flat_map map].
  rewrite row_lines_eq. cbn [app read_rows]. replace (read_reg _) with (@None (string * string)) by reflexivity.
  rewrite read_row_head_text by assumption. rewrite after_app, (read_regs pr a _ Hp _ _ IH). reflexivity.
Qed.
Lemma rows_nonempty pr a l : Forall (fun s => s <> "") (flat_map (row_lines pr a) l).
Proof.
  induction l as [|r l IH]; [constructor|]. cbn [flat_map]. apply Forall_app. split; [|exact IH].
  rewrite row_lines_eq. constructor; [discriminate|]. constructor; [discriminate|].
  apply Forall_forall. intros s Hs. apply in_map_iff in Hs. destruct Hs as (p & <- & _). discriminate.
Qed.

(** *** Functions *)

Definition view_function (pr : printers) (a : arch) (f : dw_fde) : fde_view :=
  FdeView (df_start f) (df_len f) (df_start f + df_len f) (map (view_insn pr (names_of a) false) (is_list (df_insns f)))
    (option_map (pr_gimli pr) (is_end (df_insns f))) (map (view_row pr a) (dw_rows_of f)).

Lemma read_function_lines pr a f rest : plain_texts pr (names_of a) -> function_full_typed f -> df_start f + df_len f < 2 ^ 64 ->
  read_function (function_lines pr a f ++ rest) = Some (view_function pr a f, rest).
Proof.
  intros Hp (Hs & Hl & _ & Hr) He. unfold in_u64 in *. unfold function_lines, head_lines.
  rewrite <- !app_assoc. cbn [app read_function]. rewrite <- !app_assoc. cbn [app].
  replace (String.eqb "FDE:" "FDE:") with true by reflexivity. unfold fmt_hex_alt_pad.
  change (" start_address: " ++ "0x" ++ ?x) with (" start_address: 0x" ++ x). rewrite after_app.
  rewrite !app_assoc_s. change ("    range_size: " ++ "0x" ++ ?x) with ("    range_size: 0x" ++ x).
  change (" (end_addr = " ++ "0x" ++ ?x) with (String " " ("(end_addr = 0x" ++ x)).
  rewrite enclosed_hex by (reflexivity || lia). change (?x ++ ")") with (x ++ String ")" "").
  rewrite enclosed_hex by (reflexivity || lia). rewrite number_zero_pad by apply hex_nonempty. rewrite number_hex by lia.
  unfold as_u. rewrite Z.mod_small by lia.
  rewrite app_assoc. rewrite (paragraph_app _ _ (insns_nonempty pr (names_of a) false (is_end (df_insns f)) Hp (is_list (df_insns f)))).
  replace (String.eqb "Rows:" "Rows:") with true by reflexivity.
  rewrite (read_insns_lines pr (names_of a) false _ Hp). rewrite (paragraph_app _ _ (rows_nonempty pr a _)).
  rewrite (read_rows_lines pr a Hp _ Hr). reflexivity.
Qed.

(** ** What is read is what was given *)

Lemma call_none name : without " " name -> read_call name = Some (name, []).
Proof.
  intros H. unfold read_call. replace (upto " " name) with (@None (string * string)); [reflexivity|].
  symmetry. induction name as [|c t IH]; [reflexivity|]. destruct H as [Hc Ht]. cbn [upto].
  apply Ascii.eqb_neq in Hc. rewrite Hc, (IH Ht). reflexivity.
Qed.
Lemma upto_none c s : without c s -> upto c s = None.
Proof.
  induction s as [|x t IH]; [reflexivity|]. intros [Hc Ht]. cbn [upto]. apply Ascii.eqb_neq in Hc. rewrite Hc, (IH Ht). reflexivity.
Qed.
Lemma arguments_one n s : without "," s -> arguments n s = [s].
Proof. intros H. destruct n; cbn [arguments]; [reflexivity|]. rewrite (upto_none _ _ H). reflexivity. Qed.
Lemma arguments_two n a b : without "," a -> without "," b -> arguments (S n) (a ++ ", " ++ b) = [a; b].
Proof.
  intros Ha Hb. cbn [arguments]. change (a ++ ", " ++ b) with (a ++ String "," (String " " b)). rewrite (upto_app _ _ _ Ha).
  rewrite (arguments_one n b Hb). reflexivity.
Qed.
Lemma call_one name x : without " " name -> without "," x -> read_call (name ++ " (" ++ x ++ ")") = Some (name, [x]).
Proof.
  intros Hn Hx. unfold read_call. change (name ++ " (" ++ x ++ ")") with (name ++ String " " (String "(" (x ++ String ")" ""))).
  rewrite (upto_app _ _ _ Hn), drop_end_app. cbn [option_map]. rewrite (arguments_one _ _ Hx). reflexivity.
Qed.
Lemma call_two name x y : without " " name -> without "," x -> without "," y ->
  read_call (name ++ " (" ++ x ++ ", " ++ y ++ ")") = Some (name, [x; y]).
Proof.
  intros Hn Hx Hy. unfold read_call.
  replace (name ++ " (" ++ x ++ ", " ++ y ++ ")") with (name ++ String " " (String "(" ((x ++ ", " ++ y) ++ String ")" ""))).
  2:{ cbn [append]. rewrite !app_assoc_s. reflexivity. }
  rewrite (upto_app _ _ _ Hn), drop_end_app. cbn [option_map].
  rewrite length_app_s. cbn [String.length append]. rewrite Nat.add_succ_r.
  change (x ++ String "," (String " " y)) with (x ++ ", " ++ y). rewrite (arguments_two _ _ _ Hx Hy). reflexivity.
Qed.

Lemma comma_dec z : without "," (fmt_dec z).
Proof. apply plain_without; [reflexivity|apply dec_plain]. Qed.
Lemma comma_hex w z : without "," (fmt_hex_alt w z).
Proof. unfold fmt_hex_alt. apply plain_without; [reflexivity|]. rewrite all_chars_app, hex_plain. reflexivity. Qed.

Lemma call_one' lit name x : lit = name ++ " (" -> without " " name -> without "," x ->
  read_call (lit ++ x ++ ")") = Some (name, [x]).
Proof. intros -> Hn Hx. rewrite app_assoc_s. apply call_one; assumption. Qed.
Lemma call_two' lit name x y : lit = name ++ " (" -> without " " name -> without "," x -> without "," y ->
  read_call (lit ++ x ++ ", " ++ y ++ ")") = Some (name, [x; y]).
Proof. intros -> Hn Hx Hy. rewrite app_assoc_s. apply call_two; assumption. Qed.

Ltac no_char := repeat split; discriminate.
Lemma insn_view_shown pr t full i : plain_texts pr t -> insn_typed i -> insn_shown pr t i (view_insn pr t full i).
Proof.
  intros Hp Ht. unfold insn_shown, view_insn. cbn [iv_text iv_below]. split.
  2:{ unfold insn_lines. cbn [tl]. destruct i; cbn [insn_expression block_of]; try reflexivity; apply map_length. }
  assert (Hc : forall r, without "," (register_text pr t r)) by (intros r; apply register_no; [exact Hp|right; reflexivity]).
  assert (Hr : forall r ops, Forall operand_typed (OReg r :: ops) -> operand_shown pr t (OReg r) (register_text pr t r)).
  { intros r ops H. pose proof (Forall_inv H) as H0. cbn [operand_typed operand_shown] in *. apply register_shown_text. lia. }
  assert (Hn : forall z, operand_shown pr t (ONum z) (fmt_dec z)) by (intros z; apply integer_dec).
  assert (Hd : without "," "...") by no_char.
  pose proof comma_dec as Hcd. pose proof comma_hex as Hch.
  unfold bare_text, insn_text. rewrite after_app. unfold insn_typed in Ht.
  destruct i; cbn [dwarf_insn] in *.
  all: try (eexists; split; [apply call_none; no_char|]; apply Forall2_nil).
  all: try change ", ...)" with (", " ++ "..." ++ ")").
  all: try (eexists; split; [apply call_two'; [reflexivity|no_char|auto|auto]|]).
  all: try (eexists; split; [apply call_one'; [reflexivity|no_char|auto]|]).
  all: try (apply Forall2_cons; [eauto|apply Forall2_nil]).
  all: try (apply Forall2_cons; [eauto|apply Forall2_cons; [first [apply (Hr _ _ (Forall_inv_tail Ht))|apply Hn|reflexivity]|apply Forall2_nil]]).
  - unfold fmt_hex_alt. eexists. split; [apply after_app|]. rewrite number_hex by lia. pose proof (Forall_inv Ht) as H. cbn in H.
    unfold as_u. rewrite Z.mod_small by lia. reflexivity.
  - exists ["..."]. split; [reflexivity|]. apply Forall2_cons; [reflexivity|apply Forall2_nil].
  - reflexivity.
Qed.

Lemma row_view_shown pr a r : row_full_typed r -> row_shown pr (names_of a) r (view_row pr a r).
Proof.
  intros (_ & _ & Hc & Hr). unfold row_shown, view_row. cbn [rv_start rv_end rv_cfa rv_regs].
  split; [reflexivity|]. split; [reflexivity|]. split.
  - destruct (dr_cfa r) as [reg o|x]; cbn [cfa_shown cfa_text]; [|reflexivity].
    exists (display_register pr a reg), (fmt_plus o). split; [reflexivity|]. split; [apply (register_shown_text pr (names_of a)); lia|apply integer_plus].
  - induction Hr as [|p l (H1 & H2) Hl IH]; [constructor|]. cbn [map]. constructor; [|exact IH]. split; cbn [fst snd view_reg].
    + apply (register_shown_text pr (names_of a)). lia.
    + apply rule_shown_text, H2.
Qed.

Lemma forall2_map {A B} (P : A -> B -> Prop) (g : A -> B) l : (forall x, In x l -> P x (g x)) -> Forall2 P l (map g l).
Proof.
  intros H. induction l as [|x l IH]; [constructor|]. cbn [map]. constructor; [apply H; left; reflexivity|].
  apply IH. intros y Hy. apply H. right. exact Hy.
Qed.
Lemma function_view_shown pr a f : plain_texts pr (names_of a) -> function_full_typed f -> function_shown pr (names_of a) f (view_function pr a f).
Proof.
  intros Hp (_ & _ & Hi & Hr). rewrite Forall_forall in Hi, Hr. unfold function_shown, view_function.
  cbn [fv_start fv_len fv_end fv_insns fv_broken fv_rows]. do 3 (split; [reflexivity|]). split; [|split; [reflexivity|]].
  - apply forall2_map. intros i H. apply insn_view_shown; [exact Hp|apply Hi, H].
  - apply forall2_map. intros r H. apply row_view_shown, Hr, H.
Qed.

(** ** The whole dump *)

Lemma read_functions_lines pr a : plain_texts pr (names_of a) -> forall l n rest,
  Forall (fun f => function_full_typed f /\ df_start f + df_len f < 2 ^ 64) l ->
  (Datatypes.length (flat_map (function_lines pr a) l) <= n)%nat -> rest = [] ->
  read_functions n (flat_map (function_lines pr a) l ++ rest) = Some (map (view_function pr a) l).
Proof.
  intros Hp. induction l as [|f l IH]; intros n rest H Hn ->; [destruct n; reflexivity|].
  pose proof (Forall_inv H) as [Hf He]. apply Forall_inv_tail in H. cbn [flat_map map] in *. rewrite app_length in Hn.
  assert (Hl : (0 < Datatypes.length (function_lines pr a f))%nat) by (cbn; lia).
  rewrite <- app_assoc. destruct n as [|n]; [lia|]. rewrite app_nil_r in *.
  cbn [read_functions].
  assert (Hx : exists s t, (function_lines pr a f ++ flat_map (function_lines pr a) l)%list = s :: t).
  { destruct (function_lines pr a f) as [|s t]; [cbn in Hl; lia|]. exists s, (t ++ flat_map (function_lines pr a) l)%list. reflexivity. }
  pose proof (read_function_lines pr a f (flat_map (function_lines pr a) l) Hp Hf He) as Hr.
  destruct Hx as (s & t & Hx). rewrite Hx in *. rewrite Hr.
  specialize (IH n [] H ltac:(lia) eq_refl). rewrite app_nil_r in IH. rewrite IH. reflexivity.
Qed.

Lemma entries_stdout pr md op : op_debugdump op = true -> forall l s,
  Forall dw_entry_typed l ->
  exists pre post rest, functions l = (pre ++ post)%list /\
    stdout_of (fst (convert_entries_loud pr md op l s)) = (flat_map (function_lines pr (op_arch op)) pre ++ rest)%list /\
    (finished (snd (convert_entries_loud pr md op l s)) -> post = [] /\ rest = []) /\
    Forall (fun f => df_start f <= i32_max /\ df_len f <= i32_max) pre.
Proof.
  intros Hd. induction l as [|en l IH]; intros s Ht; cbn [convert_entries_loud].
  - exists [], [], []. split; [reflexivity|]. split; [reflexivity|]. split; [auto|constructor].
  - pose proof (Forall_inv Ht) as Hf. apply Forall_inv_tail in Ht. destruct en as [|g|f]; cbn [functions].
    + apply IH, Ht.
    + exists [], (functions l), []. cbn [quiet fst snd]. split; [reflexivity|]. split; [reflexivity|].
      split; [intros [? [=]]|constructor].
    + destruct (snd (convert_fde_loud pr md op s f)) as [s'|er|] eqn:Es.
      2,3: exists [], (f :: functions l), (stdout_of (fst (convert_fde_loud pr md op s f))); unfold lbind; rewrite Es; cbn [fst snd];
           (split; [reflexivity|]); (split; [reflexivity|]); (split; [intros [? [=]]|constructor]).
      rewrite snd_lbind, Es. cbn [bind]. rewrite (fst_lbind_ok _ _ _ Es), stdout_app.
      rewrite (fde_stdout _ _ _ _ _ _ Hd Hf Es).
      destruct (IH s' Ht) as (pre & post & rest & H1 & H2 & H3 & H4).
      exists (f :: pre), post, rest. cbn [flat_map app]. rewrite H1, H2, app_assoc. split; [reflexivity|]. split; [reflexivity|].
      split; [exact H3|]. constructor; [|exact H4].
      unfold convert_fde_loud in Es. apply snd_ok_lbind in Es. destruct Es as (u & _ & Es & _).
      destruct (Z.ltb_spec i32_max (df_start f)); [discriminate Es|]. destruct (Z.ltb_spec i32_max (df_len f)); [discriminate Es|]. auto.
Qed.

Lemma dump_off pr md op eh ev o : op_debugdump op = false -> dwarf2sframe_loud pr md op eh = (ev, o) -> stdout_of ev = [].
Proof.
  intros Hd E.
  assert (Hb : forall {A B} (m : loud conv_error A) (k : A -> loud conv_error B), stdout_of (fst m) = [] ->
    (forall a, stdout_of (fst (k a)) = []) -> stdout_of (fst (lbind m k)) = []).
  { intros A B m k H1 H2. unfold lbind. destruct (snd m); cbn [fst]; [|exact H1|exact H1]. rewrite stdout_app, H1, H2. reflexivity. }
  assert (Hrows : forall f l b, stdout_of (fst (convert_rows_loud pr md op f l b)) = []).
  { intros f. induction l as [|r t IH]; intros b; [reflexivity|]. cbn [convert_rows_loud]. rewrite Hd.
    apply Hb; [reflexivity|]. intros _. destruct (dr_start r =? dr_end r)%Z; [apply IH|].
    apply Hb; [reflexivity|]. intros d. destruct (negb (row_start_ok d)); [reflexivity|].
    apply Hb; [reflexivity|]. intros res. apply Hb.
    - destruct res; try reflexivity. apply Hb; [destruct (op_warnings op); reflexivity|reflexivity].
    - intros nr. destruct (fdb_row b nr); [apply IH|reflexivity|reflexivity]. }
  assert (Hfde : forall s f, stdout_of (fst (convert_fde_loud pr md op s f)) = []).
  { intros s f. unfold convert_fde_loud. rewrite Hd. apply Hb; [reflexivity|]. intros _.
    destruct (i32_max <? df_start f)%Z; [reflexivity|]. destruct (i32_max <? df_len f)%Z; [reflexivity|].
    destruct (df_rows f) as [rows|g]; [|reflexivity]. apply Hb; [apply Hrows|]. intros b.
    destruct (rows_end rows); [reflexivity|]. do 3 (apply Hb; [reflexivity|]; intros ?). reflexivity. }
  assert (Hall : forall l s, stdout_of (fst (convert_entries_loud pr md op l s)) = []).
  { induction l as [|[|g|f] l IH]; intros s; cbn [convert_entries_loud]; try reflexivity; [apply IH|].
    apply Hb; [apply Hfde|]. intros s'. apply IH. }
  replace ev with (fst (dwarf2sframe_loud pr md op eh)) by (rewrite E; reflexivity). unfold dwarf2sframe_loud.
  apply Hb; [apply Hall|]. intros s. destruct (ents_end (eh_entries eh)); reflexivity.
Qed.

Theorem debug_dump_views (P : dw_fde -> fde_view -> Prop) pr md op eh ev o :
  (forall f, function_full_typed f -> P f (view_function pr (op_arch op) f)) ->
  plain_texts pr (names_of (op_arch op)) -> eh_typed eh -> Forall function_full_typed (functions (entries_of eh)) ->
  op_debugdump op = true -> dwarf2sframe_loud pr md op eh = (ev, o) ->
  exists pre post whole rest views,
    functions (entries_of eh) = (pre ++ post)%list /\ stdout_of ev = (whole ++ rest)%list /\
    read_debug whole = Some views /\ Forall2 P pre views /\
    (finished o -> post = [] /\ rest = []).
Proof.
  intros HP Hp Ht Hf Hd E. unfold dwarf2sframe_loud in E. unfold entries_of in *.
  destruct (entries_stdout pr md op Hd _ (sfb_new (conv_sfoptions op eh)) Ht) as (pre & post & rest & H1 & H2 & H3 & H4).
  destruct (convert_entries_loud _ _ _ _ _) as [cv co]. cbn [fst snd] in *. unfold lbind in E. cbn [fst snd] in E.
  assert (Hcv : ev = cv /\ (finished o -> finished co)).
  { destruct co as [s|er|]; cbn in E.
    - split; [|intros _; exists s; reflexivity].
      destruct (ents_end (eh_entries eh)); cbn in E; rewrite app_nil_r in E; congruence.
    - split; [congruence|]. intros [? Hx]. subst. discriminate.
    - split; [congruence|]. intros [? Hx]. subst. discriminate. }
  destruct Hcv as [-> Hfin].
  exists pre, post, (flat_map (function_lines pr (op_arch op)) pre), rest, (map (view_function pr (op_arch op)) pre).
  unfold entries_of in H1. rewrite H1 in Hf. apply Forall_app in Hf. destruct Hf as [Hf _].
  split; [exact H1|]. split; [exact H2|]. split; [|split; [|intros H; apply H3, Hfin, H]].
  - unfold read_debug. rewrite <- (app_nil_r (flat_map _ pre)) at 2. apply read_functions_lines; [exact Hp| |lia|reflexivity].
    clear -Hf H4. induction Hf as [|f l H Hl IH]; [constructor|]. pose proof (Forall_inv H4) as [Hs He].
    constructor; [|apply IH, (Forall_inv_tail H4)]. split; [exact H|]. unfold i32_max in *. lia.
  - apply forall2_map. intros f Hi. rewrite Forall_forall in Hf. apply HP, Hf, Hi.
Qed.
Theorem debug_dump_read pr md op eh ev o :
  plain_texts pr (names_of (op_arch op)) -> eh_typed eh -> Forall function_full_typed (functions (entries_of eh)) ->
  op_debugdump op = true -> dwarf2sframe_loud pr md op eh = (ev, o) ->
  exists pre post whole rest views,
    functions (entries_of eh) = (pre ++ post)%list /\ stdout_of ev = (whole ++ rest)%list /\
    read_debug whole = Some views /\ Forall2 (function_shown pr (names_of (op_arch op))) pre views /\
    (finished o -> post = [] /\ rest = []).
Proof. intros Hp. apply debug_dump_views; [|exact Hp]. intros f. apply function_view_shown, Hp. Qed.

(** ** Operations (C76, C77) *)

Lemma op_line_shown pr t full o : renamed o = false -> op_shown o (op_line pr t full o).
Proof.
  intros H. unfold op_shown, op_line.
  destruct o; try discriminate H; cbn [op_text]; eexists; (split; [apply after_app|]); cbn [dwarf_op];
    try reflexivity.
  - match goal with |- In (match upto ?c (?p ++ ?x) with _ => _ end) _ => change (p ++ x) with ("DW_OP_deref" ++ String " " x) end.
    rewrite upto_app by no_char. left. reflexivity.
  - match goal with |- In (match upto ?c (?p ++ ?x) with _ => _ end) _ => change (p ++ x) with ("DW_OP_pick" ++ String " " x) end.
    rewrite upto_app by no_char. left. reflexivity.
Qed.
(** The others do not. *)
Lemma op_line_renamed pr t full o : (forall k, after " " (pr_op pr (OpOther k)) = None) -> renamed o = true -> ~ op_shown o (op_line pr t full o).
Proof.
  intros HO H (x & HX & HD). unfold op_line in HX.
  destruct o; try discriminate H; cbn [op_text] in HX;
    try (rewrite after_app in HX; apply some_inj in HX; subst x;
      lazymatch type of HD with context[upto " " ?s] =>
        (let r := eval cbn in s in change s with r in HD) end).
  all: cbn [dwarf_op In] in HD.
  all: try (match type of HD with context[upto " " ?s] =>
    let u := eval cbn in (upto " " s) in change (upto " " s) with u in HD end; cbn beta iota in HD).
  all: try (cbn in HD; unfold numbered in HD; cbn in HD;
    repeat match goal with
    | H : _ \/ _ |- _ => destruct H as [H|H]
    | H : exists _, _ |- _ => destruct H as (? & ?)
    | H : _ /\ _ |- _ => destruct H as [? ?]
    end; (discriminate || contradiction)).
  - destruct HD as [HD|(x & k & HA & HN & _)]; [discriminate|]. cbn in HA. apply some_inj in HA. subst x. vm_compute in HN. discriminate.
  - revert HX. specialize (HO code). revert HO. generalize (pr_op pr (OpOther code)). intros [|c s]; cbn [after]; [discriminate|].
    destruct (Ascii.eqb " " c); [|discriminate]. discriminate.
Qed.
Lemma view_ops pr a (R : operation -> string -> Prop) f : (forall o, R o (op_line pr (names_of a) false o)) -> ops_shown R f (view_function pr a f).
Proof.
  intros HR. unfold ops_shown, view_function. cbn [fv_insns]. apply forall2_map. intros i _. unfold view_insn, insn_lines.
  cbn [tl iv_below]. destruct i; cbn [block_of insn_expression]; try reflexivity; apply forall2_map; intros o _; apply HR.
Qed.

Lemma dec_space_inj x y s t : fmt_dec x ++ String " " s = fmt_dec y ++ String " " t -> x = y /\ s = t.
Proof.
  intros H. apply (f_equal (upto " ")) in H.
  rewrite !upto_app in H by (apply plain_without; [reflexivity|apply dec_plain]). apply some_inj in H.
  split; [apply dec_inj; congruence|congruence].
Qed.
Lemma register_inj pr t r r' : clear_texts pr t -> register_text pr t r = register_text pr t r' -> r = r'.
Proof.
  intros [Hn _ Hf _] H. rewrite !register_text_spec in H.
  destruct (reg_name pr t r) as [n|] eqn:E; destruct (reg_name pr t r') as [n'|] eqn:E'.
  - subst n'. apply (Hn _ _ n E E').
  - exfalso. apply (Hf r n E). rewrite H. do 4 right. rewrite integer_dec. discriminate.
  - exfalso. apply (Hf r' n' E'). rewrite <- H. do 4 right. rewrite integer_dec. discriminate.
  - apply dec_inj, H.
Qed.
(** What the line keeps of an operation. *)
Definition op_kept (full : bool) (o : operation) : operation := if full then o else untyped o.
Theorem op_text_injective_gen pr t full i o o' : clear_texts pr t -> plain_texts pr t ->
  (forall d d', pr_die pr d = pr_die pr d' -> d = d') ->
  (forall c s, pr_op pr (OpOther c) <> i ++ "DW_OP_" ++ s) ->
  op_text pr (register_text pr t) full i o = op_text pr (register_text pr t) full i o' ->
  op_kept full o = op_kept full o' \/ exists c c', o = OpOther c /\ o' = OpOther c' /\ pr_op pr o = pr_op pr o'.
Proof.
  intros Hc Hp Hd Hi.
  assert (Hot : forall c o, (forall c', o <> OpOther c') -> pr_op pr (OpOther c) <> op_text pr (register_text pr t) full i o).
  { intros c o1 Hn E. destruct o1; try (exfalso; apply (Hn code); reflexivity); cbn [op_text] in E; apply (Hi c _ E). }
  assert (Hk : forall x y, x = y -> op_kept full x = op_kept full y) by (intros x y ->; reflexivity).
  destruct o; destruct o'; try (intros _; left; reflexivity);
    try (cbn [op_text append]; intros H; apply app_inj_l in H; discriminate H);
    try (intros H; exfalso; eapply Hot; [|first [exact H|symmetry; exact H]]; intros ? [=]; fail).
  all: cbn [op_text]; intros H.
  all: try (left; apply app_inj_l in H; apply app_inj_l in H; apply dec_inj in H; subst; reflexivity).
  - left. do 2 apply app_inj_l in H. unfold op_kept. destruct full; cbn [append] in H.
    + rewrite !app_assoc_s in H. change (?x ++ " " ++ ?y) with (x ++ String " " y) in H.
      apply dec_space_inj in H. destruct H as [-> H]. change (?x ++ " " ++ ?y) with (x ++ String " " y) in H.
      apply dec_space_inj in H. destruct H as [-> H]. destruct space, space0; try discriminate H; reflexivity.
    + apply dec_space_inj in H. destruct H as [-> H]. destruct space, space0; try discriminate H; reflexivity.
  - left. do 2 apply app_inj_l in H. apply (register_inj pr t _ _ Hc) in H. subst. reflexivity.
  - left. do 2 apply app_inj_l in H.
    change (register_text pr t register ++ " " ++ ?y) with (register_text pr t register ++ String " " y) in H.
    change (register_text pr t register0 ++ " " ++ ?y) with (register_text pr t register0 ++ String " " y) in H.
    apply (f_equal (upto " ")) in H.
    rewrite !upto_app in H by (apply register_no; [exact Hp|left; reflexivity]). apply some_inj in H.
    assert (H1 : register_text pr t register = register_text pr t register0) by congruence.
    assert (H2 : fmt_dec offset ++ (if full then " " ++ fmt_dec base_type else "") =
                 fmt_dec offset0 ++ (if full then " " ++ fmt_dec base_type0 else "")) by congruence.
    apply (register_inj pr t _ _ Hc) in H1. subst. unfold op_kept. destruct full.
    + change (?x ++ " " ++ ?y) with (x ++ String " " y) in H2. apply dec_space_inj in H2. destruct H2 as [-> H2].
      apply dec_inj in H2. subst. reflexivity.
    + rewrite !app_nil_r_s in H2. apply dec_inj in H2. subst. reflexivity.
  - left. do 2 apply app_inj_l in H. apply Hd in H. subst. reflexivity.
  - right. exists code, code0. auto.
Qed.
Theorem op_text_injective pr a o o' : clear_texts pr (names_of a) -> plain_texts pr (names_of a) ->
  (forall d d', pr_die pr d = pr_die pr d' -> d = d') ->
  op_line pr (names_of a) false o = op_line pr (names_of a) false o' ->
  untyped o = untyped o' \/ exists c c', o = OpOther c /\ o' = OpOther c' /\ pr_op pr o = pr_op pr o'.
Proof.
  intros Hc Hp Hd. apply (op_text_injective_gen pr (names_of a) false); try assumption.
  intros c s E. destruct (pt_op _ _ Hp (OpOther c)) as (x & u & Ex & Hx & _). rewrite Ex in E. cbn [append] in E.
  injection E as -> _. apply Hx. reflexivity.
Qed.

Theorem expression_text_injective pr a x y : clear_texts pr (names_of a) -> plain_texts pr (names_of a) ->
  (forall d d', pr_die pr d = pr_die pr d' -> d = d') ->
  fst (dump_expression pr (display_register pr a) false "                  " x) =
  fst (dump_expression pr (display_register pr a) false "                  " y) ->
  Forall2 (fun o o' => untyped o = untyped o' \/ exists c c', o = OpOther c /\ o' = OpOther c' /\ pr_op pr o = pr_op pr o')
    (ex_ops x) (ex_ops y).
Proof.
  intros Hc Hp Hd. unfold dump_expression. cbn [fst]. generalize (ex_ops y) as m. induction (ex_ops x) as [|o l IH]; intros [|o' m] H;
    try discriminate H; [constructor|]. cbn [map] in H.
  assert (H1 : op_line pr (names_of a) false o = op_line pr (names_of a) false o') by (unfold op_line; change (register_text pr (names_of a)) with (display_register pr a); congruence).
  constructor; [apply (op_text_injective pr a o o' Hc Hp Hd H1)|]. apply IH. congruence.
Qed.

Theorem debug_dump_ops pr md op eh ev o :
  plain_texts pr (names_of (op_arch op)) -> eh_typed eh -> Forall function_full_typed (functions (entries_of eh)) ->
  op_debugdump op = true -> dwarf2sframe_loud pr md op eh = (ev, o) ->
  exists pre post whole rest views,
    functions (entries_of eh) = (pre ++ post)%list /\ stdout_of ev = (whole ++ rest)%list /\
    read_debug whole = Some views /\ Forall2 (ops_shown (fun o s => (renamed o = false -> op_shown o s) /\
      ((forall k, after " " (pr_op pr (OpOther k)) = None) -> renamed o = true -> ~ op_shown o s))) pre views /\
    (finished o -> post = [] /\ rest = []).
Proof. apply debug_dump_views. intros f _. apply view_ops. intros x. split; [apply op_line_shown|apply op_line_renamed]. Qed.
