(** Proofs about the expressions and reports that the first-generation
    converter prints (C84, C86, C87). *)
From Coq Require Import String Ascii.
From Verif Require Export V1Facts.
Local Open Scope string_scope.

(** ** Spaces around text *)

Lemma graphic_space c : graphic c = true -> is_space c = false.
Proof. destruct c as [[] [] [] [] [] [] [] []]; vm_compute; congruence. Qed.
Lemma graphic_blank c : graphic c = true -> Ascii.eqb c " " = false.
Proof. destruct c as [[] [] [] [] [] [] [] []]; vm_compute; congruence. Qed.
Lemma plain_graphic c : plain c = true -> graphic c = true.
Proof. destruct c as [[] [] [] [] [] [] [] []]; vm_compute; congruence. Qed.

Definition spaces (n : nat) : string := repeat_char " " n.

Lemma trim_start_spaces n s : trim_start (spaces n ++ s) = trim_start s.
Proof. induction n; [reflexivity|]. exact IHn. Qed.
Lemma trim_start_graphic c s : graphic c = true -> trim_start (String c s) = String c s.
Proof. intros H. cbn [trim_start]. rewrite (graphic_space c H). reflexivity. Qed.
Lemma trim_end_graphic c s : graphic c = true -> trim_end (s ++ String c "") = s ++ String c "".
Proof.
  intros H. induction s as [|x s IH]; cbn [append trim_end].
  - rewrite (graphic_space c H). reflexivity.
  - rewrite IH. destruct (s ++ String c "") eqn:E; [destruct s; discriminate E|reflexivity].
Qed.
Lemma trim_end_space c s : is_space c = true -> trim_end (s ++ String c "") = trim_end s.
Proof.
  intros H. induction s as [|x s IH]; cbn [append trim_end].
  - rewrite H. reflexivity.
  - rewrite IH. reflexivity.
Qed.
Lemma unindent_spaces n s : unindent (spaces n ++ s) = unindent s.
Proof. induction n; [reflexivity|]. exact IHn. Qed.
Lemma unindent_tidy s : tidy s -> unindent s = s.
Proof. intros (_ & (c & u & -> & Hc) & _). cbn [unindent]. rewrite (graphic_blank c Hc). reflexivity. Qed.

(** Lines with line breaks between them. *)
Fixpoint joined (a : string) (l : list string) : string :=
  match l with [] => a | b :: t => a ++ String newline_char (joined b t) end.

Lemma unlines_joined : forall l a, unlines (a :: l) = joined a l ++ String newline_char "".
Proof.
  induction l as [|b l IH]; intros a; rewrite unlines_cons.
  - reflexivity.
  - rewrite IH. cbn [joined]. rewrite app_assoc_s. reflexivity.
Qed.
Lemma joined_prefix p : forall l a, joined (p ++ a) l = p ++ joined a l.
Proof. intros [|b l] a; cbn [joined]; [reflexivity|]. rewrite app_assoc_s. reflexivity. Qed.
Lemma split_joined : forall l a, without newline_char a -> Forall (without newline_char) l ->
  split_at newline_char "" (joined a l) = a :: l.
Proof.
  induction l as [|b l IH]; intros a Ha Hl; cbn [joined].
  - apply split_at_end, Ha.
  - inversion Hl as [|? ? Hb Hl']; subst. rewrite split_at_app by exact Ha. cbn [append split_at]. rewrite Ascii.eqb_refl.
    rewrite (IH b Hb Hl'). reflexivity.
Qed.
Definition ends_graphic (s : string) : Prop := exists u c, s = u ++ String c "" /\ graphic c = true.
Lemma ends_app p s : ends_graphic s -> ends_graphic (p ++ s).
Proof. intros (u & c & -> & H). exists (p ++ u), c. rewrite app_assoc_s. auto. Qed.
Lemma joined_ends : forall l a, ends_graphic a -> Forall ends_graphic l -> ends_graphic (joined a l).
Proof.
  induction l as [|b l IH]; intros a Ha Hl; cbn [joined]; [exact Ha|]. inversion Hl; subst.
  change (String newline_char (joined b l)) with (String newline_char "" ++ joined b l). rewrite <- app_assoc_s.
  apply ends_app, IH; assumption.
Qed.

(** Indented lines as they are printed and read back. *)
Definition indented (s core : string) : Prop := tidy core /\ exists n, s = spaces n ++ core.
Lemma indented_lines l cores : Forall2 indented l cores -> expression_lines (trim (unlines l)) = cores.
Proof.
  intros H. destruct H as [|s c l cores (Hc & n & ->) Hl]; [reflexivity|].
  rewrite unlines_joined, joined_prefix. unfold trim. rewrite app_assoc_s, trim_start_spaces.
  assert (Hd : Forall (without newline_char) l).
  { clear - Hl. induction Hl as [|? ? ? ? (Hc & n & ->) Hl IH]; constructor; [|exact IH]. apply without_app; [|apply Hc].
    apply without_repeat. discriminate. }
  assert (He : Forall ends_graphic l).
  { clear - Hl. induction Hl as [|? ? ? ? (Hc & n & ->) Hl IH]; constructor; [|exact IH]. apply ends_app. apply Hc. }
  assert (Hm : map unindent l = cores).
  { clear - Hl. induction Hl as [|? ? ? ? (Hc & n & ->) Hl IH]; [reflexivity|]. cbn [map]. rewrite unindent_spaces, (unindent_tidy _ Hc), IH. reflexivity. }
  pose proof Hc as (Hc1 & (x & u & Ex & Hx) & Hc3).
  assert (Ej : exists v, joined c l = String x v) by (rewrite Ex; destruct l; cbn [joined append]; eexists; reflexivity).
  destruct Ej as [v Ej]. rewrite Ej. cbn [append]. rewrite (trim_start_graphic x _ Hx).
  change (String x (v ++ String newline_char "")) with (String x v ++ String newline_char ""). rewrite <- Ej.
  rewrite trim_end_space by reflexivity. destruct (joined_ends l c Hc3 He) as (w & y & Ew & Hy). rewrite Ew, (trim_end_graphic y w Hy), <- Ew.
  unfold expression_lines. rewrite Ej at 1. rewrite (split_joined l c Hc1 Hd). cbn [map]. rewrite (unindent_tidy c Hc), Hm. reflexivity.
Qed.

(** ** Operations *)

Lemma tidy_app p s : without newline_char p -> (exists c u, p = String c u /\ graphic c = true) -> tidy s -> tidy (p ++ s).
Proof.
  intros Hn (c & u & -> & Hc) (H1 & _ & H3). split; [apply without_app; assumption|]. split.
  - cbn [append]. eexists. eexists. split; [reflexivity|exact Hc].
  - apply (ends_app (String c u) s H3).
Qed.
Lemma string_snoc s : s <> "" -> exists u c, s = u ++ String c "".
Proof.
  induction s as [|x s IH]; [congruence|]. intros _. destruct s as [|y s]; [exists "", x; reflexivity|].
  destruct (IH ltac:(discriminate)) as (u & c & E). exists (String x u), c. rewrite E. reflexivity.
Qed.
Lemma plain_tidy s : s <> "" -> all_chars plain s = true -> tidy s.
Proof.
  intros Hs Hp. split; [apply newline_plain, Hp|]. split.
  - destruct s as [|c u]; [congruence|]. exists c, u. split; [reflexivity|]. cbn [all_chars] in Hp. apply andb_true_iff in Hp.
    apply plain_graphic, Hp.
  - destruct (string_snoc s Hs) as (u & c & E). exists u, c. split; [exact E|]. rewrite E, all_chars_app in Hp.
    apply andb_true_iff in Hp. destruct Hp as [_ Hp]. cbn [all_chars] in Hp. apply andb_true_iff in Hp. apply plain_graphic, Hp.
Qed.
Lemma tidy_dec z : tidy (fmt_dec z).
Proof. apply plain_tidy; [apply dec_nonempty|apply dec_plain]. Qed.
Lemma tidy_bool (b : bool) : tidy (if b then "true" else "false").
Proof.
  destruct b; (split; [repeat (split; [discriminate|]); exact I|]); split.
  - exists "t"%char, "rue". auto.
  - exists "tru", "e"%char. auto.
  - exists "f"%char, "alse". auto.
  - exists "fals", "e"%char. auto.
Qed.
Lemma tidy_join a b : tidy a -> tidy b -> tidy (a ++ " " ++ b).
Proof.
  intros (H1 & (c & u & -> & Hc) & _) Hb. rewrite <- app_assoc_s. apply tidy_app; [|exists c, (u ++ " ")|exact Hb].
  - apply without_app; [exact H1|]. split; [discriminate|exact I].
  - split; [reflexivity|exact Hc].
Qed.
Lemma tidy_register pr t r : tidy_texts pr t -> tidy (register_text pr t r).
Proof.
  intros H. rewrite register_text_spec. destruct (reg_name pr t r) as [n|] eqn:E; [apply (td_names _ _ H r n E)|apply tidy_dec].
Qed.

Definition op_core (pr : printers) (t : option reg_table) (o : operation) : string := op_text pr (register_text pr t) true "" o.

Ltac literal_dry := repeat (split; [discriminate|]); exact I.
Ltac literal_end :=
  match goal with |- exists u c, ?s = _ /\ _ =>
    let n := eval vm_compute in (String.length s - 1)%nat in
    let u := eval vm_compute in (String.substring 0 n s) in
    let c := eval vm_compute in (String.get n s) in
    match c with Some ?c => exists u, c; split; reflexivity end
  end.
Lemma tidy_core pr t o : tidy_texts pr t -> tidy (op_core pr t o).
Proof.
  intros H. unfold op_core. destruct o; cbn [op_text]; try change ("" ++ ?x) with x;
    try (split; [literal_dry|]; split; [eexists; eexists; split; reflexivity|literal_end]);
    try (apply tidy_app; [literal_dry|eexists; eexists; split; reflexivity|]);
    try apply tidy_dec; try apply tidy_register, H; try apply (td_die _ _ H); try apply (td_op _ _ H).
  - rewrite app_assoc_s. apply tidy_join; [apply tidy_dec|]. apply tidy_join; [apply tidy_dec|apply tidy_bool].
  - rewrite <- app_assoc_s. change (" " ++ fmt_dec base_type) with (" " ++ fmt_dec base_type). rewrite app_assoc_s.
    apply tidy_join; [apply tidy_register, H|]. apply tidy_join; apply tidy_dec.
Qed.
Lemma op_indented pr t n o : tidy_texts pr t -> indented (op_text pr (register_text pr t) true (spaces n) o) (op_core pr t o).
Proof.
  intros H. split; [apply tidy_core, H|]. destruct o; try (exists n; reflexivity). exists O. reflexivity.
Qed.

Lemma expression_text_lines p t n x s : tidy_texts (p1 p) t ->
  expression_text p (register_text (p1 p) t) (spaces n) x = Some s ->
  expression_lines s = map (op_core (p1 p) t) (ex_ops x).
Proof.
  intros H. unfold expression_text. destruct (ex_end x); [discriminate|]. intros E. apply some_inj in E. subst s.
  apply indented_lines. induction (ex_ops x) as [|o l IH]; cbn [map]; constructor; [apply op_indented, H|exact IH].
Qed.
Lemma core_shown pr t o : renamed o = false -> dwarf_op o (first_word_of (op_core pr t o)).
Proof.
  intros H. destruct (op_line_shown pr t true o H) as (u & E & Hd).
  assert (Ho : op_line pr t true o = "                  " ++ op_core pr t o) by (destruct o; try discriminate H; reflexivity).
  rewrite Ho, after_app in E. apply some_inj in E. rewrite E. exact Hd.
Qed.
Lemma expression_shown_text p t n x s : tidy_texts (p1 p) t ->
  expression_text p (register_text (p1 p) t) (spaces n) x = Some s -> expression_shown (p1 p) t x s.
Proof.
  intros H E. unfold expression_shown. rewrite (expression_text_lines p t n x s H E). apply forall2_map. intros o _. split; [apply core_shown|apply op_operands_text].
Qed.

Lemma core_injective pr t o o' : clear_texts pr t -> plain_texts pr t -> tidy_texts pr t ->
  (forall d d', pr_die pr d = pr_die pr d' -> d = d') -> op_core pr t o = op_core pr t o' -> same_operation pr o o'.
Proof.
  intros Hc Hp Ht Hd. apply (op_text_injective_gen pr t true); try assumption.
  intros c s E. pose proof (td_op_name _ _ Ht (OpOther c)) as H. rewrite E in H. change ("" ++ ?x) with x in H.
  rewrite after_app in H. discriminate H.
Qed.
Lemma forall2_of_map {A B} (R : A -> A -> Prop) (g : A -> B) : (forall x y, g x = g y -> R x y) ->
  forall l l', map g l = map g l' -> Forall2 R l l'.
Proof.
  intros H. induction l as [|x l IH]; intros [|y l'] E; try discriminate E; constructor.
  - apply H. cbn [map] in E. congruence.
  - apply IH. cbn [map] in E. congruence.
Qed.
Theorem expressions_apart p t n x y s : clear_texts (p1 p) t -> plain_texts (p1 p) t -> tidy_texts (p1 p) t ->
  (forall d d', pr_die (p1 p) d = pr_die (p1 p) d' -> d = d') ->
  expression_text p (register_text (p1 p) t) (spaces n) x = Some s ->
  expression_text p (register_text (p1 p) t) (spaces n) y = Some s ->
  Forall2 (same_operation (p1 p)) (ex_ops x) (ex_ops y).
Proof.
  intros Hc Hp Ht Hd Hx Hy. apply (forall2_of_map _ (op_core (p1 p) t)).
  - intros o o'. apply core_injective; assumption.
  - rewrite <- (expression_text_lines p t n x s Ht Hx). apply (expression_text_lines p t n y s Ht Hy).
Qed.

(** ** Which rows are reported *)

Lemma base_cases reg base : (if (reg =? 6)%Z then Some Fp else if (reg =? 7)%Z then Some Sp else None) = Some base <->
  reg = reg_base Amd64 base.
Proof.
  destruct (Z.eqb_spec reg 6) as [->|H6]; [|destruct (Z.eqb_spec reg 7) as [->|H7]]; destruct base; cbn; split; intros H;
    try reflexivity; try discriminate H; congruence.
Qed.
Lemma verdict_good p m r base o : snd (row_verdict p m r) = inr (base, o) ->
  exists ra, ro_ra o = Some ra /\ v1_representable r base (ro_cfa o) ra (ro_fp o).
Proof.
  unfold row_verdict, v1_representable. change (reg_ra Amd64) with 16. change (reg_fp Amd64) with 6.
  destruct (dr_cfa r) as [reg c|x]; [|discriminate].
  destruct (if (reg =? 6)%Z then Some Fp else if (reg =? 7)%Z then Some Sp else None) as [b|] eqn:Eb; [|discriminate].
  apply base_cases in Eb. subst reg. destruct (in_i32b c) eqn:Ec; [|discriminate]. apply in_i32b_spec in Ec.
  assert (Hra : forall fp, ra_verdict p m r b c fp = inr (base, o) ->
    exists ra, dr_register r 16 = ROffset ra /\ in_i32 ra /\ b = base /\ o = {| ro_cfa := c; ro_ra := Some ra; ro_fp := fp |}).
  { intros fp. unfold ra_verdict. destruct (dr_register r 16) as [| |a| | | | | |]; try discriminate.
    destruct (in_i32b a) eqn:Ea; [|discriminate]. intros E. exists a. split; [reflexivity|]. split; [apply in_i32b_spec, Ea|].
    split; congruence. }
  destruct (dr_register r 6) as [| |f| | | | | |] eqn:Ef; cbn [snd]; try (destruct (in_i32b f) eqn:Eif; [|discriminate]); intros E; apply Hra in E;
    destruct E as (ra & H1 & H2 & -> & ->); exists ra; cbn [ro_ra ro_cfa ro_fp];
    (split; [reflexivity|]); (split; [reflexivity|]); (split; [exact Ec|]); (split; [exact H1|]); (split; [exact H2|]);
    try (intros; discriminate). split; [reflexivity|]. apply in_i32b_spec, Eif.
Qed.
Lemma verdict_bad p m r chain : snd (row_verdict p m r) = inl chain -> v1_lost r.
Proof.
  intros H base cfa ra fp (H1 & H2 & H3 & H4 & H5). change (reg_ra Amd64) with 16 in *. change (reg_fp Amd64) with 6 in *.
  apply in_i32b_spec in H2. apply in_i32b_spec in H4.
  assert (Hra : forall f, ra_verdict p m r base cfa f <> inl chain).
  { intros f. unfold ra_verdict. rewrite H3, H4. discriminate. }
  unfold row_verdict in H. rewrite H1 in H.
  replace (if (reg_base Amd64 base =? 6)%Z then Some Fp else if (reg_base Amd64 base =? 7)%Z then Some Sp else None) with (Some base) in H
    by (destruct base; reflexivity). rewrite H2 in H.
  destruct fp as [f|].
  - destruct H5 as [E Hf]. apply in_i32b_spec in Hf. rewrite E, Hf in H. exact (Hra _ H).
  - destruct (dr_register r 6) as [| |f| | | | | |] eqn:Ef; cbn [snd] in H; try exact (Hra _ H). exact (H5 f eq_refl).
Qed.
Lemma lost_verdict p m r : v1_lost r <-> exists chain, snd (row_verdict p m r) = inl chain.
Proof.
  split; [|intros [chain H]; apply (verdict_bad p m r chain H)]. intros H.
  destruct (snd (row_verdict p m r)) as [chain|[base o]] eqn:E; [exists chain; reflexivity|].
  destruct (verdict_good p m r base o E) as (ra & _ & Hr). destruct (H _ _ _ _ Hr).
Qed.

(** ** What the reports say *)

Lemma v1_rule_shown_text p m rule s : tidy_texts (p1 p) (rule_table m) -> rule_typed rule ->
  v1_rule_text p m rule = Some s -> v1_rule_shown p (rule_table m) rule s.
Proof.
  intros Ht Hr. destruct rule; cbn [v1_rule_text]; intros E; try (apply some_inj in E; subst s); cbn [v1_rule_shown rule_shown]; try reflexivity.
  - exists (fmt_plus o ++ ")"), (fmt_plus o). split; [apply after_app|]. split; [apply drop_end_app|apply integer_plus].
  - exists (fmt_plus o). split; [apply after_app|apply integer_plus].
  - apply register_shown_text. cbn [rule_typed] in Hr. lia.
  - apply (expression_shown_text p (rule_table m) 8 x s Ht E).
  - apply integer_dec.
Qed.
Lemma read_v1_register n : read_v1_reason ("unsupported CFA source register " ++ n) = Some (V1Register n).
Proof. unfold read_v1_reason. rewrite after_app. reflexivity. Qed.
Lemma read_v1_expression s :
  read_v1_reason ("DWARF FDE unwind table row requires evaluating a DWARF expression: " ++ s) = Some V1Expression.
Proof.
  unfold read_v1_reason. replace (after "unsupported CFA source register " _) with (@None string) by reflexivity.
  rewrite after_app. reflexivity.
Qed.
Lemma read_v1_cfa o :
  read_v1_reason ("DWARF FDE register recovery offset " ++ fmt_hex 64 o ++ " was outside the bounds of an i32") = Some (V1CfaOffset (as_u 64 o)).
Proof.
  unfold read_v1_reason. replace (after "unsupported CFA source register " _) with (@None string) by reflexivity.
  replace (after "DWARF FDE unwind table row requires evaluating a DWARF expression: " _) with (@None string) by reflexivity.
  rewrite after_app. change (" was outside the bounds of an i32") with (String " " "was outside the bounds of an i32").
  rewrite upto_app by (apply space_plain, hex_plain). rewrite String.eqb_refl, number_hex by lia. reflexivity.
Qed.
Lemma read_v1_offset o rest :
  read_v1_reason ("DWARF register offset " ++ fmt_dec o ++ " was outside the bounds of an" ++ rest) = Some (V1Offset o).
Proof.
  unfold read_v1_reason. replace (after "unsupported CFA source register " _) with (@None string) by reflexivity.
  replace (after "DWARF FDE unwind table row requires evaluating a DWARF expression: " _) with (@None string) by reflexivity.
  replace (after "DWARF FDE register recovery offset " _) with (@None string) by reflexivity.
  rewrite after_app. change (" was outside the bounds of an" ++ rest) with (String " " ("was outside the bounds of an" ++ rest)).
  rewrite upto_app by (apply space_plain, dec_plain). rewrite after_app, integer_dec. reflexivity.
Qed.
Lemma read_v1_ra s : read_v1_reason ("Unsupported recovery rule for RA: " ++ s) = Some (V1RaRule s).
Proof.
  unfold read_v1_reason. replace (after "unsupported CFA source register " _) with (@None string) by reflexivity.
  replace (after "DWARF FDE unwind table row requires evaluating a DWARF expression: " _) with (@None string) by reflexivity.
  replace (after "DWARF FDE register recovery offset " _) with (@None string) by reflexivity.
  replace (after "DWARF register offset " _) with (@None string) by reflexivity.
  rewrite after_app. reflexivity.
Qed.

Lemma verdict_reason p m r chain : row_payload_typed r -> row_printable r = true -> tidy_texts (p1 p) (rule_table m) ->
  snd (row_verdict p m r) = inl chain ->
  exists h causes why, chain = h :: causes /\ read_v1_reason h = Some why /\ v1_reason_holds p m r why.
Proof.
  intros [Hc Hr] Hp Ht. unfold row_verdict. destruct (dr_cfa r) as [reg c|x] eqn:Ec.
  2:{ cbn [snd]. intros [= <-]. eexists. eexists. exists V1Expression. split; [reflexivity|]. split; [apply read_v1_expression|].
      exists x. exact Ec. }
  destruct (if (reg =? 6)%Z then Some Fp else if (reg =? 7)%Z then Some Sp else None) as [b|] eqn:Eb.
  2:{ cbn [snd]. intros H. assert (chain = ["unsupported CFA source register " ++ v1_register p reg]) as -> by congruence.
      eexists. eexists. exists (V1Register (v1_register p reg)). split; [reflexivity|]. split; [apply read_v1_register|].
      exists reg, c. split; [exact Ec|]. cbn [reg_sp reg_fp]. split; [|split].
      - intros ->. discriminate Eb.
      - intros ->. discriminate Eb.
      - apply register_shown_text. lia. }
  apply base_cases in Eb. subst reg. destruct (in_i32b c) eqn:Eic.
  2:{ cbn [snd]. intros H. eexists. eexists. exists (V1CfaOffset (as_u 64 c)). split; [symmetry; exact (f_equal (fun y => match y with inl l => l | inr _ => [] end) H)|].
      split; [apply read_v1_cfa|]. exists (reg_base Amd64 b). rewrite signed64_as_u by apply Hc. split; [exact Ec|apply not_in_i32, Eic]. }
  assert (Hra : forall fp, ra_verdict p m r b c fp = inl chain ->
    exists h causes why, chain = h :: causes /\ read_v1_reason h = Some why /\ v1_reason_holds p m r why).
  { intros fp. unfold ra_verdict. pose proof (rule_printed p m r 16 Hp) as Hpr. specialize (Hr 16).
    pose proof (v1_rule_shown_text p m (dr_register r 16) _ Ht Hr Hpr) as Hs.
    assert (Hn : (forall o, dr_register r 16 <> ROffset o) ->
      inl ["Unsupported recovery rule for RA: " ++ text_of (v1_rule_text p m (dr_register r 16))] = @inl _ (base_reg * row_offsets) chain ->
      exists h causes why, chain = h :: causes /\ read_v1_reason h = Some why /\ v1_reason_holds p m r why).
    { intros Hno H. eexists. eexists. exists (V1RaRule (text_of (v1_rule_text p m (dr_register r 16)))).
      split; [symmetry; exact (f_equal (fun y => match y with inl l => l | inr _ => [] end) H)|].
      split; [apply read_v1_ra|]. split; [exact Hno|exact Hs]. }
    destruct (dr_register r 16) as [| |a| | | | | |] eqn:E16; try (apply Hn; discriminate).
    destruct (in_i32b a) eqn:Ea; [discriminate|]. intros H. eexists. eexists. exists (V1Offset a).
    split; [symmetry; exact (f_equal (fun y => match y with inl l => l | inr _ => [] end) H)|].
    split; [apply (read_v1_offset a " i32")|]. split; [apply not_in_i32, Ea|right; exact E16]. }
  destruct (dr_register r 6) as [| |f| | | | | |] eqn:E6; cbn [snd]; try apply Hra.
  destruct (in_i32b f) eqn:Ef; [apply Hra|]. cbn [snd]. intros H. eexists. eexists. exists (V1Offset f).
  split; [symmetry; exact (f_equal (fun y => match y with inl l => l | inr _ => [] end) H)|].
  split; [apply read_v1_offset|]. split; [apply not_in_i32, Ef|left; exact E6].
Qed.
Lemma verdict_note p m r : row_payload_typed r -> row_printable r = true -> tidy_texts (p1 p) (rule_table m) ->
  fp_note p m r (stderr_of (fst (row_verdict p m r))).
Proof.
  intros [Hc Hr] Hp Ht. unfold fp_note, v1_fp_odd, v1_cfa_fine. change (reg_fp Amd64) with 6. unfold row_verdict.
  destruct (dr_cfa r) as [reg c|x].
  2:{ split; [|reflexivity]. intros ((b & cfa & H & _) & _). discriminate H. }
  destruct (if (reg =? 6)%Z then Some Fp else if (reg =? 7)%Z then Some Sp else None) as [b|] eqn:Eb.
  2:{ split; [|reflexivity]. intros ((b & cfa & H & _) & _). assert (reg = reg_base Amd64 b) as Hb by congruence. apply base_cases in Hb. congruence. }
  apply base_cases in Eb. subst reg. destruct (in_i32b c) eqn:Eic.
  2:{ split; [|reflexivity]. intros ((b' & cfa & H & Hi) & _). assert (cfa = c) by congruence. subst. apply in_i32b_spec in Hi. congruence. }
  apply in_i32b_spec in Eic.
  pose proof (rule_printed p m r 6 Hp) as Hpr. specialize (Hr 6).
  pose proof (v1_rule_shown_text p m (dr_register r 6) _ Ht Hr Hpr) as Hs.
  assert (Hf : exists b0 cfa, CfaReg (reg_base Amd64 b) c = CfaReg (reg_base Amd64 b0) cfa /\ in_i32 cfa) by (exists b, c; auto).
  destruct (dr_register r 6) as [| |f| | | | | |] eqn:E6;
    try (split; [intros _; eexists; eexists; split; [reflexivity|]; split; [apply after_app|exact Hs]|
                 intros Hn; exfalso; apply Hn; split; [exact Hf|]; split; discriminate]).
  - split; [|reflexivity]. intros (_ & H & _). congruence.
  - destruct (in_i32b f); (split; [|reflexivity]); intros (_ & _ & H); destruct (H f eq_refl).
Qed.
Theorem row_reported p m r : row_payload_typed r -> row_printable r = true -> tidy_texts (p1 p) (rule_table m) ->
  v1_reported p m r (row_err p m r).
Proof.
  intros Hy Hp Ht. eexists. eexists. split; [reflexivity|]. split; [apply verdict_note; assumption|].
  destruct (snd (row_verdict p m r)) as [chain|v] eqn:E; split.
  - intros _. destruct (verdict_reason p m r chain Hy Hp Ht E) as (h & causes & why & -> & H1 & H2). exists h, causes, why. auto.
  - intros H. destruct H. apply (verdict_bad p m r chain E).
  - intros H. apply (lost_verdict p m r) in H. destruct H as [chain H]. congruence.
  - reflexivity.
Qed.

(** ** Reading the dump *)

Lemma digits_no c z : is_digit c = false -> c <> "-"%char -> without c (fmt_dec z).
Proof.
  intros Hc Hm. unfold fmt_dec. destruct (z <? 0)%Z; [split; [congruence|]|]; apply digit_without; try exact Hc; apply digits_chars; lia.
Qed.
Lemma read_option_text o : read_option (debug_option o) = Some o.
Proof.
  destruct o as [z|]; [|reflexivity]. unfold read_option, debug_option.
  replace (String.eqb _ "None") with false by reflexivity.
  change ("Some(" ++ fmt_dec z ++ ")") with ("Some(" ++ (fmt_dec z ++ String ")" "")). rewrite after_app, drop_end_app, integer_dec. reflexivity.
Qed.
Lemma debug_option_no c o : is_digit c = false -> In c [","%char; " "%char] -> without c (debug_option o).
Proof.
  intros Hc Hi. destruct o as [z|]; unfold debug_option.
  - apply without_app; [|apply without_app; [apply digits_no; [exact Hc|]|]];
      destruct Hi as [<-|[<-|[]]]; try discriminate; repeat (split; [discriminate|]); exact I.
  - destruct Hi as [<-|[<-|[]]]; repeat (split; [discriminate|]); exact I.
Qed.
Lemma read_offsets_text o : read_offsets (offsets_text o) = Some (ro_cfa o, ro_ra o, ro_fp o).
Proof.
  unfold read_offsets, offsets_text. rewrite after_app.
  change (", ra: " ++ ?x) with (String "," (" ra: " ++ x)).
  rewrite upto_app by (apply digits_no; [reflexivity|discriminate]). rewrite after_app.
  change (", fp: " ++ ?x) with (String "," (" fp: " ++ x)).
  rewrite upto_app by (apply debug_option_no; [reflexivity|left; reflexivity]). rewrite after_app.
  change (debug_option (ro_fp o) ++ " }") with (debug_option (ro_fp o) ++ String " " "}").
  rewrite upto_app by (apply debug_option_no; [reflexivity|right; left; reflexivity]).
  rewrite integer_dec, !read_option_text. reflexivity.
Qed.

Definition view_reg1 (p : printers1) (m : elf_arch) (q : Z * reg_rule) : string * string :=
  (v1_register p (fst q), text_of (v1_rule_text p m (snd q))).
Definition view_sframe (p : printers1) (m : elf_arch) (r : dw_row) : option (Z * option Z * option Z) :=
  match snd (row_verdict p m r) with inl _ => None | inr (_, o) => Some (ro_cfa o, ro_ra o, ro_fp o) end.
Definition view_row1 (p : printers1) (m : elf_arch) (r : dw_row) : row_view1 :=
  RowView1 (RowView (dr_start r) (dr_end r) (text_of (v1_cfa_text p (dr_cfa r))) (map (view_reg1 p m) (dr_regs r))) (view_sframe p m r).
Definition view_function1 (p : printers1) (m : elf_arch) (f : dw_fde) : fde_view1 :=
  FdeView1 (df_start f) (df_len f) (df_start f + df_len f) (map (view_insn (p1 p) (Some TX86_64) true) (is_list (df_insns f)))
    (option_map (pr_gimli (p1 p)) (is_end (df_insns f))) (map (view_row1 p m) (dw_rows_of f)).

Lemma read_reg_line1 p m q : plain_texts (p1 p) (Some TX86_64) -> read_reg (reg_line1 p m q) = Some (view_reg1 p m q).
Proof.
  intros Hp. unfold read_reg, reg_line1. rewrite after_app.
  change (" = " ++ ?x) with (String " " ("= " ++ x)).
  rewrite upto_app by (apply register_no; [exact Hp|left; reflexivity]). rewrite after_app. reflexivity.
Qed.
Lemma read_sframe_part p m r rows : forall rest, read_rows1 rest = Some ([], None, rows) ->
  read_rows1 (sframe_part p m r ++ rest) = Some ([], view_sframe p m r, rows).
Proof.
  intros rest H. unfold sframe_part, view_sframe. destruct (snd (row_verdict p m r)) as [c|[b o]]; [exact H|]. cbn [app read_rows1 snd].
  unfold sframe_line. replace (read_reg _) with (@None (string * string)) by reflexivity.
  rewrite after_app, read_offsets_text, H. reflexivity.
Qed.
Lemma read_regs1 p m sf rows : plain_texts (p1 p) (Some TX86_64) -> forall regs rest, read_rows1 rest = Some ([], sf, rows) ->
  read_rows1 (map (reg_line1 p m) regs ++ rest) = Some (map (view_reg1 p m) regs, sf, rows).
Proof.
  intros Hp. induction regs as [|q regs IH]; intros rest H; [exact H|]. cbn [map app read_rows1].
  rewrite (read_reg_line1 p m q Hp), (IH rest H). reflexivity.
Qed.
Lemma read_rows1_lines p m : plain_texts (p1 p) (Some TX86_64) -> forall l, Forall row_full_typed l ->
  read_rows1 (flat_map (row_out p m) l) = Some ([], None, map (view_row1 p m) l).
Proof.
  intros Hp. induction 1 as [|r l (H1 & H2 & _) Hl IH]; [reflexivity|]. cbn [flat_map map].
  unfold row_out at 1, row_lines1. cbn [app read_rows1]. replace (read_reg _) with (@None (string * string)) by reflexivity.
  replace (after "    sframe: " _) with (@None string) by reflexivity.
  rewrite read_row_head_text by assumption. rewrite after_app. rewrite <- app_assoc.
  rewrite (read_regs1 p m _ _ Hp _ _ (read_sframe_part p m r _ _ IH)). reflexivity.
Qed.
Lemma rows_nonempty1 p m l : Forall (fun s => s <> "") (flat_map (row_out p m) l).
Proof.
  induction l as [|r l IH]; [constructor|]. cbn [flat_map]. apply Forall_app. split; [|exact IH].
  unfold row_out, row_lines1. apply Forall_app. split.
  - constructor; [discriminate|]. constructor; [discriminate|].
    apply Forall_forall. intros s Hs. apply in_map_iff in Hs. destruct Hs as (q & <- & _). discriminate.
  - unfold sframe_part. destruct (snd (row_verdict p m r)); constructor; [discriminate|constructor].
Qed.
Lemma read_function1_lines p m f rest : plain_texts (p1 p) (Some TX86_64) -> function_full_typed f -> df_start f + df_len f < 2 ^ 64 ->
  read_function1 (function_lines1 p m f ++ rest) = Some (view_function1 p m f, rest).
Proof.
  intros Hp (Hs & Hl & _ & Hr) He. unfold in_u64 in *. unfold function_lines1, head_lines.
  rewrite <- !app_assoc. cbn [app read_function1]. rewrite <- !app_assoc. cbn [app].
  replace (String.eqb "FDE:" "FDE:") with true by reflexivity. replace (String.eqb "  Instructions:" "  Instructions:") with true by reflexivity.
  cbn [andb]. unfold fmt_hex_alt_pad.
  change (" start_address: " ++ "0x" ++ ?x) with (" start_address: 0x" ++ x). rewrite after_app.
  rewrite !app_assoc_s. change ("    range_size: " ++ "0x" ++ ?x) with ("    range_size: 0x" ++ x).
  change (" (end_addr = " ++ "0x" ++ ?x) with (String " " ("(end_addr = 0x" ++ x)).
  rewrite enclosed_hex by (reflexivity || lia). change (?x ++ ")") with (x ++ String ")" "").
  rewrite enclosed_hex by (reflexivity || lia). rewrite number_zero_pad by apply hex_nonempty. rewrite number_hex by lia.
  unfold as_u. rewrite Z.mod_small by lia.
  rewrite app_assoc. rewrite (paragraph_app _ _ (insns_nonempty (p1 p) (Some TX86_64) true (is_end (df_insns f)) Hp (is_list (df_insns f)))).
  replace (String.eqb "Rows:" "Rows:") with true by reflexivity.
  rewrite (read_insns_lines (p1 p) (Some TX86_64) true _ Hp). rewrite <- ?app_assoc. cbn [app].
  rewrite (paragraph_app _ _ (rows_nonempty1 p m _)).
  rewrite (read_rows1_lines p m Hp _ Hr). reflexivity.
Qed.
Lemma read_functions1_lines p m : plain_texts (p1 p) (Some TX86_64) -> forall l n,
  Forall (fun f => function_full_typed f /\ df_start f + df_len f < 2 ^ 64) l ->
  (Datatypes.length (flat_map (function_lines1 p m) l) <= n)%nat ->
  read_functions1 n (flat_map (function_lines1 p m) l) = Some (map (view_function1 p m) l).
Proof.
  intros Hp. induction l as [|f l IH]; intros n H Hn; [destruct n; reflexivity|].
  pose proof (Forall_inv H) as [Hf He]. apply Forall_inv_tail in H. cbn [flat_map map] in *. rewrite app_length in Hn.
  assert (Hl : (0 < Datatypes.length (function_lines1 p m f))%nat) by (cbn; lia).
  destruct n as [|n]; [lia|]. cbn [read_functions1].
  assert (Hx : exists s t, (function_lines1 p m f ++ flat_map (function_lines1 p m) l)%list = s :: t).
  { destruct (function_lines1 p m f) as [|s t]; [cbn in Hl; lia|]. eexists. eexists. reflexivity. }
  pose proof (read_function1_lines p m f (flat_map (function_lines1 p m) l) Hp Hf He) as Hr.
  destruct Hx as (s & t & Hx). rewrite Hx in *. rewrite Hr.
  rewrite (IH n H ltac:(lia)). reflexivity.
Qed.

(** ** What the views say *)

Lemma integer_sign o : integer ((if (0 <=? o)%Z then "+" else "-") ++ fmt_dec (Z.abs o)) = Some o.
Proof.
  destruct (Z.leb_spec 0 o) as [H|H]; cbn [append integer].
  - rewrite number_dec by lia. rewrite Z.abs_eq by lia. reflexivity.
  - rewrite number_dec by lia. cbn [option_map]. f_equal. lia.
Qed.
Lemma row_view_shown1 p m r : row_full_typed r -> row_printable r = true ->
  tidy_texts (p1 p) (Some TX86_64) -> tidy_texts (p1 p) (rule_table m) -> row_shown1 p m r (view_row1 p m r).
Proof.
  intros (_ & _ & Hc & Hr) Hp Ht Ht'. unfold row_shown1, view_row1. cbn [rw_row rw_sframe rv_start rv_end rv_cfa rv_regs].
  unfold row_printable in Hp. apply andb_true_iff in Hp. destruct Hp as [Hp1 Hp2].
  split; [reflexivity|]. split; [reflexivity|]. split; [|split].
  - destruct (dr_cfa r) as [reg o|x]; cbn [v1_cfa_shown cfa_shown v1_cfa_text text_of].
    + exists (v1_register p reg), ((if (0 <=? o)%Z then "+" else "-") ++ fmt_dec (Z.abs o)).
      split; [reflexivity|]. split; [apply register_shown_text; lia|apply integer_sign].
    + apply (expression_shown_text p (Some TX86_64) 12 x); [exact Ht|].
      exact (expression_printed p (v1_register p) "            " x Hp1).
  - clear Hc Hp1. induction Hr as [|q l (H1 & H2) Hl IH]; [constructor|]. cbn [map forallb] in *. apply andb_true_iff in Hp2.
    destruct Hp2 as [Hq Hp2]. constructor; [|apply IH, Hp2]. cbn [view_reg1 fst snd]. split; [apply register_shown_text; lia|].
    apply v1_rule_shown_text; [exact Ht'|exact H2|]. destruct (snd q); try reflexivity. cbn [v1_rule_text]. apply expression_printed, Hq.
  - unfold view_sframe. destruct (snd (row_verdict p m r)) as [chain|[b o]] eqn:E.
    + apply (verdict_bad p m r chain E).
    + destruct (verdict_good p m r b o E) as (ra & -> & H). exists b. exact H.
Qed.
Lemma function_view_shown1 p m f : function_full_typed f -> Forall (fun r => row_printable r = true) (dw_rows_of f) ->
  plain_texts (p1 p) (Some TX86_64) -> tidy_texts (p1 p) (Some TX86_64) -> tidy_texts (p1 p) (rule_table m) ->
  function_shown1 p m f (view_function1 p m f).
Proof.
  intros (_ & _ & Hi & Hr) Hpr Hp Ht Ht'. rewrite Forall_forall in Hi, Hr, Hpr. unfold function_shown1, view_function1.
  cbn [fw_start fw_len fw_end fw_insns fw_broken fw_rows]. do 3 (split; [reflexivity|]). split; [|split; [reflexivity|]].
  - apply forall2_map. intros i H. apply insn_view_spelled; [exact Hp|apply Hi, H].
  - apply forall2_map. intros r H. apply row_view_shown1; auto.
Qed.

(** ** The sections *)

Definition looked_up : list (string * string) :=
  [(".eh_frame_hdr", ".eh_frame_hdr: "); (".eh_frame", ".eh_frame:     "); (".text", ".text:         "); (".got", ".got:          ")].
Definition found_in (l : list (string * Z)) (q : string * string) : list (string * Z) :=
  match section_by_name (fst q) l with Some a => [(fst q, a)] | None => [] end.

Lemma section_label name label a : In (name, label) looked_up -> in_u64 a ->
  read_section_line (label ++ fmt_hex_alt_pad 64 10 a) = Some (name, a).
Proof.
  intros H Ha. assert (Hx : after "0x" (fmt_hex_alt_pad 64 10 a) = Some (zero_pad 8 (fmt_hex 64 a))) by apply after_app.
  assert (Hn : number 16 (zero_pad 8 (fmt_hex 64 a)) = Some a).
  { rewrite number_zero_pad by apply hex_nonempty. rewrite number_hex by lia. unfold in_u64 in Ha. unfold as_u. rewrite Z.mod_small by lia. reflexivity. }
  assert (Hu : unindent (fmt_hex_alt_pad 64 10 a) = fmt_hex_alt_pad 64 10 a) by reflexivity.
  unfold read_section_line.
  destruct H as [[= <- <-]|[[= <- <-]|[[= <- <-]|[[= <- <-]|[]]]]]; cbn [append upto]; cbv beta iota zeta;
    repeat match goal with |- context [Ascii.eqb ?x ?y] => let v := eval vm_compute in (Ascii.eqb x y) in change (Ascii.eqb x y) with v; cbv iota end;
    cbn [unindent]; repeat match goal with |- context [Ascii.eqb ?x ?y] => let v := eval vm_compute in (Ascii.eqb x y) in change (Ascii.eqb x y) with v; cbv iota end;
    rewrite ?Hu, ?Hx, Hn; reflexivity.
Qed.
Lemma section_line_read l name label : Forall (fun s => in_u64 (snd s)) l -> In (name, label) looked_up ->
  map read_section_line (stdout_of (section_line l name label)) = map Some (found_in l (name, label)).
Proof.
  intros Hl Hi. unfold section_line, found_in. cbn [fst]. destruct (section_by_name name l) as [a|] eqn:E; [|reflexivity].
  cbn [stdout_of flat_map app map]. rewrite (section_label name label a Hi); [reflexivity|].
  apply section_found in E. destruct E as (pre & post & -> & _). rewrite Forall_app in Hl.
  destruct Hl as [_ Hl]. apply (Forall_inv Hl).
Qed.
Theorem sections_print_shown l : Forall (fun s => in_u64 (snd s)) l -> sections_shown l (stdout_of (sections_print l)).
Proof.
  intros Hl. exists (flat_map (found_in l) looked_up). split; [|split].
  - unfold sections_print. rewrite !stdout_app, !map_app. rewrite !section_line_read by (try exact Hl; cbn; tauto).
    cbn [looked_up flat_map]. rewrite !map_app. cbn [map]. rewrite app_nil_r. reflexivity.
  - intros name a. rewrite in_flat_map. split.
    + intros ([n label] & Hi & H). unfold found_in in H. cbn [fst] in H. destruct (section_by_name n l) as [b|] eqn:E; [|destruct H].
      destruct H as [H|[]]. assert (n = name) as -> by congruence. assert (b = a) as -> by congruence. split; [|apply section_found, E].
      apply (in_map fst) in Hi. exact Hi.
    + intros [Hi Hs]. change [".eh_frame_hdr"; ".eh_frame"; ".text"; ".got"] with (map fst looked_up) in Hi. apply in_map_iff in Hi.
      destruct Hi as (q & <- & Hi). exists q. split; [exact Hi|]. unfold found_in. apply section_found in Hs. rewrite Hs. left. reflexivity.
  - cbn [looked_up flat_map]. rewrite !map_app. unfold found_in. cbn [fst].
    destruct (section_by_name ".eh_frame_hdr" l), (section_by_name ".eh_frame" l), (section_by_name ".text" l), (section_by_name ".got" l);
      cbn [map fst app]; repeat constructor; cbn; intuition discriminate.
Qed.
Lemma sections_stderr l : stderr_of (sections_print l) = [].
Proof.
  unfold sections_print, section_line. rewrite !stderr_app.
  destruct (section_by_name ".eh_frame_hdr" l), (section_by_name ".eh_frame" l), (section_by_name ".text" l), (section_by_name ".got" l); reflexivity.
Qed.

(** ** The tool *)

(** What the file describes, as the tool has it parsed. *)
Definition v1_entries_of (md : mode) (file : elf_file) : list dw_entry :=
  match elf_eh_frame file with
  | Some parse => ents_list (parse (tool_setup md (elf_sections file)))
  | None => []
  end.

Theorem v1_reports p md native file ev o :
  tidy_texts (p1 p) (rule_table (elf_architecture file)) ->
  Forall row_payload_typed (all_rows (v1_entries_of md file)) ->
  v1_main_loud p md native (Some file) = (ev, o) ->
  exists pre post notes rest, all_rows (v1_entries_of md file) = (pre ++ post)%list /\
    stderr_of ev = (concat notes ++ rest)%list /\ Forall2 (v1_reported p (elf_architecture file)) pre notes /\
    (Datatypes.length rest <= 2)%nat /\ (finished o -> post = [] /\ rest = []).
Proof.
  intros Ht Hy H. unfold v1_entries_of in *.
  destruct (main_prints p md native file ev o H) as [->|(parse & cv & co & E & Hc & -> & Hf)].
  - exists [], (all_rows match elf_eh_frame file with Some parse => ents_list (parse (tool_setup md (elf_sections file))) | None => [] end), [], [].
    split; [reflexivity|]. split; [reflexivity|]. split; [constructor|]. split; [cbn; lia|]. intros [x ->].
    exfalso. unfold v1_main_loud in H. destruct (section_by_name ".eh_frame" (elf_sections file)) as [a|] eqn:Ea; [|discriminate H].
    destruct (elf_eh_frame file) as [parse|]; [|discriminate H]. rewrite lbind_say in H. apply (f_equal fst) in H. cbn [fst] in H.
    apply app_eq_nil in H. destruct H as [H _]. unfold sections_print, section_line in H. rewrite Ea in H.
    destruct (section_by_name ".eh_frame_hdr" (elf_sections file)); discriminate H.
  - rewrite E in *. pose proof (convert_prints p (elf_architecture file) md (parse (tool_setup md (elf_sections file)))) as Hr.
    rewrite Hc in Hr. cbn [fst snd] in Hr. destruct Hr as [_ (pre & post & err & H1 & H2 & H3 & H4 & H5)].
    exists pre, post, (map (row_err p (elf_architecture file)) pre), err. split; [exact H1|].
    split; [rewrite stderr_app, sections_stderr, H2, flat_map_concat_map; reflexivity|].
    split; [|split; [exact H3|intros Ho; apply H5, Hf, Ho]].
    rewrite H1 in Hy. apply Forall_app in Hy. destruct Hy as [Hy _]. rewrite Forall_forall in Hy, H4.
    apply forall2_map. intros r Hr. apply row_reported; auto.
Qed.

Theorem v1_dump_shown p md native file ev o :
  plain_texts (p1 p) (Some TX86_64) -> tidy_texts (p1 p) (Some TX86_64) -> tidy_texts (p1 p) (rule_table (elf_architecture file)) ->
  Forall (fun s => in_u64 (snd s)) (elf_sections file) ->
  Forall function_full_typed (functions (v1_entries_of md file)) ->
  v1_main_loud p md native (Some file) = (ev, o) ->
  stdout_of ev = [] /\ ~ finished o \/
  exists sections pre post whole rest views,
    functions (v1_entries_of md file) = (pre ++ post)%list /\ stdout_of ev = (sections ++ whole ++ rest)%list /\
    sections_shown (elf_sections file) sections /\
    read_dump1 whole = Some views /\ Forall2 (function_shown1 p (elf_architecture file)) pre views /\
    (finished o -> post = [] /\ rest = []).
Proof.
  intros Hp Ht Ht' Hs Hy H. unfold v1_entries_of in *.
  destruct (main_prints p md native file ev o H) as [->|(parse & cv & co & E & Hc & -> & Hf)].
  - left. split; [reflexivity|]. intros [x ->].
    unfold v1_main_loud in H. destruct (section_by_name ".eh_frame" (elf_sections file)) as [a|] eqn:Ea; [|discriminate H].
    destruct (elf_eh_frame file) as [parse|]; [|discriminate H]. rewrite lbind_say in H. apply (f_equal fst) in H. cbn [fst] in H.
    apply app_eq_nil in H. destruct H as [H _]. unfold sections_print, section_line in H. rewrite Ea in H.
    destruct (section_by_name ".eh_frame_hdr" (elf_sections file)); discriminate H.
  - right. rewrite E in *. pose proof (convert_prints p (elf_architecture file) md (parse (tool_setup md (elf_sections file)))) as Hr.
    rewrite Hc in Hr. cbn [fst snd] in Hr. destruct Hr as [(pre & post & out & H1 & H2 & H3 & H4) _].
    exists (stdout_of (sections_print (elf_sections file))), pre, post, (flat_map (function_lines1 p (elf_architecture file)) pre), out,
      (map (view_function1 p (elf_architecture file)) pre).
    rewrite H1 in Hy. apply Forall_app in Hy. destruct Hy as [Hy _].
    split; [exact H1|]. split; [rewrite stdout_app, H2; reflexivity|]. split; [apply sections_print_shown, Hs|].
    split; [|split; [|intros Ho; apply H4, Hf, Ho]].
    + apply read_functions1_lines; [exact Hp| |lia]. clear -Hy H3.
      induction Hy as [|f l H Hl IH]; [constructor|]. pose proof (Forall_inv H3) as (Ha & Hb & _).
      constructor; [|apply IH, (Forall_inv_tail H3)]. split; [exact H|]. unfold i32_max in *. lia.
    + rewrite Forall_forall in Hy, H3. apply forall2_map. intros f Hi. destruct (H3 f Hi) as (_ & _ & Hpr).
      apply function_view_shown1; auto.
Qed.

(** ** Crashes *)

Lemma crash_problem md ents : v1_problem md row_printable ents Panic <-> v1_crash md ents.
Proof.
  split.
  - intros H. remember Panic as o eqn:Eo in H. destruct H as [pre x post o H1 H2 H3|g H1 H2]; [|discriminate Eo].
    destruct H3 as [g|f o H3]; [discriminate Eo|].
    destruct H3 as [?|? ?|g ? ? ?|rs g ? ? ? ?|l r l' en o K1 K2 K3 K4 K5 K6|l g ? ? ? ? ?]; try discriminate Eo.
    exists pre, f, post, l, r, l', en. do 7 (split; [assumption|]). subst o. clear - K6.
    remember Panic as o eqn:Eo in K6. destruct K6; try discriminate Eo; [left|right]; auto.
  - intros (pre & f & post & l & r & l' & en & H1 & H2 & H3 & H4 & H5 & H6 & H7 & H8).
    eapply v1s_entry; [exact H1|exact H2|]. apply v1e_fde. eapply v1f_row; try eassumption.
    destruct H8 as [[Ha Hb]|[Ha Hb]]; [apply v1p_before_checked|apply v1p_print]; assumption.
Qed.
Theorem v1_crashes p md native file : file_typed file ->
  (snd (v1_main_loud p md native (Some file)) = Panic <->
   (exists addr, has_section (elf_sections file) ".eh_frame" addr) /\
   exists parse, elf_eh_frame file = Some parse /\ v1_crash md (parse (tool_setup md (elf_sections file)))).
Proof.
  intros Ht. rewrite v1_main_result. unfold v1_main.
  destruct (section_by_name ".eh_frame" (elf_sections file)) as [a|] eqn:Ea.
  2:{ split; [discriminate|]. intros [[addr H] _]. apply section_found in H. congruence. }
  apply section_found in Ea. destruct (elf_eh_frame file) as [parse|] eqn:Ep.
  2:{ split; [discriminate|]. intros [_ (parse & H & _)]. discriminate H. }
  pose proof (Ht parse (tool_setup md (elf_sections file)) Ep) as Hy. set (ents := parse (tool_setup md (elf_sections file))) in *.
  assert (Hx : v1_convert md row_printable ents = Panic <-> v1_crash md ents).
  { rewrite <- crash_problem. pose proof (v1_exact md row_printable ents Panic Hy) as H. split.
    - intros E. rewrite E in H. destruct H as [H _]. destruct (H eq_refl) as [[H1 _]|H1]; [discriminate H1|exact H1].
    - intros E. destruct H as [_ H]. specialize (H (or_intror E)). destruct (v1_convert md row_printable ents); try discriminate H. reflexivity. }
  split.
  - intros H. split; [exists a; exact Ea|]. exists parse. split; [reflexivity|]. apply Hx.
    destruct (v1_convert md row_printable ents) as [s|er|] eqn:Ec; [|discriminate H|reflexivity]. cbn [bind] in H.
    exfalso. destruct (build md native s) as [bs|er|] eqn:Eb; cbn [map_err bind] in H; try discriminate H.
    pose proof (v1_sized md md row_printable ents s Hy Ec) as Hz. apply sfb_sized_reach in Hz. destruct Hz as [Hz _].
    eapply (build_no_panic_nonneg md native s Hz); [|exact Eb]. intros b Hb.
    destruct (v1_rows_exact md row_printable ents s b Hy Ec Hb) as (f & (pre & post & Hf & _) & Hs & _). rewrite Hs.
    assert (Hi : In f (functions (ents_list ents))) by (rewrite Hf; apply in_or_app; right; left; reflexivity).
    apply (functions_typed _ _ Hy) in Hi. apply Hi.
  - intros [_ (parse' & E & Hc)]. apply some_inj in E. subst parse'. apply Hx in Hc. rewrite Hc. reflexivity.
Qed.
Theorem v1_no_crash p md native file : file_typed file ->
  Forall (fun r => row_printable r = true) (all_rows (v1_entries_of md file)) ->
  (overflow_checks md = false \/
   forall f r, In f (functions (v1_entries_of md file)) -> In r (dw_rows_of f) -> df_start f <= dr_start r) ->
  snd (v1_main_loud p md native (Some file)) <> Panic.
Proof.
  intros Ht Hp Hb H. apply (v1_crashes p md native file Ht) in H.
  destruct H as (_ & parse & E & pre & f & post & l & r & l' & en & H1 & _ & _ & _ & _ & H6 & _ & H8).
  unfold v1_entries_of in *. rewrite E in *.
  assert (Hi : In f (functions (ents_list (parse (tool_setup md (elf_sections file)))))).
  { rewrite H1. clear. induction pre as [|x pre IH]; [left; reflexivity|]. destruct x; cbn [app functions]; try exact IH. right. exact IH. }
  assert (Hr : In r (dw_rows_of f)).
  { unfold dw_rows_of. rewrite H6. cbn [rows_list]. apply in_or_app. right. left. reflexivity. }
  destruct H8 as [[Ho Hc]|[_ Hn]].
  - destruct Hb as [Hb|Hb]; [congruence|]. specialize (Hb f r Hi Hr). unfold off in Ho. lia.
  - rewrite Forall_forall in Hp. specialize (Hp r). rewrite Hp in Hn; [discriminate Hn|]. unfold all_rows. apply in_flat_map.
    exists f. auto.
Qed.

(** ** Two dumps that look the same *)

Lemma v1_finished_dump p md native file ev o : v1_main_loud p md native (Some file) = (ev, o) -> finished o ->
  stdout_of ev = (stdout_of (sections_print (elf_sections file)) ++
                  flat_map (function_lines1 p (elf_architecture file)) (functions (v1_entries_of md file)))%list /\
  Forall (fun f => df_start f <= i32_max /\ df_len f <= i32_max /\ Forall (fun r => row_printable r = true) (dw_rows_of f))
    (functions (v1_entries_of md file)).
Proof.
  intros H Ho. unfold v1_entries_of. destruct (main_prints p md native file ev o H) as [->|(parse & cv & co & E & Hc & -> & Hf)].
  - exfalso. destruct Ho as [x ->]. unfold v1_main_loud in H.
    destruct (section_by_name ".eh_frame" (elf_sections file)) as [a|] eqn:Ea; [|discriminate H].
    destruct (elf_eh_frame file) as [parse|]; [|discriminate H]. rewrite lbind_say in H. apply (f_equal fst) in H. cbn [fst] in H.
    apply app_eq_nil in H. destruct H as [H _]. unfold sections_print, section_line in H. rewrite Ea in H.
    destruct (section_by_name ".eh_frame_hdr" (elf_sections file)); discriminate H.
  - rewrite E. pose proof (convert_prints p (elf_architecture file) md (parse (tool_setup md (elf_sections file)))) as Hr.
    rewrite Hc in Hr. cbn [fst snd] in Hr. destruct Hr as [(pre & post & out & H1 & H2 & H3 & H4) _].
    destruct (H4 (Hf Ho)) as [-> ->]. rewrite app_nil_r in *. rewrite H1, stdout_app, H2. split; [reflexivity|exact H3].
Qed.

Lemma map_forall2 {A B} (g : A -> B) l l' : map g l = map g l' -> Forall2 (fun x y => g x = g y) l l'.
Proof. apply forall2_of_map. auto. Qed.
Lemma forall2_also {A} (P : A -> Prop) (R S : A -> A -> Prop) l l' : (forall x y, P x -> P y -> R x y -> S x y) ->
  Forall P l -> Forall P l' -> Forall2 R l l' -> Forall2 S l l'.
Proof.
  intros HS Hl Hl' H. induction H as [|x y l l' H Hll IH]; constructor.
  - apply HS; [exact (Forall_inv Hl)|exact (Forall_inv Hl')|exact H].
  - apply IH; [exact (Forall_inv_tail Hl)|exact (Forall_inv_tail Hl')].
Qed.

Lemma insn_apart pr t i i' : clear_texts pr t -> plain_texts pr t -> tidy_texts pr t ->
  (forall d d', pr_die pr d = pr_die pr d' -> d = d') ->
  view_insn pr t true i = view_insn pr t true i' -> insn_alike pr i i'.
Proof.
  intros Hc Hp Ht Hd H x y Hx Hy. apply (f_equal iv_below) in H. unfold view_insn, insn_lines in H. cbn [iv_below tl] in H.
  assert (E : insn_expression i = block_of i) by (destruct i; reflexivity).
  assert (E' : insn_expression i' = block_of i') by (destruct i'; reflexivity).
  rewrite E, E', Hx, Hy in H. revert H. apply forall2_of_map. intros o o'. apply (op_text_injective_gen pr t true); try assumption.
  intros c s Eo. destruct (pt_op _ _ Hp (OpOther c)) as (a & u & Ea & Ha & _). rewrite Ea in Eo. cbn [append] in Eo.
  injection Eo as -> _. apply Ha. reflexivity.
Qed.
Lemma number_integer s n : number 10 s = Some n -> integer s <> None.
Proof.
  destruct s as [|c u]; [discriminate|]. intros H. unfold integer.
  destruct c as [[] [] [] [] [] [] [] []]; try (rewrite H; discriminate); cbn in H; discriminate H.
Qed.
Lemma register_shown_apart pr t r r' s : clear_texts pr t -> register_shown pr t r s -> register_shown pr t r' s -> r = r'.
Proof.
  intros Hc H H'. unfold register_shown in H, H'.
  destruct (reg_name pr t r) as [x|] eqn:E, (reg_name pr t r') as [x'|] eqn:E'.
  - subst. apply (ct_names _ _ Hc r r' _ E E').
  - subst s. exfalso. apply (ct_names_free _ _ Hc r x E). do 4 right. apply (number_integer _ _ H').
  - subst s. exfalso. apply (ct_names_free _ _ Hc r' x' E'). do 4 right. apply (number_integer _ _ H).
  - congruence.
Qed.
Definition same_kind (o o' : operand) : Prop :=
  match o, o' with OReg _, OReg _ | ONum _, ONum _ | OAddress _, OAddress _ | OBlock, OBlock => True | _, _ => False end.
Lemma operand_apart pr t o o' s : clear_texts pr t -> same_kind o o' -> operand_shown pr t o s -> operand_shown pr t o' s -> o = o'.
Proof.
  intros Hc. destruct o as [r|z|n|], o' as [r'|z'|n'|]; cbn [operand_shown same_kind]; try contradiction; intros _ H H'.
  - f_equal. apply (register_shown_apart pr t r r' s Hc H H').
  - congruence.
  - destruct H as (u & H1 & H2), H' as (u' & H1' & H2'). congruence.
  - reflexivity.
Qed.
Lemma operands_apart pr t : clear_texts pr t -> forall l l' args, Forall2 same_kind l l' ->
  Forall2 (operand_shown pr t) l args -> Forall2 (operand_shown pr t) l' args -> l = l'.
Proof.
  intros Hc l l' args Hk. revert args. induction Hk as [|o o' l l' Hk _ IH]; intros args H H'; [reflexivity|].
  inversion H as [|? s ? args0 H1 H2]; subst. inversion H' as [|? ? ? ? H1' H2']; subst. f_equal.
  - apply (operand_apart pr t o o' s Hc Hk H1 H1').
  - apply (IH args0 H2 H2').
Qed.
(** The name of an instruction says what operands it has. *)
Lemma name_kinds i i' name ops ops' : dwarf_insn i = Some (name, ops) -> dwarf_insn i' = Some (name, ops') -> Forall2 same_kind ops ops'.
Proof.
  intros H H'. destruct i, i'; cbn [dwarf_insn] in H, H'; try discriminate H; try discriminate H';
    injection H as <- <-; try discriminate H'; injection H' as <-; repeat constructor.
Qed.
Lemma name_block i i' name ops ops' : dwarf_insn i = Some (name, ops) -> dwarf_insn i' = Some (name, ops') ->
  (block_of i = None <-> block_of i' = None).
Proof.
  intros H H'. destruct i, i'; cbn [dwarf_insn] in H, H'; try discriminate H; try discriminate H';
    injection H as <- <-; try discriminate H'; cbn [block_of]; split; intros E; discriminate E || reflexivity.
Qed.
Lemma named_text pr t i name ops : dwarf_insn i = Some (name, ops) -> after "DW_CFA_" (bare_text pr t i) <> None.
Proof.
  intros H. unfold bare_text, insn_text. rewrite after_app. destruct i; try discriminate H; discriminate.
Qed.
Lemma other_text pr t i : dwarf_insn i = None -> exists c, i = IOther c /\ bare_text pr t i = pr_insn pr i.
Proof.
  intros H. destruct i as [| | | | | | | | | | | | | | | | | | | | | | |c]; try discriminate H. exists c. split; [reflexivity|]. unfold bare_text, insn_text. rewrite after_app. reflexivity.
Qed.

Lemma insn_view_apart pr t i i' : clear_texts pr t -> plain_texts pr t -> tidy_texts pr t -> insn_texts pr ->
  (forall d d', pr_die pr d = pr_die pr d' -> d = d') -> insn_typed i -> insn_typed i' ->
  view_insn pr t true i = view_insn pr t true i' -> insn_same pr i i'.
Proof.
  intros Hc Hp Ht Hi Hd Hy Hy' E. pose proof (insn_apart pr t i i' Hc Hp Ht Hd E) as Ha.
  pose proof (insn_view_shown pr t true i Hp Hy) as [H _]. pose proof (insn_view_shown pr t true i' Hp Hy') as [H' _].
  pose proof (f_equal iv_text E) as Et. cbn [view_insn iv_text] in *. rewrite <- Et in H'.
  unfold insn_same. destruct (dwarf_insn i) as [[name ops]|] eqn:Ei, (dwarf_insn i') as [[name' ops']|] eqn:Ei'.
  - destruct H as (args & R & H). destruct H' as (args' & R' & H'). rewrite R in R'. injection R' as <- <-.
    split; [split; [reflexivity|apply (operands_apart pr t Hc ops ops' args (name_kinds _ _ _ _ _ Ei Ei') H H')]|].
    pose proof (name_block _ _ _ _ _ Ei Ei') as [B1 B2]. unfold insn_alike in Ha.
    destruct (block_of i) as [x|], (block_of i') as [y|]; [apply (Ha x y eq_refl eq_refl)|discriminate (B2 eq_refl)|discriminate (B1 eq_refl)|exact I].
  - exfalso. destruct (other_text pr t i' Ei') as (c & -> & Hb). rewrite Hb in Et. apply (named_text pr t i name ops Ei). rewrite Et. apply Hi.
  - exfalso. destruct (other_text pr t i Ei) as (c & -> & Hb). rewrite Hb in Et. apply (named_text pr t i' name' ops' Ei'). rewrite <- Et. apply Hi.
  - destruct (other_text pr t i Ei) as (c & -> & Hb). destruct (other_text pr t i' Ei') as (c' & -> & Hb').
    split; [congruence|exact I].
Qed.
Lemma insns_view_apart pr t is is' : clear_texts pr t -> plain_texts pr t -> tidy_texts pr t -> insn_texts pr ->
  (forall d d', pr_die pr d = pr_die pr d' -> d = d') -> Forall insn_typed (is_list is) -> Forall insn_typed (is_list is') ->
  map (view_insn pr t true) (is_list is) = map (view_insn pr t true) (is_list is') ->
  option_map (pr_gimli pr) (is_end is) = option_map (pr_gimli pr) (is_end is') -> insns_same pr is is'.
Proof.
  intros Hc Hp Ht Hi Hd Hy Hy' E E'. split; [|exact E']. apply map_forall2 in E.
  eapply forall2_also; [|exact Hy|exact Hy'|exact E]. intros i i' H H'. apply insn_view_apart; assumption.
Qed.

Lemma expression_apart p t n x y : clear_texts (p1 p) t -> plain_texts (p1 p) t -> tidy_texts (p1 p) t ->
  (forall d d', pr_die (p1 p) d = pr_die (p1 p) d' -> d = d') -> well_formed x = true -> well_formed y = true ->
  text_of (expression_text p (register_text (p1 p) t) (spaces n) x) = text_of (expression_text p (register_text (p1 p) t) (spaces n) y) ->
  same_operations (p1 p) x y.
Proof.
  intros Hc Hp Ht Hd Hx Hy H.
  apply (expressions_apart p t n x y (text_of (expression_text p (register_text (p1 p) t) (spaces n) x)) Hc Hp Ht Hd).
  - apply expression_printed, Hx.
  - rewrite H. apply expression_printed, Hy.
Qed.
Lemma row_apart p m r r' : (forall t, t = Some TX86_64 \/ t = rule_table m -> clear_texts (p1 p) t /\ plain_texts (p1 p) t /\ tidy_texts (p1 p) t) ->
  (forall d d', pr_die (p1 p) d = pr_die (p1 p) d' -> d = d') -> row_printable r = true -> row_printable r' = true ->
  view_row1 p m r = view_row1 p m r' -> row_alike (p1 p) r r'.
Proof.
  intros Ht Hd Hr Hr' H. unfold row_printable in Hr, Hr'. apply andb_prop in Hr. apply andb_prop in Hr'.
  destruct Hr as [Hr1 Hr2]. destruct Hr' as [Hr1' Hr2']. apply (f_equal rw_row) in H. unfold view_row1 in H. cbn [rw_row] in H.
  assert (H1 := f_equal rv_start H). assert (H2 := f_equal rv_end H). assert (H3 := f_equal rv_cfa H). assert (H4 := f_equal rv_regs H).
  cbn [rv_start rv_end rv_cfa rv_regs] in *. clear H. split; [exact H1|]. split; [exact H2|]. split.
  - intros x y Ex Ey. rewrite Ex, Ey in *. destruct (Ht _ (or_introl eq_refl)) as (Hc & Hp & Hy).
    exact (expression_apart p (Some TX86_64) 12 x y Hc Hp Hy Hd Hr1 Hr1' H3).
  - rewrite forallb_forall in Hr2, Hr2'. apply map_forall2 in H4.
    eapply (forall2_also (fun q => match snd q with RExpression x => well_formed x | _ => true end = true));
      [|apply Forall_forall; exact Hr2|apply Forall_forall; exact Hr2'|exact H4].
    intros q q' Hq Hq' E. unfold view_reg1 in E. split.
    + apply (f_equal fst) in E. cbn [fst] in E. destruct (Ht _ (or_introl eq_refl)) as (Hc & _). apply (register_inj _ _ _ _ Hc E).
    + intros x y Ex Ey. rewrite Ex in *. rewrite Ey in *. apply (f_equal snd) in E. cbn [snd] in E. destruct (Ht _ (or_intror eq_refl)) as (Hc & Hp & Hy).
      exact (expression_apart p (rule_table m) 8 x y Hc Hp Hy Hd Hq Hq' E).
Qed.
Theorem v1_dumps_apart p md md' native native' file file' ev ev' o o' :
  (forall t, t = Some TX86_64 \/ t = rule_table (elf_architecture file) -> clear_texts (p1 p) t /\ plain_texts (p1 p) t /\ tidy_texts (p1 p) t) ->
  insn_texts (p1 p) -> (forall d d', pr_die (p1 p) d = pr_die (p1 p) d' -> d = d') ->
  elf_architecture file' = elf_architecture file -> elf_sections file' = elf_sections file ->
  Forall function_full_typed (functions (v1_entries_of md file)) -> Forall function_full_typed (functions (v1_entries_of md' file')) ->
  v1_main_loud p md native (Some file) = (ev, o) -> finished o ->
  v1_main_loud p md' native' (Some file') = (ev', o') -> finished o' ->
  stdout_of ev = stdout_of ev' ->
  Forall2 (function_alike (p1 p)) (functions (v1_entries_of md file)) (functions (v1_entries_of md' file')).
Proof.
  intros Ht Hi Hd Ea Es Hy Hy' H Ho H' Ho' E.
  destruct (v1_finished_dump p md native file ev o H Ho) as [H1 H2].
  destruct (v1_finished_dump p md' native' file' ev' o' H' Ho') as [H1' H2'].
  rewrite H1, H1', Es, Ea in E. apply app_inv_head in E. set (m := elf_architecture file) in *.
  destruct (Ht _ (or_introl eq_refl)) as (Hc & Hp & Hx).
  assert (Hread : forall l, Forall function_full_typed l ->
    Forall (fun f => df_start f <= i32_max /\ df_len f <= i32_max /\ Forall (fun r => row_printable r = true) (dw_rows_of f)) l ->
    read_dump1 (flat_map (function_lines1 p m) l) = Some (map (view_function1 p m) l)).
  { clear - Hp. intros l Hl Hb. apply read_functions1_lines; [exact Hp| |lia].
    induction Hl as [|f l H Hl IH]; [constructor|]. pose proof (Forall_inv Hb) as (Ha & Hb' & _).
    constructor; [|apply IH, (Forall_inv_tail Hb)]. split; [exact H|]. unfold i32_max in *. lia. }
  apply (f_equal read_dump1) in E. rewrite (Hread _ Hy H2), (Hread _ Hy' H2') in E. apply some_inj, map_forall2 in E.
  assert (Hz : forall l, Forall function_full_typed l ->
    Forall (fun f => df_start f <= i32_max /\ df_len f <= i32_max /\ Forall (fun r => row_printable r = true) (dw_rows_of f)) l ->
    Forall (fun f => Forall (fun r => row_printable r = true) (dw_rows_of f) /\ Forall insn_typed (is_list (df_insns f))) l).
  { clear. intros l Hl Hb. apply Forall_forall. intros f Hf. rewrite Forall_forall in Hl, Hb.
    split; [apply (Hb f Hf)|]. destruct (Hl f Hf) as (_ & _ & Hi & _). exact Hi. }
  eapply forall2_also; [|exact (Hz _ Hy H2)|exact (Hz _ Hy' H2')|exact E]. clear - Ht Hi Hd Hc Hp Hx.
  intros f g (Hf & Hfi) (Hg & Hgi) E. cbn beta in *.
  assert (E1 := f_equal fw_start E). assert (E2 := f_equal fw_len E). assert (E3 := f_equal fw_insns E). assert (E4 := f_equal fw_rows E).
  assert (E5 := f_equal fw_broken E).
  cbn [view_function1 fw_start fw_len fw_insns fw_rows fw_broken] in *. split; [exact E1|]. split; [exact E2|]. split.
  - apply (insns_view_apart (p1 p) (Some TX86_64)); assumption.
  - apply map_forall2 in E4. eapply forall2_also; [|exact Hf|exact Hg|exact E4]. intros r r' Hr Hr'. apply row_apart; assumption.
Qed.
