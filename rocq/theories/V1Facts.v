(** Proofs about what the first-generation converter prints (C83-C87). *)
From Coq Require Import String Ascii.
From Verif Require Export V1Spec OperandFacts DumpFacts.
Local Open Scope string_scope.

(** ** Rows *)

Lemma lbind_stop {E A B} (m : loud E A) (k : A -> loud E B) : (forall a, snd m <> Ok a) -> 
  lbind m k = (fst m, match snd m with Err er => Err er | _ => Panic end).
Proof. intros H. unfold lbind. destruct (snd m) as [a|er|]; [destruct (H a eq_refl)|reflexivity|reflexivity]. Qed.

Definition text_of (o : option string) : string := match o with Some s => s | None => "" end.

Lemma rule_printable r reg x : row_printable r = true -> dr_register r reg = RExpression x -> well_formed x = true.
Proof.
  unfold row_printable, dr_register. intros H. apply andb_true_iff in H. destruct H as [_ H].
  induction (dr_regs r) as [|[n rule] l IH]; [discriminate|]. cbn [forallb snd] in H. apply andb_true_iff in H. destruct H as [H1 H2].
  cbn [rule_lookup]. destruct (n =? reg)%Z; [intros ->; exact H1|apply IH, H2].
Qed.
Lemma expression_printed p reg i x : well_formed x = true -> expression_text p reg i x = Some (text_of (expression_text p reg i x)).
Proof. unfold well_formed, expression_text. destruct (ex_end x); [discriminate|reflexivity]. Qed.
Lemma rule_printed p m r reg : row_printable r = true ->
  v1_rule_text p m (dr_register r reg) = Some (text_of (v1_rule_text p m (dr_register r reg))).
Proof.
  intros H. destruct (dr_register r reg) eqn:E; try reflexivity. cbn [v1_rule_text]. apply expression_printed, (rule_printable r reg x H E).
Qed.

(** What the closure decides, for rows that can be printed. *)
Definition ra_verdict (p : printers1) (m : elf_arch) (r : dw_row) (base : base_reg) (cfa : Z) (fp : option Z)
  : list string + (base_reg * row_offsets) :=
  match dr_register r 16 with
  | ROffset o =>
      if in_i32b o then inr (base, {| ro_cfa := cfa; ro_ra := Some o; ro_fp := fp |})
      else inl ["DWARF register offset " ++ fmt_dec o ++ " was outside the bounds of an i32"; int_error]
  | rule => inl ["Unsupported recovery rule for RA: " ++ text_of (v1_rule_text p m rule)]
  end.
Definition row_verdict (p : printers1) (m : elf_arch) (r : dw_row) : list event * (list string + (base_reg * row_offsets)) :=
  match dr_cfa r with
  | CfaExpression x => ([], inl ["DWARF FDE unwind table row requires evaluating a DWARF expression: " ++ pr_eval p x])
  | CfaReg reg o =>
      match (if (reg =? 6)%Z then Some Fp else if (reg =? 7)%Z then Some Sp else None) with
      | None => ([], inl ["unsupported CFA source register " ++ v1_register p reg])
      | Some base =>
          if in_i32b o then
            match dr_register r 6 with
            | ROffset f =>
                if in_i32b f then ([], ra_verdict p m r base o (Some f))
                else ([], inl ["DWARF register offset " ++ fmt_dec f ++ " was outside the bounds of an" ++ newline ++
                                 "                                 i32"; int_error])
            | RUndefined => ([], ra_verdict p m r base o None)
            | rule => ([ErrOut ("unsupported recovery rule for RBP: " ++ text_of (v1_rule_text p m rule))], ra_verdict p m r base o None)
            end
          else ([], inl ["DWARF FDE register recovery offset " ++ fmt_hex 64 o ++ " was outside the bounds of an i32"])
      end
  end.

Definition build_row (b : fdb) (d : Z) (v : base_reg * row_offsets) : outcome (list string) fdb :=
  map_err (fun er => ["failed to build a row for the FDE"; row_error_text er]) (fdb_row b (row_new (fst v) d (snd v))).
Definition sframe_line (o : row_offsets) : string := "    sframe: " ++ offsets_text o.


Lemma translate_verdict p m b d r : row_printable r = true ->
  v1_translate_loud p m b d r =
  match row_verdict p m r with
  | (ev, inl chain) => (ev, Err chain)
  | (ev, inr v) => ((ev ++ [Out (sframe_line (snd v))])%list, build_row b d v)
  end.
Proof.
  intros Hp. unfold v1_translate_loud, row_verdict. destruct (dr_cfa r) as [reg o|x] eqn:Ec; [|reflexivity].
  assert (Hr : forall reg' x, dr_register r reg' = RExpression x ->
    expression_text p (rule_register p m) "        " x = Some (text_of (expression_text p (rule_register p m) "        " x))).
  { intros reg' x H. apply expression_printed, (rule_printable r reg' x Hp H). }
  destruct (if (reg =? 6)%Z then Some Fp else if (reg =? 7)%Z then Some Sp else None) as [base|] eqn:Eb.
  2:{ destruct (reg =? 6)%Z; [discriminate|]. destruct (reg =? 7)%Z; [discriminate|reflexivity]. }
  replace (if (reg =? 6)%Z then Ok (Fp, o) else if (reg =? 7)%Z then Ok (Sp, o) else Err ["unsupported CFA source register " ++ v1_register p reg])
    with (@Ok (list string) _ (base, o)).
  2:{ destruct (reg =? 6)%Z; [congruence|]. destruct (reg =? 7)%Z; congruence. }
  rewrite lbind_quiet_ok. cbn [fst snd]. destruct (in_i32b o); [rewrite lbind_quiet_ok|reflexivity].
  unfold ra_verdict.
  destruct (dr_register r 16) as [| |a| | | |x16| |] eqn:E16; try (destruct (in_i32b a));
    destruct (dr_register r 6) as [| |f| | | |x6| |] eqn:E6; try (destruct (in_i32b f)); cbn [v1_rule_text];
    repeat match goal with H : dr_register r ?k = RExpression ?y |- _ => rewrite (Hr k y H); clear H end; reflexivity.
Qed.
Lemma verdict_translate p m d r : v1_translate d r =
  match snd (row_verdict p m r) with inl _ => None | inr v => Some (row_new (fst v) d (snd v)) end.
Proof.
  unfold v1_translate, row_verdict. destruct (dr_cfa r) as [reg o|x]; [|reflexivity].
  destruct (if (reg =? 6)%Z then Some Fp else if (reg =? 7)%Z then Some Sp else None) as [base|]; [|reflexivity].
  destruct (in_i32b o); cbn [negb]; [|reflexivity]. unfold ra_verdict.
  destruct (dr_register r 6) as [| |f| | | |x6| |]; try (destruct (in_i32b f)); try reflexivity;
    cbn [snd]; (destruct (dr_register r 16) as [| |a| | | |x16| |]; try reflexivity; destruct (in_i32b a); reflexivity).
Qed.

Lemma add_row_result p m b d r : row_printable r = true -> snd (v1_add_row_loud p m b d r) = v1_add_row b d r.
Proof.
  intros Hp. unfold v1_add_row_loud, v1_add_row. rewrite (translate_verdict p m b d r Hp), (verdict_translate p m d r).
  destruct (row_verdict p m r) as [ev [chain|v]]; cbn [fst snd]; [reflexivity|]. unfold build_row.
  destruct (fdb_row b (row_new (fst v) d (snd v))); reflexivity.
Qed.

(** The lines in front of the closure. *)
Definition reg_line1 (p : printers1) (m : elf_arch) (q : Z * reg_rule) : string :=
  "    reg:    " ++ v1_register p (fst q) ++ " = " ++ text_of (v1_rule_text p m (snd q)).
Definition row_lines1 (p : printers1) (m : elf_arch) (r : dw_row) : list string :=
  ("  - offset: " ++ fmt_hex_alt_pad 64 10 (dr_start r) ++ " (end = " ++ fmt_hex_alt_pad 64 10 (dr_end r) ++ ")") ::
  ("    cfa:    " ++ text_of (v1_cfa_text p (dr_cfa r))) :: map (reg_line1 p m) (dr_regs r).

Lemma regs_print_ok {E} p m : forall l,
  forallb (fun q => match snd q with RExpression x => well_formed x | _ => true end) l = true ->
  @v1_regs_print E p m l = (map (fun q => Out (reg_line1 p m q)) l, Ok tt).
Proof.
  induction l as [|[reg rule] l IH]; [reflexivity|]. cbn [forallb snd]. intros H. apply andb_true_iff in H. destruct H as [H1 H2].
  cbn [v1_regs_print map]. assert (Ht : v1_rule_text p m rule = Some (text_of (v1_rule_text p m rule))).
  { destruct rule; try reflexivity. apply expression_printed, H1. }
  rewrite Ht. unfold or_panic. rewrite lbind_quiet_ok, lbind_say, (IH H2). reflexivity.
Qed.
Lemma regs_print_fails {E} p m : forall l,
  forallb (fun q => match snd q with RExpression x => well_formed x | _ => true end) l = false ->
  snd (@v1_regs_print E p m l) = Panic.
Proof.
  induction l as [|[reg rule] l IH]; [discriminate|]. cbn [forallb snd]. intros H. apply andb_false_iff in H.
  cbn [v1_regs_print]. unfold or_panic. rewrite snd_lbind. cbn [quiet snd].
  destruct (v1_rule_text p m rule) as [s|] eqn:Et; cbn [bind]; [|reflexivity]. rewrite lbind_say. cbn [snd]. apply IH.
  destruct H as [H|H]; [|exact H]. destruct rule; try discriminate H. cbn [v1_rule_text] in Et. unfold expression_text, well_formed in *.
  destruct (ex_end x); discriminate.
Qed.
Lemma row_print_ok {E} p m r : row_printable r = true -> @v1_row_print E p m r = (map Out (row_lines1 p m r), Ok tt).
Proof.
  intros H. unfold row_printable in H. apply andb_true_iff in H. destruct H as [H1 H2].
  unfold v1_row_print, row_lines1. rewrite lbind_say.
  assert (Ht : v1_cfa_text p (dr_cfa r) = Some (text_of (v1_cfa_text p (dr_cfa r)))).
  { destruct (dr_cfa r); [reflexivity|]. apply expression_printed, H1. }
  rewrite Ht. unfold or_panic. rewrite lbind_quiet_ok, lbind_say, (regs_print_ok p m _ H2). cbn [fst snd map app text_of].
  rewrite map_map. reflexivity.
Qed.
Lemma row_print_fails {E} p m r : row_printable r = false -> snd (@v1_row_print E p m r) = Panic.
Proof.
  intros H. unfold row_printable in H. apply andb_false_iff in H. unfold v1_row_print. rewrite lbind_say. cbn [snd].
  unfold or_panic. rewrite snd_lbind. cbn [quiet snd].
  destruct (v1_cfa_text p (dr_cfa r)) as [s|] eqn:Et; cbn [bind]; [|reflexivity]. rewrite lbind_say. cbn [snd].
  apply regs_print_fails. destruct H as [H|H]; [|exact H]. destruct (dr_cfa r); [discriminate H|]. cbn [v1_cfa_text] in Et.
  unfold expression_text, well_formed in *. destruct (ex_end x); discriminate.
Qed.

(** ** Results *)

Lemma v1_rows_result p m md f : forall l b, snd (v1_rows_loud p m md f l b) = v1_rows md row_printable f l b.
Proof.
  induction l as [|r l IH]; intros b; [reflexivity|]. cbn [v1_rows_loud v1_rows]. rewrite snd_lbind. cbn [quiet snd].
  destruct (sub_u64 md (dr_start r) (df_start f)) as [d|er|]; cbn [bind]; try reflexivity.
  destruct (negb (row_start_ok d)); [reflexivity|]. rewrite snd_lbind. destruct (row_printable r) eqn:Hp; cbn [negb].
  - rewrite (row_print_ok p m r Hp). cbn [snd bind]. rewrite snd_lbind, (add_row_result p m b d r Hp).
    destruct (v1_add_row b d r); cbn [bind]; [apply IH|reflexivity|reflexivity].
  - rewrite (row_print_fails p m r Hp). reflexivity.
Qed.
Lemma add_small {E} md a b : a <= i32_max -> b <= i32_max -> @add_u64 E md a b = Ok (a + b).
Proof.
  intros Ha Hb. unfold add_u64. destruct (Z.ltb_spec (a + b) (2 ^ 64)) as [H|H]; [reflexivity|]. unfold i32_max in *. lia.
Qed.
Lemma v1_fde_result p m md s f : snd (v1_fde_loud p m md s f) = v1_fde md row_printable s f.
Proof.
  unfold v1_fde_loud, v1_fde. destruct (Z.ltb_spec i32_max (df_start f)) as [H1|H1]; [reflexivity|].
  destruct (Z.ltb_spec i32_max (df_len f)) as [H2|H2]; [reflexivity|]. destruct (df_rows f) as [rows|g]; [|reflexivity].
  rewrite lbind_say. cbn [snd]. rewrite (add_small md _ _ H1 H2), lbind_quiet_ok, lbind_say. cbn [snd]. rewrite snd_lbind.
  unfold loud_err, v1_dump_insns. cbn [snd]. rewrite lbind_say. cbn [snd]. rewrite dump_insns_quiet.
  unfold df_dump. destruct (dump_insns_result (is_list (df_insns f))) as [g|]; [reflexivity|]. cbn [map_err bind].
  rewrite lbind_say. cbn [snd]. rewrite snd_lbind, v1_rows_result.
  destruct (v1_rows md row_printable f (rows_list rows) _) as [b|er|]; cbn [bind]; try reflexivity.
  destruct (rows_end rows); [reflexivity|]. rewrite snd_lbind. cbn [quiet snd].
  destruct (merge_adjacent_fres b) as [b'|er|]; cbn [map_err bind]; try reflexivity.
  rewrite snd_lbind. cbn [quiet snd]. destruct (lift (sfb_fde s b')); cbn [bind]; reflexivity.
Qed.
Lemma v1_entries_result p m md : forall l s, snd (v1_entries_loud p m md l s) = v1_entries md row_printable l s.
Proof.
  induction l as [|x l IH]; intros s; cbn [v1_entries_loud v1_entries]; [reflexivity|].
  destruct x as [|g|f]; [apply IH|reflexivity|]. rewrite snd_lbind, v1_fde_result.
  destruct (v1_fde md row_printable s f); cbn [bind]; [apply IH|reflexivity|reflexivity].
Qed.
Theorem v1_convert_result p m md ents : snd (v1_convert_loud p m md ents) = v1_convert md row_printable ents.
Proof.
  unfold v1_convert_loud, v1_convert. rewrite snd_lbind, v1_entries_result.
  destruct (v1_entries _ _ _ _) as [s|er|]; cbn [bind]; try reflexivity. destruct (ents_end ents); reflexivity.
Qed.
Theorem v1_main_result p md native input : snd (v1_main_loud p md native input) = v1_main md native row_printable input.
Proof.
  unfold v1_main_loud, v1_main. destruct input as [file|]; [|reflexivity].
  destruct (section_by_name ".eh_frame" (elf_sections file)); [|reflexivity].
  destruct (elf_eh_frame file) as [parse|]; [|reflexivity]. rewrite lbind_say. cbn [snd]. rewrite snd_lbind, v1_convert_result.
  destruct (v1_convert _ _ _) as [s|er|]; cbn [bind]; try reflexivity. rewrite snd_lbind. cbn [quiet snd].
  destruct (build md native s); reflexivity.
Qed.

(** ** What is printed for a row *)

Definition sframe_part (p : printers1) (m : elf_arch) (r : dw_row) : list string :=
  match snd (row_verdict p m r) with inl _ => [] | inr v => [sframe_line (snd v)] end.
Definition row_out (p : printers1) (m : elf_arch) (r : dw_row) : list string := (row_lines1 p m r ++ sframe_part p m r)%list.
Definition row_err (p : printers1) (m : elf_arch) (r : dw_row) : list string :=
  (stderr_of (fst (row_verdict p m r)) ++ match snd (row_verdict p m r) with inl chain => [pr_chain p chain] | inr _ => [] end)%list.

Lemma verdict_stdout p m r : stdout_of (fst (row_verdict p m r)) = [].
Proof.
  unfold row_verdict. destruct (dr_cfa r) as [reg o|x]; [|reflexivity].
  destruct (if (reg =? 6)%Z then Some Fp else if (reg =? 7)%Z then Some Sp else None); [|reflexivity].
  destruct (in_i32b o); [|reflexivity]. destruct (dr_register r 6) as [| |f| | | | | |]; try reflexivity. destruct (in_i32b f); reflexivity.
Qed.
Lemma verdict_stderr p m r : (Datatypes.length (stderr_of (fst (row_verdict p m r))) <= 1)%nat.
Proof.
  unfold row_verdict. destruct (dr_cfa r) as [reg o|x]; [|cbn; lia].
  destruct (if (reg =? 6)%Z then Some Fp else if (reg =? 7)%Z then Some Sp else None); [|cbn; lia].
  destruct (in_i32b o); [|cbn; lia]. destruct (dr_register r 6) as [| |f| | | | | |]; try (cbn; lia). destruct (in_i32b f); cbn; lia.
Qed.
Lemma fdb_row_keeps b nr b' : fdb_row b nr = Ok b' -> fb_options b' = fb_options b /\ fb_rep_size b' = fb_rep_size b.
Proof.
  unfold fdb_row, fdb_row_st. intros H.
  destruct (0x10000000 <=? r_start nr)%Z; [discriminate H|].
  destruct (match fb_rep_size b with Some rep => (rep <=? r_start nr)%Z | None => false end); [discriminate H|].
  destruct (fb_size b <=? r_start nr)%Z; [discriminate H|].
  destruct (normalise_offsets (fb_options b) nr) as [r'|er|]; try discriminate H.
  destruct (bt_get (r_start r') (fb_fres b)); [discriminate H|]. apply ok_inj in H. subst b'. split; reflexivity.
Qed.

Lemma add_row_printed p m b d r ev b' : row_printable r = true -> fb_options b = v1_options -> fb_rep_size b = None ->
  v1_add_row_loud p m b d r = (ev, Ok b') ->
  stdout_of ev = sframe_part p m r /\ stderr_of ev = row_err p m r /\ fb_options b' = v1_options /\ fb_rep_size b' = None.
Proof.
  intros Hp Ho Hr H. unfold v1_add_row_loud in H. rewrite (translate_verdict p m b d r Hp) in H.
  unfold sframe_part, row_err. pose proof (verdict_stdout p m r) as Hv.
  destruct (row_verdict p m r) as [v [chain|v1]]; cbn [fst snd] in *.
  - assert (E : map_err V1InvalidRow (fdb_row b (row_invalid d)) = Ok b') by congruence.
    assert (ev = (v ++ [ErrOut (pr_chain p chain)])%list) as -> by congruence.
    rewrite stdout_app, stderr_app, Hv. split; [reflexivity|]. split; [reflexivity|].
    destruct (fdb_row b (row_invalid d)) as [b1|er|] eqn:Eb; try discriminate E. apply ok_inj in E. subst b1.
    apply fdb_row_keeps in Eb. destruct Eb. split; congruence.
  - unfold build_row in H. pose proof (position_rejects b (row_new (fst v1) d (snd v1)) Ho Hr) as H1.
    pose proof (position_rejects b (row_invalid d) Ho Hr) as H2. cbn [r_start row_new row_invalid] in H1, H2.
    destruct (v1_position b d) as [er|].
    + rewrite H1, H2 in H. discriminate H.
    + destruct H1 as [b1 H1]. rewrite H1 in H. cbn [map_err] in H.
      assert (ev = (v ++ [Out (sframe_line (snd v1))])%list) as -> by congruence. assert (b1 = b') as -> by congruence.
      rewrite stdout_app, stderr_app, Hv, app_nil_r. cbn [stderr_of flat_map app]. rewrite app_nil_r. split; [reflexivity|]. split; [reflexivity|].
      apply fdb_row_keeps in H1. destruct H1. split; congruence.
Qed.
Lemma add_row_stderr p m b d r : row_printable r = true ->
  (Datatypes.length (stderr_of (fst (v1_add_row_loud p m b d r))) <= 2)%nat.
Proof.
  intros Hp. unfold v1_add_row_loud. rewrite (translate_verdict p m b d r Hp). pose proof (verdict_stderr p m r) as Hv.
  destruct (row_verdict p m r) as [v [chain|v1]]; cbn [fst snd] in *.
  - rewrite stderr_app, app_length. cbn. lia.
  - unfold build_row. destruct (fdb_row b (row_new (fst v1) d (snd v1))); cbn [map_err fst];
      rewrite ?stderr_app, ?app_length; cbn; lia.
Qed.
Lemma stdout_map_out l : stdout_of (map Out l) = l.
Proof. induction l; [reflexivity|]. cbn. f_equal. exact IHl. Qed.
Lemma stderr_map_out l : stderr_of (map Out l) = [].
Proof. induction l; [reflexivity|]. cbn. exact IHl. Qed.
Lemma row_print_stderr {E} p m r : stderr_of (fst (@v1_row_print E p m r)) = [].
Proof.
  unfold v1_row_print. apply (mute_bind (say _)); [reflexivity|]. intros _.
  apply (mute_bind (or_panic _)); [reflexivity|]. intros c. apply (mute_bind (say _)); [reflexivity|]. intros _.
  induction (dr_regs r) as [|[reg rule] l IH]; [reflexivity|]. cbn [v1_regs_print].
  apply (mute_bind (or_panic _)); [reflexivity|]. intros s. apply (mute_bind (say _)); [reflexivity|]. intros _. exact IH.
Qed.

(** Rows up to the one that stops the run. *)
Definition printed_rows (p : printers1) (m : elf_arch) (l : list dw_row) (ev : list event) (all : Prop) : Prop :=
  exists pre post out err, l = (pre ++ post)%list /\
    stdout_of ev = (flat_map (row_out p m) pre ++ out)%list /\ stderr_of ev = (flat_map (row_err p m) pre ++ err)%list /\
    (Datatypes.length err <= 2)%nat /\ Forall (fun r => row_printable r = true) pre /\ (all -> post = [] /\ out = [] /\ err = []).

Lemma rows_printed p m md f : forall l b, fb_options b = v1_options -> fb_rep_size b = None ->
  printed_rows p m l (fst (v1_rows_loud p m md f l b)) (finished (snd (v1_rows_loud p m md f l b))).
Proof.
  assert (Hstop : forall l ev (all : Prop), ~ all -> (Datatypes.length (stderr_of ev) <= 2)%nat -> printed_rows p m l ev all).
  { intros l ev all Ha Hl. exists [], l, (stdout_of ev), (stderr_of ev). split; [reflexivity|]. split; [reflexivity|].
    split; [reflexivity|]. split; [exact Hl|]. split; [constructor|]. intros H. destruct (Ha H). }
  induction l as [|r l IH]; intros b Ho Hr; cbn [v1_rows_loud].
  { exists [], [], [], []. do 3 (split; [reflexivity|]). split; [cbn; lia|]. split; [constructor|auto]. }
  destruct (sub_u64 md (dr_start r) (df_start f)) as [d|er|].
  2,3: rewrite lbind_stop by discriminate; apply Hstop; [intros [? H]; discriminate H|cbn; lia].
  rewrite lbind_quiet_ok. destruct (negb (row_start_ok d)).
  { apply Hstop; [intros [? H]; discriminate H|cbn; lia]. }
  destruct (row_printable r) eqn:Hp.
  2:{ pose proof (@row_print_fails v1_error p m r Hp) as H. pose proof (@row_print_stderr v1_error p m r) as He.
      rewrite lbind_stop by (intros a; rewrite H; discriminate). rewrite H. cbn [fst snd]. apply Hstop; [intros [? Hx]; discriminate Hx|]. rewrite He. cbn. lia. }
  rewrite (row_print_ok p m r Hp), lbind_ok. cbn [fst snd].
  pose proof (add_row_stderr p m b d r Hp) as Hs.
  destruct (v1_add_row_loud p m b d r) as [ev o] eqn:Ea. cbn [fst] in Hs. destruct o as [b'|er|].
  2,3: rewrite lbind_stop by discriminate; cbn [fst snd]; apply Hstop; [intros [? Hx]; discriminate Hx|]; rewrite stderr_app, stderr_map_out; exact Hs.
  destruct (add_row_printed p m b d r ev b' Hp Ho Hr Ea) as (H1 & H2 & H3 & H4).
  rewrite lbind_ok. cbn [fst snd]. destruct (IH b' H3 H4) as (pre & post & out & err & K1 & K2 & K3 & K4 & K5 & K6).
  exists (r :: pre), post, out, err. split; [rewrite K1; reflexivity|]. split; [|split; [|split; [exact K4|split; [constructor; assumption|exact K6]]]].
  - rewrite !stdout_app, stdout_map_out, H1, K2. cbn [flat_map]. unfold row_out at 2. rewrite <- !app_assoc. reflexivity.
  - rewrite !stderr_app, stderr_map_out, H2, K3. cbn [flat_map app]. rewrite <- !app_assoc. reflexivity.
Qed.

(** ** Functions *)

Definition function_lines1 (p : printers1) (m : elf_arch) (f : dw_fde) : list string :=
  (head_lines f ++ "  Instructions:" ::
   (flat_map (insn_lines (p1 p) (Some TX86_64) true) (is_list (df_insns f)) ++ broken_lines (p1 p) (is_end (df_insns f))) ++
   "" :: "Rows:" :: flat_map (row_out p m) (dw_rows_of f) ++ [""])%list.

Lemma dump_insns_stderr p is : stderr_of (fst (v1_dump_insns p is)) = [].
Proof. unfold v1_dump_insns. apply (mute_bind (say _)); [reflexivity|]. intros _. apply mute_insns. reflexivity. Qed.

(** The rows reported, and all that a function prints if it is converted. *)
Definition fde_printed (p : printers1) (m : elf_arch) (f : dw_fde) (ev : list event) (all : Prop) : Prop :=
  exists pre post err, dw_rows_of f = (pre ++ post)%list /\
    stderr_of ev = (flat_map (row_err p m) pre ++ err)%list /\ (Datatypes.length err <= 2)%nat /\
    Forall (fun r => row_printable r = true) pre /\
    (all -> post = [] /\ err = [] /\ stdout_of ev = function_lines1 p m f /\ df_start f <= i32_max /\ df_len f <= i32_max).

Lemma fde_prints p m md s f : sb_options s = v1_options ->
  fde_printed p m f (fst (v1_fde_loud p m md s f)) (finished (snd (v1_fde_loud p m md s f))) /\
  (forall s', snd (v1_fde_loud p m md s f) = Ok s' -> sb_options s' = v1_options).
Proof.
  intros Ho.
  assert (Hstop : forall ev (o : outcome v1_error sfb), (forall s', o <> Ok s') -> stderr_of ev = [] ->
    fde_printed p m f ev (finished o) /\ (forall s', o = Ok s' -> sb_options s' = v1_options)).
  { intros ev o Hn He. split; [|intros s' H; destruct (Hn s' H)]. exists [], (dw_rows_of f), []. split; [reflexivity|]. split; [exact He|].
    split; [cbn; lia|]. split; [constructor|]. intros [s' H]. destruct (Hn s' H). }
  unfold v1_fde_loud.
  destruct (Z.ltb_spec i32_max (df_start f)) as [H1|H1]; [apply Hstop; [discriminate|reflexivity]|].
  destruct (Z.ltb_spec i32_max (df_len f)) as [H2|H2]; [apply Hstop; [discriminate|reflexivity]|].
  destruct (df_rows f) as [rows|g] eqn:Er; [|apply Hstop; [discriminate|reflexivity]].
  rewrite lbind_say. cbn [fst snd]. rewrite (add_small md _ _ H1 H2), lbind_quiet_ok, lbind_say. cbn [fst snd].
  pose proof (dump_insns_stderr p (df_insns f)) as Hd.
  assert (Hl : snd (v1_dump_insns p (df_insns f)) = Ok tt -> stdout_of (fst (v1_dump_insns p (df_insns f))) =
     "  Instructions:" :: (flat_map (insn_lines (p1 p) (Some TX86_64) true) (is_list (df_insns f)) ++ broken_lines (p1 p) (is_end (df_insns f)))%list).
  { unfold v1_dump_insns. rewrite lbind_say. cbn [fst snd]. intros H. rewrite stdout_app. cbn [stdout_of flat_map app]. f_equal.
    apply (dump_insns_lines (p1 p) (Some TX86_64) true), H. }
  destruct (v1_dump_insns p (df_insns f)) as [dv do]. cbn [fst snd] in *. unfold loud_err. cbn [fst snd].
  destruct do as [[]|g|]; cbn [map_err].
  2,3: rewrite lbind_stop by discriminate; cbn [fst snd]; apply Hstop; [discriminate|]; cbn [app stderr_of flat_map]; exact Hd.
  rewrite lbind_ok. cbn [fst snd]. rewrite lbind_say. cbn [fst snd].
  set (b0 := fdb_new (sb_options s) (as_s 32 (df_start f)) (as_u 32 (df_len f))).
  assert (Hb0 : fb_options b0 = v1_options) by exact Ho.
  destruct (rows_printed p m md f (rows_list rows) b0 Hb0 eq_refl) as (pre & post & out & err & K1 & K2 & K3 & K4 & K5 & K6).
  destruct (v1_rows_loud p m md f (rows_list rows) b0) as [rv ro]. cbn [fst snd] in *.
  assert (Hrest : forall ev (o : outcome v1_error sfb),
    stderr_of ev = [] -> (finished o -> finished ro /\ stdout_of ev = [""]) -> 
    fde_printed p m f
     (([Out "FDE:"; Out (" start_address: " ++ fmt_hex_alt_pad 64 10 (df_start f))] ++
      ([Out ("    range_size: " ++ fmt_hex_alt_pad 64 10 (df_len f) ++ " (end_addr = " ++ fmt_hex_alt_pad 64 10 (df_start f + df_len f) ++ ")")] ++
       (dv ++ ([Out ""; Out "Rows:"] ++ (rv ++ ev)))))%list) (finished o)).
  { intros ev o Hev Hfin. unfold fde_printed, dw_rows_of. rewrite Er. exists pre, post, err. split; [exact K1|].
    split; [|split; [exact K4|split; [exact K5|]]].
    - rewrite !stderr_app, Hd, K3, Hev, app_nil_r. reflexivity.
    - intros Ha. destruct (Hfin Ha) as [Hro Hx]. destruct (K6 Hro) as (-> & -> & ->). rewrite app_nil_r in *.
      split; [reflexivity|]. split; [reflexivity|]. split; [|auto].
      rewrite !stdout_app, (Hl eq_refl), K2, Hx. unfold function_lines1, dw_rows_of. rewrite Er, K1.
      cbn [stdout_of flat_map app head_lines]. rewrite <- ?app_assoc. reflexivity. }
  destruct ro as [b|er|].
  2,3: rewrite lbind_stop by discriminate; cbn [fst snd]; (split; [|discriminate]); rewrite <- (app_nil_r rv);
       apply Hrest; [reflexivity|intros [? Hx]; discriminate Hx].
  assert (Hfb : finished (@Ok v1_error _ b)) by (exists b; reflexivity).
  rewrite lbind_ok. cbn [fst snd]. destruct (rows_end rows) as [g|].
  { split; [|discriminate]. apply Hrest; [reflexivity|intros [? Hx]; discriminate Hx]. }
  destruct (merge_adjacent_fres b) as [b'|er|]; cbn [map_err].
  2,3: rewrite lbind_stop by discriminate; (split; [|discriminate]); apply Hrest; [reflexivity|intros [? Hx]; discriminate Hx].
  rewrite lbind_quiet_ok. destruct (sfb_fde s b') as [s'|er|] eqn:Es; cbn [lift].
  2:{ destruct er. }
  2:{ rewrite lbind_stop by discriminate; (split; [|discriminate]); apply Hrest; [reflexivity|intros [? Hx]; discriminate Hx]. }
  rewrite lbind_quiet_ok, lbind_say. cbn [fst snd quiet]. split.
  - apply Hrest; [reflexivity|]. intros _. split; [exact Hfb|reflexivity].
  - intros s'' [= <-]. unfold sfb_fde in Es. destruct (options_eqb _ _); [|discriminate Es]. apply ok_inj in Es. subst s'. exact Ho.
Qed.

(** ** The whole run *)

Definition run_printed (p : printers1) (m : elf_arch) (l : list dw_entry) (ev : list event) (all : Prop) : Prop :=
  (exists pre post out, functions l = (pre ++ post)%list /\
    stdout_of ev = (flat_map (function_lines1 p m) pre ++ out)%list /\
    Forall (fun f => df_start f <= i32_max /\ df_len f <= i32_max /\ Forall (fun r => row_printable r = true) (dw_rows_of f)) pre /\
    (all -> post = [] /\ out = [])) /\
  (exists pre post err, all_rows l = (pre ++ post)%list /\
    stderr_of ev = (flat_map (row_err p m) pre ++ err)%list /\ (Datatypes.length err <= 2)%nat /\
    Forall (fun r => row_printable r = true) pre /\ (all -> post = [] /\ err = [])).

Lemma run_printed_weaken p m l ev (all all' : Prop) : (all' -> all) -> run_printed p m l ev all -> run_printed p m l ev all'.
Proof.
  intros Hi ((pre & post & out & H1 & H2 & H3 & H4) & (pre' & post' & err & K1 & K2 & K3 & K4 & K5)). split.
  - exists pre, post, out. tauto.
  - exists pre', post', err. tauto.
Qed.
Lemma entries_print p m md : forall l s, sb_options s = v1_options ->
  run_printed p m l (fst (v1_entries_loud p m md l s)) (finished (snd (v1_entries_loud p m md l s))).
Proof.
  induction l as [|x l IH]; intros s Ho; cbn [v1_entries_loud].
  - split; exists [], [], []; cbn; auto 10.
  - destruct x as [|g|f]; cbn [functions].
    + apply IH, Ho.
    + split; [exists [], (functions l), []|exists [], (all_rows l), []]; cbn [quiet fst snd].
      * split; [reflexivity|]. split; [reflexivity|]. split; [constructor|]. intros [? [=]].
      * split; [reflexivity|]. split; [reflexivity|]. split; [cbn; lia|]. split; [constructor|]. intros [? [=]].
    + destruct (fde_prints p m md s f Ho) as ((pre & post & err & H1 & H2 & H3 & H4 & H5) & Hs).
      destruct (v1_fde_loud p m md s f) as [fv fo]. cbn [fst snd] in *. destruct fo as [s'|er|].
      2,3: rewrite lbind_stop by discriminate; cbn [fst snd]; split;
        [exists [], (f :: functions l), (stdout_of fv); (split; [reflexivity|]); (split; [reflexivity|]); (split; [constructor|]); intros [? [=]]
        |exists pre, (post ++ all_rows l)%list, err; unfold all_rows; cbn [functions flat_map];
         (split; [rewrite H1, app_assoc; reflexivity|]); (split; [exact H2|]); (split; [exact H3|]); (split; [exact H4|]); intros [? [=]]].
      destruct (H5 (ex_intro _ s' eq_refl)) as (-> & -> & E & Hb). rewrite app_nil_r in H1, H2.
      rewrite lbind_ok. cbn [fst snd].
      destruct (IH s' (Hs s' eq_refl)) as ((pre' & post' & out' & K1 & K2 & K3 & K4) & (rpre & rpost & rerr & L1 & L2 & L3 & L4 & L5)).
      split.
      * exists (f :: pre'), post', out'. cbn [functions flat_map]. split; [cbn [app]; f_equal; exact K1|].
        split; [rewrite stdout_app, E, K2, app_assoc; reflexivity|]. split; [|exact K4].
        constructor; [rewrite H1; tauto|exact K3].
      * exists (pre ++ rpre)%list, rpost, rerr. unfold all_rows in *. cbn [functions flat_map].
        split; [rewrite H1, L1, app_assoc; reflexivity|]. split; [rewrite stderr_app, H2, L2, flat_map_app, app_assoc; reflexivity|].
        split; [exact L3|]. split; [apply Forall_app; auto|exact L5].
Qed.
Theorem convert_prints p m md ents :
  run_printed p m (ents_list ents) (fst (v1_convert_loud p m md ents)) (finished (snd (v1_convert_loud p m md ents))).
Proof.
  unfold v1_convert_loud. pose proof (entries_print p m md (ents_list ents) (sfb_new v1_options) eq_refl) as H.
  destruct (v1_entries_loud p m md (ents_list ents) (sfb_new v1_options)) as [ev o]. cbn [fst snd] in *. destruct o as [s|er|].
  2,3: rewrite lbind_stop by discriminate; exact H.
  rewrite lbind_ok. assert (Hf : finished (@Ok v1_error _ s)) by (exists s; reflexivity).
  destruct (ents_end ents); cbn [fst snd quiet]; rewrite app_nil_r; (eapply run_printed_weaken; [|exact H]); auto.
Qed.

(** The tool prints the sections, then the conversion. *)
Lemma main_prints p md native file ev o : v1_main_loud p md native (Some file) = (ev, o) ->
  ev = [] \/
  exists parse cv co, elf_eh_frame file = Some parse /\
    v1_convert_loud p (elf_architecture file) md (parse (tool_setup md (elf_sections file))) = (cv, co) /\
    ev = (sections_print (elf_sections file) ++ cv)%list /\ (finished o -> finished co).
Proof.
  unfold v1_main_loud. destruct (section_by_name ".eh_frame" (elf_sections file)); [|intros H; left; unfold quiet in H; congruence].
  destruct (elf_eh_frame file) as [parse|]; [|intros H; left; unfold quiet in H; congruence].
  intros H. right. exists parse. rewrite lbind_say in H.
  destruct (v1_convert_loud p (elf_architecture file) md (parse (tool_setup md (elf_sections file)))) as [cv co].
  exists cv, co. split; [reflexivity|]. split; [reflexivity|]. destruct co as [s|er|].
  2,3: rewrite lbind_stop in H by discriminate; cbn [fst snd] in H; (split; [congruence|]); intros [x Hx]; subst o; discriminate H.
  split; [|intros _; exists s; reflexivity].
  rewrite lbind_ok in H. cbn [fst snd] in H. destruct (build md native s) as [bs|er|]; cbn [map_err] in H.
  - rewrite lbind_quiet_ok in H. cbn [quiet fst snd] in H. rewrite app_nil_r in H. congruence.
  - rewrite lbind_stop in H by discriminate. cbn [quiet fst snd] in H. rewrite app_nil_r in H. congruence.
  - rewrite lbind_stop in H by discriminate. cbn [quiet fst snd] in H. rewrite app_nil_r in H. congruence.
Qed.
