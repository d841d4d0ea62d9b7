(** The repaired first-generation converter: rows, functions, sections, reports. *)
From Coq Require Import String Ascii.
From Verif Require Export V1RepairedSpec.
From Verif Require Import BaseFacts LoudFacts OperandFacts DumpFacts V1Facts V1Text ToolsFacts ToolsProps.
From Verif Require Import ConvErrors ConvRepairedFacts ConvRepairedSection.
Local Open Scope string_scope.

(** ** Without the repairs *)

Lemma unrepaired_offsets p m c b d r :
  v1_translate_loud p m b d r =
  lbind (v1_offsets_loud no_v1fixes p m c d r) (fun nr =>
    quiet (map_err (fun er => ["failed to build a row for the FDE"; row_error_text er]) (fdb_row b nr))).
Proof.
  unfold v1_translate_loud, v1_offsets_loud, shown_or_panic. cbn [v1_stack v1_column v1_rbp v1_print no_v1fixes andb].
  destruct (dr_cfa r) as [reg o|x]; [|reflexivity].
  destruct (reg =? 6)%Z; [|destruct (reg =? 7)%Z; [|reflexivity]]; rewrite !lbind_quiet_ok; cbn [fst snd];
    (destruct (in_i32b o); [rewrite !lbind_quiet_ok|reflexivity]);
    (destruct (dr_register r 6) as [| |f| | | |x6| |]; [| |destruct (in_i32b f)| | | | | |]; try reflexivity);
    (destruct (dr_register r 16) as [| |a| | | |x16| |]; [| |destruct (in_i32b a)| | | | | |]);
    cbn [v1_rule_text]; repeat match goal with |- context [expression_text ?u ?v ?w ?x] => destruct (expression_text u v w x) end;
    unfold or_panic; rewrite ?lbind_quiet_ok, ?lbind_say; reflexivity.
Qed.
Lemma unrepaired_add_row p m c b d r : v1_add_row_with no_v1fixes p m c b d r = v1_add_row_loud p m b d r.
Proof.
  unfold v1_add_row_with, v1_add_row_loud. rewrite (unrepaired_offsets p m c).
  destruct (v1_offsets_loud no_v1fixes p m c d r) as [ev [nr|chain|]]; cbn [snd fst lbind]; try reflexivity.
  cbn [v1_refuse no_v1fixes]. unfold lbind. cbn [fst snd quiet]. rewrite app_nil_r.
  destruct (fdb_row b nr); reflexivity.
Qed.
Lemma unrepaired_row_print {E} p m r : @v1_row_print_with E no_v1fixes p m r = v1_row_print p m r.
Proof.
  unfold v1_row_print_with, v1_row_print, shown_or_panic. cbn [v1_print no_v1fixes].
  assert (H : forall l, @v1_regs_print_with E no_v1fixes p m l = v1_regs_print p m l).
  { induction l as [|[reg rule] l IH]; [reflexivity|]. cbn [v1_regs_print_with v1_regs_print]. unfold shown_or_panic. cbn [v1_print no_v1fixes].
    rewrite IH. reflexivity. }
  rewrite H. reflexivity.
Qed.
Lemma unrepaired_v1_rows p m md c f : forall l b, v1_rows_with no_v1fixes p m md c f l b = v1_rows_loud p m md f l b.
Proof.
  induction l as [|r l IH]; intros b; [reflexivity|]. cbn [v1_rows_with v1_rows_loud v1_skip v1_refuse no_v1fixes andb].
  unfold lbind at 1 4. destruct (snd (quiet (sub_u64 md (dr_start r) (df_start f)))) as [d| |]; try reflexivity.
  destruct (negb (row_start_ok d)); [reflexivity|]. rewrite unrepaired_row_print.
  unfold lbind. destruct (snd (v1_row_print p m r)); try reflexivity. rewrite unrepaired_add_row.
  destruct (snd (v1_add_row_loud p m b d r)) as [b'| |]; try reflexivity. rewrite IH. reflexivity.
Qed.
Lemma unrepaired_v1_fde p m md c s f : v1_fde_with no_v1fixes p m md c s f = v1_fde_loud p m md s f.
Proof.
  unfold v1_fde_with, v1_fde_loud. cbn [v1_end v1_listing no_v1fixes andb]. rewrite Bool.orb_false_r.
  destruct (i32_max <? df_start f)%Z; [reflexivity|]. destruct (i32_max <? df_len f)%Z; [reflexivity|].
  destruct (df_rows f) as [rows|]; [|reflexivity]. rewrite unrepaired_v1_rows. reflexivity.
Qed.
Lemma unrepaired_v1_entries p m md c : forall l s, v1_entries_with no_v1fixes p m md c l s = v1_entries_loud p m md l s.
Proof.
  induction l as [|[|g|f] l IH]; intros s; cbn [v1_entries_with v1_entries_loud]; [reflexivity|apply IH|reflexivity|].
  rewrite unrepaired_v1_fde. unfold lbind. destruct (snd (v1_fde_loud p m md s f)) as [s'| |]; try reflexivity. rewrite IH. reflexivity.
Qed.
Lemma unrepaired_v1_convert p m md c ents : v1_convert_with no_v1fixes p m md c ents = v1_convert_loud p m md ents.
Proof. unfold v1_convert_with, v1_convert_loud. rewrite unrepaired_v1_entries. reflexivity. Qed.
Theorem v1_unrepaired p md native c input :
  v1_main_with no_v1fixes p md native c input = loud_err V1AsBefore (v1_main_loud p md native input).
Proof.
  unfold v1_main_with, v1_main_loud. destruct input as [file|]; [|reflexivity]. cbn [v1_machine no_v1fixes andb].
  unfold v1_setup_with. cbn [v1_setup no_v1fixes].
  destruct (section_by_name ".eh_frame" (elf_sections file)); [|reflexivity].
  destruct (elf_eh_frame file) as [parse|]; [|reflexivity]. rewrite unrepaired_v1_convert, !lbind_say.
  destruct (v1_convert_loud p (elf_architecture file) md (parse (tool_setup md (elf_sections file)))) as [ev [s|er|]]; try reflexivity.
  unfold loud_err, lbind. cbn [fst snd map_err]. destruct (build md native s); reflexivity.
Qed.

(** ** Rows *)

Definition shown (o : option string) : string := match o with Some s => s | None => undecodable end.
Definition ra_verdict' (p : printers1) (m : elf_arch) (r : dw_row) (base : base_reg) (cfa : Z) (fp : option Z)
  : list string + (base_reg * row_offsets) :=
  match dr_register r 16 with
  | ROffset o =>
      if in_i32b o then inr (base, {| ro_cfa := cfa; ro_ra := Some o; ro_fp := fp |})
      else inl ["DWARF register offset " ++ fmt_dec o ++ " was outside the bounds of an i32"; int_error]
  | rule => inl ["Unsupported recovery rule for RA: " ++ shown (v1_rule_text p m rule)]
  end.
(** Why a row is left empty, or what it becomes. *)
Definition verdict (p : printers1) (m : elf_arch) (c : Z) (r : dw_row) : list string + (base_reg * row_offsets) :=
  match dr_cfa r with
  | CfaExpression x => inl ["DWARF FDE unwind table row requires evaluating a DWARF expression: " ++ pr_eval p x]
  | CfaReg reg o =>
      match (if (reg =? 6)%Z then Some Fp else if (reg =? 7)%Z then Some Sp else None) with
      | None => inl ["unsupported CFA source register " ++ v1_register p reg]
      | Some base =>
          if in_i32b o then
            if sp_is_cfa Amd64 r then
              if (c =? 16)%Z then
                match dr_register r 6 with
                | ROffset f =>
                    if in_i32b f then ra_verdict' p m r base o (Some f)
                    else inl ["DWARF register offset " ++ fmt_dec f ++ " was outside the bounds of an" ++ newline ++
                                "                                 i32"; int_error]
                | RUndefined | RSameValue => ra_verdict' p m r base o None
                | rule => inl ["unsupported recovery rule for RBP: " ++ shown (v1_rule_text p m rule)]
                end
              else inl ["unsupported return address register " ++ v1_register p c]
            else inl ["unsupported recovery rule for RSP: " ++ shown (v1_rule_text p m (dr_register r 7))]
          else inl ["DWARF FDE register recovery offset " ++ fmt_hex 64 o ++ " was outside the bounds of an i32"]
      end
  end.

Lemma offsets_verdict fx p m c d r : repairs_rows fx ->
  v1_offsets_loud fx p m c d r =
  match verdict p m c r with
  | inl chain => ([], Err chain)
  | inr v => ([Out (sframe_line (snd v))], Ok (row_new (fst v) d (snd v)))
  end.
Proof.
  intros [F1 F2 F3 F4 F5 F6 F7 F8]. unfold v1_offsets_loud, verdict, shown_or_panic. rewrite F7, F8, F2, F3. cbn [andb].
  destruct (dr_cfa r) as [reg o|x]; [|reflexivity].
  destruct (reg =? 6)%Z; [|destruct (reg =? 7)%Z; [|reflexivity]]; rewrite !lbind_quiet_ok; cbn [fst snd];
    (destruct (in_i32b o); [rewrite !lbind_quiet_ok|reflexivity]);
    (destruct (sp_is_cfa Amd64 r); cbn [negb]; [rewrite !lbind_quiet_ok|reflexivity]);
    (destruct (c =? 16)%Z; cbn [negb]; [rewrite !lbind_quiet_ok|reflexivity]);
    unfold ra_verdict';
    (destruct (dr_register r 6) as [| |f| | | |x6| |]; [| |destruct (in_i32b f)| | | | | |];
     try reflexivity);
    (destruct (dr_register r 16) as [| |a| | | |x16| |]; [| |destruct (in_i32b a)| | | | | |]); reflexivity.
Qed.
Lemma express_verdict p m c r : express Amd64 c r =
  match verdict p m c r with
  | inl _ => None
  | inr v => Some (fst v, false, ro_cfa (snd v), ro_ra (snd v), ro_fp (snd v))
  end.
Proof.
  unfold express, verdict. cbn [reg_sp reg_fp reg_ra]. destruct (dr_cfa r) as [reg o|x]; [|reflexivity].
  assert ((if (reg =? 7)%Z then Some Sp else if (reg =? 6)%Z then Some Fp else None) =
          (if (reg =? 6)%Z then Some Fp else if (reg =? 7)%Z then Some Sp else None)) as ->.
  { destruct (Z.eqb_spec reg 7), (Z.eqb_spec reg 6); try reflexivity; lia. }
  destruct (if (reg =? 6)%Z then Some Fp else if (reg =? 7)%Z then Some Sp else None) as [base|]; [|reflexivity].
  destruct (in_i32b o); cbn [andb]; [|reflexivity]. destruct (sp_is_cfa Amd64 r); cbn [andb]; [|reflexivity].
  destruct (c =? 16)%Z; [|reflexivity]. unfold ra_verdict'. cbn [is_aarch64 andb].
  destruct (dr_register r 6) as [| |f| | | |x6| |]; [| |destruct (in_i32b f)| | | | | |]; try reflexivity;
    (destruct (dr_register r 16) as [| |a| | | |x16| |]; [| |destruct (in_i32b a)| | | | | |]); reflexivity.
Qed.
Lemma verdict_inexpressible p m c r : (exists chain, verdict p m c r = inl chain) <-> inexpressible Amd64 r c.
Proof.
  rewrite <- express_none, (express_verdict p m). destruct (verdict p m c r) as [chain|v]; split; try discriminate; eauto.
  intros (chain & [=]).
Qed.

Definition note (p : printers1) (m : elf_arch) (rc : dw_row * Z) : list string :=
  match verdict p m (snd rc) (fst rc) with inl chain => [pr_chain p chain] | inr _ => [] end.

Lemma add_row_with fx p m c b f r : repairs_rows fx ->
  snd (v1_add_row_with fx p m c b (off f r) r) = map_err V1InvalidRow (fdb_row b (ximg Amd64 c f r)) /\
  stderr_of (fst (v1_add_row_with fx p m c b (off f r) r)) = note p m (r, c).
Proof.
  intros HF. pose proof (rr_refuse _ HF) as F4. unfold v1_add_row_with, ximg, note. cbn [fst snd].
  rewrite (offsets_verdict fx p m c _ r HF), (express_verdict p m).
  destruct (verdict p m c r) as [chain|[base os]]; cbn [fst snd]; [split; reflexivity|]. rewrite F4.
  replace (row_mangled_ra_p false (row_new base (off f r) {| ro_cfa := ro_cfa os; ro_ra := ro_ra os; ro_fp := ro_fp os |}))
    with (row_new base (off f r) os) by (destruct os; reflexivity).
  destruct (fdb_row b (row_new base (off f r) os)); split; reflexivity.
Qed.

Lemma row_print_with {E} fx p m r : v1_print fx = true ->
  exists l, @v1_row_print_with E fx p m r = (map Out l, Ok tt).
Proof.
  intros F. unfold v1_row_print_with, shown_or_panic. rewrite F, lbind_say, lbind_quiet_ok, lbind_say.
  assert (H : forall l, exists l', @v1_regs_print_with E fx p m l = (map Out l', Ok tt)).
  { induction l as [|[reg rule] l (l' & IH)]; [exists []; reflexivity|]. cbn [v1_regs_print_with]. unfold shown_or_panic.
    rewrite F, lbind_quiet_ok, lbind_say, IH. cbn [fst snd]. eexists (_ :: l'). reflexivity. }
  destruct (H (dr_regs r)) as (l' & ->). cbn [fst snd]. eexists (_ :: _ :: l'). reflexivity.
Qed.

(** The same result, up to which error it is. *)
Definition alike {E F A} (o : outcome E A) (q : outcome F A) : Prop :=
  match o, q with
  | Ok a, Ok b => a = b
  | Err _, Err _ => True
  | Panic, Panic => True
  | _, _ => False
  end.

Lemma v1_rows_alike fx p m md md' c f : repairs_rows fx -> forall l b,
  alike (snd (v1_rows_with fx p m md c f l b)) (convert_rows_with all_cfixes md' v1_conv c f l b).
Proof.
  intros HF. pose proof HF as [F1 F2 F3 F4 F5 F6 F7 F8]. induction l as [|r l IH]; intros b; [reflexivity|].
  rewrite xrows_step. cbn [v1_rows_with]. rewrite F1, F4. cbn [andb]. unfold xstep, wideb.
  destruct (dr_start r =? dr_end r)%Z; cbn [negb bind]; [apply IH|].
  destruct (Z.ltb_spec (dr_start r) (df_start f)), (Z.ltb_spec (off f r) 0); unfold off in *; try lia; [exact I|].
  rewrite sub_u64_ok by lia. rewrite lbind_quiet_ok. fold (off f r). unfold row_start_ok.
  destruct (Z.ltb_spec (off f r) i32_max), (Z.leb_spec i32_max (off f r)); try lia; cbn [negb]; [|exact I].
  destruct (@row_print_with v1_error fx p m r F3) as (ls & ->). rewrite lbind_ok. cbn [snd]. rewrite snd_lbind.
  destruct (add_row_with fx p m c b f r HF) as [-> _].
  change (op_arch v1_conv) with Amd64.
  destruct (fdb_row b (ximg Amd64 c f r)) as [b'|er|]; cbn [map_err bind alike]; [apply IH|exact I|exact I].
Qed.

(** What is printed about rows: one note for each, up to where the conversion stops. *)
Definition noted {E A} (p : printers1) (m : elf_arch) (rs : list (dw_row * Z)) (x : loud E A) : Prop :=
  exists pre post, rs = (pre ++ post)%list /\ stderr_of (fst x) = flat_map (note p m) pre /\
    ((exists a, snd x = Ok a) -> post = []).
Lemma noted_none {E A} p m rs (x : loud E A) : stderr_of (fst x) = [] -> (forall a, snd x <> Ok a) -> noted p m rs x.
Proof.
  intros H1 H2. exists [], rs. split; [reflexivity|]. split; [exact H1|]. intros (a & Ha). destruct (H2 a Ha).
Qed.
Lemma noted_nil {E A} p m (x : loud E A) : stderr_of (fst x) = [] -> noted p m [] x.
Proof. intros H. exists [], []. auto. Qed.
Lemma noted_bind {E A B} p m rs rs' (x : loud E A) (k : A -> loud E B) :
  noted p m rs x -> (forall a, snd x = Ok a -> noted p m rs' (k a)) -> noted p m (rs ++ rs')%list (lbind x k).
Proof.
  intros (pre & post & H1 & H2 & H3) Hk. unfold lbind. destruct (snd x) as [a|er|] eqn:Ex.
  - destruct (Hk a eq_refl) as (pre' & post' & K1 & K2 & K3). rewrite (H3 (ex_intro _ a eq_refl)), app_nil_r in H1. subst pre.
    exists (rs ++ pre')%list, post'. split; [rewrite K1, app_assoc; reflexivity|]. cbn [fst snd].
    split; [rewrite stderr_app, flat_map_app, H2, K2; reflexivity|exact K3].
  - exists pre, (post ++ rs')%list. split; [rewrite H1, app_assoc; reflexivity|]. split; [exact H2|]. cbn. intros (a & [=]).
  - exists pre, (post ++ rs')%list. split; [rewrite H1, app_assoc; reflexivity|]. split; [exact H2|]. cbn. intros (a & [=]).
Qed.
Lemma noted_then {E A B} p m rs (x : loud E A) (k : A -> loud E B) : stderr_of (fst x) = [] ->
  (forall a, snd x = Ok a -> noted p m rs (k a)) -> noted p m rs (lbind x k).
Proof. intros H Hk. apply (noted_bind p m [] rs); [apply noted_nil, H|exact Hk]. Qed.

Lemma v1_rows_noted fx p m md c f : repairs_rows fx -> forall l b,
  noted p m (map (fun r => (r, c)) (filter wideb l)) (v1_rows_with fx p m md c f l b).
Proof.
  intros HF. pose proof HF as [F1 F2 F3 F4 F5 F6 F7 F8]. induction l as [|r l IH]; intros b; [apply noted_nil; reflexivity|].
  cbn [v1_rows_with filter]. rewrite F1, F4. cbn [andb]. unfold wideb at 1.
  destruct (dr_start r =? dr_end r)%Z; cbn [negb]; [apply IH|]. cbn [map].
  destruct (Z.ltb_spec (dr_start r) (df_start f)); [apply noted_none; [reflexivity|discriminate]|].
  rewrite sub_u64_ok by lia. rewrite lbind_quiet_ok. fold (off f r).
  destruct (negb (row_start_ok (off f r))); [apply noted_none; [reflexivity|discriminate]|].
  destruct (@row_print_with v1_error fx p m r F3) as (ls & ->). apply noted_then; [apply stderr_map_out|]. intros _ _.
  destruct (add_row_with fx p m c b f r HF) as [_ H2].
  change ((r, c) :: map (fun r => (r, c)) (filter wideb l)) with ([(r, c)] ++ map (fun r => (r, c)) (filter wideb l))%list.
  apply noted_bind; [|intros b' _; apply IH].
  exists [(r, c)], []. split; [reflexivity|]. split; [rewrite H2; cbn [flat_map]; rewrite app_nil_r; reflexivity|auto].
Qed.

Lemma v1_fde_noted fx p m md c s f : repairs_rows fx ->
  noted p m (map (fun r => (r, c f)) (wide_rows f)) (v1_fde_with fx p m md c s f).
Proof.
  intros HF. pose proof HF as [F1 F2 F3 F4 F5 F6 F7 F8]. unfold v1_fde_with, wide_rows, dw_rows_of. rewrite F5.
  destruct (i32_max <? df_start f)%Z; [apply noted_none; [reflexivity|discriminate]|].
  destruct (_ || _)%bool; [apply noted_none; [reflexivity|discriminate]|].
  destruct (df_rows f) as [rows|g]; [|apply noted_none; [reflexivity|discriminate]].
  apply noted_then; [reflexivity|]. intros _ _. apply noted_then; [reflexivity|]. intros e _.
  apply noted_then; [reflexivity|]. intros _ _. apply noted_then; [apply dump_insns_stderr|]. intros _ _.
  apply noted_then; [reflexivity|]. intros _ _.
  rewrite <- (app_nil_r (map _ _)). apply noted_bind; [apply v1_rows_noted, HF|]. intros b _.
  destruct (rows_end rows); [apply noted_nil; reflexivity|].
  apply noted_then; [reflexivity|]. intros b' _. apply noted_then; [reflexivity|]. intros s' _.
  apply noted_then; [reflexivity|]. intros _ _. apply noted_nil. reflexivity.
Qed.

Lemma v1_entries_noted fx p m md c : repairs_rows fx -> forall l s,
  noted p m (wide_with c l) (v1_entries_with fx p m md c l s).
Proof.
  intros HF. induction l as [|[|g|f] l IH]; intros s; cbn [v1_entries_with].
  - apply noted_nil. reflexivity.
  - apply IH.
  - apply noted_none; [reflexivity|discriminate].
  - apply (noted_bind p m (map (fun r => (r, c f)) (wide_rows f)) (wide_with c l)); [apply v1_fde_noted, HF|intros s' _; apply IH].
Qed.
Lemma v1_convert_noted fx p m md c ents : repairs_rows fx ->
  noted p m (wide_with c (ents_list ents)) (v1_convert_with fx p m md c ents).
Proof.
  intros HF. unfold v1_convert_with. rewrite <- (app_nil_r (wide_with _ _)). apply noted_bind; [apply v1_entries_noted, HF|].
  intros s _. destruct (ents_end ents); apply noted_nil; reflexivity.
Qed.

(** ** Functions and sections *)

Lemma v1_fde_alike fx p m md md' c s f : repairs_rows fx ->
  alike (snd (v1_fde_with fx p m md c s f)) (convert_fde_with all_cfixes md' v1_conv c s f).
Proof.
  intros HF. pose proof HF as [F1 F2 F3 F4 F5 F6 F7 F8]. unfold v1_fde_with, convert_fde_with. rewrite F5, F6.
  cbn [fix_dump fix_end all_cfixes negb andb]. rewrite Bool.andb_false_r. cbn [bind].
  destruct (Z.ltb_spec i32_max (df_start f)) as [|Hs]; [exact I|].
  destruct (Z.ltb_spec i32_max (df_len f)) as [|Hl]; cbn [orb]; [exact I|].
  destruct (i32_max <? df_start f + df_len f)%Z; [exact I|].
  destruct (df_rows f) as [rows|g]; [|exact I].
  rewrite lbind_say. cbn [snd]. rewrite (add_small md _ _ Hs Hl), lbind_quiet_ok, lbind_say. cbn [snd].
  rewrite lbind_say. cbn [snd]. rewrite lbind_say. cbn [snd]. rewrite snd_lbind.
  set (b := fdb_new (sb_options s) (as_s 32 (df_start f)) (as_u 32 (df_len f))).
  pose proof (v1_rows_alike fx p m md md' (c f) f HF (rows_list rows) b) as HA.
  destruct (snd (v1_rows_with fx p m md (c f) f (rows_list rows) b)) as [b1|er|],
    (convert_rows_with all_cfixes md' v1_conv (c f) f (rows_list rows) b) as [b2|er'|]; cbn [alike bind] in *; try contradiction; try exact I.
  subst b2. destruct (rows_end rows); [exact I|]. change (op_merge_fres v1_conv) with true. cbn [bind].
  rewrite snd_lbind. cbn [quiet snd]. destruct (merge_adjacent_fres b1) as [b2|[]|]; cbn [map_err bind of_fuel as_before alike]; try exact I.
  rewrite snd_lbind. cbn [quiet snd]. destruct (sfb_fde s b2) as [s'|[]|]; cbn [lift bind]; [|exact I].
  rewrite lbind_say. reflexivity.
Qed.

Lemma v1_entries_alike fx p m md md' c : repairs_rows fx -> forall l s,
  alike (snd (v1_entries_with fx p m md c l s)) (convert_entries_with all_cfixes md' v1_conv c l s).
Proof.
  intros HF. induction l as [|[|g|f] l IH]; intros s; cbn [v1_entries_with convert_entries_with]; [reflexivity|apply IH|exact I|].
  rewrite snd_lbind. pose proof (v1_fde_alike fx p m md md' c s f HF) as HA.
  destruct (snd (v1_fde_with fx p m md c s f)) as [b1|er|], (convert_fde_with all_cfixes md' v1_conv c s f) as [b2|er'|];
    cbn [alike bind] in *; try contradiction; try exact I. subst b2. apply IH.
Qed.

(** Converted, exactly if nothing is at fault. *)
Theorem v1_with_fate fx p m md c ents : repairs_rows fx -> ents_typed ents ->
  (exists s, snd (v1_convert_with fx p m md c ents) = Ok s /\ sb_options s = v1_options /\
     xassembled v1_conv c v1_options (functions (ents_list ents)) (sb_fdes s) /\ v1_faultless c ents) \/
  (exists er, snd (v1_convert_with fx p m md c ents) = Err er) /\ ~ v1_faultless c ents.
Proof.
  intros HF Ht. unfold v1_convert_with. rewrite snd_lbind.
  pose proof (v1_entries_alike fx p m md md c HF (ents_list ents) (sfb_new v1_options)) as HA.
  destruct (xentries_fate md v1_conv c v1_options eq_refl (ents_list ents) [] (sfb_new v1_options) Ht eq_refl (xa_nil _ _ _))
    as [(s & H1 & H2 & H3 & H4)|(pre & x & post & er & H1 & H2 & H3 & H4)].
  - rewrite H1 in HA. destruct (snd (v1_entries_with fx p m md c (ents_list ents) (sfb_new v1_options))) as [s'|er|]; cbn [alike bind] in *; try contradiction.
    subst s'. destruct (ents_end ents) as [g|] eqn:Ee.
    + right. split; [eexists; reflexivity|]. intros [_ H]. congruence.
    + left. cbn [app] in H3. exists s. destruct s as [o fdes]. cbn [sb_options sb_fdes] in *. subst o. cbn [quiet snd].
      rewrite (xmerge_noop md v1_conv c v1_options _ _ v1_opts_reached H3). cbn [map_err].
      split; [reflexivity|]. split; [reflexivity|]. split; [exact H3|]. split; [exact H4|exact Ee].
  - right. rewrite H4 in HA. destruct (snd (v1_entries_with fx p m md c (ents_list ents) (sfb_new v1_options))) as [s'|er'|]; cbn [alike bind] in *; try contradiction.
    split; [eexists; reflexivity|]. intros [H _]. rewrite H1 in H. apply Forall_mid in H. exact (entry_fault_not _ _ _ _ _ H3 H).
Qed.
