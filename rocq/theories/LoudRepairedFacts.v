(** Proofs about the repaired printing: what is printed, as in LoudFacts.v and
    LoudDump.v, whichever switches are on. *)
From Coq Require Import String Ascii.
From Verif Require Export LoudRepaired LoudWitness OperandFacts.
Local Open Scope string_scope.

Section Said.
Variable fx : lfixes.

(** ** Messages *)

Definition row_message_said (pr : printers) (a : arch) (r : dw_row) : option string :=
  match dr_cfa r with
  | CfaExpression _ => Some "CFA recovery rule requires evaluating a DWARF expression"
  | CfaReg reg cfa =>
      match (if reg =? reg_sp a then Some Sp else if reg =? reg_fp a then Some Fp else None)%Z with
      | None => Some ("unsupported CFA source register `" ++ display_register pr a reg ++ "`")
      | Some base =>
          if in_i32b cfa then
            match (match dr_register r (reg_fp a) with
                   | ROffset o => if in_i32b o then None else Some ("FP register offset " ++ offset_said fx o ++ " too large to represented in the SFrame format")
                   | RSameValue | RUndefined => None
                   | rule => Some ("Unsupport FP recovery rule: `" ++ display_rule pr a rule ++ "`")
                   end) with
            | Some m => Some m
            | None =>
                match dr_register r (reg_ra a) with
                | ROffset o => if in_i32b o then None else Some ("RA register offset " ++ offset_said fx o ++ " too large to represented in the SFrame format")
                | rule => Some ("Unsupport RA recovery rule: `" ++ display_rule pr a rule ++ "`")
                end
            end
          else Some ("CFA register offset " ++ offset_said fx cfa ++ " too large to be represented in the SFrame format")
      end
  end.
Lemma row_message_classify_said pr a r : row_message_said pr a r = None <-> classify a r <> None.
Proof.
  unfold row_message_said, classify. destruct (dr_cfa r) as [reg cfa|x]; [|split; [discriminate|congruence]].
  destruct (if (reg =? reg_sp a)%Z then Some Sp else if (reg =? reg_fp a)%Z then Some Fp else None) as [base|];
    [|split; [discriminate|congruence]].
  destruct (in_i32b cfa); [|split; [discriminate|congruence]].
  destruct (dr_register r (reg_fp a)) as [| |o| | | | | |]; try (split; [discriminate|congruence]);
    try (destruct (in_i32b o); [|split; [discriminate|congruence]]);
    (destruct (dr_register r (reg_ra a)) as [| |o'| | | | | |]; try (split; [discriminate|congruence]);
     destruct (in_i32b o'); (split; [discriminate|congruence]) || (split; [congruence|reflexivity])).
Qed.
Lemma row_message_lost_said pr a r : (exists m, row_message_said pr a r = Some m) <-> unrepresentable a r.
Proof.
  rewrite <- classify_none. pose proof (row_message_classify_said pr a r) as H. split.
  - intros [m E]. destruct (classify a r); [|reflexivity]. rewrite E in H. exfalso. destruct H as [_ H].
    assert (Some m = None) by (apply H; discriminate). discriminate.
  - intros E. destruct (row_message_said pr a r) as [m|]; [exists m; reflexivity|]. exfalso. apply H; auto.
Qed.
Lemma convert_row_loud_eq_said pr md op f r : 0 <= off f r < i32_max ->
  convert_row_said fx pr md op f r =
  match row_message_said pr (op_arch op) r with
  | None => Ok (RoOk (img (op_arch op) f r))
  | Some m => warn_said fx md op f r m
  end.
Proof.
  intros Hd. unfold convert_row_said, row_message_said, img, classify.
  change arch_fp with reg_fp. change arch_sp with reg_sp. change arch_ra with reg_ra.
  destruct (dr_cfa r) as [reg cfa|]; [|reflexivity].
  destruct (if (reg =? reg_sp (op_arch op))%Z then Some Sp else if (reg =? reg_fp (op_arch op))%Z then Some Fp else None)
    as [base|]; [|reflexivity].
  unfold off in *. rewrite sub_u64_ok by lia. cbn [bind].
  unfold row_start_ok. destruct (Z.ltb_spec (dr_start r - df_start f) i32_max); [|lia]. cbn [negb].
  destruct (in_i32b cfa); cbn [negb]; [|reflexivity].
  destruct (dr_register r (reg_fp (op_arch op))) as [| |o| | | | | |]; try reflexivity;
    try (destruct (in_i32b o); [|reflexivity]);
    (destruct (dr_register r (reg_ra (op_arch op))) as [| |o'| | | | | |]; try reflexivity;
     destruct (in_i32b o'); reflexivity).
Qed.
Lemma rows_reported_said (W : dw_fde * dw_row -> string -> Prop) pr md op f :
  0 <= df_start f <= i32_max ->
  forall l b,
  (forall r m, In r l -> row_message_said pr (op_arch op) r = Some m -> 0 <= off f r < i32_max ->
     W (f, r) ("warning: " ++ warn_text_said fx (df_start f) (off f r) (df_len f) m)) ->
  Forall dw_row_typed l ->
  reported (row_lost (op_arch op)) (fun lost => warnings_match op W lost (fst (convert_rows_said fx pr md op f l b)))
    (map (pair f) (filter wideb l)) (finished (snd (convert_rows_said fx pr md op f l b))).
Proof.
  intros Hf. induction l as [|r t IH]; intros b HW Ht.
  - exists [], [], []. split; [reflexivity|]. split; [reflexivity|]. split; [constructor|]. apply warnings_match_silent. reflexivity.
  - assert (IH' : forall b, reported (row_lost (op_arch op)) (fun lost => warnings_match op W lost (fst (convert_rows_said fx pr md op f t b)))
      (map (pair f) (filter wideb t)) (finished (snd (convert_rows_said fx pr md op f t b)))).
    { intros b0. apply IH; [intros r0 m H; apply HW; right; exact H|apply Forall_inv_tail in Ht; exact Ht]. }
    clear IH. pose proof (Forall_inv Ht) as [[Hr1 Hr2] _]. cbn [convert_rows_said].
    set (dbg := if op_debugdump op then say (row_dump pr (op_arch op) r) else say []).
    assert (Hdbg : exists l0, dbg = @say conv_error l0 /\ stderr_of l0 = []).
    { subst dbg. destruct (op_debugdump op); eexists; (split; [reflexivity|]); [apply stderr_row_dump|reflexivity]. }
    destruct Hdbg as (l0 & -> & Hl0). rewrite lbind_say. cbn [fst snd].
    assert (Hsil : forall lost ev, warnings_match op W lost ev -> warnings_match op W lost (l0 ++ ev)).
    { intros lost ev H. apply (warnings_match_app op W [] lost l0 ev); [apply warnings_match_silent, Hl0|exact H]. }
    cbn [filter]. unfold wideb at 1. destruct (dr_start r =? dr_end r)%Z; cbn [negb].
    { destruct (IH' b) as (pre & post & lost & H1 & H2 & H3 & H4). exists pre, post, lost.
      split; [exact H1|]. split; [exact H2|]. split; [exact H3|]. apply Hsil, H4. }
    assert (Hstop : forall (o : outcome conv_error fdb), ~ finished o -> reported (row_lost (op_arch op))
       (fun lost => warnings_match op W lost (l0 ++ [])) (map (pair f) (r :: filter wideb t)) (finished o)).
    { intros o Ho. apply reported_none; [exact Ho|]. apply Hsil, warnings_match_silent. reflexivity. }
    destruct (sub_u64 md (dr_start r) (df_start f)) as [d|er|] eqn:Ed.
    2,3: unfold lbind; cbn [quiet fst snd]; apply Hstop; intros [? ?]; discriminate.
    rewrite lbind_quiet_ok. destruct (row_start_ok d) eqn:Eok; cbn [negb].
    2:{ cbn [quiet fst snd]. apply Hstop. intros [? ?]; discriminate. }
    assert (Hd : d = off f r /\ 0 <= off f r < i32_max).
    { unfold row_start_ok in Eok. apply Z.ltb_lt in Eok. unfold off, i32_max in *. unfold sub_u64 in Ed.
      destruct (Z.leb_spec 0 (dr_start r - df_start f)); [assert (d = dr_start r - df_start f) by congruence; lia|].
      destruct (overflow_checks md); [discriminate|].
      assert (d = as_u 64 (dr_start r - df_start f)) as Hd by congruence. unfold as_u in Hd.
      assert ((dr_start r - df_start f) mod 2 ^ 64 = dr_start r - df_start f + 2 ^ 64) as Hm by (symmetry; apply Z.mod_unique with (-1); lia).
      lia. }
    destruct Hd as [-> Hd]. rewrite convert_row_loud_eq_said by exact Hd.
    destruct (row_message_said pr (op_arch op) r) as [m|] eqn:Em.
    + assert (HL : row_lost (op_arch op) (f, r)) by (apply (row_message_lost_said pr); exists m; exact Em).
      unfold warn_said. destruct (op_warnings op) eqn:Ew; cbn [negb].
      * rewrite sub_u64_ok by (apply Hd). cbn [bind]. fold (off f r). destruct (negb (lf_digits fx) && (df_len f =? 0)%Z)%bool; cbn [lift].
        { unfold lbind; cbn [quiet fst snd]. apply Hstop. intros [? ?]; discriminate. }
        rewrite lbind_quiet_ok, lbind_say_quiet. cbn [fst snd].
        set (w := "warning: " ++ warn_text_said fx (df_start f) (off f r) (df_len f) m).
        assert (Hw : W (f, r) w) by (apply HW; [left; reflexivity|exact Em|exact Hd]).
        assert (Hone : forall lost ev, warnings_match op W lost ev -> warnings_match op W ((f, r) :: lost) (ErrOut w :: ev)).
        { intros lost ev. unfold warnings_match. rewrite Ew. intros H. cbn. constructor; [exact Hw|exact H]. }
        destruct (fdb_row b (row_invalid (off f r))) as [b'|er|].
        -- destruct (IH' b') as (pre & post & lost & H1 & H2 & H3 & H4).
           exists ((f, r) :: pre), post, ((f, r) :: lost). split; [cbn; rewrite H1; reflexivity|]. split; [exact H2|].
           split; [constructor; assumption|]. apply Hsil, Hone, H4.
        -- exists [(f, r)], (map (pair f) (filter wideb t)), [(f, r)]. split; [reflexivity|]. split; [intros [? ?]; discriminate|].
           split; [constructor; [exact HL|constructor]|]. apply Hsil, Hone, warnings_match_silent. reflexivity.
        -- exists [(f, r)], (map (pair f) (filter wideb t)), [(f, r)]. split; [reflexivity|]. split; [intros [? ?]; discriminate|].
           split; [constructor; [exact HL|constructor]|]. apply Hsil, Hone, warnings_match_silent. reflexivity.
      * cbn [lift]. rewrite lbind_quiet_ok, lbind_say_quiet. cbn [fst snd app].
        assert (Hone : forall lost ev, warnings_match op W lost ev -> warnings_match op W ((f, r) :: lost) ev).
        { intros lost ev. unfold warnings_match. rewrite Ew. auto. }
        destruct (fdb_row b (row_invalid (off f r))) as [b'|er|].
        -- destruct (IH' b') as (pre & post & lost & H1 & H2 & H3 & H4).
           exists ((f, r) :: pre), post, ((f, r) :: lost). split; [cbn; rewrite H1; reflexivity|]. split; [exact H2|].
           split; [constructor; assumption|]. apply Hsil, Hone, H4.
        -- apply Hstop. intros [? ?]; discriminate.
        -- apply Hstop. intros [? ?]; discriminate.
    + assert (HL : ~ row_lost (op_arch op) (f, r)).
      { intros H. apply (row_message_lost_said pr) in H. destruct H as [m H]. cbn in H. congruence. }
      cbn [lift]. rewrite !lbind_quiet_ok. destruct (fdb_row b (img (op_arch op) f r)) as [b'|er|].
      * destruct (IH' b') as (pre & post & lost & H1 & H2 & H3 & H4).
        exists ((f, r) :: pre), post, lost. split; [cbn; rewrite H1; reflexivity|]. split; [exact H2|].
        split; [apply sieve_drop; assumption|]. apply Hsil, H4.
      * apply Hstop. intros [? ?]; discriminate.
      * apply Hstop. intros [? ?]; discriminate.
Qed.
Lemma mute_expression_said pr reg i x : mute (dump_expression_said fx pr reg i x).
Proof. unfold mute, dump_expression_said. cbn [fst]. apply stderr_outs. Qed.
Lemma mute_insns_said pr reg fin en : stderr_of fin = [] -> forall l, mute (dump_insns_said fx pr reg l en fin).
Proof.
  intros Hfin. induction l as [|i t IH]; cbn [dump_insns_said].
  - destruct en; [reflexivity|exact Hfin].
  - apply mute_bind; [reflexivity|]. intros _. apply mute_bind; [|intros _; exact IH].
    destruct (insn_expression i); [apply mute_expression_said|reflexivity].
Qed.
Definition fde_prelude_said (pr : printers) (md : mode) (op : options) (f : dw_fde) : loud conv_error unit :=
  if op_debugdump op then
    let! _ := say [ Out "FDE:"; Out (" start_address: " ++ fmt_hex_alt_pad 64 10 (df_start f)) ] in
    let! e := quiet (add_u64 md (df_start f) (df_len f)) in
    let! _ := say [ Out ("    range_size: " ++ fmt_hex_alt_pad 64 10 (df_len f) ++
                      " (end_addr = " ++ fmt_hex_alt_pad 64 10 e ++ ")") ] in
    let! _ := loud_err InvalidDwarfFde (dump_cfi_said fx pr (op_arch op) (df_insns f)) in
    say [ Out ""; Out "Rows:" ]
  else say [].
Lemma mute_prelude_said pr md op f : mute (fde_prelude_said pr md op f).
Proof.
  unfold fde_prelude_said. destruct (op_debugdump op); [|reflexivity].
  apply mute_bind; [reflexivity|]. intros _. apply mute_bind; [apply mute_quiet|]. intros e.
  apply mute_bind; [reflexivity|]. intros _. apply mute_bind; [|reflexivity].
  unfold mute, loud_err. cbn [fst]. apply mute_insns_said. reflexivity.
Qed.
Lemma fde_reported_said (W : dw_fde * dw_row -> string -> Prop) pr md op s f :
  dw_fde_typed f ->
  (forall r m, In r (dw_rows_of f) -> row_message_said pr (op_arch op) r = Some m -> 0 <= off f r < i32_max -> df_start f <= i32_max ->
     W (f, r) ("warning: " ++ warn_text_said fx (df_start f) (off f r) (df_len f) m)) ->
  reported (row_lost (op_arch op)) (fun lost => warnings_match op W lost (fst (convert_fde_said fx pr md op s f)))
    (map (pair f) (wide_rows f)) (finished (snd (convert_fde_said fx pr md op s f))).
Proof.
  intros ([Hs _] & _ & Ht) HW. unfold convert_fde_said. fold (fde_prelude_said pr md op f).
  pose proof (mute_prelude_said pr md op f) as Hp. destruct (fde_prelude_said pr md op f) as [pv po]. unfold mute in Hp. cbn [fst] in Hp.
  assert (Hsil : forall lost ev, warnings_match op W lost ev -> warnings_match op W lost (pv ++ ev)).
  { intros lost ev H. apply (warnings_match_app op W [] lost pv ev); [apply warnings_match_silent, Hp|exact H]. }
  assert (Hstop : forall (o : outcome conv_error sfb), ~ finished o -> reported (row_lost (op_arch op))
     (fun lost => warnings_match op W lost (pv ++ [])) (map (pair f) (wide_rows f)) (finished o)).
  { intros o Ho. apply reported_none; [exact Ho|]. apply Hsil, warnings_match_silent. reflexivity. }
  destruct po as [u|er|]; [rewrite !lbind_ok; cbn [fst snd]|unfold lbind at 1 4; cbn [fst snd]..].
  2,3: apply reported_none; [intros [? Hx]; discriminate Hx|apply warnings_match_silent, Hp].
  destruct (i32_max <? df_start f)%Z eqn:E1; [apply Hstop; cbn [snd quiet]; apply not_finished_err|].
  destruct (i32_max <? df_len f)%Z; [apply Hstop; cbn [snd quiet]; apply not_finished_err|]. apply Z.ltb_ge in E1.
  unfold wide_rows, dw_rows_of in *. destruct (df_rows f) as [[l en]|g]; [|apply Hstop; cbn [snd quiet]; apply not_finished_err]. cbn [rows_list rows_end] in *.
  set (b0 := fdb_new (sb_options s) (as_s 32 (df_start f)) (as_u 32 (df_len f))).
  destruct (rows_reported_said W pr md op f (conj Hs E1) l b0 (fun r m K1 K2 K3 => HW r m K1 K2 K3 E1) Ht) as (pre & post & lost & H1 & H2 & H3 & H4).
  destruct (convert_rows_said fx pr md op f l b0) as [rv ro]. cbn [fst snd] in *.
  assert (Hend : forall (o : outcome conv_error sfb) ev, (finished o -> finished ro) -> stderr_of ev = [] -> reported (row_lost (op_arch op))
     (fun lost => warnings_match op W lost (pv ++ (rv ++ ev))) (map (pair f) (filter wideb l)) (finished o)).
  { intros o ev Ho Hev. exists pre, post, lost. split; [exact H1|]. split; [intros Hfin; apply H2, Ho, Hfin|]. split; [exact H3|].
    apply Hsil. rewrite <- (app_nil_r lost). apply warnings_match_app; [exact H4|apply warnings_match_silent, Hev]. }
  destruct ro as [b|er|].
  2,3: unfold lbind; cbn [fst snd]; rewrite <- (app_nil_r rv); apply Hend; [intros [? Hx]; discriminate Hx|reflexivity].
  assert (Hfb : finished (@Ok conv_error _ b)) by (exists b; reflexivity).
  rewrite !lbind_ok. cbn [fst snd].
  destruct en as [g|]; [apply Hend; [intros _; exact Hfb|reflexivity]|].
  apply Hend; [intros _; exact Hfb|]. apply mute_bind; [apply mute_quiet|]. intros b1. apply mute_bind; [apply mute_quiet|]. intros s1.
  apply mute_bind; [destruct (op_debugdump op); reflexivity|]. intros _. apply mute_quiet.
Qed.
Lemma entries_reported_said (W : dw_fde * dw_row -> string -> Prop) pr md op : forall l s,
  Forall dw_entry_typed l ->
  (forall f r m, In f (functions l) -> In r (dw_rows_of f) -> row_message_said pr (op_arch op) r = Some m -> 0 <= off f r < i32_max -> df_start f <= i32_max ->
     W (f, r) ("warning: " ++ warn_text_said fx (df_start f) (off f r) (df_len f) m)) ->
  reported (row_lost (op_arch op)) (fun lost => warnings_match op W lost (fst (convert_entries_said fx pr md op l s)))
    (flat_map (fun f => map (pair f) (wide_rows f)) (functions l)) (finished (snd (convert_entries_said fx pr md op l s))).
Proof.
  induction l as [|x t IH]; intros s Ht HW; cbn [convert_entries_said functions].
  - exists [], [], []. split; [reflexivity|]. split; [reflexivity|]. split; [constructor|]. apply warnings_match_silent. reflexivity.
  - apply Forall_cons_iff in Ht. destruct Ht as [Hx Ht]. destruct x as [|g|f].
    + apply IH; assumption.
    + apply reported_none; [apply not_finished_err|apply warnings_match_silent; reflexivity].
    + cbn [functions flat_map] in *. 
      destruct (fde_reported_said W pr md op s f Hx (fun r m => HW f r m (or_introl eq_refl))) as (pre & post & lost & H1 & H2 & H3 & H4).
      destruct (convert_fde_said fx pr md op s f) as [fv fo]. cbn [fst snd] in *. unfold lbind. cbn [fst snd].
      destruct fo as [s'|er|]; cbn [fst snd].
      2,3: exists pre, (post ++ flat_map (fun f => map (pair f) (wide_rows f)) (functions t))%list, lost;
         (split; [rewrite app_assoc, <- H1; reflexivity|]); (split; [intros [? Hd]; discriminate Hd|]); (split; [exact H3|exact H4]).
      rewrite H2 in H1 by (exists s'; reflexivity). rewrite app_nil_r in H1.
      destruct (IH s' Ht (fun f0 r m H => HW f0 r m (or_intror H))) as (pre' & post' & lost' & K1 & K2 & K3 & K4).
      exists (pre ++ pre')%list, post', (lost ++ lost')%list. split; [rewrite H1, K1, app_assoc; reflexivity|].
      split; [exact K2|]. split; [apply sieve_app; assumption|apply warnings_match_app; assumption].
Qed.
Theorem conversion_reported_said (W : dw_fde * dw_row -> string -> Prop) pr md op eh ev o :
  eh_typed eh -> dwarf2sframe_run fx pr md op eh = (ev, o) ->
  (forall f r m, In f (functions (entries_of eh)) -> In r (dw_rows_of f) -> row_message_said pr (op_arch op) r = Some m -> 0 <= off f r < i32_max -> df_start f <= i32_max ->
     W (f, r) ("warning: " ++ warn_text_said fx (df_start f) (off f r) (df_len f) m)) ->
  reported (row_lost (op_arch op)) (fun lost => warnings_match op W lost ev) (rows_met eh) (finished o).
Proof.
  intros Ht E HW. unfold dwarf2sframe_run in E. unfold rows_met, entries_of in *.
  destruct (entries_reported_said W pr md op _ (sfb_new (conv_sfoptions op eh)) Ht HW) as (pre & post & lost & H1 & H2 & H3 & H4).
  destruct (convert_entries_said fx _ _ _ _ _) as [cv co]. cbn [fst snd] in *. unfold lbind in E. cbn [fst snd] in E.
  assert (Hcv : ev = cv /\ (finished o -> finished co)).
  { destruct co as [s|er|]; cbn in E.
    - split; [|intros _; exists s; reflexivity].
      destruct (ents_end (eh_entries eh)); cbn in E; rewrite app_nil_r in E; congruence.
    - split; [congruence|]. intros [? Hx]. subst. discriminate.
    - split; [congruence|]. intros [? Hx]. subst. discriminate. }
  destruct Hcv as [-> Hfin]. exists pre, post, lost. auto.
Qed.

(** ** The debug dump *)

Definition insn_lines_said (pr : printers) (t : option reg_table) (i : insn) : list string :=
  insn_text pr (register_text pr t) i ::
  match insn_expression i with
  | Some x => map (op_text_said fx pr (register_text pr t) "                  ") (ex_ops x)
  | None => []
  end.
Definition function_lines_said (pr : printers) (a : arch) (f : dw_fde) : list string :=
  (head_lines f ++ (flat_map (insn_lines_said pr (names_of a)) (is_list (df_insns f)) ++ broken_lines pr (is_end (df_insns f))) ++
   "" :: "Rows:" :: flat_map (row_lines pr a) (dw_rows_of f) ++ [""])%list.
Lemma dump_insns_lines_said pr t en : forall l,
  snd (dump_insns_said fx pr (register_text pr t) l en []) = Ok tt ->
  stdout_of (fst (dump_insns_said fx pr (register_text pr t) l en [])) =
  (flat_map (insn_lines_said pr t) l ++ broken_lines pr en)%list.
Proof.
  induction l as [|i u IH]; cbn [dump_insns_said]; intros H; [destruct en; reflexivity|].
  apply snd_ok_lbind in H. destruct H as (v & _ & H & ->). apply snd_ok_lbind in H. destruct H as ([] & Hx & H & ->).
  rewrite !stdout_app, (IH H). cbn [flat_map]. unfold insn_lines_said at 2.
  destruct (insn_expression i) as [x|].
  - unfold dump_expression_said in *. cbn [fst snd say]. rewrite stdout_outs. cbn. rewrite <- app_assoc. reflexivity.
  - reflexivity.
Qed.
Lemma rows_stdout_said pr md op f : op_debugdump op = true -> forall l b b',
  snd (convert_rows_said fx pr md op f l b) = Ok b' ->
  stdout_of (fst (convert_rows_said fx pr md op f l b)) = flat_map (row_lines pr (op_arch op)) l.
Proof.
  intros Hd. induction l as [|r t IH]; intros b b' H; [reflexivity|]. cbn [convert_rows_said flat_map] in *. rewrite Hd in *.
  apply snd_ok_lbind in H. destruct H as (u & _ & H & ->). rewrite stdout_app. f_equal.
  destruct (dr_start r =? dr_end r)%Z; [apply (IH _ _ H)|].
  apply snd_ok_lbind in H. destruct H as (d & _ & H & ->). rewrite stdout_app. cbn [quiet fst stdout_of flat_map app].
  destruct (negb (row_start_ok d)); [discriminate H|].
  apply snd_ok_lbind in H. destruct H as (res & _ & H & ->). rewrite stdout_app. cbn [quiet fst stdout_of flat_map app].
  apply snd_ok_lbind in H. destruct H as (nr & Hn & H & ->). rewrite stdout_app.
  match goal with |- (stdout_of ?e ++ _)%list = _ => assert (stdout_of e = []) as -> end.
  { destruct res as [r'|w|er]; try reflexivity. destruct (op_warnings op); reflexivity. }
  cbn [app]. destruct (fdb_row b nr); try discriminate H. apply (IH _ _ H).
Qed.
Lemma fde_stdout_said pr md op s f s' : op_debugdump op = true -> dw_fde_typed f ->
  snd (convert_fde_said fx pr md op s f) = Ok s' ->
  stdout_of (fst (convert_fde_said fx pr md op s f)) = function_lines_said pr (op_arch op) f.
Proof.
  intros Hd Ht H. pose proof Ht as (Hs & Hl & _). unfold in_u64 in *.
  unfold convert_fde_said in *. rewrite Hd in *.
  apply snd_ok_lbind in H. destruct H as ([] & Hp & H & ->). rewrite stdout_app.
  destruct (i32_max <? df_start f)%Z eqn:E1; [discriminate H|]. destruct (i32_max <? df_len f)%Z eqn:E2; [discriminate H|].
  destruct (df_rows f) as [rows|g] eqn:Er; [|discriminate H].
  apply snd_ok_lbind in H. destruct H as (b & Hb & H & ->). rewrite stdout_app, (rows_stdout_said _ _ _ _ Hd _ _ _ Hb).
  destruct (rows_end rows) as [g|]; [discriminate H|].
  apply snd_ok_lbind in H. destruct H as (b1 & _ & H & ->). rewrite stdout_app. cbn [quiet fst stdout_of flat_map app].
  apply snd_ok_lbind in H. destruct H as (s1 & _ & H & ->). cbn [quiet fst app].
  apply snd_ok_lbind in H. destruct H as ([] & _ & H & ->). cbn [say fst quiet app].
  apply snd_ok_lbind in Hp. destruct Hp as ([] & _ & Hp & ->). rewrite stdout_app.
  apply snd_ok_lbind in Hp. destruct Hp as (e & He & Hp & ->). rewrite stdout_app.
  apply snd_ok_lbind in Hp. destruct Hp as ([] & _ & Hp & ->). rewrite stdout_app.
  apply snd_ok_lbind in Hp. destruct Hp as ([] & Hi & Hp & ->). rewrite stdout_app.
  assert (e = df_start f + df_len f) as ->.
  { cbn [quiet snd] in He. unfold add_u64 in He.
    assert (Hf : df_start f + df_len f < 2 ^ 64) by (apply Z.ltb_ge in E1, E2; unfold i32_max in *; lia).
    apply Z.ltb_lt in Hf. rewrite Hf in He. injection He as <-. reflexivity. }
  unfold function_lines_said, dump_cfi_said in *. unfold dw_rows_of at 1. rewrite Er.
  cbn [loud_err fst snd] in *. rewrite (dump_insns_lines_said pr (names_of (op_arch op))).
  - cbn [quiet say fst stdout_of flat_map app head_lines]. do 3 f_equal. rewrite <- !app_assoc. cbn [app]. reflexivity.
  - change (register_text pr (names_of (op_arch op))) with (display_register pr (op_arch op)). destruct (snd (dump_insns_said fx pr (display_register pr (op_arch op)) (is_list (df_insns f)) (is_end (df_insns f)) [])) as [[]|g|];
      [reflexivity|discriminate Hi|discriminate Hi].
Qed.
Definition op_line_said (pr : printers) (t : option reg_table) (o : operation) : string :=
  op_text_said fx pr (register_text pr t) "                  " o.
Lemma op_line_other_said pr t o : plain_texts pr t ->
  op_line_said pr t o <> "" /\ after "Failed to decode CFI instruction: " (op_line_said pr t o) = None /\ read_insn (op_line_said pr t o) = None.
Proof.
  intros Hp. unfold op_line_said, op_text_said.
  pose proof (op_line_other pr t (lf_types fx) o Hp) as Hl. unfold op_line in Hl.
  destruct (lf_names fx) as [other|]; [|exact Hl].
  destruct o; try exact Hl; (split; [discriminate|]); split; reflexivity.
Qed.
Definition view_insn_said (pr : printers) (t : option reg_table) (i : insn) : insn_view :=
  InsnView (bare_text pr t i) (tl (insn_lines_said pr t i)).
Lemma read_ops_said pr t is b : plain_texts pr t -> forall l rest, read_insns rest = ([], is, b) ->
  read_insns (map (op_line_said pr t) l ++ rest) = (map (op_line_said pr t) l, is, b).
Proof.
  intros Hp. induction l as [|o l IH]; intros rest H; [exact H|]. cbn [map app read_insns].
  rewrite (IH _ H). destruct (op_line_other_said pr t o Hp) as (_ & -> & ->). reflexivity.
Qed.
Lemma read_insns_lines_said pr t en : plain_texts pr t -> forall l,
  read_insns (flat_map (insn_lines_said pr t) l ++ broken_lines pr en) =
  ([], map (view_insn_said pr t) l, option_map (pr_gimli pr) en).
Proof.
  intros Hp. induction l as [|i l IH].
  - destruct en as [g|]; [|reflexivity]. cbn [flat_map app broken_lines read_insns]. rewrite after_app. reflexivity.
  - cbn [flat_map map]. rewrite <- app_assoc. unfold insn_lines_said at 1. cbn [app read_insns].
    destruct (insn_line_read pr t i Hp) as (_ & -> & ->).
    unfold view_insn_said at 1, insn_lines_said at 2. cbn [tl].
    destruct (insn_expression i) as [x|].
    + change (map (op_text_said fx pr (register_text pr t) "                  ")) with (map (op_line_said pr t)).
      rewrite (read_ops_said pr t _ _ Hp _ _ IH). reflexivity.
    + cbn [app]. rewrite IH. reflexivity.
Qed.
Lemma insns_nonempty_said pr t en : plain_texts pr t -> forall l,
  Forall (fun s => s <> "") (flat_map (insn_lines_said pr t) l ++ broken_lines pr en).
Proof.
  intros Hp l. apply Forall_app. split.
  - induction l as [|i l IH]; [constructor|]. cbn [flat_map]. apply Forall_app. split; [|exact IH].
    constructor; [apply (insn_line_read pr t i Hp)|]. destruct (insn_expression i) as [x|]; [|constructor].
    apply Forall_forall. intros s Hs. apply in_map_iff in Hs. destruct Hs as (o & <- & _). apply (op_line_other_said pr t o Hp).
  - destruct en; [|constructor]. constructor; [discriminate|constructor].
Qed.
Definition view_function_said (pr : printers) (a : arch) (f : dw_fde) : fde_view :=
  FdeView (df_start f) (df_len f) (df_start f + df_len f) (map (view_insn_said pr (names_of a)) (is_list (df_insns f)))
    (option_map (pr_gimli pr) (is_end (df_insns f))) (map (view_row pr a) (dw_rows_of f)).
Lemma read_function_lines_said pr a f rest : plain_texts pr (names_of a) -> function_full_typed f -> df_start f + df_len f < 2 ^ 64 ->
  read_function (function_lines_said pr a f ++ rest) = Some (view_function_said pr a f, rest).
Proof.
  intros Hp (Hs & Hl & _ & Hr) He. unfold in_u64 in *. unfold function_lines_said, head_lines.
  rewrite <- !app_assoc. cbn [app read_function]. rewrite <- !app_assoc. cbn [app].
  replace (String.eqb "FDE:" "FDE:") with true by reflexivity. unfold fmt_hex_alt_pad.
  change (" start_address: " ++ "0x" ++ ?x) with (" start_address: 0x" ++ x). rewrite after_app.
  rewrite !app_assoc_s. change ("    range_size: " ++ "0x" ++ ?x) with ("    range_size: 0x" ++ x).
  change (" (end_addr = " ++ "0x" ++ ?x) with (String " " ("(end_addr = 0x" ++ x)).
  rewrite enclosed_hex by (reflexivity || lia). change (?x ++ ")") with (x ++ String ")" "").
  rewrite enclosed_hex by (reflexivity || lia). rewrite number_zero_pad by apply hex_nonempty. rewrite number_hex by lia.
  unfold as_u. rewrite Z.mod_small by lia.
  rewrite app_assoc. rewrite (paragraph_app _ _ (insns_nonempty_said pr (names_of a) (is_end (df_insns f)) Hp (is_list (df_insns f)))).
  replace (String.eqb "Rows:" "Rows:") with true by reflexivity.
  rewrite (read_insns_lines_said pr (names_of a) _ Hp). rewrite (paragraph_app _ _ (rows_nonempty pr a _)).
  rewrite (read_rows_lines pr a Hp _ Hr). reflexivity.
Qed.
Lemma insn_view_shown_said pr t i : plain_texts pr t -> insn_typed i -> insn_shown pr t i (view_insn_said pr t i).
Proof.
  intros Hp Ht. unfold insn_shown, view_insn_said. cbn [iv_text iv_below]. split.
  2:{ unfold insn_lines_said. cbn [tl]. destruct i; cbn [insn_expression block_of]; try reflexivity; apply map_length. }
  assert (Hc : forall r, without "," (register_text pr t r)) by (intros r; apply register_no; [exact Hp|right; reflexivity]).
  assert (Hr : forall r ops, Forall operand_typed (OReg r :: ops) -> operand_shown pr t (OReg r) (register_text pr t r)).
  { intros r ops H. pose proof (Forall_inv H) as H0. cbn [operand_typed operand_shown] in *. apply register_shown_text. lia. }
  assert (Hn : forall z, operand_shown pr t (ONum z) (fmt_dec z)) by (intros z; apply integer_dec).
  assert (Hd : without "," "...") by no_char.
  pose proof comma_dec as Hcd. pose proof comma_hex as Hch.
  unfold bare_text, insn_text. rewrite after_app. unfold insn_typed in Ht.
  destruct i; cbn [dwarf_insn] in *.
  all: try (eexists; split; [apply call_none; no_char|]; apply Forall2_nil).
  all: try change ", ...)" with (", " ++ "..." ++ ")").
  all: try (eexists; split; [apply call_two'; [reflexivity|no_char|auto|auto]|]).
  all: try (eexists; split; [apply call_one'; [reflexivity|no_char|auto]|]).
  all: try (apply Forall2_cons; [eauto|apply Forall2_nil]).
  all: try (apply Forall2_cons; [eauto|apply Forall2_cons; [first [apply (Hr _ _ (Forall_inv_tail Ht))|apply Hn|reflexivity]|apply Forall2_nil]]).
  - unfold fmt_hex_alt. eexists. split; [apply after_app|]. rewrite number_hex by lia. pose proof (Forall_inv Ht) as H. cbn in H.
    unfold as_u. rewrite Z.mod_small by lia. reflexivity.
  - exists ["..."]. split; [reflexivity|]. apply Forall2_cons; [reflexivity|apply Forall2_nil].
  - reflexivity.
Qed.
Lemma function_view_shown_said pr a f : plain_texts pr (names_of a) -> function_full_typed f -> function_shown pr (names_of a) f (view_function_said pr a f).
Proof.
  intros Hp (_ & _ & Hi & Hr). rewrite Forall_forall in Hi, Hr. unfold function_shown, view_function_said.
  cbn [fv_start fv_len fv_end fv_insns fv_broken fv_rows]. do 3 (split; [reflexivity|]). split; [|split; [reflexivity|]].
  - apply forall2_map. intros i H. apply insn_view_shown_said; [exact Hp|apply Hi, H].
  - apply forall2_map. intros r H. apply row_view_shown, Hr, H.
Qed.
Lemma read_functions_lines_said pr a : plain_texts pr (names_of a) -> forall l n rest,
  Forall (fun f => function_full_typed f /\ df_start f + df_len f < 2 ^ 64) l ->
  (Datatypes.length (flat_map (function_lines_said pr a) l) <= n)%nat -> rest = [] ->
  read_functions n (flat_map (function_lines_said pr a) l ++ rest) = Some (map (view_function_said pr a) l).
Proof.
  intros Hp. induction l as [|f l IH]; intros n rest H Hn ->; [destruct n; reflexivity|].
  pose proof (Forall_inv H) as [Hf He]. apply Forall_inv_tail in H. cbn [flat_map map] in *. rewrite app_length in Hn.
  assert (Hl : (0 < Datatypes.length (function_lines_said pr a f))%nat) by (cbn; lia).
  rewrite <- app_assoc. destruct n as [|n]; [lia|]. rewrite app_nil_r in *.
  cbn [read_functions].
  assert (Hx : exists s t, (function_lines_said pr a f ++ flat_map (function_lines_said pr a) l)%list = s :: t).
  { destruct (function_lines_said pr a f) as [|s t]; [cbn in Hl; lia|]. exists s, (t ++ flat_map (function_lines_said pr a) l)%list. reflexivity. }
  pose proof (read_function_lines_said pr a f (flat_map (function_lines_said pr a) l) Hp Hf He) as Hr.
  destruct Hx as (s & t & Hx). rewrite Hx in *. rewrite Hr.
  specialize (IH n [] H ltac:(lia) eq_refl). rewrite app_nil_r in IH. rewrite IH. reflexivity.
Qed.
Lemma entries_stdout_said pr md op : op_debugdump op = true -> forall l s,
  Forall dw_entry_typed l ->
  exists pre post rest, functions l = (pre ++ post)%list /\
    stdout_of (fst (convert_entries_said fx pr md op l s)) = (flat_map (function_lines_said pr (op_arch op)) pre ++ rest)%list /\
    (finished (snd (convert_entries_said fx pr md op l s)) -> post = [] /\ rest = []) /\
    Forall (fun f => df_start f <= i32_max /\ df_len f <= i32_max) pre.
Proof.
  intros Hd. induction l as [|en l IH]; intros s Ht; cbn [convert_entries_said].
  - exists [], [], []. split; [reflexivity|]. split; [reflexivity|]. split; [auto|constructor].
  - pose proof (Forall_inv Ht) as Hf. apply Forall_inv_tail in Ht. destruct en as [|g|f]; cbn [functions].
    + apply IH, Ht.
    + exists [], (functions l), []. cbn [quiet fst snd]. split; [reflexivity|]. split; [reflexivity|].
      split; [intros [? [=]]|constructor].
    + destruct (snd (convert_fde_said fx pr md op s f)) as [s'|er|] eqn:Es.
      2,3: exists [], (f :: functions l), (stdout_of (fst (convert_fde_said fx pr md op s f))); unfold lbind; rewrite Es; cbn [fst snd];
           (split; [reflexivity|]); (split; [reflexivity|]); (split; [intros [? [=]]|constructor]).
      rewrite snd_lbind, Es. cbn [bind]. rewrite (fst_lbind_ok _ _ _ Es), stdout_app.
      rewrite (fde_stdout_said _ _ _ _ _ _ Hd Hf Es).
      destruct (IH s' Ht) as (pre & post & rest & H1 & H2 & H3 & H4).
      exists (f :: pre), post, rest. cbn [flat_map app]. rewrite H1, H2, app_assoc. split; [reflexivity|]. split; [reflexivity|].
      split; [exact H3|]. constructor; [|exact H4].
      unfold convert_fde_said in Es. apply snd_ok_lbind in Es. destruct Es as (u & _ & Es & _).
      destruct (Z.ltb_spec i32_max (df_start f)); [discriminate Es|]. destruct (Z.ltb_spec i32_max (df_len f)); [discriminate Es|]. auto.
Qed.
Theorem debug_dump_views_said (P : dw_fde -> fde_view -> Prop) pr md op eh ev o :
  (forall f, function_full_typed f -> P f (view_function_said pr (op_arch op) f)) ->
  plain_texts pr (names_of (op_arch op)) -> eh_typed eh -> Forall function_full_typed (functions (entries_of eh)) ->
  op_debugdump op = true -> dwarf2sframe_run fx pr md op eh = (ev, o) ->
  exists pre post whole rest views,
    functions (entries_of eh) = (pre ++ post)%list /\ stdout_of ev = (whole ++ rest)%list /\
    read_debug whole = Some views /\ Forall2 P pre views /\
    (finished o -> post = [] /\ rest = []).
Proof.
  intros HP Hp Ht Hf Hd E. unfold dwarf2sframe_run in E. unfold entries_of in *.
  destruct (entries_stdout_said pr md op Hd _ (sfb_new (conv_sfoptions op eh)) Ht) as (pre & post & rest & H1 & H2 & H3 & H4).
  destruct (convert_entries_said fx _ _ _ _ _) as [cv co]. cbn [fst snd] in *. unfold lbind in E. cbn [fst snd] in E.
  assert (Hcv : ev = cv /\ (finished o -> finished co)).
  { destruct co as [s|er|]; cbn in E.
    - split; [|intros _; exists s; reflexivity].
      destruct (ents_end (eh_entries eh)); cbn in E; rewrite app_nil_r in E; congruence.
    - split; [congruence|]. intros [? Hx]. subst. discriminate.
    - split; [congruence|]. intros [? Hx]. subst. discriminate. }
  destruct Hcv as [-> Hfin].
  exists pre, post, (flat_map (function_lines_said pr (op_arch op)) pre), rest, (map (view_function_said pr (op_arch op)) pre).
  unfold entries_of in H1. rewrite H1 in Hf. apply Forall_app in Hf. destruct Hf as [Hf _].
  split; [exact H1|]. split; [exact H2|]. split; [|split; [|intros H; apply H3, Hfin, H]].
  - unfold read_debug. rewrite <- (app_nil_r (flat_map _ pre)) at 2. apply read_functions_lines_said; [exact Hp| |lia|reflexivity].
    clear -Hf H4. induction Hf as [|f l H Hl IH]; [constructor|]. pose proof (Forall_inv H4) as [Hs He].
    constructor; [|apply IH, (Forall_inv_tail H4)]. split; [exact H|]. unfold i32_max in *. lia.
  - apply forall2_map. intros f Hi. rewrite Forall_forall in Hf. apply HP, Hf, Hi.
Qed.
Lemma view_ops_said pr a (R : operation -> string -> Prop) f : (forall o, R o (op_line_said pr (names_of a) o)) -> ops_shown R f (view_function_said pr a f).
Proof.
  intros HR. unfold ops_shown, view_function_said. cbn [fv_insns]. apply forall2_map. intros i _. unfold view_insn_said, insn_lines_said.
  cbn [tl iv_below]. destruct i; cbn [block_of insn_expression]; try reflexivity; apply forall2_map; intros o _; apply HR.
Qed.

End Said.
