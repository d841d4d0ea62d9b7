(** What the repaired printing says (C72-C74, C76, C77). *)
From Coq Require Import String Ascii.
From Verif Require Export LoudRepairedSpec LoudRepairedFacts.
Local Open Scope string_scope.

(** ** Without repairs *)

Lemma insns_none pr reg en fin : forall l, dump_insns_said lf_none pr reg l en fin = dump_insn_list pr reg false l en fin.
Proof.
  induction l as [|i t IH]; [reflexivity|]. cbn [dump_insns_said dump_insn_list]. rewrite IH. reflexivity.
Qed.
Lemma rows_none pr md op f : forall l b, convert_rows_said lf_none pr md op f l b = convert_rows_loud pr md op f l b.
Proof.
  induction l as [|r t IH]; intros b; [reflexivity|]. cbn [convert_rows_said convert_rows_loud].
  unfold lbind, quiet. destruct (if op_debugdump op then _ else _) as [l0 [u|er|]]; cbn [fst snd]; try reflexivity.
  destruct (dr_start r =? dr_end r)%Z; [rewrite IH; reflexivity|].
  destruct (sub_u64 md (dr_start r) (df_start f)) as [d|er|]; cbn [fst snd]; try reflexivity.
  destruct (negb (row_start_ok d)); [reflexivity|].
  change (convert_row_said lf_none pr md op f r) with (convert_row_loud pr md op f r).
  destruct (lift (convert_row_loud pr md op f r)) as [res|er|]; cbn [fst snd]; try reflexivity.
  match goal with |- context [match snd ?x with _ => _ end] => destruct (snd x) as [nr|er|] end; cbn [fst snd]; try reflexivity.
  destruct (fdb_row b nr) as [b'|er|]; [rewrite IH; reflexivity|reflexivity|reflexivity].
Qed.
Lemma fde_none pr md op s f : convert_fde_said lf_none pr md op s f = convert_fde_loud pr md op s f.
Proof.
  unfold convert_fde_said, convert_fde_loud, dump_cfi_said, dump_cfi_instructions. rewrite insns_none.
  destruct (df_rows f) as [rows|g]; [|reflexivity]. rewrite rows_none. reflexivity.
Qed.
Lemma entries_none pr md op : forall l s, convert_entries_said lf_none pr md op l s = convert_entries_loud pr md op l s.
Proof.
  induction l as [|[|g|f] t IH]; intros s; cbn [convert_entries_said convert_entries_loud]; try reflexivity; [apply IH|].
  rewrite fde_none. unfold lbind. destruct (snd (convert_fde_loud pr md op s f)); try reflexivity. rewrite IH. reflexivity.
Qed.
Theorem said_none pr md op eh : dwarf2sframe_said lf_none pr md op eh = dwarf2sframe_loud pr md op eh.
Proof. unfold dwarf2sframe_said, dwarf2sframe_run, dwarf2sframe_loud. rewrite entries_none. reflexivity. Qed.

(** ** The result *)

Lemma same_refl {E A} (o : outcome E A) : same_or_panic o o.
Proof. right. reflexivity. Qed.
Lemma same_bind {E A B} (o o' : outcome E A) (k k' : A -> outcome E B) :
  same_or_panic o o' -> (forall a, same_or_panic (k a) (k' a)) -> same_or_panic (bind o k) (bind o' k').
Proof.
  intros [->| ->] H; [left; reflexivity|]. destruct o' as [a|er|]; cbn [bind]; [apply H|apply same_refl|apply same_refl].
Qed.
Lemma warn_same fx md op f r m : same_or_panic (map_ok quiet_row (warn_said fx md op f r m)) (warn md op f r).
Proof.
  unfold warn_said, warn. destruct (op_warnings op); cbn [negb]; [|apply same_refl].
  destruct (sub_u64 md (dr_start r) (df_start f)); cbn [bind map_ok]; try apply same_refl.
  destruct (lf_digits fx); destruct (df_len f =? 0)%Z; cbn [negb andb]; try apply same_refl. left. reflexivity.
Qed.
Lemma row_same fx pr md op f r : same_or_panic (map_ok quiet_row (convert_row_said fx pr md op f r)) (convert_row md op f r).
Proof.
  unfold convert_row_said, convert_row. destruct (dr_cfa r) as [reg cfa|x]; [|apply warn_same].
  destruct (if (reg =? arch_sp (op_arch op))%Z then Some Sp else if (reg =? arch_fp (op_arch op))%Z then Some Fp else None)
    as [base|]; [|apply warn_same].
  destruct (sub_u64 md (dr_start r) (df_start f)) as [d|er|]; cbn [bind map_ok]; try apply same_refl.
  destruct (negb (row_start_ok d)); [apply same_refl|]. destruct (negb (in_i32b cfa)); [apply warn_same|].
  destruct (dr_register r (arch_fp (op_arch op))) as [| |o| | | | | |]; try apply warn_same;
    try (destruct (in_i32b o); [|apply warn_same]);
    (destruct (dr_register r (arch_ra (op_arch op))) as [| |o'| | | | | |]; try apply warn_same;
     destruct (in_i32b o'); [apply same_refl|apply warn_same]).
Qed.
Lemma rows_same fx pr md op f : forall l b, same_or_panic (snd (convert_rows_said fx pr md op f l b)) (convert_rows md op f l b).
Proof.
  induction l as [|r t IH]; intros b; cbn [convert_rows_said convert_rows]; [apply same_refl|].
  rewrite snd_lbind.
  match goal with |- same_or_panic (bind ?x _) _ => assert (x = Ok tt) as -> by (destruct (op_debugdump op); reflexivity) end.
  cbn [bind]. destruct (dr_start r =? dr_end r)%Z; [apply IH|].
  rewrite snd_lbind. cbn [quiet snd]. destruct (sub_u64 md (dr_start r) (df_start f)) as [d|er|]; cbn [bind]; try apply same_refl.
  destruct (negb (row_start_ok d)); [apply same_refl|].
  rewrite snd_lbind. cbn [quiet snd].
  destruct (row_same fx pr md op f r) as [-> | <-]; [left; reflexivity|].
  destruct (convert_row_said fx pr md op f r) as [x|[]|]; cbn [lift map_ok bind]; [|apply same_refl].
  rewrite snd_lbind. destruct x as [nr|w|er]; cbn [quiet_row bind quiet snd].
  - destruct (fdb_row b nr); [apply IH|apply same_refl|apply same_refl].
  - rewrite snd_lbind. match goal with |- same_or_panic (bind (bind ?x _) _) _ => assert (x = Ok tt) as -> by (destruct (op_warnings op); reflexivity) end.
    cbn [bind quiet snd]. destruct (fdb_row b (row_invalid d)); [apply IH|apply same_refl|apply same_refl].
  - apply same_refl.
Qed.
Lemma insns_same fx pr reg fin en : forall l,
  snd (dump_insns_said fx pr reg l en fin) = match dump_insns_result l with Some g => Err g | None => Ok tt end.
Proof.
  induction l as [|i t IH]; cbn [dump_insns_said dump_insns_result].
  - destruct en; reflexivity.
  - rewrite snd_lbind. cbn [say snd bind]. rewrite snd_lbind. unfold dump_expression_result.
    destruct (insn_expression i) as [x|]; [|apply IH].
    unfold dump_expression_said. cbn [snd]. destruct (ex_end x); cbn [bind]; [reflexivity|apply IH].
Qed.
Lemma fde_same fx pr md op s f : same_or_panic (snd (convert_fde_said fx pr md op s f)) (convert_fde md op s f).
Proof.
  unfold convert_fde_said, convert_fde. rewrite snd_lbind.
  match goal with |- same_or_panic (bind ?x _) (bind ?y _) => assert (x = y) as -> end.
  { destruct (op_debugdump op); [|reflexivity]. rewrite snd_lbind. cbn [say snd bind].
    rewrite snd_lbind. cbn [quiet snd]. destruct (add_u64 md (df_start f) (df_len f)) as [e|er|]; cbn [bind]; try reflexivity.
    rewrite snd_lbind. cbn [say snd bind]. rewrite snd_lbind. unfold loud_err. cbn [snd]. unfold dump_cfi_said.
    rewrite insns_same. unfold df_dump. destruct (dump_insns_result _); reflexivity. }
  match goal with |- same_or_panic (bind ?x _) _ => destruct x end; cbn [bind]; try apply same_refl.
  destruct (i32_max <? df_start f)%Z; [apply same_refl|]. destruct (i32_max <? df_len f)%Z; [apply same_refl|].
  destruct (df_rows f) as [[l en]|g]; [|apply same_refl]. cbn [rows_list rows_end].
  rewrite snd_lbind. apply same_bind; [apply rows_same|]. intros b.
  destruct en; [apply same_refl|]. rewrite snd_lbind. cbn [quiet snd].
  match goal with |- same_or_panic (bind ?x _) _ => destruct x as [b'|er|] end; cbn [bind]; try apply same_refl.
  rewrite snd_lbind. cbn [quiet snd]. destruct (lift (sfb_fde s b')) as [s'|er|]; cbn [bind]; try apply same_refl.
  rewrite snd_lbind. destruct (op_debugdump op); apply same_refl.
Qed.
Lemma entries_same fx pr md op : forall l s, same_or_panic (snd (convert_entries_said fx pr md op l s)) (convert_entries md op l s).
Proof.
  induction l as [|x t IH]; intros s; cbn [convert_entries_said convert_entries]; [apply same_refl|].
  destruct x as [|g|f]; [apply IH|apply same_refl|]. rewrite snd_lbind. apply same_bind; [apply fde_same|intros s'; apply IH].
Qed.
Theorem said_result fx pr md op eh : same_or_panic (snd (dwarf2sframe_said fx pr md op eh)) (dwarf2sframe md op eh).
Proof.
  unfold dwarf2sframe_said, dwarf2sframe_run, dwarf2sframe, convert. rewrite snd_lbind.
  destruct (entries_same fx (voice fx pr) md op (ents_list (eh_entries eh)) (sfb_new (conv_sfoptions op eh))) as [-> | ->]; [left; reflexivity|].
  destruct (convert_entries _ _ _ _) as [s|er|]; cbn [bind]; try apply same_refl.
  destruct (ents_end (eh_entries eh)); apply same_refl.
Qed.

(** ** The texts with marks *)

Lemma voice_on fx pr t r : lf_unnamed fx = true ->
  reg_name (voice fx pr) (Some t) r = Some match reg_name pr (Some t) r with Some n => n | None => "reg" ++ fmt_dec r end.
Proof. unfold voice. intros ->. reflexivity. Qed.
Lemma voice_rest fx pr :
  pr_gimli (voice fx pr) = pr_gimli pr /\ pr_rule (voice fx pr) = pr_rule pr /\ pr_expression (voice fx pr) = pr_expression pr /\
  pr_insn (voice fx pr) = pr_insn pr /\ pr_op (voice fx pr) = pr_op pr /\ pr_die (voice fx pr) = pr_die pr.
Proof. unfold voice. destruct (lf_unnamed fx); repeat split. Qed.
Lemma voice_off fx pr : lf_unnamed fx = false -> voice fx pr = pr.
Proof. unfold voice. intros ->. reflexivity. Qed.

Lemma voice_plain fx pr a : plain_texts pr (names_of a) -> plain_texts (voice fx pr) (names_of a).
Proof.
  intros Hp. destruct (lf_unnamed fx) eqn:Eu; [|rewrite (voice_off _ _ Eu); exact Hp]. pose proof Hp as [Hn Hi Ho].
  destruct (voice_rest fx pr) as (_ & _ & _ & Ei & Eo & _). constructor; [|rewrite Ei; exact Hi|rewrite Eo; exact Ho].
  intros r n. unfold names_of. rewrite (voice_on _ _ _ _ Eu). intros H. apply some_inj in H. subst n.
  match goal with |- context [reg_name pr ?t r] => change t with (names_of a) end.
  destruct (reg_name pr (names_of a) r) as [n|] eqn:E; [apply (Hn r n E)|].
  split; (apply without_app; [no_char|]; apply plain_without; [reflexivity|apply dec_plain]).
Qed.
Lemma mark_free s : after "reg" s <> None -> ~ taken s.
Proof.
  intros H. destruct (after "reg" s) as [u|] eqn:E; [|contradiction].
  assert (Hs : exists v, s = String "r" v).
  { destruct s as [|c v]; [discriminate E|]. cbn [after] in E. destruct (Ascii.eqb_spec "r" c) as [<-|]; [exists v; reflexivity|discriminate E]. }
  destruct Hs as [v ->]. intros [Ht|[Ht|[Ht|[Ht|Ht]]]]; try discriminate Ht; apply Ht; reflexivity.
Qed.
Lemma mark_inj n r r' : after "reg" n = None -> (n = "reg" ++ fmt_dec r \/ "reg" ++ fmt_dec r' = n) -> False.
Proof. intros H [->|<-]; rewrite after_app in H; discriminate H. Qed.
Lemma voice_clear fx pr a : clear_texts pr (names_of a) -> unmarked pr (names_of a) -> clear_texts (voice fx pr) (names_of a).
Proof.
  intros Hc [Un Uo]. destruct (lf_unnamed fx) eqn:Eu; [|rewrite (voice_off _ _ Eu); exact Hc]. destruct Hc as [Hn Ha Hf Ho].
  destruct (voice_rest fx pr) as (_ & Er & _).
  assert (Hv : forall r n, reg_name (voice fx pr) (names_of a) r = Some n ->
    reg_name pr (names_of a) r = Some n \/ (reg_name pr (names_of a) r = None /\ n = "reg" ++ fmt_dec r)).
  { intros r n. unfold names_of. rewrite (voice_on _ _ _ _ Eu). intros H. apply some_inj in H. subst n.
    match goal with |- context [reg_name pr ?t r] => change t with (names_of a) end.
    destruct (reg_name pr (names_of a) r) as [n|]; auto. }
  constructor; rewrite ?Er; [| | |exact Ho].
  - intros r r' n H H'. apply Hv in H. apply Hv in H'. destruct H as [H|[H E]]; destruct H' as [H'|[H' E']].
    + apply (Hn _ _ _ H H').
    + exfalso. apply (mark_inj n r' r' (Un _ _ H)). auto.
    + exfalso. apply (mark_inj n r r (Un _ _ H')). auto.
    + subst n. apply app_inj_l in E'. apply dec_inj in E'. exact E'.
  - intros r n x H Hx. apply Hv in H. destruct H as [H|[_ ->]]; [apply (Ha r n x H Hx)|].
    intros E. pose proof (Uo x Hx) as K. rewrite <- E, after_app in K. discriminate K.
  - intros r n H. apply Hv in H. destruct H as [H|[_ ->]]; [apply (Hf r n H)|]. apply mark_free. rewrite after_app. discriminate.
Qed.

Theorem registers_marked fx pr a r : lf_unnamed fx = true -> 0 <= r ->
  register_marked pr (names_of a) r (display_register (voice fx pr) a r).
Proof.
  intros Eu Hr. unfold register_marked, display_register. rewrite display_register_spec. unfold names_of. rewrite (voice_on _ _ _ _ Eu).
  destruct (reg_name pr _ r) as [n|]; [reflexivity|]. exists (fmt_dec r). split; [apply after_app|apply number_dec, Hr].
Qed.
Theorem rules_told_apart fx pr a x y : lf_unnamed fx = true ->
  clear_texts pr (names_of a) -> unmarked pr (names_of a) ->
  display_rule (voice fx pr) a x = display_rule (voice fx pr) a y ->
  x = y \/ (opaque x = true /\ opaque y = true /\ pr_rule pr x = pr_rule pr y).
Proof.
  intros Eu Hc Hu H. pose proof (rule_text_injective (voice fx pr) a x y (voice_clear fx pr a Hc Hu) H) as K.
  destruct (voice_rest fx pr) as (_ & Er & _). rewrite Er in K.
  destruct K as [K|[K|(n & K & _)]]; [left; exact K|right; exact K|].
  exfalso. unfold names_of in K. rewrite (voice_on _ _ _ _ Eu) in K. discriminate K.
Qed.

(** ** Reasons (C72) *)

Lemma read_offset_said fx rest o : lf_sign fx = true -> read_offset rest (offset_said fx o ++ String " " rest) = Some o.
Proof.
  intros Es. unfold offset_said. rewrite Es.
  assert (Hd : forall n, 0 <= n -> read_large rest (digits 16 n ++ String " " rest) = Some n).
  { intros n Hn. unfold read_large. rewrite upto_app by (apply space_plain, digits_plain; lia). rewrite String.eqb_refl.
    pose proof (number_hex (Z.log2 n + 1) n ltac:(pose proof (Z.log2_nonneg n); lia)) as K. unfold fmt_hex, as_u in K.
    rewrite Z.mod_small in K; [exact K|]. split; [exact Hn|].
    destruct (Z.eq_dec n 0) as [->|Hz]; [reflexivity|]. apply Z.log2_spec. lia. }
  unfold read_offset. destruct (Z.ltb_spec o 0) as [Ho|Ho].
  - rewrite app_assoc_s, after_app, Hd by lia. cbn [option_map]. f_equal. lia.
  - rewrite app_assoc_s. cbn [append after]. apply Hd, Ho.
Qed.
Lemma signed_cfa fx o : lf_sign fx = true ->
  read_signed ("CFA register offset " ++ offset_said fx o ++ " too large to be represented in the SFrame format") = Some (ReasonCfaOffset o).
Proof.
  intros Es. unfold read_signed. replace (String.eqb _ _) with false by reflexivity.
  replace (after "unsupported CFA source register `" _) with (@None string) by reflexivity.
  rewrite after_app. change (?x ++ " too large to be represented in the SFrame format") with (x ++ String " " "too large to be represented in the SFrame format").
  rewrite (read_offset_said _ _ _ Es). reflexivity.
Qed.
Lemma signed_fp fx o : lf_sign fx = true ->
  read_signed ("FP register offset " ++ offset_said fx o ++ " too large to represented in the SFrame format") = Some (ReasonFpOffset o).
Proof.
  intros Es. unfold read_signed. replace (String.eqb _ _) with false by reflexivity.
  replace (after "unsupported CFA source register `" _) with (@None string) by reflexivity.
  replace (after "CFA register offset " _) with (@None string) by reflexivity.
  rewrite after_app. change (?x ++ " too large to represented in the SFrame format") with (x ++ String " " "too large to represented in the SFrame format").
  rewrite (read_offset_said _ _ _ Es). reflexivity.
Qed.
Lemma signed_ra fx o : lf_sign fx = true ->
  read_signed ("RA register offset " ++ offset_said fx o ++ " too large to represented in the SFrame format") = Some (ReasonRaOffset o).
Proof.
  intros Es. unfold read_signed. replace (String.eqb _ _) with false by reflexivity.
  replace (after "unsupported CFA source register `" _) with (@None string) by reflexivity.
  replace (after "CFA register offset " _) with (@None string) by reflexivity.
  replace (after "FP register offset " _) with (@None string) by reflexivity.
  rewrite after_app. change (?x ++ " too large to represented in the SFrame format") with (x ++ String " " "too large to represented in the SFrame format").
  rewrite (read_offset_said _ _ _ Es). reflexivity.
Qed.
Lemma signed_register n : read_signed ("unsupported CFA source register `" ++ n ++ "`") = Some (ReasonRegister n).
Proof. unfold read_signed. replace (String.eqb _ _) with false by reflexivity. rewrite after_app, drop_end_app. reflexivity. Qed.
Lemma signed_fp_rule n : read_signed ("Unsupport FP recovery rule: `" ++ n ++ "`") = Some (ReasonFpRule n).
Proof.
  unfold read_signed. replace (String.eqb _ _) with false by reflexivity.
  replace (after "unsupported CFA source register `" _) with (@None string) by reflexivity.
  replace (after "CFA register offset " _) with (@None string) by reflexivity.
  replace (after "FP register offset " _) with (@None string) by reflexivity.
  replace (after "RA register offset " _) with (@None string) by reflexivity.
  rewrite after_app, drop_end_app. reflexivity.
Qed.
Lemma signed_ra_rule n : read_signed ("Unsupport RA recovery rule: `" ++ n ++ "`") = Some (ReasonRaRule n).
Proof.
  unfold read_signed. replace (String.eqb _ _) with false by reflexivity.
  replace (after "unsupported CFA source register `" _) with (@None string) by reflexivity.
  replace (after "CFA register offset " _) with (@None string) by reflexivity.
  replace (after "FP register offset " _) with (@None string) by reflexivity.
  replace (after "RA register offset " _) with (@None string) by reflexivity.
  replace (after "Unsupport FP recovery rule: `" _) with (@None string) by reflexivity.
  rewrite after_app, drop_end_app. reflexivity.
Qed.

Lemma message_holds fx pr a r m : lf_sign fx = true -> row_payload_typed r -> row_message_said fx pr a r = Some m ->
  exists why, read_signed m = Some why /\ reason_holds (fun n => n) pr a r why.
Proof.
  intros Es [Hc Hr]. unfold row_message_said. destruct (dr_cfa r) as [reg cfa|x] eqn:Ec.
  2:{ intros [= <-]. exists ReasonExpression. split; [reflexivity|]. exists x. exact Ec. }
  destruct Hc as [Hreg Hcfa].
  destruct (Z.eqb_spec reg (reg_sp a)) as [Hsp|Hsp];
    [|destruct (Z.eqb_spec reg (reg_fp a)) as [Hfp|Hfp]].
  3:{ intros [= <-]. exists (ReasonRegister (display_register pr a reg)). split; [apply signed_register|].
      exists reg, cfa. split; [exact Ec|]. split; [exact Hsp|]. split; [exact Hfp|]. apply (register_shown_text pr (names_of a)). lia. }
  all: destruct (in_i32b cfa) eqn:Ei;
    [|intros [= <-]; exists (ReasonCfaOffset cfa); split; [apply signed_cfa, Es|];
      exists reg; split; [exact Ec|apply not_in_i32, Ei]].
  all: destruct (match dr_register r (reg_fp a) with
                 | ROffset o => if in_i32b o then None else Some ("FP register offset " ++ offset_said fx o ++ " too large to represented in the SFrame format")
                 | RSameValue | RUndefined => None
                 | rule => Some ("Unsupport FP recovery rule: `" ++ display_rule pr a rule ++ "`")
                 end) as [m'|] eqn:Ef.
  1,3: intros [= <-]; pose proof (Hr (reg_fp a)) as Ht;
       destruct (dr_register r (reg_fp a)) as [| |o| | | | | |] eqn:Er; try discriminate Ef;
       try (destruct (in_i32b o) eqn:Eo; [discriminate|]; apply some_inj in Ef; subst m';
            exists (ReasonFpOffset o); split; [apply signed_fp, Es|]; cbn [reason_holds];
            split; [exact Er|apply not_in_i32, Eo]);
       apply some_inj in Ef; subst m'; eexists; (split; [apply signed_fp_rule|]); cbn [reason_holds];
       rewrite Er; (split; [apply rule_shown_text, Ht|]); repeat split; congruence.
  all: clear Ef; pose proof (Hr (reg_ra a)) as Ht; destruct (dr_register r (reg_ra a)) as [| |o| | | | | |] eqn:Er;
       try (destruct (in_i32b o) eqn:Eo; [discriminate|]);
       intros Ef; apply some_inj in Ef; subst m;
       try (exists (ReasonRaOffset o); split; [apply signed_ra, Es|]; cbn [reason_holds];
            split; [exact Er|apply not_in_i32, Eo]);
       eexists; (split; [apply signed_ra_rule|]); cbn [reason_holds];
       rewrite Er; (split; [apply rule_shown_text, Ht|]); congruence.
Qed.

Lemma warning_text_read fx start offset len m : in_u64 start -> in_u64 offset ->
  read_warning ("warning: " ++ warn_text_said fx start offset len m) = Some (start, offset, m).
Proof.
  intros [H1 H2] [H3 H4]. unfold read_warning, warn_text_said, fmt_hex_alt_pad. rewrite !app_assoc_s.
  change ("warning: " ++ "FDE for " ++ "0x" ++ ?x) with ("warning: FDE for 0x" ++ x).
  rewrite after_app. change (?x ++ "+" ++ ?y) with (x ++ String "+" y).
  rewrite upto_app by (apply digit_without; [reflexivity|apply hex_pad_digits; lia]).
  rewrite after_app. change (?x ++ ": " ++ ?y) with (x ++ String ":" (" " ++ y)).
  rewrite upto_app by (apply digit_without; [reflexivity|apply hex_pad_digits; lia]).
  rewrite after_app. rewrite !number_zero_pad by apply hex_nonempty. rewrite !number_hex by lia.
  unfold as_u. rewrite !Z.mod_small by lia. reflexivity.
Qed.

Theorem warnings_signed fx pr md op eh ev o : lf_sign fx = true ->
  eh_typed eh -> eh_payload_typed eh -> op_warnings op = true -> dwarf2sframe_said fx pr md op eh = (ev, o) ->
  exists pre post lost, rows_met eh = (pre ++ post)%list /\ (finished o -> post = []) /\
    sieve (row_lost (op_arch op)) pre lost /\ Forall2 (warned_signed (voice fx pr) (op_arch op)) lost (stderr_of ev).
Proof.
  intros Es Ht Hp Hw E.
  destruct (conversion_reported_said fx (warned_signed (voice fx pr) (op_arch op)) (voice fx pr) md op eh ev o Ht E) as (pre & post & lost & H1 & H2 & H3 & H4).
  - intros f r m Hf Hr Hm Ho Hle. pose proof (functions_typed _ f Ht Hf) as [Hs _].
    destruct (message_holds fx (voice fx pr) (op_arch op) r m Es (Hp f r Hf Hr) Hm) as (why & W1 & W2).
    exists m, why. cbn [fst snd]. split; [|split; [exact W1|exact W2]].
    apply warning_text_read; [exact Hs|]. unfold in_u64, i32_max in *. lia.
  - exists pre, post, lost. unfold warnings_match in H4. rewrite Hw in H4. auto.
Qed.

(** ** The same line for the same reason (C73) *)

(** The reason that the message for a row has, by the texts themselves. *)
Definition reason_exact (pr : printers) (a : arch) (r : dw_row) (why : reason) : Prop :=
  match why with
  | ReasonExpression => exists x, dr_cfa r = CfaExpression x
  | ReasonRegister s => exists reg o, dr_cfa r = CfaReg reg o /\ 0 <= reg /\ s = display_register pr a reg
  | ReasonCfaOffset n => exists reg, dr_cfa r = CfaReg reg n
  | ReasonFpOffset n => dr_register r (reg_fp a) = ROffset n
  | ReasonRaOffset n => dr_register r (reg_ra a) = ROffset n
  | ReasonFpRule s => s = display_rule pr a (dr_register r (reg_fp a))
  | ReasonRaRule s => s = display_rule pr a (dr_register r (reg_ra a))
  end.
Lemma message_exact fx pr a r m : lf_sign fx = true -> row_payload_typed r -> row_message_said fx pr a r = Some m ->
  exists why, read_signed m = Some why /\ reason_exact pr a r why.
Proof.
  intros Es [Hc Hr]. unfold row_message_said. destruct (dr_cfa r) as [reg cfa|x] eqn:Ec.
  2:{ intros [= <-]. exists ReasonExpression. split; [reflexivity|]. exists x. exact Ec. }
  destruct Hc as [Hreg Hcfa].
  destruct (Z.eqb_spec reg (reg_sp a)) as [Hsp|Hsp];
    [|destruct (Z.eqb_spec reg (reg_fp a)) as [Hfp|Hfp]].
  3:{ intros [= <-]. exists (ReasonRegister (display_register pr a reg)). split; [apply signed_register|].
      exists reg, cfa. split; [exact Ec|]. split; [lia|reflexivity]. }
  all: destruct (in_i32b cfa) eqn:Ei;
    [|intros [= <-]; exists (ReasonCfaOffset cfa); split; [apply signed_cfa, Es|]; exists reg; exact Ec].
  all: destruct (match dr_register r (reg_fp a) with
                 | ROffset o => if in_i32b o then None else Some ("FP register offset " ++ offset_said fx o ++ " too large to represented in the SFrame format")
                 | RSameValue | RUndefined => None
                 | rule => Some ("Unsupport FP recovery rule: `" ++ display_rule pr a rule ++ "`")
                 end) as [m'|] eqn:Ef.
  1,3: intros [= <-]; destruct (dr_register r (reg_fp a)) as [| |o| | | | | |] eqn:Er; try discriminate Ef;
       try (destruct (in_i32b o) eqn:Eo; [discriminate|]; apply some_inj in Ef; subst m';
            exists (ReasonFpOffset o); split; [apply signed_fp, Es|exact Er]);
       apply some_inj in Ef; subst m'; eexists; (split; [apply signed_fp_rule|]); cbn [reason_exact];
       rewrite Er; reflexivity.
  all: clear Ef; destruct (dr_register r (reg_ra a)) as [| |o| | | | | |] eqn:Er;
       try (destruct (in_i32b o) eqn:Eo; [discriminate|]);
       intros Ef; apply some_inj in Ef; subst m;
       try (exists (ReasonRaOffset o); split; [apply signed_ra, Es|exact Er]);
       eexists; (split; [apply signed_ra_rule|]); cbn [reason_exact];
       rewrite Er; reflexivity.
Qed.
Lemma exact_marked fx pr a r why : lf_unnamed fx = true -> row_payload_typed r ->
  reason_exact (voice fx pr) a r why -> reason_marked pr a r why.
Proof.
  intros Eu [_ Hr].
  assert (K : forall rule, rule_typed rule -> rule_marked pr (names_of a) rule (display_rule (voice fx pr) a rule)).
  { intros rule Ht. pose proof (rule_shown_text (voice fx pr) a rule Ht) as Hs. destruct (voice_rest fx pr) as (_ & Er & _).
    destruct rule; cbn [rule_marked rule_shown] in *; try (rewrite Er in Hs); try exact Hs.
    apply (registers_marked fx pr a r0 Eu). cbn [rule_typed] in Ht. lia. }
  destruct why as [|s|n|n|n|s|s]; cbn [reason_exact reason_marked]; try (intros; exact I).
  - intros (reg & o & E & Hreg & ->). exists reg, o. split; [exact E|]. apply (registers_marked fx pr a reg Eu Hreg).
  - intros ->. apply K, Hr.
  - intros ->. apply K, Hr.
Qed.
Lemma exact_alike fx pr a r r' why : lf_unnamed fx = true -> clear_texts pr (names_of a) -> unmarked pr (names_of a) ->
  reason_exact (voice fx pr) a r why -> reason_exact (voice fx pr) a r' why -> same_cause pr a r r' why.
Proof.
  intros Eu Hc Hu. destruct why as [|s|n|n|n|s|s]; cbn [reason_exact same_cause].
  - intros [x E] [x' E']. exists x, x'. auto.
  - intros (reg & o & E & _ & ->) (reg' & o' & E' & _ & H).
    pose proof (rules_told_apart fx pr a (RRegister reg) (RRegister reg') Eu Hc Hu H) as [K|(K & _)]; [|discriminate K].
    injection K as <-. exists reg, o, o'. auto.
  - intros [reg E] [reg' E']. exists reg, reg'. auto.
  - auto.
  - auto.
  - intros -> H. apply (rules_told_apart fx pr a _ _ Eu Hc Hu H).
  - intros -> H. apply (rules_told_apart fx pr a _ _ Eu Hc Hu H).
Qed.
Definition warned_exact (pr : printers) (a : arch) (p : dw_fde * dw_row) (w : string) : Prop :=
  exists m why, read_warning w = Some (df_start (fst p), off (fst p) (snd p), m) /\
    read_signed m = Some why /\ reason_exact pr a (snd p) why /\ row_payload_typed (snd p).
Lemma warnings_exact fx pr md op eh ev o : lf_sign fx = true ->
  eh_typed eh -> eh_payload_typed eh -> op_warnings op = true -> dwarf2sframe_said fx pr md op eh = (ev, o) ->
  exists pre post lost, rows_met eh = (pre ++ post)%list /\ (finished o -> post = []) /\
    sieve (row_lost (op_arch op)) pre lost /\ Forall2 (warned_exact (voice fx pr) (op_arch op)) lost (stderr_of ev).
Proof.
  intros Es Ht Hp Hw E.
  destruct (conversion_reported_said fx (warned_exact (voice fx pr) (op_arch op)) (voice fx pr) md op eh ev o Ht E) as (pre & post & lost & H1 & H2 & H3 & H4).
  - intros f r m Hf Hr Hm Ho Hle. pose proof (functions_typed _ f Ht Hf) as [Hs _].
    destruct (message_exact fx (voice fx pr) (op_arch op) r m Es (Hp f r Hf Hr) Hm) as (why & W1 & W2).
    exists m, why. cbn [fst snd]. split; [|split; [exact W1|split; [exact W2|exact (Hp f r Hf Hr)]]].
    apply warning_text_read; [exact Hs|]. unfold in_u64, i32_max in *. lia.
  - exists pre, post, lost. unfold warnings_match in H4. rewrite Hw in H4. auto.
Qed.
Theorem warnings_marked fx pr md op eh ev o : lf_sign fx = true -> lf_unnamed fx = true ->
  eh_typed eh -> eh_payload_typed eh -> op_warnings op = true -> dwarf2sframe_said fx pr md op eh = (ev, o) ->
  exists pre post lost, rows_met eh = (pre ++ post)%list /\ (finished o -> post = []) /\
    sieve (row_lost (op_arch op)) pre lost /\ Forall2 (warned_marked pr (op_arch op)) lost (stderr_of ev).
Proof.
  intros Es Eu Ht Hp Hw E.
  destruct (warnings_exact fx pr md op eh ev o Es Ht Hp Hw E) as (pre & post & lost & H1 & H2 & H3 & H4).
  exists pre, post, lost. split; [exact H1|]. split; [exact H2|]. split; [exact H3|].
  clear -H4 Eu. induction H4 as [|p w l l' (m & why & W1 & W2 & W3 & W4) _ IH]; constructor; [|exact IH].
  exists m, why. split; [exact W1|]. split; [exact W2|]. apply (exact_marked fx); assumption.
Qed.
Theorem same_warnings fx pr md op eh ev o md' eh' ev' o' : lf_sign fx = true -> lf_unnamed fx = true ->
  clear_texts pr (names_of (op_arch op)) -> unmarked pr (names_of (op_arch op)) -> op_warnings op = true ->
  eh_typed eh -> eh_payload_typed eh -> dwarf2sframe_said fx pr md op eh = (ev, o) ->
  eh_typed eh' -> eh_payload_typed eh' -> dwarf2sframe_said fx pr md' op eh' = (ev', o') ->
  stderr_of ev = stderr_of ev' ->
  exists pre post lost pre' post' lost',
    rows_met eh = (pre ++ post)%list /\ (finished o -> post = []) /\ sieve (row_lost (op_arch op)) pre lost /\
    rows_met eh' = (pre' ++ post')%list /\ (finished o' -> post' = []) /\ sieve (row_lost (op_arch op)) pre' lost' /\
    List.length lost = List.length lost' /\ Forall2 (warned_alike pr (op_arch op)) (combine lost lost') (stderr_of ev).
Proof.
  intros Es Eu Hc Hu Hw Ht Hp E Ht' Hp' E' Hs.
  destruct (warnings_exact fx pr md op eh ev o Es Ht Hp Hw E) as (pre & post & lost & H1 & H2 & H3 & H4).
  destruct (warnings_exact fx pr md' op eh' ev' o' Es Ht' Hp' Hw E') as (pre' & post' & lost' & K1 & K2 & K3 & K4).
  exists pre, post, lost, pre', post', lost'. repeat (split; [assumption|]).
  rewrite <- Hs in K4. clear -H4 K4 Eu Hc Hu. revert lost' K4.
  induction H4 as [|p w l l' (m & why & W1 & W2 & W3 & _) _ IH]; intros lost' K4; inversion K4 as [|q w' t t' (m' & why' & V1 & V2 & V3 & _) Kt]; subst.
  - split; [reflexivity|constructor].
  - destruct (IH t Kt) as [I1 I2]. split; [cbn [List.length]; rewrite I1; reflexivity|]. cbn [combine]. constructor; [|exact I2].
    assert (Em : m' = m) by (rewrite W1 in V1; congruence). subst m'.
    assert (Ew : why' = why) by (rewrite W2 in V2; congruence). subst why'.
    exists m, why. split; [exact W1|]. split; [exact V1|]. split; [exact W2|]. apply (exact_alike fx); assumption.
Qed.

(** ** Columns (C74) *)

Theorem warnings_in_column fx pr md op eh ev o : lf_digits fx = true ->
  eh_typed eh -> dwarf2sframe_said fx pr md op eh = (ev, o) ->
  Forall (fun w => message_column w = Some 37%nat) (stderr_of ev).
Proof.
  intros Ed Ht E.
  destruct (conversion_reported_said fx (fun _ w => message_column w = Some 37%nat) (voice fx pr) md op eh ev o Ht E) as (pre & post & lost & H1 & H2 & H3 & H4).
  - intros f r m Hf Hr Hm Ho Hle. pose proof (functions_typed _ f Ht Hf) as [Hs _]. unfold in_u64 in Hs.
    unfold i32_max in *. unfold message_column. rewrite after_app. unfold warn_text_said, fmt_hex_alt_pad, warn_digits_said. rewrite Ed.
    set (A := zero_pad (10 - 2) (fmt_hex 64 (df_start f))). set (B := zero_pad (18 - 2) (fmt_hex 64 (off f r))).
    assert (HA : all_chars is_digit A = true) by (apply hex_pad_digits; lia).
    assert (HB : all_chars is_digit B = true) by (apply hex_pad_digits; lia).
    replace ("FDE for " ++ ("0x" ++ A) ++ "+" ++ ("0x" ++ B) ++ ": " ++ m)
      with (("FDE for 0x" ++ A ++ "+0x" ++ B) ++ String ":" (" " ++ m)) by (rewrite !app_assoc_s; reflexivity).
    rewrite upto_app.
    + cbn [option_map fst]. rewrite !length_app_s. f_equal. unfold A, B. rewrite !length_zero_pad.
      assert (Hl : (String.length (fmt_hex 64 (df_start f)) <= 8)%nat).
      { unfold fmt_hex. apply (digits_length 16 _ 7); [lia|]. unfold as_u. rewrite Z.mod_small by lia. change (16 ^ Z.of_nat 8) with 4294967296. lia. }
      assert (Hl2 : (String.length (fmt_hex 64 (off f r)) <= 8)%nat).
      { unfold fmt_hex. apply (digits_length 16 _ 7); [lia|]. unfold as_u. rewrite Z.mod_small by lia. change (16 ^ Z.of_nat 8) with 4294967296. lia. }
      change (String.length "FDE for 0x") with 10%nat. change (String.length "+0x") with 3%nat. lia.
    + apply without_app; [repeat (split; [discriminate|]); exact I|]. apply without_app; [apply digit_without; [reflexivity|exact HA]|].
      apply without_app; [repeat (split; [discriminate|]); exact I|]. apply digit_without; [reflexivity|exact HB].
  - unfold warnings_match in H4. destruct (op_warnings op); [|rewrite H4; constructor].
    clear -H4. induction H4; constructor; assumption.
Qed.

(** ** The debug dump (C75-C77) *)

Lemma lead_word_app name s : without " " name -> lead_word (name ++ String " " s) = name.
Proof. intros H. unfold lead_word. rewrite (upto_app _ _ _ H). reflexivity. Qed.
Lemma lead_word_same name : without " " name -> lead_word name = name.
Proof. intros H. unfold lead_word. rewrite (upto_none _ _ H). reflexivity. Qed.
Lemma op_named fx other pr t o : lf_names fx = Some other -> (forall c, exists u, other c = "DW_OP_" ++ u) -> op_shown o (op_line_said fx pr t o).
Proof.
  intros En Hd. unfold op_line_said, op_text_said. rewrite En.
  pose proof (op_line_shown pr t (lf_types fx) o) as Hs. unfold op_line in Hs.
  destruct o; try (apply Hs; reflexivity); clear Hs; unfold op_shown; eexists; (split; [apply after_app|]);
    match goal with |- dwarf_op _ (match upto " " ?s with _ => _ end) => change (match upto " " s with Some (name, _) => name | None => s end) with (lead_word s) end.
  - change (lead_word ("DW_OP_plus_uconst " ++ ?x)) with (lead_word ("DW_OP_plus_uconst" ++ String " " x)). rewrite lead_word_app by no_char. reflexivity.
  - change (lead_word ("DW_OP_constu " ++ ?x)) with (lead_word ("DW_OP_constu" ++ String " " x)). rewrite lead_word_app by no_char. left. cbn. tauto.
  - change (lead_word ("DW_OP_consts " ++ ?x)) with (lead_word ("DW_OP_consts" ++ String " " x)). rewrite lead_word_app by no_char. cbn. tauto.
  - change (lead_word ("DW_OP_regx " ++ ?x)) with (lead_word ("DW_OP_regx" ++ String " " x)). rewrite lead_word_app by no_char. left. reflexivity.
  - change (lead_word ("DW_OP_bregx " ++ ?x)) with (lead_word ("DW_OP_bregx" ++ String " " x)). rewrite lead_word_app by no_char. left. cbn. tauto.
  - change (lead_word ("DW_OP_fbreg " ++ ?x)) with (lead_word ("DW_OP_fbreg" ++ String " " x)). rewrite lead_word_app by no_char. reflexivity.
  - change (lead_word ("DW_OP_call_ref " ++ ?x)) with (lead_word ("DW_OP_call_ref" ++ String " " x)). rewrite lead_word_app by no_char. cbn. tauto.
  - rewrite lead_word_same by no_char. left. reflexivity.
  - destruct (Hd code) as [u ->]. unfold dwarf_op, lead_word. cbn [append upto]. cbn.
    destruct (upto " " u) as [[x y]|]; eexists; reflexivity.
Qed.

Theorem dump_named fx other pr md op eh ev o : lf_names fx = Some other -> (forall c, exists u, other c = "DW_OP_" ++ u) ->
  plain_texts pr (names_of (op_arch op)) -> eh_typed eh -> Forall function_full_typed (functions (entries_of eh)) ->
  op_debugdump op = true -> dwarf2sframe_said fx pr md op eh = (ev, o) ->
  exists pre post whole rest views,
    functions (entries_of eh) = (pre ++ post)%list /\ stdout_of ev = (whole ++ rest)%list /\
    read_debug whole = Some views /\
    Forall2 (fun f v => function_shown (voice fx pr) (names_of (op_arch op)) f v /\ ops_shown op_shown f v) pre views /\
    (finished o -> post = [] /\ rest = []).
Proof.
  intros En Hd Hp. pose proof (voice_plain fx pr _ Hp) as Hv. apply debug_dump_views_said; [|exact Hv].
  intros f Hf. split; [apply function_view_shown_said; [exact Hv|exact Hf]|].
  apply view_ops_said. intros x. apply (op_named _ other _ _ _ En Hd).
Qed.

(** The name of an operation with a case. *)
Definition case_name (o : operation) : option string :=
  match o with
  | OpDeref _ _ _ => Some "DW_OP_deref" | OpDrop => Some "DW_OP_drop" | OpPick _ => Some "DW_OP_pick" | OpSwap => Some "DW_OP_swap"
  | OpRot => Some "DW_OP_rot" | OpAbs => Some "DW_OP_abs" | OpAnd => Some "DW_OP_and" | OpDiv => Some "DW_OP_div"
  | OpMul => Some "DW_OP_mul" | OpNeg => Some "DW_OP_neg" | OpNot => Some "DW_OP_not" | OpPlus => Some "DW_OP_plus"
  | OpPlusConstant _ => Some "DW_OP_plus_uconst" | OpShl => Some "DW_OP_shl" | OpShr => Some "DW_OP_shr" | OpXor => Some "DW_OP_xor"
  | OpBra _ => Some "DW_OP_bra" | OpEq => Some "DW_OP_eq" | OpGe => Some "DW_OP_ge" | OpLt => Some "DW_OP_lt" | OpGt => Some "DW_OP_gt"
  | OpLe => Some "DW_OP_le" | OpNe => Some "DW_OP_ne" | OpSkip _ => Some "DW_OP_skip" | OpUnsignedConstant _ => Some "DW_OP_constu"
  | OpSignedConstant _ => Some "DW_OP_consts" | OpRegister _ => Some "DW_OP_regx" | OpRegisterOffset _ _ _ => Some "DW_OP_bregx"
  | OpFrameOffset _ => Some "DW_OP_fbreg" | OpNop => Some "DW_OP_nop" | OpPushObjectAddress => Some "DW_OP_push_object_address"
  | OpCall _ => Some "DW_OP_call_ref" | OpTLS => Some "DW_OP_form_tls_address" | OpStackValue => Some "DW_OP_stack_value"
  | OpOther _ => None
  end.
Lemma case_name_known o n : case_name o = Some n -> In n dump_names.
Proof. destruct o; intros H; try discriminate H; apply some_inj in H; subst n; cbn; tauto. Qed.
Lemma case_name_lead fx other pr t i o n : lf_names fx = Some other -> case_name o = Some n ->
  exists s, op_text_said fx pr (register_text pr t) i o = i ++ s /\ lead_word s = n.
Proof.
  intros En Hn. unfold op_text_said. rewrite En.
  destruct o; try discriminate Hn; apply some_inj in Hn; subst n; cbn [op_text]; eexists; (split; [reflexivity|]);
    try (apply lead_word_same; no_char);
    match goal with |- lead_word (?p ++ ?x) = ?n => change (p ++ x) with (n ++ String " " x); apply lead_word_app; no_char end.
Qed.

Lemma case_inj fx other pr t i o o' : lf_names fx = Some other -> lf_types fx = true -> clear_texts pr t -> plain_texts pr t ->
  (forall d d', pr_die pr d = pr_die pr d' -> d = d') -> (forall c, o <> OpOther c) ->
  case_name o = case_name o' ->
  op_text_said fx pr (register_text pr t) i o = op_text_said fx pr (register_text pr t) i o' -> o = o'.
Proof.
  intros En Et Hc Hp Hd Ho Hk. unfold op_text_said. rewrite En, Et.
  destruct o; destruct o'; try discriminate Hk; try (exfalso; apply (Ho code); reflexivity); try reflexivity; clear Hk;
    cbn [op_text]; intros H; do 2 apply app_inj_l in H;
    try (apply dec_inj in H; subst; reflexivity).
  - rewrite !app_assoc_s in H. change (?x ++ " " ++ ?y) with (x ++ String " " y) in H.
    apply dec_space_inj in H. destruct H as [-> H]. change (?x ++ " " ++ ?y) with (x ++ String " " y) in H.
    apply dec_space_inj in H. destruct H as [-> H]. destruct space, space0; try discriminate H; reflexivity.
  - apply (register_inj pr t _ _ Hc) in H. subst. reflexivity.
  - change (register_text pr t register ++ " " ++ ?y) with (register_text pr t register ++ String " " y) in H.
    change (register_text pr t register0 ++ " " ++ ?y) with (register_text pr t register0 ++ String " " y) in H.
    apply (f_equal (upto " ")) in H.
    rewrite !upto_app in H by (apply register_no; [exact Hp|left; reflexivity]). apply some_inj in H.
    assert (H1 : register_text pr t register = register_text pr t register0) by congruence.
    assert (H2 : fmt_dec offset ++ " " ++ fmt_dec base_type = fmt_dec offset0 ++ " " ++ fmt_dec base_type0) by congruence.
    apply (register_inj pr t _ _ Hc) in H1. subst.
    change (?x ++ " " ++ ?y) with (x ++ String " " y) in H2. apply dec_space_inj in H2. destruct H2 as [-> H2].
    apply dec_inj in H2. subst. reflexivity.
  - apply Hd in H. subst. reflexivity.
Qed.

Theorem op_told_apart fx other pr a i o o' : lf_names fx = Some other -> lf_types fx = true -> more_names other ->
  clear_texts pr (names_of a) -> unmarked pr (names_of a) -> plain_texts pr (names_of a) ->
  (forall d d', pr_die pr d = pr_die pr d' -> d = d') ->
  op_text_said fx (voice fx pr) (display_register (voice fx pr) a) i o =
  op_text_said fx (voice fx pr) (display_register (voice fx pr) a) i o' -> o = o'.
Proof.
  intros En Et [_ Mn Ma] Hc Hu Hp Hd H.
  pose proof (voice_plain fx pr _ Hp) as Hvp. pose proof (voice_clear fx pr _ Hc Hu) as Hvc.
  assert (Hvd : forall d d', pr_die (voice fx pr) d = pr_die (voice fx pr) d' -> d = d').
  { destruct (voice_rest fx pr) as (_ & _ & _ & _ & _ & ->). exact Hd. }
  change (display_register (voice fx pr) a) with (register_text (voice fx pr) (names_of a)) in H.
  assert (Hother : forall c x, op_text_said fx (voice fx pr) (register_text (voice fx pr) (names_of a)) i (OpOther c) =
     op_text_said fx (voice fx pr) (register_text (voice fx pr) (names_of a)) i x -> OpOther c = x).
  { intros c x E. destruct (case_name x) as [n|] eqn:Ex.
    - exfalso. destruct (case_name_lead fx other (voice fx pr) (names_of a) i x n En Ex) as (s & E' & Es). rewrite E' in E.
      unfold op_text_said in E. rewrite En in E. apply app_inj_l in E. apply (Mn c). rewrite E, Es. apply (case_name_known _ _ Ex).
    - destruct x; try discriminate Ex. unfold op_text_said in E. rewrite En in E. apply app_inj_l in E. f_equal. apply Ma, E. }
  destruct (case_name o) as [n|] eqn:Eo.
  2:{ destruct o; try discriminate Eo. apply Hother, H. }
  destruct (case_name o') as [n'|] eqn:Eo'.
  2:{ destruct o'; try discriminate Eo'. symmetry. apply Hother. symmetry. exact H. }
  destruct (case_name_lead fx other (voice fx pr) (names_of a) i o n En Eo) as (s & E1 & Es).
  destruct (case_name_lead fx other (voice fx pr) (names_of a) i o' n' En Eo') as (s' & E2 & Es').
  assert (n = n') as ->. { rewrite E1, E2 in H. apply app_inj_l in H. congruence. }
  apply (case_inj fx other (voice fx pr) (names_of a) i); try assumption; [|congruence]. intros c ->. discriminate Eo.
Qed.

Theorem expressions_told_apart fx other pr a i x y : lf_names fx = Some other -> lf_types fx = true -> more_names other ->
  clear_texts pr (names_of a) -> unmarked pr (names_of a) -> plain_texts pr (names_of a) ->
  (forall d d', pr_die pr d = pr_die pr d' -> d = d') ->
  fst (dump_expression_said fx (voice fx pr) (display_register (voice fx pr) a) i x) =
  fst (dump_expression_said fx (voice fx pr) (display_register (voice fx pr) a) i y) ->
  ex_ops x = ex_ops y.
Proof.
  intros En Et Hm Hc Hu Hp Hd. unfold dump_expression_said. cbn [fst]. generalize (ex_ops y) as m.
  induction (ex_ops x) as [|o l IH]; intros [|o' m] H; try discriminate H; [reflexivity|]. cbn [map] in H.
  f_equal; [|apply IH; congruence]. apply (op_told_apart fx other pr a i o o' En Et Hm Hc Hu Hp Hd). congruence.
Qed.

(** The line under an instruction is that of its operation and of no other. *)
Theorem dump_exact fx other pr md op eh ev o : lf_names fx = Some other -> lf_types fx = true -> more_names other ->
  clear_texts pr (names_of (op_arch op)) -> unmarked pr (names_of (op_arch op)) ->
  (forall d d', pr_die pr d = pr_die pr d' -> d = d') ->
  plain_texts pr (names_of (op_arch op)) -> eh_typed eh -> Forall function_full_typed (functions (entries_of eh)) ->
  op_debugdump op = true -> dwarf2sframe_said fx pr md op eh = (ev, o) ->
  exists pre post whole rest views,
    functions (entries_of eh) = (pre ++ post)%list /\ stdout_of ev = (whole ++ rest)%list /\
    read_debug whole = Some views /\
    Forall2 (ops_shown (fun x s => forall y,
      op_text_said fx (voice fx pr) (display_register (voice fx pr) (op_arch op)) "                  " y = s <-> y = x)) pre views /\
    (finished o -> post = [] /\ rest = []).
Proof.
  intros En Et Hm Hc Hu Hd Hp. pose proof (voice_plain fx pr _ Hp) as Hv. apply debug_dump_views_said; [|exact Hv].
  intros f Hf. apply view_ops_said. intros x y. unfold op_line_said.
  change (register_text (voice fx pr) (names_of (op_arch op))) with (display_register (voice fx pr) (op_arch op)). split.
  - apply (op_told_apart fx other pr (op_arch op)); assumption.
  - intros ->. reflexivity.
Qed.
