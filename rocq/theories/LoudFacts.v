(** Proofs about what the converter prints (C71-C76). *)
From Coq Require Import String Ascii.
From Verif Require Export LoudSpec TextFacts ConvWitness.
Local Open Scope string_scope.

(** ** Forgetting the output *)

Definition quiet_row (o : row_outcome) : row_result :=
  match o with RoOk r => RowOk r | RoWarning _ => RowWarning | RoFatal er => RowFatal er end.
Definition map_ok {E A B} (f : A -> B) (o : outcome E A) : outcome E B :=
  match o with Ok a => Ok (f a) | Err er => Err er | Panic => Panic end.

Lemma snd_lbind {E A B} (m : loud E A) (k : A -> loud E B) :
  snd (lbind m k) = bind (snd m) (fun a => snd (k a)).
Proof. unfold lbind. destruct (snd m); reflexivity. Qed.
Lemma fst_lbind_ok {E A B} (m : loud E A) (k : A -> loud E B) a :
  snd m = Ok a -> fst (lbind m k) = (fst m ++ fst (k a))%list.
Proof. unfold lbind. intros ->. reflexivity. Qed.
Lemma lbind_quiet_ok {E A B} (a : A) (k : A -> loud E B) : lbind (quiet (Ok a)) k = k a.
Proof. unfold lbind, quiet. cbn. destruct (k a); reflexivity. Qed.
Lemma lbind_say {E B} l (k : unit -> loud E B) : lbind (say l) k = ((l ++ fst (k tt))%list, snd (k tt)).
Proof. reflexivity. Qed.

Lemma lbind_ok {E A B} l a (k : A -> loud E B) : lbind (l, Ok a) k = ((l ++ fst (k a))%list, snd (k a)).
Proof. reflexivity. Qed.
Lemma lbind_say_quiet {E A B} l (x : A) (k : A -> loud E B) :
  lbind (lbind (say l) (fun _ => quiet (Ok x))) k = ((l ++ fst (k x))%list, snd (k x)).
Proof. unfold lbind, say, quiet. cbn [fst snd]. rewrite app_nil_r. reflexivity. Qed.

Lemma warn_quiet md op f r m : map_ok quiet_row (warn_loud md op f r m) = warn md op f r.
Proof.
  unfold warn_loud, warn. destruct (op_warnings op); cbn [negb]; [|reflexivity].
  destruct (sub_u64 md (dr_start r) (df_start f)); cbn [bind map_ok]; try reflexivity.
  destruct (df_len f =? 0)%Z; reflexivity.
Qed.

Lemma convert_row_quiet pr md op f r : map_ok quiet_row (convert_row_loud pr md op f r) = convert_row md op f r.
Proof.
  unfold convert_row_loud, convert_row. destruct (dr_cfa r) as [reg cfa|x]; [|apply warn_quiet].
  destruct (if (reg =? arch_sp (op_arch op))%Z then Some Sp else if (reg =? arch_fp (op_arch op))%Z then Some Fp else None)
    as [base|]; [|apply warn_quiet].
  destruct (sub_u64 md (dr_start r) (df_start f)) as [d|er|]; cbn [bind map_ok]; try reflexivity.
  destruct (negb (row_start_ok d)); [reflexivity|]. destruct (negb (in_i32b cfa)); [apply warn_quiet|].
  destruct (dr_register r (arch_fp (op_arch op))) as [| |o| | | | | |]; try apply warn_quiet;
    try (destruct (in_i32b o); [|apply warn_quiet]);
    (destruct (dr_register r (arch_ra (op_arch op))) as [| |o'| | | | | |]; try apply warn_quiet;
     destruct (in_i32b o'); [reflexivity|apply warn_quiet]).
Qed.

Lemma convert_rows_quiet pr md op f : forall l b, snd (convert_rows_loud pr md op f l b) = convert_rows md op f l b.
Proof.
  induction l as [|r t IH]; intros b; cbn [convert_rows_loud convert_rows]; [reflexivity|].
  rewrite snd_lbind.
  match goal with |- bind ?x _ = _ => assert (x = Ok tt) as -> by (destruct (op_debugdump op); reflexivity) end.
  cbn [bind]. destruct (dr_start r =? dr_end r)%Z; [apply IH|].
  rewrite snd_lbind. cbn [quiet snd]. destruct (sub_u64 md (dr_start r) (df_start f)) as [d|er|]; cbn [bind]; try reflexivity.
  destruct (negb (row_start_ok d)); [reflexivity|].
  rewrite snd_lbind. cbn [quiet snd]. rewrite <- (convert_row_quiet pr).
  destruct (convert_row_loud pr md op f r) as [x|[]|]; cbn [lift map_ok bind]; [|reflexivity].
  rewrite snd_lbind. destruct x as [nr|w|er]; cbn [quiet_row bind quiet snd].
  - destruct (fdb_row b nr); [apply IH|reflexivity|reflexivity].
  - rewrite snd_lbind. match goal with |- bind (bind ?x _) _ = _ => assert (x = Ok tt) as -> by (destruct (op_warnings op); reflexivity) end.
    cbn [bind quiet snd]. destruct (fdb_row b (row_invalid d)); [apply IH|reflexivity|reflexivity].
  - reflexivity.
Qed.

Lemma dump_insns_quiet pr reg full fin en : forall l,
  snd (dump_insn_list pr reg full l en fin) = match dump_insns_result l with Some g => Err g | None => Ok tt end.
Proof.
  induction l as [|i t IH]; cbn [dump_insn_list dump_insns_result].
  - destruct en; reflexivity.
  - rewrite snd_lbind. cbn [say snd bind]. rewrite snd_lbind. unfold dump_expression_result.
    destruct (insn_expression i) as [x|]; [|apply IH].
    unfold dump_expression. cbn [snd]. destruct (ex_end x); cbn [bind]; [reflexivity|apply IH].
Qed.

Lemma convert_fde_quiet pr md op s f : snd (convert_fde_loud pr md op s f) = convert_fde md op s f.
Proof.
  unfold convert_fde_loud, convert_fde. rewrite snd_lbind.
  match goal with |- bind ?x _ = bind ?y _ => assert (x = y) as -> end.
  { destruct (op_debugdump op); [|reflexivity]. rewrite snd_lbind. cbn [say snd bind].
    rewrite snd_lbind. cbn [quiet snd]. destruct (add_u64 md (df_start f) (df_len f)) as [e|er|]; cbn [bind]; try reflexivity.
    rewrite snd_lbind. cbn [say snd bind]. rewrite snd_lbind. unfold loud_err. cbn [snd]. unfold dump_cfi_instructions.
    rewrite dump_insns_quiet. unfold df_dump. destruct (dump_insns_result _); reflexivity. }
  match goal with |- bind ?x _ = _ => destruct x end; cbn [bind]; try reflexivity.
  destruct (i32_max <? df_start f)%Z; [reflexivity|]. destruct (i32_max <? df_len f)%Z; [reflexivity|].
  destruct (df_rows f) as [[l en]|g]; [|reflexivity]. cbn [rows_list rows_end].
  rewrite snd_lbind, convert_rows_quiet. destruct (convert_rows _ _ _ _ _) as [b|er|]; cbn [bind]; try reflexivity.
  destruct en; [reflexivity|]. rewrite snd_lbind. cbn [quiet snd].
  match goal with |- bind ?x _ = _ => destruct x as [b'|er|] end; cbn [bind]; try reflexivity.
  rewrite snd_lbind. cbn [quiet snd]. destruct (lift (sfb_fde s b')) as [s'|er|]; cbn [bind]; try reflexivity.
  rewrite snd_lbind. destruct (op_debugdump op); reflexivity.
Qed.

Lemma convert_entries_quiet pr md op : forall l s, snd (convert_entries_loud pr md op l s) = convert_entries md op l s.
Proof.
  induction l as [|x t IH]; intros s; cbn [convert_entries_loud convert_entries]; [reflexivity|].
  destruct x as [|g|f]; [apply IH|reflexivity|]. rewrite snd_lbind, convert_fde_quiet.
  destruct (convert_fde md op s f); cbn [bind]; [apply IH|reflexivity|reflexivity].
Qed.

(** The printing does not influence the result. *)
Theorem loud_result pr md op eh : snd (dwarf2sframe_loud pr md op eh) = dwarf2sframe md op eh.
Proof.
  unfold dwarf2sframe_loud, dwarf2sframe, convert. rewrite snd_lbind, convert_entries_quiet.
  destruct (convert_entries _ _ _ _) as [s|er|]; cbn [bind]; try reflexivity.
  destruct (ents_end (eh_entries eh)); reflexivity.
Qed.

(** ** Messages *)

Definition row_message (pr : printers) (a : arch) (r : dw_row) : option string :=
  match dr_cfa r with
  | CfaExpression _ => Some "CFA recovery rule requires evaluating a DWARF expression"
  | CfaReg reg cfa =>
      match (if reg =? reg_sp a then Some Sp else if reg =? reg_fp a then Some Fp else None)%Z with
      | None => Some ("unsupported CFA source register `" ++ display_register pr a reg ++ "`")
      | Some base =>
          if in_i32b cfa then
            match (match dr_register r (reg_fp a) with
                   | ROffset o => if in_i32b o then None else Some ("FP register offset " ++ fmt_hex_alt 64 o ++ " too large to represented in the SFrame format")
                   | RSameValue | RUndefined => None
                   | rule => Some ("Unsupport FP recovery rule: `" ++ display_rule pr a rule ++ "`")
                   end) with
            | Some m => Some m
            | None =>
                match dr_register r (reg_ra a) with
                | ROffset o => if in_i32b o then None else Some ("RA register offset " ++ fmt_hex_alt 64 o ++ " too large to represented in the SFrame format")
                | rule => Some ("Unsupport RA recovery rule: `" ++ display_rule pr a rule ++ "`")
                end
            end
          else Some ("CFA register offset " ++ fmt_hex_alt 64 cfa ++ " too large to be represented in the SFrame format")
      end
  end.

Lemma row_message_classify pr a r : row_message pr a r = None <-> classify a r <> None.
Proof.
  unfold row_message, classify. destruct (dr_cfa r) as [reg cfa|x]; [|split; [discriminate|congruence]].
  destruct (if (reg =? reg_sp a)%Z then Some Sp else if (reg =? reg_fp a)%Z then Some Fp else None) as [base|];
    [|split; [discriminate|congruence]].
  destruct (in_i32b cfa); [|split; [discriminate|congruence]].
  destruct (dr_register r (reg_fp a)) as [| |o| | | | | |]; try (split; [discriminate|congruence]);
    try (destruct (in_i32b o); [|split; [discriminate|congruence]]);
    (destruct (dr_register r (reg_ra a)) as [| |o'| | | | | |]; try (split; [discriminate|congruence]);
     destruct (in_i32b o'); (split; [discriminate|congruence]) || (split; [congruence|reflexivity])).
Qed.
Lemma row_message_lost pr a r : (exists m, row_message pr a r = Some m) <-> unrepresentable a r.
Proof.
  rewrite <- classify_none. pose proof (row_message_classify pr a r) as H. split.
  - intros [m E]. destruct (classify a r); [|reflexivity]. rewrite E in H. exfalso. destruct H as [_ H].
    assert (Some m = None) by (apply H; discriminate). discriminate.
  - intros E. destruct (row_message pr a r) as [m|]; [exists m; reflexivity|]. exfalso. apply H; auto.
Qed.

Lemma convert_row_loud_eq pr md op f r : 0 <= off f r < i32_max ->
  convert_row_loud pr md op f r =
  match row_message pr (op_arch op) r with
  | None => Ok (RoOk (img (op_arch op) f r))
  | Some m => warn_loud md op f r m
  end.
Proof.
  intros Hd. unfold convert_row_loud, row_message, img, classify.
  change arch_fp with reg_fp. change arch_sp with reg_sp. change arch_ra with reg_ra.
  destruct (dr_cfa r) as [reg cfa|]; [|reflexivity].
  destruct (if (reg =? reg_sp (op_arch op))%Z then Some Sp else if (reg =? reg_fp (op_arch op))%Z then Some Fp else None)
    as [base|]; [|reflexivity].
  unfold off in *. rewrite sub_u64_ok by lia. cbn [bind].
  unfold row_start_ok. destruct (Z.ltb_spec (dr_start r - df_start f) i32_max); [|lia]. cbn [negb].
  destruct (in_i32b cfa); cbn [negb]; [|reflexivity].
  destruct (dr_register r (reg_fp (op_arch op))) as [| |o| | | | | |]; try reflexivity;
    try (destruct (in_i32b o); [|reflexivity]);
    (destruct (dr_register r (reg_ra (op_arch op))) as [| |o'| | | | | |]; try reflexivity;
     destruct (in_i32b o'); reflexivity).
Qed.

Lemma drop_end_app c s : drop_end c (s ++ String c "") = Some s.
Proof.
  induction s as [|x t IH].
  - cbn [append drop_end]. rewrite Ascii.eqb_refl. reflexivity.
  - cbn [append]. destruct t as [|y t]; cbn [append] in *.
    + cbn [drop_end]. rewrite Ascii.eqb_refl. reflexivity.
    + cbn [drop_end] in *. rewrite IH. reflexivity.
Qed.
Lemma signed64_as_u z : in_i64 z -> signed64 (as_u 64 z) = z.
Proof.
  intros [H1 H2]. unfold signed64, as_u. destruct (Z.ltb_spec z 0) as [Hz|Hz].
  - assert (z mod 2 ^ 64 = z + 2 ^ 64) as -> by (symmetry; apply Z.mod_unique with (-1); lia).
    destruct (Z.ltb_spec (z + 2 ^ 64) (2 ^ 63)); lia.
  - rewrite Z.mod_small by lia. destruct (Z.ltb_spec z (2 ^ 63)); lia.
Qed.
Lemma number_hex_alt_large o rest :
  read_large rest (fmt_hex 64 o ++ String " " rest) = Some (as_u 64 o).
Proof.
  unfold read_large. rewrite upto_app by (apply space_plain, hex_plain).
  rewrite String.eqb_refl. apply number_hex. lia.
Qed.
Lemma register_shown_text pr t reg : 0 <= reg -> register_shown pr t reg (register_text pr t reg).
Proof.
  intros H. unfold register_shown, register_text, reg_name. destruct t as [t|]; [|apply number_dec, H].
  destruct (pr_register pr t reg); [reflexivity|apply number_dec, H].
Qed.
Lemma rule_shown_text pr a rule : rule_typed rule -> rule_shown pr (names_of a) rule (display_rule pr a rule).
Proof.
  intros H. destruct rule; cbn [rule_shown display_rule]; try reflexivity.
  - exists (fmt_plus o ++ ")"), (fmt_plus o). split; [apply after_app|]. split; [apply drop_end_app|apply integer_plus].
  - exists (fmt_plus o). split; [apply after_app|apply integer_plus].
  - apply (register_shown_text pr (names_of a)). cbn in H. lia.
  - apply integer_dec.
Qed.

Lemma after_none_head p s c d p' s' : p = String c p' -> s = String d s' -> Ascii.eqb c d = false -> after p s = None.
Proof. intros -> -> H. cbn [after]. rewrite H. reflexivity. Qed.

Lemma read_reason_register n : read_reason ("unsupported CFA source register `" ++ n ++ "`") = Some (ReasonRegister n).
Proof.
  unfold read_reason. replace (String.eqb _ _) with false by reflexivity.
  rewrite after_app, drop_end_app. reflexivity.
Qed.
Lemma read_reason_cfa o : read_reason ("CFA register offset " ++ fmt_hex_alt 64 o ++ " too large to be represented in the SFrame format") = Some (ReasonCfaOffset (as_u 64 o)).
Proof.
  unfold read_reason, fmt_hex_alt. rewrite app_assoc_s. replace (String.eqb _ _) with false by reflexivity.
  replace (after "unsupported CFA source register `" _) with (@None string) by reflexivity.
  change ("CFA register offset " ++ "0x" ++ ?x) with ("CFA register offset 0x" ++ x).
  rewrite after_app. cbn [append]. rewrite number_hex_alt_large. reflexivity.
Qed.
Lemma read_reason_fp o : read_reason ("FP register offset " ++ fmt_hex_alt 64 o ++ " too large to represented in the SFrame format") = Some (ReasonFpOffset (as_u 64 o)).
Proof.
  unfold read_reason, fmt_hex_alt. rewrite app_assoc_s. replace (String.eqb _ _) with false by reflexivity.
  replace (after "unsupported CFA source register `" _) with (@None string) by reflexivity.
  replace (after "CFA register offset 0x" _) with (@None string) by reflexivity.
  change ("FP register offset " ++ "0x" ++ ?x) with ("FP register offset 0x" ++ x).
  rewrite after_app. cbn [append]. rewrite number_hex_alt_large. reflexivity.
Qed.
Lemma read_reason_ra o : read_reason ("RA register offset " ++ fmt_hex_alt 64 o ++ " too large to represented in the SFrame format") = Some (ReasonRaOffset (as_u 64 o)).
Proof.
  unfold read_reason, fmt_hex_alt. rewrite app_assoc_s. replace (String.eqb _ _) with false by reflexivity.
  replace (after "unsupported CFA source register `" _) with (@None string) by reflexivity.
  replace (after "CFA register offset 0x" _) with (@None string) by reflexivity.
  replace (after "FP register offset 0x" _) with (@None string) by reflexivity.
  change ("RA register offset " ++ "0x" ++ ?x) with ("RA register offset 0x" ++ x).
  rewrite after_app. cbn [append]. rewrite number_hex_alt_large. reflexivity.
Qed.
Lemma read_reason_fp_rule n : read_reason ("Unsupport FP recovery rule: `" ++ n ++ "`") = Some (ReasonFpRule n).
Proof.
  unfold read_reason. replace (String.eqb _ _) with false by reflexivity.
  replace (after "unsupported CFA source register `" _) with (@None string) by reflexivity.
  replace (after "CFA register offset 0x" _) with (@None string) by reflexivity.
  replace (after "FP register offset 0x" _) with (@None string) by reflexivity.
  replace (after "RA register offset 0x" _) with (@None string) by reflexivity.
  rewrite after_app, drop_end_app. reflexivity.
Qed.
Lemma read_reason_ra_rule n : read_reason ("Unsupport RA recovery rule: `" ++ n ++ "`") = Some (ReasonRaRule n).
Proof.
  unfold read_reason. replace (String.eqb _ _) with false by reflexivity.
  replace (after "unsupported CFA source register `" _) with (@None string) by reflexivity.
  replace (after "CFA register offset 0x" _) with (@None string) by reflexivity.
  replace (after "FP register offset 0x" _) with (@None string) by reflexivity.
  replace (after "RA register offset 0x" _) with (@None string) by reflexivity.
  replace (after "Unsupport FP recovery rule: `" _) with (@None string) by reflexivity.
  rewrite after_app, drop_end_app. reflexivity.
Qed.

Lemma not_in_i32 z : in_i32b z = false -> ~ in_i32 z.
Proof. intros H Hz. apply in_i32b_spec in Hz. congruence. Qed.

Lemma row_message_holds pr a r m : row_payload_typed r -> row_message pr a r = Some m ->
  exists why, read_reason m = Some why /\ reason_holds signed64 pr a r why.
Proof.
  intros [Hc Hr]. unfold row_message. destruct (dr_cfa r) as [reg cfa|x] eqn:Ec.
  2:{ intros [= <-]. exists ReasonExpression. split; [reflexivity|]. exists x. exact Ec. }
  destruct Hc as [Hreg Hcfa].
  destruct (Z.eqb_spec reg (reg_sp a)) as [Hsp|Hsp];
    [|destruct (Z.eqb_spec reg (reg_fp a)) as [Hfp|Hfp]].
  3:{ intros [= <-]. exists (ReasonRegister (display_register pr a reg)). split; [apply read_reason_register|].
      exists reg, cfa. split; [exact Ec|]. split; [exact Hsp|]. split; [exact Hfp|]. apply (register_shown_text pr (names_of a)). lia. }
  all: destruct (in_i32b cfa) eqn:Ei;
    [|intros [= <-]; exists (ReasonCfaOffset (as_u 64 cfa)); split; [apply read_reason_cfa|];
      exists reg; rewrite signed64_as_u by exact Hcfa; split; [exact Ec|apply not_in_i32, Ei]].
  all: destruct (match dr_register r (reg_fp a) with
                 | ROffset o => if in_i32b o then None else Some ("FP register offset " ++ fmt_hex_alt 64 o ++ " too large to represented in the SFrame format")
                 | RSameValue | RUndefined => None
                 | rule => Some ("Unsupport FP recovery rule: `" ++ display_rule pr a rule ++ "`")
                 end) as [m'|] eqn:Ef.
  1,3: intros [= <-]; pose proof (Hr (reg_fp a)) as Ht;
       destruct (dr_register r (reg_fp a)) as [| |o| | | | | |] eqn:Er; try discriminate Ef;
       try (destruct (in_i32b o) eqn:Eo; [discriminate|]; apply some_inj in Ef; subst m';
            exists (ReasonFpOffset (as_u 64 o)); split; [apply read_reason_fp|]; cbn [reason_holds];
            rewrite signed64_as_u by exact Ht; split; [exact Er|apply not_in_i32, Eo]);
       apply some_inj in Ef; subst m'; eexists; (split; [apply read_reason_fp_rule|]); cbn [reason_holds];
       rewrite Er; (split; [apply rule_shown_text, Ht|]); repeat split; congruence.
  all: clear Ef; pose proof (Hr (reg_ra a)) as Ht; destruct (dr_register r (reg_ra a)) as [| |o| | | | | |] eqn:Er;
       try (destruct (in_i32b o) eqn:Eo; [discriminate|]);
       intros Ef; apply some_inj in Ef; subst m;
       try (exists (ReasonRaOffset (as_u 64 o)); split; [apply read_reason_ra|]; cbn [reason_holds];
            rewrite signed64_as_u by exact Ht; split; [exact Er|apply not_in_i32, Eo]);
       eexists; (split; [apply read_reason_ra_rule|]); cbn [reason_holds];
       rewrite Er; (split; [apply rule_shown_text, Ht|]); congruence.
Qed.

Lemma hex_pad_chars w n z : all_chars plain (zero_pad n (fmt_hex w z)) = true.
Proof. apply hex_pad_plain. Qed.
Lemma hex_nonempty w z : fmt_hex w z <> "".
Proof. unfold fmt_hex. apply digits_nonempty. Qed.

Lemma hex_pad_digits w n z : 0 <= z < 2 ^ w -> 0 <= w -> all_chars is_digit (zero_pad n (fmt_hex w z)) = true.
Proof.
  intros H Hw. unfold zero_pad. rewrite all_chars_app. apply andb_true_intro. split.
  - apply all_chars_repeat. reflexivity.
  - unfold fmt_hex. apply digits_chars. lia.
Qed.
Lemma digit_without c s : is_digit c = false -> all_chars is_digit s = true -> without c s.
Proof.
  intros H Hs. apply without_all. revert Hs. apply all_chars_impl. intros x Hx.
  apply negb_true_iff. apply Ascii.eqb_neq. intros ->. congruence.
Qed.

Lemma read_warning_text start offset len m : in_u64 start -> in_u64 offset ->
  read_warning ("warning: " ++ warn_text start offset len m) = Some (start, offset, m).
Proof.
  intros [H1 H2] [H3 H4]. unfold read_warning, warn_text, fmt_hex_alt_pad. rewrite !app_assoc_s.
  change ("warning: " ++ "FDE for " ++ "0x" ++ ?x) with ("warning: FDE for 0x" ++ x).
  rewrite after_app. change (?x ++ "+" ++ ?y) with (x ++ String "+" y).
  rewrite upto_app by (apply digit_without; [reflexivity|apply hex_pad_digits; lia]).
  rewrite after_app. change (?x ++ ": " ++ ?y) with (x ++ String ":" (" " ++ y)).
  rewrite upto_app by (apply digit_without; [reflexivity|apply hex_pad_digits; lia]).
  rewrite after_app. rewrite !number_zero_pad by apply hex_nonempty. rewrite !number_hex by lia.
  unfold as_u. rewrite !Z.mod_small by lia. reflexivity.
Qed.

(** ** The warnings of a conversion *)

Lemma stderr_app l l' : stderr_of (l ++ l') = (stderr_of l ++ stderr_of l')%list.
Proof. unfold stderr_of. apply flat_map_app. Qed.
Lemma stdout_app l l' : stdout_of (l ++ l') = (stdout_of l ++ stdout_of l')%list.
Proof. unfold stdout_of. apply flat_map_app. Qed.
Lemma stderr_outs {A} (g : A -> string) l : stderr_of (map (fun x => Out (g x)) l) = [].
Proof. induction l as [|x t IH]; [reflexivity|exact IH]. Qed.
Lemma stderr_row_dump pr a r : stderr_of (row_dump pr a r) = [].
Proof. unfold row_dump. cbn. apply stderr_outs. Qed.

Lemma sieve_app {A} (P : A -> Prop) l1 l1' l2 l2' : sieve P l1 l1' -> sieve P l2 l2' -> sieve P (l1 ++ l2) (l1' ++ l2').
Proof. intros H1 H2. induction H1; cbn; [exact H2|constructor; assumption|apply sieve_drop; assumption]. Qed.
Lemma sieve_map {A B} (P : A -> Prop) (Q : B -> Prop) (g : A -> B) l l' :
  (forall x, P x <-> Q (g x)) -> sieve P l l' -> sieve Q (map g l) (map g l').
Proof.
  intros H. induction 1; cbn; [constructor|constructor; [apply H; assumption|assumption]|].
  apply sieve_drop; [intros Hq; apply H in Hq; auto|assumption].
Qed.

Definition warnings_match (op : options) (W : dw_fde * dw_row -> string -> Prop) (lost : list (dw_fde * dw_row)) (ev : list event) : Prop :=
  if op_warnings op then Forall2 W lost (stderr_of ev) else stderr_of ev = [].

Lemma warnings_match_app op W l1 l2 e1 e2 : warnings_match op W l1 e1 -> warnings_match op W l2 e2 ->
  warnings_match op W (l1 ++ l2) (e1 ++ e2).
Proof.
  unfold warnings_match. rewrite stderr_app. destruct (op_warnings op).
  - intros H1 H2. apply Forall2_app; assumption.
  - intros -> ->. reflexivity.
Qed.
Lemma warnings_match_silent op W ev : stderr_of ev = [] -> warnings_match op W [] ev.
Proof. unfold warnings_match. intros ->. destruct (op_warnings op); [constructor|reflexivity]. Qed.

(** The rows reported among the first of [l]. *)
Definition reported {A} (P : A -> Prop) (M : list A -> Prop) (l : list A) (all : Prop) : Prop :=
  exists pre post lost, l = (pre ++ post)%list /\ (all -> post = []) /\ sieve P pre lost /\ M lost.

Lemma reported_none {A} (P : A -> Prop) (M : list A -> Prop) l (all : Prop) : ~ all -> M [] -> reported P M l all.
Proof. intros H HM. exists [], l, []. split; [reflexivity|]. split; [intros Ha; contradiction|]. split; [constructor|exact HM]. Qed.

Lemma rows_reported (W : dw_fde * dw_row -> string -> Prop) pr md op f :
  0 <= df_start f <= i32_max ->
  forall l b,
  (forall r m, In r l -> row_message pr (op_arch op) r = Some m -> 0 <= off f r < i32_max ->
     W (f, r) ("warning: " ++ warn_text (df_start f) (off f r) (df_len f) m)) ->
  Forall dw_row_typed l ->
  reported (row_lost (op_arch op)) (fun lost => warnings_match op W lost (fst (convert_rows_loud pr md op f l b)))
    (map (pair f) (filter wideb l)) (finished (snd (convert_rows_loud pr md op f l b))).
Proof.
  intros Hf. induction l as [|r t IH]; intros b HW Ht.
  - exists [], [], []. split; [reflexivity|]. split; [reflexivity|]. split; [constructor|]. apply warnings_match_silent. reflexivity.
  - assert (IH' : forall b, reported (row_lost (op_arch op)) (fun lost => warnings_match op W lost (fst (convert_rows_loud pr md op f t b)))
      (map (pair f) (filter wideb t)) (finished (snd (convert_rows_loud pr md op f t b)))).
    { intros b0. apply IH; [intros r0 m H; apply HW; right; exact H|apply Forall_inv_tail in Ht; exact Ht]. }
    clear IH. pose proof (Forall_inv Ht) as [[Hr1 Hr2] _]. cbn [convert_rows_loud].
    set (dbg := if op_debugdump op then say (row_dump pr (op_arch op) r) else say []).
    assert (Hdbg : exists l0, dbg = @say conv_error l0 /\ stderr_of l0 = []).
    { subst dbg. destruct (op_debugdump op); eexists; (split; [reflexivity|]); [apply stderr_row_dump|reflexivity]. }
    destruct Hdbg as (l0 & -> & Hl0). rewrite lbind_say. cbn [fst snd].
    assert (Hsil : forall lost ev, warnings_match op W lost ev -> warnings_match op W lost (l0 ++ ev)).
    { intros lost ev H. apply (warnings_match_app op W [] lost l0 ev); [apply warnings_match_silent, Hl0|exact H]. }
    cbn [filter]. unfold wideb at 1. destruct (dr_start r =? dr_end r)%Z; cbn [negb].
    { destruct (IH' b) as (pre & post & lost & H1 & H2 & H3 & H4). exists pre, post, lost.
      split; [exact H1|]. split; [exact H2|]. split; [exact H3|]. apply Hsil, H4. }
    assert (Hstop : forall (o : outcome conv_error fdb), ~ finished o -> reported (row_lost (op_arch op))
       (fun lost => warnings_match op W lost (l0 ++ [])) (map (pair f) (r :: filter wideb t)) (finished o)).
    { intros o Ho. apply reported_none; [exact Ho|]. apply Hsil, warnings_match_silent. reflexivity. }
    destruct (sub_u64 md (dr_start r) (df_start f)) as [d|er|] eqn:Ed.
    2,3: unfold lbind; cbn [quiet fst snd]; apply Hstop; intros [? ?]; discriminate.
    rewrite lbind_quiet_ok. destruct (row_start_ok d) eqn:Eok; cbn [negb].
    2:{ cbn [quiet fst snd]. apply Hstop. intros [? ?]; discriminate. }
    assert (Hd : d = off f r /\ 0 <= off f r < i32_max).
    { unfold row_start_ok in Eok. apply Z.ltb_lt in Eok. unfold off, i32_max in *. unfold sub_u64 in Ed.
      destruct (Z.leb_spec 0 (dr_start r - df_start f)); [assert (d = dr_start r - df_start f) by congruence; lia|].
      destruct (overflow_checks md); [discriminate|].
      assert (d = as_u 64 (dr_start r - df_start f)) as Hd by congruence. unfold as_u in Hd.
      assert ((dr_start r - df_start f) mod 2 ^ 64 = dr_start r - df_start f + 2 ^ 64) as Hm by (symmetry; apply Z.mod_unique with (-1); lia).
      lia. }
    destruct Hd as [-> Hd]. rewrite convert_row_loud_eq by exact Hd.
    destruct (row_message pr (op_arch op) r) as [m|] eqn:Em.
    + assert (HL : row_lost (op_arch op) (f, r)) by (apply (row_message_lost pr); exists m; exact Em).
      unfold warn_loud. destruct (op_warnings op) eqn:Ew; cbn [negb].
      * rewrite sub_u64_ok by (apply Hd). cbn [bind]. fold (off f r). destruct (df_len f =? 0)%Z; cbn [lift].
        { unfold lbind; cbn [quiet fst snd]. apply Hstop. intros [? ?]; discriminate. }
        rewrite lbind_quiet_ok, lbind_say_quiet. cbn [fst snd].
        set (w := "warning: " ++ warn_text (df_start f) (off f r) (df_len f) m).
        assert (Hw : W (f, r) w) by (apply HW; [left; reflexivity|exact Em|exact Hd]).
        assert (Hone : forall lost ev, warnings_match op W lost ev -> warnings_match op W ((f, r) :: lost) (ErrOut w :: ev)).
        { intros lost ev. unfold warnings_match. rewrite Ew. intros H. cbn. constructor; [exact Hw|exact H]. }
        destruct (fdb_row b (row_invalid (off f r))) as [b'|er|].
        -- destruct (IH' b') as (pre & post & lost & H1 & H2 & H3 & H4).
           exists ((f, r) :: pre), post, ((f, r) :: lost). split; [cbn; rewrite H1; reflexivity|]. split; [exact H2|].
           split; [constructor; assumption|]. apply Hsil, Hone, H4.
        -- exists [(f, r)], (map (pair f) (filter wideb t)), [(f, r)]. split; [reflexivity|]. split; [intros [? ?]; discriminate|].
           split; [constructor; [exact HL|constructor]|]. apply Hsil, Hone, warnings_match_silent. reflexivity.
        -- exists [(f, r)], (map (pair f) (filter wideb t)), [(f, r)]. split; [reflexivity|]. split; [intros [? ?]; discriminate|].
           split; [constructor; [exact HL|constructor]|]. apply Hsil, Hone, warnings_match_silent. reflexivity.
      * cbn [lift]. rewrite lbind_quiet_ok, lbind_say_quiet. cbn [fst snd app].
        assert (Hone : forall lost ev, warnings_match op W lost ev -> warnings_match op W ((f, r) :: lost) ev).
        { intros lost ev. unfold warnings_match. rewrite Ew. auto. }
        destruct (fdb_row b (row_invalid (off f r))) as [b'|er|].
        -- destruct (IH' b') as (pre & post & lost & H1 & H2 & H3 & H4).
           exists ((f, r) :: pre), post, ((f, r) :: lost). split; [cbn; rewrite H1; reflexivity|]. split; [exact H2|].
           split; [constructor; assumption|]. apply Hsil, Hone, H4.
        -- apply Hstop. intros [? ?]; discriminate.
        -- apply Hstop. intros [? ?]; discriminate.
    + assert (HL : ~ row_lost (op_arch op) (f, r)).
      { intros H. apply (row_message_lost pr) in H. destruct H as [m H]. cbn in H. congruence. }
      cbn [lift]. rewrite !lbind_quiet_ok. destruct (fdb_row b (img (op_arch op) f r)) as [b'|er|].
      * destruct (IH' b') as (pre & post & lost & H1 & H2 & H3 & H4).
        exists ((f, r) :: pre), post, lost. split; [cbn; rewrite H1; reflexivity|]. split; [exact H2|].
        split; [apply sieve_drop; assumption|]. apply Hsil, H4.
      * apply Hstop. intros [? ?]; discriminate.
      * apply Hstop. intros [? ?]; discriminate.
Qed.

Definition mute {E A} (m : loud E A) : Prop := stderr_of (fst m) = [].
Lemma mute_bind {E A B} (m : loud E A) (k : A -> loud E B) : mute m -> (forall a, mute (k a)) -> mute (lbind m k).
Proof.
  unfold mute, lbind. intros H1 H2. destruct (snd m); cbn [fst]; [|exact H1|exact H1].
  rewrite stderr_app, H1, H2. reflexivity.
Qed.
Lemma mute_quiet {E A} (o : outcome E A) : mute (quiet o).
Proof. reflexivity. Qed.
Lemma mute_say {E} l : stderr_of l = [] -> mute (@say E l).
Proof. exact (fun H => H). Qed.
Lemma mute_expression pr reg full i x : mute (dump_expression pr reg full i x).
Proof. unfold mute, dump_expression. cbn [fst]. apply stderr_outs. Qed.
Lemma mute_insns pr reg full fin en : stderr_of fin = [] -> forall l, mute (dump_insn_list pr reg full l en fin).
Proof.
  intros Hfin. induction l as [|i t IH]; cbn [dump_insn_list].
  - destruct en; [reflexivity|exact Hfin].
  - apply mute_bind; [reflexivity|]. intros _. apply mute_bind; [|intros _; exact IH].
    destruct (insn_expression i); [apply mute_expression|reflexivity].
Qed.

Definition fde_prelude (pr : printers) (md : mode) (op : options) (f : dw_fde) : loud conv_error unit :=
  if op_debugdump op then
    let! _ := say [ Out "FDE:"; Out (" start_address: " ++ fmt_hex_alt_pad 64 10 (df_start f)) ] in
    let! e := quiet (add_u64 md (df_start f) (df_len f)) in
    let! _ := say [ Out ("    range_size: " ++ fmt_hex_alt_pad 64 10 (df_len f) ++
                      " (end_addr = " ++ fmt_hex_alt_pad 64 10 e ++ ")") ] in
    let! _ := loud_err InvalidDwarfFde (dump_cfi_instructions pr (op_arch op) (df_insns f)) in
    say [ Out ""; Out "Rows:" ]
  else say [].
Lemma mute_prelude pr md op f : mute (fde_prelude pr md op f).
Proof.
  unfold fde_prelude. destruct (op_debugdump op); [|reflexivity].
  apply mute_bind; [reflexivity|]. intros _. apply mute_bind; [apply mute_quiet|]. intros e.
  apply mute_bind; [reflexivity|]. intros _. apply mute_bind; [|reflexivity].
  unfold mute, loud_err. cbn [fst]. apply mute_insns. reflexivity.
Qed.

Lemma not_finished_err {E A} (er : E) : ~ finished (@Err E A er).
Proof. intros [? ?]. discriminate. Qed.
Lemma not_finished_panic {E A} : ~ finished (@Panic E A).
Proof. intros [? ?]. discriminate. Qed.

Lemma fde_reported (W : dw_fde * dw_row -> string -> Prop) pr md op s f :
  dw_fde_typed f ->
  (forall r m, In r (dw_rows_of f) -> row_message pr (op_arch op) r = Some m -> 0 <= off f r < i32_max -> df_start f <= i32_max ->
     W (f, r) ("warning: " ++ warn_text (df_start f) (off f r) (df_len f) m)) ->
  reported (row_lost (op_arch op)) (fun lost => warnings_match op W lost (fst (convert_fde_loud pr md op s f)))
    (map (pair f) (wide_rows f)) (finished (snd (convert_fde_loud pr md op s f))).
Proof.
  intros ([Hs _] & _ & Ht) HW. unfold convert_fde_loud. fold (fde_prelude pr md op f).
  pose proof (mute_prelude pr md op f) as Hp. destruct (fde_prelude pr md op f) as [pv po]. unfold mute in Hp. cbn [fst] in Hp.
  assert (Hsil : forall lost ev, warnings_match op W lost ev -> warnings_match op W lost (pv ++ ev)).
  { intros lost ev H. apply (warnings_match_app op W [] lost pv ev); [apply warnings_match_silent, Hp|exact H]. }
  assert (Hstop : forall (o : outcome conv_error sfb), ~ finished o -> reported (row_lost (op_arch op))
     (fun lost => warnings_match op W lost (pv ++ [])) (map (pair f) (wide_rows f)) (finished o)).
  { intros o Ho. apply reported_none; [exact Ho|]. apply Hsil, warnings_match_silent. reflexivity. }
  destruct po as [u|er|]; [rewrite !lbind_ok; cbn [fst snd]|unfold lbind at 1 4; cbn [fst snd]..].
  2,3: apply reported_none; [intros [? Hx]; discriminate Hx|apply warnings_match_silent, Hp].
  destruct (i32_max <? df_start f)%Z eqn:E1; [apply Hstop; cbn [snd quiet]; apply not_finished_err|].
  destruct (i32_max <? df_len f)%Z; [apply Hstop; cbn [snd quiet]; apply not_finished_err|]. apply Z.ltb_ge in E1.
  unfold wide_rows, dw_rows_of in *. destruct (df_rows f) as [[l en]|g]; [|apply Hstop; cbn [snd quiet]; apply not_finished_err]. cbn [rows_list rows_end] in *.
  set (b0 := fdb_new (sb_options s) (as_s 32 (df_start f)) (as_u 32 (df_len f))).
  destruct (rows_reported W pr md op f (conj Hs E1) l b0 (fun r m K1 K2 K3 => HW r m K1 K2 K3 E1) Ht) as (pre & post & lost & H1 & H2 & H3 & H4).
  destruct (convert_rows_loud pr md op f l b0) as [rv ro]. cbn [fst snd] in *.
  assert (Hend : forall (o : outcome conv_error sfb) ev, (finished o -> finished ro) -> stderr_of ev = [] -> reported (row_lost (op_arch op))
     (fun lost => warnings_match op W lost (pv ++ (rv ++ ev))) (map (pair f) (filter wideb l)) (finished o)).
  { intros o ev Ho Hev. exists pre, post, lost. split; [exact H1|]. split; [intros Hfin; apply H2, Ho, Hfin|]. split; [exact H3|].
    apply Hsil. rewrite <- (app_nil_r lost). apply warnings_match_app; [exact H4|apply warnings_match_silent, Hev]. }
  destruct ro as [b|er|].
  2,3: unfold lbind; cbn [fst snd]; rewrite <- (app_nil_r rv); apply Hend; [intros [? Hx]; discriminate Hx|reflexivity].
  assert (Hfb : finished (@Ok conv_error _ b)) by (exists b; reflexivity).
  rewrite !lbind_ok. cbn [fst snd].
  destruct en as [g|]; [apply Hend; [intros _; exact Hfb|reflexivity]|].
  apply Hend; [intros _; exact Hfb|]. apply mute_bind; [apply mute_quiet|]. intros b1. apply mute_bind; [apply mute_quiet|]. intros s1.
  apply mute_bind; [destruct (op_debugdump op); reflexivity|]. intros _. apply mute_quiet.
Qed.

Lemma entries_reported (W : dw_fde * dw_row -> string -> Prop) pr md op : forall l s,
  Forall dw_entry_typed l ->
  (forall f r m, In f (functions l) -> In r (dw_rows_of f) -> row_message pr (op_arch op) r = Some m -> 0 <= off f r < i32_max -> df_start f <= i32_max ->
     W (f, r) ("warning: " ++ warn_text (df_start f) (off f r) (df_len f) m)) ->
  reported (row_lost (op_arch op)) (fun lost => warnings_match op W lost (fst (convert_entries_loud pr md op l s)))
    (flat_map (fun f => map (pair f) (wide_rows f)) (functions l)) (finished (snd (convert_entries_loud pr md op l s))).
Proof.
  induction l as [|x t IH]; intros s Ht HW; cbn [convert_entries_loud functions].
  - exists [], [], []. split; [reflexivity|]. split; [reflexivity|]. split; [constructor|]. apply warnings_match_silent. reflexivity.
  - apply Forall_cons_iff in Ht. destruct Ht as [Hx Ht]. destruct x as [|g|f].
    + apply IH; assumption.
    + apply reported_none; [apply not_finished_err|apply warnings_match_silent; reflexivity].
    + cbn [functions flat_map] in *. 
      destruct (fde_reported W pr md op s f Hx (fun r m => HW f r m (or_introl eq_refl))) as (pre & post & lost & H1 & H2 & H3 & H4).
      destruct (convert_fde_loud pr md op s f) as [fv fo]. cbn [fst snd] in *. unfold lbind. cbn [fst snd].
      destruct fo as [s'|er|]; cbn [fst snd].
      2,3: exists pre, (post ++ flat_map (fun f => map (pair f) (wide_rows f)) (functions t))%list, lost;
         (split; [rewrite app_assoc, <- H1; reflexivity|]); (split; [intros [? Hd]; discriminate Hd|]); (split; [exact H3|exact H4]).
      rewrite H2 in H1 by (exists s'; reflexivity). rewrite app_nil_r in H1.
      destruct (IH s' Ht (fun f0 r m H => HW f0 r m (or_intror H))) as (pre' & post' & lost' & K1 & K2 & K3 & K4).
      exists (pre ++ pre')%list, post', (lost ++ lost')%list. split; [rewrite H1, K1, app_assoc; reflexivity|].
      split; [exact K2|]. split; [apply sieve_app; assumption|apply warnings_match_app; assumption].
Qed.

Theorem conversion_reported (W : dw_fde * dw_row -> string -> Prop) pr md op eh ev o :
  eh_typed eh -> dwarf2sframe_loud pr md op eh = (ev, o) ->
  (forall f r m, In f (functions (entries_of eh)) -> In r (dw_rows_of f) -> row_message pr (op_arch op) r = Some m -> 0 <= off f r < i32_max -> df_start f <= i32_max ->
     W (f, r) ("warning: " ++ warn_text (df_start f) (off f r) (df_len f) m)) ->
  reported (row_lost (op_arch op)) (fun lost => warnings_match op W lost ev) (rows_met eh) (finished o).
Proof.
  intros Ht E HW. unfold dwarf2sframe_loud in E. unfold rows_met, entries_of in *.
  destruct (entries_reported W pr md op _ (sfb_new (conv_sfoptions op eh)) Ht HW) as (pre & post & lost & H1 & H2 & H3 & H4).
  destruct (convert_entries_loud _ _ _ _ _) as [cv co]. cbn [fst snd] in *. unfold lbind in E. cbn [fst snd] in E.
  assert (Hcv : ev = cv /\ (finished o -> finished co)).
  { destruct co as [s|er|]; cbn in E.
    - split; [|intros _; exists s; reflexivity].
      destruct (ents_end (eh_entries eh)); cbn in E; rewrite app_nil_r in E; congruence.
    - split; [congruence|]. intros [? Hx]. subst. discriminate.
    - split; [congruence|]. intros [? Hx]. subst. discriminate. }
  destruct Hcv as [-> Hfin]. exists pre, post, lost. auto.
Qed.

(** ** C71, C72 *)

Lemma functions_typed l f : Forall dw_entry_typed l -> In f (functions l) -> dw_fde_typed f.
Proof.
  induction 1 as [|x t Hx Ht IH]; [contradiction|]. destruct x as [|g|f']; cbn [functions]; [exact IH|exact IH|].
  intros [<-|H]; [exact Hx|apply IH, H].
Qed.

Theorem warnings_located pr md op eh ev o :
  eh_typed eh -> op_warnings op = true -> dwarf2sframe_loud pr md op eh = (ev, o) ->
  exists pre post lost, rows_met eh = (pre ++ post)%list /\ (finished o -> post = []) /\
    sieve (row_lost (op_arch op)) pre lost /\ Forall2 located lost (stderr_of ev).
Proof.
  intros Ht Hw E. destruct (conversion_reported located pr md op eh ev o Ht E) as (pre & post & lost & H1 & H2 & H3 & H4).
  - intros f r m Hf Hr Hm Ho Hle. pose proof (functions_typed _ f Ht Hf) as [Hs _]. exists m. cbn [fst snd].
    apply read_warning_text; [exact Hs|]. unfold in_u64, i32_max in *. lia.
  - exists pre, post, lost. unfold warnings_match in H4. rewrite Hw in H4. auto.
Qed.

Theorem warnings_off pr md op eh ev o :
  eh_typed eh -> op_warnings op = false -> dwarf2sframe_loud pr md op eh = (ev, o) -> stderr_of ev = [].
Proof.
  intros Ht Hw E. destruct (conversion_reported (fun _ _ => True) pr md op eh ev o Ht E) as (pre & post & lost & H1 & H2 & H3 & H4).
  - auto.
  - unfold warnings_match in H4. rewrite Hw in H4. exact H4.
Qed.

Theorem warnings_true pr md op eh ev o :
  eh_typed eh -> eh_payload_typed eh -> op_warnings op = true -> dwarf2sframe_loud pr md op eh = (ev, o) ->
  exists pre post lost, rows_met eh = (pre ++ post)%list /\ (finished o -> post = []) /\
    sieve (row_lost (op_arch op)) pre lost /\ Forall2 (warned signed64 pr (op_arch op)) lost (stderr_of ev).
Proof.
  intros Ht Hp Hw E.
  destruct (conversion_reported (warned signed64 pr (op_arch op)) pr md op eh ev o Ht E) as (pre & post & lost & H1 & H2 & H3 & H4).
  - intros f r m Hf Hr Hm Ho Hle. pose proof (functions_typed _ f Ht Hf) as [Hs _].
    destruct (row_message_holds pr (op_arch op) r m (Hp f r Hf Hr) Hm) as (why & W1 & W2).
    exists m, why. cbn [fst snd]. split; [|split; [exact W1|exact W2]].
    apply read_warning_text; [exact Hs|]. unfold in_u64, i32_max in *. lia.
  - exists pre, post, lost. unfold warnings_match in H4. rewrite Hw in H4. auto.
Qed.

(** ** C73 *)

Lemma register_text_spec pr t r : register_text pr t r = match reg_name pr t r with Some n => n | None => fmt_dec r end.
Proof. destruct t; reflexivity. Qed.
Lemma display_register_spec pr a r : register_text pr (Some (arch_table a)) r =
  match reg_name pr (names_of a) r with Some n => n | None => fmt_dec r end.
Proof. destruct a; reflexivity. Qed.

Lemma dec_inj x y : fmt_dec x = fmt_dec y -> x = y.
Proof. intros H. apply (f_equal integer) in H. rewrite !integer_dec in H. congruence. Qed.
Lemma plus_inj x y : fmt_plus x = fmt_plus y -> x = y.
Proof. intros H. apply (f_equal integer) in H. rewrite !integer_plus in H. congruence. Qed.
Lemma app_inj_l p s t : p ++ s = p ++ t -> s = t.
Proof. intros H. apply (f_equal (after p)) in H. rewrite !after_app in H. congruence. Qed.

Lemma dec_head z : exists c s, fmt_dec z = String c s /\ (c = "-"%char \/ is_digit c = true).
Proof.
  unfold fmt_dec. destruct (z <? 0)%Z.
  - eexists _, _. cbn [append]. split; [reflexivity|left; reflexivity].
  - pose proof (digits_nonempty 10 z) as Hn. pose proof (digits_chars 10 z ltac:(lia)) as Hc.
    destruct (digits 10 z) as [|c s]; [contradiction|]. cbn in Hc. apply andb_prop in Hc. exists c, s. split; [reflexivity|right; apply Hc].
Qed.

(** The text of a rule that is neither a register nor opaque. *)
Definition simple (rule : reg_rule) : bool :=
  match rule with RUndefined | RSameValue | ROffset _ | RValOffset _ | RConstant _ => true | _ => false end.
Lemma simple_taken pr a rule : simple rule = true -> taken (display_rule pr a rule).
Proof.
  destruct rule; try discriminate; intros _; cbn [display_rule]; unfold taken.
  - left. reflexivity.
  - right. left. reflexivity.
  - right. right. left. rewrite after_app. discriminate.
  - do 3 right. left. rewrite after_app. discriminate.
  - do 4 right. rewrite integer_dec. discriminate.
Qed.
Lemma simple_inj pr a x y : simple x = true -> simple y = true -> display_rule pr a x = display_rule pr a y -> x = y.
Proof.
  destruct x; try discriminate; destruct y; try discriminate; intros _ _; cbn [display_rule]; intros H; try reflexivity; try discriminate H.
  all: try (destruct (dec_head c) as (k & s & E & [-> | Hk]); rewrite E in H; try discriminate H; cbn [append] in H;
            assert (k = "<"%char \/ k = "*"%char \/ k = "C"%char) as Hd by (inversion H; auto);
            destruct Hd as [-> | [-> | ->]]; discriminate Hk).
  - apply app_inj_l in H. apply (f_equal (drop_end ")")) in H. rewrite !drop_end_app in H. f_equal. apply plus_inj. congruence.
  - apply app_inj_l in H. f_equal. apply plus_inj, H.
  - f_equal. apply dec_inj, H.
Qed.

Theorem rule_text_injective pr a x y : clear_texts pr (names_of a) -> display_rule pr a x = display_rule pr a y ->
  x = y \/ (opaque x = true /\ opaque y = true /\ pr_rule pr x = pr_rule pr y) \/
  exists n, reg_name pr (names_of a) n = None /\
    ((x = RRegister n /\ y = RConstant n) \/ (x = RConstant n /\ y = RRegister n)).
Proof.
  intros [Hn Hno Hnt Hot] H.
  assert (Hs : forall x y, simple x = true -> display_rule pr a x = display_rule pr a y ->
    x = y \/ exists n, reg_name pr (names_of a) n = None /\ x = RConstant n /\ y = RRegister n).
  { clear x y H. intros x y Hx H. pose proof (simple_taken pr a x Hx) as Ht.
    destruct (simple y) eqn:Hy; [left; apply (simple_inj pr a); assumption|].
    destruct y; try discriminate Hy; cbn [display_rule] in H.
    - unfold display_register in H. rewrite display_register_spec in H. destruct (reg_name pr (names_of a) r) as [n|] eqn:E.
      + rewrite H in Ht. exfalso. apply (Hnt r n E Ht).
      + right. exists r. split; [exact E|]. split; [|reflexivity].
        apply (simple_inj pr a); [exact Hx|reflexivity|exact H].
    - rewrite H in Ht. exfalso. apply (Hot (RExpression x0) eq_refl Ht).
    - rewrite H in Ht. exfalso. apply (Hot (RValExpression x0) eq_refl Ht).
    - rewrite H in Ht. exfalso. apply (Hot RArchitectural eq_refl Ht). }
  destruct (simple x) eqn:Hx.
  { destruct (Hs x y Hx H) as [->|(n & E & -> & ->)]; [left; reflexivity|]. right. right. exists n. auto. }
  destruct (simple y) eqn:Hy.
  { destruct (Hs y x Hy (eq_sym H)) as [->|(n & E & -> & ->)]; [left; reflexivity|]. right. right. exists n. auto. }
  assert (Hro : forall r z, opaque z = true -> match reg_name pr (names_of a) r with Some n => n | None => fmt_dec r end <> pr_rule pr z).
  { intros r z Hz. destruct (reg_name pr (names_of a) r) as [n|] eqn:E; [apply (Hno r n z E Hz)|].
    intros E'. apply (Hot z Hz). rewrite <- E'. do 4 right. rewrite integer_dec. discriminate. }
  destruct x; try discriminate Hx; destruct y; try discriminate Hy; cbn [display_rule] in H;
    unfold display_register in H; rewrite ?display_register_spec in H;
    try (right; left; split; [reflexivity|split; [reflexivity|exact H]]);
    try (exfalso; eapply Hro; [|exact H]; reflexivity);
    try (exfalso; eapply Hro; [|symmetry; exact H]; reflexivity).
  left. destruct (reg_name pr (names_of a) r) as [n|] eqn:E; destruct (reg_name pr (names_of a) r0) as [n'|] eqn:E'.
  - f_equal. subst n'. apply (Hn _ _ n E E').
  - exfalso. apply (Hnt r n E). rewrite H. do 4 right. rewrite integer_dec. discriminate.
  - exfalso. apply (Hnt r0 n' E'). rewrite <- H. do 4 right. rewrite integer_dec. discriminate.
  - f_equal. apply dec_inj, H.
Qed.

(** ** C74 *)

Lemma length_zero_pad n s : String.length (zero_pad n s) = Nat.max n (String.length s).
Proof. unfold zero_pad. rewrite length_app_s, length_repeat. lia. Qed.

Lemma message_column_text start offset len m : 0 <= start <= i32_max -> 0 <= offset < 2 ^ 64 ->
  message_column ("warning: " ++ warn_text start offset len m) =
  Some (21 + Nat.max (warn_digits len - 2) (String.length (fmt_hex 64 offset)))%nat.
Proof.
  intros Hs Ho. unfold i32_max in Hs. unfold message_column. rewrite after_app. unfold warn_text, fmt_hex_alt_pad.
  set (A := zero_pad (10 - 2) (fmt_hex 64 start)). set (B := zero_pad (warn_digits len - 2) (fmt_hex 64 offset)).
  assert (HA : all_chars is_digit A = true) by (apply hex_pad_digits; lia).
  assert (HB : all_chars is_digit B = true) by (apply hex_pad_digits; lia).
  replace ("FDE for " ++ ("0x" ++ A) ++ "+" ++ ("0x" ++ B) ++ ": " ++ m)
    with (("FDE for 0x" ++ A ++ "+0x" ++ B) ++ String ":" (" " ++ m)) by (rewrite !app_assoc_s; reflexivity).
  rewrite upto_app.
  - cbn [option_map fst]. rewrite !length_app_s. f_equal. unfold A, B. rewrite !length_zero_pad.
    assert (Hl : (String.length (fmt_hex 64 start) <= 8)%nat).
    { unfold fmt_hex. apply (digits_length 16 _ 7); [lia|]. unfold as_u. rewrite Z.mod_small by lia. change (16 ^ Z.of_nat 8) with 4294967296. lia. }
    change (String.length "FDE for 0x") with 10%nat. change (String.length "+0x") with 3%nat. lia.
  - apply without_app; [repeat (split; [discriminate|]); exact I|]. apply without_app; [apply digit_without; [reflexivity|exact HA]|].
    apply without_app; [repeat (split; [discriminate|]); exact I|]. apply digit_without; [reflexivity|exact HB].
Qed.

Lemma digits_enough len : 0 < len -> ~ odd_length len -> len <= 16 ^ ((Z.log2 len + 3) / 4).
Proof.
  intros Hl Hodd. pose proof (Z.log2_spec len Hl) as [H1 H2]. pose proof (Z.log2_nonneg len) as H0. set (L := Z.log2 len) in *.
  pose proof (Z.div_mod L 4 ltac:(lia)) as Hd. pose proof (Z.mod_pos_bound L 4 ltac:(lia)) as Hm.
  assert (Hj : 0 <= L / 4) by (apply Z.div_pos; lia).
  assert (H16 : forall k, 0 <= k -> 16 ^ k = 2 ^ (4 * k)) by (intros k Hk; rewrite Z.pow_mul_r by lia; reflexivity).
  destruct (Z.eq_dec (L mod 4) 0) as [E|E].
  - assert ((L + 3) / 4 = L / 4) as -> by (symmetry; apply Z.div_unique with 3; lia).
    rewrite H16 by lia. assert (4 * (L / 4) = L) as -> by lia.
    destruct (Z.le_gt_cases len (2 ^ L)) as [Hle|Hgt]; [exact Hle|].
    exfalso. apply Hodd. exists (L / 4). split; [exact Hj|]. rewrite H16 by lia. assert (4 * (L / 4) = L) as -> by lia.
    rewrite Z.pow_succ_r in H2 by lia. lia.
  - assert ((L + 3) / 4 = L / 4 + 1) as -> by (symmetry; apply Z.div_unique with (L mod 4 - 1); lia).
    rewrite H16 by lia. assert (2 ^ Z.succ L <= 2 ^ (4 * (L / 4 + 1))) by (apply Z.pow_le_mono_r; lia). lia.
Qed.

Definition column_for (len : Z) : nat := (21 + Nat.max (warn_digits len - 2) 1)%nat.
Lemma column_eq start offset len m : 0 <= start <= i32_max -> 0 <= offset < len -> len < 2 ^ 64 -> ~ odd_length len ->
  message_column ("warning: " ++ warn_text start offset len m) = Some (column_for len).
Proof.
  intros Hs Ho Hl Hodd. rewrite message_column_text by lia. f_equal. unfold column_for. f_equal.
  pose proof (digits_enough len ltac:(lia) Hodd) as He. unfold warn_digits. set (k := (Z.log2 len + 3) / 4) in *.
  assert (Hk : 0 <= k) by (apply Z.div_pos; pose proof (Z.log2_nonneg len); lia).
  assert (Hn : (1 <= String.length (fmt_hex 64 offset))%nat).
  { pose proof (hex_nonempty 64 offset) as H. destruct (fmt_hex 64 offset); [contradiction|cbn; lia]. }
  assert (Hu : (String.length (fmt_hex 64 offset) <= Nat.max (Z.to_nat (k + 2) - 2) 1)%nat).
  { unfold fmt_hex, as_u. rewrite Z.mod_small by lia. destruct (Z.eq_dec k 0) as [E|E].
    - rewrite E in He. change (16 ^ 0) with 1 in He. assert (offset = 0) as -> by lia. change (String.length (digits 16 0)) with 1%nat. lia.
    - assert ((Z.to_nat (k + 2) - 2)%nat = S (Z.to_nat (k - 1))) as -> by (clear -E Hk; lia). rewrite Nat.max_l by lia.
      apply digits_length; [lia|]. replace (Z.of_nat (S (Z.to_nat (k - 1)))) with k by lia. lia. }
  lia.
Qed.

Lemma forall2_nth {A B} (P : A -> B -> Prop) l l' : Forall2 P l l' -> forall i x y,
  nth_error l i = Some x -> nth_error l' i = Some y -> P x y.
Proof.
  induction 1 as [|a b l l' Hab Hl IH]; intros [|i] x y; cbn; try discriminate.
  - intros [= ->] [= ->]. exact Hab.
  - apply IH.
Qed.

Theorem warnings_aligned pr md op eh ev o :
  eh_typed eh -> op_warnings op = true -> dwarf2sframe_loud pr md op eh = (ev, o) ->
  exists lost, Forall2 located lost (stderr_of ev) /\
    forall i j f r r' w w', nth_error lost i = Some (f, r) -> nth_error lost j = Some (f, r') ->
      nth_error (stderr_of ev) i = Some w -> nth_error (stderr_of ev) j = Some w' ->
      off f r < df_len f -> off f r' < df_len f -> ~ odd_length (df_len f) ->
      message_column w <> None /\ message_column w = message_column w'.
Proof.
  intros Ht Hw E.
  destruct (conversion_reported (fun p w => located p w /\ (off (fst p) (snd p) < df_len (fst p) -> ~ odd_length (df_len (fst p)) ->
    message_column w = Some (column_for (df_len (fst p))))) pr md op eh ev o Ht E) as (pre & post & lost & H1 & H2 & H3 & H4).
  - intros f r m Hf Hr Hm Ho Hle. pose proof (functions_typed _ f Ht Hf) as (Hs & Hl & _). cbn [fst snd]. split.
    + exists m. apply read_warning_text; [exact Hs|]. unfold in_u64, i32_max in *. cbn [fst snd]. lia.
    + intros Hoff Hodd. unfold in_u64 in *. apply column_eq; [lia|lia|lia|exact Hodd].
  - unfold warnings_match in H4. rewrite Hw in H4. exists lost. split.
    + clear -H4. induction H4; constructor; [apply H|assumption].
    + intros i j f r r' w w' Hi Hj Hwi Hwj Hr Hr' Hodd.
      pose proof (forall2_nth _ _ _ H4 i _ _ Hi Hwi) as [_ Ci]. pose proof (forall2_nth _ _ _ H4 j _ _ Hj Hwj) as [_ Cj].
      cbn [fst snd] in *. rewrite (Ci Hr Hodd), (Cj Hr' Hodd). split; [discriminate|reflexivity].
Qed.
