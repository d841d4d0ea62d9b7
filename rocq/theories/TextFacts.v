(** Reading back what is printed. *)
From Coq Require Import String Ascii.
From Verif Require Export TextSpec DumpFacts.
Local Open Scope string_scope.

(** ** Strings *)

Lemma app_nil_r_s s : s ++ "" = s.
Proof. induction s; cbn; congruence. Qed.
Lemma app_assoc_s a b c : (a ++ b) ++ c = a ++ b ++ c.
Proof. induction a; cbn; congruence. Qed.
Lemma length_app_s a b : String.length (a ++ b) = (String.length a + String.length b)%nat.
Proof. induction a; cbn; congruence. Qed.
Lemma length_repeat c n : String.length (repeat_char c n) = n.
Proof. induction n; cbn; congruence. Qed.

Fixpoint all_chars (p : ascii -> bool) (s : string) : bool :=
  match s with "" => true | String c t => p c && all_chars p t end.
Lemma all_chars_app p a b : all_chars p (a ++ b) = all_chars p a && all_chars p b.
Proof. induction a as [|c a IH]; cbn; [reflexivity|]. rewrite IH. apply andb_assoc. Qed.
Lemma all_chars_impl (p q : ascii -> bool) s : (forall c, p c = true -> q c = true) -> all_chars p s = true -> all_chars q s = true.
Proof.
  intros H. induction s as [|c s IH]; cbn; [reflexivity|]. rewrite !andb_true_iff. intros [H1 H2]. auto.
Qed.
Lemma all_chars_repeat p c n : p c = true -> all_chars p (repeat_char c n) = true.
Proof. intros H. induction n; cbn; [reflexivity|]. now rewrite H. Qed.
Lemma without_all c s : without c s <-> all_chars (fun x => negb (Ascii.eqb x c)) s = true.
Proof.
  induction s as [|x s IH]; cbn; [tauto|]. rewrite andb_true_iff, negb_true_iff, IH.
  destruct (Ascii.eqb_spec x c); intuition congruence.
Qed.

Lemma split_at_app c w : forall cur s, without c w -> split_at c cur (w ++ s) = split_at c (cur ++ w) s.
Proof.
  induction w as [|x w IH]; intros cur s H; cbn; [now rewrite app_nil_r_s|]. destruct H as [Hx Hw].
  destruct (Ascii.eqb_spec x c); [contradiction|]. rewrite IH by exact Hw. now rewrite app_assoc_s.
Qed.
Lemma split_at_end c w : without c w -> split_at c "" w = [w].
Proof. intros H. rewrite <- (app_nil_r_s w) at 1. rewrite split_at_app by exact H. reflexivity. Qed.

Lemma after_app p s : after p (p ++ s) = Some s.
Proof. induction p as [|c p IH]; cbn; [reflexivity|]. now rewrite Ascii.eqb_refl. Qed.
Lemma upto_app c w s : without c w -> upto c (w ++ String c s) = Some (w, s).
Proof.
  induction w as [|x w IH]; cbn; intros H; [now rewrite Ascii.eqb_refl|]. destruct H as [Hx Hw].
  destruct (Ascii.eqb_spec x c); [contradiction|]. now rewrite IH.
Qed.

(** ** Digits *)

Definition is_digit (c : ascii) : bool := match digit_value c with Some _ => true | None => false end.

Lemma digit_char_value d : 0 <= d < 16 -> digit_value (digit_char d) = Some d.
Proof.
  intros H. assert (HF : forallb (fun k => match digit_value (digit_char (Z.of_nat k)) with Some v => v =? Z.of_nat k | None => false end)%Z (seq 0 16) = true)
    by (vm_compute; reflexivity).
  rewrite forallb_forall in HF. specialize (HF (Z.to_nat d)). rewrite Z2Nat.id in HF by lia.
  specialize (HF ltac:(apply in_seq; lia)). destruct (digit_value (digit_char d)); [|discriminate].
  apply Z.eqb_eq in HF. now subst.
Qed.

Lemma digits_acc_value b : 2 <= b <= 16 -> forall fuel n acc, 0 <= n -> n < 2 ^ (Z.of_nat fuel) ->
  exists k, 0 <= k /\ forall v, number_from b v (digits_acc fuel b n acc) = number_from b (v * b ^ k + n) acc.
Proof.
  intros Hb. induction fuel as [|fuel IH]; intros n acc Hn Hf.
  - exists 0. split; [lia|]. intros v. cbn [digits_acc]. change (2 ^ Z.of_nat 0) with 1 in Hf. replace n with 0 by lia.
    rewrite Z.pow_0_r. f_equal. lia.
  - cbn [digits_acc]. pose proof (Z.mod_pos_bound n b ltac:(lia)) as Hm. pose proof (Z.div_mod n b ltac:(lia)) as Hd.
    destruct (n / b =? 0)%Z eqn:E.
    + exists 1. split; [lia|]. intros v. apply Z.eqb_eq in E. cbn [number_from]. rewrite digit_char_value by lia.
      replace (n mod b <? b)%Z with true by (symmetry; apply Z.ltb_lt; lia). f_equal. rewrite Z.pow_1_r. lia.
    + assert (Hlt : n / b < 2 ^ Z.of_nat fuel).
      { apply Z.div_lt_upper_bound; [lia|]. rewrite Nat2Z.inj_succ, Z.pow_succ_r in Hf by lia.
        assert (0 < 2 ^ Z.of_nat fuel) by (apply Z.pow_pos_nonneg; lia). nia. }
      destruct (IH (n / b) (String (digit_char (n mod b)) acc) ltac:(apply Z.div_pos; lia) Hlt) as (k & Hk & IH').
      exists (k + 1). split; [lia|]. intros v. rewrite IH'. cbn [number_from]. rewrite digit_char_value by lia.
      replace (n mod b <? b)%Z with true by (symmetry; apply Z.ltb_lt; lia). f_equal.
      rewrite Z.pow_add_r, Z.pow_1_r by lia. lia.
Qed.

Lemma log2_fuel n : 0 <= n -> n < 2 ^ Z.of_nat (S (Z.to_nat (Z.log2 n))).
Proof.
  intros H. rewrite Nat2Z.inj_succ, Z2Nat.id by apply Z.log2_nonneg.
  destruct (Z.eq_dec n 0) as [->|Hn]; [reflexivity|]. apply Z.log2_spec. lia.
Qed.

Lemma digits_acc_nonempty fuel : forall b n acc, digits_acc (S fuel) b n acc <> "".
Proof.
  induction fuel as [|fuel IH]; intros b n acc.
  - cbn. destruct (n / b =? 0)%Z; discriminate.
  - change (digits_acc (S (S fuel)) b n acc) with
      (let acc' := String (digit_char (n mod b)) acc in if (n / b =? 0)%Z then acc' else digits_acc (S fuel) b (n / b) acc').
    cbn zeta. destruct (n / b =? 0)%Z; [discriminate|apply IH].
Qed.

Theorem number_digits b n : 2 <= b <= 16 -> 0 <= n -> number b (digits b n) = Some n.
Proof.
  intros Hb Hn. unfold number, digits.
  destruct (digits_acc_value b Hb _ n "" Hn (log2_fuel n Hn)) as (k & Hk & HV).
  destruct (digits_acc _ b n "") eqn:E; [now destruct (digits_acc_nonempty (Z.to_nat (Z.log2 n)) b n "")|].
  rewrite HV. reflexivity.
Qed.

Lemma is_digit_char d : 0 <= d < 16 -> is_digit (digit_char d) = true.
Proof. intros H. unfold is_digit. now rewrite digit_char_value. Qed.
Lemma digits_acc_chars b : 2 <= b <= 16 -> forall fuel n acc, 
  all_chars is_digit acc = true -> all_chars is_digit (digits_acc fuel b n acc) = true.
Proof.
  intros Hb. induction fuel as [|fuel IH]; intros n acc H; [exact H|]. cbn [digits_acc].
  pose proof (Z.mod_pos_bound n b ltac:(lia)).
  destruct (n / b =? 0)%Z; [|apply IH]; cbn [all_chars]; rewrite is_digit_char by lia; exact H.
Qed.
Lemma digits_chars b n : 2 <= b <= 16 -> all_chars is_digit (digits b n) = true.
Proof. intros H. now apply digits_acc_chars. Qed.

Lemma number_zeros b n s : 2 <= b -> s <> "" -> number b (repeat_char "0" n ++ s) = number b s.
Proof.
  intros Hb Hs. assert (H : forall m, number_from b 0 (repeat_char "0" m ++ s) = number_from b 0 s).
  { induction m as [|m IH]; [reflexivity|]. cbn [repeat_char append number_from]. change (digit_value "0") with (Some 0).
    cbn iota beta. replace (0 <? b)%Z with true by (symmetry; apply Z.ltb_lt; lia). rewrite Z.mul_0_l, Z.add_0_l. exact IH. }
  unfold number. destruct n as [|n]; [reflexivity|]. change (repeat_char "0" (S n) ++ s) with (String "0" (repeat_char "0" n ++ s)).
  destruct s as [|c s]; [contradiction|]. rewrite <- H with (m := S n). reflexivity.
Qed.

Lemma digits_nonempty b n : digits b n <> "".
Proof. apply digits_acc_nonempty. Qed.

Lemma integer_digits s n : number 10 s = Some n -> all_chars is_digit s = true -> integer s = Some n.
Proof.
  intros H HC. destruct s as [|c s]; [discriminate|]. cbn in HC. apply andb_prop in HC. destruct HC as [HC _].
  unfold integer. destruct c as [[] [] [] [] [] [] [] []]; try exact H; discriminate HC.
Qed.
Theorem integer_dec z : integer (fmt_dec z) = Some z.
Proof.
  unfold fmt_dec. destruct (z <? 0)%Z eqn:E.
  - apply Z.ltb_lt in E. cbn [append integer]. rewrite number_digits by lia. cbn. f_equal. lia.
  - apply Z.ltb_ge in E. apply integer_digits; [apply number_digits; lia|apply digits_chars; lia].
Qed.
Theorem integer_plus z : integer (fmt_plus z) = Some z.
Proof.
  unfold fmt_plus. destruct (z <? 0)%Z eqn:E.
  - apply Z.ltb_lt in E. cbn [append integer]. rewrite number_digits by lia. cbn. f_equal. lia.
  - apply Z.ltb_ge in E. cbn [append integer]. apply number_digits; lia.
Qed.
Lemma number_dec z : 0 <= z -> number 10 (fmt_dec z) = Some z.
Proof. intros H. unfold fmt_dec. replace (z <? 0)%Z with false by (symmetry; apply Z.ltb_ge; lia). apply number_digits; lia. Qed.

Lemma as_u_range w z : 0 <= w -> 0 <= as_u w z < 2 ^ w.
Proof. intros H. unfold as_u. apply Z.mod_pos_bound. apply Z.pow_pos_nonneg; lia. Qed.
Lemma number_hex w z : 0 <= w -> number 16 (fmt_hex w z) = Some (as_u w z).
Proof. intros H. apply number_digits; [lia|]. now apply as_u_range. Qed.
Lemma number_zero_pad n s : s <> "" -> number 16 (zero_pad n s) = number 16 s.
Proof. intros H. apply number_zeros; [lia|exact H]. Qed.
Lemma signed32_as_u z : in_i32 z -> signed32 (as_u 32 z) = z.
Proof.
  unfold in_i32, i32_min, i32_max, signed32, as_u. intros H. change (2 ^ 31) with 2147483648. change (2 ^ 32) with 4294967296.
  destruct (Z.ltb_spec z 0).
  - replace (z mod 4294967296) with (z + 4294967296); [|apply Z.mod_unique with (-1); lia].
    replace (z + 4294967296 <? 2147483648)%Z with false by (symmetry; apply Z.ltb_ge; lia). lia.
  - rewrite Z.mod_small by lia. replace (z <? 2147483648)%Z with true by (symmetry; apply Z.ltb_lt; lia). reflexivity.
Qed.

(** ** Characters of printed numbers *)

Definition plain (c : ascii) : bool := is_digit c || Ascii.eqb c "+" || Ascii.eqb c "-" || Ascii.eqb c "s"
  || Ascii.eqb c "p" || Ascii.eqb c "f" || Ascii.eqb c "c" || Ascii.eqb c "a" || Ascii.eqb c "u" || Ascii.eqb c "x".
Lemma digit_plain c : is_digit c = true -> plain c = true.
Proof. intros H. unfold plain. now rewrite H. Qed.
Lemma plain_not c x : plain c = false -> plain x = true -> negb (Ascii.eqb x c) = true.
Proof. intros H Hx. apply negb_true_iff. destruct (Ascii.eqb_spec x c); [congruence|reflexivity]. Qed.
Lemma plain_without c s : plain c = false -> all_chars plain s = true -> without c s.
Proof. intros H HS. apply without_all. eapply all_chars_impl; [|exact HS]. intros x. now apply plain_not. Qed.

Lemma digits_plain b n : 2 <= b <= 16 -> all_chars plain (digits b n) = true.
Proof. intros H. eapply all_chars_impl; [apply digit_plain|]. now apply digits_chars. Qed.
Lemma dec_plain z : all_chars plain (fmt_dec z) = true.
Proof. unfold fmt_dec. destruct (z <? 0)%Z; cbn [append all_chars]; rewrite digits_plain by lia; reflexivity. Qed.
Lemma plus_plain z : all_chars plain (fmt_plus z) = true.
Proof. unfold fmt_plus. destruct (z <? 0)%Z; cbn [append all_chars]; rewrite digits_plain by lia; reflexivity. Qed.
Lemma hex_plain w z : all_chars plain (fmt_hex w z) = true.
Proof. apply digits_plain. lia. Qed.
Lemma hex_pad_plain w n z : all_chars plain (fmt_hex_pad w n z) = true.
Proof. unfold fmt_hex_pad, zero_pad. rewrite all_chars_app, hex_plain, all_chars_repeat by reflexivity. reflexivity. Qed.
Lemma cell_plain c : all_chars plain (cell_text c) = true.
Proof.
  destruct c as [|[] o|o]; cbn [cell_text]; [reflexivity| | |]; rewrite all_chars_app, plus_plain; reflexivity.
Qed.
Lemma cell_nonempty c : cell_text c <> "".
Proof. destruct c as [|[] o|o]; discriminate. Qed.

Lemma dec_nonempty z : fmt_dec z <> "".
Proof. unfold fmt_dec. destruct (z <? 0)%Z; [discriminate|apply digits_nonempty]. Qed.

(** ** Cells and words *)

Lemma read_cell_text c : read_cell (cell_text c) = Some c.
Proof.
  destruct c as [|[] o|o]; unfold read_cell; cbn [cell_text append].
  - reflexivity.
  - cbn [String.eqb Ascii.eqb after]. cbn -[integer fmt_plus]. rewrite integer_plus. reflexivity.
  - cbn -[integer fmt_plus]. rewrite integer_plus. reflexivity.
  - cbn -[integer fmt_plus]. rewrite integer_plus. reflexivity.
Qed.

Definition nonempty (w : string) : bool := negb (String.eqb w "").
Definition pieces (s : string) : list string := filter nonempty (split_at space_char "" s).
Lemma words_pieces s : words s = pieces s. Proof. reflexivity. Qed.

Lemma pieces_space s : pieces (String space_char s) = pieces s.
Proof. reflexivity. Qed.
Lemma pieces_spaces n s : pieces (repeat_char " " n ++ s) = pieces s.
Proof. induction n; [reflexivity|]. cbn [repeat_char append]. change " "%char with space_char. rewrite pieces_space. exact IHn. Qed.
Lemma pieces_word w s : without space_char w -> w <> "" -> pieces (w ++ String space_char s) = w :: pieces s.
Proof.
  intros Hw Hn. unfold pieces. rewrite split_at_app by exact Hw. cbn [append split_at].
  rewrite Ascii.eqb_refl. cbn [filter]. unfold nonempty at 1. destruct (String.eqb_spec w ""); [contradiction|reflexivity].
Qed.
Lemma pieces_last w : without space_char w -> w <> "" -> pieces w = [w].
Proof.
  intros Hw Hn. unfold pieces. rewrite split_at_end by exact Hw. cbn [filter]. unfold nonempty.
  destruct (String.eqb_spec w ""); [contradiction|reflexivity].
Qed.
Lemma pieces_padded n w s : without space_char w -> w <> "" ->
  pieces (pad_right n w ++ String space_char s) = w :: pieces s.
Proof.
  intros Hw Hn. unfold pad_right. rewrite app_assoc_s. destruct (n - String.length w)%nat as [|k].
  - cbn [repeat_char append]. now apply pieces_word.
  - cbn [repeat_char append]. change " "%char with space_char. rewrite pieces_word by assumption. f_equal.
    rewrite <- (pieces_spaces (S k) s). f_equal.
    clear. induction k as [|k IH]; [reflexivity|]. cbn [repeat_char append]. f_equal. exact IH.
Qed.

Lemma space_plain s : all_chars plain s = true -> without space_char s.
Proof. apply plain_without. reflexivity. Qed.

Definition row_text (start : Z) (cfa fp ra : cell) (m : bool) : string :=
  "  " ++ fmt_hex_pad 32 16 start ++ " " ++ pad_right 12 (cell_text cfa) ++ " " ++
  pad_right 12 (cell_text fp) ++ " " ++ cell_text ra ++ (if m then " [s]" else "").

Lemma length_zero s : String.length s = O -> s = "".
Proof. destruct s; [reflexivity|discriminate]. Qed.
Lemma hex_pad_nonempty w n z : fmt_hex_pad w n z <> "".
Proof.
  unfold fmt_hex_pad, zero_pad. intros H. apply (f_equal String.length) in H. rewrite length_app_s in H.
  change (String.length "") with O in H. apply (digits_nonempty 16 (as_u w z)), length_zero. unfold fmt_hex in H. lia.
Qed.

Lemma words_row start cfa fp ra m : words (row_text start cfa fp ra m) =
  ([fmt_hex_pad 32 16 start; cell_text cfa; cell_text fp; cell_text ra] ++ (if m then ["[s]"] else []))%list.
Proof.
  rewrite words_pieces. unfold row_text. cbn [append]. change " "%char with space_char. rewrite !pieces_space.
  rewrite pieces_word by (try apply space_plain, hex_pad_plain; apply hex_pad_nonempty).
  rewrite pieces_padded by (try apply space_plain, cell_plain; apply cell_nonempty).
  rewrite pieces_padded by (try apply space_plain, cell_plain; apply cell_nonempty).
  cbn [List.app]. do 3 f_equal. destruct m.
  - change " "%char with space_char. rewrite pieces_word by (try apply space_plain, cell_plain; apply cell_nonempty).
    reflexivity.
  - rewrite app_nil_r_s. apply pieces_last; [apply space_plain, cell_plain|apply cell_nonempty].
Qed.

Theorem read_row_text start cfa fp ra m : in_i32 start ->
  read_row (row_text start cfa fp ra m) = Some (LineRow start cfa fp ra m).
Proof.
  intros H. unfold read_row. rewrite words_row.
  assert (HN : number 16 (fmt_hex_pad 32 16 start) = Some (as_u 32 start)).
  { unfold fmt_hex_pad. rewrite number_zero_pad by apply digits_nonempty. apply number_hex. lia. }
  destruct m; cbn [List.app]; cbn -[number read_cell fmt_hex_pad cell_text signed32]; rewrite HN, !read_cell_text, signed32_as_u by exact H; reflexivity.
Qed.

Definition func_text (idx start size : Z) : string :=
  "  func idx [" ++ fmt_dec idx ++ "]: pc = " ++ fmt_hex_alt 32 start ++ ", size = " ++ fmt_dec size ++ " bytes".

Theorem read_func_text idx start size : 0 <= idx -> in_i32 start -> 0 <= size ->
  read_func (func_text idx start size) = Some (LineFunc idx start size).
Proof.
  intros Hi Hs Hz. unfold read_func, func_text. rewrite after_app.
  change ("]: pc = " ++ fmt_hex_alt 32 start ++ ", size = " ++ fmt_dec size ++ " bytes")
    with (String "]" (": pc = 0x" ++ fmt_hex 32 start ++ ", size = " ++ fmt_dec size ++ " bytes")).
  rewrite upto_app by (apply plain_without; [reflexivity|apply dec_plain]). rewrite after_app.
  change (", size = " ++ fmt_dec size ++ " bytes") with (String "," (" size = " ++ fmt_dec size ++ " bytes")).
  rewrite upto_app by (apply plain_without; [reflexivity|apply hex_plain]). rewrite after_app.
  change " bytes" with (String " " "bytes").
  rewrite upto_app by (apply plain_without; [reflexivity|apply dec_plain]).
  rewrite String.eqb_refl, !number_dec, number_hex, signed32_as_u by (assumption || lia). reflexivity.
Qed.

Definition columns_text (ty : pub_fde_type) : string :=
  "  STARTPC " ++ match ty with PPcInc => "   " | PPcMask => "[m]" | PPcMaskV1 => "[1]" end ++ "      CFA          FP           RA".
Theorem read_columns_text ty : read_columns (columns_text ty) = Some (LineColumns ty).
Proof. destruct ty; vm_compute; reflexivity. Qed.

(** ** Lines *)

Lemma unlines_cons s l : unlines (s :: l) = s ++ String newline_char (unlines l).
Proof.
  unfold unlines. cbn [map]. destruct l as [|x l]; cbn [map String.concat].
  - reflexivity.
  - rewrite app_assoc_s. reflexivity.
Qed.
Lemma split_unlines l : Forall (without newline_char) l -> split_at newline_char "" (unlines l) = (l ++ [""])%list.
Proof.
  induction 1 as [|s l H _ IH]; [reflexivity|]. rewrite unlines_cons, split_at_app by exact H.
  cbn [append split_at]. rewrite Ascii.eqb_refl, IH. reflexivity.
Qed.
Theorem lines_unlines l : Forall (without newline_char) l -> lines (unlines l) = Some l.
Proof. intros H. unfold lines. rewrite split_unlines by exact H. rewrite rev_app_distr. cbn. now rewrite rev_involutive. Qed.

Lemma newline_plain s : all_chars plain s = true -> without newline_char s.
Proof. apply plain_without. reflexivity. Qed.
Lemma without_app c a b : without c a -> without c b -> without c (a ++ b).
Proof. rewrite !without_all, all_chars_app. intros -> ->. reflexivity. Qed.
Lemma without_repeat c x n : x <> c -> without c (repeat_char x n).
Proof. intros H. induction n; cbn; auto. Qed.

Ltac dry := repeat match goal with
  | |- without _ (_ ++ _) => apply without_app
  | |- without _ (fmt_dec _) => apply newline_plain, dec_plain
  | |- without _ (fmt_plus _) => apply newline_plain, plus_plain
  | |- without _ (fmt_hex _ _) => apply newline_plain, hex_plain
  | |- without _ (fmt_hex_pad _ _ _) => apply newline_plain, hex_pad_plain
  | |- without _ (fmt_hex_alt _ _) => unfold fmt_hex_alt
  | |- without _ (cell_text _) => apply newline_plain, cell_plain
  | |- without _ (pad_right _ _) => unfold pad_right
  | |- without _ (repeat_char _ _) => apply without_repeat; discriminate
  | |- without _ _ => apply without_all; reflexivity
  end.

Lemma line_text_dry abi_name ln : (forall v fl nd nr a fp ra, ln = LineHeader v fl nd nr a fp ra -> without newline_char (abi_name a)) ->
  Forall (without newline_char) (line_text abi_name ln).
Proof.
  intros H. destruct ln as [v fl nd nr a fp ra|idx start size|ty|start cfa fp ra m|er| |]; cbn [line_text].
  - specialize (H _ _ _ _ _ _ _ eq_refl). repeat apply Forall_cons; try apply Forall_nil; try (dry; exact H).
    + destruct fp; cbn [fixed_text]; dry.
    + destruct ra; cbn [fixed_text]; dry.
  - constructor; [dry|constructor].
  - constructor; [|constructor]. destruct ty; dry.
  - constructor; [|constructor]. destruct m; dry.
  - constructor.
  - constructor; [dry|constructor].
  - constructor; [dry|constructor].
Qed.
Lemma read_error_dry er : without newline_char (read_error_text er).
Proof. destruct er; cbn [read_error_text]; dry. Qed.
Lemma line_stderr_dry ln : Forall (without newline_char) (line_stderr ln).
Proof. destruct ln; cbn [line_stderr]; constructor; [|constructor]. apply without_app; [dry|apply read_error_dry]. Qed.

(** ** The function index *)

Definition shown_ok (ln : dump_line) : Prop :=
  match ln with
  | LineHeader _ _ _ _ _ _ _ | LineIndex => False
  | LineFunc idx start size => 0 <= idx /\ in_i32 start /\ 0 <= size
  | LineRow start _ _ _ _ => in_i32 start
  | LineColumns _ | LineErr _ | LineBlank => True
  end.

Lemma read_func_columns ty : read_func (columns_text ty) = None.
Proof. destruct ty; reflexivity. Qed.

Lemma digits_acc_length b : 2 <= b -> forall fuel n acc k, 0 <= n < b ^ (Z.of_nat (S k)) ->
  (String.length (digits_acc fuel b n acc) <= S k + String.length acc)%nat.
Proof.
  intros Hb. induction fuel as [|fuel IH]; intros n acc k Hn; cbn [digits_acc]; [lia|].
  destruct (n / b =? 0)%Z eqn:E; [cbn [String.length]; lia|]. apply Z.eqb_neq in E.
  destruct k as [|k].
  - change (Z.of_nat 1) with 1 in Hn. rewrite Z.pow_1_r in Hn. now rewrite Z.div_small in E by lia.
  - assert (Hd : 0 <= n / b < b ^ Z.of_nat (S k)).
    { split; [apply Z.div_pos; lia|]. apply Z.div_lt_upper_bound; [lia|].
      rewrite <- Z.pow_succ_r by lia. rewrite <- Nat2Z.inj_succ. lia. }
    specialize (IH (n / b) (String (digit_char (n mod b)) acc) k Hd). cbn [String.length] in IH. lia.
Qed.
Lemma digits_length b n k : 2 <= b -> 0 <= n < b ^ (Z.of_nat (S k)) -> (String.length (digits b n) <= S k)%nat.
Proof. intros Hb Hn. pose proof (digits_acc_length b Hb (S (Z.to_nat (Z.log2 n))) n "" k Hn) as H. cbn [String.length] in H. unfold digits. lia. Qed.
Lemma hex32_length z : (String.length (fmt_hex 32 z) <= 8)%nat.
Proof. apply digits_length; [lia|]. pose proof (as_u_range 32 z). change (16 ^ Z.of_nat 8) with (2 ^ 32). lia. Qed.
Lemma hex32_pad z : exists s, fmt_hex_pad 32 16 z = String "0" (String "0" s).
Proof.
  unfold fmt_hex_pad, zero_pad. pose proof (hex32_length z).
  replace (16 - String.length (fmt_hex 32 z))%nat with (S (S (14 - String.length (fmt_hex 32 z)))) by lia.
  eexists. cbn [repeat_char append]. reflexivity.
Qed.
Lemma hex32_pad_length z : String.length (fmt_hex_pad 32 16 z) = 16%nat.
Proof. unfold fmt_hex_pad, zero_pad. rewrite length_app_s, length_repeat. pose proof (hex32_length z). lia. Qed.

Lemma read_func_row start cfa fp ra m : read_func (row_text start cfa fp ra m) = None.
Proof. unfold read_func, row_text. destruct (hex32_pad start) as (s & ->). reflexivity. Qed.
Lemma read_columns_row start cfa fp ra m : read_columns (row_text start cfa fp ra m) = None.
Proof.
  unfold read_columns. rewrite words_row. destruct (hex32_pad start) as (s & ->). destruct m; reflexivity.
Qed.

Lemma read_shown abi_name ln : shown_ok ln -> on_stdout ln = true ->
  exists s, line_text abi_name ln = [s] /\ read_line s = Some ln.
Proof.
  destruct ln as [v fl nd nr a fp ra|idx start size|ty|start cfa fp ra m|er| |]; cbn [shown_ok on_stdout]; intros H HO; try contradiction; try discriminate.
  - exists (func_text idx start size). split; [reflexivity|]. unfold read_line. rewrite read_func_text by apply H. reflexivity.
  - exists (columns_text ty). split; [reflexivity|]. unfold read_line. rewrite read_func_columns, read_columns_text. destruct ty; reflexivity.
  - exists (row_text start cfa fp ra m). split; [reflexivity|]. unfold read_line.
    rewrite read_func_row, read_columns_row, read_row_text by exact H. reflexivity.
  - exists "". split; reflexivity.
Qed.
Lemma read_shown_lines abi_name l : Forall shown_ok l ->
  read_lines (flat_map (line_text abi_name) l) = Some (filter on_stdout l).
Proof.
  induction 1 as [|ln l H _ IH]; [reflexivity|]. cbn [flat_map filter].
  destruct (on_stdout ln) eqn:E.
  - destruct (read_shown abi_name ln H E) as (s & -> & HR). cbn [List.app read_lines]. now rewrite HR, IH.
  - destruct ln; try discriminate E. exact IH.
Qed.

(** ** The header *)

Lemma read_fixed_text o : read_fixed (fixed_text o) = Some o.
Proof.
  destruct o as [z|]; [|reflexivity]. unfold read_fixed. cbn [fixed_text].
  destruct (String.eqb_spec (fmt_dec z) "none") as [E|_].
  - pose proof (integer_dec z) as H. rewrite E in H. discriminate H.
  - now rewrite integer_dec.
Qed.

Lemma read_header_text abi_name v fl nd nr a fp ra : 0 <= v -> 0 <= fl < 256 -> 0 <= nd -> 0 <= nr ->
  read_header (line_text abi_name (LineHeader v fl nd nr a fp ra)) = Some (HeaderShown v fl nd nr (abi_name a) fp ra).
Proof.
  intros Hv Hf Hd Hr. cbn [line_text]. unfold read_header, fmt_hex_alt. rewrite <- app_assoc_s with (a := "  Flags:    ").
  change ("  Flags:    " ++ "0x") with "  Flags:    0x".
  rewrite !after_app, !read_fixed_text, !number_dec, number_hex by lia. rewrite String.eqb_refl.
  unfold as_u. rewrite Z.mod_small by (cbn; lia). reflexivity.
Qed.

(** ** The whole output *)

Lemma read_dump_text abi_name v fl nd nr a fp ra rest : 0 <= v -> 0 <= fl < 256 -> 0 <= nd -> 0 <= nr ->
  without newline_char (abi_name a) -> Forall shown_ok rest ->
  read_dump (stdout_text abi_name (LineHeader v fl nd nr a fp ra :: LineBlank :: LineIndex :: rest)) =
  Some (HeaderShown v fl nd nr (abi_name a) fp ra, filter on_stdout rest).
Proof.
  intros Hv Hf Hd Hr Ha Hl. unfold read_dump, stdout_text. rewrite lines_unlines.
  - pose proof (read_header_text abi_name v fl nd nr a fp ra Hv Hf Hd Hr) as HH.
    cbn [flat_map line_text List.app] in HH |- *. rewrite HH, read_shown_lines by exact Hl. reflexivity.
  - apply Forall_flat_map, Forall_forall. intros ln Hi. apply line_text_dry. intros v' fl' nd' nr' a' fp' ra' ->.
    destruct Hi as [[= <- <- <- <- <- <- <-]|[Hi|[Hi|Hi]]]; [exact Ha|discriminate|discriminate|].
    rewrite Forall_forall in Hl. destruct (Hl _ Hi).
Qed.

Lemma stderr_lines l : lines (stderr_text l) =
  Some (map (fun er => "  error decoding FRE: " ++ read_error_text er) (errors_in l)).
Proof.
  unfold stderr_text. rewrite lines_unlines.
  - f_equal. induction l as [|ln l IH]; [reflexivity|]. cbn [flat_map]. unfold errors_in in *. cbn [flat_map].
    rewrite map_app, IH. destruct ln; reflexivity.
  - apply Forall_flat_map, Forall_forall. intros ln _. apply line_stderr_dry.
Qed.

Lemma start_in_i32 md fr start : @fre_start_address never md fr = Ok start -> in_i32 start.
Proof.
  unfold fre_start_address. intros H. destruct (debug_asserts md).
  - destruct (in_i32b _) eqn:E; [|discriminate]. injection H as <-. now apply in_i32b_spec.
  - injection H as <-. unfold in_i32, i32_min, i32_max. pose proof (as_s_range 32 (fde_start_address (fr_fde fr) + fr_start fr) ltac:(lia)) as HR.
    change (2 ^ (32 - 1)) with 2147483648 in HR. lia.
Qed.

Lemma func_lines_shown md e sf idx en l : 0 <= idx -> fde_ok (en_fde en) -> func_lines md e sf idx en l -> Forall shown_ok l.
Proof.
  intros Hi (H1 & H2 & _) (good & er & rows & _ & HR & ->). constructor.
  - cbn [shown_ok]. unfold en_start_address, en_size, in_u32 in *. split; [exact Hi|]. split; [exact H1|lia].
  - constructor; [exact I|]. apply Forall_app. split; [|apply Forall_app; split].
    + clear -HR. induction HR as [|fr ln g r H _ IH]; constructor; [|exact IH].
      destruct H as (start & cfa & fp & ra & -> & HS & _). cbn [shown_ok]. now apply start_in_i32 in HS.
    + destruct er; repeat constructor.
    + repeat constructor.
Qed.
Lemma all_func_lines_shown md e sf : forall ens idx l, 0 <= idx -> Forall (fun en => fde_ok (en_fde en)) ens ->
  all_func_lines md e sf idx ens l -> Forall shown_ok l.
Proof.
  induction ens as [|en t IH]; intros idx l Hi HF H.
  - cbn in H. subst. constructor.
  - destruct H as (l1 & l2 & -> & H1 & H2). apply Forall_app. split.
    + eapply func_lines_shown; [exact Hi|exact (Forall_inv HF)|exact H1].
    + eapply IH; [|exact (Forall_inv_tail HF)|exact H2]. lia.
Qed.

Theorem dump_text_read md e bs sf abi_name l : wf_mode md -> rust_slice md bs -> load md e bs = Ok sf ->
  dump md e sf = Ok l -> without newline_char (abi_name (abi sf)) ->
  exists rest,
    l = LineHeader (version sf) (flags sf) (num_fdes sf) (num_fres sf) (abi sf) (fixed_fp_offset sf) (fixed_ra_offset sf)
          :: LineBlank :: LineIndex :: rest /\
    all_func_lines md e sf 0 (all_fdes sf) rest /\
    read_dump (stdout_text abi_name l) =
      Some (HeaderShown (version sf) (flags sf) (num_fdes sf) (num_fres sf) (abi_name (abi sf)) (fixed_fp_offset sf) (fixed_ra_offset sf),
            filter on_stdout rest) /\
    lines (stderr_text l) = Some (map (fun er => "  error decoding FRE: " ++ read_error_text er) (errors_in rest)).
Proof.
  intros Hm Hs HL HD Ha. destruct (dump_exact md e bs sf Hm Hs HL) as [_ HO].
  destruct (HO ltac:(congruence)) as (out & HE & HF). assert (l = LineHeader (version sf) (flags sf) (num_fdes sf) (num_fres sf) (abi sf)
                          (fixed_fp_offset sf) (fixed_ra_offset sf) :: LineBlank :: LineIndex :: out) by congruence. subst l.
  exists out. split; [reflexivity|]. split; [exact HF|]. split.
  - pose proof HL as HL'. apply load_ok in HL'; try assumption. destruct HL' as (Hsf & _).
    apply read_dump_text; try assumption.
    1-4: rewrite Hsf; unfold version, flags, num_fdes, num_fres, loaded; cbn [sf_preamble pre_version pre_flags sf_num_fdes sf_num_fres];
      match goal with |- context [rd_u ?e ?o ?n ?b] => pose proof (rd_u_bound e o n b) as HR end; try exact HR; try apply HR.
    eapply all_func_lines_shown; [reflexivity| |exact HF]. rewrite all_fdes_map.
    pose proof (loaded_fdes_ok _ _ _ _ Hm Hs HL) as Hok. apply Forall_map. eapply Forall_impl; [|exact Hok]. intros f Hf. exact Hf.
  - rewrite stderr_lines. reflexivity.
Qed.

(** The text determines what is shown. *)
Theorem same_text md e bs bs' sf sf' abi_name l l' :
  wf_mode md -> rust_slice md bs -> rust_slice md bs' -> load md e bs = Ok sf -> load md e bs' = Ok sf' ->
  dump md e sf = Ok l -> dump md e sf' = Ok l' ->
  (forall n, without newline_char (abi_name n)) -> (forall m n, abi_name m = abi_name n -> m = n) ->
  (stdout_text abi_name l = stdout_text abi_name l' <-> filter on_stdout l = filter on_stdout l').
Proof.
  intros Hm Hs Hs' HL HL' HD HD' Ha Hi. split.
  - intros H. destruct (dump_text_read md e bs sf abi_name l Hm Hs HL HD (Ha _)) as (r & EL & HR & H1 & _).
    destruct (dump_text_read md e bs' sf' abi_name l' Hm Hs' HL' HD' (Ha _)) as (r' & EL' & HR' & H1' & _).
    rewrite H, H1' in H1. injection H1 as E1 E2 E3 E4 E5 E6 E7 E8. apply Hi in E5.
    rewrite EL, EL'. cbn [filter on_stdout]. rewrite E1, E2, E3, E4, E5, E6, E7, E8. reflexivity.
  - intros H. unfold stdout_text. f_equal.
    assert (G : forall k, flat_map (line_text abi_name) k = flat_map (line_text abi_name) (filter on_stdout k)).
    { induction k as [|x k IH]; [reflexivity|]. cbn [flat_map filter]. rewrite IH at 1. destruct x; reflexivity. }
    rewrite (G l), (G l'), H. reflexivity.
Qed.

(** ** Columns *)

Lemma number_from_bound b : 2 <= b -> forall s v n, number_from b v s = Some n -> n < (v + 1) * b ^ Z.of_nat (String.length s).
Proof.
  intros Hb. induction s as [|c s IH]; intros v n H; cbn [number_from String.length] in *.
  - injection H as <-. change (Z.of_nat 0) with 0. rewrite Z.pow_0_r. lia.
  - destruct (digit_value c) as [d|]; [|discriminate]. destruct (Z.ltb_spec d b) as [Hd|]; [|discriminate].
    apply IH in H. rewrite Nat2Z.inj_succ, Z.pow_succ_r by lia.
    assert (HP : 0 < b ^ Z.of_nat (String.length s)) by (apply Z.pow_pos_nonneg; lia). nia.
Qed.
Lemma digits_length_iff b n k : 2 <= b <= 16 -> 0 <= n -> (String.length (digits b n) <= S k)%nat <-> n < b ^ Z.of_nat (S k).
Proof.
  intros Hb Hn. split; intros H.
  - pose proof (number_digits b n Hb Hn) as HN. unfold number in HN. destruct (digits b n) as [|c s] eqn:E; [discriminate|].
    apply number_from_bound in HN; [|lia]. eapply Z.lt_le_trans; [exact HN|]. rewrite Z.add_0_l, Z.mul_1_l.
    apply Z.pow_le_mono_r; lia.
  - apply digits_length; lia.
Qed.
Lemma plus_length o k : (String.length (fmt_plus o) <= S (S k))%nat <-> - 10 ^ Z.of_nat (S k) < o < 10 ^ Z.of_nat (S k).
Proof.
  unfold fmt_plus. destruct (Z.ltb_spec o 0) as [H|H]; cbn [append String.length].
  - rewrite <- Nat.succ_le_mono, digits_length_iff by lia. lia.
  - rewrite <- Nat.succ_le_mono, digits_length_iff by lia. lia.
Qed.
Lemma narrow_length c : narrow c <-> (String.length (cell_text c) <= 12)%nat.
Proof.
  destruct c as [|r o|o]; cbn [narrow cell_text].
  - split; [cbn; lia|auto].
  - change (10 ^ 9) with (10 ^ Z.of_nat 9). rewrite <- plus_length. destruct r; rewrite length_app_s; cbn [String.length]; lia.
  - change (10 ^ 8) with (10 ^ Z.of_nat 8). rewrite <- plus_length. rewrite length_app_s; cbn [String.length]; lia.
Qed.

Lemma behind_nil k : behind k "" = "".
Proof. destruct k; reflexivity. Qed.
Lemma behind_app a : forall j b, behind (String.length a + j) (a ++ b) = behind j b.
Proof. induction a as [|c a IH]; intros j b; [reflexivity|]. cbn. apply IH. Qed.
Lemma behind_inside w : forall j s, without space_char w -> (j < String.length w)%nat ->
  exists c t, behind j (w ++ s) = String c t /\ c <> space_char.
Proof.
  induction w as [|x w IH]; intros j s Hw Hj; [cbn in Hj; lia|]. destruct Hw as [Hx Hw]. destruct j as [|j].
  - exists x, (w ++ s). split; [reflexivity|exact Hx].
  - cbn. apply IH; [exact Hw|cbn in Hj; lia].
Qed.
Lemma first_word_app w s : without space_char w -> first_word (w ++ s) = w ++ first_word s.
Proof.
  induction w as [|x w IH]; intros H; [reflexivity|]. destruct H as [Hx Hw]. cbn [first_word append].
  destruct (Ascii.eqb_spec x space_char); [contradiction|]. now rewrite IH.
Qed.
Lemma word_at_here pre s k : String.length pre = k -> word_at (S k) (pre ++ String space_char s) = first_word s.
Proof.
  intros <-. unfold word_at. rewrite <- (Nat.add_0_r (String.length pre)), behind_app. cbn [behind]. now rewrite Ascii.eqb_refl.
Qed.
Lemma word_at_inside pre w s k j : without space_char w -> (j < String.length w)%nat -> (k = String.length pre + j)%nat ->
  word_at (S k) (pre ++ w ++ s) = "".
Proof.
  intros Hw Hj ->. unfold word_at. rewrite behind_app. destruct (behind_inside w j s Hw Hj) as (c & t & -> & Hc).
  destruct (Ascii.eqb_spec c space_char); [contradiction|reflexivity].
Qed.

Lemma heading_positions ty k name i : nth_error ["CFA"; "FP"; "RA"] i = Some name ->
  word_at k (columns_text ty) = name <-> k = (19 + 13 * i)%nat.
Proof.
  intros Hi. assert (Hb : (i < 3)%nat) by (apply (proj1 (nth_error_Some ["CFA"; "FP"; "RA"] i)); rewrite Hi; discriminate).
  assert (HN : name <> "") by (destruct i as [|[|[|i]]]; cbn in Hi; [injection Hi as <-| injection Hi as <-| injection Hi as <-|lia]; discriminate).
  split.
  - intros H. destruct (Nat.lt_ge_cases k 48) as [Hk|Hk].
    + assert (HC : forallb (fun k => forallb (fun i => match nth_error ["CFA"; "FP"; "RA"] i with
          | Some n => implb (String.eqb (word_at k (columns_text ty)) n) (Nat.eqb k (19 + 13 * i)) | None => true end) (seq 0 3)) (seq 0 48) = true)
        by (destruct ty; vm_compute; reflexivity).
      rewrite forallb_forall in HC. specialize (HC k ltac:(apply in_seq; lia)). rewrite forallb_forall in HC.
      specialize (HC i ltac:(apply in_seq; lia)). rewrite Hi, H, String.eqb_refl in HC. cbn [implb] in HC. now apply Nat.eqb_eq in HC.
    + exfalso. apply HN. rewrite <- H. clear -Hk. destruct k as [|k]; [lia|]. unfold word_at.
      assert (HL : String.length (columns_text ty) = 47%nat) by (destruct ty; reflexivity).
      rewrite <- (app_nil_r_s (columns_text ty)). replace k with (String.length (columns_text ty) + (k - 47))%nat by (rewrite HL; lia).
      rewrite behind_app, behind_nil. reflexivity.
  - intros ->. destruct i as [|[|[|i]]]; cbn in Hi; [injection Hi as <-| injection Hi as <-| injection Hi as <-|lia]; destruct ty; reflexivity.
Qed.

Lemma pad_length n s : String.length (pad_right n s) = Nat.max n (String.length s).
Proof. unfold pad_right. rewrite length_app_s, length_repeat. lia. Qed.
Lemma pad_wide n s : (n <= String.length s)%nat -> pad_right n s = s.
Proof. intros H. unfold pad_right. replace (n - String.length s)%nat with O by lia. apply app_nil_r_s. Qed.
Lemma first_word_pad n w s : without space_char w -> first_word (pad_right n w ++ String space_char s) = w.
Proof.
  intros H. unfold pad_right. rewrite app_assoc_s, first_word_app by exact H.
  assert (HF : first_word (repeat_char " " (n - String.length w) ++ String space_char s) = "").
  { destruct (n - String.length w)%nat; reflexivity. }
  now rewrite HF, app_nil_r_s.
Qed.

Lemma cell_space c : without space_char (cell_text c).
Proof. apply space_plain, cell_plain. Qed.

Theorem lined_up_iff ty start cfa fp ra m :
  lined_up (columns_text ty) (row_text start cfa fp ra m) <-> narrow cfa /\ narrow fp.
Proof.
  rewrite !narrow_length.
  assert (W : forall i, nth_error (words (row_text start cfa fp ra m)) (S i) =
    nth_error ([cell_text cfa; cell_text fp; cell_text ra] ++ (if m then ["[s]"] else []))%list i) by (intros i; rewrite words_row; reflexivity).
  set (tail := if m then " [s]" else "").
  assert (R : row_text start cfa fp ra m = ("  " ++ fmt_hex_pad 32 16 start) ++ String space_char
     (pad_right 12 (cell_text cfa) ++ String space_char (pad_right 12 (cell_text fp) ++ String space_char (cell_text ra ++ tail))))
    by (unfold row_text; rewrite app_assoc_s; reflexivity).
  assert (L1 : String.length ("  " ++ fmt_hex_pad 32 16 start) = 18%nat) by (rewrite length_app_s, hex32_pad_length; reflexivity).
  set (pre := "  " ++ fmt_hex_pad 32 16 start) in *.
  set (rest2 := String space_char (pad_right 12 (cell_text fp) ++ String space_char (cell_text ra ++ tail))) in *.
  assert (R2 : row_text start cfa fp ra m = (pre ++ " " ++ pad_right 12 (cell_text cfa)) ++ rest2)
    by (rewrite R, app_assoc_s; reflexivity).
  assert (R3 : row_text start cfa fp ra m = (pre ++ " " ++ pad_right 12 (cell_text cfa) ++ " " ++ pad_right 12 (cell_text fp)) ++
     String space_char (cell_text ra ++ tail))
    by (rewrite R; unfold rest2; rewrite !app_assoc_s; reflexivity).
  assert (L2 : String.length (pre ++ " " ++ pad_right 12 (cell_text cfa)) = (19 + Nat.max 12 (String.length (cell_text cfa)))%nat)
    by (rewrite !length_app_s, L1, pad_length; cbn [String.length]; lia).
  assert (L3 : String.length (pre ++ " " ++ pad_right 12 (cell_text cfa) ++ " " ++ pad_right 12 (cell_text fp)) =
     (20 + Nat.max 12 (String.length (cell_text cfa)) + Nat.max 12 (String.length (cell_text fp)))%nat)
    by (rewrite !length_app_s, L1, !pad_length; cbn [String.length]; lia).
  split.
  - intros H. assert (HC : (String.length (cell_text cfa) <= 12)%nat).
    { destruct (H 1%nat "FP" eq_refl) as (k & w & H1 & H2 & H3). apply (heading_positions ty k "FP" 1 eq_refl) in H1. subst k.
      rewrite W in H2. cbn in H2. injection H2 as <-.
      destruct (Nat.le_gt_cases (String.length (cell_text cfa)) 12) as [?|G]; [assumption|exfalso].
      assert (R4 : row_text start cfa fp ra m = (pre ++ " ") ++ cell_text cfa ++ rest2)
        by (rewrite R2, pad_wide, !app_assoc_s by lia; reflexivity).
      rewrite R4 in H3. change (19 + 13 * 1)%nat with 32%nat in H3.
      rewrite (word_at_inside (pre ++ " ") (cell_text cfa) rest2 31 12) in H3;
        [now apply (cell_nonempty fp)|apply cell_space|exact G|rewrite length_app_s, L1; reflexivity]. }
    split; [exact HC|].
    destruct (H 2%nat "RA" eq_refl) as (k & w & H1 & H2 & H3). apply (heading_positions ty k "RA" 2 eq_refl) in H1. subst k.
    rewrite W in H2. cbn in H2. injection H2 as <-.
    destruct (Nat.le_gt_cases (String.length (cell_text fp)) 12) as [?|G]; [assumption|exfalso].
    rewrite R2 in H3. unfold rest2 in H3. rewrite (pad_wide 12 (cell_text fp)) in H3 by lia.
    set (q := pre ++ " " ++ pad_right 12 (cell_text cfa)) in *.
    change (q ++ String space_char (cell_text fp ++ String space_char (cell_text ra ++ tail)))
      with (q ++ " " ++ cell_text fp ++ String space_char (cell_text ra ++ tail)) in H3.
    rewrite <- app_assoc_s in H3. change (19 + 13 * 2)%nat with 45%nat in H3.
    rewrite (word_at_inside (q ++ " ") (cell_text fp) _ 44 12) in H3;
      [now apply (cell_nonempty ra)|apply cell_space|exact G|rewrite length_app_s, L2; cbn [String.length]; lia].
  - intros [HC HF] i name Hi. exists (19 + 13 * i)%nat.
    destruct i as [|[|[|i]]]; [| | |destruct i; discriminate].
    + exists (cell_text cfa). split; [now apply (heading_positions ty _ _ 0 Hi)|]. split; [now rewrite W|].
      rewrite R. change (19 + 13 * 0)%nat with (S 18). rewrite word_at_here by exact L1.
      apply first_word_pad, cell_space.
    + exists (cell_text fp). split; [now apply (heading_positions ty _ _ 1 Hi)|]. split; [now rewrite W|].
      rewrite R2. unfold rest2. change (19 + 13 * 1)%nat with (S 31). rewrite word_at_here by (rewrite L2; lia).
      apply first_word_pad, cell_space.
    + exists (cell_text ra). split; [now apply (heading_positions ty _ _ 2 Hi)|]. split; [now rewrite W|].
      rewrite R3. change (19 + 13 * 2)%nat with (S 44). rewrite word_at_here by (rewrite L3; lia).
      rewrite first_word_app by apply cell_space. unfold tail. destruct m; cbn; apply app_nil_r_s.
Qed.
