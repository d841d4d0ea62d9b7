(** The repaired messages of the converter, and the columns of sframedump. *)
From Coq Require Import String Ascii.
From Verif Require Export MsgRepairedFacts.
From Verif Require Import ConvRepairedSection CopyFacts DebugFacts.
Local Open Scope string_scope.

(** ** Numbers in the messages *)

Ltac hex_words :=
  rewrite !pieces_word by (try exact (proj1 (hex_alt_word _)); try exact (proj2 (hex_alt_word _)); try discriminate; apply without_all; reflexivity);
  reflexivity.
Lemma told_start_words a : words ("DWARF FDE start address " ++ fmt_hex_alt 64 a ++ " larger than 0x7fffffff") =
  ["DWARF"; "FDE"; "start"; "address"; fmt_hex_alt 64 a; "larger"; "than"; "0x7fffffff"].
Proof.
  rewrite words_pieces.
  change ("DWARF FDE start address " ++ fmt_hex_alt 64 a ++ " larger than 0x7fffffff")
    with ("DWARF" ++ String space_char ("FDE" ++ String space_char ("start" ++ String space_char ("address" ++ String space_char
      (fmt_hex_alt 64 a ++ String space_char "larger than 0x7fffffff"))))).
  hex_words.
Qed.
Lemma told_row_words a o : words ("DWARF FDE row " ++ fmt_hex_alt 64 a ++ " at offset " ++ fmt_hex_alt 64 o ++ " not below 0x7fffffff") =
  ["DWARF"; "FDE"; "row"; fmt_hex_alt 64 a; "at"; "offset"; fmt_hex_alt 64 o; "not"; "below"; "0x7fffffff"].
Proof.
  rewrite words_pieces.
  change ("DWARF FDE row " ++ fmt_hex_alt 64 a ++ " at offset " ++ fmt_hex_alt 64 o ++ " not below 0x7fffffff")
    with ("DWARF" ++ String space_char ("FDE" ++ String space_char ("row" ++ String space_char (fmt_hex_alt 64 a ++ String space_char
      ("at" ++ String space_char ("offset" ++ String space_char (fmt_hex_alt 64 o ++ String space_char "not below 0x7fffffff"))))))).
  hex_words.
Qed.
Lemma told_length_words a n : words ("DWARF FDE for address " ++ fmt_hex_alt 64 a ++ " had length " ++ fmt_hex_alt 64 n ++ " and ended behind 0x7fffffff") =
  ["DWARF"; "FDE"; "for"; "address"; fmt_hex_alt 64 a; "had"; "length"; fmt_hex_alt 64 n; "and"; "ended"; "behind"; "0x7fffffff"].
Proof.
  rewrite words_pieces.
  change ("DWARF FDE for address " ++ fmt_hex_alt 64 a ++ " had length " ++ fmt_hex_alt 64 n ++ " and ended behind 0x7fffffff")
    with ("DWARF" ++ String space_char ("FDE" ++ String space_char ("for" ++ String space_char ("address" ++ String space_char
      (fmt_hex_alt 64 a ++ String space_char ("had" ++ String space_char ("length" ++ String space_char
        (fmt_hex_alt 64 n ++ String space_char "and ended behind 0x7fffffff")))))))).
  hex_words.
Qed.
Lemma told_front_words a : words ("DWARF FDE row " ++ fmt_hex_alt 64 a ++ " lies in front of its function") =
  ["DWARF"; "FDE"; "row"; fmt_hex_alt 64 a; "lies"; "in"; "front"; "of"; "its"; "function"].
Proof.
  rewrite words_pieces.
  change ("DWARF FDE row " ++ fmt_hex_alt 64 a ++ " lies in front of its function")
    with ("DWARF" ++ String space_char ("FDE" ++ String space_char ("row" ++ String space_char (fmt_hex_alt 64 a ++ String space_char
      "lies in front of its function")))).
  hex_words.
Qed.

Definition told (g : gimli_error -> string) (er : repair_error) : string := conv_error_text_with all_mfixes g er.

Lemma told_start_numbers g a : 0 <= a < 2 ^ 64 ->
  numbers_in "DWARF FDE start address # larger than #" (told g (AsBefore (InvalidStartAddress a))) = Some [a; 0x7fffffff].
Proof.
  intros H. unfold numbers_in.
  change (told g (AsBefore (InvalidStartAddress a))) with ("DWARF FDE start address " ++ fmt_hex_alt 64 a ++ " larger than 0x7fffffff").
  rewrite told_start_words.
  change (words "DWARF FDE start address # larger than #") with ["DWARF"; "FDE"; "start"; "address"; "#"; "larger"; "than"; "#"].
  cbn [fill String.eqb Ascii.eqb Bool.eqb]. now rewrite hex_word_text.
Qed.
Lemma told_row_numbers g a o : 0 <= a < 2 ^ 64 -> 0 <= o < 2 ^ 64 ->
  numbers_in "DWARF FDE row # at offset # not below #" (told g (AsBefore (InvalidRowOffset a o))) = Some [a; o; 0x7fffffff].
Proof.
  intros H Ho. unfold numbers_in, told. cbn [conv_error_text_with all_mfixes say_limit say_row]. rewrite !app_assoc_s.
  rewrite told_row_words.
  change (words "DWARF FDE row # at offset # not below #") with ["DWARF"; "FDE"; "row"; "#"; "at"; "offset"; "#"; "not"; "below"; "#"].
  cbn [fill String.eqb Ascii.eqb Bool.eqb]. now rewrite !hex_word_text.
Qed.
Lemma told_length_numbers g a n : 0 <= a < 2 ^ 64 -> 0 <= n < 2 ^ 64 ->
  numbers_in "DWARF FDE for address # had length # and ended behind #" (told g (AsBefore (InvalidFunctionLength a n))) = Some [a; n; 0x7fffffff].
Proof.
  intros H Hn. unfold numbers_in, told. cbn [conv_error_text_with all_mfixes say_limit].
  rewrite told_length_words.
  change (words "DWARF FDE for address # had length # and ended behind #")
    with ["DWARF"; "FDE"; "for"; "address"; "#"; "had"; "length"; "#"; "and"; "ended"; "behind"; "#"].
  cbn [fill String.eqb Ascii.eqb Bool.eqb]. now rewrite !hex_word_text.
Qed.
Lemma told_front_numbers g a : 0 <= a < 2 ^ 64 ->
  numbers_in "DWARF FDE row # lies in front of its function" (told g (RowInFront a)) = Some [a].
Proof.
  intros H. unfold numbers_in, told. cbn [conv_error_text_with]. rewrite told_front_words.
  change (words "DWARF FDE row # lies in front of its function")
    with ["DWARF"; "FDE"; "row"; "#"; "lies"; "in"; "front"; "of"; "its"; "function"].
  cbn [fill String.eqb Ascii.eqb Bool.eqb]. now rewrite !hex_word_text.
Qed.
Lemma told_refused_read g a er : 0 <= a < 2 ^ 64 -> read_refused (told g (RowRefused a er)) = Some (a, row_error_text_with all_mfixes er).
Proof.
  intros H. unfold read_refused, told. cbn [conv_error_text_with]. rewrite after_app.
  change (" refused: " ++ row_error_text_with all_mfixes er) with (String " " ("refused: " ++ row_error_text_with all_mfixes er)).
  rewrite upto_app by exact (proj1 (hex_alt_word a)). rewrite hex_word_text, after_app by exact H. reflexivity.
Qed.
Lemma front_not_refused g a : read_refused (told g (RowInFront a)) = None.
Proof.
  unfold read_refused, told. cbn [conv_error_text_with]. rewrite after_app.
  change (" lies in front of its function") with (String " " "lies in front of its function").
  rewrite upto_app by exact (proj1 (hex_alt_word a)). destruct (hex_word _); reflexivity.
Qed.
Lemma offset_not_refused g a o : read_refused (told g (AsBefore (InvalidRowOffset a o))) = None.
Proof.
  unfold read_refused, told. cbn [conv_error_text_with all_mfixes say_limit say_row]. rewrite !app_assoc_s, after_app.
  change (" at offset " ++ fmt_hex_alt 64 o ++ " not below 0x7fffffff") with (String " " ("at offset " ++ fmt_hex_alt 64 o ++ " not below 0x7fffffff")).
  rewrite upto_app by exact (proj1 (hex_alt_word a)). destruct (hex_word _); reflexivity.
Qed.
Lemma front_not_offset g a : numbers_in "DWARF FDE row # at offset # not below #" (told g (RowInFront a)) = None.
Proof.
  unfold numbers_in, told. cbn [conv_error_text_with]. rewrite told_front_words.
  change (words "DWARF FDE row # at offset # not below #") with ["DWARF"; "FDE"; "row"; "#"; "at"; "offset"; "#"; "not"; "below"; "#"].
  cbn [fill String.eqb Ascii.eqb Bool.eqb]. destruct (hex_word _); reflexivity.
Qed.

(** ** The messages tell errors apart *)

Lemma row_told_distinct x y : row_error_text_with all_mfixes x = row_error_text_with all_mfixes y -> x = y.
Proof. destruct x, y; intros H; try reflexivity; discriminate H. Qed.
Theorem conv_told_distinct g x y : (forall a b, g a = g b -> a = b) ->
  repair_error_typed x -> repair_error_typed y ->
  conv_error_text_with all_mfixes g x = conv_error_text_with all_mfixes g y -> x = y.
Proof.
  intros G Hx Hy H. change (told g x = told g y) in H. unfold repair_error_typed, in_u64 in Hx, Hy.
  destruct x as [[]|a|a er], y as [[]|b|b er']; try (reflexivity || discriminate H).
  - apply app_inj_l, G in H. now subst.
  - apply app_inj_l, G in H. now subst.
  - apply app_inj_l, G in H. now subst.
  - apply (f_equal (numbers_in "DWARF FDE start address # larger than #")) in H. rewrite !told_start_numbers in H by lia. congruence.
  - apply (f_equal (numbers_in "DWARF FDE row # at offset # not below #")) in H. rewrite !told_row_numbers in H by lia. congruence.
  - apply (f_equal (numbers_in "DWARF FDE row # at offset # not below #")) in H. rewrite told_row_numbers, front_not_offset in H by lia. discriminate H.
  - apply (f_equal read_refused) in H. rewrite offset_not_refused, told_refused_read in H by lia. discriminate H.
  - apply (f_equal (numbers_in "DWARF FDE for address # had length # and ended behind #")) in H. rewrite !told_length_numbers in H by lia. congruence.
  - apply (f_equal (numbers_in "DWARF FDE row # at offset # not below #")) in H. rewrite told_row_numbers, front_not_offset in H by lia. discriminate H.
  - apply (f_equal (numbers_in "DWARF FDE row # lies in front of its function")) in H. rewrite !told_front_numbers in H by lia. congruence.
  - apply (f_equal read_refused) in H. rewrite front_not_refused, told_refused_read in H by lia. discriminate H.
  - apply (f_equal read_refused) in H. rewrite offset_not_refused, told_refused_read in H by lia. discriminate H.
  - apply (f_equal read_refused) in H. rewrite front_not_refused, told_refused_read in H by lia. discriminate H.
  - apply (f_equal read_refused) in H. rewrite !told_refused_read in H by lia. injection H as -> H. apply row_told_distinct in H. now subst.
Qed.

(** ** They are true *)

Lemma wide_listed f pre r post en : df_rows f = inl (DwRows (pre ++ r :: post) en) -> wide r ->
  dw_rows_of f = (pre ++ r :: post)%list /\ In r (wide_rows f).
Proof.
  intros H Hw. assert (HD : dw_rows_of f = (pre ++ r :: post)%list) by (unfold dw_rows_of; rewrite H; reflexivity).
  split; [exact HD|]. unfold wide_rows. apply filter_In. rewrite HD. split; [apply in_elt|]. now apply wideb_spec.
Qed.
Theorem conv_texts_true g md op c eh er : eh_typed eh -> dwarf2sframe_repaired md op c eh = Err er ->
  conv_told_true g op eh (conv_error_text_with all_mfixes g er).
Proof.
  intros HT H. apply (proj1 (proj2 (repaired_outcome md op c eh HT))) in H. change (conv_told_true g op eh (told g er)).
  destruct H as [pre x post er HE HF HX|x HF HE].
  2:{ do 5 right. left. exists x. split; [reflexivity|exact HE]. }
  destruct HX as [x|f er HX].
  { do 6 right. left. exists x. split; [reflexivity|]. rewrite HE. apply in_elt. }
  apply function_listed in HE as HI. pose proof (function_typed eh f HT HI) as (HS0 & HN0 & HR0). unfold in_u64 in HS0, HN0.
  destruct HX as [HS|HS HN|x HS HL|pre' r post' en er HS HL HFR HW HFF|l x HS HL HFR].
  - left. exists (df_start f), 0x7fffffff. split; [apply told_start_numbers; lia|]. exists f. unfold i32_max in HS. auto.
  - do 2 right. left. exists (df_start f), (df_len f), 0x7fffffff. split; [apply told_length_numbers; lia|]. exists f. unfold i32_max in HN. auto.
  - do 7 right. exists x. split; [reflexivity|]. exists f. split; [exact HI|]. left. exact HL.
  - destruct (wide_listed f _ r _ _ HL HW) as [HD HRW].
    assert (HRr : 0 <= dr_start r < 2 ^ 64).
    { rewrite HD in HR0. apply Forall_mid in HR0. destruct HR0 as [HR0 _]. unfold in_u64 in HR0. lia. }
    cbn [row_faults first_fault] in HFF.
    destruct HFF as [[P ->]|[N1 [[P ->]|[N2 [[P ->]|[N3 [[P ->]|[N4 [[P ->]|[N5 [[P ->]|[_ []]]]]]]]]]]]].
    + do 3 right. left. exists (dr_start r). split; [apply told_front_numbers; lia|]. exists f, r. auto.
    + right. left. exists (dr_start r), (off f r), 0x7fffffff. unfold off, i32_max in *. split; [apply told_row_numbers; lia|]. exists f, r. auto 6.
    + do 4 right. left. do 3 eexists. split; [apply told_refused_read; lia|]. split; [reflexivity|].
      exists f, pre', r, post'. split; [exact HI|]. split; [exact HD|]. split; [exact HW|]. split; [reflexivity|exact P].
    + do 4 right. left. do 3 eexists. split; [apply told_refused_read; lia|]. split; [reflexivity|].
      exists f, pre', r, post'. split; [exact HI|]. split; [exact HD|]. split; [exact HW|]. split; [reflexivity|].
      cbv beta. unfold in_range, off in *. lia.
    + do 4 right. left. do 3 eexists. split; [apply told_refused_read; lia|]. split; [reflexivity|].
      exists f, pre', r, post'. split; [exact HI|]. split; [exact HD|]. split; [exact HW|]. split; [reflexivity|].
      cbv beta. destruct P as (base & m & cfa & ra & fp & x & HXP & HFX & HNE). exists ra, x.
      split; [|auto]. unfold expressible in HXP. tauto.
    + do 4 right. left. do 3 eexists. split; [apply told_refused_read; lia|]. split; [reflexivity|].
      exists f, pre', r, post'. split; [exact HI|]. split; [exact HD|]. split; [exact HW|]. split; [reflexivity|exact P].
  - do 7 right. exists x. split; [reflexivity|]. exists f. split; [exact HI|]. right. exists l. exact HL.
Qed.

(** The limits that the messages name are those that apply. *)
Lemma functions_good l f : In f (functions l) -> In (DwGoodFde f) l.
Proof. induction l as [|[|x|f'] l IH]; cbn; [tauto|auto|auto|]. intros [->|H]; auto. Qed.
Theorem ok_within_limits md op c eh s : eh_typed eh -> dwarf2sframe_repaired md op c eh = Ok s -> within_limits i32_max i32_max eh.
Proof.
  intros HT H. assert (HF : section_faultless op c eh) by (apply (proj1 (proj1 (repaired_outcome md op c eh HT))); eauto).
  destruct HF as [HF _]. intros f HI. rewrite Forall_forall in HF.
  apply functions_good, HF in HI. destruct HI as ([HS HN] & l & HL & HR). split; [exact HS|]. split; [exact HN|].
  intros r Hr. unfold wide_rows, dw_rows_of in Hr. rewrite HL in Hr. apply filter_In in Hr as [Hr HW]. apply wideb_spec in HW.
  cbn in Hr. apply in_split in Hr as (pre & post & ->). specialize (HR pre r post eq_refl HW).
  apply Forall_inv in HR as H1. apply Forall_inv_tail, Forall_inv in HR as H2. cbn in H1, H2. unfold off in *. lia.
Qed.

Lemma refused_words a t : words ("DWARF FDE row " ++ fmt_hex_alt 64 a ++ " refused: " ++ t) = ("DWARF" :: "FDE" :: "row" :: fmt_hex_alt 64 a :: "refused:" :: words t)%list.
Proof.
  rewrite !words_pieces.
  change ("DWARF FDE row " ++ fmt_hex_alt 64 a ++ " refused: " ++ t)
    with ("DWARF" ++ String space_char ("FDE" ++ String space_char ("row" ++ String space_char (fmt_hex_alt 64 a ++ String space_char
      ("refused:" ++ String space_char t))))).
  hex_words.
Qed.
Lemma invalid_words t : words ("invalid " ++ t) = ("invalid" :: words t)%list.
Proof. rewrite !words_pieces. change ("invalid " ++ t) with ("invalid" ++ String space_char t). hex_words. Qed.
Lemma named_limit g er m : repair_error_typed er -> limit_named (conv_error_text_with all_mfixes g er) m -> m = i32_max.
Proof.
  intros HT HL. change (limit_named (told g er) m) in HL. unfold repair_error_typed, in_u64 in HT. unfold limit_named, numbers_in in HL.
  change (words "DWARF FDE start address # larger than #") with ["DWARF"; "FDE"; "start"; "address"; "#"; "larger"; "than"; "#"] in HL.
  change (words "DWARF FDE for address # had length # and ended behind #")
    with ["DWARF"; "FDE"; "for"; "address"; "#"; "had"; "length"; "#"; "and"; "ended"; "behind"; "#"] in HL.
  change (words "DWARF FDE row # at offset # not below #") with ["DWARF"; "FDE"; "row"; "#"; "at"; "offset"; "#"; "not"; "below"; "#"] in HL.
  assert (HI : forall t, words (told g er) = ("invalid" :: t)%list -> m = i32_max).
  { intros t E. rewrite E in HL. cbn [fill String.eqb Ascii.eqb Bool.eqb] in HL. destruct HL as [[? [=]]|[(? & ? & [=])|(? & ? & [=])]]. }
  destruct er as [[x|x|x|a|a o|a n|]|a|a er].
  7: cbn in HL; destruct HL as [[? [=]]|[(? & ? & [=])|(? & ? & [=])]].
  1-3: eapply HI; apply (invalid_words (_ ++ g x)).
  - change (told g (AsBefore (InvalidStartAddress a))) with ("DWARF FDE start address " ++ fmt_hex_alt 64 a ++ " larger than 0x7fffffff") in HL.
    rewrite told_start_words in HL. cbn [fill String.eqb Ascii.eqb Bool.eqb] in HL. rewrite hex_word_text in HL by lia.
    destruct HL as [(? & HL)|[(? & ? & [=])|(? & ? & [=])]]. change (hex_word "0x7fffffff") with (Some i32_max) in HL. congruence.
  - unfold told in HL. cbn [conv_error_text_with all_mfixes say_limit say_row] in HL. rewrite app_assoc_s, app_assoc_s in HL.
    rewrite told_row_words in HL. cbn [fill String.eqb Ascii.eqb Bool.eqb] in HL. rewrite !hex_word_text in HL by lia.
    destruct HL as [(? & [=])|[(? & ? & [=])|(? & ? & HL)]]. change (hex_word "0x7fffffff") with (Some i32_max) in HL. congruence.
  - change (told g (AsBefore (InvalidFunctionLength a n)))
      with ("DWARF FDE for address " ++ fmt_hex_alt 64 a ++ " had length " ++ fmt_hex_alt 64 n ++ " and ended behind 0x7fffffff") in HL.
    rewrite told_length_words in HL. cbn [fill String.eqb Ascii.eqb Bool.eqb] in HL. rewrite !hex_word_text in HL by lia.
    destruct HL as [(? & [=])|[(? & ? & HL)|(? & ? & [=])]]. change (hex_word "0x7fffffff") with (Some i32_max) in HL. congruence.
  - change (told g (RowInFront a)) with ("DWARF FDE row " ++ fmt_hex_alt 64 a ++ " lies in front of its function") in HL.
    rewrite told_front_words in HL. cbn [fill String.eqb Ascii.eqb Bool.eqb] in HL. rewrite !hex_word_text in HL by lia.
    destruct HL as [(? & [=])|[(? & ? & [=])|(? & ? & [=])]].
  - change (told g (RowRefused a er)) with ("DWARF FDE row " ++ fmt_hex_alt 64 a ++ " refused: " ++ row_error_text_with all_mfixes er) in HL.
    rewrite refused_words in HL. cbn [fill String.eqb Ascii.eqb Bool.eqb] in HL. rewrite !hex_word_text in HL by lia.
    destruct HL as [(? & [=])|[(? & ? & [=])|(? & ? & [=])]].
Qed.
Theorem limits_applied g er m md op c eh s : repair_error_typed er -> limit_named (conv_error_text_with all_mfixes g er) m ->
  eh_typed eh -> dwarf2sframe_repaired md op c eh = Ok s -> within_limits m m eh.
Proof. intros HT HL HE HO. rewrite (named_limit g er m HT HL). eapply ok_within_limits; eauto. Qed.
(** The errors of the converter are typed. *)
Theorem conv_errors_typed md op c eh er : eh_typed eh -> dwarf2sframe_repaired md op c eh = Err er -> repair_error_typed er.
Proof.
  intros HT H. apply (proj1 (proj2 (repaired_outcome md op c eh HT))) in H.
  destruct H as [pre x post er HE HF HX|x HF HE]; [|exact I]. destruct HX as [x|f er HX]; [exact I|].
  apply function_listed in HE as HI. pose proof (function_typed eh f HT HI) as (HS0 & HN0 & HR0).
  destruct HX as [HS|HS HN|x HS HL|pre' r post' en er HS HL HFR HW HFF|l x HS HL HFR]; try exact I; cbn; auto.
  destruct (wide_listed f _ r _ _ HL HW) as [HD HRW].
  assert (HRr : in_u64 (dr_start r)). { rewrite HD in HR0. apply Forall_mid in HR0. apply HR0. }
  cbn [row_faults first_fault] in HFF.
  destruct HFF as [[P ->]|[N1 [[P ->]|[N2 [[P ->]|[N3 [[P ->]|[N4 [[P ->]|[N5 [[P ->]|[_ []]]]]]]]]]]]]; cbn; auto.
  split; [exact HRr|]. unfold off, in_u64 in *. lia.
Qed.

(** ** Columns *)

Definition wide_row_text (start : Z) (cfa fp ra : cell) (m : bool) : string :=
  "  " ++ fmt_hex_pad 32 16 start ++ " " ++ pad_right 14 (cell_text cfa) ++ " " ++
  pad_right 14 (cell_text fp) ++ " " ++ cell_text ra ++ (if m then " [s]" else "").
Definition wide_columns_text (ty : pub_fde_type) : string :=
  "  STARTPC " ++ match ty with PPcInc => "   " | PPcMask => "[m]" | PPcMaskV1 => "[1]" end ++ "      CFA            FP             RA".

Lemma words_wide_row start cfa fp ra m : words (wide_row_text start cfa fp ra m) =
  ([fmt_hex_pad 32 16 start; cell_text cfa; cell_text fp; cell_text ra] ++ (if m then ["[s]"] else []))%list.
Proof.
  rewrite words_pieces. unfold wide_row_text. cbn [append]. change " "%char with space_char. rewrite !pieces_space.
  rewrite pieces_word by (try apply space_plain, hex_pad_plain; apply hex_pad_nonempty).
  rewrite pieces_padded by (try apply space_plain, cell_plain; apply cell_nonempty).
  rewrite pieces_padded by (try apply space_plain, cell_plain; apply cell_nonempty).
  cbn [List.app]. do 3 f_equal. destruct m.
  - change " "%char with space_char. rewrite pieces_word by (try apply space_plain, cell_plain; apply cell_nonempty).
    reflexivity.
  - rewrite app_nil_r_s. apply pieces_last; [apply space_plain, cell_plain|apply cell_nonempty].
Qed.
Lemma read_wide_row start cfa fp ra m : in_i32 start ->
  read_row (wide_row_text start cfa fp ra m) = Some (LineRow start cfa fp ra m).
Proof.
  intros H. unfold read_row. rewrite words_wide_row.
  assert (HN : number 16 (fmt_hex_pad 32 16 start) = Some (as_u 32 start)).
  { unfold fmt_hex_pad. rewrite number_zero_pad by apply digits_nonempty. apply number_hex. lia. }
  destruct m; cbn [List.app]; cbn -[number read_cell fmt_hex_pad cell_text signed32]; rewrite HN, !read_cell_text, signed32_as_u by exact H; reflexivity.
Qed.
Lemma read_wide_columns ty : read_columns (wide_columns_text ty) = Some (LineColumns ty).
Proof. destruct ty; vm_compute; reflexivity. Qed.

Lemma cell_short c : cell_in_range c -> (String.length (cell_text c) <= 14)%nat.
Proof.
  assert (P : forall o, in_i32 o -> (String.length (fmt_plus o) <= 11)%nat).
  { intros o H. apply plus_length. change (10 ^ Z.of_nat 10) with 10000000000. unfold in_i32, i32_min, i32_max in H. lia. }
  destruct c as [|r o|o]; cbn [cell_in_range cell_text]; [cbn; lia| |]; intros H; apply P in H.
  - destruct r; rewrite length_app_s; cbn [String.length]; lia.
  - rewrite length_app_s; cbn [String.length]; lia.
Qed.
Lemma wide_lined_up ty start cfa fp ra m : cell_in_range cfa -> cell_in_range fp ->
  lined_up (wide_columns_text ty) (wide_row_text start cfa fp ra m).
Proof.
  intros HC HF. apply cell_short in HC, HF.
  assert (W : forall i, nth_error (words (wide_row_text start cfa fp ra m)) (S i) =
    nth_error ([cell_text cfa; cell_text fp; cell_text ra] ++ (if m then ["[s]"] else []))%list i) by (intros i; rewrite words_wide_row; reflexivity).
  set (tail := if m then " [s]" else "").
  assert (R : wide_row_text start cfa fp ra m = ("  " ++ fmt_hex_pad 32 16 start) ++ String space_char
     (pad_right 14 (cell_text cfa) ++ String space_char (pad_right 14 (cell_text fp) ++ String space_char (cell_text ra ++ tail))))
    by (unfold wide_row_text; rewrite app_assoc_s; reflexivity).
  assert (L1 : String.length ("  " ++ fmt_hex_pad 32 16 start) = 18%nat) by (rewrite length_app_s, hex32_pad_length; reflexivity).
  set (pre := "  " ++ fmt_hex_pad 32 16 start) in *.
  set (rest2 := String space_char (pad_right 14 (cell_text fp) ++ String space_char (cell_text ra ++ tail))) in *.
  assert (R2 : wide_row_text start cfa fp ra m = (pre ++ " " ++ pad_right 14 (cell_text cfa)) ++ rest2)
    by (rewrite R, app_assoc_s; reflexivity).
  assert (R3 : wide_row_text start cfa fp ra m = (pre ++ " " ++ pad_right 14 (cell_text cfa) ++ " " ++ pad_right 14 (cell_text fp)) ++
     String space_char (cell_text ra ++ tail))
    by (rewrite R; unfold rest2; rewrite !app_assoc_s; reflexivity).
  assert (L2 : String.length (pre ++ " " ++ pad_right 14 (cell_text cfa)) = 33%nat)
    by (rewrite !length_app_s, L1, pad_length; cbn [String.length]; lia).
  assert (L3 : String.length (pre ++ " " ++ pad_right 14 (cell_text cfa) ++ " " ++ pad_right 14 (cell_text fp)) = 48%nat)
    by (rewrite !length_app_s, L1, !pad_length; cbn [String.length]; lia).
  intros i name Hi. exists (19 + 15 * i)%nat. destruct i as [|[|[|i]]]; [| | |destruct i; discriminate]; injection Hi as <-.
  - exists (cell_text cfa). split; [destruct ty; reflexivity|]. split; [now rewrite W|].
    rewrite R. change (19 + 15 * 0)%nat with (S 18). rewrite word_at_here by exact L1. apply first_word_pad, cell_space.
  - exists (cell_text fp). split; [destruct ty; reflexivity|]. split; [now rewrite W|].
    rewrite R2. unfold rest2. change (19 + 15 * 1)%nat with (S 33). rewrite word_at_here by exact L2. apply first_word_pad, cell_space.
  - exists (cell_text ra). split; [destruct ty; reflexivity|]. split; [now rewrite W|].
    rewrite R3. change (19 + 15 * 2)%nat with (S 48). rewrite word_at_here by exact L3.
    rewrite first_word_app by apply cell_space. unfold tail. destruct m; cbn; apply app_nil_r_s.
Qed.

(** Numbers shown are those of an [i32]. *)
Lemma shows_range {E} mk (o : outcome E Z) c : (forall z, cell_in_range (mk z) = in_i32 z) -> (forall z, o = Ok z -> in_i32 z) ->
  shows mk o c -> cell_in_range c.
Proof.
  intros HM HO [H1 H2]. destruct o as [z|x|].
  - rewrite (H1 z eq_refl), HM. auto.
  - rewrite H2 by discriminate. exact I.
  - rewrite H2 by discriminate. exact I.
Qed.
Lemma nth_range l k z : Forall in_i32 l -> @ok_or read_error _ (nth_error l k) MissingFreOffset = Ok z -> in_i32 z.
Proof.
  intros HF H. destruct (nth_error l k) eqn:E; [|discriminate]. injection H as <-. apply nth_error_In in E. rewrite Forall_forall in HF. auto.
Qed.
Lemma i8_i32 z : in_i8 z -> in_i32 z.
Proof. unfold in_i8, in_i32, i32_min, i32_max. lia. Qed.
Lemma loaded_fixed md e bs sf : wf_mode md -> rust_slice md bs -> load md e bs = Ok sf ->
  (forall z, fixed_ra_offset sf = Some z -> in_i32 z) /\ (forall z, fixed_fp_offset sf = Some z -> in_i32 z).
Proof.
  intros Hm Hs HL. destruct (load_ok md e bs sf Hm Hs HL) as (-> & _). unfold fixed_ra_offset, fixed_fp_offset.
  cbn [loaded sf_fixed_ra sf_fixed_fp]. split; intros z; destruct (_ =? 0)%Z; try discriminate; intros [= <-]; apply i8_i32, rd_s1.
Qed.
Definition line_fits (ln : dump_line) : Prop :=
  match ln with LineRow start cfa fp ra _ => in_i32 start /\ cell_in_range cfa /\ cell_in_range fp /\ cell_in_range ra | _ => True end.
Lemma func_lines_fit md e bs sf idx en l : wf_mode md -> rust_slice md bs -> load md e bs = Ok sf -> fde_ok (en_fde en) ->
  func_lines md e sf idx en l -> Forall line_fits l.
Proof.
  intros Hm Hs HL Hok (good & er & rows & HG & HR & ->). destruct (loaded_fixed md e bs sf Hm Hs HL) as [FR FP].
  unfold fre_results, all_fres in HG. destruct (fri_collect_shape md e _ (fres en) _ Hm Hok HG) as (g & bad & aw & rest & EQ & _ & _ & _ & HRW & _).
  assert (HI : forall fr, In fr good -> Forall in_i32 (fre_offsets fr)).
  { pose proof (rows_at_offsets _ _ _ _ _ HRW) as HO. rewrite Forall_map, Forall_forall in HO.
    intros fr Hfr. apply (HO fr). assert (HX : In (inl fr) (map inl g ++ map inr bad)%list).
    { rewrite <- EQ. apply in_or_app. left. now apply in_map. }
    apply in_app_or in HX as [HX|HX]; apply in_map_iff in HX as (x & HX & HX'); [now injection HX as ->|discriminate]. }
  constructor; [exact I|]. constructor; [exact I|]. apply Forall_app. split; [|apply Forall_app; split; [destruct er|]; repeat constructor].
  clear -HR HI FR FP. induction HR as [|fr ln g r H _ IH]; constructor.
  - destruct H as (start & cfa & fp & ra & -> & HS & H1 & H2 & H3). cbn [line_fits]. specialize (HI fr (or_introl eq_refl)).
    split; [exact (start_in_i32 md fr start HS)|]. split; [|split].
    + refine (shows_range _ _ _ _ _ H1); [reflexivity|]. intros z. apply nth_range, HI.
    + refine (shows_range _ _ _ _ _ H2); [reflexivity|]. unfold fre_fp_offset. intros z. destruct (fixed_fp_offset sf); [intros [= <-]; auto|apply nth_range, HI].
    + refine (shows_range _ _ _ _ _ H3); [reflexivity|]. unfold fre_ra_offset. intros z. destruct (fixed_ra_offset sf); [intros [= <-]; auto|apply nth_range, HI].
  - apply IH. intros x Hx. apply HI. now right.
Qed.
Lemma all_lines_fit md e bs sf : wf_mode md -> rust_slice md bs -> load md e bs = Ok sf -> forall ens idx l,
  Forall (fun en => fde_ok (en_fde en)) ens -> all_func_lines md e sf idx ens l -> Forall line_fits l.
Proof.
  intros Hm Hs HL. induction ens as [|en t IH]; intros idx l HF H.
  - cbn in H. subst. constructor.
  - destruct H as (l1 & l2 & -> & H1 & H2). apply Forall_app. split.
    + exact (func_lines_fit md e bs sf idx en l1 Hm Hs HL (Forall_inv HF) H1).
    + exact (IH _ _ (Forall_inv_tail HF) H2).
Qed.
Lemma dump_lines_fit md e bs sf l : wf_mode md -> rust_slice md bs -> load md e bs = Ok sf -> dump md e sf = Ok l -> Forall line_fits l.
Proof.
  intros Hm Hs HL HD. destruct (dump_exact md e bs sf Hm Hs HL) as [_ HO]. destruct (HO ltac:(congruence)) as (out & HE & HF).
  rewrite HD in HE. injection HE as ->. do 3 (constructor; [exact I|]). refine (all_lines_fit md e bs sf Hm Hs HL _ 0 _ _ HF).
  rewrite all_fdes_map. apply Forall_map. exact (loaded_fdes_ok _ _ _ _ Hm Hs HL).
Qed.
Theorem columns_repaired md e bs sf l abi_name : wf_mode md -> rust_slice md bs -> load md e bs = Ok sf -> dump md e sf = Ok l ->
  forall ty start cfa fp ra m, In (LineRow start cfa fp ra m) l ->
  exists heading row, line_text_with all_mfixes abi_name (LineColumns ty) = [heading] /\
    line_text_with all_mfixes abi_name (LineRow start cfa fp ra m) = [row] /\ lined_up heading row /\
    read_columns heading = Some (LineColumns ty) /\ read_row row = Some (LineRow start cfa fp ra m).
Proof.
  intros Hm Hs HL HD ty start cfa fp ra m HI. pose proof (dump_lines_fit md e bs sf l Hm Hs HL HD) as HF. rewrite Forall_forall in HF.
  destruct (HF _ HI) as (H0 & H1 & H2 & H3). exists (wide_columns_text ty), (wide_row_text start cfa fp ra m).
  split; [destruct ty; reflexivity|]. split; [reflexivity|]. split; [now apply wide_lined_up|]. split; [apply read_wide_columns|now apply read_wide_row].
Qed.

(** ** The other messages tell errors apart as before *)

Theorem told_texts_distinct :
  (forall x y, row_error_text_with all_mfixes x = row_error_text_with all_mfixes y -> x = y) /\
  (forall x y, told_text x = told_text y -> x = y) /\
  (forall x y, load_error_text all_mfixes x = load_error_text all_mfixes y -> x = y).
Proof.
  split; [exact row_told_distinct|]. split; [intros [|[]] [|[]] H; reflexivity || discriminate H|].
  intros [|x] [|y] H; [reflexivity|destruct y; discriminate H|destruct x; discriminate H|]. f_equal. apply read_messages_distinct.
  destruct x, y; try exact H; try discriminate H. cbn [load_error_text read_error_text_with all_mfixes say_count] in H.
  apply app_inj_l in H. cbn [read_error_text]. now rewrite H.
Qed.
