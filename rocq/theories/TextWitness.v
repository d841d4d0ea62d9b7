(** Messages, and concrete texts. *)
From Coq Require Import String Ascii.
From Verif Require Export TextFacts ToolsWitness.
Local Open Scope string_scope.

(** ** Different errors have different messages *)

Lemma app_inj_l p a b : p ++ a = p ++ b -> a = b.
Proof. induction p as [|c p IH]; cbn; [auto|]. intros [= H]. auto. Qed.
Lemma app_inj_r p : forall a b, a ++ p = b ++ p -> a = b.
Proof.
  intros a b H. assert (HL : String.length a = String.length b).
  { apply (f_equal String.length) in H. rewrite !length_app_s in H. lia. }
  revert b H HL. induction a as [|c a IH]; intros [|d b] H HL; cbn in HL; try lia; [reflexivity|].
  cbn in H. injection H as -> H. f_equal. apply IH; [exact H|lia].
Qed.
Lemma dec_inj a b : fmt_dec a = fmt_dec b -> a = b.
Proof. intros H. pose proof (integer_dec a) as HA. rewrite H, integer_dec in HA. congruence. Qed.
Lemma dec_inj_in p q a b : p ++ fmt_dec a ++ q = p ++ fmt_dec b ++ q -> a = b.
Proof. intros H. now apply app_inj_l, app_inj_r, dec_inj in H. Qed.

Theorem read_messages_distinct a b : read_error_text a = read_error_text b -> a = b.
Proof.
  destruct a, b; cbn [read_error_text]; intros H; try reflexivity; try discriminate H;
    apply dec_inj_in in H; try (now subst).
  - destruct t, t0; cbn in H; congruence.
  - destruct t, t0; cbn in H; congruence.
  - destruct o, o0; cbn in H; congruence.
Qed.
Theorem row_messages_distinct a b : row_error_text a = row_error_text b -> a = b.
Proof. destruct a, b; intros H; try reflexivity; discriminate H. Qed.
Theorem emit_messages_distinct a b : emit_error_text a = emit_error_text b -> a = b.
Proof. destruct a, b; intros H; try reflexivity; discriminate H. Qed.

(** ** Messages that are not true *)

Lemma fixed_violation fixed given er v : check_fixed fixed given er = Err v -> 
  v = er /\ exists x y, given = Some x /\ fixed = Some y /\ x <> y.
Proof.
  unfold check_fixed. destruct fixed as [y|]; [|discriminate]. destruct given as [x|]; [|discriminate].
  destruct (Z.eqb_spec x y); [discriminate|]. intros [= <-]. split; [reflexivity|]. now exists x, y.
Qed.

Ltac claims := eexists; split; [cbn; reflexivity|]; cbv beta.
Lemma message_holds_rest b r er : fdb_wf b ->
  snd (if fb_size b <=? r_start r then (b, Err StartAddressOutsideFde)
  else
    match normalise_offsets (fb_options b) r with
    | Err er => (b, Err er)
    | Panic => (b, Panic)
    | Ok r' =>
        match bt_get (r_start r') (fb_fres b) with
        | Some _ => (b, Err DuplicateRow)
        | None => (fdb_set_fres (bt_insert (r_start r') r' (fb_fres b)) b, Ok tt)
        end
    end)%Z = Err er -> message_true b r (row_error_text er).
Proof.
  intros W H. destruct (Z.leb_spec (fb_size b) (r_start r)); [injection H as <-; claims; lia|].
  assert (HN : match normalise_offsets (fb_options b) r with
               | Ok r' => r_start r' = r_start r
               | Err v => message_true b r (row_error_text v)
               | Panic => False end).
  { unfold normalise_offsets. destruct (r_offsets r) as [o|] eqn:EO; [|reflexivity].
    destruct (check_fixed (so_fixed_ra _) _ _) as [ra|v|] eqn:E1; cbn [bind].
    - destruct (check_fixed (so_fixed_fp _) _ _) as [fp|v|] eqn:E2; cbn [bind]; [reflexivity| |].
      + apply fixed_violation in E2. destruct E2 as (-> & x & y & HX & HY & HD). claims. exists o, x, y. auto.
      + unfold check_fixed in E2. destruct (so_fixed_fp _), (ro_fp o); try discriminate. destruct (_ =? _)%Z in E2; discriminate.
    - apply fixed_violation in E1. destruct E1 as (-> & x & y & HX & HY & HD). claims. exists o, x, y. auto.
    - unfold check_fixed in E1. destruct (so_fixed_ra _), (ro_ra o); try discriminate. destruct (_ =? _)%Z in E1; discriminate. }
  destruct (normalise_offsets _ r) as [r'|v|]; [|cbn in H; injection H as <-; exact HN|contradiction].
  destruct (bt_get (r_start r') (fb_fres b)) as [x|] eqn:EG; [|discriminate]. cbn in H. injection H as <-.
  rewrite HN in EG. apply bt_get_in in EG. claims. exists x. split.
  - unfold rows_of. apply in_map_iff. exists (r_start r, x). auto.
  - symmetry. exact (bw_keyed _ W _ _ EG).
Qed.

Theorem message_holds b r er : fdb_reach b -> snd (fdb_row_st b r) = Err er ->
  r_start r <> 0x10000000 -> fb_rep_size b <> Some (r_start r) -> message_true b r (row_error_text er).
Proof.
  intros HR H H1 H2. apply fdb_reach_wf in HR. unfold fdb_row_st in H.
  destruct (Z.leb_spec 0x10000000 (r_start r)); [injection H as <-; claims; lia|].
  destruct (fb_rep_size b) as [rep|] eqn:ER; [|apply message_holds_rest; assumption].
  destruct (Z.leb_spec rep (r_start r)) as [HL|HL]; [|apply message_holds_rest; assumption].
  cbn in H. injection H as <-. claims. exists rep. split; [exact ER|]. assert (rep <> r_start r) by congruence. lia.
Qed.

Definition big_fdb : fdb := fdb_new options_new 0 0x20000000.
Definition rep_fdb : fdb := fdb_pcmask 8 (fdb_new options_new 0x100 64).
Lemma big_reach : fdb_reach big_fdb.
Proof. constructor; [constructor|unfold in_i32, i32_min, i32_max; lia|unfold in_u32, u32_max; lia]. Qed.
Lemma rep_reach : fdb_reach rep_fdb.
Proof. apply br_pcmask; [unfold in_u8; lia|]. constructor; [constructor|unfold in_i32, i32_min, i32_max; lia|unfold in_u32, u32_max; lia]. Qed.

(** Both comparisons refuse the limit itself, the messages say "larger than". *)
Theorem message_false :
  (fdb_reach big_fdb /\ row_typed (row3 0x10000000 8 (-8) (-16)) /\
   snd (fdb_row_st big_fdb (row3 0x10000000 8 (-8) (-16))) = Err StartAddressTooLarge /\
   ~ message_true big_fdb (row3 0x10000000 8 (-8) (-16)) (row_error_text StartAddressTooLarge)) /\
  (fdb_reach rep_fdb /\ row_typed (row3 8 8 (-8) (-16)) /\
   snd (fdb_row_st rep_fdb (row3 8 8 (-8) (-16))) = Err StartAddressLargerThanRepSize /\
   ~ message_true rep_fdb (row3 8 8 (-8) (-16)) (row_error_text StartAddressLargerThanRepSize)).
Proof.
  split.
  - split; [apply big_reach|]. split; [unfold row_typed, offsets_typed, in_u32, in_i32, u32_max, i32_min, i32_max; cbn; lia|].
    split; [vm_compute; reflexivity|]. intros (claim & HC & H). cbn in HC. injection HC as <-. cbn in H. lia.
  - split; [apply rep_reach|]. split; [unfold row_typed, offsets_typed, in_u32, in_i32, u32_max, i32_min, i32_max; cbn; lia|].
    split; [vm_compute; reflexivity|]. intros (claim & HC & H). cbn in HC. injection HC as <-. destruct H as (rep & [= <-] & H). cbn in H. lia.
Qed.

(** ** The messages of the converter *)

Lemma row_listed f pre r post en : df_rows f = inl (DwRows (pre ++ r :: post) en) -> In r (dw_rows_of f).
Proof. intros H. unfold dw_rows_of. rewrite H. apply in_elt. Qed.
Lemma function_listed eh pre f post : entries_of eh = (pre ++ DwGoodFde f :: post)%list -> In f (functions (entries_of eh)).
Proof.
  intros ->. clear. induction pre as [|x pre IH]; cbn; [auto|]. destruct x; cbn; auto.
Qed.

Lemma hex_word_text z : 0 <= z < 2 ^ 64 -> hex_word (fmt_hex_alt 64 z) = Some z.
Proof.
  intros H. unfold hex_word, fmt_hex_alt. rewrite after_app, number_hex by lia.
  unfold as_u. rewrite Z.mod_small by lia. reflexivity.
Qed.
Lemma hex_alt_word z : without space_char (fmt_hex_alt 64 z) /\ fmt_hex_alt 64 z <> "".
Proof.
  split; [|discriminate]. apply space_plain. unfold fmt_hex_alt. rewrite all_chars_app, hex_plain. reflexivity.
Qed.
Lemma start_words a : words ("DWARF FDE start address " ++ fmt_hex_alt 64 a ++ " larger than 0x10000000") =
  ["DWARF"; "FDE"; "start"; "address"; fmt_hex_alt 64 a; "larger"; "than"; "0x10000000"].
Proof.
  destruct (hex_alt_word a) as [H1 H2]. rewrite words_pieces.
  change ("DWARF FDE start address " ++ fmt_hex_alt 64 a ++ " larger than 0x10000000")
    with ("DWARF" ++ String space_char ("FDE" ++ String space_char ("start" ++ String space_char ("address" ++ String space_char
      (fmt_hex_alt 64 a ++ String space_char "larger than 0x10000000"))))).
  rewrite !pieces_word by (try exact H1; try exact H2; try discriminate; apply without_all; reflexivity). reflexivity.
Qed.
Lemma row_words o : words ("DWARF FDE row offset " ++ fmt_hex_alt 64 o ++ " larger than 0x10000000") =
  ["DWARF"; "FDE"; "row"; "offset"; fmt_hex_alt 64 o; "larger"; "than"; "0x10000000"].
Proof.
  destruct (hex_alt_word o) as [H1 H2]. rewrite words_pieces.
  change ("DWARF FDE row offset " ++ fmt_hex_alt 64 o ++ " larger than 0x10000000")
    with ("DWARF" ++ String space_char ("FDE" ++ String space_char ("row" ++ String space_char ("offset" ++ String space_char
      (fmt_hex_alt 64 o ++ String space_char "larger than 0x10000000"))))).
  rewrite !pieces_word by (try exact H1; try exact H2; try discriminate; apply without_all; reflexivity). reflexivity.
Qed.
Lemma length_words a n : words ("DWARF FDE for address " ++ fmt_hex_alt 64 a ++ " had length " ++ fmt_hex_alt 64 n ++ " larger than 0x10000000") =
  ["DWARF"; "FDE"; "for"; "address"; fmt_hex_alt 64 a; "had"; "length"; fmt_hex_alt 64 n; "larger"; "than"; "0x10000000"].
Proof.
  destruct (hex_alt_word a) as [H1 H2], (hex_alt_word n) as [H3 H4]. rewrite words_pieces.
  change ("DWARF FDE for address " ++ fmt_hex_alt 64 a ++ " had length " ++ fmt_hex_alt 64 n ++ " larger than 0x10000000")
    with ("DWARF" ++ String space_char ("FDE" ++ String space_char ("for" ++ String space_char ("address" ++ String space_char
      (fmt_hex_alt 64 a ++ String space_char ("had" ++ String space_char ("length" ++ String space_char
        (fmt_hex_alt 64 n ++ String space_char "larger than 0x10000000")))))))).
  rewrite !pieces_word by (try exact H1; try exact H2; try exact H3; try exact H4; try discriminate; apply without_all; reflexivity). reflexivity.
Qed.
Lemma start_numbers a : 0 <= a < 2 ^ 64 -> 
  numbers_in "DWARF FDE start address # larger than #" ("DWARF FDE start address " ++ fmt_hex_alt 64 a ++ " larger than 0x10000000") = Some [a; 0x10000000].
Proof.
  intros H. unfold numbers_in. rewrite start_words.
  change (words "DWARF FDE start address # larger than #") with ["DWARF"; "FDE"; "start"; "address"; "#"; "larger"; "than"; "#"].
  cbn [fill String.eqb Ascii.eqb Bool.eqb]. now rewrite hex_word_text.
Qed.
Lemma row_numbers o : 0 <= o < 2 ^ 64 -> 
  numbers_in "DWARF FDE row offset # larger than #" ("DWARF FDE row offset " ++ fmt_hex_alt 64 o ++ " larger than 0x10000000") = Some [o; 0x10000000].
Proof.
  intros H. unfold numbers_in. rewrite row_words.
  change (words "DWARF FDE row offset # larger than #") with ["DWARF"; "FDE"; "row"; "offset"; "#"; "larger"; "than"; "#"].
  cbn [fill String.eqb Ascii.eqb Bool.eqb]. now rewrite hex_word_text.
Qed.
Lemma length_numbers a n : 0 <= a < 2 ^ 64 -> 0 <= n < 2 ^ 64 -> 
  numbers_in "DWARF FDE for address # had length # larger than #"
    ("DWARF FDE for address " ++ fmt_hex_alt 64 a ++ " had length " ++ fmt_hex_alt 64 n ++ " larger than 0x10000000") = Some [a; n; 0x10000000].
Proof.
  intros H Hn. unfold numbers_in. rewrite length_words.
  change (words "DWARF FDE for address # had length # larger than #")
    with ["DWARF"; "FDE"; "for"; "address"; "#"; "had"; "length"; "#"; "larger"; "than"; "#"].
  cbn [fill String.eqb Ascii.eqb Bool.eqb]. now rewrite !hex_word_text.
Qed.

Lemma err_is (v w : conv_error) : @Err conv_error unit v = Err w -> w = v.
Proof. intros [= ->]. reflexivity. Qed.
Lemma function_typed eh f : eh_typed eh -> In f (functions (entries_of eh)) -> dw_fde_typed f.
Proof.
  intros H. unfold eh_typed in H. induction H as [|x l Hx _ IH]; cbn; [contradiction|].
  destruct x; cbn; auto. intros [<-|Hi]; [exact Hx|auto].
Qed.
Lemma problem_message g md op eh q : eh_typed eh -> section_problem md op eh q ->
  (forall f r, In f (functions (entries_of eh)) -> In r (dw_rows_of f) -> df_start f <= dr_start r) ->
  forall er, q = Err er -> conv_message_true g op eh (conv_error_text g er).
Proof.
  assert (HM : 0x10000000 < i32_max) by (unfold i32_max; lia).
  intros HT H HR. destruct H as [pre x post o HE _ HP|x _ HE].
  2:{ intros er EQ; apply err_is in EQ; subst er. do 3 right. left. exists x. split; [reflexivity|exact HE]. }
  destruct HP as [x|f o HP].
  { intros er EQ; apply err_is in EQ; subst er. do 4 right. left. exists x. split; [reflexivity|].
    left. rewrite HE. apply in_elt. }
  apply function_listed in HE as HI. pose proof (function_typed eh f HT HI) as (HS0 & HN0 & HRt). unfold in_u64 in HS0, HN0.
  destruct HP as [HO|x HO HD HF|HD HS|HD HS HN|x HH HL|pre' r post' en o HH HL HF HG HW|l x HH HL HF]; intros er EQ; try discriminate EQ;
    try (apply err_is in EQ; subst er).
  - do 4 right. left. exists x. split; [reflexivity|]. right. split; [exact HD|]. exists f. split; assumption.
  - left. exists (df_start f), 0x10000000. split; [apply start_numbers; lia|].
    exists f. split; [exact HI|]. split; [reflexivity|lia].
  - do 2 right. left. exists (df_start f), (df_len f), 0x10000000. split; [apply length_numbers; lia|].
    exists f. split; [exact HI|]. split; [reflexivity|]. split; [reflexivity|lia].
  - do 5 right. exists x. split; [reflexivity|]. exists f. split; [exact HI|]. left. exact HL.
  - apply row_listed in HL. specialize (HR f r HI HL).
    destruct HW as [Hn|Hn|Hn|Hn]; try discriminate EQ; apply err_is in EQ; subst er.
    + unfold off in Hn. lia.
    + right. left. exists (off f r), 0x10000000. split; [apply row_numbers|].
      { unfold off in *. split; [lia|]. pose proof (proj1 (Forall_forall _ _) HRt r HL) as HRr. unfold dw_row_typed, in_u64 in HRr. lia. }
      exists f, r. split; [exact HI|]. split; [exact HL|]. split; [reflexivity|lia].
  - do 5 right. exists x. split; [reflexivity|]. exists f. split; [exact HI|]. right. exists l. exact HL.
Qed.
Theorem conv_message_holds g md op eh er : eh_typed eh -> dwarf2sframe md op eh = Err er ->
  (forall f r, In f (functions (entries_of eh)) -> In r (dw_rows_of f) -> df_start f <= dr_start r) ->
  conv_message_true g op eh (conv_error_text g er).
Proof.
  intros HT H HR. assert (HF : forget (dwarf2sframe md op eh) = Err er) by (rewrite H; reflexivity).
  apply dwarf2sframe_exact in HF; [|exact HT]. destruct HF as [[HF _]|HF]; [discriminate|].
  exact (problem_message g md op eh _ HT HF HR er eq_refl).
Qed.

Definition beyond : eh_frame := of_functions [DwFde 0x10000001 0x20 nops (rows_ok [amd_row 0x10000001 0x10000010 7 8 RUndefined])].
(** An offset that no row has; a start above the limit named in the message. *)
Theorem conv_message_false :
  (eh_typed row_in_front /\ dwarf2sframe rel64 amd row_in_front = Err (InvalidRowOffset 0xfff (2 ^ 64 - 1)) /\
   forall g, ~ conv_message_true g amd row_in_front (conv_error_text g (InvalidRowOffset 0xfff (2 ^ 64 - 1)))) /\
  (eh_typed beyond /\ (forall g, conv_message_true g amd beyond (conv_error_text g (InvalidStartAddress 0x10000001))) /\
   exists s, dwarf2sframe rel64 amd beyond = Ok s).
Proof.
  split.
  - split; [typed_eh|]. split; [vm_compute; reflexivity|].
    assert (HX : forall g, conv_error_text g (InvalidRowOffset 0xfff (2 ^ 64 - 1)) = "DWARF FDE row offset 0xffffffffffffffff larger than 0x10000000")
      by (intros g; vm_compute; reflexivity).
    intros g. rewrite HX. intros [(a & m & H & _)|[(o & m & H & f & r & Hf & Hr & HO & _)|[(a & n & m & H & _)|[(x & H & _)|[(x & H & _)|(x & H & _)]]]]];
      try discriminate H.
    vm_compute in H. injection H as <- <-.
    vm_compute in Hf. destruct Hf as [<-|[]]. vm_compute in Hr. destruct Hr as [<-|[]]. discriminate HO.
  - split; [typed_eh|]. split.
    + intros g. left. exists 0x10000001, 0x10000000. split; [vm_compute; reflexivity|].
      eexists. split; [left; reflexivity|]. split; [reflexivity|lia].
    + eexists. vm_compute. reflexivity.
Qed.
(** A message with two numbers. *)
Definition too_long : eh_frame := of_functions [DwFde 0x1000 0x80000000 nops (rows_ok [])].
Theorem conv_message_case : forall g,
  eh_typed too_long /\ dwarf2sframe rel64 amd too_long = Err (InvalidFunctionLength 0x1000 0x80000000) /\
  (forall f r, In f (functions (entries_of too_long)) -> In r (dw_rows_of f) -> df_start f <= dr_start r) /\
  conv_error_text g (InvalidFunctionLength 0x1000 0x80000000) =
    "DWARF FDE for address 0x1000 had length 0x80000000 larger than 0x10000000" /\
  numbers_in "DWARF FDE for address # had length # larger than #"
    "DWARF FDE for address 0x1000 had length 0x80000000 larger than 0x10000000" = Some [0x1000; 0x80000000; 0x10000000].
Proof.
  intros g. split; [typed_eh|]. split; [vm_compute; reflexivity|]. split.
  { intros f r [<-|[]] []. }
  split; vm_compute; reflexivity.
Qed.

(** ** The messages of the converter tell its errors apart, but for one *)

Definition conv_error_typed (er : conv_error) : Prop :=
  match er with
  | InvalidStartAddress a => 0 <= a < 2 ^ 64
  | InvalidRowOffset a o => 0 <= a < 2 ^ 64 /\ 0 <= o < 2 ^ 64
  | InvalidFunctionLength a n => 0 <= a < 2 ^ 64 /\ 0 <= n < 2 ^ 64
  | _ => True
  end.
Theorem conv_messages_distinct g x y : (forall a b, g a = g b -> a = b) ->
  conv_error_typed x -> conv_error_typed y ->
  conv_error_text g x = conv_error_text g y ->
  x = y \/ exists a b o, x = InvalidRowOffset a o /\ y = InvalidRowOffset b o.
Proof.
  intros G. destruct x, y; intros Hx Hy H; try discriminate H; try (left; reflexivity); unfold conv_error_typed in Hx, Hy; cbn [conv_error_text] in H.
  - left. apply app_inj_l in H. apply G in H. now subst.
  - left. apply app_inj_l in H. apply G in H. now subst.
  - left. apply app_inj_l in H. apply G in H. now subst.
  - left. apply (f_equal (numbers_in "DWARF FDE start address # larger than #")) in H.
    rewrite !start_numbers in H by lia. congruence.
  - right. apply (f_equal (numbers_in "DWARF FDE row offset # larger than #")) in H.
    rewrite !row_numbers in H by lia. injection H as ->. now do 3 eexists.
  - left. apply (f_equal (numbers_in "DWARF FDE for address # had length # larger than #")) in H.
    rewrite !length_numbers in H by lia. congruence.
Qed.

(** ** Columns *)

(** A frame pointer saved 100 MB below the CFA. *)
Definition wide_sfb : sfb := Eval vm_compute in
  get_ok (sfb_new options_new) (add_fdes (sfb_new options_new)
    [get_ok blank (fdb_row blank (row3 4 16 (-8) (-100000000)))]).
Definition wide_bytes : bytes := Eval vm_compute in get_ok [] (build rel64 LE wide_sfb).
Definition wide_sf : sframe := Eval vm_compute in get_ok dummy_sf (load rel64 LE wide_bytes).

Definition wide_row : dump_line := LineRow 0x104 (CellBase Sp 16) (CellCfa (-100000000)) (CellCfa (-8)) false.
Theorem columns_not_lined_up :
  build rel64 LE wide_sfb = Ok wide_bytes /\ load rel64 LE wide_bytes = Ok wide_sf /\
  exists l heading row, dump rel64 LE wide_sf = Ok l /\ In (LineColumns PPcInc) l /\ In wide_row l /\
    (forall abi_name, line_text abi_name (LineColumns PPcInc) = [heading] /\ line_text abi_name wide_row = [row]) /\
    ~ lined_up heading row.
Proof.
  split; [vm_compute; reflexivity|]. split; [vm_compute; reflexivity|].
  eexists. exists (columns_text PPcInc), (row_text 0x104 (CellBase Sp 16) (CellCfa (-100000000)) (CellCfa (-8)) false).
  split; [vm_compute; reflexivity|]. split; [cbn; tauto|]. split; [unfold wide_row; cbn; tauto|]. split; [split; reflexivity|].
  rewrite lined_up_iff. cbn [narrow]. intros [_ H]. lia.
Qed.
Theorem columns_line_up abi_name ty start cfa fp ra m :
  exists heading row, line_text abi_name (LineColumns ty) = [heading] /\ line_text abi_name (LineRow start cfa fp ra m) = [row] /\
    (lined_up heading row <-> narrow cfa /\ narrow fp).
Proof. exists (columns_text ty), (row_text start cfa fp ra m). split; [reflexivity|]. split; [reflexivity|apply lined_up_iff]. Qed.

(** ** The text of the sample *)

Definition nl : string := String newline_char "".
Definition some_abi (n : Z) : string := if (n =? 3)%Z then "Amd64Little" else "other".
Definition sample_output : string :=
  "Header:" ++ nl ++
  "  Version:  2" ++ nl ++
  "  Flags:    0x1" ++ nl ++
  "  Num FDEs: 2" ++ nl ++
  "  Num FREs: 7" ++ nl ++
  "  Arch/ABI: Amd64Little" ++ nl ++
  "  Fixed FP Offset: none" ++ nl ++
  "  Fixed RA Offset: -8" ++ nl ++
  "" ++ nl ++
  "Function Index:" ++ nl ++
  "  func idx [0]: pc = 0x1000, size = 32 bytes" ++ nl ++
  "  STARTPC          CFA          FP           RA" ++ nl ++
  "  0000000000001000 sp+8         u            cfa-8" ++ nl ++
  "  0000000000001001 sp+16        cfa-16       cfa-8" ++ nl ++
  "  0000000000001004 fp+16        cfa-16       cfa-8" ++ nl ++
  "  000000000000101f sp+8         u            cfa-8" ++ nl ++
  "" ++ nl ++
  "  func idx [1]: pc = 0x2000, size = 64 bytes" ++ nl ++
  "  STARTPC          CFA          FP           RA" ++ nl ++
  "  0000000000002000 sp+16        u            cfa-8" ++ nl ++
  "  0000000000002006 sp+24        u            cfa-8" ++ nl ++
  "  0000000000002010 u            u            cfa-8" ++ nl ++
  "" ++ nl.

Theorem text_case :
  load rel64 LE (sample_bytes LE) = Ok sample_sf /\ rust_slice rel64 (sample_bytes LE) /\
  (exists l, dump rel64 LE sample_sf = Ok l /\ stdout_text some_abi l = sample_output) /\
  without newline_char (some_abi (abi sample_sf)) /\
  exists l, dump rel64 LE damaged_sf = Ok l /\
    stderr_text l = "  error decoding FRE: unsupported FRE offset type (3)" ++ nl.
Proof.
  destruct sample_dump as [HL HD]. split; [exact HL|]. split; [apply sample_slice, wf_rel64|].
  split; [eexists; split; [exact HD|vm_compute; reflexivity]|].
  split; [apply without_all; reflexivity|].
  eexists. split; [vm_compute; reflexivity|]. vm_compute. reflexivity.
Qed.
