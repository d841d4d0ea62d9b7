(** Proofs about [dwarfdump]. *)
From Coq Require Import String Ascii.
From Verif Require Export DdSpec V1Text.
Local Open Scope string_scope.

(** ** What is printed, line by line *)

Definition finish_lines (pr : printers) (en : option gimli_error) (finish : list string) : list string :=
  match en with Some g => ["Failed to decode CFI instruction: " ++ pr_gimli pr g] | None => finish end.
Definition insns_lines (pr : printers) (t : option reg_table) (is : insns) (finish : list string) : list string :=
  (flat_map (insn_lines pr t true) (is_list is) ++ finish_lines pr (is_end is) finish)%list.
Definition cie_lines (p : printers_dd) (t : option reg_table) (pt : Z -> string) (c : cie) : list string :=
  ("" :: (fmt_hex_alt_pad 64 10 (ci_offset c) ++ ": CIE")%string ::
   ("        length: " ++ fmt_hex_alt_pad 64 10 (ci_length c))%string ::
   ("       version: " ++ fmt_hex_alt_pad 8 4 (ci_version c))%string ::
   ("    code_align: " ++ fmt_dec (ci_code_align c))%string ::
   ("    data_align: " ++ fmt_dec (ci_data_align c))%string ::
   ("   ra_register: " ++ register_text (pd p) t (ci_ra c))%string ::
   match ci_lsda c with Some e => [(" lsda_encoding: " ++ pt e)%string] | None => [] end ++
   match ci_personality c with Some (e, q) => [("   personality: " ++ pt e ++ " " ++ pointer_text q)%string] | None => [] end ++
   match ci_fde c with Some e => [("  fde_encoding: " ++ pt e)%string] | None => [] end ++
   insns_lines (pd p) t (ci_insns c) ["  Instructions: Init State:"] ++ [""])%list.
Definition fde_lines (p : printers_dd) (t : option reg_table) (o n ci : Z) (parsed : dd_fde + gimli_error) : list string :=
  ("" :: (fmt_hex_alt_pad 64 10 o ++ ": FDE")%string ::
   ("        length: " ++ fmt_hex_alt_pad 64 10 n)%string ::
   ("   CIE_pointer: " ++ fmt_hex_alt_pad 64 10 ci)%string ::
   match parsed with
   | inr g => [("Failed to parse FDE: " ++ pr_gimli (pd p) g)%string]
   | inl f =>
       ("    start_addr: " ++ fmt_hex_alt_pad 64 18 (dd_start f))%string ::
       ("    range_size: " ++ fmt_hex_alt_pad 64 18 (dd_len f) ++
        " (end_addr = " ++ fmt_hex_alt_pad 64 18 ((dd_start f + dd_len f) mod 2 ^ 64) ++ ")")%string ::
       match dd_lsda f with Some q => [("          lsda: " ++ pointer_text q)%string] | None => [] end ++
       "  Instructions:" :: insns_lines (pd p) t (dd_insns f) [] ++ [""]
   end)%list.
Definition entry_lines (p : printers_dd) (t : option reg_table) (pt : Z -> string) (e : dd_entry) : list string :=
  match e with DdCie c => cie_lines p t pt c | DdPartial o n ci f => fde_lines p t o n ci f end.

Lemma dump_insns_step pr reg full i l en fin :
  dump_insn_list pr reg full (i :: l) en fin =
  match insn_expression i with
  | None => (Out (insn_text pr reg i) :: fst (dump_insn_list pr reg full l en fin), snd (dump_insn_list pr reg full l en fin))
  | Some x =>
      match ex_end x with
      | Some g => (map Out (insn_text pr reg i :: map (op_text pr reg full "                  ") (ex_ops x)), Err g)
      | None => ((map Out (insn_text pr reg i :: map (op_text pr reg full "                  ") (ex_ops x)) ++
                 fst (dump_insn_list pr reg full l en fin))%list, snd (dump_insn_list pr reg full l en fin))
      end
  end.
Proof.
  cbn [dump_insn_list]. rewrite lbind_say. destruct (insn_expression i) as [x|]; [|reflexivity].
  unfold dump_expression, lbind. cbn [map]. rewrite map_map. destruct (ex_end x); reflexivity.
Qed.

Lemma dump_insns_run pr t en finish : forall l,
  ((forall i x, In i l -> block_of i = Some x -> well_formed x = true) /\
   dump_insn_list pr (register_text pr t) true l en (map Out finish) =
   (map Out (flat_map (insn_lines pr t true) l ++ finish_lines pr en finish)%list, Ok tt)) \/
  (~ (forall i x, In i l -> block_of i = Some x -> well_formed x = true) /\
   exists out g, dump_insn_list pr (register_text pr t) true l en (map Out finish) = (map Out out, Err g)).
Proof.
  induction l as [|i l IH].
  - left. split; [intros i x []|]. destruct en; reflexivity.
  - rewrite dump_insns_step.
    assert (Eb : insn_expression i = block_of i) by (destruct i; reflexivity).
    assert (El : forall H : block_of i = insn_expression i, insn_lines pr t true i = insn_text pr (register_text pr t) i ::
      match block_of i with Some x => map (op_text pr (register_text pr t) true "                  ") (ex_ops x) | None => [] end)
      by (intros ->; reflexivity).
    specialize (El (eq_sym Eb)). rewrite Eb.
    destruct (block_of i) as [x|] eqn:Ei.
    + destruct (ex_end x) as [g|] eqn:Ex.
      * right. split.
        { intros H. specialize (H i x (or_introl eq_refl) Ei). unfold well_formed in H. rewrite Ex in H. discriminate H. }
        eexists. exists g. reflexivity.
      * assert (Hw : well_formed x = true) by (unfold well_formed; rewrite Ex; reflexivity).
        destruct IH as [[H ->]|[H (out & g & ->)]]; cbn [fst snd].
        { left. split; [intros j y [<-|Hj] Hy; [congruence|apply (H j y Hj Hy)]|].
          cbn [flat_map]. rewrite El, <- map_app, <- app_assoc. reflexivity. }
        { right. split; [intros H'; apply H; intros j y Hj; apply H'; right; exact Hj|].
          rewrite <- map_app. eexists. exists g. reflexivity. }
    + destruct IH as [[H ->]|[H (out & g & ->)]]; cbn [fst snd].
      * left. split; [intros j y [<-|Hj] Hy; [congruence|apply (H j y Hj Hy)]|].
        cbn [flat_map]. rewrite El. reflexivity.
      * right. split; [intros H'; apply H; intros j y Hj; apply H'; right; exact Hj|].
        exists (insn_text pr (register_text pr t) i :: out), g. reflexivity.
Qed.

Definition entry_print (p : printers_dd) (md : mode) (m : elf_arch) (e : dd_entry) : loud gimli_error unit :=
  match e with DdCie c => cie_print p m c | DdPartial o n ci f => fde_print p md m o n ci f end.

Lemma dd_insns_run p m initial is :
  (insns_fine is /\ dd_dump_insns p m initial is =
     (map Out ((if initial then [] else ["  Instructions:"]) ++
               insns_lines (pd p) (dd_table m) is (if initial then ["  Instructions: Init State:"] else []))%list, Ok tt)) \/
  (~ insns_fine is /\ exists out g, dd_dump_insns p m initial is = (map Out out, Err g)).
Proof.
  pose proof (dump_insns_run (pd p) (dd_table m) (is_end is) (if initial then ["  Instructions: Init State:"] else []) (is_list is)) as H.
  unfold dd_dump_insns, insns_lines, insns_fine. change (dd_register p m) with (register_text (pd p) (dd_table m)).
  replace (if initial then [Out "  Instructions: Init State:"] else []) with
    (map Out (if initial then ["  Instructions: Init State:"] else [])) by (destruct initial; reflexivity).
  destruct initial; rewrite lbind_say; cbn [app].
  - destruct H as [[H ->]|[H (out & g & ->)]]; [left|right]; cbn [fst snd]; (split; [exact H|]); [reflexivity|]. exists out, g. reflexivity.
  - destruct H as [[H ->]|[H (out & g & ->)]]; [left|right]; cbn [fst snd]; (split; [exact H|]); [reflexivity|].
    exists ("  Instructions:" :: out), g. reflexivity.
Qed.

Lemma fde_tail p m (A : list event) is : forall (first : list string), A = map Out first ->
  (insns_fine is /\ lbind (say A) (fun _ => let! _ := dd_dump_insns p m false is in say [Out ""]) =
     (map Out (first ++ "  Instructions:" :: insns_lines (pd p) (dd_table m) is [] ++ [""])%list, Ok tt)) \/
  (~ insns_fine is /\ exists out g, lbind (say A) (fun _ => let! _ := dd_dump_insns p m false is in say [Out ""]) = (map Out out, Err g)).
Proof.
  intros first ->. rewrite lbind_say. destruct (dd_insns_run p m false is) as [[H ->]|[H (out & g & ->)]].
  - left. split; [exact H|]. unfold lbind. cbn [fst snd say app]. rewrite (map_app Out first). cbn [map app]. rewrite map_app. reflexivity.
  - right. split; [exact H|]. exists (first ++ out)%list, g. unfold lbind. cbn [fst snd]. rewrite map_app. reflexivity.
Qed.

Lemma entry_run p md m e : dd_typed e ->
  (decodable e /\ ~ past_end md e /\ entry_print p md m e = (map Out (entry_lines p (dd_table m) (pe_text p) e), Ok tt)) \/
  (past_end md e /\ exists out, entry_print p md m e = (map Out out, Panic)) \/
  (~ past_end md e /\ ~ decodable e /\ exists out g, entry_print p md m e = (map Out out, Err g)).
Proof.
  intros Ht. destruct e as [c|o n ci [f|g]]; cbn [entry_print entry_lines decodable past_end].
  - unfold cie_print. rewrite lbind_say. destruct (dd_insns_run p m true (ci_insns c)) as [[H ->]|[H (out & g & ->)]].
    + left. split; [exact H|]. split; [tauto|]. unfold lbind at 1. cbn [fst snd say].
      f_equal. unfold cie_lines. cbn [map app]. do 7 f_equal. rewrite !map_app.
      destruct (ci_lsda c), (ci_personality c) as [[? ?]|], (ci_fde c); cbn [map app]; rewrite <- ?app_assoc; reflexivity.
    + right. right. split; [tauto|]. split; [exact H|]. unfold lbind. cbn [fst snd].
      match goal with |- exists out' g', ((?a ++ _)%list, _) = _ => assert (Ha : exists l, a = map Out l) end.
      { exists (firstn 7 (cie_lines p (dd_table m) (pe_text p) c) ++
          match ci_lsda c with Some e => [(" lsda_encoding: " ++ pe_text p e)%string] | None => [] end ++
          match ci_personality c with Some (e, q) => [("   personality: " ++ pe_text p e ++ " " ++ pointer_text q)%string] | None => [] end ++
          match ci_fde c with Some e => [("  fde_encoding: " ++ pe_text p e)%string] | None => [] end)%list.
        cbn [firstn cie_lines map app]. do 7 f_equal.
        destruct (ci_lsda c), (ci_personality c) as [[? ?]|], (ci_fde c); reflexivity. }
      destruct Ha as [l ->]. exists (l ++ out)%list, g. rewrite map_app. reflexivity.
  - destruct Ht as (_ & _ & _ & Ha & Hl & _). unfold in_u64 in Ha, Hl.
    unfold fde_print. rewrite !lbind_say. cbn [fst snd].
    assert (E1 : overflow_checks md = false \/ dd_start f + dd_len f < 2 ^ 64 ->
                 @add_u64 gimli_error md (dd_start f) (dd_len f) = Ok ((dd_start f + dd_len f) mod 2 ^ 64)).
    { intros Hc. unfold add_u64. destruct (Z.ltb_spec (dd_start f + dd_len f) (2 ^ 64)) as [Hlt|Hge].
      - rewrite Z.mod_small by lia. reflexivity.
      - destruct Hc as [->|Hc]; [reflexivity|lia]. }
    assert (Hcase : (2 ^ 64 <= dd_start f + dd_len f /\ overflow_checks md = true) \/
                    (overflow_checks md = false \/ dd_start f + dd_len f < 2 ^ 64))
      by (destruct (overflow_checks md); [destruct (Z.lt_ge_cases (dd_start f + dd_len f) (2 ^ 64))|]; tauto).
    destruct Hcase as [[Hge Hck]|Hc].
    + right. left. split; [split; assumption|].
      assert (E2 : @add_u64 gimli_error md (dd_start f) (dd_len f) = Panic).
      { unfold add_u64. rewrite (proj2 (Z.ltb_ge _ _) Hge), Hck. reflexivity. }
      rewrite E2. eexists (_ :: _ :: _ :: _ :: _ :: []). reflexivity.
    + assert (Hn : ~ (2 ^ 64 <= dd_start f + dd_len f /\ overflow_checks md = true))
        by (intros [H1 H2]; destruct Hc; [congruence|lia]).
      rewrite (E1 Hc), lbind_quiet_ok.
      match goal with |- context [say (?x :: ?y)] => destruct (fde_tail p m (x :: y) (dd_insns f)
        (("    range_size: " ++ fmt_hex_alt_pad 64 18 (dd_len f) ++
        " (end_addr = " ++ fmt_hex_alt_pad 64 18 ((dd_start f + dd_len f) mod 2 ^ 64) ++ ")") ::
         match dd_lsda f with Some q => ["          lsda: " ++ pointer_text q] | None => [] end)) as [[H Hr]|[H (out & g & Hr)]] end.
      { destruct (dd_lsda f); reflexivity. }
      { left. split; [exact H|]. split; [exact Hn|]. rewrite Hr. reflexivity. }
      { right. right. split; [exact Hn|]. split; [exact H|]. rewrite Hr.
        eexists (_ :: _ :: _ :: _ :: _ :: out), g. reflexivity. }
  - left. split; [exact I|]. split; [tauto|]. unfold fde_print. rewrite lbind_say. reflexivity.
Qed.

(** How the loop ends, and what it has printed. *)
Lemma entries_run p md m en : forall l, Forall dd_typed l ->
  exists pre post rest, l = (pre ++ post)%list /\ Forall (printable md) pre /\
    fst (dd_entries_print p md m l en) = map Out (flat_map (entry_lines p (dd_table m) (pe_text p)) pre ++ rest)%list /\
    ((post = [] /\ rest = [] /\
      snd (dd_entries_print p md m l en) = match en with Some g => Err g | None => Ok tt end) \/
     (exists e post', post = e :: post' /\
      ((past_end md e /\ snd (dd_entries_print p md m l en) = Panic) \/
       (~ past_end md e /\ ~ decodable e /\ exists g, snd (dd_entries_print p md m l en) = Err g)))).
Proof.
  induction l as [|e l IH]; intros Ht.
  - exists [], [], []. split; [reflexivity|]. split; [constructor|]. split; [destruct en; reflexivity|].
    left. split; [reflexivity|]. split; [reflexivity|]. destruct en; reflexivity.
  - assert (Es : dd_entries_print p md m (e :: l) en = lbind (entry_print p md m e) (fun _ => dd_entries_print p md m l en))
      by (destruct e; reflexivity).
    rewrite Es. destruct (entry_run p md m e (Forall_inv Ht)) as [(Hd & Hp & ->)|[(Hp & out & ->)|(Hp & Hd & out & g & ->)]].
    + destruct (IH (Forall_inv_tail Ht)) as (pre & post & rest & El & Hpre & Hf & Hs).
      rewrite lbind_ok. cbn [fst snd]. exists (e :: pre), post, rest.
      split; [rewrite El; reflexivity|]. split; [constructor; [split; assumption|exact Hpre]|].
      split; [|exact Hs]. rewrite Hf. cbn [flat_map]. rewrite <- app_assoc, (map_app Out (entry_lines p (dd_table m) (pe_text p) e)). reflexivity.
    + exists [], (e :: l), out. split; [reflexivity|]. split; [constructor|]. split; [reflexivity|].
      right. exists e, l. split; [reflexivity|]. left. split; [exact Hp|reflexivity].
    + exists [], (e :: l), out. split; [reflexivity|]. split; [constructor|]. split; [reflexivity|].
      right. exists e, l. split; [reflexivity|]. right. split; [exact Hp|]. split; [exact Hd|]. exists g. reflexivity.
Qed.

(** ** Reading it back *)

Lemma hex_read p w n z : 0 <= w -> 0 <= z < 2 ^ w -> read_hex (p ++ "0x") (p ++ fmt_hex_alt_pad w n z) = Some z.
Proof.
  intros Hw Hz. unfold read_hex, fmt_hex_alt_pad. rewrite <- app_assoc_s, after_app.
  rewrite number_zero_pad by apply hex_nonempty. rewrite number_hex by lia. unfold as_u. rewrite Z.mod_small by lia. reflexivity.
Qed.
Lemma dec_read p z : read_dec p (p ++ fmt_dec z) = Some z.
Proof. unfold read_dec. rewrite after_app. apply integer_dec. Qed.
Lemma pointer_read q : pointer_typed q -> read_pointer (pointer_text q) = Some q.
Proof.
  destruct q as [a|a]; cbn [pointer_typed pointer_text]; unfold in_u64, read_pointer; intros Ha.
  - replace (after "(0x" (fmt_hex_alt_pad 64 18 a)) with (@None string) by reflexivity.
    pose proof (hex_read "" 64 18 a) as H. cbn [append] in H. rewrite H by lia. reflexivity.
  - unfold fmt_hex_alt_pad. rewrite !app_assoc_s. change ("(" ++ "0x" ++ ?x) with ("(0x" ++ x). rewrite after_app, drop_end_app.
    rewrite number_zero_pad by apply hex_nonempty. rewrite number_hex by lia. unfold as_u. rewrite Z.mod_small by lia. reflexivity.
Qed.
Lemma pointer_no_space q : pointer_typed q -> without " " (pointer_text q).
Proof.
  assert (H : forall a, in_u64 a -> without " " (fmt_hex_alt_pad 64 18 a)).
  { unfold in_u64. intros a Ha. unfold fmt_hex_alt_pad. apply without_app; [no_char|]. apply digit_without; [reflexivity|]. apply hex_pad_digits; lia. }
  destruct q as [a|a]; cbn [pointer_text pointer_typed]; intros Ha; [apply H, Ha|]. apply without_app; [no_char|]. apply without_app; [apply H, Ha|no_char].
Qed.
Lemma encoding_read p e : pe_plain p ->
  read_encoding (pe_text p e) = Some (pr_pe p (Z.land e 0x70), pr_pe p (Z.land e 0x0f)).
Proof. intros Hp. unfold read_encoding, pe_text. apply (upto_app "/"), Hp. Qed.
(** What is read of the text of an encoding. *)
Definition pe_read (pt : Z -> string) (pv : Z -> string * string) : Prop := forall e, read_encoding (pt e) = Some (pv e).
Lemma personality_read pt pv e q : pe_read pt pv -> pointer_typed q ->
  read_personality (pt e ++ " " ++ pointer_text q) = Some (pv e, q).
Proof.
  intros Hp Hq. unfold read_personality. change (" " ++ ?x) with (String " " x).
  rewrite upto_last_app by (apply pointer_no_space, Hq). rewrite (Hp e), (pointer_read q Hq). reflexivity.
Qed.

Definition pe_view (p : printers_dd) (e : Z) : string * string := (pr_pe p (Z.land e 0x70), pr_pe p (Z.land e 0x0f)).
Lemma pe_view_read p : pe_plain p -> pe_read (pe_text p) (pe_view p).
Proof. intros Hp e. apply (encoding_read p e Hp). Qed.
Definition view_cie (p : printers_dd) (t : option reg_table) (pv : Z -> string * string) (c : cie) : cie_view :=
  CieView (ci_offset c) (ci_length c) (ci_version c) (ci_code_align c) (ci_data_align c) (register_text (pd p) t (ci_ra c))
    (option_map (pv) (ci_lsda c)) (option_map (fun e => (pv (fst e), snd e)) (ci_personality c))
    (option_map (pv) (ci_fde c)) (map (view_insn (pd p) t true) (is_list (ci_insns c)))
    (option_map (pr_gimli (pd p)) (is_end (ci_insns c))).
Definition view_ddf (p : printers_dd) (t : option reg_table) (f : dd_fde) : ddf_view :=
  DdfView (dd_start f) (dd_len f) ((dd_start f + dd_len f) mod 2 ^ 64) (dd_lsda f)
    (map (view_insn (pd p) t true) (is_list (dd_insns f))) (option_map (pr_gimli (pd p)) (is_end (dd_insns f))).
Definition view_entry (p : printers_dd) (t : option reg_table) (pv : Z -> string * string) (e : dd_entry) : dd_view :=
  match e with
  | DdCie c => ViewCie (view_cie p t pv c)
  | DdPartial o n ci (inl f) => ViewFde o n ci (inl (view_ddf p t f))
  | DdPartial o n ci (inr g) => ViewFde o n ci (inr (pr_gimli (pd p) g))
  end.

Lemma initial_read pr t is : plain_texts pr t ->
  read_initial (insns_lines pr t is ["  Instructions: Init State:"]) =
  Some (map (view_insn pr t true) (is_list is), option_map (pr_gimli pr) (is_end is)).
Proof.
  intros Hp. unfold insns_lines. pose proof (read_insns_lines pr t true (is_end is) Hp (is_list is)) as H.
  unfold read_initial. destruct (is_end is) as [g|]; cbn [finish_lines broken_lines option_map] in *; rewrite rev_app_distr; cbn [rev app].
  - replace (String.eqb ("Failed to decode CFI instruction: " ++ pr_gimli pr g) "  Instructions: Init State:") with false by reflexivity.
    rewrite H. reflexivity.
  - rewrite String.eqb_refl, rev_involutive. rewrite app_nil_r in H. rewrite H. reflexivity.
Qed.
Lemma insns_lines_nonempty pr t is fin : plain_texts pr t -> Forall (fun s => s <> "") fin ->
  Forall (fun s => s <> "") (insns_lines pr t is fin).
Proof.
  intros Hp Hf. unfold insns_lines. pose proof (insns_nonempty pr t true None Hp (is_list is)) as H. apply Forall_app in H.
  apply Forall_app. split; [apply H|]. destruct (is_end is); [constructor; [discriminate|constructor]|exact Hf].
Qed.

Lemma optional_here p s l : optional p ((p ++ s) :: l) = (Some s, l).
Proof. unfold optional. rewrite after_app. reflexivity. Qed.
Lemma optional_insns p pr t is x rest :
  (forall s, after p ("                " ++ s) = None) -> (forall s, after p ("Failed to decode CFI instruction: " ++ s) = None) ->
  after p x = None ->
  optional p (insns_lines pr t is [x] ++ rest) = (None, (insns_lines pr t is [x] ++ rest)%list).
Proof.
  intros H1 H2 H3. unfold insns_lines. destruct (is_list is) as [|i l]; cbn [flat_map app].
  - destruct (is_end is); cbn [finish_lines app optional]; [rewrite H2|rewrite H3]; reflexivity.
  - unfold insn_lines at 1 3. cbn [app optional]. rewrite insn_text_bare, H1. reflexivity.
Qed.
Lemma optional_other p x l : after p x = None -> optional p (x :: l) = (None, x :: l).
Proof. intros H. unfold optional. rewrite H. reflexivity. Qed.

Lemma cie_read p t pt pv c rest : plain_texts (pd p) t -> pe_read pt pv -> cie_typed c ->
  read_entry (cie_lines p t pt c ++ rest) = Some (ViewCie (view_cie p t pv c), rest).
Proof.
  intros Hp He (Ho & Hn & Hv & Hr & Hl & Hq & Hf & Hi). unfold in_u64, byte_typed in *.
  unfold cie_lines. cbn [app read_entry].
  assert (E1 : enclosed "0x" ":" (fmt_hex_alt_pad 64 10 (ci_offset c) ++ ": CIE") = Some (ci_offset c, " CIE")).
  { unfold fmt_hex_alt_pad. rewrite app_assoc_s. change (?x ++ ": CIE") with (x ++ String ":" " CIE"). apply (enclosed_hex "0x" ":"); [reflexivity|lia]. }
  assert (E2 : read_hex "        length: 0x" ("        length: " ++ fmt_hex_alt_pad 64 10 (ci_length c)) = Some (ci_length c))
    by (apply (hex_read "        length: "); lia).
  rewrite E1, E2. replace (String.eqb " CIE" " CIE") with true by reflexivity. unfold read_cie.
  assert (E3 : read_hex "       version: 0x" ("       version: " ++ fmt_hex_alt_pad 8 4 (ci_version c)) = Some (ci_version c))
    by (apply (hex_read "       version: "); lia).
  rewrite E3, !dec_read, after_app.
  set (L3 := (insns_lines (pd p) t (ci_insns c) ["  Instructions: Init State:"] ++ "" :: rest)%list).
  set (L2 := (match ci_fde c with Some e => [("  fde_encoding: " ++ pt e)%string] | None => [] end ++ L3)%list).
  set (L1 := (match ci_personality c with Some (e, q) => [("   personality: " ++ pt e ++ " " ++ pointer_text q)%string] | None => [] end ++ L2)%list).
  match goal with |- context [optional " lsda_encoding: " ?l] =>
    replace l with (match ci_lsda c with Some e => [(" lsda_encoding: " ++ pt e)%string] | None => [] end ++ L1)%list
      by (unfold L1, L2, L3; rewrite <- !app_assoc; reflexivity) end.
  assert (O3 : forall q, In q [" lsda_encoding: "; "   personality: "; "  fde_encoding: "] -> optional q L3 = (None, L3)).
  { intros q Hq'. unfold L3. repeat destruct Hq' as [<-|Hq']; try (apply optional_insns; reflexivity). destruct Hq'. }
  assert (O2 : forall q, In q [" lsda_encoding: "; "   personality: "] -> optional q L2 = (None, L2)).
  { intros q Hq'. unfold L2. destruct (ci_fde c); cbn [app]; [|apply O3; cbn in *; tauto].
    repeat destruct Hq' as [<-|Hq']; try (apply optional_other; reflexivity). destruct Hq'. }
  assert (O1 : optional " lsda_encoding: " L1 = (None, L1)).
  { unfold L1. destruct (ci_personality c) as [[e q]|]; cbn [app]; [apply optional_other; reflexivity|]. apply O2. left. reflexivity. }
  assert (S1 : optional " lsda_encoding: " (match ci_lsda c with Some e => [(" lsda_encoding: " ++ pt e)%string] | None => [] end ++ L1)%list =
               (option_map pt (ci_lsda c), L1)).
  { destruct (ci_lsda c) as [e|]; cbn [app option_map]; [apply optional_here|exact O1]. }
  assert (S2 : optional "   personality: " L1 =
               (option_map (fun e => pt (fst e) ++ " " ++ pointer_text (snd e)) (ci_personality c), L2)).
  { unfold L1. destruct (ci_personality c) as [[e q]|]; cbn [app option_map fst snd]; [apply optional_here|]. apply O2. right. left. reflexivity. }
  assert (S3 : optional "  fde_encoding: " L2 = (option_map pt (ci_fde c), L3)).
  { unfold L2. destruct (ci_fde c); cbn [app option_map]; [apply optional_here|]. apply O3. right. right. left. reflexivity. }
  rewrite S1, S2, S3.
  assert (W1 : forall o, when read_encoding (option_map pt o) = Some (option_map (pv) o)).
  { intros [e|]; cbn [option_map when]; [|reflexivity]. rewrite (He e). reflexivity. }
  assert (W2 : when read_personality (option_map (fun e => pt (fst e) ++ " " ++ pointer_text (snd e)) (ci_personality c)) =
               Some (option_map (fun e => (pv (fst e), snd e)) (ci_personality c))).
  { destruct (ci_personality c) as [[e q]|]; cbn [option_map when fst snd]; [|reflexivity].
    rewrite (personality_read pt pv e q He (proj2 Hq)). reflexivity. }
  rewrite !W1, W2. unfold L3. rewrite paragraph_app by (apply insns_lines_nonempty; [exact Hp|constructor; [discriminate|constructor]]).
  rewrite (initial_read _ _ _ Hp). reflexivity.
Qed.

Lemma fde_read p t pv o n ci f rest : plain_texts (pd p) t -> dd_typed (DdPartial o n ci f) ->
  read_entry (fde_lines p t o n ci f ++ rest) = Some (view_entry p t pv (DdPartial o n ci f), rest).
Proof.
  intros Hp (Ho & Hn & Hc & Hf). unfold in_u64 in *.
  unfold fde_lines. cbn [app read_entry].
  assert (E1 : enclosed "0x" ":" (fmt_hex_alt_pad 64 10 o ++ ": FDE") = Some (o, " FDE")).
  { unfold fmt_hex_alt_pad. rewrite app_assoc_s. change (?x ++ ": FDE") with (x ++ String ":" " FDE"). apply (enclosed_hex "0x" ":"); [reflexivity|lia]. }
  assert (E2 : read_hex "        length: 0x" ("        length: " ++ fmt_hex_alt_pad 64 10 n) = Some n)
    by (apply (hex_read "        length: "); lia).
  rewrite E1, E2. replace (String.eqb " FDE" " CIE") with false by reflexivity. replace (String.eqb " FDE" " FDE") with true by reflexivity.
  unfold read_fde.
  assert (E3 : read_hex "   CIE_pointer: 0x" ("   CIE_pointer: " ++ fmt_hex_alt_pad 64 10 ci) = Some ci)
    by (apply (hex_read "   CIE_pointer: "); lia).
  destruct f as [f|g].
  2:{ cbn [app]. rewrite E3, after_app. reflexivity. }
  destruct Hf as (Ha & Hl & Hq & Hi). unfold in_u64 in *.
  cbn [app]. rewrite E3.
  replace (after "Failed to parse FDE: " ("    start_addr: " ++ fmt_hex_alt_pad 64 18 (dd_start f))) with (@None string) by reflexivity.
  assert (E4 : read_hex "    start_addr: 0x" ("    start_addr: " ++ fmt_hex_alt_pad 64 18 (dd_start f)) = Some (dd_start f))
    by (apply (hex_read "    start_addr: "); lia).
  set (e := (dd_start f + dd_len f) mod 2 ^ 64).
  assert (Hm : 0 <= e < 2 ^ 64) by (apply Z.mod_pos_bound; lia).
  assert (E5 : enclosed "    range_size: 0x" " " ("    range_size: " ++ fmt_hex_alt_pad 64 18 (dd_len f) ++ " (end_addr = " ++ fmt_hex_alt_pad 64 18 e ++ ")")
               = Some (dd_len f, "(end_addr = " ++ fmt_hex_alt_pad 64 18 e ++ ")")).
  { unfold fmt_hex_alt_pad at 1. rewrite app_assoc_s. apply (enclosed_hex "    range_size: 0x" " "); [reflexivity|lia]. }
  assert (E6 : enclosed "(end_addr = 0x" ")" ("(end_addr = " ++ fmt_hex_alt_pad 64 18 e ++ ")") = Some (e, "")).
  { unfold fmt_hex_alt_pad. rewrite app_assoc_s. apply (enclosed_hex "(end_addr = 0x" ")"); [reflexivity|lia]. }
  rewrite E4, E5.
  set (L := ("  Instructions:" :: insns_lines (pd p) t (dd_insns f) [] ++ "" :: rest)%list).
  match goal with |- context [optional "          lsda: " ?l] =>
    replace l with (match dd_lsda f with Some q => [("          lsda: " ++ pointer_text q)%string] | None => [] end ++ L)%list
      by (unfold L; rewrite <- !app_assoc; cbn [app]; rewrite <- !app_assoc; reflexivity) end.
  assert (S1 : optional "          lsda: " (match dd_lsda f with Some q => [("          lsda: " ++ pointer_text q)%string] | None => [] end ++ L)%list =
               (option_map pointer_text (dd_lsda f), L)).
  { destruct (dd_lsda f); cbn [app option_map]; [apply optional_here|apply optional_other; reflexivity]. }
  rewrite S1, E6.
  assert (W : when read_pointer (option_map pointer_text (dd_lsda f)) = Some (dd_lsda f)).
  { destruct (dd_lsda f) as [q|]; cbn [option_map when]; [|reflexivity]. rewrite (pointer_read q Hq). reflexivity. }
  rewrite W. unfold L. rewrite String.eqb_refl.
  rewrite paragraph_app by (apply insns_lines_nonempty; [exact Hp|constructor]).
  unfold insns_lines. change (finish_lines (pd p) (is_end (dd_insns f)) []) with (broken_lines (pd p) (is_end (dd_insns f))).
  rewrite (read_insns_lines (pd p) t true _ Hp). reflexivity.
Qed.

Lemma entry_read p t pt pv e rest : plain_texts (pd p) t -> pe_read pt pv -> dd_typed e ->
  read_entry (entry_lines p t pt e ++ rest) = Some (view_entry p t pv e, rest).
Proof.
  intros Hp He Ht. destruct e as [c|o n ci f]; cbn [entry_lines].
  - apply (cie_read p t pt pv c rest Hp He Ht).
  - apply (fde_read p t pv o n ci f rest Hp Ht).
Qed.
Lemma entries_read p t pt pv : plain_texts (pd p) t -> pe_read pt pv -> forall l n, Forall dd_typed l ->
  (Datatypes.length (flat_map (entry_lines p t pt) l) <= n)%nat ->
  read_entries n (flat_map (entry_lines p t pt) l) = Some (map (view_entry p t pv) l).
Proof.
  intros Hp He. induction l as [|e l IH]; intros n Ht Hn; [destruct n; reflexivity|].
  cbn [flat_map map] in *. rewrite app_length in Hn.
  assert (Hk : exists x y, entry_lines p t pt e = x :: y) by (destruct e; cbn; eexists; eexists; reflexivity).
  destruct n as [|n]; [destruct Hk as (x & y & Hk); rewrite Hk in Hn; cbn in Hn; lia|].
  assert (Es : forall l', l' <> [] -> read_entries (S n) l' =
    match read_entry l' with Some (v, rest) => option_map (cons v) (read_entries n rest) | None => None end)
    by (intros [|x y] H; [destruct (H eq_refl)|reflexivity]).
  rewrite Es by (destruct Hk as (x & y & ->); discriminate).
  rewrite (entry_read p t pt pv e _ Hp He (Forall_inv Ht)). rewrite (IH n (Forall_inv_tail Ht)); [reflexivity|].
  destruct Hk as (x & y & Hk). rewrite Hk in Hn. cbn [Datatypes.length] in Hn. lia.
Qed.

(** ** What the views say *)

Lemma land_application e : Z.land e 0x70 = 16 * (e / 16 mod 8).
Proof.
  change 0x70 with (Z.shiftl (Z.ones 3) 4). change (e / 16 mod 8) with ((e / 16) mod 2 ^ 3). rewrite <- (Z.land_ones (e / 16) 3) by lia.
  change (e / 16) with (e / 2 ^ 4). rewrite <- Z.shiftr_div_pow2 by lia.
  replace (16 * Z.land (Z.shiftr e 4) (Z.ones 3)) with (Z.shiftl (Z.land (Z.shiftr e 4) (Z.ones 3)) 4)
    by (rewrite Z.shiftl_mul_pow2 by lia; lia).
  apply Z.bits_inj'. intros n Hn. rewrite Z.land_spec, !Z.shiftl_spec by lia.
  destruct (Z.lt_ge_cases n 4) as [H|H].
  - rewrite !(Z.testbit_neg_r _ (n - 4)) by lia. apply andb_false_r.
  - rewrite Z.land_spec, Z.shiftr_spec by lia. replace (n - 4 + 4) with n by lia. reflexivity.
Qed.
Lemma land_format e : Z.land e 0x0f = e mod 16.
Proof. change 0x0f with (Z.ones 4). rewrite Z.land_ones by lia. reflexivity. Qed.
Lemma pe_view_shown p e : encoding_shown p e (pe_view p e).
Proof. unfold encoding_shown, pe_view. cbn [fst snd]. rewrite land_application, land_format. split; reflexivity. Qed.

Lemma insns_view_shown pr t is : plain_texts pr t -> Forall insn_typed (is_list is) ->
  insns_shown pr t is (map (view_insn pr t true) (is_list is)) (option_map (pr_gimli pr) (is_end is)).
Proof.
  intros Hp Hi. split; [|reflexivity]. apply forall2_map. intros i Hin. rewrite Forall_forall in Hi.
  apply insn_view_spelled; [exact Hp|apply Hi, Hin].
Qed.
Lemma entry_view_shown_by (enc : Z -> string * string -> Prop) p t pv e : (forall e, byte_typed e -> enc e (pv e)) -> plain_texts (pd p) t -> dd_typed e ->
  entry_shown_by enc p t e (view_entry p t pv e).
Proof.
  intros Henc Hp Ht. destruct e as [c|o n ci [f|g]]; cbn [view_entry entry_shown_by].
  - destruct Ht as (_ & _ & _ & Hr & Hl & Hq & Hf & Hi). unfold cie_shown_by, view_cie. cbn.
    do 5 (split; [reflexivity|]). split; [apply (register_shown_text (pd p) t); lia|].
    split; [destruct (ci_lsda c); [apply Henc, Hl|exact I]|].
    split; [destruct (ci_personality c) as [[a b]|]; [split; [apply Henc, Hq|reflexivity]|exact I]|].
    split; [destruct (ci_fde c); [apply Henc, Hf|exact I]|]. apply insns_view_shown; assumption.
  - destruct Ht as (_ & _ & _ & _ & _ & _ & Hi). do 3 (split; [reflexivity|]). unfold dd_fde_shown, view_ddf. cbn.
    do 4 (split; [reflexivity|]). apply insns_view_shown; assumption.
  - do 3 (split; [reflexivity|]). reflexivity.
Qed.
Lemma entry_view_shown p t e : plain_texts (pd p) t -> dd_typed e -> entry_shown p t e (view_entry p t (pe_view p) e).
Proof. apply entry_view_shown_by. intros x _. apply pe_view_shown. Qed.

(** ** The program *)

Definition dd_message (p : printers_dd) (path : string) (g : gimli_error) : string :=
  "Failed to dump '" ++ path ++ "': GimliError(" ++ pr_gimli_debug p g ++ ")".

(** What the program does is what the loop does. *)
Lemma main_run p md path file :
  match dd_entries_of md file with
  | None => dwarfdump_main p md (Some (path, Some file)) = ([], Panic)
  | Some ents =>
      let r := dd_entries_print p md (dd_arch file) (dde_list ents) (dde_end ents) in
      dwarfdump_main p md (Some (path, Some file)) =
      match snd r with
      | Ok _ => (Out dd_title :: fst r, Ok tt)
      | Err g => ((Out dd_title :: fst r ++ [ErrOut (dd_message p path g)])%list, Ok tt)
      | Panic => (Out dd_title :: fst r, Panic)
      end
  end.
Proof.
  unfold dd_entries_of, dwarfdump_main, dump_file, dd_arch, dd_message.
  destruct (section_by_name ".eh_frame" (elf_sections (dd_elf file))); [|reflexivity].
  destruct (dd_parse file) as [parse|]; [|reflexivity]. cbv zeta. rewrite lbind_say. cbn [fst snd app].
  destruct (snd (dd_entries_print _ _ _ _ _)); reflexivity.
Qed.

Lemma stdout_cons s l : stdout_of (Out s :: l) = s :: stdout_of l.
Proof. reflexivity. Qed.
Lemma stderr_cons s l : stderr_of (Out s :: l) = stderr_of l.
Proof. reflexivity. Qed.

(** Everything at once: what is printed and how the program ends. *)
Lemma main_printed p md path file ents ev o : dd_entries_of md file = Some ents -> Forall dd_typed (dde_list ents) ->
  dwarfdump_main p md (Some (path, Some file)) = (ev, o) ->
  exists pre post rest, dde_list ents = (pre ++ post)%list /\ Forall (printable md) pre /\
    stdout_of ev = (dd_title :: flat_map (entry_lines p (dd_table (dd_arch file)) (pe_text p)) pre ++ rest)%list /\
    ((post = [] /\ rest = [] /\ o = Ok tt /\
      stderr_of ev = match dde_end ents with Some g => [dd_message p path g] | None => [] end) \/
     (exists e post', post = e :: post' /\
      ((past_end md e /\ o = Panic /\ stderr_of ev = []) \/
       (~ past_end md e /\ ~ decodable e /\ o = Ok tt /\ exists g, stderr_of ev = [dd_message p path g])))).
Proof.
  intros He Ht H. pose proof (main_run p md path file) as Hm. rewrite He in Hm. cbv zeta in Hm. rewrite Hm in H. clear Hm.
  destruct (entries_run p md (dd_arch file) (dde_end ents) (dde_list ents) Ht) as (pre & post & rest & El & Hpre & Hf & Hs).
  exists pre, post, rest. split; [exact El|]. split; [exact Hpre|]. rewrite Hf in H.
  destruct Hs as [(Hpost & Hrest & Hs)|(e & post' & Hpost & [[Hp Hs]|(Hp & Hd & g & Hs)])]; rewrite Hs in H.
  - destruct (dde_end ents) as [g|]; injection H as <- <-; rewrite stdout_cons, stderr_cons, ?stdout_app, ?stderr_app, stdout_map_out, stderr_map_out; cbn; rewrite ?app_nil_r;
      (split; [reflexivity|]); left; repeat (split; [assumption || reflexivity|]); reflexivity.
  - injection H as <- <-. rewrite stdout_cons, stderr_cons, stdout_map_out, stderr_map_out. split; [reflexivity|].
    right. exists e, post'. split; [exact Hpost|]. left. repeat (split; [assumption || reflexivity|]). reflexivity.
  - injection H as <- <-. rewrite stdout_cons, stderr_cons, stdout_app, stderr_app, stdout_map_out, stderr_map_out. cbn. rewrite app_nil_r. split; [reflexivity|].
    right. exists e, post'. split; [exact Hpost|]. right. repeat (split; [assumption || reflexivity|]). exists g. reflexivity.
Qed.

(** *** What is shown (C88) *)

Theorem dd_dump_shown p md path file ents ev o :
  plain_texts (pd p) (dd_table (dd_arch file)) -> pe_plain p ->
  dd_entries_of md file = Some ents -> Forall dd_typed (dde_list ents) ->
  dwarfdump_main p md (Some (path, Some file)) = (ev, o) ->
  exists pre post whole rest views, dde_list ents = (pre ++ post)%list /\ stdout_of ev = (dd_title :: whole ++ rest)%list /\
    read_dwarfdump whole = Some views /\ Forall2 (entry_shown p (dd_table (dd_arch file))) pre views /\
    (post = [] /\ rest = [] \/ exists e post', post = e :: post' /\ ~ printable md e) /\
    (o = Ok tt -> stderr_of ev = [] -> post = [] /\ rest = []).
Proof.
  intros Hp Hpe He Ht H.
  destruct (main_printed p md path file ents ev o He Ht H) as (pre & post & rest & El & _ & Hs & Hr).
  rewrite El in Ht. apply Forall_app in Ht. destruct Ht as [Ht _].
  exists pre, post, (flat_map (entry_lines p (dd_table (dd_arch file)) (pe_text p)) pre), rest, (map (view_entry p (dd_table (dd_arch file)) (pe_view p)) pre).
  split; [exact El|]. split; [exact Hs|]. split; [apply (entries_read _ _ _ (pe_view p)); [assumption|apply pe_view_read; assumption|assumption|lia]|].
  split; [apply forall2_map; intros e Hin; apply entry_view_shown; [exact Hp|]; rewrite Forall_forall in Ht; apply Ht, Hin|].
  split.
  { destruct Hr as [(-> & -> & _)|(e & post' & -> & Hx)]; [left; split; reflexivity|right]. exists e, post'. split; [reflexivity|].
    intros [H1 H2]. destruct Hx as [(Hx & _)|(_ & Hx & _)]; contradiction. }
  intros Ho Hn. destruct Hr as [(-> & -> & _)|(e & post' & -> & [(_ & Hx & _)|(_ & _ & _ & g & Hx)])];
    [split; reflexivity|congruence|congruence].
Qed.

(** *** How the program ends (C89, C90, C92) *)

Theorem dd_complete_iff p md path file ents ev o : dd_entries_of md file = Some ents -> Forall dd_typed (dde_list ents) ->
  dwarfdump_main p md (Some (path, Some file)) = (ev, o) ->
  (o = Ok tt /\ stderr_of ev = [] <-> Forall (printable md) (dde_list ents) /\ dde_end ents = None).
Proof.
  intros He Ht H. destruct (main_printed p md path file ents ev o He Ht H) as (pre & post & rest & El & Hpre & _ & Hr).
  split.
  - intros [Ho Hn]. destruct Hr as [(-> & _ & _ & Hx)|(e & post' & -> & [(_ & Hx & _)|(_ & _ & _ & g & Hx)])]; [|congruence|congruence].
    rewrite app_nil_r in El. rewrite El. split; [exact Hpre|]. destruct (dde_end ents); [congruence|reflexivity].
  - intros [Ha Hn]. rewrite El in Ha. apply Forall_app in Ha. destruct Ha as [_ Ha].
    destruct Hr as [(-> & _ & Ho & Hx)|(e & post' & -> & Hx)].
    + rewrite Hn in Hx. split; assumption.
    + pose proof (Forall_inv Ha) as [H1 H2]. destruct Hx as [(Hx & _)|(_ & Hx & _)]; contradiction.
Qed.

Theorem dd_panic_iff p md path :
  snd (dwarfdump_main p md path) = Panic <->
  match path with
  | None => True
  | Some (_, None) => False
  | Some (_, Some file) =>
      dd_entries_of md file = None \/
      exists ents, dd_entries_of md file = Some ents /\
        snd (dd_entries_print p md (dd_arch file) (dde_list ents) (dde_end ents)) = Panic
  end.
Proof.
  destruct path as [[path [file|]]|]; [|split; [discriminate|tauto]|split; [tauto|reflexivity]].
  pose proof (main_run p md path file) as Hm. destruct (dd_entries_of md file) as [ents|].
  - cbv zeta in Hm. rewrite Hm. destruct (snd (dd_entries_print _ _ _ _ _)) as [u|g|] eqn:E; cbn [snd].
    + split; [discriminate|]. intros [H|(e & H & H')]; [discriminate H|]. apply some_inj in H. subst e. congruence.
    + split; [discriminate|]. intros [H|(e & H & H')]; [discriminate H|]. apply some_inj in H. subst e. congruence.
    + split; [|reflexivity]. intros _. right. exists ents. split; [reflexivity|exact E].
  - rewrite Hm. split; [|reflexivity]. intros _. left. reflexivity.
Qed.
(** Which entries make it crash: those past the end, unless the dump has stopped
    before. *)
Theorem dd_crash_iff p md path file : dd_file_typed md file ->
  (snd (dwarfdump_main p md (Some (path, Some file))) = Panic <->
   dd_entries_of md file = None \/
   exists ents pre e post, dd_entries_of md file = Some ents /\ dde_list ents = (pre ++ e :: post)%list /\
     Forall decodable pre /\ past_end md e).
Proof.
  intros Ht. rewrite dd_panic_iff. split.
  - intros [H|(ents & He & H)]; [left; exact H|]. right.
    destruct (entries_run p md (dd_arch file) (dde_end ents) (dde_list ents) (Ht ents He)) as (pre & post & rest & El & Hpre & _ & Hs).
    destruct Hs as [(_ & _ & Hs)|(e & post' & Hpost & [[Hp Hs]|(_ & _ & g & Hs)])].
    + rewrite Hs in H. destruct (dde_end ents); discriminate H.
    + exists ents, pre, e, post'. split; [exact He|]. split; [rewrite El, Hpost; reflexivity|]. split; [|exact Hp].
      revert Hpre. apply Forall_impl. intros a [Ha _]. exact Ha.
    + rewrite Hs in H. discriminate H.
  - intros [H|(ents & pre & e & post & He & El & Hpre & Hp)]; [left; exact H|]. right. exists ents. split; [exact He|].
    specialize (Ht ents He). rewrite El in *. clear El. induction pre as [|a pre IH].
    + cbn [app] in *. assert (Es : forall l, dd_entries_print p md (dd_arch file) (e :: l) (dde_end ents) =
        lbind (entry_print p md (dd_arch file) e) (fun _ => dd_entries_print p md (dd_arch file) l (dde_end ents))) by (intros l; destruct e; reflexivity).
      rewrite Es. destruct (entry_run p md (dd_arch file) e (Forall_inv Ht)) as [(_ & Hn & _)|[(_ & out & ->)|(Hn & _)]]; [contradiction|reflexivity|contradiction].
    + cbn [app] in *. assert (Es : forall l, dd_entries_print p md (dd_arch file) (a :: l) (dde_end ents) =
        lbind (entry_print p md (dd_arch file) a) (fun _ => dd_entries_print p md (dd_arch file) l (dde_end ents))) by (intros l; destruct a; reflexivity).
      rewrite Es. destruct (entry_run p md (dd_arch file) a (Forall_inv Ht)) as [(_ & _ & ->)|[(_ & out & ->)|(_ & Hn & _)]].
      * rewrite lbind_ok. cbn [fst snd]. apply IH; [apply (Forall_inv_tail Ht)|apply (Forall_inv_tail Hpre)].
      * reflexivity.
      * pose proof (Forall_inv Hpre). contradiction.
Qed.

(** *** Telling entries apart (C93) *)

Lemma pe_view_apart p e e' : pe_apart p -> byte_typed e -> byte_typed e' -> pe_view p e = pe_view p e' -> same_encoding e e'.
Proof.
  intros [Ha Hf] He He' H. unfold pe_view in H. injection H as H1 H2. rewrite !land_application in H1. rewrite !land_format in H2.
  unfold byte_typed, same_encoding in *.
  apply Ha in H1; [|apply Z.mod_pos_bound; lia..]. apply Hf in H2; [|apply Z.mod_pos_bound; lia..].
  pose proof (Z.div_mod e 16). pose proof (Z.div_mod e' 16). pose proof (Z.div_mod (e / 16) 8). pose proof (Z.div_mod (e' / 16) 8).
  replace (e mod 128) with (16 * (e / 16 mod 8) + e mod 16); [replace (e' mod 128) with (16 * (e' / 16 mod 8) + e' mod 16); [lia|]|].
  - apply Z.mod_unique with (e' / 16 / 8); [|lia]. left. pose proof (Z.mod_pos_bound e' 16). pose proof (Z.mod_pos_bound (e' / 16) 8). lia.
  - apply Z.mod_unique with (e / 16 / 8); [|lia]. left. pose proof (Z.mod_pos_bound e 16). pose proof (Z.mod_pos_bound (e / 16) 8). lia.
Qed.
Lemma option_view_apart {A B} (P : A -> Prop) (R : A -> A -> Prop) (g : A -> B) :
  (forall x y, P x -> P y -> g x = g y -> R x y) -> forall o o', on P o -> on P o' -> option_map g o = option_map g o' -> option_shown R o o'.
Proof. intros H [x|] [y|] Hx Hy E; cbn in *; try discriminate E; [apply H; [assumption..|congruence]|exact I]. Qed.

Lemma entry_view_apart (same : Z -> Z -> Prop) p t pv e e' : (forall e e', byte_typed e -> byte_typed e' -> pv e = pv e' -> same e e') -> clear_texts (pd p) t -> plain_texts (pd p) t -> tidy_texts (pd p) t ->
  insn_texts (pd p) -> (forall d d', pr_die (pd p) d = pr_die (pd p) d' -> d = d') -> dd_typed e -> dd_typed e' ->
  view_entry p t pv e = view_entry p t pv e' -> dd_same_by same (pd p) e e'.
Proof.
  intros Hpe Hc Hp Ht Hi Hd Hy Hy' E.
  destruct e as [c|o n ci [f|g]], e' as [c'|o' n' ci' [f'|g']]; cbn [view_entry dd_same_by] in *; try discriminate E.
  - assert (E0 : view_cie p t pv c = view_cie p t pv c') by congruence. clear E.
    destruct Hy as (_ & _ & _ & Hr & Hl & Hq & Hf & Hn), Hy' as (_ & _ & _ & Hr' & Hl' & Hq' & Hf' & Hn').
    assert (E1 := f_equal cv_offset E0). assert (E2 := f_equal cv_length E0). assert (E3 := f_equal cv_version E0).
    assert (E4 := f_equal cv_code_align E0). assert (E5 := f_equal cv_data_align E0). assert (E6 := f_equal cv_ra E0).
    assert (E7 := f_equal cv_lsda E0). assert (E8 := f_equal cv_personality E0). assert (E9 := f_equal cv_fde E0).
    assert (E10 := f_equal cv_insns E0). assert (E11 := f_equal cv_broken E0). clear E0.
    cbn [view_cie cv_offset cv_length cv_version cv_code_align cv_data_align cv_ra cv_lsda cv_personality cv_fde cv_insns cv_broken] in *.
    unfold cie_same_by. do 5 (split; [assumption|]).
    split; [apply (register_inj (pd p) t); assumption|].
    split; [revert E7; apply (option_view_apart byte_typed); [exact Hpe|assumption..]|].
    split; [revert E8; apply (option_view_apart (fun e => byte_typed (fst e) /\ pointer_typed (snd e))); [|assumption..]|].
    { intros [x q] [y q'] [Hx _] [Hy _] Hxy. cbn [fst snd] in *. split; [apply Hpe; [assumption..|congruence]|congruence]. }
    split; [revert E9; apply (option_view_apart byte_typed); [exact Hpe|assumption..]|].
    apply (insns_view_apart (pd p) t); assumption.
  - injection E as -> -> -> E1 E2 E3 E4 E5 E6. destruct Hy as (_ & _ & _ & _ & _ & _ & Hn), Hy' as (_ & _ & _ & _ & _ & _ & Hn').
    do 3 (split; [reflexivity|]). split; [assumption|]. split; [assumption|]. split; [assumption|].
    apply (insns_view_apart (pd p) t); assumption.
  - injection E as -> -> -> E1. do 3 (split; [reflexivity|]). exact E1.
Qed.

Theorem dd_dumps_apart p md md' path path' file file' ents ents' ev ev' :
  let t := dd_table (dd_arch file) in
  clear_texts (pd p) t -> plain_texts (pd p) t -> tidy_texts (pd p) t -> insn_texts (pd p) -> pe_plain p -> pe_apart p ->
  (forall d d', pr_die (pd p) d = pr_die (pd p) d' -> d = d') -> dd_table (dd_arch file') = t ->
  dd_entries_of md file = Some ents -> Forall dd_typed (dde_list ents) ->
  dd_entries_of md' file' = Some ents' -> Forall dd_typed (dde_list ents') ->
  dwarfdump_main p md (Some (path, Some file)) = (ev, Ok tt) -> stderr_of ev = [] ->
  dwarfdump_main p md' (Some (path', Some file')) = (ev', Ok tt) -> stderr_of ev' = [] ->
  stdout_of ev = stdout_of ev' -> Forall2 (dd_same (pd p)) (dde_list ents) (dde_list ents').
Proof.
  intros t Hc Hp Ht Hi Hpp Hpa Hd Ea He Hy He' Hy' H Hn H' Hn' E.
  destruct (main_printed p md path file ents ev _ He Hy H) as (pre & post & rest & El & _ & Hs & Hr).
  destruct (main_printed p md' path' file' ents' ev' _ He' Hy' H') as (pre' & post' & rest' & El' & _ & Hs' & Hr').
  destruct Hr as [(-> & -> & _)|(e & q & _ & [(_ & Hx & _)|(_ & _ & _ & g & Hx)])]; [|discriminate Hx|congruence].
  destruct Hr' as [(-> & -> & _)|(e & q & _ & [(_ & Hx & _)|(_ & _ & _ & g & Hx)])]; [|discriminate Hx|congruence].
  rewrite app_nil_r in *. subst pre pre'. rewrite Hs, Hs' in E. injection E as E.
  assert (El : forall l, flat_map (entry_lines p (dd_table (dd_arch file')) (pe_text p)) l = flat_map (entry_lines p (dd_table (dd_arch file)) (pe_text p)) l).
  { intros l. induction l as [|x l IH]; [reflexivity|]. cbn [flat_map]. rewrite IH. f_equal.
    destruct x as [c|o n ci f]; cbn [entry_lines]; unfold cie_lines, fde_lines; rewrite Ea; reflexivity. }
  rewrite El in E. apply (f_equal read_dwarfdump) in E. unfold read_dwarfdump in E.
  rewrite !(entries_read p t (pe_text p) (pe_view p)) in E by (assumption || (apply pe_view_read; exact Hpp) || apply Nat.le_refl). apply some_inj, map_forall2 in E.
  eapply forall2_also; [|exact Hy|exact Hy'|exact E]. intros x y Hx Hx'. apply entry_view_apart; try assumption.
  intros a b. apply pe_view_apart, Hpa.
Qed.
