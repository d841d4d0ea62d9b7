(** Proofs about the repaired [dwarfdump]. *)
From Coq Require Import String Ascii.
From Verif Require Export DdRepairedSpec DdFacts.
Local Open Scope string_scope.

(** ** No repair: the program as it is *)

Definition as_was (e : dd_error) : dd_main_error := match e with DdParse => DdUnreadable end.

Lemma as_is_list pr reg en fin : forall l, dd_list_with dd_as_is pr reg l en fin = dump_insn_list pr reg true l en fin.
Proof.
  induction l as [|i l IH]; [reflexivity|]. cbn [dd_list_with dump_insn_list]. rewrite !lbind_say.
  destruct (insn_expression i); rewrite ?lbind_say, IH; reflexivity.
Qed.
Lemma as_is_insns p m initial is : dd_insns_with dd_as_is p m initial is = dd_dump_insns p m initial is.
Proof. unfold dd_insns_with, dd_dump_insns. destruct initial; rewrite !lbind_say, as_is_list; reflexivity. Qed.
Lemma app_empty s : s ++ "" = s.
Proof. induction s as [|c s IH]; [reflexivity|]. cbn [append]. rewrite IH. reflexivity. Qed.
Lemma as_is_cie p m c : cie_print_with dd_as_is p m c = cie_print p m c.
Proof.
  unfold cie_print_with, cie_print. rewrite !lbind_say, as_is_insns.
  assert (E : forall e, pe_text_with dd_as_is p e = pe_text p e) by (intros e; apply app_empty).
  destruct (ci_lsda c), (ci_personality c) as [[? ?]|], (ci_fde c); rewrite ?E; reflexivity.
Qed.
Lemma as_is_fde p md m o n ci f : fde_print_with dd_as_is p md m o n ci f = fde_print p md m o n ci f.
Proof.
  unfold fde_print_with, fde_print. rewrite !lbind_say. destruct f as [f|g]; [|reflexivity]. rewrite !lbind_say.
  cbn [rd_wrap dd_as_is]. destruct (add_u64 md (dd_start f) (dd_len f)); cbn [quiet lbind]; [|reflexivity..].
  rewrite as_is_insns. reflexivity.
Qed.
Lemma as_is_entries p md m en : forall l, dd_entries_with dd_as_is p md m l en = dd_entries_print p md m l en.
Proof.
  induction l as [|[c|o n ci f] l IH]; [reflexivity|..]; cbn [dd_entries_with dd_entries_print].
  - rewrite as_is_cie, IH. reflexivity.
  - rewrite as_is_fde, IH. reflexivity.
Qed.
Theorem as_is_main p object md path :
  dwarfdump_main_with dd_as_is p object md path = loud_err as_was (dwarfdump_main p md path).
Proof.
  destruct path as [[path [file|]]|]; [|reflexivity..].
  unfold dwarfdump_main_with, dwarfdump_main, dump_file_with, dump_file.
  destruct (section_by_name ".eh_frame" (elf_sections (dd_elf file))); [|reflexivity].
  destruct (dd_parse file) as [parse|]; [|reflexivity]. cbv zeta. rewrite !lbind_say, as_is_entries. cbn [fst snd].
  unfold loud_err. destruct (dd_entries_print _ _ _ _ _) as [ev [u|g|]]; reflexivity.
Qed.

(** ** What is printed, line by line *)

Definition insn_lines_with (pr : printers) (t : option reg_table) (i : insn) : list string :=
  (insn_lines pr t true i ++ insn_notes pr i)%list.
Definition insns_lines_with (pr : printers) (t : option reg_table) (is : insns) (finish : list string) : list string :=
  (flat_map (insn_lines_with pr t) (is_list is) ++ finish_lines pr (is_end is) finish)%list.
Definition cie_lines_with (r : dd_repairs) (p : printers_dd) (t : option reg_table) (c : cie) : list string :=
  ("" :: (fmt_hex_alt_pad 64 10 (ci_offset c) ++ ": CIE")%string ::
   ("        length: " ++ fmt_hex_alt_pad 64 10 (ci_length c))%string ::
   ("       version: " ++ fmt_hex_alt_pad 8 4 (ci_version c))%string ::
   ("    code_align: " ++ fmt_dec (ci_code_align c))%string ::
   ("    data_align: " ++ fmt_dec (ci_data_align c))%string ::
   ("   ra_register: " ++ register_text (pd p) t (ci_ra c))%string ::
   match ci_lsda c with Some e => [(" lsda_encoding: " ++ pe_text_with r p e)%string] | None => [] end ++
   match ci_personality c with Some (e, q) => [("   personality: " ++ pe_text_with r p e ++ " " ++ pointer_text q)%string] | None => [] end ++
   match ci_fde c with Some e => [("  fde_encoding: " ++ pe_text_with r p e)%string] | None => [] end ++
   insns_lines_with (pd p) t (ci_insns c) ["  Instructions: Init State:"] ++ [""])%list.
Definition fde_lines_with (p : printers_dd) (t : option reg_table) (o n ci : Z) (parsed : dd_fde + gimli_error) : list string :=
  ("" :: (fmt_hex_alt_pad 64 10 o ++ ": FDE")%string ::
   ("        length: " ++ fmt_hex_alt_pad 64 10 n)%string ::
   ("   CIE_pointer: " ++ fmt_hex_alt_pad 64 10 ci)%string ::
   match parsed with
   | inr g => [("Failed to parse FDE: " ++ pr_gimli (pd p) g)%string]
   | inl f =>
       ("    start_addr: " ++ fmt_hex_alt_pad 64 18 (dd_start f))%string ::
       ("    range_size: " ++ fmt_hex_alt_pad 64 18 (dd_len f) ++
        " (end_addr = " ++ fmt_hex_alt_pad 64 18 ((dd_start f + dd_len f) mod 2 ^ 64) ++ ")")%string ::
       match dd_lsda f with Some q => [("          lsda: " ++ pointer_text q)%string] | None => [] end ++
       "  Instructions:" :: insns_lines_with (pd p) t (dd_insns f) [] ++ [""]
   end)%list.
Definition entry_lines_with (r : dd_repairs) (p : printers_dd) (t : option reg_table) (e : dd_entry) : list string :=
  match e with DdCie c => cie_lines_with r p t c | DdPartial o n ci f => fde_lines_with p t o n ci f end.

Lemma block_run r pr reg x :
  block_with r pr reg x =
  match ex_end x with
  | None => (map Out (map (op_text pr reg true "                  ") (ex_ops x)), Ok tt)
  | Some g =>
      if rd_block r then (map Out (map (op_text pr reg true "                  ") (ex_ops x) ++ [block_note pr g])%list, Ok tt)
      else (map Out (map (op_text pr reg true "                  ") (ex_ops x)), Err g)
  end.
Proof.
  unfold block_with, dump_expression. cbn [fst snd]. rewrite map_map. destruct (rd_block r), (ex_end x); rewrite ?map_app, ?map_map; reflexivity.
Qed.

Lemma list_run r pr t en finish : forall l,
  ((rd_block r = true \/ forall i x, In i l -> block_of i = Some x -> well_formed x = true) /\
   dd_list_with r pr (register_text pr t) l en (map Out finish) =
   (map Out (flat_map (insn_lines_with pr t) l ++ finish_lines pr en finish)%list, Ok tt)) \/
  (rd_block r = false /\ ~ (forall i x, In i l -> block_of i = Some x -> well_formed x = true) /\
   exists out g, dd_list_with r pr (register_text pr t) l en (map Out finish) = (map Out out, Err g)).
Proof.
  induction l as [|i l IH].
  - left. split; [right; intros i x []|]. destruct en; reflexivity.
  - cbn [dd_list_with]. rewrite lbind_say.
    assert (Eb : insn_expression i = block_of i) by (destruct i; reflexivity).
    assert (El : forall H : block_of i = insn_expression i, insn_lines pr t true i = insn_text pr (register_text pr t) i ::
      match block_of i with Some x => map (op_text pr (register_text pr t) true "                  ") (ex_ops x) | None => [] end)
      by (intros ->; reflexivity).
    specialize (El (eq_sym Eb)). rewrite Eb.
    assert (En : forall ev, (match block_of i with Some x => block_with r pr (register_text pr t) x | None => say [] end) = (ev, Ok tt) ->
      ev = map Out (tl (insn_lines_with pr t i))).
    { intros ev. unfold insn_lines_with, insn_notes. rewrite El. destruct (block_of i) as [x|]; [|intros H; injection H as <-; reflexivity].
      rewrite block_run. destruct (ex_end x) as [g|]; [destruct (rd_block r); [|discriminate]|]; intros H; injection H as <-; [reflexivity|].
      cbn [app tl]. rewrite app_nil_r. reflexivity. }
    assert (Eh : insn_lines_with pr t i = insn_text pr (register_text pr t) i :: tl (insn_lines_with pr t i))
      by (unfold insn_lines_with; rewrite El; reflexivity).
    destruct (match block_of i with Some x => block_with r pr (register_text pr t) x | None => say [] end) as [ev [[]|g|]] eqn:E.
    + specialize (En ev eq_refl). subst ev. rewrite lbind_ok. cbn [fst snd].
      assert (Hi : rd_block r = true \/ forall x, block_of i = Some x -> well_formed x = true).
      { destruct (rd_block r) eqn:Eb'; [left; reflexivity|right]. intros x Hx. rewrite Hx in E. rewrite block_run, Eb' in E.
        unfold well_formed. destruct (ex_end x); [discriminate E|reflexivity]. }
      destruct IH as [[H ->]|[Hb [H (out & g & ->)]]]; cbn [fst snd].
      * left. split.
        { destruct Hi as [Hi|Hi]; [left; exact Hi|]. destruct H as [H|H]; [left; exact H|]. right.
          intros j y [<-|Hj] Hy; [apply (Hi y Hy)|apply (H j y Hj Hy)]. }
        cbn [flat_map]. rewrite Eh at 2. cbn [app map]. rewrite <- app_assoc, (map_app Out (tl _)). reflexivity.
      * right. split; [exact Hb|]. split; [intros H'; apply H; intros j y Hj; apply H'; right; exact Hj|].
        eexists (_ :: _), g. cbn [app map]. rewrite <- map_app. reflexivity.
    + destruct (block_of i) as [x|] eqn:Ei; [|discriminate E]. rewrite block_run in E. destruct (ex_end x) as [g'|] eqn:Ex; [|discriminate E].
      destruct (rd_block r); [discriminate E|]. right. split; [reflexivity|]. split.
      { intros H. specialize (H i x (or_introl eq_refl) Ei). unfold well_formed in H. rewrite Ex in H. discriminate H. }
      injection E as <- <-. eexists (_ :: _), g'. reflexivity.
    + exfalso. destruct (block_of i) as [x|]; [|discriminate E]. rewrite block_run in E. destruct (ex_end x); [destruct (rd_block r)|]; discriminate E.
Qed.

Definition entry_print_with (r : dd_repairs) (p : printers_dd) (md : mode) (m : elf_arch) (e : dd_entry) : loud gimli_error unit :=
  match e with DdCie c => cie_print_with r p m c | DdPartial o n ci f => fde_print_with r p md m o n ci f end.

Lemma insns_run_with r p m initial is :
  ((rd_block r = true \/ insns_fine is) /\ dd_insns_with r p m initial is =
     (map Out ((if initial then [] else ["  Instructions:"]) ++
               insns_lines_with (pd p) (dd_table_with r m) is (if initial then ["  Instructions: Init State:"] else []))%list, Ok tt)) \/
  (rd_block r = false /\ ~ insns_fine is /\ exists out g, dd_insns_with r p m initial is = (map Out out, Err g)).
Proof.
  pose proof (list_run r (pd p) (dd_table_with r m) (is_end is) (if initial then ["  Instructions: Init State:"] else []) (is_list is)) as H.
  unfold dd_insns_with, insns_lines_with, insns_fine. change (dd_register_with r p m) with (register_text (pd p) (dd_table_with r m)).
  replace (if initial then [Out "  Instructions: Init State:"] else []) with
    (map Out (if initial then ["  Instructions: Init State:"] else [])) by (destruct initial; reflexivity).
  destruct initial; rewrite lbind_say; cbn [app].
  - destruct H as [[H ->]|(Hb & H & out & g & ->)]; [left|right]; cbn [fst snd].
    + split; [exact H|reflexivity].
    + split; [exact Hb|]. split; [exact H|]. exists out, g. reflexivity.
  - destruct H as [[H ->]|(Hb & H & out & g & ->)]; [left|right]; cbn [fst snd].
    + split; [exact H|reflexivity].
    + split; [exact Hb|]. split; [exact H|]. exists ("  Instructions:" :: out), g. reflexivity.
Qed.

Lemma entry_run_with r p md m e : dd_typed e ->
  (printable_with r md e /\ entry_print_with r p md m e = (map Out (entry_lines_with r p (dd_table_with r m) e), Ok tt)) \/
  (rd_wrap r = false /\ past_end md e /\ exists out, entry_print_with r p md m e = (map Out out, Panic)) \/
  (rd_block r = false /\ ~ decodable e /\ exists out g, entry_print_with r p md m e = (map Out out, Err g)).
Proof.
  intros Ht. destruct e as [c|o n ci [f|g]]; cbn [entry_print_with entry_lines_with decodable past_end]; unfold printable_with; cbn [decodable past_end].
  - unfold cie_print_with. rewrite lbind_say.
    match goal with |- context [((?a ++ _)%list, _)] => assert (Ha : a = map Out (firstn 7 (cie_lines_with r p (dd_table_with r m) c) ++
          match ci_lsda c with Some e => [(" lsda_encoding: " ++ pe_text_with r p e)%string] | None => [] end ++
          match ci_personality c with Some (e, q) => [("   personality: " ++ pe_text_with r p e ++ " " ++ pointer_text q)%string] | None => [] end ++
          match ci_fde c with Some e => [("  fde_encoding: " ++ pe_text_with r p e)%string] | None => [] end)%list) end.
    { cbn [firstn cie_lines_with map app]. do 7 f_equal. destruct (ci_lsda c), (ci_personality c) as [[? ?]|], (ci_fde c); reflexivity. }
    rewrite Ha. clear Ha.
    destruct (insns_run_with r p m true (ci_insns c)) as [[H ->]|(Hb & H & out & g & ->)].
    + left. split; [split; [exact H|right; tauto]|]. unfold lbind at 1. cbn [fst snd say app].
      change [Out ""] with (map Out [""]). rewrite <- !map_app. do 2 f_equal. unfold cie_lines_with. cbn [firstn app]. do 7 f_equal.
      rewrite <- !app_assoc. reflexivity.
    + right. right. split; [exact Hb|]. split; [exact H|]. unfold lbind. cbn [fst snd]. rewrite <- map_app. eexists _, g. reflexivity.
  - destruct Ht as (_ & _ & _ & Ha & Hl & _). unfold in_u64 in Ha, Hl.
    unfold fde_print_with. rewrite !lbind_say. cbn [fst snd].
    assert (Hcase : (rd_wrap r = false /\ 2 ^ 64 <= dd_start f + dd_len f /\ overflow_checks md = true /\
                     (if rd_wrap r then Ok (as_u 64 (dd_start f + dd_len f)) else @add_u64 gimli_error md (dd_start f) (dd_len f)) = Panic) \/
                    ((rd_wrap r = true \/ ~ (2 ^ 64 <= dd_start f + dd_len f /\ overflow_checks md = true)) /\
                     (if rd_wrap r then Ok (as_u 64 (dd_start f + dd_len f)) else @add_u64 gimli_error md (dd_start f) (dd_len f)) =
                     Ok ((dd_start f + dd_len f) mod 2 ^ 64))).
    { destruct (rd_wrap r); [right; split; [left|]; reflexivity|]. unfold add_u64.
      destruct (Z.ltb_spec (dd_start f + dd_len f) (2 ^ 64)) as [Hlt|Hge].
      - right. split; [right; lia|]. rewrite Z.mod_small by lia. reflexivity.
      - destruct (overflow_checks md); [left; repeat split; lia|]. right. split; [right; intros [_ H]; discriminate H|reflexivity]. }
    destruct Hcase as [(Hw & Hge & Hck & ->)|[Hn ->]].
    + right. left. split; [exact Hw|]. split; [split; assumption|]. eexists (_ :: _ :: _ :: _ :: _ :: []). reflexivity.
    + rewrite lbind_quiet_ok, lbind_say.
      destruct (insns_run_with r p m false (dd_insns f)) as [[H ->]|(Hb & H & out & g & ->)].
      * left. split; [split; assumption|]. unfold lbind. cbn [fst snd say app]. unfold fde_lines_with.
        destruct (dd_lsda f); cbn [map app]; rewrite !map_app; reflexivity.
      * right. right. split; [exact Hb|]. split; [exact H|]. unfold lbind. cbn [fst snd].
        destruct (dd_lsda f).
        { eexists (_ :: _ :: _ :: _ :: _ :: _ :: _ :: out), g. reflexivity. }
        { eexists (_ :: _ :: _ :: _ :: _ :: _ :: out), g. reflexivity. }
  - left. split; [split; right; tauto|]. unfold fde_print_with. rewrite lbind_say. reflexivity.
Qed.

Lemma entries_run_with r p md m en : forall l, Forall dd_typed l ->
  exists pre post rest, l = (pre ++ post)%list /\ Forall (printable_with r md) pre /\
    fst (dd_entries_with r p md m l en) = map Out (flat_map (entry_lines_with r p (dd_table_with r m)) pre ++ rest)%list /\
    ((post = [] /\ rest = [] /\
      snd (dd_entries_with r p md m l en) = match en with Some g => Err g | None => Ok tt end) \/
     (exists e post', post = e :: post' /\
      ((rd_wrap r = false /\ past_end md e /\ snd (dd_entries_with r p md m l en) = Panic) \/
       (rd_block r = false /\ ~ decodable e /\ exists g, snd (dd_entries_with r p md m l en) = Err g)))).
Proof.
  induction l as [|e l IH]; intros Ht.
  - exists [], [], []. split; [reflexivity|]. split; [constructor|]. split; [destruct en; reflexivity|].
    left. split; [reflexivity|]. split; [reflexivity|]. destruct en; reflexivity.
  - assert (Es : dd_entries_with r p md m (e :: l) en = lbind (entry_print_with r p md m e) (fun _ => dd_entries_with r p md m l en))
      by (destruct e; reflexivity).
    rewrite Es. destruct (entry_run_with r p md m e (Forall_inv Ht)) as [(Hd & ->)|[(Hw & Hp & out & ->)|(Hb & Hd & out & g & ->)]].
    + destruct (IH (Forall_inv_tail Ht)) as (pre & post & rest & El & Hpre & Hf & Hs).
      rewrite lbind_ok. cbn [fst snd]. exists (e :: pre), post, rest.
      split; [rewrite El; reflexivity|]. split; [constructor; assumption|].
      split; [|exact Hs]. rewrite Hf. cbn [flat_map]. rewrite <- app_assoc, (map_app Out (entry_lines_with r p _ e)). reflexivity.
    + exists [], (e :: l), out. split; [reflexivity|]. split; [constructor|]. split; [reflexivity|].
      right. exists e, l. split; [reflexivity|]. left. split; [exact Hw|]. split; [exact Hp|reflexivity].
    + exists [], (e :: l), out. split; [reflexivity|]. split; [constructor|]. split; [reflexivity|].
      right. exists e, l. split; [reflexivity|]. right. split; [exact Hb|]. split; [exact Hd|]. exists g. reflexivity.
Qed.

(** ** The program *)

Definition dd_message_with (p : printers_dd) (object path : string) (f : dump_failure) : string :=
  "Failed to dump '" ++ path ++ "': " ++ failure_text p object f.

Lemma main_run_with r p object md path file :
  match dd_entries_of md file with
  | None => dwarfdump_main_with r p object md (Some (path, Some file)) =
      if rd_unwrap r then ([ErrOut (dd_message_with p object path DumpObject)], if rd_status r then Err (DdDump DumpObject) else Ok tt)
      else ([], Panic)
  | Some ents =>
      let d := dd_entries_with r p md (dd_arch file) (dde_list ents) (dde_end ents) in
      dwarfdump_main_with r p object md (Some (path, Some file)) =
      match snd d with
      | Ok _ => (Out dd_title :: fst d, Ok tt)
      | Err g => ((Out dd_title :: fst d ++ [ErrOut (dd_message_with p object path (DumpGimli g))])%list,
                  if rd_status r then Err (DdDump (DumpGimli g)) else Ok tt)
      | Panic => (Out dd_title :: fst d, Panic)
      end
  end.
Proof.
  unfold dd_entries_of, dwarfdump_main_with, dump_file_with, dd_arch, dd_message_with.
  destruct (section_by_name ".eh_frame" (elf_sections (dd_elf file))); [|reflexivity].
  destruct (dd_parse file) as [parse|].
  - cbv zeta. rewrite lbind_say. unfold loud_err. destruct (dd_entries_with _ _ _ _ _ _) as [ev [u|g|]]; reflexivity.
  - destruct (rd_unwrap r); reflexivity.
Qed.

Lemma main_printed_with r p object md path file ents ev o : dd_entries_of md file = Some ents -> Forall dd_typed (dde_list ents) ->
  dwarfdump_main_with r p object md (Some (path, Some file)) = (ev, o) ->
  exists pre post rest, dde_list ents = (pre ++ post)%list /\ Forall (printable_with r md) pre /\
    stdout_of ev = (dd_title :: flat_map (entry_lines_with r p (dd_table_with r (dd_arch file))) pre ++ rest)%list /\
    ((post = [] /\ rest = [] /\
      o = match dde_end ents with Some g => if rd_status r then Err (DdDump (DumpGimli g)) else Ok tt | None => Ok tt end /\
      stderr_of ev = match dde_end ents with Some g => [dd_message_with p object path (DumpGimli g)] | None => [] end) \/
     (exists e post', post = e :: post' /\
      ((rd_wrap r = false /\ past_end md e /\ o = Panic /\ stderr_of ev = []) \/
       (rd_block r = false /\ ~ decodable e /\ exists g, o = (if rd_status r then Err (DdDump (DumpGimli g)) else Ok tt) /\
        stderr_of ev = [dd_message_with p object path (DumpGimli g)])))).
Proof.
  intros He Ht H. pose proof (main_run_with r p object md path file) as Hm. rewrite He in Hm. cbv zeta in Hm. rewrite Hm in H. clear Hm.
  destruct (entries_run_with r p md (dd_arch file) (dde_end ents) (dde_list ents) Ht) as (pre & post & rest & El & Hpre & Hf & Hs).
  exists pre, post, rest. split; [exact El|]. split; [exact Hpre|]. rewrite Hf in H.
  destruct Hs as [(Hpost & Hrest & Hs)|(e & post' & Hpost & [(Hw & Hp & Hs)|(Hb & Hd & g & Hs)])]; rewrite Hs in H.
  - destruct (dde_end ents) as [g|]; injection H as <- <-; rewrite stdout_cons, stderr_cons, ?stdout_app, ?stderr_app, stdout_map_out, stderr_map_out; cbn; rewrite ?app_nil_r;
      (split; [reflexivity|]); left; repeat (split; [assumption || reflexivity|]); reflexivity.
  - injection H as <- <-. rewrite stdout_cons, stderr_cons, stdout_map_out, stderr_map_out. split; [reflexivity|].
    right. exists e, post'. split; [exact Hpost|]. left. repeat (split; [assumption || reflexivity|]). reflexivity.
  - injection H as <- <-. rewrite stdout_cons, stderr_cons, stdout_app, stderr_app, stdout_map_out, stderr_map_out. cbn. rewrite app_nil_r. split; [reflexivity|].
    right. exists e, post'. split; [exact Hpost|]. right. repeat (split; [assumption || reflexivity|]). exists g. split; reflexivity.
Qed.
