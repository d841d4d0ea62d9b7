(** What the repairs of [dwarfdump] achieve, and concrete cases. *)
From Coq Require Import String Ascii.
From Verif Require Export DdRepairedFacts DdWitness.
Local Open Scope string_scope.

(** ** Notes *)

Lemma note_is_note pr g : is_note (block_note pr g) = true.
Proof. unfold is_note, block_note. rewrite after_app. reflexivity. Qed.
Lemma ops_no_notes pr reg x : noteless pr -> Forall (fun s => is_note s = false) (map (op_text pr reg true "                  ") (ex_ops x)).
Proof.
  intros Hn. apply Forall_forall. intros s Hs. apply in_map_iff in Hs. destruct Hs as (o & <- & _). destruct o; try reflexivity. apply Hn.
Qed.
Lemma insn_no_notes pr t i : noteless pr -> Forall (fun s => is_note s = false) (insn_lines pr t true i).
Proof.
  intros Hn. unfold insn_lines. constructor; [rewrite insn_text_bare; reflexivity|]. destruct (insn_expression i); [apply ops_no_notes, Hn|constructor].
Qed.
Lemma insn_notes_all pr i : Forall (fun s => is_note s = true) (insn_notes pr i).
Proof.
  unfold insn_notes. destruct (block_of i) as [x|]; [|constructor]. destruct (ex_end x) as [g|]; [|constructor].
  constructor; [apply (note_is_note pr g)|constructor].
Qed.
Lemma notes_app a b : notes (a ++ b) = (notes a ++ notes b)%list.
Proof. apply filter_app. Qed.
Lemma besides_app a b : besides_notes (a ++ b) = (besides_notes a ++ besides_notes b)%list.
Proof. apply filter_app. Qed.
Lemma no_notes l : Forall (fun s => is_note s = false) l -> notes l = [] /\ besides_notes l = l.
Proof.
  unfold notes, besides_notes. induction 1 as [|s l Hs _ [IH1 IH2]]; [split; reflexivity|]. cbn [filter]. rewrite Hs. cbn [negb].
  rewrite IH1, IH2. split; reflexivity.
Qed.
Lemma all_notes l : Forall (fun s => is_note s = true) l -> notes l = l /\ besides_notes l = [].
Proof.
  unfold notes, besides_notes. induction 1 as [|s l Hs _ [IH1 IH2]]; [split; reflexivity|]. cbn [filter]. rewrite Hs. cbn [negb].
  rewrite IH1, IH2. split; reflexivity.
Qed.
Lemma insns_notes pr t is fin : noteless pr -> Forall (fun s => is_note s = false) fin ->
  notes (insns_lines_with pr t is fin) = flat_map (insn_notes pr) (is_list is) /\
  besides_notes (insns_lines_with pr t is fin) = insns_lines pr t is fin.
Proof.
  intros Hn Hf. unfold insns_lines_with, insns_lines. rewrite notes_app, besides_app.
  assert (H : Forall (fun s => is_note s = false) (finish_lines pr (is_end is) fin))
    by (destruct (is_end is); [constructor; [reflexivity|constructor]|exact Hf]).
  destruct (no_notes _ H) as [-> ->]. rewrite app_nil_r. clear H.
  assert (H : notes (flat_map (insn_lines_with pr t) (is_list is)) = flat_map (insn_notes pr) (is_list is) /\
              besides_notes (flat_map (insn_lines_with pr t) (is_list is)) = flat_map (insn_lines pr t true) (is_list is)).
  { induction (is_list is) as [|i l [IH1 IH2]]; [split; reflexivity|]. cbn [flat_map]. rewrite notes_app, besides_app, IH1, IH2.
    unfold insn_lines_with. rewrite notes_app, besides_app. destruct (no_notes _ (insn_no_notes pr t i Hn)) as [-> ->].
    destruct (all_notes _ (insn_notes_all pr i)) as [-> ->]. rewrite app_nil_r. split; reflexivity. }
  destruct H as [-> ->]. split; reflexivity.
Qed.
Lemma entry_notes_apart r p t e : noteless (pd p) ->
  notes (entry_lines_with r p t e) = entry_notes (pd p) e /\
  besides_notes (entry_lines_with r p t e) = entry_lines p t (pe_text_with r p) e.
Proof.
  intros Hn. assert (Hs : forall s l, is_note s = false -> notes (s :: l) = notes l /\ besides_notes (s :: l) = s :: besides_notes l).
  { intros s l H. unfold notes, besides_notes. cbn [filter]. rewrite H. split; reflexivity. }
  destruct e as [c|o n ci [f|g]]; cbn [entry_lines_with entry_lines entry_notes].
  - unfold cie_lines_with, cie_lines.
    repeat match goal with |- context [notes (?s :: ?l)] => destruct (Hs s l eq_refl) as [-> ->] end.
    rewrite !notes_app, !besides_app.
    destruct (insns_notes (pd p) t (ci_insns c) ["  Instructions: Init State:"]) as [-> ->]; [exact Hn|constructor; [reflexivity|constructor]|].
    destruct (ci_lsda c), (ci_personality c) as [[? ?]|], (ci_fde c); cbn; rewrite ?app_nil_r; split; reflexivity.
  - unfold fde_lines_with, fde_lines.
    repeat match goal with |- context [notes (?s :: ?l)] => destruct (Hs s l eq_refl) as [-> ->] end.
    rewrite !notes_app, !besides_app.
    match goal with |- context [notes ("  Instructions:" :: ?l)] => destruct (Hs "  Instructions:" l eq_refl) as [-> ->] end.
    rewrite !notes_app, !besides_app.
    destruct (insns_notes (pd p) t (dd_insns f) []) as [-> ->]; [exact Hn|constructor|].
    destruct (dd_lsda f); cbn; rewrite ?app_nil_r; split; reflexivity.
  - split; reflexivity.
Qed.
Lemma entries_notes_apart r p t l : noteless (pd p) ->
  notes (flat_map (entry_lines_with r p t) l) = flat_map (entry_notes (pd p)) l /\
  besides_notes (flat_map (entry_lines_with r p t) l) = flat_map (entry_lines p t (pe_text_with r p)) l.
Proof.
  intros Hn. induction l as [|e l [IH1 IH2]]; [split; reflexivity|]. cbn [flat_map]. rewrite notes_app, besides_app, IH1, IH2.
  destruct (entry_notes_apart r p t e Hn) as [-> ->]. split; reflexivity.
Qed.

(** ** Encodings *)

Definition pe_view_with (r : dd_repairs) (p : printers_dd) (e : Z) : string * string :=
  (pr_pe p (Z.land e 0x70), pr_pe p (Z.land e 0x0f) ++ (if rd_bit r && negb (Z.land e 0x80 =? 0)%Z then "/" ++ pr_pe p 0x80 else "")).
Lemma pe_view_with_read r p : pe_plain p -> pe_read (pe_text_with r p) (pe_view_with r p).
Proof.
  intros Hp e. unfold read_encoding, pe_text_with, pe_text, pe_view_with. rewrite !app_assoc_s. apply (upto_app "/"), Hp.
Qed.
Lemma bit_seven e : byte_typed e -> negb (Z.land e 0x80 =? 0)%Z = (128 <=? e)%Z.
Proof.
  unfold byte_typed. intros He. assert (E : Z.land e 0x80 = 128 * (e / 128)).
  { change (Z.land e 0x80) with (Z.land e (Z.shiftl (Z.ones 1) 7)). replace (128 * (e / 128)) with (Z.shiftl (Z.land (Z.shiftr e 7) (Z.ones 1)) 7).
    - apply Z.bits_inj'. intros n Hn. rewrite Z.land_spec, !Z.shiftl_spec by lia. destruct (Z.lt_ge_cases n 7) as [H|H].
      + rewrite !(Z.testbit_neg_r _ (n - 7)) by lia. apply andb_false_r.
      + rewrite Z.land_spec, Z.shiftr_spec by lia. replace (n - 7 + 7) with n by lia. reflexivity.
    - rewrite Z.land_ones, Z.shiftr_div_pow2, Z.shiftl_mul_pow2 by lia. change (2 ^ 7) with 128. change (2 ^ 1) with 2.
      rewrite (Z.mod_small (e / 128) 2); [lia|]. split; [apply Z.div_pos; lia|apply Z.div_lt_upper_bound; lia]. }
  rewrite E. destruct (Z.leb_spec 128 e) as [H|H].
  - assert (1 <= e / 128) by (apply Z.div_le_lower_bound; lia). destruct (Z.eqb_spec (128 * (e / 128)) 0); [lia|reflexivity].
  - rewrite Z.div_small by lia. reflexivity.
Qed.
Lemma pe_view_with_shown r p e : byte_typed e -> encoding_shown_with r p e (pe_view_with r p e).
Proof.
  intros He. unfold encoding_shown_with, pe_view_with. rewrite (bit_seven e He). destruct (rd_bit r); cbn [andb].
  - unfold encoding_shown_full. cbn [fst snd]. rewrite land_application, land_format. split; [reflexivity|].
    destruct (128 <=? e)%Z; [reflexivity|apply app_empty].
  - unfold encoding_shown. cbn [fst snd]. rewrite land_application, land_format, app_empty. split; reflexivity.
Qed.
Lemma upto_none c s : without c s -> upto c s = None.
Proof.
  induction s as [|x s IH]; [reflexivity|]. cbn. intros [Hx Hs]. destruct (Ascii.eqb_spec x c); [contradiction|]. rewrite (IH Hs). reflexivity.
Qed.
Lemma pe_view_with_apart r p e e' : rd_bit r = true -> pe_plain p -> pe_apart p -> byte_typed e -> byte_typed e' ->
  pe_view_with r p e = pe_view_with r p e' -> e = e'.
Proof.
  intros Hb Hp Ha He He' H. unfold pe_view_with in H. rewrite Hb, !bit_seven in H by assumption. cbn [andb] in H.
  assert (H1 := f_equal fst H). assert (H2 := f_equal snd H). cbn [fst snd] in H1, H2. clear H.
  assert (Hs : forall x, upto "/" (pr_pe p (Z.land x 0x0f) ++ (if (128 <=? x)%Z then "/" ++ pr_pe p 0x80 else "")) =
               if (128 <=? x)%Z then Some (pr_pe p (Z.land x 0x0f), pr_pe p 0x80) else None).
  { intros x. destruct (128 <=? x)%Z; [apply (upto_app "/"), Hp|]. rewrite app_empty. apply upto_none, Hp. }
  assert (H3 := f_equal (upto "/") H2). rewrite !Hs in H3.
  assert (H4 : pr_pe p (Z.land e 0x0f) = pr_pe p (Z.land e' 0x0f) /\ ((128 <=? e) = (128 <=? e'))%Z).
  { destruct (128 <=? e)%Z, (128 <=? e')%Z; try discriminate H3; [split; [congruence|reflexivity]|]. rewrite !app_empty in H2. split; [exact H2|reflexivity]. }
  destruct H4 as [H4 H5].
  assert (Hm : same_encoding e e') by (apply (pe_view_apart p); [assumption..|]; unfold pe_view; congruence).
  unfold same_encoding, byte_typed in *. pose proof (Z.div_mod e 128). pose proof (Z.div_mod e' 128).
  assert (E : e / 128 = e' / 128).
  { destruct (Z.leb_spec 128 e), (Z.leb_spec 128 e'); try discriminate H5.
    - rewrite <- (Z.div_unique e 128 1 (e - 128)) by lia. rewrite <- (Z.div_unique e' 128 1 (e' - 128)) by lia. reflexivity.
    - rewrite !Z.div_small by lia. reflexivity. }
  lia.
Qed.

(** The texts of the samples. *)
Lemma some_noteless : noteless (pd some_dd).
Proof. intros [|c|c]; reflexivity. Qed.

Lemma some_dd_all t : clear_texts (pd some_dd) t /\ plain_texts (pd some_dd) t /\ tidy_texts (pd some_dd) t /\
  insn_texts (pd some_dd) /\ pe_plain some_dd /\ pe_apart some_dd /\ (forall d d', pr_die (pd some_dd) d = pr_die (pd some_dd) d' -> d = d') /\
  noteless (pd some_dd).
Proof. pose proof (some_dd_readable t). pose proof some_noteless. tauto. Qed.

(** ** C89 *)

Theorem repaired_status r p object md path file ents ev o :
  rd_status r = true -> plain_texts (pd p) (dd_table_with r (dd_arch file)) -> pe_plain p -> noteless (pd p) ->
  dd_entries_of md file = Some ents -> Forall dd_typed (dde_list ents) ->
  dwarfdump_main_with r p object md (Some (path, Some file)) = (ev, o) ->
  (o = Ok tt <-> Forall (printable_with r md) (dde_list ents) /\ dde_end ents = None) /\
  (o = Ok tt -> stderr_of ev = [] /\ exists lines views, stdout_of ev = dd_title :: lines /\
     read_dwarfdump (besides_notes lines) = Some views /\
     Forall2 (entry_shown_by (encoding_shown_with r p) p (dd_table_with r (dd_arch file))) (dde_list ents) views) /\
  (forall f, o = Err f -> exists f', f = DdDump f' /\
     stderr_of ev = ["Failed to dump '" ++ path ++ "': " ++ failure_text p object f']).
Proof.
  intros Hr Hp Hpe Hnl He Ht H.
  destruct (main_printed_with r p object md path file ents ev o He Ht H) as (pre & post & rest & El & Hpre & Hs & Hx).
  rewrite Hr in Hx. split; [split|split].
  - intros Ho. destruct Hx as [(-> & _ & Hx & _)|(e & post' & -> & [(_ & _ & Hx & _)|(_ & _ & g & Hx & _)])]; [|congruence|congruence].
    rewrite app_nil_r in El. rewrite El. split; [exact Hpre|]. destruct (dde_end ents); [congruence|reflexivity].
  - intros [Ha Hn]. rewrite El in Ha. apply Forall_app in Ha. destruct Ha as [_ Ha].
    destruct Hx as [(_ & _ & Hx & _)|(e & post' & -> & Hx)]; [rewrite Hn in Hx; exact Hx|]. exfalso.
    destruct (Forall_inv Ha) as [H1 H2]. destruct Hx as [(Hw & Hx & _)|(Hb & Hx & _)].
    + destruct H2 as [H2|H2]; [congruence|contradiction].
    + destruct H1 as [H1|H1]; [congruence|contradiction].
  - intros Ho. destruct Hx as [(-> & -> & Hx & He')|(e & post' & -> & [(_ & _ & Hx & _)|(_ & _ & g & Hx & _)])]; [|congruence|congruence].
    rewrite !app_nil_r in *. subst pre. destruct (dde_end ents); [congruence|]. split; [exact He'|].
    eexists _, (map (view_entry p (dd_table_with r (dd_arch file)) (pe_view_with r p)) (dde_list ents)).
    split; [exact Hs|]. rewrite (proj2 (entries_notes_apart r p _ (dde_list ents) Hnl)).
    split; [apply entries_read; [assumption|apply pe_view_with_read, Hpe|assumption|lia]|].
    apply forall2_map. intros e Hin. apply entry_view_shown_by; [apply pe_view_with_shown|exact Hp|]. rewrite Forall_forall in Ht. apply Ht, Hin.
  - intros f Ho. destruct Hx as [(_ & _ & Hx & He')|(e & post' & _ & [(_ & _ & Hx & _)|(_ & _ & g & Hx & He')])].
    + destruct (dde_end ents) as [g|]; [|congruence]. exists (DumpGimli g). split; [congruence|exact He'].
    + congruence.
    + exists (DumpGimli g). split; [congruence|exact He'].
Qed.
Definition but_status : dd_repairs := DdRepairs false true true true true true true.
Theorem status_needed : forall md,
  dwarfdump_main_with but_status some_dd "e" md (Some ("a.out", Some (dd_of ElfX86_64 [] (Some (GimliError 7))))) =
  ([ Out "Exception handling frame information for section .eh_frame"; ErrOut "Failed to dump 'a.out': GimliError(Error7)" ], Ok tt).
Proof. intros md. destruct md as [[] [] ? ?]; vm_compute; reflexivity. Qed.

(** ** C90 *)

Lemma entry_no_panic r p md m e : rd_wrap r = true -> snd (entry_print_with r p md m e) <> Panic.
Proof.
  intros Hw. destruct e as [c|o n ci [f|g]]; cbn [entry_print_with].
  - unfold cie_print_with. rewrite lbind_say.
    destruct (insns_run_with r p m true (ci_insns c)) as [[_ ->]|(_ & _ & out & g & ->)]; discriminate.
  - unfold fde_print_with. rewrite Hw, !lbind_say, lbind_quiet_ok, lbind_say.
    destruct (insns_run_with r p m false (dd_insns f)) as [[_ ->]|(_ & _ & out & g & ->)]; discriminate.
  - discriminate.
Qed.
Lemma entries_no_panic r p md m en : rd_wrap r = true -> forall l, snd (dd_entries_with r p md m l en) <> Panic.
Proof.
  intros Hw. induction l as [|e l IH]; [destruct en; discriminate|].
  assert (Es : dd_entries_with r p md m (e :: l) en = lbind (entry_print_with r p md m e) (fun _ => dd_entries_with r p md m l en))
    by (destruct e; reflexivity).
  rewrite Es. pose proof (entry_no_panic r p md m e Hw) as H. destruct (entry_print_with r p md m e) as [ev [u|g|]].
  - rewrite lbind_ok. exact IH.
  - discriminate.
  - destruct (H eq_refl).
Qed.
Theorem repaired_no_crash r p object md path : rd_usage r = true -> rd_unwrap r = true -> rd_wrap r = true ->
  snd (dwarfdump_main_with r p object md path) <> Panic.
Proof.
  intros Hu Hn Hw. destruct path as [[path [file|]]|]; [|discriminate|cbn; rewrite Hu; discriminate].
  pose proof (main_run_with r p object md path file) as Hm. destruct (dd_entries_of md file) as [ents|].
  - cbv zeta in Hm. rewrite Hm. pose proof (entries_no_panic r p md (dd_arch file) (dde_end ents) Hw (dde_list ents)) as H.
    destruct (snd (dd_entries_with r p md (dd_arch file) (dde_list ents) (dde_end ents))) as [u|g|]; cbn [snd]; [discriminate| |contradiction].
    destruct (rd_status r); discriminate.
  - rewrite Hm, Hn. destruct (rd_status r); discriminate.
Qed.
(** What a missing argument and a section that cannot be decompressed lead to. *)
Theorem repaired_failures r p object md path m : rd_usage r = true -> rd_unwrap r = true -> rd_status r = true ->
  dwarfdump_main_with r p object md None = ([], Err DdUsage) /\
  dwarfdump_main_with r p object md (Some (path, Some {| dd_elf := file_of m []; dd_parse := None |})) =
  ([ErrOut ("Failed to dump '" ++ path ++ "': ObjectError(" ++ object ++ ")")], Err (DdDump DumpObject)).
Proof.
  intros Hu Hn Hs. split; [cbn; rewrite Hu; reflexivity|]. destruct r. cbn in *. subst. destruct m; reflexivity.
Qed.
Definition but_usage : dd_repairs := DdRepairs true false true true true true true.
Definition but_unwrap : dd_repairs := DdRepairs true true false true true true true.
Definition but_wrap : dd_repairs := DdRepairs true true true false true true true.
Theorem crash_repairs_needed :
  snd (dwarfdump_main_with but_usage some_dd "e" rel64 None) = Panic /\
  snd (dwarfdump_main_with but_unwrap some_dd "e" rel64 (Some ("a.out", Some {| dd_elf := file_of ElfX86_64 []; dd_parse := None |}))) = Panic /\
  snd (dwarfdump_main_with but_wrap some_dd "e" dev64 (Some ("a.out", Some (dd_of ElfX86_64 [last_dd_fde] None)))) = Panic.
Proof. repeat split; vm_compute; reflexivity. Qed.

(** ** C91 *)

Theorem repaired_names r m : rd_names r = true -> dd_table_with r m = names_for m /\
  names_right m (fun pr reg => dd_register_with r (bare_dd pr) m reg).
Proof.
  intros Hr. assert (E : dd_table_with r m = names_for m) by (unfold dd_table_with; rewrite Hr; destruct m; reflexivity).
  split; [exact E|]. change (names_right m (fun pr reg => register_text pr (dd_table_with r m) reg)). apply names_right_iff, E.
Qed.
Definition but_names : dd_repairs := DdRepairs true true true true true false true.
Theorem names_needed : ~ names_right ElfAarch64 (fun pr reg => dd_register_with but_names (bare_dd pr) ElfAarch64 reg).
Proof.
  change (~ names_right ElfAarch64 (fun pr reg => register_text pr (dd_table_with but_names ElfAarch64) reg)).
  rewrite names_right_iff. discriminate.
Qed.

(** ** C92 *)

Theorem repaired_others r p object md path file ents ev o :
  rd_block r = true -> rd_wrap r = true -> plain_texts (pd p) (dd_table_with r (dd_arch file)) -> pe_plain p -> noteless (pd p) ->
  dd_entries_of md file = Some ents -> Forall dd_typed (dde_list ents) ->
  dwarfdump_main_with r p object md (Some (path, Some file)) = (ev, o) ->
  exists lines views, stdout_of ev = dd_title :: lines /\
    read_dwarfdump (besides_notes lines) = Some views /\
    Forall2 (entry_shown_by (encoding_shown_with r p) p (dd_table_with r (dd_arch file))) (dde_list ents) views /\
    notes lines = flat_map (entry_notes (pd p)) (dde_list ents).
Proof.
  intros Hb Hw Hp Hpe Hnl He Ht H.
  destruct (main_printed_with r p object md path file ents ev o He Ht H) as (pre & post & rest & El & Hpre & Hs & Hx).
  destruct Hx as [(-> & -> & _)|(e & post' & _ & [(Hx & _)|(Hx & _)])]; [|congruence|congruence].
  rewrite !app_nil_r in *. subst pre.
  eexists _, (map (view_entry p (dd_table_with r (dd_arch file)) (pe_view_with r p)) (dde_list ents)).
  split; [exact Hs|]. destruct (entries_notes_apart r p (dd_table_with r (dd_arch file)) (dde_list ents) Hnl) as [E1 E2]. rewrite E2.
  split; [apply entries_read; [assumption|apply pe_view_with_read, Hpe|assumption|lia]|].
  split; [|exact E1].
  apply forall2_map. intros e Hin. apply entry_view_shown_by; [apply pe_view_with_shown|exact Hp|]. rewrite Forall_forall in Ht. apply Ht, Hin.
Qed.
Definition dd_said_with (r : dd_repairs) (md : mode) (m : elf_arch) (l : list dd_entry) (en : option gimli_error) : list event * outcome dd_main_error unit :=
  dwarfdump_main_with r some_dd "bad compression" md (Some ("a.out", Some (dd_of m l en))).
Theorem repaired_cut_dump : forall md,
  Forall dd_typed [cut_dd_fde; last_dd_fde] /\
  dd_said_with dd_all_repairs md ElfX86_64 [cut_dd_fde; last_dd_fde] (Some (GimliError 7)) =
  ([ Out "Exception handling frame information for section .eh_frame"; Out ""; Out "0x0000007c: FDE";
     Out "        length: 0x0000001c"; Out "   CIE_pointer: 0x00000000"; Out "    start_addr: 0x0000000000001020";
     Out "    range_size: 0x0000000000000010 (end_addr = 0x0000000000001030)"; Out "  Instructions:";
     Out "                DW_CFA_def_cfa_expression (...)"; Out "                  DW_OP_register_offset RSP 8 0";
     Out "Failed to decode expression: error 19"; Out "                DW_CFA_nop"; Out "";
     Out ""; Out "0x0000009c: FDE"; Out "        length: 0x0000001c"; Out "   CIE_pointer: 0x00000000";
     Out "    start_addr: 0xfffffffffffffff0";
     Out "    range_size: 0x0000000000000010 (end_addr = 0x0000000000000000)"; Out "  Instructions:";
     Out "                DW_CFA_nop"; Out "";
     ErrOut "Failed to dump 'a.out': GimliError(Error7)" ], Err (DdDump (DumpGimli (GimliError 7)))).
Proof. intros md. split; [some_typed|]. destruct md as [[] [] ? ?]; vm_compute; reflexivity. Qed.
Definition but_block : dd_repairs := DdRepairs true true true true false true true.
Theorem others_repairs_needed :
  In some_dd_fde [cut_dd_fde; some_dd_fde] /\
  ~ In "0x0000001c: FDE" (stdout_of (fst (dd_said_with but_block rel64 ElfX86_64 [cut_dd_fde; some_dd_fde] None))) /\
  ~ In "0x0000001c: FDE" (stdout_of (fst (dd_said_with but_wrap dev64 ElfX86_64 [last_dd_fde; some_dd_fde] None))) /\
  In "0x0000001c: FDE" (stdout_of (fst (dd_said_with dd_all_repairs rel64 ElfX86_64 [cut_dd_fde; some_dd_fde] None))) /\
  In "0x0000001c: FDE" (stdout_of (fst (dd_said_with dd_all_repairs dev64 ElfX86_64 [last_dd_fde; some_dd_fde] None))).
Proof.
  assert (D : forall s l, existsb (String.eqb s) l = false -> ~ In s l).
  { intros s l H Hin. assert (E : existsb (String.eqb s) l = true) by (apply existsb_exists; exists s; split; [exact Hin|apply String.eqb_refl]). congruence. }
  assert (Y : forall s l, existsb (String.eqb s) l = true -> In s l).
  { intros s l H. apply existsb_exists in H. destruct H as (x & Hx & E). apply String.eqb_eq in E. subst x. exact Hx. }
  split; [right; left; reflexivity|]. split; [apply D; vm_compute; reflexivity|]. split; [apply D; vm_compute; reflexivity|].
  split; apply Y; vm_compute; reflexivity.
Qed.

(** ** C93 *)

Theorem repaired_apart r p object md md' path path' file file' ents ents' ev ev' :
  let t := dd_table_with r (dd_arch file) in
  rd_bit r = true ->
  clear_texts (pd p) t -> plain_texts (pd p) t -> tidy_texts (pd p) t -> insn_texts (pd p) -> noteless (pd p) -> pe_plain p -> pe_apart p ->
  (forall d d', pr_die (pd p) d = pr_die (pd p) d' -> d = d') -> dd_table_with r (dd_arch file') = t ->
  dd_entries_of md file = Some ents -> Forall dd_typed (dde_list ents) ->
  dd_entries_of md' file' = Some ents' -> Forall dd_typed (dde_list ents') ->
  dwarfdump_main_with r p object md (Some (path, Some file)) = (ev, Ok tt) -> stderr_of ev = [] ->
  dwarfdump_main_with r p object md' (Some (path', Some file')) = (ev', Ok tt) -> stderr_of ev' = [] ->
  stdout_of ev = stdout_of ev' -> Forall2 (dd_same_by eq (pd p)) (dde_list ents) (dde_list ents').
Proof.
  intros t Hb Hc Hp Ht Hi Hnl Hpp Hpa Hd Ea He Hy He' Hy' H Hn H' Hn' E.
  destruct (main_printed_with r p object md path file ents ev _ He Hy H) as (pre & post & rest & El & _ & Hs & Hr).
  destruct (main_printed_with r p object md' path' file' ents' ev' _ He' Hy' H') as (pre' & post' & rest' & El' & _ & Hs' & Hr').
  destruct Hr as [(-> & -> & _)|(e & q & _ & [(_ & _ & Hx & _)|(_ & _ & g & _ & Hx)])]; [|discriminate Hx|congruence].
  destruct Hr' as [(-> & -> & _)|(e & q & _ & [(_ & _ & Hx & _)|(_ & _ & g & _ & Hx)])]; [|discriminate Hx|congruence].
  rewrite !app_nil_r in *. subst pre pre'. rewrite Hs, Hs' in E. injection E as E. rewrite Ea in E. fold t in E.
  apply (f_equal besides_notes) in E. rewrite !(proj2 (entries_notes_apart r p t _ Hnl)) in E.
  apply (f_equal read_dwarfdump) in E. unfold read_dwarfdump in E.
  rewrite !(entries_read p t (pe_text_with r p) (pe_view_with r p)) in E by (assumption || (apply pe_view_with_read; exact Hpp) || apply Nat.le_refl).
  apply some_inj, map_forall2 in E.
  eapply forall2_also; [|exact Hy|exact Hy'|exact E]. intros x y Hx Hx'. apply entry_view_apart; try assumption.
  intros a b. apply pe_view_with_apart; assumption.
Qed.
Theorem repaired_bit_shown : forall md,
  Forall dd_typed [cie_enc 0x1b] /\ Forall dd_typed [cie_enc 0x9b] /\
  In " lsda_encoding: DW_EH_PE_pcrel/DW_EH_PE_sdata4" (stdout_of (fst (dd_said_with dd_all_repairs md ElfX86_64 [cie_enc 0x1b] None))) /\
  In " lsda_encoding: DW_EH_PE_pcrel/DW_EH_PE_sdata4/Unknown DwEhPe: 128" (stdout_of (fst (dd_said_with dd_all_repairs md ElfX86_64 [cie_enc 0x9b] None))).
Proof.
  intros md. destruct (dd_bit_lost md ElfX86_64) as (H1 & H2 & _). split; [exact H1|]. split; [exact H2|].
  destruct md as [[] [] ? ?]; (split; vm_compute; tauto).
Qed.
Definition but_bit : dd_repairs := DdRepairs true true true true true true false.
Theorem bit_needed : forall md m,
  dd_said_with but_bit md m [cie_enc 0x1b] None = dd_said_with but_bit md m [cie_enc 0x9b] None /\
  snd (dd_said_with but_bit md m [cie_enc 0x1b] None) = Ok tt /\ stderr_of (fst (dd_said_with but_bit md m [cie_enc 0x1b] None)) = [].
Proof. intros md m. destruct md as [[] [] ? ?], m; vm_compute; repeat split. Qed.
