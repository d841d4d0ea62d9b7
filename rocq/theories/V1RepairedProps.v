(** The repaired first-generation converter: what holds of it. *)
From Coq Require Import String Ascii.
From Verif Require Export V1RepairedFacts.
From Verif Require Import BaseFacts LoudFacts OperandFacts DumpFacts V1Facts V1Text V1Witness ToolsFacts ToolsProps SetupFacts EmitFacts WriteFacts TripFacts.
From Verif Require Import ConvErrors ConvSection ConvRepairedFacts ConvRepairedSection ConvRepairedWalk ReadRepairedBuilt WalkFacts.
Local Open Scope string_scope.

Lemma all_repairs_rows : repairs_rows all_v1fixes.
Proof. constructor; reflexivity. Qed.

(** ** Reports *)

Lemma shown_rule p m rule : tidy_texts (p1 p) (rule_table m) -> rule_typed rule ->
  rule_shown_or p (rule_table m) rule (shown (v1_rule_text p m rule)).
Proof.
  intros Ht Hr. pose proof (v1_rule_shown_text p m rule) as H.
  destruct rule as [| |o|o|reg|x|x| |k]; try exact (H _ Ht Hr eq_refl).
  cbn [rule_shown_or]. destruct (well_formed x) eqn:Ew.
  - cbn [v1_rule_text] in *. rewrite (expression_printed p _ _ x Ew) in *. exact (H _ Ht Hr eq_refl).
  - cbn [v1_rule_text]. unfold expression_text, well_formed in *. destruct (ex_end x); [reflexivity|discriminate].
Qed.

Lemma read_as s : after "unsupported recovery rule for RBP: " s = None -> after "unsupported recovery rule for RSP: " s = None ->
  after "unsupported return address register " s = None -> forall why, read_v1_reason s = Some why -> read_v1_reason' s = Some (V1As why).
Proof. intros H1 H2 H3 why H. unfold read_v1_reason'. rewrite H1, H2, H3, H. reflexivity. Qed.

Ltac reason := eexists; eexists; eexists; split; [reflexivity|]; split; [try (apply read_as; [reflexivity|reflexivity|reflexivity|])|].

Lemma verdict_why p m c r chain : row_payload_typed r -> 0 <= c -> tidy_texts (p1 p) (rule_table m) -> verdict p m c r = inl chain ->
  exists h causes why, chain = h :: causes /\ read_v1_reason' h = Some why /\ v1_reason_holds' p m c r why.
Proof.
  intros [Hc Hr] Hcol Ht. unfold verdict. destruct (dr_cfa r) as [reg o|x] eqn:Ec.
  2:{ intros [= <-]. reason; [apply read_v1_expression|]. exists x. exact Ec. }
  destruct (if (reg =? 6)%Z then Some Fp else if (reg =? 7)%Z then Some Sp else None) as [b|] eqn:Eb.
  2:{ intros H. assert (chain = ["unsupported CFA source register " ++ v1_register p reg]) as -> by congruence.
      reason; [apply read_v1_register|]. exists reg, o. split; [exact Ec|]. cbn [reg_sp reg_fp]. split; [|split].
      - intros ->. discriminate Eb.
      - intros ->. discriminate Eb.
      - apply register_shown_text. lia. }
  apply base_cases in Eb. subst reg. destruct (in_i32b o) eqn:Eo.
  2:{ intros H. assert (chain = ["DWARF FDE register recovery offset " ++ fmt_hex 64 o ++ " was outside the bounds of an i32"]) as -> by congruence.
      reason; [apply read_v1_cfa|]. exists (reg_base Amd64 b). rewrite signed64_as_u by apply Hc. split; [exact Ec|apply not_in_i32, Eo]. }
  destruct (sp_is_cfa Amd64 r) eqn:Es.
  2:{ intros H. assert (chain = ["unsupported recovery rule for RSP: " ++ shown (v1_rule_text p m (dr_register r 7))]) as -> by congruence.
      exists ("unsupported recovery rule for RSP: " ++ shown (v1_rule_text p m (dr_register r 7))), [], (V1RspRule (shown (v1_rule_text p m (dr_register r 7)))).
      split; [reflexivity|]. split.
      - unfold read_v1_reason'. replace (after "unsupported recovery rule for RBP: " _) with (@None string) by reflexivity.
        rewrite after_app. reflexivity.
      - cbn [v1_reason_holds' reg_sp]. pose proof (proj2 (sp_is_cfa_spec Amd64 r)) as Hs. cbn [reg_sp] in Hs.
        split; [intros E; rewrite Hs in Es by (left; exact E); discriminate|].
        split; [intros E; rewrite Hs in Es by (right; exact E); discriminate|]. apply shown_rule; [exact Ht|apply Hr]. }
  destruct (Z.eqb_spec c 16) as [->|Hne].
  2:{ intros H. assert (chain = ["unsupported return address register " ++ v1_register p c]) as -> by congruence.
      exists ("unsupported return address register " ++ v1_register p c), [], (V1ReturnRegister (v1_register p c)).
      split; [reflexivity|]. split; [|split; [exact Hne|apply register_shown_text, Hcol]].
      unfold read_v1_reason'. replace (after "unsupported recovery rule for RBP: " _) with (@None string) by reflexivity.
      replace (after "unsupported recovery rule for RSP: " _) with (@None string) by reflexivity. rewrite after_app. reflexivity. }
  assert (Hra : forall fp, ra_verdict' p m r b o fp = inl chain ->
    exists h causes why, chain = h :: causes /\ read_v1_reason' h = Some why /\ v1_reason_holds' p m 16 r why).
  { intros fp. unfold ra_verdict'. pose proof (shown_rule p m (dr_register r 16) Ht (Hr 16)) as Hs.
    assert (Hn : (forall x, dr_register r 16 <> ROffset x) ->
      inl ["Unsupported recovery rule for RA: " ++ shown (v1_rule_text p m (dr_register r 16))] = @inl _ (base_reg * row_offsets) chain ->
      exists h causes why, chain = h :: causes /\ read_v1_reason' h = Some why /\ v1_reason_holds' p m 16 r why).
    { intros Hno H. assert (chain = ["Unsupported recovery rule for RA: " ++ shown (v1_rule_text p m (dr_register r 16))]) as -> by congruence.
      reason; [apply read_v1_ra|]. split; [exact Hno|exact Hs]. }
    destruct (dr_register r 16) as [| |a| | | | | |] eqn:E16; try (apply Hn; discriminate).
    destruct (in_i32b a) eqn:Ea; [discriminate|]. intros H.
    assert (chain = ["DWARF register offset " ++ fmt_dec a ++ " was outside the bounds of an i32"; int_error]) as -> by congruence.
    reason; [apply (read_v1_offset a " i32")|]. split; [apply not_in_i32, Ea|right; exact E16]. }
  pose proof (shown_rule p m (dr_register r 6) Ht (Hr 6)) as Hs.
  assert (Hn : dr_register r 6 <> RUndefined -> dr_register r 6 <> RSameValue -> (forall x, dr_register r 6 <> ROffset x) ->
      inl ["unsupported recovery rule for RBP: " ++ shown (v1_rule_text p m (dr_register r 6))] = @inl _ (base_reg * row_offsets) chain ->
      exists h causes why, chain = h :: causes /\ read_v1_reason' h = Some why /\ v1_reason_holds' p m 16 r why).
  { intros N1 N2 N3 H. assert (chain = ["unsupported recovery rule for RBP: " ++ shown (v1_rule_text p m (dr_register r 6))]) as -> by congruence.
    exists ("unsupported recovery rule for RBP: " ++ shown (v1_rule_text p m (dr_register r 6))), [], (V1RbpRule (shown (v1_rule_text p m (dr_register r 6)))).
    split; [reflexivity|]. split; [unfold read_v1_reason'; rewrite after_app; reflexivity|]. cbn [v1_reason_holds' reg_fp]. auto. }
  destruct (dr_register r 6) as [| |f| | | | | |] eqn:E6; try apply Hra; try (apply Hn; discriminate).
  destruct (in_i32b f) eqn:Ef; [apply Hra|]. intros H.
  assert (chain = ["DWARF register offset " ++ fmt_dec f ++ " was outside the bounds of an" ++ newline ++
                     "                                 i32"; int_error]) as -> by congruence.
  reason; [apply read_v1_offset|]. split; [apply not_in_i32, Ef|left; exact E6].
Qed.

Lemma note_right p m rc : row_payload_typed (fst rc) -> 0 <= snd rc -> tidy_texts (p1 p) (rule_table m) -> row_note p m rc (note p m rc).
Proof.
  intros Hy Hc Ht. unfold row_note, note. pose proof (verdict_inexpressible p m (snd rc) (fst rc)) as Hi.
  destruct (verdict p m (snd rc) (fst rc)) as [chain|v] eqn:E; split; try reflexivity.
  - intros _. destruct (verdict_why p m (snd rc) (fst rc) chain Hy Hc Ht E) as (h & causes & why & -> & H). eauto 6.
  - intros H. destruct H. apply Hi. eauto.
  - intros H. apply Hi in H. destruct H as (chain & [=]).
Qed.

Theorem v1_repaired_reports p md native c file ev o :
  tidy_texts (p1 p) (rule_table (elf_architecture file)) ->
  Forall row_payload_typed (all_rows (v1_entries_in all_v1fixes md file)) -> (forall f, 0 <= c f) ->
  v1_main_with all_v1fixes p md native c (Some file) = (ev, o) ->
  exists pre post notes, wide_with c (v1_entries_in all_v1fixes md file) = (pre ++ post)%list /\
    stderr_of ev = concat notes /\ Forall2 (row_note p (elf_architecture file)) pre notes /\
    (finished o -> post = []).
Proof.
  intros Ht Hy Hc H. unfold v1_entries_in in *.
  assert (HN : noted p (elf_architecture file) (wide_with c match elf_eh_frame file with
      | Some parse => ents_list (parse (v1_setup_with all_v1fixes md file)) | None => [] end) (ev, o)).
  { rewrite <- H. unfold v1_main_with. cbn [v1_machine all_v1fixes andb].
    destruct (negb (amd64_file file)); [apply noted_none; [reflexivity|discriminate]|].
    destruct (section_by_name ".eh_frame" (elf_sections file)); [|apply noted_none; [reflexivity|discriminate]].
    destruct (elf_eh_frame file) as [parse|]; [|apply noted_none; [reflexivity|discriminate]].
    apply noted_then; [apply sections_stderr|]. intros _ _.
    rewrite <- (app_nil_r (wide_with _ _)). apply noted_bind.
    - destruct (v1_convert_noted all_v1fixes p (elf_architecture file) md c (parse (v1_setup_with all_v1fixes md file)) all_repairs_rows)
        as (pre & post & H1 & H2 & H3). exists pre, post. split; [exact H1|]. split; [exact H2|].
      unfold loud_err. cbn [snd]. intros (a & Ha). apply H3.
      destruct (snd (v1_convert_with all_v1fixes p (elf_architecture file) md c (parse (v1_setup_with all_v1fixes md file)))); try discriminate Ha. eauto.
    - intros s _. apply noted_then; [reflexivity|]. intros bs _. apply noted_nil. reflexivity. }
  destruct HN as (pre & post & H1 & H2 & H3). exists pre, post, (map (note p (elf_architecture file)) pre).
  split; [exact H1|]. split; [cbn [fst] in H2; rewrite H2; apply flat_map_concat_map|]. split; [|exact H3].
  apply forall2_map. intros rc Hrc.
  assert (Hin : In rc (wide_with c match elf_eh_frame file with
      | Some parse => ents_list (parse (v1_setup_with all_v1fixes md file)) | None => [] end)) by (rewrite H1; apply in_or_app; left; exact Hrc).
  unfold wide_with in Hin. apply in_flat_map in Hin. destruct Hin as (f & Hf & Hin). apply in_map_iff in Hin. destruct Hin as (r & <- & Hr).
  unfold wide_rows in Hr. apply filter_In in Hr. destruct Hr as [Hr _].
  apply note_right; cbn [fst snd]; [|apply Hc|exact Ht].
  rewrite Forall_forall in Hy. apply Hy. unfold all_rows. apply in_flat_map. eauto.
Qed.

(** ** The outcome *)

Lemma v1_made fx p m md c eh s : repairs_rows fx -> eh_typed eh -> snd (v1_convert_with fx p m md c (eh_entries eh)) = Ok s ->
  sb_options s = v1_options /\ xmade v1_conv c eh s /\ v1_faultless c (eh_entries eh).
Proof.
  intros HF Ht H. destruct (v1_with_fate fx p m md c (eh_entries eh) HF Ht) as [(s' & H1 & H2 & H3 & H4)|((er & H1) & _)]; [|congruence].
  assert (s' = s) by congruence. subst s'. split; [exact H2|]. split; [|exact H4].
  constructor; rewrite H2; [apply v1_opts_reached|reflexivity|intros _; reflexivity|exact H3].
Qed.

Theorem v1_repaired_outcome p md native c file : file_typed file ->
  (exists er, snd (v1_main_with all_v1fixes p md native c (Some file)) = Err er) \/
  exists out parse addr, snd (v1_main_with all_v1fixes p md native c (Some file)) = Ok out /\
    elf_architecture file = ElfX86_64 /\ elf_endian file = RtLittle /\ has_section (elf_sections file) ".eh_frame" addr /\
    elf_eh_frame file = Some parse /\ v1_faultless c (parse (v1_setup_with all_v1fixes md file)).
Proof.
  intros Ht. unfold v1_main_with. cbn [v1_machine all_v1fixes andb].
  destruct (amd64_file file) eqn:Ea; cbn [negb]; [|left; eexists; reflexivity].
  destruct (section_by_name ".eh_frame" (elf_sections file)) as [addr|] eqn:Es; [|left; eexists; reflexivity].
  destruct (elf_eh_frame file) as [parse|] eqn:Ep; [|left; eexists; reflexivity].
  rewrite lbind_say. cbn [snd]. rewrite snd_lbind. unfold loud_err. cbn [snd].
  set (ents := parse (v1_setup_with all_v1fixes md file)). assert (Hy : ents_typed ents) by (apply (Ht parse _ Ep)).
  destruct (v1_with_fate all_v1fixes p (elf_architecture file) md c ents all_repairs_rows Hy) as [(s & H1 & H2 & H3 & H4)|((er & ->) & _)];
    [|left; eexists; reflexivity].
  rewrite H1. cbn [map_err bind]. rewrite snd_lbind. cbn [quiet snd].
  assert (HM : xmade v1_conv c (EhFrame false ents) s).
  { constructor; rewrite H2; [apply v1_opts_reached|reflexivity|intros _; reflexivity|exact H3]. }
  destruct (build md LE s) as [bs|er|] eqn:Eb; cbn [map_err bind].
  - right. exists {| out_arch := elf_architecture file; out_endian := elf_endian file; out_sframe := bs |}, parse, addr.
    split; [reflexivity|]. unfold amd64_file in Ea. destruct (elf_architecture file), (elf_endian file); try discriminate Ea.
    split; [reflexivity|]. split; [reflexivity|]. split; [apply section_found, Es|]. auto.
  - left. eexists. reflexivity.
  - exfalso. eapply build_no_panic_nonneg; [exact (xconv_reach _ _ _ _ HM md)| |exact Eb].
    intros b Hb. destruct (xconv_in _ _ _ _ HM b Hb) as (f & F1 & (F2 & _) & F3).
    destruct (xbuilt_inv _ _ _ _ _ F3) as (_ & _ & _ & E2 & _). rewrite E2. unfold in_u64 in F2. lia.
Qed.

Theorem v1_repaired_no_panic p md native c input : (forall file, input = Some file -> file_typed file) ->
  snd (v1_main_with all_v1fixes p md native c input) <> Panic.
Proof.
  intros Ht. destruct input as [file|]; [|discriminate].
  destruct (v1_repaired_outcome p md native c file (Ht file eq_refl)) as [(er & ->)|(out & _ & _ & -> & _)]; discriminate.
Qed.

(** ** Label, names, setup *)

Theorem v1_repaired_label md md' native p c file out : file_typed file ->
  snd (v1_main_with all_v1fixes p md native c (Some file)) = Ok out -> wf_mode md' -> rust_slice md' (out_sframe out) ->
  exists a sf, arch_of (elf_architecture file) = Some a /\ out_arch out = elf_architecture file /\ out_endian out = elf_endian file /\
    load md' (endian_of (elf_endian file)) (out_sframe out) = Ok sf /\ abi sf = abi_number a (elf_endian file).
Proof.
  intros Ht H Hm Hs. pose proof H as H0. unfold v1_main_with in H. cbn [v1_machine all_v1fixes andb] in H.
  destruct (amd64_file file) eqn:Ea; cbn [negb] in H; [|discriminate H].
  destruct (section_by_name ".eh_frame" (elf_sections file)); [|discriminate H].
  destruct (elf_eh_frame file) as [parse|] eqn:Ep; [|discriminate H].
  rewrite lbind_say in H. cbn [snd] in H. rewrite snd_lbind in H. unfold loud_err in H. cbn [snd] in H.
  destruct (snd (v1_convert_with all_v1fixes p (elf_architecture file) md c (parse (v1_setup_with all_v1fixes md file)))) as [s| |] eqn:Ec;
    cbn [map_err bind] in H; try discriminate H.
  rewrite snd_lbind in H. cbn [quiet snd] in H. destruct (build md LE s) as [bs| |] eqn:Eb; cbn [map_err bind] in H; try discriminate H.
  assert (out = {| out_arch := elf_architecture file; out_endian := elf_endian file; out_sframe := bs |}) as -> by congruence.
  cbn [out_sframe out_arch out_endian] in *.
  destruct (v1_made all_v1fixes p (elf_architecture file) md c (EhFrame false (parse (v1_setup_with all_v1fixes md file))) s all_repairs_rows (Ht parse _ Ep) Ec) as (Ho & HM & _).
  destruct (trip_descriptors md md' LE s bs (xconv_reach _ _ _ _ HM md) Eb Hm Hs) as (sf & HL & _ & _ & F2 & _).
  rewrite Ho in F2. unfold amd64_file in Ea. destruct (elf_architecture file), (elf_endian file); try discriminate Ea.
  exists Amd64, sf. split; [reflexivity|]. split; [reflexivity|]. split; [reflexivity|]. split; [exact HL|exact F2].
Qed.

Theorem v1_repaired_names p md native c file : fst (v1_main_with all_v1fixes p md native c (Some file)) <> [] ->
  names_right (elf_architecture file) (fun pr r => v1_register (Printers1 pr (fun _ => "") (fun _ => "")) r) /\
  names_right (elf_architecture file) (fun pr r => rule_register (Printers1 pr (fun _ => "") (fun _ => "")) (elf_architecture file) r).
Proof.
  unfold v1_main_with. cbn [v1_machine all_v1fixes andb]. intros H.
  assert (elf_architecture file = ElfX86_64) as ->.
  { unfold amd64_file in H. destruct (elf_architecture file); try (destruct H; reflexivity). reflexivity. }
  split; [apply v1_names; left; reflexivity|apply rule_names; split; discriminate].
Qed.

Theorem v1_repaired_setup md file :
  right_bases (elf_sections file) (ps_bases (v1_setup_with all_v1fixes md file)) /\
  right_setup (elf_architecture file) (v1_setup_with all_v1fixes md file).
Proof. split; [apply dwarfdump_bases_right|apply dwarfdump_setup_right]. Qed.
Theorem v1_repaired_parsed fx p md native c file file' : same_when_set_up (v1_setup_with fx md file) file file' ->
  v1_main_with fx p md native c (Some file') = v1_main_with fx p md native c (Some file).
Proof.
  intros (H1 & H2 & H3 & H4). unfold v1_main_with.
  assert (amd64_file file' = amd64_file file) as -> by (unfold amd64_file; rewrite H1, H2; reflexivity).
  assert (v1_setup_with fx md file' = v1_setup_with fx md file) as -> by (unfold v1_setup_with; rewrite H2, H3; reflexivity).
  rewrite H1, H2, H3. destruct (elf_eh_frame file') as [q|], (elf_eh_frame file) as [q'|]; try discriminate H4; [|reflexivity].
  cbn [option_map] in H4. assert (q (v1_setup_with fx md file) = q' (v1_setup_with fx md file)) as -> by congruence. reflexivity.
Qed.

(** ** What is converted *)

Lemma faultless_weaker c f fixed : fde_faultless Amd64 fixed c f -> fde_faultless Amd64 None c f.
Proof.
  intros (H1 & l & H2 & H3). split; [exact H1|]. exists l. split; [exact H2|]. intros pre r post E Hw. specialize (H3 pre r post E Hw).
  unfold no_fault, row_faults in *. rewrite !Forall_cons_iff in *. cbn [fst] in *.
  destruct H3 as (K1 & K2 & K3 & K4 & K5 & K6). repeat (split; [assumption|]). split; [|exact K6].
  intros (base & mg & cfa & ra & fp & x & _ & [=] & _).
Qed.
Theorem v1_follows_repaired fx p m md md' op c eh s : repairs_rows fx -> eh_typed eh -> op_arch op = Amd64 ->
  dwarf2sframe_repaired md op c eh = Ok s -> exists s', snd (v1_convert_with fx p m md' c (eh_entries eh)) = Ok s'.
Proof.
  intros HF Ht Ha H. destruct (repaired_outcome md op c eh Ht) as ((H1 & _) & _). destruct H1 as [F1 F2]; [eauto|]. rewrite Ha in F1.
  destruct (v1_with_fate fx p m md' c (eh_entries eh) HF Ht) as [(s' & -> & _)|(_ & HN)]; [eauto|]. destruct HN. split; [|exact F2].
  rewrite Forall_forall in *. intros x Hx. specialize (F1 x Hx). destruct x; cbn in *; try exact F1. eapply faultless_weaker, F1.
Qed.

(** With three repairs the converter does what it did on entries without rows of no width and
    without instructions. *)
Definition tidied_fde (f : dw_fde) : dw_fde :=
  DwFde (df_start f) (df_len f) (Insns [] None)
    (match df_rows f with inl rs => inl (DwRows (filter wideb (rows_list rs)) (rows_end rs)) | inr g => inr g end).
Definition tidied (l : list dw_entry) : list dw_entry :=
  map (fun x => match x with DwGoodFde f => DwGoodFde (tidied_fde f) | _ => x end) l.
Definition tidied_ents (ents : dw_entries) : dw_entries := DwEntries (tidied (ents_list ents)) (ents_end ents).

Lemma stops_add_row fx p m c b d r : repairs_stops fx -> snd (v1_add_row_with fx p m c b d r) = v1_add_row b d r.
Proof.
  intros [F1 F2 F3 F4 F5 F6 F7 F8]. unfold v1_add_row_with, v1_add_row.
  assert (H : match v1_translate d r with
    | Some nr => snd (v1_offsets_loud fx p m c d r) = Ok nr
    | None => exists chain, snd (v1_offsets_loud fx p m c d r) = Err chain end).
  { unfold v1_translate, v1_offsets_loud, shown_or_panic. rewrite F2, F4, F7, F8. cbn [andb].
    destruct (dr_cfa r) as [reg o|x]; [|eexists; reflexivity].
    destruct (reg =? 6)%Z; [|destruct (reg =? 7)%Z; [|eexists; reflexivity]]; rewrite !lbind_quiet_ok; cbn [fst snd];
      (destruct (in_i32b o); cbn [negb]; [rewrite !lbind_quiet_ok|eexists; reflexivity]);
      (destruct (dr_register r 6) as [| |f| | | |x6| |]; [| |destruct (in_i32b f)| | | | | |]; try (eexists; reflexivity));
      (destruct (dr_register r 16) as [| |a| | | |x16| |]; [| |destruct (in_i32b a)| | | | | |]); try reflexivity; eexists; reflexivity. }
  destruct (v1_translate d r) as [nr|].
  - rewrite H, F5. destruct (fdb_row b nr); reflexivity.
  - destruct H as (chain & ->). reflexivity.
Qed.
Lemma stops_rows fx p m md c f g : repairs_stops fx -> df_start g = df_start f -> forall l b,
  snd (v1_rows_with fx p m md c f l b) = v1_rows md (fun _ => true) g (filter wideb l) b.
Proof.
  intros HF Hg. pose proof HF as [F1 F2 F3 F4 F5 F6 F7 F8]. induction l as [|r l IH]; intros b; [reflexivity|].
  cbn [v1_rows_with filter]. rewrite F1, F5. cbn [andb]. unfold wideb at 1.
  destruct (dr_start r =? dr_end r)%Z; cbn [negb]; [apply IH|]. cbn [v1_rows negb]. rewrite Hg, snd_lbind. cbn [quiet snd].
  destruct (sub_u64 md (dr_start r) (df_start f)) as [d| |]; cbn [bind]; try reflexivity.
  destruct (negb (row_start_ok d)); [reflexivity|]. destruct (@row_print_with v1_error fx p m r F2) as (ls & ->).
  rewrite lbind_ok. cbn [snd]. rewrite snd_lbind, (stops_add_row fx p m c b d r HF).
  destruct (v1_add_row b d r); cbn [bind]; [apply IH|reflexivity|reflexivity].
Qed.
Lemma stops_entries fx p m md c : repairs_stops fx -> forall l s,
  snd (v1_entries_with fx p m md c l s) = v1_entries md (fun _ => true) (tidied l) s.
Proof.
  intros HF. pose proof HF as [F1 F2 F3 F4 F5 F6 F7 F8].
  induction l as [|[|g|f] l IH]; intros s; cbn [v1_entries_with v1_entries tidied map]; [reflexivity|apply IH|reflexivity|].
  rewrite snd_lbind. fold (tidied l).
  assert (snd (v1_fde_with fx p m md c s f) = v1_fde md (fun _ => true) s (tidied_fde f)) as ->.
  { unfold v1_fde_with, v1_fde. rewrite F6, F3. cbn [andb]. rewrite Bool.orb_false_r. cbn [df_start df_len df_rows tidied_fde].
    destruct (Z.ltb_spec i32_max (df_start f)) as [|Hs]; [reflexivity|].
    destruct (Z.ltb_spec i32_max (df_len f)) as [|Hl]; [reflexivity|]. destruct (df_rows f) as [rows|]; [|reflexivity].
    rewrite lbind_say. cbn [snd]. rewrite (add_small md _ _ Hs Hl), lbind_quiet_ok, !lbind_say. cbn [snd]. rewrite snd_lbind.
    rewrite (stops_rows fx p m md (c f) f (tidied_fde f) HF eq_refl). cbn [df_dump tidied_fde df_insns is_list dump_insns_result rows_list rows_end].
    fold (tidied_fde f).
    destruct (v1_rows md (fun _ => true) _ _ _) as [b| |]; cbn [bind]; try reflexivity.
    destruct (rows_end rows); [reflexivity|]. rewrite snd_lbind. cbn [quiet snd].
    destruct (merge_adjacent_fres b) as [b'| |]; cbn [map_err bind]; try reflexivity. rewrite snd_lbind. cbn [quiet snd].
    destruct (lift (sfb_fde s b')); cbn [bind]; reflexivity. }
  destruct (v1_fde md (fun _ => true) s (tidied_fde f)); cbn [bind]; [apply IH|reflexivity|reflexivity].
Qed.
Lemma stops_convert fx p m md c ents : repairs_stops fx ->
  snd (v1_convert_with fx p m md c ents) = v1_convert md (fun _ => true) (tidied_ents ents).
Proof.
  intros HF. unfold v1_convert_with, v1_convert. rewrite snd_lbind, (stops_entries fx p m md c HF). cbn [ents_list ents_end tidied_ents].
  destruct (v1_entries _ _ _ _); cbn [bind]; try reflexivity. destruct (ents_end ents); reflexivity.
Qed.

Lemma convert_rows_filter md op f g : df_start g = df_start f -> df_len g = df_len f -> forall l b,
  convert_rows md op g (filter wideb l) b = convert_rows md op f l b.
Proof.
  intros H1 H2. induction l as [|r l IH]; intros b; [reflexivity|]. cbn [filter convert_rows]. unfold wideb at 1.
  destruct (dr_start r =? dr_end r)%Z eqn:E; cbn [negb]; [apply IH|]. cbn [convert_rows]. rewrite E, H1.
  assert (convert_row md op g r = convert_row md op f r) as ->.
  { unfold convert_row, warn. rewrite H1, H2. reflexivity. }
  destruct (sub_u64 md (dr_start r) (df_start f)); cbn [bind]; try reflexivity.
  destruct (negb (row_start_ok _)); [reflexivity|].
  destruct (convert_row md op f r) as [res|[]|]; cbn [lift bind]; [|reflexivity].
  destruct res as [nr| |er]; cbn [bind]; [| |reflexivity];
    match goal with |- context [fdb_row ?b ?x] => destruct (fdb_row b x); try reflexivity; apply IH end.
Qed.
Lemma convert_tidied md op : forall l s s', convert_entries md op l s = Ok s' -> convert_entries md op (tidied l) s = Ok s'.
Proof.
  induction l as [|[|g|f] l IH]; intros s s' H; cbn [convert_entries tidied map] in *; [exact H|apply IH, H|discriminate|].
  fold (tidied l). apply bind_ok in H. destruct H as (s1 & H1 & H2).
  assert (convert_fde md op s (tidied_fde f) = Ok s1) as ->.
  { unfold convert_fde in *. cbn [df_start df_len df_rows tidied_fde df_dump df_insns is_list dump_insns_result].
    apply bind_ok in H1. destruct H1 as (u & D & H1).
    assert ((if op_debugdump op then let* _ := add_u64 md (df_start f) (df_len f) in Ok tt else Ok tt) = @Ok conv_error unit tt) as HD.
    { destruct (op_debugdump op); [|reflexivity]. apply bind_ok in D. destruct D as (e & -> & _). reflexivity. }
    change (df_dump (tidied_fde f)) with (@None gimli_error). cbv iota. rewrite HD. cbn [bind].
    destruct (i32_max <? df_start f)%Z; [discriminate|]. destruct (i32_max <? df_len f)%Z; [discriminate|].
    destruct (df_rows f) as [rows|g] eqn:Er; [|discriminate]. cbn [rows_list rows_end].
    fold (tidied_fde f). rewrite (convert_rows_filter md op f) by reflexivity. exact H1. }
  cbn [bind]. apply IH, H2.
Qed.

Theorem v1_follows_stops fx p m md md' op c eh s : repairs_stops fx -> eh_typed eh -> dwarf2sframe md op eh = Ok s ->
  exists s', snd (v1_convert_with fx p m md' c (eh_entries eh)) = Ok s'.
Proof.
  intros HF Ht H. rewrite (stops_convert fx p m md' c _ HF).
  set (eh' := EhFrame (eh_big_endian eh) (tidied_ents (eh_entries eh))). change (tidied_ents (eh_entries eh)) with (eh_entries eh').
  apply (v1_follows_v2 md md' op eh' s).
  - unfold eh_typed, entries_of in *. cbn [eh' eh_entries tidied_ents ents_list]. unfold tidied. apply Forall_map.
    eapply Forall_impl; [|exact Ht]. intros [|g|f]; cbn; auto. intros (T1 & T2 & T3). split; [exact T1|]. split; [exact T2|].
    unfold dw_rows_of in *. cbn [tidied_fde df_rows]. destruct (df_rows f) as [rows|]; [|constructor]. cbn [rows_list].
    rewrite Forall_forall in *. intros r Hr. apply filter_In in Hr. apply T3, Hr.
  - unfold dwarf2sframe, convert in *. apply bind_ok in H. destruct H as (s2 & H & H3). apply bind_ok in H. destruct H as (s1 & H1 & H2).
    assert (conv_sfoptions op eh' = conv_sfoptions op eh) as -> by reflexivity. cbn [eh' eh_entries tidied_ents ents_list ents_end].
    rewrite (convert_tidied md op _ _ _ H1). cbn [bind]. rewrite H2. cbn [bind]. exact H3.
  - intros f Hf. unfold entries_of in Hf. cbn [eh' eh_entries tidied_ents ents_list] in Hf.
    assert (exists g, f = tidied_fde g) as (g & ->).
    { clear -Hf. induction (ents_list (eh_entries eh)) as [|[|g|g] l IH]; cbn in Hf; [destruct Hf|auto|auto|].
      destruct Hf as [<-|Hf]; [eauto|auto]. }
    split; [reflexivity|]. intros r Hr. unfold dw_rows_of in Hr. cbn [tidied_fde df_rows] in Hr.
    destruct (df_rows g); [|destruct Hr]. cbn [rows_list] in Hr. apply filter_In in Hr. split; [apply wideb_spec, Hr|reflexivity].
Qed.

(** ** Walks, and both converters *)

Theorem v1_repaired_walks fx p m md md' md'' c eh s e bs w : repairs_rows fx -> eh_typed eh ->
  snd (v1_convert_with fx p m md c (eh_entries eh)) = Ok s ->
  build_repaired md' e s = Ok bs -> wf_mode md'' -> rust_slice md'' bs ->
  (forall f, last_at eh f -> rows_disjoint f /\ rows_cover f) ->
  exists sf, load md'' e bs = Ok sf /\ same_link_walks w Amd64 (dw_says eh c) (looked_up_whole md'' e sf).
Proof.
  intros HF Ht H. destruct (v1_made fx p m md c eh s HF Ht H) as (_ & HM & _). apply (made_walks md' md'' v1_conv c eh s e bs w HM).
Qed.

Lemma last_row_before x : forall l : list dw_row, (exists r, In r l /\ dr_start r <= x) ->
  exists r, In r l /\ dr_start r <= x /\ forall r', In r' l -> dr_start r' <= x -> dr_start r' <= dr_start r.
Proof.
  induction l as [|y l IH]; intros (r & Hr & Hx); [destruct Hr|].
  destruct (Z_le_gt_dec (dr_start y) x) as [Hy|Hy].
  - assert (D : (exists r, In r l /\ dr_start r <= x) \/ ~ exists r, In r l /\ dr_start r <= x).
    { clear. induction l as [|y l [(r & H1 & H2)|IH]]; [right; intros (r & [] & _)|left; exists r; split; [right; exact H1|exact H2]|].
      destruct (Z_le_gt_dec (dr_start y) x); [left; exists y; split; [left; reflexivity|assumption]|].
      right. intros (r & [<-|Hr] & H2); [lia|]. apply IH. eauto. }
    destruct D as [D|D].
    + destruct (IH D) as (z & Z1 & Z2 & Z3). destruct (Z_le_gt_dec (dr_start y) (dr_start z)).
      * exists z. split; [right; exact Z1|]. split; [exact Z2|]. intros r' [<-|Hr'] H; [assumption|auto].
      * exists y. split; [left; reflexivity|]. split; [exact Hy|]. intros r' [<-|Hr'] H; [lia|]. specialize (Z3 r' Hr' H). lia.
    + exists y. split; [left; reflexivity|]. split; [exact Hy|]. intros r' [<-|Hr'] H; [lia|]. destruct D. eauto.
  - destruct Hr as [<-|Hr]; [lia|]. destruct IH as (z & Z1 & Z2 & Z3); [eauto|]. exists z. split; [right; exact Z1|]. split; [exact Z2|].
    intros r' [<-|Hr'] H; [lia|auto].
Qed.
Lemma conveys_agree a r k u1 u2 : conveys a r k u1 -> conveys a r k u2 -> agree u1 u2.
Proof.
  intros [A1 A2] [B1 B2]. destruct (express a k r) as [[[[[base mg] cfa] ra] fp]|] eqn:E.
  - apply express_spec in E. left. rewrite (A1 _ _ _ _ _ E), (B1 _ _ _ _ _ E). reflexivity.
  - apply express_none in E. right. split; [apply A2, E|apply B2, E].
Qed.
Lemma made_asks op1 op2 c eh s1 s2 x k u : op_arch op1 = op_arch op2 -> xmade op1 c eh s1 -> xmade op2 c eh s2 ->
  asked_with_key s1 x k u -> exists u', asked_with_key s2 x k u'.
Proof.
  intros Ha M1 M2 H. destruct (xconv_only _ _ _ _ M1 x k u H) as (-> & f & r & F1 & F2 & F3 & F4).
  destruct (last_row_before x (wide_rows f)) as (z & Z1 & Z2 & Z3); [eauto|].
  destruct (xconv_asked _ _ _ _ M2 f x z F1 F2 Z1 Z2 Z3) as (u' & Hu & _). eauto.
Qed.

Theorem both_repaired_agree fx p m md md2 md' md'' op c eh s1 s2 e1 e2 bs1 bs2 : repairs_rows fx -> op_arch op = Amd64 -> eh_typed eh ->
  snd (v1_convert_with fx p m md c (eh_entries eh)) = Ok s1 -> dwarf2sframe_repaired md2 op c eh = Ok s2 ->
  build_repaired md' e1 s1 = Ok bs1 -> build_repaired md' e2 s2 = Ok bs2 -> wf_mode md'' -> rust_slice md'' bs1 -> rust_slice md'' bs2 ->
  exists sf1 sf2, load md'' e1 bs1 = Ok sf1 /\ load md'' e2 bs2 = Ok sf2 /\
    (forall x, (exists u1, looked_up_whole md'' e1 sf1 x u1) <-> exists u2, looked_up_whole md'' e2 sf2 x u2) /\
    (forall x u1 u2, looked_up_whole md'' e1 sf1 x u1 -> looked_up_whole md'' e2 sf2 x u2 -> agree u1 u2).
Proof.
  intros HF Ha Ht H1 H2 B1 B2 Hm R1 R2.
  destruct (v1_made fx p m md c eh s1 HF Ht H1) as (_ & M1 & _).
  pose proof (xconverted_made _ _ _ _ (repaired_converted _ _ _ _ _ Ht H2)) as M2.
  assert (HA : op_arch v1_conv = op_arch op) by (rewrite Ha; reflexivity).
  destruct (both_repaired md' e1 s1 bs1 (xconv_reach _ _ _ _ M1 md') B1 md'' Hm R1) as (sf1 & L1 & K1).
  destruct (both_repaired md' e2 s2 bs2 (xconv_reach _ _ _ _ M2 md') B2 md'' Hm R2) as (sf2 & L2 & K2).
  exists sf1, sf2. split; [exact L1|]. split; [exact L2|]. split.
  - intros x. split; intros (u & Hx & k & Hk).
    + apply (K1 x Hx) in Hk. destruct (made_asks _ _ _ _ _ _ _ _ _ HA M1 M2 Hk) as (u' & Hu). exists u'. split; [exact Hx|].
      exists k. apply (K2 x Hx), Hu.
    + apply (K2 x Hx) in Hk. destruct (made_asks _ _ _ _ _ _ _ _ _ (eq_sym HA) M2 M1 Hk) as (u' & Hu). exists u'. split; [exact Hx|].
      exists k. apply (K1 x Hx), Hu.
  - intros x u1 u2 (Hx & k1 & Hk1) (_ & k2 & Hk2).
    pose proof (proj1 (proj1 (K1 x Hx) k1 u1) Hk1) as A1.
    destruct (xconv_only _ _ _ _ M1 x k1 u1 A1) as (-> & f & r & F1 & F2 & F3 & F4).
    destruct (last_row_before x (wide_rows f)) as (z & Z1 & Z2 & Z3); [eauto|].
    destruct (xconv_asked _ _ _ _ M1 f x z F1 F2 Z1 Z2 Z3) as (v1 & V1 & C1).
    destruct (xconv_asked _ _ _ _ M2 f x z F1 F2 Z1 Z2 Z3) as (v2 & V2 & C2).
    pose proof (proj1 (proj1 (K2 x Hx) k2 u2) Hk2) as A2. destruct (xconv_only _ _ _ _ M2 x k2 u2 A2) as (-> & _).
    pose proof (proj2 (proj1 (K1 x Hx) KeyA v1) V1) as W1. pose proof (proj2 (proj1 (K2 x Hx) KeyA v2) V2) as W2.
    rewrite Hk1 in W1. rewrite Hk2 in W2. assert (u1 = v1) as -> by congruence. assert (u2 = v2) as -> by congruence.
    change (op_arch v1_conv) with Amd64 in C1. rewrite Ha in C2. eapply conveys_agree; eassumption.
Qed.
