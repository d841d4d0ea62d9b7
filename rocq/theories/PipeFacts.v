(** Proofs about tools run one after the other. *)
From Coq Require Import String ZArith List Lia.
From Verif Require Export PipeSpec.
From Verif Require Import CfiTotal TextFacts DumpFacts LookupFacts.
Import ListNotations.
Open Scope Z_scope.
Open Scope list_scope.

Lemma shows_looks {E} mk (o : outcome E Z) c : shows mk o c -> c = match res o with Some z => mk z | None => CellUnknown end.
Proof. intros [H1 H2]. destruct o; cbn [res]; [apply H1; reflexivity|apply H2; discriminate|apply H2; discriminate]. Qed.

Lemma no_error_item good good' (er : option read_error) :
  map (@inl fre read_error) good = map inl good' ++ match er with Some x => [inr x] | None => [] end -> good' = good /\ er = None.
Proof.
  intros HE. destruct er as [x|].
  - exfalso. assert (Hin : In (inr x) (map (@inl fre read_error) good)) by (rewrite HE; apply in_or_app; right; left; reflexivity).
    apply in_map_iff in Hin. destruct Hin as (y & Hy & _). discriminate.
  - rewrite app_nil_r in HE. split; [symmetry; apply map_inl_inj in HE; exact HE|reflexivity].
Qed.

Section Dump.
  Context (md : mode) (e : endian) (sf : sframe).

  Lemma plain_rows en : wf_mode md -> fde_ok (en_fde en) -> plain_function md e en ->
    exists good, all_fres md e en = Ok (map inl good) /\
      Forall (fun fr => @fre_start_address never md fr = Ok (en_start_address en + fre_start_address_offset fr)) good.
  Proof.
    intros Hm Hok (_ & (good & Hg) & Hend). exists good. split; [exact Hg|].
    unfold all_fres in Hg.
    assert (Hst : Forall (fun fr => 0 <= fre_start_address_offset fr) good) by (apply (collect_starts md e (fri_fuel (fres en)) (fres en) good []); cbn [map]; rewrite app_nil_r; exact Hg).
    destruct (fri_collect_shape md e _ (fres en) _ Hm Hok Hg) as (good' & bad & aw & rest & HE & HB & HF & _).
    assert (good' = good /\ match bad with [] => None | b :: _ => Some b end = None) as [-> _].
    { apply no_error_item. rewrite HE. destruct bad as [|b [|? ?]]; [reflexivity|reflexivity|cbn in HB; lia]. }
    rewrite Forall_forall in *. intros fr Hfr. destruct (HF fr Hfr) as [F1 F2]. specialize (Hst fr Hfr). cbn [fres ri_fde] in F1, F2.
    destruct (@start_address_spec never md fr) as [HS _]. rewrite F1 in HS. unfold en_start_address, en_size in *. apply HS.
    destruct Hok as ([S1 S2] & _). unfold in_i32, i32_max, i32_min in *. lia.
  Qed.

  (** The lines of a plain function. *)
  Lemma plain_lines idx en l : wf_mode md -> fde_ok (en_fde en) -> plain_function md e en -> func_lines md e sf idx en l ->
    exists good, all_fres md e en = Ok (map inl good) /\
      l = LineFunc idx (en_start_address en) (en_size en) :: LineColumns PPcInc ::
          map (fun fr => let v := looks (observed sf fr) in
             LineRow (en_start_address en + fre_start_address_offset fr) (sh_cfa v) (sh_fp v) (sh_ra v) (sh_mangled v)) good ++ [LineBlank].
  Proof.
    intros Hm Hok HP (good' & er & rows & HR & HF & ->). destruct (plain_rows en Hm Hok HP) as (good & Hg & Hs).
    exists good. split; [exact Hg|]. unfold fre_results in HR. rewrite Hg in HR. apply ok_inj in HR. apply no_error_item in HR.
    destruct HR as [-> ->]. destruct HP as (-> & _). cbn [List.app]. do 3 f_equal.
    clear Hg. induction HF as [|fr ln t t' HL _ IH]; [reflexivity|]. inversion Hs as [|? ? S1 S2]; subst. cbn [map]. f_equal; [|apply IH, S2].
    destruct HL as (start & cfa & fp & ra & -> & A1 & A2 & A3 & A4). rewrite S1 in A1. injection A1 as <-.
    apply shows_looks in A2, A3, A4. subst. reflexivity.
  Qed.

  Lemma rows_are_rows en good : Forall is_row (map (fun fr => let v := looks (observed sf fr) in
             LineRow (en_start_address en + fre_start_address_offset fr) (sh_cfa v) (sh_fp v) (sh_ra v) (sh_mangled v)) good).
  Proof. apply Forall_map. apply Forall_forall. intros; exact I. Qed.

  (** Rows up to the blank line can be divided in one way only. *)
  Lemma rows_until_blank rows rows' after after' : Forall is_row rows -> Forall is_row rows' ->
    rows ++ LineBlank :: after = rows' ++ LineBlank :: after' -> rows = rows' /\ after = after'.
  Proof.
    revert rows'. induction rows as [|x t IH]; intros [|y t'] H H' HE; cbn [List.app] in HE.
    - injection HE as ->. auto.
    - injection HE as <- _. inversion H' as [|? ? X _]; destruct X.
    - injection HE as -> _. inversion H as [|? ? X _]; destruct X.
    - injection HE as -> HE. inversion H; inversion H'; subst. destruct (IH t' ltac:(assumption) ltac:(assumption) HE) as [-> ->]. auto.
  Qed.

  (** A heading starts the lines of a function. *)
  Lemma heading_found : forall ens idx out before idx' start size rows after,
    wf_mode md -> Forall (fun en => fde_ok (en_fde en) /\ plain_function md e en) ens ->
    all_func_lines md e sf idx ens out -> Forall is_row rows ->
    out = before ++ LineFunc idx' start size :: LineColumns PPcInc :: rows ++ LineBlank :: after ->
    exists en good, In en ens /\ all_fres md e en = Ok (map inl good) /\ start = en_start_address en /\ size = en_size en /\
      rows = map (fun fr => let v := looks (observed sf fr) in
             LineRow (en_start_address en + fre_start_address_offset fr) (sh_cfa v) (sh_fp v) (sh_ra v) (sh_mangled v)) good.
  Proof.
    induction ens as [|en t IH]; intros idx out before idx' start size rows after Hm HP HA HR HE.
    - cbn in HA. subst out. destruct before; discriminate.
    - destruct HA as (l1 & l2 & -> & H1 & H2). inversion HP as [|? ? [P1 P2] P3]; subst.
      destruct (plain_lines idx en l1 Hm P1 P2 H1) as (good & Hg & ->).
      set (rs := map _ good) in *. pose proof (rows_are_rows en good) as HRS. fold rs in HRS.
      assert (Hcases : before = [] \/ exists b, before = LineFunc idx (en_start_address en) (en_size en) :: LineColumns PPcInc :: rs ++ LineBlank :: b /\
                l2 = b ++ LineFunc idx' start size :: LineColumns PPcInc :: rows ++ LineBlank :: after).
      { destruct before as [|b0 before]; [left; reflexivity|right]. cbn [List.app] in HE. injection HE as <- HE.
        destruct before as [|b1 before]; [discriminate|]. cbn [List.app] in HE. injection HE as <- HE.
        rewrite <- app_assoc in HE. cbn [List.app] in HE. revert HE. clear - HRS. clearbody rs. revert before. induction rs as [|r rs IH]; intros before HE.
        - cbn [List.app] in HE. destruct before as [|b2 before]; [discriminate|]. injection HE as <- ->. exists before. split; reflexivity.
        - inversion HRS as [|? ? R1 R2]; subst. cbn [List.app] in HE. destruct before as [|b2 before].
          + cbn [List.app] in HE. injection HE as -> _. destruct R1.
          + cbn [List.app] in HE. injection HE as <- HE. destruct (IH R2 before HE) as (b & [= ->] & ->). exists b. split; reflexivity. }
      destruct Hcases as [->|(b & -> & ->)].
      + cbn [List.app] in HE. injection HE as <- <- <- HE. rewrite <- app_assoc in HE. cbn [List.app] in HE.
        apply rows_until_blank in HE; [|exact HRS|exact HR]. destruct HE as [<- _].
        exists en, good. split; [left; reflexivity|]. auto.
      + destruct (IH _ _ b idx' start size rows after Hm P3 H2 HR eq_refl) as (en' & good' & I1 & I2).
        exists en', good'. split; [right; exact I1|exact I2].
  Qed.

  Lemma lines_on_stdout : forall ens idx out, wf_mode md -> Forall (fun en => fde_ok (en_fde en) /\ plain_function md e en) ens ->
    all_func_lines md e sf idx ens out -> filter on_stdout out = out /\ errors_in out = [].
  Proof.
    induction ens as [|en t IH]; intros idx out Hm HP HA.
    - cbn in HA. subst. split; reflexivity.
    - destruct HA as (l1 & l2 & -> & H1 & H2). inversion HP as [|? ? [P1 P2] P3]; subst.
      destruct (plain_lines idx en l1 Hm P1 P2 H1) as (good & _ & ->). destruct (IH _ _ Hm P3 H2) as [I1 I2].
      assert (forall l, filter on_stdout (map (fun fr => let v := looks (observed sf fr) in
             LineRow (en_start_address en + fre_start_address_offset fr) (sh_cfa v) (sh_fp v) (sh_ra v) (sh_mangled v)) l)
               = map (fun fr => let v := looks (observed sf fr) in
             LineRow (en_start_address en + fre_start_address_offset fr) (sh_cfa v) (sh_fp v) (sh_ra v) (sh_mangled v)) l) as X.
      { induction l as [|a l IHl]; [reflexivity|]. cbn [map filter on_stdout]. f_equal. exact IHl. }
      split.
      + cbn [List.app filter on_stdout]. rewrite !filter_app, X. cbn [filter on_stdout]. rewrite I1. reflexivity.
      + cbn [List.app errors_in flat_map]. unfold errors_in in *. cbn [flat_map List.app]. rewrite !flat_map_app, I2, app_nil_r.
        cbn [flat_map List.app]. rewrite app_nil_r. clear. induction good as [|a l IHl]; [reflexivity|exact IHl].
  Qed.

  (** The dump says what the section says. *)
  Theorem dump_says_section out x v : wf_mode md -> Forall (fun en => fde_ok (en_fde en) /\ plain_function md e en) (all_fdes sf) ->
    all_func_lines md e sf 0 (all_fdes sf) out ->
    (dump_says out x v <-> exists u, section_says md e sf x u /\ v = looks u).
  Proof.
    intros Hm HP HA. split.
    - intros (before & idx & start & size & rows & after & s & HE & HR & Hx & Hin & Hle & Hmax).
      destruct (heading_found _ _ _ _ _ _ _ _ _ Hm HP HA HR HE) as (en & good & Hen & Hg & -> & -> & ->).
      apply in_map_iff in Hin. destruct Hin as (fr & Hfr & Hin). cbv zeta in Hfr. injection Hfr as <- E1 E2 E3 E4.
      exists (observed sf fr). split.
      + exists en, good, fr. split; [exact Hen|]. split; [exact Hx|]. split; [exact Hg|]. split; [exact Hin|]. split; [exact Hle|].
        split; [|reflexivity]. intros fr' Hfr' Hle'.
        specialize (Hmax (en_start_address en + fre_start_address_offset fr')).
        enough (en_start_address en + fre_start_address_offset fr' <= en_start_address en + fre_start_address_offset fr) by lia.
        eapply Hmax; [|exact Hle']. apply in_map_iff. exists fr'. split; [reflexivity|exact Hfr'].
      + destruct v as [a b c d]. cbn [sh_cfa sh_fp sh_ra sh_mangled] in *. subst. reflexivity.
    - intros (u & (en & good & fr & Hen & Hx & Hg & Hfr & Hle & Hmax & <-) & ->).
      apply In_nth_error in Hen. destruct Hen as [i Hi]. pose proof (nth_error_In _ _ Hi) as Hen.
      rewrite Forall_forall in HP. destruct (HP en Hen) as [P1 P2].
      destruct (dump_functions md e sf _ _ _ HA i en Hi) as (before & l & after & -> & Hl).
      destruct (plain_lines _ en l Hm P1 P2 Hl) as (good' & Hg' & ->). rewrite Hg in Hg'. apply ok_inj, map_inl_inj in Hg'. subst good'.
      eexists before, _, _, _, _, after, (en_start_address en + fre_start_address_offset fr). split.
      { f_equal. cbn [List.app]. rewrite <- app_assoc. cbn [List.app]. reflexivity. }
      split; [apply rows_are_rows|]. split; [exact Hx|]. split; [apply in_map_iff; exists fr; split; [reflexivity|exact Hfr]|]. split; [exact Hle|].
      intros s' cfa fp ra m Hin Hle'. apply in_map_iff in Hin. destruct Hin as (fr' & Hfr' & Hin). cbv zeta in Hfr'. injection Hfr' as <- _ _ _ _.
      specialize (Hmax fr' Hin ltac:(lia)). lia.
  Qed.
End Dump.

Lemma no_stderr l : errors_in l = [] -> stderr_text l = ""%string.
Proof.
  unfold stderr_text, errors_in. intros H. enough (flat_map line_stderr l = []) as -> by reflexivity.
  induction l as [|x t IH]; [reflexivity|]. cbn [flat_map] in *. apply app_eq_nil in H. destruct H as [H1 H2]. rewrite (IH H2), app_nil_r.
  destruct x; try reflexivity. discriminate.
Qed.

Lemma built_plain md' md'' e s bs sf : sfb_sized md' s -> build md' e s = Ok bs -> wf_mode md'' -> rust_slice md'' bs -> load md'' e bs = Ok sf ->
  Forall (fun b => fb_rep_size b = None /\ fb_start b + fb_size b <= 2 ^ 31) (fdes_of s) ->
  Forall (fun en => fde_ok (en_fde en) /\ plain_function md'' e en) (all_fdes sf).
Proof.
  intros HS B Hm Hs HL HP.
  destruct (trip_readable_sized md' md'' e s bs HS B Hm Hs) as (sf' & L' & HR). assert (sf' = sf) by congruence. subst sf'.
  destruct (trip_descriptors md' md'' e s bs (proj1 (sfb_sized_reach _ _ HS)) B Hm Hs) as (sf' & L2 & _ & _ & _ & _ & _ & _ & _ & _ & HD).
  assert (sf' = sf) by congruence. subst sf'.
  pose proof (loaded_fdes_ok _ _ _ _ Hm Hs HL) as Hok. rewrite all_fdes_map in *. rewrite Forall_forall in *. intros en Hen.
  split; [apply in_map_iff in Hen; destruct Hen as (f & <- & Hf); exact (Hok f Hf)|].
  destruct (Forall2_in_r _ _ _ _ HD Hen) as (b & Hb & D1 & D2 & D3 & _). destruct (HP b Hb) as [P1 P2].
  split; [|split; [exact (HR en Hen)|rewrite D1, D2; exact P2]]. rewrite D3. unfold pub_type. rewrite P1. reflexivity.
Qed.

(** Building, reading and dumping in a row. *)
Lemma dump_built md' md'' e s bs abi_name : sfb_sized md' s -> build md' e s = Ok bs -> wf_mode md'' -> rust_slice md'' bs ->
  Forall (fun b => fb_rep_size b = None /\ fb_start b + fb_size b <= 2 ^ 31) (fdes_of s) -> (forall n, without newline_char (abi_name n)) ->
  exists sf l h rest, load md'' e bs = Ok sf /\ dump md'' e sf = Ok l /\ read_dump (stdout_text abi_name l) = Some (h, rest) /\ stderr_text l = ""%string /\
    forall x v, dump_says rest x v <-> exists u, section_says md'' e sf x u /\ v = looks u.
Proof.
  intros HS B Hm Hs HP Ha.
  destruct (trip_readable_sized md' md'' e s bs HS B Hm Hs) as (sf & HL & _).
  pose proof (built_plain _ _ _ _ _ _ HS B Hm Hs HL HP) as HQ.
  destruct (dump_exact md'' e bs sf Hm Hs HL) as [HD1 HD2].
  assert (HN : dump md'' e sf <> Panic).
  { rewrite HD1. intros (en & Hen & Hpan). rewrite Forall_forall in HQ. destruct (HQ en Hen) as [Q1 Q2].
    destruct (plain_rows md'' e en Hm Q1 Q2) as (good & Hg & Hst).
    destruct Hpan as [Hpan|(good' & er & fr & HR & Hfr & Hpan)]; [congruence|].
    unfold fre_results in HR. rewrite Hg in HR. apply ok_inj, no_error_item in HR. destruct HR as [-> _].
    rewrite Forall_forall in Hst. rewrite (Hst fr Hfr) in Hpan. discriminate. }
  destruct (HD2 HN) as (out & HD & _).
  destruct (dump_text_read md'' e bs sf abi_name _ Hm Hs HL HD (Ha _)) as (rest & HE & HA & HT & _).
  destruct (lines_on_stdout md'' e sf _ _ _ Hm HQ HA) as [O1 O2]. rewrite O1 in HT.
  eexists sf, _, _, rest. split; [exact HL|]. split; [exact HD|]. split; [exact HT|]. split.
  - injection HE as <-. apply no_stderr. exact O2.
  - intros x v. apply dump_says_section; assumption.
Qed.

Lemma holds_dump md native dumped out sf l : wf_mode md -> rust_slice md (out_sframe out) -> holds_section dumped out ->
  load md native (out_sframe out) = Ok sf -> dump md native sf = Ok l -> sframedump_main md native (Some dumped) = Ok l.
Proof.
  intros Hm Hs ((addr & H1) & H2) HL HD. apply dump_main_ok; [exact Hm|intros bs Hb; rewrite H2 in Hb; injection Hb as <-; exact Hs|].
  exists addr, (out_sframe out), sf. auto.
Qed.

Theorem dump_shows_programs md md' args file out a parse dumped abi_name :
  let eh := file_eh md file parse in let op := cli_options args a (elf_endian file) in
  file_typed file -> dwarf2sframe2_main md args (Some file) = Ok out ->
  arch_of (elf_architecture file) = Some a -> elf_eh_frame file = Some parse ->
  holds_section dumped out -> wf_mode md' -> rust_slice md' (out_sframe out) -> (forall n, without newline_char (abi_name n)) ->
  (forall f, last_at eh f -> ends_in_range f /\ (exists c, follows_dwarf c f) /\
     forall r, In r (wide_rows f) -> ~ clash a (fixed_ra_of op eh) r) ->
  exists l h rest, sframedump_main md' (endian_of (elf_endian file)) (Some dumped) = Ok l /\
    read_dump (stdout_text abi_name l) = Some (h, rest) /\ stderr_text l = ""%string /\
    (forall c f x, last_at eh f -> follows_dwarf c f -> in_range (df_start f) (df_len f) x ->
       exists st u, cfi_at c f x = Some st /\ matches a (as_row st) u /\ dump_says rest x (looks u) /\
         forall v, dump_says rest x v -> v = looks u) /\
    forall x v, dump_says rest x v -> exists f, last_at eh f /\ in_range (df_start f) (df_len f) x.
Proof.
  intros eh op Ht H HA HP Hh Hm Hs Hn Hgood. apply v2_main_ok in H. destruct H as (a' & addr & parse' & s & bs & H1 & H2 & H3 & H4 & H5 & ->).
  assert (a' = a) by congruence. assert (parse' = parse) by congruence. subst a' parse'. fold eh op in H4. cbn [out_sframe] in *.
  assert (Te : eh_typed eh) by exact (Ht parse _ HP). assert (Hop : op_arch op = a) by reflexivity.
  destruct (program_preserved md md md' op eh s _ bs Te H4 H5 Hm Hs) as (sf & HL & P1 & P2).
  { rewrite Hop. intros f Hf. apply (Hgood f Hf). }
  pose proof (dwarf2sframe_converted _ _ _ _ Te H4) as HC.
  destruct (dump_built md md' _ s bs abi_name (converted_sized _ _ _ _ HC) H5 Hm Hs) as (sf' & l & h & rest & L & D & R & E & S); [|exact Hn|].
  { apply Forall_forall. intros b Hb. destruct (proj1 (proj2 (conv_functions md op eh s Te H4)) b Hb) as (f & F1 & F2 & F3 & F4 & _).
    split; [exact F4|]. rewrite F2, F3. apply (Hgood f F1). }
  assert (sf' = sf) by congruence. subst sf'.
  exists l, h, rest. split; [eapply (holds_dump md' _ dumped (OutFile _ _ bs)); eassumption|]. split; [exact R|]. split; [exact E|]. split.
  - intros c f x Hf Hc Hx. destruct (P1 c f x Hf Hc Hx) as (st & u & Q1 & Q2 & Q3 & Q4). exists st, u. split; [exact Q1|]. split; [exact Q3|].
    split; [apply S; eauto|]. intros v Hv. apply S in Hv. destruct Hv as (u' & Hu' & ->). rewrite (Q4 u' Hu'). reflexivity.
  - intros x v Hv. apply S in Hv. destruct Hv as (u & Hu & _). exact (P2 x u Hu).
Qed.

(** The first converter, in the same way. *)
Theorem dump_shows_programs_v1 md md' native p file out parse dumped abi_name :
  let ents := parse (tool_setup md (elf_sections file)) in
  file_typed file -> v1_main md native p (Some file) = Ok out -> elf_eh_frame file = Some parse ->
  holds_section dumped out -> wf_mode md' -> rust_slice md' (out_sframe out) -> (forall n, without newline_char (abi_name n)) ->
  (forall f, v1_last ents f -> ends_in_range f /\ (exists c, follows_dwarf c f) /\ forall r, In r (dw_rows_of f) -> ~ v1_clash r) ->
  exists l h rest, sframedump_main md' native (Some dumped) = Ok l /\
    read_dump (stdout_text abi_name l) = Some (h, rest) /\ stderr_text l = ""%string /\
    (forall c f x, v1_last ents f -> follows_dwarf c f -> in_range (df_start f) (df_len f) x ->
       exists st v, cfi_at c f x = Some st /\ dump_says rest x v /\
         (forall base cfa ra fp, v1_representable (as_row st) base cfa ra fp -> v = looks (Unwind base false (Some cfa) (Some ra) fp)) /\
         ((forall base cfa ra fp, ~ v1_representable (as_row st) base cfa ra fp) -> sh_cfa v = CellUnknown /\ sh_mangled v = false) /\
         forall v', dump_says rest x v' -> v' = v) /\
    forall x v, dump_says rest x v -> exists f, v1_last ents f /\ in_range (df_start f) (df_len f) x.
Proof.
  intros ents Ht H HP Hh Hm Hs Hn Hgood. apply v1_main_ok in H. destruct H as (addr & parse' & s & bs & H2 & H3 & H4 & H5 & ->).
  assert (parse' = parse) by congruence. subst parse'. fold ents in H4. cbn [out_sframe] in *.
  assert (Te : ents_typed ents) by exact (Ht parse _ HP).
  destruct (v1_program_preserved md md md' p ents s _ bs Te H4 H5 Hm Hs) as (sf & HL & P1 & P2).
  { intros f Hf. apply (Hgood f Hf). }
  destruct (dump_built md md' _ s bs abi_name (v1_sized md md _ _ _ Te H4) H5 Hm Hs) as (sf' & l & h & rest & L & D & R & E & S); [|exact Hn|].
  { apply Forall_forall. intros b Hb. destruct (v1_built_from _ _ _ _ _ Te H4 Hb) as (f & F1 & F2 & F3).
    destruct (built_inv v1_conv v1_options _ _ eq_refl F2) as (_ & _ & _ & _ & E3 & E4 & _). split; [exact E4|].
    rewrite F3, E3. apply (Hgood f F1). }
  assert (sf' = sf) by congruence. subst sf'.
  exists l, h, rest. split; [eapply (holds_dump md' _ dumped (OutFile _ _ bs)); eassumption|]. split; [exact R|]. split; [exact E|]. split.
  - intros c f x Hf Hc Hx. destruct (P1 c f x Hf Hc Hx) as (st & u & Q1 & Q2 & Q3 & Q4 & Q5). exists st, (looks u). split; [exact Q1|].
    split; [apply S; eauto|]. split; [intros base cfa ra fp HR; rewrite (Q3 _ _ _ _ HR); reflexivity|].
    split; [intros HN; destruct (Q4 HN) as [HN1 HN2]; cbn; rewrite HN1, HN2; split; reflexivity|].
    intros v Hv. apply S in Hv. destruct Hv as (u' & Hu' & ->). rewrite (Q5 u' Hu'). reflexivity.
  - intros x v Hv. apply S in Hv. destruct Hv as (u & Hu & _). exact (P2 x u Hu).
Qed.

(** Ordinary programs: all three steps succeed. *)
Theorem ordinary_pipeline md md' args file a parse addr abi_name :
  let eh := file_eh md file parse in let op := cli_options args a (elf_endian file) in
  file_typed file -> arch_of (elf_architecture file) = Some a -> elf_eh_frame file = Some parse ->
  has_section (elf_sections file) ".eh_frame"%string addr -> ents_end (eh_entries eh) = None ->
  (forall x, In x (entries_of eh) -> match x with DwCie => True | DwBadFde _ => False
     | DwGoodFde f => ordinary op eh f /\ dump_fine md op f /\ ends_in_range f end) ->
  apart eh -> countable (function_count eh) (table_rows eh) ->
  (forall c f, last_at eh f -> follows_dwarf c f -> unconfused a (fixed_ra_of op eh) c f) ->
  wf_mode md' -> (forall n, without newline_char (abi_name n)) ->
  exists out, dwarf2sframe2_main md args (Some file) = Ok out /\
    zlen (out_sframe out) <= 28 + 20 * function_count eh + 17 * table_rows eh /\
    forall dumped, holds_section dumped out -> rust_slice md' (out_sframe out) ->
    exists l h rest, sframedump_main md' (endian_of (elf_endian file)) (Some dumped) = Ok l /\
      read_dump (stdout_text abi_name l) = Some (h, rest) /\ stderr_text l = ""%string /\
      (forall c f x, last_at eh f -> follows_dwarf c f -> in_range (df_start f) (df_len f) x ->
         exists st u, cfi_at c f x = Some st /\ matches a (as_row st) u /\ dump_says rest x (looks u) /\
           forall v, dump_says rest x v -> v = looks u) /\
      forall x v, dump_says rest x v -> exists f, last_at eh f /\ in_range (df_start f) (df_len f) x.
Proof.
  intros eh op Ht HA HP HS He Hord HAp HK HU Hm Hn. assert (Te : eh_typed eh) by exact (Ht parse _ HP).
  destruct (ordinary_section md md op eh (endian_of (elf_endian file)) Te He) as (s & bs & C & B & Z & _); [|exact HAp|exact HK|exact HU|].
  { intros x Hx. specialize (Hord x Hx). destruct x; [exact I|exact Hord|]. split; apply Hord. }
  assert (HO : dwarf2sframe2_main md args (Some file) = Ok (OutFile (elf_architecture file) (elf_endian file) bs)).
  { apply v2_main_ok. exists a, addr, parse, s, bs. auto 10. }
  eexists. split; [exact HO|]. split; [exact Z|]. intros dumped Hh Hs.
  eapply dump_shows_programs; try eassumption. fold eh op. intros f Hf.
  assert (Hi : In (DwGoodFde f) (entries_of eh)).
  { pose proof Hf as (pre & post & E & _). assert (In f (functions (entries_of eh))) as Hi by (rewrite E; apply in_or_app; right; left; reflexivity).
    clear -Hi. induction (entries_of eh) as [|[|g|f'] t IH]; cbn [functions In] in *; intuition congruence. }
  destruct (Hord _ Hi) as ((_ & _ & c & F & _) & _ & HR). split; [exact HR|]. split; [eauto|].
  intros r Hr. apply (follows_clash _ _ c f r (last_len _ _ Te Hf) F); [|exact Hr]. apply HU; assumption.
Qed.

Theorem ordinary_pipeline_v1 md md' native p file parse addr abi_name :
  let ents := parse (tool_setup md (elf_sections file)) in
  file_typed file -> elf_eh_frame file = Some parse ->
  has_section (elf_sections file) ".eh_frame"%string addr -> ents_end ents = None ->
  (forall x, In x (ents_list ents) -> match x with DwCie => True | DwBadFde _ => False
     | DwGoodFde f => v1_ordinary p f /\ ends_in_range f end) ->
  apart (in_eh ents) -> countable (function_count (in_eh ents)) (v1_rows_total ents) ->
  (forall c f, v1_last ents f -> follows_dwarf c f -> v1_unconfused c f) ->
  wf_mode md' -> (forall n, without newline_char (abi_name n)) ->
  exists out, v1_main md native p (Some file) = Ok out /\
    zlen (out_sframe out) <= 28 + 20 * function_count (in_eh ents) + 17 * v1_rows_total ents /\
    forall dumped, holds_section dumped out -> rust_slice md' (out_sframe out) ->
    exists l h rest, sframedump_main md' native (Some dumped) = Ok l /\
      read_dump (stdout_text abi_name l) = Some (h, rest) /\ stderr_text l = ""%string /\
      (forall c f x, v1_last ents f -> follows_dwarf c f -> in_range (df_start f) (df_len f) x ->
         exists st v, cfi_at c f x = Some st /\ dump_says rest x v /\
           (forall base cfa ra fp, v1_representable (as_row st) base cfa ra fp -> v = looks (Unwind base false (Some cfa) (Some ra) fp)) /\
           ((forall base cfa ra fp, ~ v1_representable (as_row st) base cfa ra fp) -> sh_cfa v = CellUnknown /\ sh_mangled v = false) /\
           forall v', dump_says rest x v' -> v' = v) /\
      forall x v, dump_says rest x v -> exists f, v1_last ents f /\ in_range (df_start f) (df_len f) x.
Proof.
  intros ents Ht HP HS He Hord HAp HK HU Hm Hn. assert (Te : ents_typed ents) by exact (Ht parse _ HP).
  assert (Teh : eh_typed (in_eh ents)) by exact Te.
  destruct (v1_ordinary_section md md p ents native Te He) as (s & bs & C & B & Z & _); [|exact HAp|exact HK|exact HU|].
  { intros x Hx. specialize (Hord x Hx). destruct x; [exact I|exact Hord|]. apply Hord. }
  assert (HO : v1_main md native p (Some file) = Ok (OutFile (elf_architecture file) (elf_endian file) bs)).
  { apply v1_main_ok. exists addr, parse, s, bs. auto 10. }
  eexists. split; [exact HO|]. split; [exact Z|]. intros dumped Hh Hs.
  eapply dump_shows_programs_v1; try eassumption. fold ents. intros f Hf.
  assert (Hi : In (DwGoodFde f) (ents_list ents)).
  { pose proof Hf as (pre & post & E & _). assert (In f (functions (ents_list ents))) as Hi by (rewrite E; apply in_or_app; right; left; reflexivity).
    clear -Hi. induction (ents_list ents) as [|[|g|f'] t IH]; cbn [functions In] in *; intuition congruence. }
  destruct (Hord _ Hi) as ((_ & _ & _ & (c & F & A) & _) & HR). split; [exact HR|]. split; [eauto|].
  intros r Hr. apply (v1_follows_clash c f r (last_len _ _ Teh Hf) F A); [|exact Hr]. apply HU; assumption.
Qed.
