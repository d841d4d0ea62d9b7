(** The properties of the command line tools (C55-C58, C60). *)
From Coq Require Import String.
From Verif Require Export ToolsFacts.
Local Open Scope string_scope.
Local Open Scope list_scope.

(** ** C55: every outcome of the first-generation tool *)

Lemma v1_row_problem_not_fine md p f pre r q : v1_row_problem md p f pre r q -> ~ v1_row_fine p f pre r.
Proof.
  intros H (H1 & H2 & H3 & H4). unfold i32_max in *.
  inversion H as [X1|X1|X1|X1 X2|X1 X2|X1 X2 X3|r' X1 X2 X3 X4 X5]; subst; unfold i32_max in *; try lia; try congruence.
Qed.
Lemma v1_row_problem_fun md p f pre r q q' : v1_row_problem md p f pre r q -> v1_row_problem md p f pre r q' -> q = q'.
Proof.
  intros H H'. inversion H; subst; inversion H'; subst; try reflexivity; unfold i32_max in *; try congruence; lia.
Qed.
Lemma v1_fde_problem_not_fine md p f q : v1_fde_problem md p f q -> ~ v1_fde_fine p f.
Proof.
  intros H (F1 & F2 & F3 & l & F4 & F5).
  inversion H as [X1|X1 X2|g X1 X2 X3|rs g X1 X2 X3 X4|pre r post en o X1 X2 X3 X4 X5 X6|l' g X1 X2 X3 X4 X5]; subst;
    try lia; try congruence.
  rewrite F4 in X4. injection X4 as -> <-.
  exact (v1_row_problem_not_fine _ _ _ _ _ _ X6 (F5 pre r post eq_refl)).
Qed.
Lemma v1_fde_problem_fun md p f q q' : v1_fde_problem md p f q -> v1_fde_problem md p f q' -> q = q'.
Proof.
  intros H H'.
  inversion H as [X1|X1 X2|g X1 X2 X3|rs g X1 X2 X3 X4|pre r post en o X1 X2 X3 X4 X5 X6|l g X1 X2 X3 X4 X5]; subst;
  inversion H' as [Y1|Y1 Y2|g' Y1 Y2 Y3|rs' g' Y1 Y2 Y3 Y4|pre' r' post' en' o' Y1 Y2 Y3 Y4 Y5 Y6|l' g' Y1 Y2 Y3 Y4 Y5]; subst;
  try reflexivity; try lia; try congruence.
  - rewrite X4 in Y4. assert (E : pre ++ r :: post = pre' ++ r' :: post') by congruence.
    destruct (split_compare _ _ _ _ _ _ _ eq_refl E) as [(<- & <- & _)|[[m ->]|[m ->]]].
    + eapply v1_row_problem_fun; eassumption.
    + exfalso. rewrite <- app_assoc in E. eapply v1_row_problem_not_fine; [exact Y6|]. eapply X5. reflexivity.
    + exfalso. eapply v1_row_problem_not_fine; [exact X6|]. eapply Y5. reflexivity.
  - exfalso. rewrite X4 in Y4. injection Y4 as E _. eapply v1_row_problem_not_fine; [exact X6|]. eapply Y5. symmetry. exact E.
  - exfalso. rewrite X4 in Y4. injection Y4 as E _. eapply v1_row_problem_not_fine; [exact Y6|]. eapply X5. exact E.
Qed.
Lemma v1_entry_problem_not_fine md p x q : v1_entry_problem md p x q -> ~ v1_entry_fine p x.
Proof. intros [g|f o H]; cbn; [auto|]. eapply v1_fde_problem_not_fine, H. Qed.
Lemma v1_entry_problem_fun md p x q q' : v1_entry_problem md p x q -> v1_entry_problem md p x q' -> q = q'.
Proof. intros [g|f o H] H'; inversion H'; subst; [reflexivity|]. eapply v1_fde_problem_fun; eassumption. Qed.
Lemma v1_problem_not_fine md p ents q : v1_problem md p ents q -> ~ v1_fine p ents.
Proof.
  intros [pre x post o He Hf Hp|g Hf Hg] [HF HE]; [|congruence].
  rewrite He in HF. apply Forall_mid in HF. eapply v1_entry_problem_not_fine; eassumption.
Qed.
Lemma v1_problem_fun md p ents q q' : v1_problem md p ents q -> v1_problem md p ents q' -> q = q'.
Proof.
  intros [pre x post o He Hf Hp|g Hf Hg] [pre' x' post' o' He' Hf' Hp'|g' Hf' Hg'].
  - destruct (split_compare _ _ _ _ _ _ _ He He') as [(<- & <- & _)|[[m ->]|[m ->]]].
    + eapply v1_entry_problem_fun; eassumption.
    + apply Forall_mid in Hf. exfalso. exact (v1_entry_problem_not_fine _ _ _ _ Hp' Hf).
    + apply Forall_mid in Hf'. exfalso. exact (v1_entry_problem_not_fine _ _ _ _ Hp Hf').
  - exfalso. rewrite He in Hf'. apply Forall_mid in Hf'. exact (v1_entry_problem_not_fine _ _ _ _ Hp Hf').
  - exfalso. rewrite He' in Hf. apply Forall_mid in Hf. exact (v1_entry_problem_not_fine _ _ _ _ Hp' Hf).
  - congruence.
Qed.
Lemma v1_problem_not_ok md p ents : ~ v1_problem md p ents (Ok tt).
Proof.
  intros H. inversion H as [pre x post o He Hf Hp| ]; subst. inversion Hp as [|f o Hp']; subst. inversion Hp'; subst.
  match goal with H : v1_row_problem _ _ _ _ _ _ |- _ => inversion H end.
Qed.

Theorem v1_exact md p ents q : ents_typed ents ->
  (forget (v1_convert md p ents) = q <-> (q = Ok tt /\ v1_fine p ents) \/ v1_problem md p ents q).
Proof.
  intros Ht. destruct (v1_fate md p ents Ht) as [(s & -> & Hf & _)|(q0 & Hp & ->)]; cbn [forget].
  - split; [intros <-; auto|]. intros [[-> _]|Hp]; [reflexivity|].
    exfalso. exact (v1_problem_not_fine _ _ _ _ Hp Hf).
  - split; [intros <-; auto|]. intros [[-> Hf]|Hp'].
    + exfalso. exact (v1_problem_not_fine _ _ _ _ Hp Hf).
    + eapply v1_problem_fun; eassumption.
Qed.

(** It converts what the second generation converts if no row has no width and
    everything can be printed. *)
Theorem v1_follows_v2 md md' op eh s p : eh_typed eh -> dwarf2sframe md op eh = Ok s ->
  (forall f, In f (functions (entries_of eh)) -> df_dump f = None /\
     forall r, In r (dw_rows_of f) -> wide r /\ p r = true) ->
  exists s', v1_convert md' p (eh_entries eh) = Ok s'.
Proof.
  intros Ht H Hw. destruct (dwarf2sframe_converted _ _ _ _ Ht H) as [[HF HE] _ _].
  assert (Hfine : v1_fine p (eh_entries eh)).
  { split; [|exact HE]. fold (entries_of eh). rewrite Forall_forall in *. intros x Hx. specialize (HF x Hx).
    destruct x as [|g|f]; [exact I|contradiction|].
    destruct HF as [(_ & H1 & H2) (l & Hl & Hr)].
    assert (Hin : In f (functions (entries_of eh))).
    { clear - Hx. induction (entries_of eh) as [|y t IH]; [contradiction|]. destruct Hx as [->|Hx]; [left; reflexivity|].
      destruct y; cbn; auto. }
    destruct (Hw f Hin) as [D1 D2]. split; [exact H1|]. split; [exact H2|]. split; [exact D1|]. exists l. split; [exact Hl|].
    intros pre r post ->. assert (HD : forall x, In x (pre ++ r :: post) -> wide x /\ p x = true).
    { intros x Hx'. apply D2. unfold dw_rows_of. rewrite Hl. exact Hx'. }
    destruct (HD r) as [W1 W2]; [apply in_or_app; right; left; reflexivity|].
    destruct (Hr pre r post eq_refl W1) as (R1 & R2 & R3 & _ & R5).
    split; [exact W2|]. split; [lia|]. split; [exact R2|]. intros r' Hr'. apply R5; [exact Hr'|].
    apply HD, in_or_app. left. exact Hr'. }
  destruct (v1_fate md' p (eh_entries eh) Ht) as [(s' & H' & _)|(q & Hp & _)]; [eauto|].
  exfalso. exact (v1_problem_not_fine _ _ _ _ Hp Hfine).
Qed.

(** ** C56 *)

Lemma v1_converted md p ents s : ents_typed ents -> v1_convert md p ents = Ok s ->
  sb_options s = v1_options /\
  assembled v1_conv v1_options (map norm (functions (ents_list ents))) (sb_fdes s).
Proof.
  intros Ht H. destruct (v1_fate md p ents Ht) as [(s' & H' & _ & H1 & H2)|(q & Hp & Hq)].
  - assert (s' = s) by congruence. subst s'. auto.
  - rewrite H in Hq. cbn in Hq. subst q. exfalso. eapply v1_problem_not_ok, Hp.
Qed.

Lemma v1_sized md md' p ents s : ents_typed ents -> v1_convert md p ents = Ok s -> sfb_sized md' s.
Proof.
  intros Ht H. destruct (v1_converted _ _ _ _ Ht H) as [Ho Ha]. destruct s as [o m]. cbn in *. subst o.
  eapply assembled_sized; [apply v1_opts_reached|reflexivity|exact Ha].
Qed.

Lemma last_norm l g : last_in (map norm l) g -> exists f, last_in l f /\ g = norm f.
Proof.
  intros (pre & post & H & Hl). apply map_eq_app in H. destruct H as (l1 & l2 & -> & <- & H).
  apply map_eq_cons in H. destruct H as (f & l3 & -> & <- & <-). exists f. split; [|reflexivity].
  exists l1, l3. split; [reflexivity|]. intros f' Hf'. apply (Hl (norm f')), in_map, Hf'.
Qed.
Lemma last_norm_back l f : last_in l f -> last_in (map norm l) (norm f).
Proof.
  intros (pre & post & -> & Hl). exists (map norm pre), (map norm post). split; [rewrite map_app; reflexivity|].
  intros f' Hf'. apply in_map_iff in Hf'. destruct Hf' as (g & <- & Hg). exact (Hl g Hg).
Qed.

Lemma norm_matches o r x : so_fixed_ra o = None -> so_fixed_fp o = None ->
  matches Amd64 (norm_row r) (intended o x) ->
  (unrepresentable Amd64 (norm_row r) -> r_offsets x = None) ->
  v1_matches r (intended o x) /\
  ((forall base cfa ra fp, ~ v1_representable r base cfa ra fp) -> r_offsets x = None).
Proof.
  intros Hra Hfp [M1 M2] HN.
  assert (HU : (forall base cfa ra fp, ~ v1_representable r base cfa ra fp) -> r_offsets x = None).
  { intros H. apply HN. intros base cfa ra fp Hr. apply norm_representable in Hr. eapply H, Hr. }
  split; [|exact HU]. split.
  - intros base cfa ra fp Hr. apply M1, norm_representable, Hr.
  - intros H. specialize (HU H).
    assert (Hm : uw_mangled (intended o x) = false).
    { apply M2. intros base cfa ra fp Hr. apply norm_representable in Hr. eapply H, Hr. }
    unfold intended in *. cbn in *. rewrite HU, Hra, Hfp. auto.
Qed.

Lemma norm_rows_of f : dw_rows_of (norm f) = map norm_row (dw_rows_of f).
Proof. unfold dw_rows_of. cbn [norm df_rows]. destruct (df_rows f); reflexivity. Qed.
Lemma norm_wide_rows f : wide_rows (norm f) = map norm_row (dw_rows_of f).
Proof. unfold wide_rows. rewrite norm_rows_of. apply norm_all_wide. Qed.

Theorem v1_rows_exact md p ents s b : ents_typed ents -> v1_convert md p ents = Ok s -> In b (fdes_of s) ->
  exists f, v1_last ents f /\ fb_start b = df_start f /\ fb_size b = df_len f /\
    (forall x, In x (rows_of b) -> exists r, In r (dw_rows_of f) /\
       v1_translated (sb_options s) (df_start f) r x) /\
    (forall r, In r (dw_rows_of f) -> exists x, in_effect (rows_of b) (off f r) x /\
       v1_matches r (intended (sb_options s) x)).
Proof.
  intros Ht H Hb. destruct (v1_converted _ _ _ _ Ht H) as [Ho Ha].
  assert (HW : sfb_wf s) by (eapply sfb_reach_wf, (sfb_sized_reach md), v1_sized; eassumption).
  assert (G : bt_get (fb_start b) (sb_fdes s) = Some b) by (apply (wf_get s _ _ HW); auto).
  destruct (assembled_get _ v1_options _ _ eq_refl Ha _ _ G) as (g & F1 & F2 & F3 & F4).
  apply last_norm in F1. destruct F1 as (f & F1 & ->).
  destruct (built_inv _ v1_options _ _ eq_refl F4) as (_ & _ & _ & E2 & E3 & _).
  destruct (built_rows_any _ v1_options _ _ eq_refl F4) as [R1 R2]. rewrite norm_wide_rows in R1, R2.
  rewrite Ho. exists f. split; [exact F1|]. split; [exact E2|]. split; [exact E3|]. split.
  - intros x Hx. destruct (R1 x Hx) as (r0 & Hr0 & T1 & T2 & T3). apply in_map_iff in Hr0. destruct Hr0 as (r & <- & Hr).
    exists r. split; [exact Hr|]. split; [exact T1|].
    apply norm_matches; [reflexivity|reflexivity|exact T2|exact T3].
  - intros r Hr. destruct (R2 (norm_row r)) as (x & X1 & X2 & X3); [apply in_map, Hr|].
    exists x. split; [exact X1|]. apply norm_matches; [reflexivity|reflexivity|exact X2|exact X3].
Qed.

Theorem v1_functions md p ents s : ents_typed ents -> v1_convert md p ents = Ok s ->
  (forall f, v1_last ents f -> exists b, In b (fdes_of s) /\ fb_start b = df_start f /\ fb_size b = df_len f) /\
  StronglySorted Z.lt (map fb_start (fdes_of s)).
Proof.
  intros Ht H. destruct (v1_converted _ _ _ _ Ht H) as [Ho Ha].
  assert (HW : sfb_wf s) by (eapply sfb_reach_wf, (sfb_sized_reach md), v1_sized; eassumption).
  split; [|apply sorted_fdes, HW]. intros f Hf.
  destruct (assembled_has _ v1_options _ _ eq_refl Ha (norm f) (last_norm_back _ _ Hf)) as (b & G & B).
  destruct (built_inv _ v1_options _ _ eq_refl B) as (_ & _ & _ & E2 & E3 & _).
  apply (wf_get s _ _ HW) in G. exists b. tauto.
Qed.

Theorem v1_end_to_end md md' md'' p ents s e bs : ents_typed ents -> v1_convert md p ents = Ok s ->
  build md' e s = Ok bs -> wf_mode md'' -> rust_slice md'' bs ->
  (forall f r, v1_last ents f -> In r (dw_rows_of f) -> ~ v1_clash r) ->
  exists sf, load md'' e bs = Ok sf /\
    (forall a f r, v1_last ents f -> in_range (df_start f) (df_len f) a -> In r (dw_rows_of f) -> dr_start r <= a ->
       (forall r', In r' (dw_rows_of f) -> dr_start r' <= a -> dr_start r' <= dr_start r) ->
       exists u, section_says md'' e sf a u /\
         (forall base cfa ra fp, v1_representable r base cfa ra fp -> u = Unwind base false (Some cfa) (Some ra) fp) /\
         ((forall base cfa ra fp, ~ v1_representable r base cfa ra fp) -> uw_cfa u = None /\ uw_mangled u = false)) /\
    (forall a u, section_says md'' e sf a u ->
       exists f r, v1_last ents f /\ in_range (df_start f) (df_len f) a /\ In r (dw_rows_of f) /\ dr_start r <= a) /\
    (forall a u u', section_says md'' e sf a u -> section_says md'' e sf a u' -> u = u').
Proof.
  intros Ht H B Hm Hs Hgood. destruct (v1_converted _ _ _ _ Ht H) as [Ho Ha].
  destruct (assembled_end_to_end md' md'' v1_conv v1_options _ s e bs v1_opts_reached eq_refl Ho Ha B Hm Hs)
    as (sf & HL & H1 & H2 & H3).
  { intros g r0 Hg Hr0. apply last_norm in Hg. destruct Hg as (f & F1 & ->).
    rewrite norm_wide_rows in Hr0. apply in_map_iff in Hr0. destruct Hr0 as (r & <- & Hr).
    intros (base & cfa & ra & fp & m & C1 & C2). apply (Hgood f r F1 Hr).
    exists base, cfa, ra, fp, m. split; [apply norm_representable, C1|exact C2]. }
  exists sf. split; [exact HL|]. split; [|split; [|exact H3]].
  - intros a f r F1 Hin Hr Hle Hlast.
    destruct (H1 a (norm f) (norm_row r)) as (u & Hu & M1 & M2).
    + apply last_norm_back, F1.
    + exact Hin.
    + rewrite norm_wide_rows. apply in_map, Hr.
    + exact Hle.
    + intros r0 Hr0. rewrite norm_wide_rows in Hr0. apply in_map_iff in Hr0. destruct Hr0 as (r' & <- & Hr'). exact (Hlast r' Hr').
    + exists u. split; [exact Hu|]. split.
      * intros base cfa ra fp HR. apply M1, norm_representable, HR.
      * intros Hn. apply M2. intros base cfa ra fp HR. eapply Hn, norm_representable, HR.
  - intros a u Hu. destruct (H2 a u Hu) as (g & r0 & G1 & G2 & G3 & G4). apply last_norm in G1. destruct G1 as (f & F1 & ->).
    rewrite norm_wide_rows in G3. apply in_map_iff in G3. destruct G3 as (r & <- & Hr).
    exists f, r. split; [exact F1|]. split; [exact G2|]. split; [exact Hr|exact G4].
Qed.

(** ** C57 *)

Lemma section_found l name a : has_section l name a <-> section_by_name name l = Some a.
Proof.
  split.
  - intros (pre & post & -> & Hn). induction pre as [|[n x] t IH]; cbn [app section_by_name].
    + rewrite String.eqb_refl. reflexivity.
    + destruct (String.eqb_spec n name) as [->|Hne]; [exfalso; apply Hn; left; reflexivity|].
      apply IH. intros Hi. apply Hn. right. exact Hi.
  - induction l as [|[n x] t IH]; cbn [section_by_name]; [discriminate|].
    destruct (String.eqb_spec n name) as [->|Hne].
    + intros [= ->]. exists [], t. split; [reflexivity|intros []].
    + intros H. destruct (IH H) as (pre & post & -> & Hn). exists ((n, x) :: pre), post.
      split; [reflexivity|]. intros [E|Hi]; [exact (Hne E)|exact (Hn Hi)].
Qed.
Lemma section_absent l name : no_section l name <-> section_by_name name l = None.
Proof.
  unfold no_section. induction l as [|[n x] t IH]; cbn [section_by_name map fst]; [split; [reflexivity|intros _ []]|].
  destruct (String.eqb_spec n name) as [->|Hne].
  - split; [intros H; exfalso; apply H; left; reflexivity|discriminate].
  - rewrite <- IH. split; [intros H Hi; apply H; right; exact Hi|intros H [E|Hi]; [exact (Hne E)|exact (H Hi)]].
Qed.
Lemma base_is l name v : base_from l name v <-> v = section_by_name name l.
Proof.
  split.
  - intros [H1 H2]. destruct (section_by_name name l) as [a|] eqn:E; [apply H1, section_found, E|apply H2, section_absent, E].
  - intros ->. split; [intros a Ha; apply section_found, Ha|intros Hn; apply section_absent, Hn].
Qed.

Lemma tool_bases_eq l : tool_bases l =
  Bases (section_by_name ".eh_frame_hdr" l) (section_by_name ".eh_frame" l)
    (match section_by_name ".got" l with Some a => Some a | None => section_by_name ".text" l end) None.
Proof.
  unfold tool_bases, with_section.
  destruct (section_by_name ".eh_frame_hdr" l), (section_by_name ".eh_frame" l), (section_by_name ".text" l), (section_by_name ".got" l); reflexivity.
Qed.

Theorem bases_exact l :
  base_from l ".eh_frame_hdr" (ba_eh_frame_hdr (tool_bases l)) /\
  base_from l ".eh_frame" (ba_eh_frame (tool_bases l)) /\
  (no_section l ".got" -> base_from l ".text" (ba_text (tool_bases l))) /\
  (forall a, has_section l ".got" a -> ba_text (tool_bases l) = Some a) /\
  ba_got (tool_bases l) = None.
Proof.
  rewrite tool_bases_eq. cbn. split; [apply base_is; reflexivity|]. split; [apply base_is; reflexivity|]. split; [|split; [|reflexivity]].
  - intros Hn. apply section_absent in Hn. rewrite Hn. apply base_is. reflexivity.
  - intros a Ha. apply section_found in Ha. rewrite Ha. reflexivity.
Qed.

Theorem right_bases_iff l : right_bases l (tool_bases l) <-> no_section l ".got".
Proof.
  split.
  - intros (_ & _ & _ & H). apply base_is in H. rewrite tool_bases_eq in H. cbn in H. apply section_absent. auto.
  - intros Hn. destruct (bases_exact l) as (H1 & H2 & H3 & _ & H5). split; [exact H1|]. split; [exact H2|]. split; [apply H3, Hn|].
    rewrite H5. apply base_is. symmetry. apply section_absent, Hn.
Qed.

Theorem dwarfdump_bases_right l : right_bases l (dwarfdump_bases l).
Proof.
  unfold right_bases. rewrite !base_is. unfold dwarfdump_bases, with_section.
  destruct (section_by_name ".eh_frame_hdr" l), (section_by_name ".eh_frame" l), (section_by_name ".text" l), (section_by_name ".got" l); auto.
Qed.

(** ** C58 *)

(** The tool succeeds iff the architecture is supported, the section is there,
    it converts and the result can be written. *)
Theorem v2_main_ok md args file out :
  dwarf2sframe2_main md args (Some file) = Ok out <->
  exists a addr parse s bs, arch_of (elf_architecture file) = Some a /\
    has_section (elf_sections file) ".eh_frame" addr /\ elf_eh_frame file = Some parse /\
    dwarf2sframe md (cli_options args a (elf_endian file)) (file_eh md file parse) = Ok s /\
    build md (endian_of (elf_endian file)) s = Ok bs /\
    out = OutFile (elf_architecture file) (elf_endian file) bs.
Proof.
  unfold dwarf2sframe2_main, file_eh. split.
  - destruct (elf_architecture file) eqn:EA; cbn [bind]; try discriminate.
    all: destruct (section_by_name ".eh_frame" (elf_sections file)) as [addr|] eqn:ES; [|discriminate].
    all: destruct (elf_eh_frame file) as [parse|] eqn:EP; [|discriminate].
    all: match goal with |- (let* _ := map_err _ ?c in _) = _ -> _ => destruct c as [s|er|] eqn:EC end; cbn [map_err bind]; try discriminate.
    all: match goal with |- (let* _ := map_err _ ?c in _) = _ -> _ => destruct c as [bs|er|] eqn:EB end; cbn [map_err bind]; try discriminate.
    all: intros [= <-]; do 2 eexists; exists parse, s, bs; cbn [arch_of]; (split; [reflexivity|]);
      (split; [apply section_found, ES|]); (split; [reflexivity|]); (split; [exact EC|]); (split; [|reflexivity]);
      unfold endian_of; destruct (elf_endian file); exact EB.
  - intros (a & addr & parse & s & bs & H1 & H2 & H3 & H4 & H5 & ->). apply section_found in H2. rewrite H2, H3.
    destruct (elf_architecture file) eqn:EA; cbn [arch_of] in H1; try discriminate; injection H1 as <-; cbn [bind].
    all: rewrite H4; cbn [map_err bind]; unfold endian_of in H5; destruct (elf_endian file); rewrite H5; reflexivity.
Qed.

Theorem v2_readable md md' args file out :
  file_typed file ->
  dwarf2sframe2_main md args (Some file) = Ok out -> wf_mode md' -> rust_slice md' (out_sframe out) ->
  out_arch out = elf_architecture file /\ out_endian out = elf_endian file /\
  exists a sf, arch_of (elf_architecture file) = Some a /\
    load md' (endian_of (elf_endian file)) (out_sframe out) = Ok sf /\
    abi sf = abi_number a (elf_endian file).
Proof.
  intros Ht H Hm Hs. apply v2_main_ok in H. destruct H as (a & addr & parse & s & bs & H1 & H2 & H3 & H4 & H5 & ->).
  cbn in *. split; [reflexivity|]. split; [reflexivity|].
  destruct (conv_labels_read md md md' _ (file_eh md file parse) _ (endian_of (elf_endian file)) bs (Ht parse _ H3) H4 H5 Hm Hs) as (sf & L1 & _ & L2 & _).
  exists a, sf. split; [exact H1|]. split; [exact L1|exact L2].
Qed.

Theorem v2_rejects md args file :
  (arch_of (elf_architecture file) = None -> dwarf2sframe2_main md args (Some file) = Err ToolUnsupportedArch) /\
  (arch_of (elf_architecture file) <> None -> no_section (elf_sections file) ".eh_frame" ->
     dwarf2sframe2_main md args (Some file) = Err ToolNoEhFrame).
Proof.
  unfold dwarf2sframe2_main. split.
  - destruct (elf_architecture file); cbn; solve [discriminate|reflexivity].
  - intros Ha Hn. apply section_absent in Hn. rewrite Hn. destruct (elf_architecture file); cbn in *; solve [reflexivity|congruence].
Qed.

(** ** C60 *)

Theorem v1_main_ok md native p file out :
  v1_main md native p (Some file) = Ok out <->
  exists addr parse s bs, has_section (elf_sections file) ".eh_frame" addr /\ elf_eh_frame file = Some parse /\
    v1_convert md p (parse (tool_setup md (elf_sections file))) = Ok s /\
    build md native s = Ok bs /\ out = OutFile (elf_architecture file) (elf_endian file) bs.
Proof.
  unfold v1_main. split.
  - destruct (section_by_name ".eh_frame" (elf_sections file)) as [addr|] eqn:ES; [|discriminate].
    destruct (elf_eh_frame file) as [parse|] eqn:EP; [|discriminate].
    destruct (v1_convert md p (parse (tool_setup md (elf_sections file)))) as [s|er|] eqn:EC; cbn [bind]; try discriminate.
    destruct (build md native s) as [bs|er|] eqn:EB; cbn [map_err bind]; try discriminate.
    intros [= <-]. exists addr, parse, s, bs. split; [apply section_found, ES|auto].
  - intros (addr & parse & s & bs & H2 & H3 & H4 & H5 & ->). apply section_found in H2. rewrite H2, H3, H4.
    cbn [bind]. rewrite H5. reflexivity.
Qed.

Theorem v1_label md md' native p file out :
  file_typed file ->
  v1_main md native p (Some file) = Ok out -> wf_mode md' -> rust_slice md' (out_sframe out) ->
  (exists sf, load md' native (out_sframe out) = Ok sf /\ abi sf = 3 /\
     fixed_ra_offset sf = None /\ fixed_fp_offset sf = None) /\
  (endian_of (elf_endian file) <> native ->
     load md' (endian_of (elf_endian file)) (out_sframe out) = Err IncorrectEndian).
Proof.
  intros Ht H Hm Hs. apply v1_main_ok in H. destruct H as (addr & parse & s & bs & H2 & H3 & H4 & H5 & ->). cbn [out_sframe] in *.
  pose proof (v1_sized md md _ _ _ (Ht parse _ H3) H4) as HZ. apply sfb_sized_reach in HZ. destruct HZ as [HR _].
  destruct (trip_descriptors md md' native s bs HR H5 Hm Hs) as (sf & HL & _ & _ & F2 & F3 & F4 & _).
  destruct (v1_converted _ _ _ _ (Ht parse _ H3) H4) as [Ho _]. rewrite Ho in *.
  split.
  - exists sf. split; [exact HL|]. split; [exact F2|]. split; [exact F4|exact F3].
  - intros Hne. assert (E : endian_of (elf_endian file) = swap native) by (destruct (elf_endian file), native; try reflexivity; exfalso; apply Hne; reflexivity).
    rewrite E. eapply load_wrong_endian; eassumption.
Qed.

Theorem v1_label_right md md' native p file out a :
  file_typed file ->
  v1_main md native p (Some file) = Ok out -> wf_mode md' -> rust_slice md' (out_sframe out) ->
  arch_of (elf_architecture file) = Some a ->
  ((exists sf, load md' (endian_of (elf_endian file)) (out_sframe out) = Ok sf /\
      abi sf = abi_number a (elf_endian file)) <->
   a = Amd64 /\ elf_endian file = RtLittle /\ native = LE).
Proof.
  intros Ht H Hm Hs Ha. destruct (v1_label md md' native p file out Ht H Hm Hs) as [(sf & L1 & L2 & _) L3]. split.
  - intros (sf' & M1 & M2).
    assert (Hn : endian_of (elf_endian file) = native).
    { destruct (elf_endian file), native; try reflexivity; rewrite L3 in M1 by discriminate; discriminate. }
    rewrite Hn, L1 in M1. apply ok_inj in M1. subst sf'. rewrite L2 in M2.
    destruct a, (elf_endian file); cbn in *; try discriminate. auto.
  - intros (-> & E & ->). rewrite E in *. exists sf. split; [exact L1|exact L2].
Qed.
