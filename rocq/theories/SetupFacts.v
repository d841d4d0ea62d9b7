(** Proofs about the setup of the parser (C79) and about signed return addresses
    (C80). *)
From Coq Require Import String.
From Verif Require Export ToolsWitness.

(** ** C79 *)

Theorem tool_setup_right md m l : wf_mode md -> pointer_size m <> None ->
  (right_setup m (tool_setup md l) <-> m <> ElfAarch64 /\ pointer_size m = Some (usize_bits md / 8)).
Proof.
  intros _ Hs. unfold right_setup, tool_setup. cbn [ps_address_size ps_vendor]. split.
  - intros [H1 H2]. split.
    + intros ->. cbn in H2. discriminate.
    + destruct (pointer_size m) as [n|] eqn:E; [|congruence]. f_equal. symmetry. apply H1. reflexivity.
  - intros [H1 H2]. split.
    + intros n Hn. congruence.
    + destruct m; try reflexivity. congruence.
Qed.

Theorem dwarfdump_setup_right md m l : right_setup m (dwarfdump_setup md m l).
Proof.
  unfold right_setup, dwarfdump_setup. cbn [ps_address_size ps_vendor]. split.
  - intros n Hn. assert (E : elf_address_size m = pointer_size m) by (destruct m; reflexivity).
    rewrite E, Hn. reflexivity.
  - destruct m; reflexivity.
Qed.

(** A function that signs its return address: gimli knows the instruction only
    for AArch64. *)
Definition unknown_instruction : gimli_error := GimliError 0x2d.
Definition pac_row : dw_row := DwRow 0x1004 0x1020 (CfaReg 31 16) [(29, ROffset (-16)); (30, ROffset (-8)); (34, RConstant 1)].
Definition pac_rows : list dw_row :=
  [ DwRow 0x1000 0x1004 (CfaReg 31 0) [(30, ROffset (-8))]; pac_row ].
Definition pac_fn (p : parser_setup) : dw_fde :=
  match ps_vendor p with
  | VendorAArch64 => DwFde 0x1000 0x20 (Insns [IAdvanceLoc 1; INegateRaState; IDefCfaOffset 16; IOffset 29 2; IOffset 30 1] None) (rows_ok pac_rows)
  | VendorDefault => DwFde 0x1000 0x20 (Insns [IAdvanceLoc 1] (Some unknown_instruction))
      (inl (DwRows [DwRow 0x1000 0x1004 (CfaReg 31 0) [(30, ROffset (-8))]] (Some unknown_instruction)))
  end.
Definition pac_entries (p : parser_setup) : dw_entries := DwEntries [DwCie; DwGoodFde (pac_fn p)] None.
Definition pac_file : elf_file :=
  {| elf_endian := RtLittle; elf_architecture := ElfAarch64; elf_sections := two_sections;
     elf_eh_frame := Some pac_entries; elf_sframe := None |}.
Definition right_arm_setup : parser_setup := Setup (tool_bases two_sections) 8 VendorAArch64.

Lemma pac_typed : file_typed pac_file.
Proof.
  intros parse setup [= <-]. unfold ents_typed, pac_entries. cbn. apply Forall_cons; [exact I|]. apply Forall_cons; [|apply Forall_nil].
  cbn. unfold pac_fn. destruct (ps_vendor setup); unfold dw_fde_typed, dw_row_typed, in_u64; cbn;
    (split; [lia|split; [lia|]]); repeat (apply Forall_cons || apply Forall_nil); cbn; lia.
Qed.

Theorem vendor_not_set :
  file_typed pac_file /\ (forall md, ~ right_setup ElfAarch64 (tool_setup md two_sections)) /\
  right_setup ElfAarch64 right_arm_setup /\
  (exists s, dwarf2sframe rel64 (cli_options no_flags Aarch64 RtLittle) (EhFrame false (pac_entries right_arm_setup)) = Ok s /\
     zlen (fdes_of s) = 1) /\
  dwarf2sframe2_main rel64 no_flags (Some pac_file) = Err (ToolConvert (InvalidUnwindTable unknown_instruction)).
Proof.
  split; [apply pac_typed|]. split.
  { intros md [_ H]. discriminate. }
  split.
  { split; [intros n [= <-]; reflexivity|reflexivity]. }
  split.
  { eexists. split; vm_compute; reflexivity. }
  vm_compute. reflexivity.
Qed.

Theorem address_size_of_host :
  (forall l, ~ right_setup ElfX86_64 (tool_setup rel32 l)) /\ (forall l, ~ right_setup ElfX86_64_X32 (tool_setup rel64 l)).
Proof. split; intros l [H _]; specialize (H _ eq_refl); discriminate. Qed.

(** ** C80 *)

Lemma matches_unmangled a r u : matches a r u -> uw_mangled u = false.
Proof.
  intros [M1 M2]. destruct (classify a r) as [[[[base cfa] ra] fp]|] eqn:E.
  - apply classify_spec in E. rewrite (M1 _ _ _ _ E). reflexivity.
  - apply classify_none in E. apply M2, E.
Qed.

Theorem conv_never_mangled md op eh s b x : eh_typed eh -> dwarf2sframe md op eh = Ok s ->
  In b (fdes_of s) -> In x (rows_of b) -> r_mangled x = false.
Proof.
  intros Ht H Hb Hx. destruct (conv_rows_any _ _ _ _ _ Ht H Hb) as (f & _ & _ & R & _).
  destruct (R x Hx) as (r & _ & _ & M & _). apply matches_unmangled in M. exact M.
Qed.

Definition pac_eh : eh_frame := EhFrame false (pac_entries right_arm_setup).
Definition pac_sfb : sfb := Eval vm_compute in got (dwarf2sframe rel64 arm pac_eh).
Definition pac_bytes : bytes := Eval vm_compute in section LE pac_sfb.
Definition pac_sf : sframe := Eval vm_compute in get_ok dummy_sf (load rel64 LE pac_bytes).

Lemma pac_contents : exists en fr1 fr2, all_fdes pac_sf = [en] /\ all_fres rel64 LE en = Ok (map inl [fr1; fr2]) /\
  en_start_address en = 0x1000 /\ en_size en = 0x20 /\
  fre_start_address_offset fr1 = 0 /\ fre_start_address_offset fr2 = 4 /\
  observed pac_sf fr2 = Unwind Sp false (Some 16) (Some (-8)) (Some (-16)).
Proof. do 3 eexists. split; [vm_compute; reflexivity|]. split; [vm_compute; reflexivity|]. vm_compute. auto 10. Qed.

Theorem signing_lost :
  eh_typed pac_eh /\ dwarf2sframe rel64 arm pac_eh = Ok pac_sfb /\
  build rel64 LE pac_sfb = Ok pac_bytes /\ load rel64 LE pac_bytes = Ok pac_sf /\
  dwarf_says pac_eh 0x1010 pac_row /\ ra_signed pac_row /\
  (exists u, section_says rel64 LE pac_sf 0x1010 u /\ uw_ra u = Some (-8) /\ uw_mangled u = false).
Proof.
  split; [typed_eh|]. split; [vm_compute; reflexivity|]. split; [vm_compute; reflexivity|]. split; [vm_compute; reflexivity|].
  split.
  { exists (pac_fn right_arm_setup). split; [exists [], []; split; [reflexivity|intros ? []]|].
    unfold in_range. cbn. split; [lia|]. split; [right; left; reflexivity|lia]. }
  split; [reflexivity|].
  destruct pac_contents as (en & fr1 & fr2 & H1 & H2 & H3 & H4 & H5 & H6 & H7).
  exists (observed pac_sf fr2). rewrite H7. split; [|split; reflexivity]. rewrite <- H7.
  exists en, [fr1; fr2], fr2. rewrite H1, H3, H4, H6. unfold in_range.
  split; [left; reflexivity|]. split; [lia|]. split; [exact H2|]. split; [right; left; reflexivity|].
  split; [lia|]. split; [|reflexivity]. intros fr' [<-|[<-|[]]] _; lia.
Qed.

(** ** C81 *)

Lemma link_unrepresentable r base cfa : link_row r base cfa -> unrepresentable Aarch64 r.
Proof. intros (_ & _ & H & _) base' cfa' ra fp (_ & _ & H' & _). destruct H; congruence. Qed.

Theorem link_rows_empty md op eh s b : eh_typed eh -> op_arch op = Aarch64 -> dwarf2sframe md op eh = Ok s -> In b (fdes_of s) ->
  exists f, last_at eh f /\ fb_start b = df_start f /\
    forall r base cfa, In r (wide_rows f) -> link_row r base cfa ->
      exists x, in_effect (rows_of b) (off f r) x /\ r_offsets x = None.
Proof.
  intros Ht Ha H Hb. destruct (conv_rows_any _ _ _ _ _ Ht H Hb) as (f & F1 & F2 & _ & R). rewrite Ha in R.
  exists f. split; [exact F1|]. split; [exact F2|]. intros r base cfa Hr Hl.
  destruct (R r Hr) as (x & X1 & _ & X2). exists x. split; [exact X1|]. eapply X2, link_unrepresentable, Hl.
Qed.

(** A leaf function: [sub sp, sp, #16; …; add sp, sp, #16; ret]. *)
Definition leaf_row : dw_row := DwRow 0x1004 0x101c (CfaReg 31 16) [].
Definition leaf_fn : dw_fde :=
  DwFde 0x1000 0x20 (Insns [IAdvanceLoc 1; IDefCfaOffset 16; IAdvanceLoc 6; IDefCfaOffset 0] None)
    (rows_ok [ DwRow 0x1000 0x1004 (CfaReg 31 0) []; leaf_row; DwRow 0x101c 0x1020 (CfaReg 31 0) [] ]).
Definition leaf_eh : eh_frame := of_functions [leaf_fn].
Definition leaf_sfb : sfb := Eval vm_compute in got (dwarf2sframe rel64 arm leaf_eh).
Definition leaf_bytes : bytes := Eval vm_compute in section LE leaf_sfb.
Definition leaf_sf : sframe := Eval vm_compute in get_ok dummy_sf (load rel64 LE leaf_bytes).

Lemma leaf_contents : exists en fr, all_fdes leaf_sf = [en] /\ all_fres rel64 LE en = Ok (map inl [fr]) /\
  en_start_address en = 0x1000 /\ en_size en = 0x20 /\ fre_start_address_offset fr = 0 /\
  observed leaf_sf fr = Unwind Fp false None None None.
Proof. do 2 eexists. split; [vm_compute; reflexivity|]. split; [vm_compute; reflexivity|]. vm_compute. auto 10. Qed.

(** The same rows can be written by hand. *)
Definition leaf_by_hand : sfb :=
  {| sb_options := sb_options leaf_sfb;
     sb_fdes := [(0x1000, Fdb (sb_options leaf_sfb) 0x1000 0x20 None KeyA
       [ (0, row_new Sp 0 (RowOffsets 0 None None)); (4, row_new Sp 4 (RowOffsets 16 None None));
         (0x1c, row_new Sp 0x1c (RowOffsets 0 None None)) ])] |}.
Definition hand_bytes : bytes := Eval vm_compute in section LE leaf_by_hand.
Definition hand_sf : sframe := Eval vm_compute in get_ok dummy_sf (load rel64 LE hand_bytes).
Lemma hand_contents : exists en fr1 fr2 fr3, all_fdes hand_sf = [en] /\ all_fres rel64 LE en = Ok (map inl [fr1; fr2; fr3]) /\
  en_start_address en = 0x1000 /\ en_size en = 0x20 /\
  fre_start_address_offset fr1 = 0 /\ fre_start_address_offset fr2 = 4 /\ fre_start_address_offset fr3 = 0x1c /\
  observed hand_sf fr2 = Unwind Sp false (Some 16) None None.
Proof. do 4 eexists. split; [vm_compute; reflexivity|]. split; [vm_compute; reflexivity|]. vm_compute. auto 10. Qed.

Theorem leaf_lost :
  eh_typed leaf_eh /\ dwarf2sframe rel64 arm leaf_eh = Ok leaf_sfb /\
  build rel64 LE leaf_sfb = Ok leaf_bytes /\ load rel64 LE leaf_bytes = Ok leaf_sf /\
  dwarf_says leaf_eh 0x1010 leaf_row /\ link_row leaf_row Sp 16 /\
  (exists u, section_says rel64 LE leaf_sf 0x1010 u /\ uw_cfa u = None) /\
  build rel64 LE leaf_by_hand = Ok hand_bytes /\ load rel64 LE hand_bytes = Ok hand_sf /\
  (exists u, section_says rel64 LE hand_sf 0x1010 u /\ u = Unwind Sp false (Some 16) None None).
Proof.
  split; [typed_eh|]. split; [vm_compute; reflexivity|]. split; [vm_compute; reflexivity|]. split; [vm_compute; reflexivity|].
  split.
  { exists leaf_fn. split; [exists [], []; split; [reflexivity|intros ? []]|].
    unfold in_range. cbn. split; [lia|]. split; [right; left; reflexivity|lia]. }
  split.
  { unfold link_row, in_i32, i32_min, i32_max. cbn. split; [reflexivity|]. split; [lia|]. split; right; reflexivity. }
  split.
  { destruct leaf_contents as (en & fr & H1 & H2 & H3 & H4 & H5 & H6).
    exists (observed leaf_sf fr). split; [|rewrite H6; reflexivity].
    exists en, [fr], fr. rewrite H1, H3, H4, H5. unfold in_range.
    split; [left; reflexivity|]. split; [lia|]. split; [exact H2|]. split; [left; reflexivity|].
    split; [lia|]. split; [|reflexivity]. intros fr' [<-|[]] _. lia. }
  split; [vm_compute; reflexivity|]. split; [vm_compute; reflexivity|].
  destruct hand_contents as (en & fr1 & fr2 & fr3 & H1 & H2 & H3 & H4 & H5 & H6 & H8 & H7).
  exists (observed hand_sf fr2). split; [|exact H7].
  exists en, [fr1; fr2; fr3], fr2. rewrite H1, H3, H4, H6. unfold in_range.
  split; [left; reflexivity|]. split; [lia|]. split; [exact H2|]. split; [right; left; reflexivity|].
  split; [lia|]. split; [|reflexivity]. intros fr' [<-|[<-|[<-|[]]]] Hle; lia.
Qed.
