(** Concrete call frame programs and stacks for C153. *)
From Verif Require Export ProgramFacts.
From Verif Require Import ConvFacts ConvProps ConvWitness ToolsProps ToolsWitness WalkFacts WalkWitness RelateFacts CfiFacts CfiWitness.
From Verif Require Import ConvRepairedFacts ConvRepairedSection ConvRepairedWalk ConvRepairedWitness V1Witness V1RepairedWitness.
Open Scope Z_scope.
Open Scope list_scope.

(** A rule in force is that of a row. *)
Lemma program_rows c f x st : 0 <= df_len f -> follows_dwarf c f -> in_range (df_start f) (df_len f) x -> cfi_at c f x = Some st ->
  exists r, In r (dw_rows_of f) /\ dr_cfa (as_row st) = dr_cfa r /\ forall reg, dr_register (as_row st) reg = dr_register r reg.
Proof.
  intros Hl F Hx S. assert (Hx' : df_start f <= x < df_start f + df_len f) by (unfold in_range in Hx; lia).
  destruct (follows_covers c f x Hl F Hx') as (r & Hr). destruct (follows_at c f x r Hl F ltac:(lia) Hr) as (t & T1 & T2 & T3).
  assert (t = st) by congruence. subst t. exists r. split; [apply Hr|]. split; [exact (as_row_cfa r st T2)|].
  intros reg. rewrite T3. reflexivity.
Qed.
Lemma same_rule_rows a r r' : dr_cfa r' = dr_cfa r -> (forall reg, dr_register r' reg = dr_register r reg) -> same_rule a r' r.
Proof. intros E1 E2 base cfa ra fp. unfold representable. rewrite E1, !E2. tauto. Qed.
Lemma rows_unconfused a fixed c f : 0 <= df_len f -> follows_dwarf c f -> (forall r, In r (dw_rows_of f) -> ~ clash a fixed r) ->
  unconfused a fixed c f.
Proof.
  intros Hl F H x st Hx S (base & cfa & ra & fp & m & R & Hm). destruct (program_rows c f x st Hl F Hx S) as (r & Hr & E1 & E2).
  apply (H r Hr). exists base, cfa, ra, fp, m. split; [|exact Hm]. apply (same_rule_rows a r (as_row st) E1 E2), R.
Qed.

(** ** AArch64: a function that signs its return address, as gcc and clang make them with
    branch protection ([paciasp; stp x29, x30, [sp, -16]!; ..; ldp; autiasp; ret]), a leaf and
    a function that does not sign *)

Definition cie_arm : cie_info := Cie 4 (-8) [IDefCfa 31 0].
Definition arm_cie (f : dw_fde) : cie_info := cie_arm.
Definition pac_program : list insn :=
  [ IAdvanceLoc 1; INegateRaState; IAdvanceLoc 1; IDefCfaOffset 16; IOffset 29 2; IOffset 30 1; IAdvanceLoc 12;
    IRestore 30; IRestore 29; IDefCfaOffset 0; IAdvanceLoc 1; INegateRaState; INop ].
Definition pac_body : dw_row := DwRow 0x1008 0x1038 (CfaReg 31 16) [(30, ROffset (-8)); (29, ROffset (-16)); (34, RConstant 1)].
Definition fn_pac : dw_fde := DwFde 0x1000 0x40 (Insns pac_program None) (rows_ok
  [ DwRow 0x1000 0x1004 (CfaReg 31 0) []; DwRow 0x1004 0x1008 (CfaReg 31 0) [(34, RConstant 1)]; pac_body;
    DwRow 0x1038 0x103c (CfaReg 31 0) [(34, RConstant 1)]; DwRow 0x103c 0x1040 (CfaReg 31 0) [(34, RConstant 0)] ]).
Definition fn_end : dw_fde := DwFde 0x2000 0x20 (Insns [INop] None) (rows_ok [DwRow 0x2000 0x2020 (CfaReg 31 0) []]).
Definition fn_outer : dw_fde := DwFde 0x3000 0x20
  (Insns [IAdvanceLoc 1; IDefCfaOffset 16; IOffset 29 2; IOffset 30 1] None)
  (rows_ok [DwRow 0x3000 0x3004 (CfaReg 31 0) []; DwRow 0x3004 0x3020 (CfaReg 31 16) [(29, ROffset (-16)); (30, ROffset (-8))]]).
Definition pac_eh : eh_frame := of_functions [fn_pac; fn_end; fn_outer].

Lemma pac_last f : last_at pac_eh f <-> f = fn_pac \/ f = fn_end \/ f = fn_outer.
Proof.
  rewrite (distinct_last pac_eh); [cbn; intuition congruence|]. unfold distinct_starts. cbn. repeat constructor; cbn; intuition discriminate.
Qed.
Lemma pac_typed : eh_typed pac_eh.
Proof. typed_eh. Qed.
Lemma pac_followed : programs_followed pac_eh arm_cie.
Proof.
  intros f Hf. apply pac_last in Hf. destruct Hf as [-> | [-> | ->]];
    (eexists _, _; split; [reflexivity|]; split; [vm_compute; reflexivity|]; unfold pac_body; rows_agree).
Qed.
Lemma pac_no_clash f r : last_at pac_eh f -> In r (dw_rows_of f) -> ~ clash Aarch64 (fixed_ra_of arm pac_eh) r.
Proof.
  intros Hf Hr. apply pac_last in Hf. apply not_clashing.
  destruct Hf as [-> | [-> | ->]]; cbn in Hr; repeat (destruct Hr as [<-|Hr]; [vm_compute; try exact I; split; discriminate|]); destruct Hr.
Qed.
Lemma pac_unconfused f : last_at pac_eh f -> unconfused Aarch64 (fixed_ra_of arm pac_eh) (arm_cie f) f.
Proof.
  intros Hf. apply rows_unconfused; [apply (last_len _ _ pac_typed Hf)|apply pac_followed, Hf|]. intros r. apply pac_no_clash, Hf.
Qed.

Definition pac_sfb : sfb := Eval vm_compute in got (dwarf2sframe rel64 arm pac_eh).
Definition pac_bytes : bytes := Eval vm_compute in section LE pac_sfb.
Definition pac_sf : sframe := Eval vm_compute in get_ok dummy_sf (load rel64 LE pac_bytes).

(** The stack: the leaf was called by the function that signs, that by the outer one. *)
Definition pac_signed : Z := 0x77000000003011.
Definition pac_world : world := world_of [(0x100, 0x180); (0x108, pac_signed); (0x110, 0x1c0); (0x118, 0x5)].
Definition pac_start : dw_frame := frame_of 0x1010 [(31, 0x100); (29, 0x140); (30, 0x1234)].
Definition pac_state : cfi_state := Eval vm_compute in
  match cfi_at cie_arm fn_pac 0x1010 with Some st => st | None => CfiState None [] end.

Lemma pac_only w x y f st : w_look w (dx_first x) (dx_pc x) = 0x1010 ->
  dw_step w Aarch64 (cfi_says pac_eh arm_cie column_30) x y -> f = fn_pac -> cfi_at cie_arm fn_pac 0x1010 = Some st ->
  exists cfa v, cfa_value w (as_row st) (dx_regs x) = Some cfa /\ caller_value w Aarch64 (as_row st) cfa (dx_regs x) 30 = Some v /\
    (signed_row Aarch64 (as_row st) -> dx_pc y = w_strip w v).
Proof.
  intros E (r & k & cfa & v & (g & st' & G1 & G2 & G3 & -> & ->) & H1 & H2 & _ & H3 & _) -> S. rewrite E in G2, G3.
  apply pac_last in G1. destruct G1 as [-> | [-> | ->]]; [|unfold in_range in G2; cbn in G2; lia|unfold in_range in G2; cbn in G2; lia].
  assert (st' = st) as -> by (change (arm_cie fn_pac) with cie_arm in G3; congruence). exists cfa, v. auto.
Qed.

Theorem pac_wrong :
  eh_typed pac_eh /\ dwarf2sframe rel64 arm pac_eh = Ok pac_sfb /\ build rel64 LE pac_sfb = Ok pac_bytes /\
  load rel64 LE pac_bytes = Ok pac_sf /\ programs_followed pac_eh arm_cie /\
  (forall f, last_at pac_eh f -> unconfused Aarch64 (fixed_ra_of arm pac_eh) (arm_cie f) f) /\
  (exists y, dw_step pac_world Aarch64 (cfi_says pac_eh arm_cie column_30) pac_start y /\ dx_pc y = 0x3011) /\
  sf_step pac_world (section_says rel64 LE pac_sf) (SfFrame true 0x1010 0x100 (Some 0x140)) (SfFrame false pac_signed 0x110 (Some 0x180)) /\
  ~ same_walks pac_world Aarch64 (cfi_says pac_eh arm_cie column_30) (section_says rel64 LE pac_sf).
Proof.
  assert (HC : dwarf2sframe rel64 arm pac_eh = Ok pac_sfb) by (vm_compute; reflexivity).
  assert (HB : build rel64 LE pac_sfb = Ok pac_bytes) by (vm_compute; reflexivity).
  assert (HL : load rel64 LE pac_bytes = Ok pac_sf) by (vm_compute; reflexivity).
  assert (HSt : cfi_at cie_arm fn_pac 0x1010 = Some pac_state) by (vm_compute; reflexivity).
  assert (HG : signed_row Aarch64 (as_row pac_state)) by (split; reflexivity).
  assert (Hf : last_at pac_eh fn_pac) by (apply pac_last; auto).
  assert (HS : sf_step pac_world (section_says rel64 LE pac_sf) (SfFrame true 0x1010 0x100 (Some 0x140)) (SfFrame false pac_signed 0x110 (Some 0x180))).
  { exists (Unwind Sp false (Some 16) (Some (-8)) (Some (-16))), 0x100, 16, (-8), pac_signed. split; [|repeat split].
    destruct (program_preserved rel64 rel64 rel64 arm pac_eh pac_sfb LE pac_bytes pac_typed HC HB (or_intror eq_refl)) as (sf & L & P & _).
    - vm_compute. reflexivity.
    - intros f Hf'. split; [exists (arm_cie f); apply pac_followed, Hf'|]. intros r Hr. apply filter_In in Hr. apply (pac_no_clash f r Hf'), Hr.
    - assert (sf = pac_sf) as -> by congruence.
      destruct (P cie_arm fn_pac 0x1010 Hf (pac_followed _ Hf)) as (st & u & U1 & U2 & (M & _) & _); [unfold in_range; cbn; lia|].
      assert (st = pac_state) as -> by congruence.
      assert (R : representable Aarch64 (as_row pac_state) Sp 16 (-8) (Some (-16))) by (apply classify_spec; reflexivity).
      rewrite (M _ _ _ _ R) in U2. exact U2. }
  split; [exact pac_typed|]. split; [exact HC|]. split; [exact HB|]. split; [exact HL|]. split; [exact pac_followed|].
  split; [exact pac_unconfused|]. split.
  { exists (DwFrame false 0x3011 (fun reg => caller_value pac_world Aarch64 (as_row pac_state) 0x110 (at_list [(31, 0x100); (29, 0x140); (30, 0x1234)]) reg)).
    split; [|reflexivity]. exists (as_row pac_state), 30, 0x110, pac_signed. split.
    - exists fn_pac, pac_state. split; [exact Hf|]. split; [unfold in_range; cbn; lia|]. split; [exact HSt|]. auto.
    - split; [reflexivity|]. split; [reflexivity|]. split; [reflexivity|]. split; [reflexivity|]. split; [intros H; destruct (H HG)|reflexivity]. }
  split; [exact HS|].
  apply (not_same _ _ _ _ pac_start (SfFrame true 0x1010 0x100 (Some 0x140)) [SfFrame false pac_signed 0x110 (Some 0x180)]);
    [reflexivity|repeat split|apply walk_step; [exact HS|apply walk_end]|].
  intros l H E. destruct l as [|y [|z l]]; try discriminate. injection E as E1.
  inversion H as [|? ? ? S1 _]; subst. apply (pac_only _ _ _ fn_pac pac_state) in S1; [|reflexivity|reflexivity|exact HSt].
  destruct S1 as (cfa & v & A1 & A2 & A3). cbn in A1. injection A1 as <-. cbn in A2. injection A2 as <-.
  rewrite (A3 HG) in E1. discriminate.
Qed.

(** ** With the repairs *)

Definition pac_whole : sfb := Eval vm_compute in xgot (dwarf2sframe_repaired rel64 arm column_30 pac_eh).
Definition pac_whole_bytes : bytes := Eval vm_compute in xsection LE pac_whole.
Definition pac_whole_sf : sframe := Eval vm_compute in xload LE pac_whole_bytes.
Definition leaf_start : dw_frame := frame_of 0x2004 [(31, 0x100); (29, 0x140); (30, 0x1011)].
Definition pac_walk : list lk_frame :=
  [ LkFrame false 0x1011 0x100 (Some 0x140) None; LkFrame false 0x3011 0x110 (Some 0x180) None; LkFrame false 0x5 0x120 (Some 0x1c0) None ].

Lemma pac_takeable f : last_at pac_eh f -> takeable arm pac_eh arm_cie column_30 f.
Proof.
  intros Hf. split; [|split; [|split; [apply pac_followed, Hf|discriminate]]];
    apply pac_last in Hf; destruct Hf as [-> | [-> | ->]]; vm_compute; intuition discriminate.
Qed.

(** A rule in force and what it conveys. *)
Lemma pac_says f st x : last_at pac_eh f -> in_range (df_start f) (df_len f) x -> cfi_at cie_arm f x = Some st ->
  cfi_says pac_eh arm_cie column_30 x (as_row st) 30.
Proof. intros H1 H2 H3. exists f, st. auto. Qed.

Theorem pac_right :
  eh_typed pac_eh /\ ents_end (eh_entries pac_eh) = None /\
  (forall x, In x (entries_of pac_eh) -> match x with DwCie => True | DwBadFde _ => False
     | DwGoodFde f => takeable arm pac_eh arm_cie column_30 f end) /\
  ~ functions_overlap pac_eh /\ countable (function_count pac_eh) (table_rows pac_eh) /\ programs_followed pac_eh arm_cie /\
  dwarf2sframe_repaired rel64 arm column_30 pac_eh = Ok pac_whole /\ build_repaired rel64 LE pac_whole = Ok pac_whole_bytes /\
  load rel64 LE pac_whole_bytes = Ok pac_whole_sf /\ rust_slice rel64 pac_whole_bytes /\
  same_link_point_exact Aarch64 leaf_start (LkFrame true 0x2004 0x100 (Some 0x140) (Some 0x1011)) /\
  walk (lk_step pac_world (looked_up_whole rel64 LE pac_whole_sf)) (LkFrame true 0x2004 0x100 (Some 0x140) (Some 0x1011)) pac_walk /\
  walk (lk_step pac_world (std_tells LE pac_whole_bytes)) (LkFrame true 0x2004 0x100 (Some 0x140) (Some 0x1011)) pac_walk /\
  exists l, walk (dw_step pac_world Aarch64 (cfi_says pac_eh arm_cie column_30)) leaf_start l /\ map dx_pc l = [0x1011; 0x3011; 0x5].
Proof.
  assert (HC : dwarf2sframe_repaired rel64 arm column_30 pac_eh = Ok pac_whole) by (vm_compute; reflexivity).
  assert (HB : build_repaired rel64 LE pac_whole = Ok pac_whole_bytes) by (vm_compute; reflexivity).
  assert (HL : load rel64 LE pac_whole_bytes = Ok pac_whole_sf) by (vm_compute; reflexivity).
  assert (HR : rust_slice rel64 pac_whole_bytes) by (vm_compute; reflexivity).
  assert (HP : same_link_point_exact Aarch64 leaf_start (LkFrame true 0x2004 0x100 (Some 0x140) (Some 0x1011))) by (repeat split).
  assert (HT : forall f st x base m cfa ra fp, last_at pac_eh f -> in_range (df_start f) (df_len f) x -> cfi_at cie_arm f x = Some st ->
    express Aarch64 30 (as_row st) = Some (base, m, cfa, ra, fp) ->
    looked_up_whole rel64 LE pac_whole_sf x (Unwind base m (Some cfa) ra fp) /\ std_tells LE pac_whole_bytes x (Unwind base m (Some cfa) ra fp)).
  { intros f st x base m cfa ra fp H1 H2 H3 H4.
    destruct (repaired_program rel64 rel64 rel64 arm column_30 pac_eh pac_whole LE pac_whole_bytes arm_cie pac_typed HC HB (or_intror eq_refl) HR pac_followed)
      as (sf & L & P & _). assert (sf = pac_whole_sf) as -> by congruence.
    destruct (P x _ _ (pac_says f st x H1 H2 H3)) as (u & (U1 & _) & U2 & U3). apply express_spec in H4.
    rewrite (U1 _ _ _ _ _ H4) in U2, U3. auto. }
  assert (W : forall tells : Z -> unwind -> Prop,
    (forall f st x base m cfa ra fp, last_at pac_eh f -> in_range (df_start f) (df_len f) x -> cfi_at cie_arm f x = Some st ->
       express Aarch64 30 (as_row st) = Some (base, m, cfa, ra, fp) -> tells x (Unwind base m (Some cfa) ra fp)) ->
    walk (lk_step pac_world tells) (LkFrame true 0x2004 0x100 (Some 0x140) (Some 0x1011)) pac_walk).
  { intros tells H. apply walk_step; [|apply walk_step; [|apply walk_step; [|apply walk_end]]].
    - exists (Unwind Sp false (Some 0) None None), 0x100, 0, 0x1011. split; [|repeat split].
      eapply (H fn_end); [apply pac_last; auto|unfold in_range; cbn; lia|vm_compute; reflexivity|vm_compute; reflexivity].
    - exists (Unwind Sp true (Some 16) (Some (-8)) (Some (-16))), 0x100, 16, pac_signed. split; [|repeat split].
      eapply (H fn_pac); [apply pac_last; auto|unfold in_range; cbn; lia|vm_compute; reflexivity|vm_compute; reflexivity].
    - exists (Unwind Sp false (Some 16) (Some (-8)) (Some (-16))), 0x110, 16, 0x5. split; [|repeat split].
      eapply (H fn_outer); [apply pac_last; auto|unfold in_range; cbn; lia|vm_compute; reflexivity|vm_compute; reflexivity]. }
  split; [exact pac_typed|]. split; [reflexivity|]. split.
  { intros x Hx. cbn in Hx. repeat (destruct Hx as [<-|Hx]; [try exact I; apply pac_takeable, pac_last; auto|]). destruct Hx. }
  split.
  { intros (f & g & Hf & Hg & Hne & Hin). apply pac_last in Hf, Hg.
    destruct Hf as [-> | [-> | ->]], Hg as [-> | [-> | ->]]; unfold in_range in Hin; cbn in Hin, Hne; lia. }
  split; [vm_compute; intuition discriminate|]. split; [exact pac_followed|]. do 5 (split; [assumption|]).
  split; [apply W; intros; eapply HT; eassumption|]. split; [apply W; intros; eapply HT; eassumption|].
  destruct (repaired_program_walks rel64 rel64 rel64 arm column_30 pac_eh pac_whole LE pac_whole_bytes arm_cie pac_world pac_typed HC HB
    (or_intror eq_refl) HR pac_followed) as (sf & L & _ & (_ & Hback)).
  destruct (Hback eq_refl leaf_start _ pac_walk HP) as (l & L1 & L2).
  { apply W. intros; eapply HT; eassumption. }
  exists l. split; [exact L1|]. assert (E : map dx_pc l = map lx_pc pac_walk).
  { clear - L2. induction L2 as [|x y l m (_ & E & _) _ IH]; [reflexivity|]. cbn. congruence. }
  exact E.
Qed.

(** ** amd64, as the converters are *)

Definition amd_cie (f : dw_fde) : cie_info := cie_amd.
Definition two_world : world := world_of [(0x100, 0x1011); (0x208, 0x5); (0x200, 0x300)].
Definition two_start : dw_frame := frame_of 0x1024 [(7, 0x100); (6, 0x200)].
Definition two_section : bytes := Eval vm_compute in section LE two_sfb.
Definition two_sf : sframe := Eval vm_compute in get_ok dummy_sf (load rel64 LE two_section).
Definition two_first : sfb := Eval vm_compute in get_ok (sfb_new options_new) (v1_convert rel64 v1_any (eh_entries eh_two)).
Definition two_first_section : bytes := Eval vm_compute in section LE two_first.

Lemma two_followed : programs_followed eh_two amd_cie.
Proof. intros f Hf. apply two_last in Hf. destruct Hf as [-> | ->]; [apply push_follows|apply leaf_follows]. Qed.
Lemma two_typed : eh_typed eh_two.
Proof. apply two_case. Qed.
Lemma two_plain f x st : last_at eh_two f -> in_range (df_start f) (df_len f) x -> cfi_at cie_amd f x = Some st ->
  plain_row Amd64 (as_row st) (amd_column f) /\ plain_fp (as_row st).
Proof.
  intros Hf Hx S. destruct (program_rows cie_amd f x st (last_len _ _ two_typed Hf) (two_followed f Hf) Hx S) as (r & Hr & _ & E2).
  assert (Q : dr_register r 7 = RUndefined /\ (dr_register r 6 = RUndefined \/ exists o, dr_register r 6 = ROffset o)).
  { apply two_last in Hf. destruct Hf as [-> | ->]; cbn in Hr; repeat (destruct Hr as [<-|Hr]; [vm_compute; split; [reflexivity|eauto]|]); destruct Hr. }
  destruct Q as [Q1 Q2]. split.
  - intros _. rewrite E2. split; [left; exact Q1|]. split; [reflexivity|]. intros [H _]. discriminate.
  - intros base cfa ra (_ & _ & _ & _ & Hn). rewrite E2 in *. destruct Q2 as [Q2|(o & Q2)]; [right; exact Q2|]. destruct (Hn o). exact Q2.
Qed.

Theorem two_walks :
  eh_typed eh_two /\ dwarf2sframe rel64 amd eh_two = Ok two_sfb /\ build rel64 LE two_sfb = Ok two_section /\
  v1_convert rel64 v1_any (eh_entries eh_two) = Ok two_first /\ build rel64 LE two_first = Ok two_first_section /\
  wf_mode rel64 /\ rust_slice rel64 two_section /\ rust_slice rel64 two_first_section /\ load rel64 LE two_section = Ok two_sf /\
  programs_followed eh_two amd_cie /\
  (forall f, last_at eh_two f -> plain_program amd eh_two amd_cie amd_column f /\ v1_plain_program amd_cie amd_column f) /\
  same_point_exact Amd64 two_start (SfFrame true 0x1024 0x100 (Some 0x200)) /\
  exists l, walk (dw_step two_world Amd64 (cfi_says eh_two amd_cie amd_column)) two_start l /\ map dx_pc l = [0x1011; 0x5].
Proof.
  assert (HF : forall f, last_at eh_two f -> advances cie_amd f).
  { intros f Hf. apply two_last in Hf. destruct Hf as [-> | ->]; (eexists; split; [vm_compute; reflexivity|]); intros r Hr; cbn in Hr;
      repeat (destruct Hr as [<-|Hr]; [cbn; lia|]); destruct Hr. }
  split; [exact two_typed|]. do 4 (split; [vm_compute; reflexivity|]). split; [right; reflexivity|].
  do 3 (split; [vm_compute; reflexivity|]). split; [exact two_followed|]. split.
  { intros f Hf. assert (U : unconfused Amd64 (Some (-8)) cie_amd f /\ v1_unconfused cie_amd f)
      by (apply two_unconfused; [apply two_last, Hf|apply two_followed, Hf]). destruct U as [U1 U2]. split.
    - split; [exact U1|]. intros x st Hx S. apply (two_plain f x st Hf Hx S).
    - split; [exact U2|]. split; [apply HF, Hf|]. intros x st Hx S. apply (two_plain f x st Hf Hx S). }
  split; [repeat split|].
  assert (X : forall f st x y cfa v pc, last_at eh_two f -> in_range (df_start f) (df_len f) (w_look two_world (dx_first x) (dx_pc x)) ->
    cfi_at cie_amd f (w_look two_world (dx_first x) (dx_pc x)) = Some st -> cfa_value two_world (as_row st) (dx_regs x) = Some cfa ->
    caller_value two_world Amd64 (as_row st) cfa (dx_regs x) 16 = Some v -> pc = v ->
    y = DwFrame false pc (caller_value two_world Amd64 (as_row st) cfa (dx_regs x)) ->
    dw_step two_world Amd64 (cfi_says eh_two amd_cie amd_column) x y).
  { intros f st x y cfa v pc H1 H2 H3 H4 H5 -> ->. exists (as_row st), 16, cfa, v. split; [exists f, st; auto|].
    split; [exact H4|]. split; [exact H5|]. split; [reflexivity|]. split; [intros [H _]; discriminate|]. split; reflexivity. }
  eexists [_; _]. split; [apply walk_step; [|apply walk_step; [|apply walk_end]]|].
  - eapply (X fn_leaf); [apply two_last; auto|unfold in_range; cbn; lia|vm_compute; reflexivity|vm_compute; reflexivity|vm_compute; reflexivity|reflexivity|reflexivity].
  - eapply (X fn_push); [apply two_last; auto|unfold in_range; cbn; lia|vm_compute; reflexivity|vm_compute; reflexivity|vm_compute; reflexivity|reflexivity|reflexivity].
  - reflexivity.
Qed.

Definition two_first_whole : sfb := Eval vm_compute in
  get_ok (sfb_new options_new) (snd (v1_convert_with all_v1fixes some_texts1 ElfX86_64 rel64 amd_column (eh_entries eh_two))).
Definition two_first_whole_bytes : bytes := Eval vm_compute in xsection LE two_first_whole.
Theorem two_first_right :
  repairs_rows all_v1fixes /\ eh_typed eh_two /\
  snd (v1_convert_with all_v1fixes some_texts1 ElfX86_64 rel64 amd_column (eh_entries eh_two)) = Ok two_first_whole /\
  build_repaired rel64 LE two_first_whole = Ok two_first_whole_bytes /\ wf_mode rel64 /\ rust_slice rel64 two_first_whole_bytes /\
  programs_followed eh_two amd_cie /\ length (fdes_of two_first_whole) = 2%nat.
Proof.
  split; [exact V1RepairedProps.all_repairs_rows|]. split; [exact two_typed|]. do 2 (split; [vm_compute; reflexivity|]).
  split; [right; reflexivity|]. split; [vm_compute; reflexivity|]. split; [exact two_followed|reflexivity].
Qed.
