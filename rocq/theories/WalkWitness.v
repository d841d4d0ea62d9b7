(** Concrete stacks: walks that go wrong, and one that does not. *)
From Verif Require Import ConvProps ConvWitness ToolsProps ToolsWitness WalkSpec WalkFacts.

(** ** Generalities *)

Lemma last_at_function eh f : last_at eh f -> In f (functions (entries_of eh)).
Proof. intros (pre & post & -> & _). apply in_elt. Qed.

(** The step from a frame whose row is known. *)
Lemma dw_step_at w a eh column x y f r :
  (forall g, In g (functions (entries_of eh)) -> in_range (df_start g) (df_len g) (w_look w (dx_first x) (dx_pc x)) -> g = f) ->
  (forall q, In q (dw_rows_of f) -> dr_start q <= w_look w (dx_first x) (dx_pc x) < dr_end q -> q = r) ->
  dw_step w a (dw_says eh column) x y ->
  exists cfa v, cfa_value w r (dx_regs x) = Some cfa /\ caller_value w a r cfa (dx_regs x) (column f) = Some v /\
    dx_first y = false /\ (signed_row a r -> dx_pc y = w_strip w v) /\ (~ signed_row a r -> dx_pc y = v) /\
    forall reg, dx_regs y reg = caller_value w a r cfa (dx_regs x) reg.
Proof.
  intros Hf Hr (q & c & cfa & v & (g & G1 & G2 & G3 & G4 & ->) & H). 
  assert (g = f) as -> by (apply Hf; [apply last_at_function, G1|exact G2]).
  assert (q = r) as -> by (apply Hr; assumption). exists cfa, v. exact H.
Qed.

(** Two walks that end up at different addresses are not the same. *)
Lemma not_same w a says tells x y m : w_keep w = true -> same_point_exact a x y -> walk (sf_step w tells) y m ->
  (forall l, walk (dw_step w a says) x l -> map dx_pc l <> map sx_pc m) -> ~ same_walks w a says tells.
Proof.
  intros Hk Hp Hm Hd [_ H]. destruct (H Hk x y m Hp Hm) as (l & Hl & HF). apply (Hd l Hl).
  clear - HF. induction HF as [|x y l m (_ & E & _) _ IH]; [reflexivity|]. cbn. congruence.
Qed.

(** Registers and memory from lists. *)
Fixpoint at_list (l : list (Z * Z)) (k : Z) : option Z :=
  match l with
  | [] => None
  | (k', v) :: t => if k' =? k then Some v else at_list t k
  end.
Definition world_of (mem : list (Z * Z)) : world :=
  {| w_mem := at_list mem; w_eval := fun _ _ _ => None; w_strip := fun v => v mod 2 ^ 48;
     w_look := fun first pc => if first then pc else pc - 1; w_keep := true |}.
Definition frame_of (pc : Z) (regs : list (Z * Z)) : dw_frame := DwFrame true pc (at_list regs).

Definition amd_column (f : dw_fde) : Z := 16.

(** Functions of one row each. *)
Definition whole (r : dw_row) : dw_fde := DwFde (dr_start r) (dr_end r - dr_start r) nops (rows_ok [r]).
Definition of_rows (l : list dw_row) : eh_frame := of_functions (map whole l).

Lemma of_rows_functions l : functions (entries_of (of_rows l)) = map whole l.
Proof.
  unfold of_rows, of_functions, entries_of. cbn. induction l as [|r l IH]; [reflexivity|]. cbn. rewrite IH. reflexivity.
Qed.
Lemma of_rows_last l f : last_at (of_rows l) f -> exists r, In r l /\ f = whole r.
Proof.
  intros H. apply last_at_function in H. rewrite of_rows_functions in H. apply in_map_iff in H.
  destruct H as (r & <- & H). exists r. auto.
Qed.
Lemma last_of_rows l r : NoDup (map dr_start l) -> In r l -> last_at (of_rows l) (whole r).
Proof.
  intros Hn Hi. apply in_split in Hi. destruct Hi as (pre & post & ->).
  exists (map whole pre), (map whole post). rewrite of_rows_functions, map_app. split; [reflexivity|].
  intros f Hf. apply in_map_iff in Hf. destruct Hf as (q & <- & Hq). cbn. intros E.
  rewrite map_app in Hn. cbn in Hn. apply NoDup_remove_2 in Hn. apply Hn, in_or_app. right.
  apply in_map_iff. exists q. auto.
Qed.
Lemma of_rows_fine l f : last_at (of_rows l) f -> rows_disjoint f /\ rows_cover f /\
  forall r, In r (wide_rows f) -> In r l /\ f = whole r.
Proof.
  intros H. apply of_rows_last in H. destruct H as (r & Hr & ->).
  assert (W : forall q, In q (wide_rows (whole r)) -> q = r).
  { intros q Hq. apply filter_In in Hq. destruct Hq as [[<-|[]] _]. reflexivity. }
  split; [|split].
  - intros q q' Hq Hq' Hl. apply W in Hq, Hq'. subst. lia.
  - intros x Hx. unfold in_range in Hx. cbn in Hx. exists r. split; [left; reflexivity|lia].
  - intros q Hq. apply W in Hq. subst q. auto.
Qed.

(** What the converted section says. *)
Lemma of_rows_tells op l s bs sf r base cfa ra fp x :
  eh_typed (of_rows l) -> dwarf2sframe rel64 op (of_rows l) = Ok s -> build rel64 LE s = Ok bs ->
  load rel64 LE bs = Ok sf -> rust_slice rel64 bs -> NoDup (map dr_start l) ->
  (forall r, In r l -> ~ clash (op_arch op) (fixed_ra_of op (of_rows l)) r) ->
  In r l -> classify (op_arch op) r = Some (base, cfa, ra, fp) -> dr_start r <= x < dr_end r ->
  section_says rel64 LE sf x (Unwind base false (Some cfa) (Some ra) fp).
Proof.
  intros Ht Hc Hb Hl Hs Hn Hg Hr HC Hx.
  destruct (conv_end_to_end rel64 rel64 rel64 op _ s LE bs Ht Hc Hb (or_intror eq_refl) Hs) as (sf' & HL & H & _).
  { intros f Hf. apply of_rows_fine in Hf. destruct Hf as (H1 & _ & H2). split; [exact H1|].
    intros q Hq. apply Hg, H2, Hq. }
  rewrite Hl in HL. apply ok_inj in HL. subst sf'.
  destruct (H x r) as (u & Hu & M & _).
  - exists (whole r). split; [apply last_of_rows; assumption|]. unfold in_range. cbn.
    split; [lia|]. split; [left; reflexivity|lia].
  - rewrite (M _ _ _ _ (proj1 (classify_spec _ _ _ _ _ _) HC)) in Hu. exact Hu.
Qed.

(** What DWARF says. *)
Lemma of_rows_step w a l column x y r :
  dw_step w a (dw_says (of_rows l) column) x y ->
  (forall q, In q l -> dr_start q <= w_look w (dx_first x) (dx_pc x) < dr_end q -> q = r) ->
  exists cfa v, cfa_value w r (dx_regs x) = Some cfa /\
    caller_value w a r cfa (dx_regs x) (column (whole r)) = Some v /\
    dx_first y = false /\ (signed_row a r -> dx_pc y = w_strip w v) /\ (~ signed_row a r -> dx_pc y = v) /\
    forall reg, dx_regs y reg = caller_value w a r cfa (dx_regs x) reg.
Proof.
  intros H Hr. apply (dw_step_at w a (of_rows l) column x y (whole r) r); [| |exact H].
  - intros g Hg Hx. rewrite of_rows_functions in Hg. apply in_map_iff in Hg. destruct Hg as (q & <- & Hq).
    unfold in_range in Hx. cbn in Hx. f_equal. apply Hr; [exact Hq|lia].
  - intros q [<-|[]] _. reflexivity.
Qed.
Lemma of_rows_says l column r x : NoDup (map dr_start l) -> In r l -> dr_start r <= x < dr_end r ->
  dw_says (of_rows l) column x r (column (whole r)).
Proof.
  intros Hn Hr Hx. exists (whole r). split; [apply last_of_rows; assumption|]. unfold in_range. cbn.
  split; [lia|]. split; [left; reflexivity|]. split; [exact Hx|reflexivity].
Qed.

Ltac nodup := cbn; repeat (apply NoDup_cons; [cbn; intuition discriminate|]); apply NoDup_nil.
Ltac no_clash H := apply not_clashing; cbn in H; repeat (destruct H as [<-|H]); try contradiction;
  vm_compute; try exact I; split; discriminate.

(** ** A rule for the stack pointer *)

(** The first function has switched stacks and saved the old stack pointer. *)
Definition switch_row : dw_row := DwRow 0x1000 0x1010 (CfaReg 7 8) [(16, ROffset (-8)); (7, ROffset 0)].
Definition plain_dw : dw_row := amd_row 0x2000 0x2010 7 8 RUndefined.
Definition switch_rows : list dw_row := [switch_row; plain_dw].
Definition switch_sfb : sfb := Eval vm_compute in got (dwarf2sframe rel64 amd (of_rows switch_rows)).
Definition switch_bytes : bytes := Eval vm_compute in section LE switch_sfb.
Definition switch_sf : sframe := Eval vm_compute in get_ok dummy_sf (load rel64 LE switch_bytes).
Definition switch_world : world := world_of [(0x100, 0x2004); (0x108, 0x8000); (0x8000, 0x1005)].
Definition switch_start : dw_frame := frame_of 0x1004 [(7, 0x100); (6, 0x40)].
Definition switch_walk : list sf_frame :=
  [ SfFrame false 0x2004 0x108 (Some 0x40); SfFrame false 0x8000 0x110 (Some 0x40) ].

Lemma switch_typed : eh_typed (of_rows switch_rows).
Proof. typed_eh. Qed.
Lemma switch_tells r base cfa ra fp x : In r switch_rows -> classify Amd64 r = Some (base, cfa, ra, fp) ->
  dr_start r <= x < dr_end r -> section_says rel64 LE switch_sf x (Unwind base false (Some cfa) (Some ra) fp).
Proof.
  apply (of_rows_tells amd switch_rows switch_sfb switch_bytes switch_sf);
    [exact switch_typed|vm_compute; reflexivity|vm_compute; reflexivity|vm_compute; reflexivity
    |vm_compute; reflexivity|nodup|].
  intros q Hq. no_clash Hq.
Qed.

Lemma switch_sframe_walk :
  walk (sf_step switch_world (section_says rel64 LE switch_sf)) (SfFrame true 0x1004 0x100 (Some 0x40)) switch_walk.
Proof.
  apply walk_step; [|apply walk_step; [|apply walk_end]].
  - exists (Unwind Sp false (Some 8) (Some (-8)) None), 0x100, 8, (-8), 0x2004.
    split; [apply (switch_tells switch_row); [left; reflexivity|reflexivity|cbn; lia]|]. repeat split.
  - exists (Unwind Sp false (Some 8) (Some (-8)) None), 0x108, 8, (-8), 0x8000.
    split; [apply (switch_tells plain_dw); [right; left; reflexivity|reflexivity|cbn; lia]|]. repeat split.
Qed.

Lemma switch_dwarf l :
  walk (dw_step switch_world Amd64 (dw_says (of_rows switch_rows) amd_column)) switch_start l ->
  map dx_pc l <> map sx_pc switch_walk.
Proof.
  intros H E. destruct l as [|y [|z [|? l]]]; try discriminate. injection E as E1 E2.
  inversion H as [|? ? ? S1 H1]; subst. inversion H1 as [|? ? ? S2 H2]; subst.
  apply (of_rows_step _ _ _ _ _ _ switch_row) in S1.
  2:{ intros q [<-|[<-|[]]] Hq; [reflexivity|cbn in Hq; lia]. }
  destruct S1 as (cfa & v & A1 & A2 & A3 & _ & _ & A4).
  apply (of_rows_step _ _ _ _ _ _ plain_dw) in S2.
  2:{ intros q [<-|[<-|[]]] Hq; [cbn in Hq; rewrite A3, E1 in Hq; cbn in Hq; lia|reflexivity]. }
  destruct S2 as (cfa' & v' & B1 & B2 & _ & _ & B3 & _).
  cbn in A1. injection A1 as <-. unfold cfa_value in B1. cbn [plain_dw amd_row dr_cfa] in B1.
  rewrite (A4 7) in B1. cbn in B1. injection B1 as <-. cbn in B2. injection B2 as <-.
  specialize (B3 ltac:(intros [? _]; discriminate)). congruence.
Qed.

(** The frames that DWARF has. *)
Definition step_regs (w : world) (a : arch) (r : dw_row) (cfa : Z) (regs : Z -> option Z) : Z -> option Z :=
  caller_value w a r cfa regs.
Lemma of_rows_goes w a l column x r cfa v pc : NoDup (map dr_start l) -> In r l ->
  dr_start r <= w_look w (dx_first x) (dx_pc x) < dr_end r ->
  cfa_value w r (dx_regs x) = Some cfa -> caller_value w a r cfa (dx_regs x) (column (whole r)) = Some v ->
  (signed_row a r -> pc = w_strip w v) -> (~ signed_row a r -> pc = v) ->
  dw_step w a (dw_says (of_rows l) column) x (DwFrame false pc (step_regs w a r cfa (dx_regs x))).
Proof.
  intros Hn Hr Hx H1 H2 H3 H4. exists r, (column (whole r)), cfa, v.
  split; [apply of_rows_says; assumption|]. repeat (split; [assumption||reflexivity|]). reflexivity.
Qed.

Lemma not_signed_amd r : ~ signed_row Amd64 r.
Proof. intros [H _]. discriminate. Qed.

Theorem sp_rule_lost :
  eh_typed (of_rows switch_rows) /\ dwarf2sframe rel64 amd (of_rows switch_rows) = Ok switch_sfb /\
  build rel64 LE switch_sfb = Ok switch_bytes /\ load rel64 LE switch_bytes = Ok switch_sf /\
  (forall f, last_at (of_rows switch_rows) f -> rows_disjoint f /\ rows_cover f /\
     forall r, In r (wide_rows f) -> ~ clash Amd64 (fixed_ra_of amd (of_rows switch_rows)) r /\
       amd_column f = reg_ra Amd64 /\ ~ signed_row Amd64 r) /\
  (exists l, walk (dw_step switch_world Amd64 (dw_says (of_rows switch_rows) amd_column)) switch_start l /\
     map dx_pc l = [0x2004; 0x1005]) /\
  walk (sf_step switch_world (section_says rel64 LE switch_sf)) (SfFrame true 0x1004 0x100 (Some 0x40)) switch_walk /\
  map sx_pc switch_walk = [0x2004; 0x8000] /\
  ~ same_walks switch_world Amd64 (dw_says (of_rows switch_rows) amd_column) (section_says rel64 LE switch_sf).
Proof.
  split; [exact switch_typed|]. do 3 (split; [vm_compute; reflexivity|]). split.
  { intros f Hf. apply of_rows_fine in Hf. destruct Hf as (H1 & H2 & H3). split; [exact H1|]. split; [exact H2|].
    intros r Hr. apply H3 in Hr. destruct Hr as [Hr _]. split; [no_clash Hr|]. split; [reflexivity|apply not_signed_amd]. }
  split.
  { eexists. split.
    - eapply walk_step; [|eapply walk_step; [|apply walk_end]].
      + apply (of_rows_goes _ _ switch_rows _ _ switch_row 0x108 0x2004 0x2004); try reflexivity; [nodup|left; reflexivity|cbn; lia].
      + apply (of_rows_goes _ _ switch_rows _ _ plain_dw 0x8008 0x1005 0x1005); try reflexivity;
          [nodup|right; left; reflexivity|cbn; lia].
    - reflexivity. }
  split; [exact switch_sframe_walk|]. split; [reflexivity|].
  eapply not_same; [reflexivity| |exact switch_sframe_walk|exact switch_dwarf].
  repeat split.
Qed.

(** ** Another register for the return address *)

(** The CIE says that the return address is in register 17. *)
Definition column_row : dw_row := DwRow 0x1000 0x1010 (CfaReg 7 24) [(16, ROffset (-8)); (17, ROffset (-16))].
Definition column_sfb : sfb := Eval vm_compute in got (dwarf2sframe rel64 amd (of_rows [column_row])).
Definition column_bytes : bytes := Eval vm_compute in section LE column_sfb.
Definition column_sf : sframe := Eval vm_compute in get_ok dummy_sf (load rel64 LE column_bytes).
Definition column_world : world := world_of [(0x108, 0x1008); (0x110, 0x7777)].
Definition column_start : dw_frame := frame_of 0x1004 [(7, 0x100); (6, 0x40)].
Definition column_17 (f : dw_fde) : Z := 17.

Theorem column_ignored :
  eh_typed (of_rows [column_row]) /\ dwarf2sframe rel64 amd (of_rows [column_row]) = Ok column_sfb /\
  build rel64 LE column_sfb = Ok column_bytes /\ load rel64 LE column_bytes = Ok column_sf /\
  (forall f, last_at (of_rows [column_row]) f -> rows_disjoint f /\ rows_cover f /\
     forall r, In r (wide_rows f) -> ~ clash Amd64 (fixed_ra_of amd (of_rows [column_row])) r /\
       dr_register r (reg_sp Amd64) = RUndefined /\ ~ signed_row Amd64 r) /\
  (exists y, dw_step column_world Amd64 (dw_says (of_rows [column_row]) column_17) column_start y /\ dx_pc y = 0x1008) /\
  sf_step column_world (section_says rel64 LE column_sf) (SfFrame true 0x1004 0x100 (Some 0x40))
    (SfFrame false 0x7777 0x118 (Some 0x40)) /\
  ~ same_walks column_world Amd64 (dw_says (of_rows [column_row]) column_17) (section_says rel64 LE column_sf).
Proof.
  assert (HS : sf_step column_world (section_says rel64 LE column_sf) (SfFrame true 0x1004 0x100 (Some 0x40))
    (SfFrame false 0x7777 0x118 (Some 0x40))).
  { exists (Unwind Sp false (Some 24) (Some (-8)) None), 0x100, 24, (-8), 0x7777. split; [|repeat split].
    apply (of_rows_tells amd [column_row] column_sfb column_bytes column_sf column_row);
      [typed_eh|vm_compute; reflexivity|vm_compute; reflexivity|vm_compute; reflexivity|vm_compute; reflexivity|nodup|
      |left; reflexivity|reflexivity|cbn; lia].
    intros q Hq. no_clash Hq. }
  split; [typed_eh|]. do 3 (split; [vm_compute; reflexivity|]). split.
  { intros f Hf. apply of_rows_fine in Hf. destruct Hf as (H1 & H2 & H3). split; [exact H1|]. split; [exact H2|].
    intros r Hr. apply H3 in Hr. destruct Hr as [Hr _]. split; [no_clash Hr|].
    split; [destruct Hr as [<-|[]]; reflexivity|apply not_signed_amd]. }
  split.
  { eexists. split.
    - apply (of_rows_goes _ _ _ _ _ column_row 0x118 0x1008 0x1008); try reflexivity; [nodup|left; reflexivity|cbn; lia].
    - reflexivity. }
  split; [exact HS|].
  apply (not_same _ _ _ _ column_start (SfFrame true 0x1004 0x100 (Some 0x40)) [SfFrame false 0x7777 0x118 (Some 0x40)]);
    [reflexivity|repeat split|apply walk_step; [exact HS|apply walk_end]|].
  intros l H E. destruct l as [|y [|z l]]; try discriminate. injection E as E1.
  inversion H as [|? ? ? S1 _]; subst. apply (of_rows_step _ _ _ _ _ _ column_row) in S1.
  2:{ intros q [<-|[]] _. reflexivity. }
  destruct S1 as (cfa & v & A1 & A2 & _ & _ & A3 & _). cbn in A1. injection A1 as <-. cbn in A2. injection A2 as <-.
  rewrite (A3 (not_signed_amd _)) in E1. discriminate.
Qed.

(** ** A signed return address *)

Definition signed_dw : dw_row :=
  DwRow 0x1000 0x1010 (CfaReg 31 16) [(30, ROffset (-8)); (29, ROffset (-16)); (34, RConstant 1)].
Definition signed_walk_sfb : sfb := Eval vm_compute in got (dwarf2sframe rel64 arm (of_rows [signed_dw])).
Definition signed_walk_bytes : bytes := Eval vm_compute in section LE signed_walk_sfb.
Definition signed_walk_sf : sframe := Eval vm_compute in get_ok dummy_sf (load rel64 LE signed_walk_bytes).
Definition signed_pc : Z := 0x003f000000001008.
Definition signed_world : world := world_of [(0x108, signed_pc); (0x100, 0x180)].
Definition signed_start : dw_frame := frame_of 0x1004 [(31, 0x100); (29, 0x140)].
Definition arm_column (f : dw_fde) : Z := 30.

Theorem signature_kept :
  eh_typed (of_rows [signed_dw]) /\ dwarf2sframe rel64 arm (of_rows [signed_dw]) = Ok signed_walk_sfb /\
  build rel64 LE signed_walk_sfb = Ok signed_walk_bytes /\ load rel64 LE signed_walk_bytes = Ok signed_walk_sf /\
  (forall f, last_at (of_rows [signed_dw]) f -> rows_disjoint f /\ rows_cover f /\
     forall r, In r (wide_rows f) -> ~ clash Aarch64 (fixed_ra_of arm (of_rows [signed_dw])) r /\
       dr_register r (reg_sp Aarch64) = RUndefined /\ arm_column f = reg_ra Aarch64) /\
  (exists y, dw_step signed_world Aarch64 (dw_says (of_rows [signed_dw]) arm_column) signed_start y /\ dx_pc y = 0x1008) /\
  sf_step signed_world (section_says rel64 LE signed_walk_sf) (SfFrame true 0x1004 0x100 (Some 0x140))
    (SfFrame false signed_pc 0x110 (Some 0x180)) /\
  ~ same_walks signed_world Aarch64 (dw_says (of_rows [signed_dw]) arm_column) (section_says rel64 LE signed_walk_sf).
Proof.
  assert (HS : sf_step signed_world (section_says rel64 LE signed_walk_sf) (SfFrame true 0x1004 0x100 (Some 0x140))
    (SfFrame false signed_pc 0x110 (Some 0x180))).
  { exists (Unwind Sp false (Some 16) (Some (-8)) (Some (-16))), 0x100, 16, (-8), signed_pc. split; [|repeat split].
    apply (of_rows_tells arm [signed_dw] signed_walk_sfb signed_walk_bytes signed_walk_sf signed_dw);
      [typed_eh|vm_compute; reflexivity|vm_compute; reflexivity|vm_compute; reflexivity|vm_compute; reflexivity|nodup|
      |left; reflexivity|reflexivity|cbn; lia].
    intros q Hq. no_clash Hq. }
  assert (HB : signed_row Aarch64 signed_dw) by (split; reflexivity).
  split; [typed_eh|]. do 3 (split; [vm_compute; reflexivity|]). split.
  { intros f Hf. apply of_rows_fine in Hf. destruct Hf as (H1 & H2 & H3). split; [exact H1|]. split; [exact H2|].
    intros r Hr. apply H3 in Hr. destruct Hr as [Hr _]. split; [no_clash Hr|].
    split; [destruct Hr as [<-|[]]; reflexivity|reflexivity]. }
  split.
  { eexists. split.
    - apply (of_rows_goes _ _ _ _ _ signed_dw 0x110 signed_pc 0x1008); try reflexivity;
        [nodup|left; reflexivity|cbn; lia|]. intros H. destruct (H HB).
    - reflexivity. }
  split; [exact HS|].
  apply (not_same _ _ _ _ signed_start (SfFrame true 0x1004 0x100 (Some 0x140)) [SfFrame false signed_pc 0x110 (Some 0x180)]);
    [reflexivity|repeat split|apply walk_step; [exact HS|apply walk_end]|].
  intros l H E. destruct l as [|y [|z l]]; try discriminate. injection E as E1.
  inversion H as [|? ? ? S1 _]; subst. apply (of_rows_step _ _ _ _ _ _ signed_dw) in S1.
  2:{ intros q [<-|[]] _. reflexivity. }
  destruct S1 as (cfa & v & A1 & A2 & _ & A3 & _). cbn in A1. injection A1 as <-. cbn in A2. injection A2 as <-.
  rewrite (A3 HB) in E1. discriminate.
Qed.

(** ** A walk that is the same *)

(** From the middle of a function with a frame pointer into a PLT, and on into
    the part that is described by an expression. *)
Definition sample_sf : sframe := Eval vm_compute in get_ok dummy_sf (load rel64 LE (sample_bytes LE)).
Definition sample_world : world :=
  {| w_mem := at_list [(0x208, 0x2009); (0x200, 0x300); (0x220, 0x2021); (0x508, 0x1011)];
     w_eval := fun _ _ _ => Some 0x510; w_strip := fun v => v; w_look := fun first pc => if first then pc else pc - 1;
     w_keep := false |}.
Definition sample_start : dw_frame := frame_of 0x1010 [(7, 0x100); (6, 0x200); (3, 0x77)].

Lemma sample_plain f : last_at sample f -> rows_disjoint f /\ rows_cover f /\
  forall r, In r (wide_rows f) -> ~ clash Amd64 (fixed_ra_of amd sample) r /\ plain_row Amd64 r (amd_column f).
Proof.
  intros H. destruct (sample_rows f H) as [H1 H2]. split; [exact H1|]. apply sample_last in H. split.
  - intros x Hx. unfold in_range in Hx. destruct H as [-> | ->]; cbn in Hx |- *.
    + destruct (Z_lt_ge_dec x 0x1001); [exists (amd_row 0x1000 0x1001 7 8 RUndefined); cbn; split; [tauto|lia]|].
      destruct (Z_lt_ge_dec x 0x1004); [exists (amd_row 0x1001 0x1004 7 16 (ROffset (-16))); cbn; split; [tauto|lia]|].
      destruct (Z_lt_ge_dec x 0x101f); [exists (amd_row 0x1004 0x101f 6 16 (ROffset (-16))); cbn; split; [tauto|lia]|].
      exists (amd_row 0x101f 0x1020 7 8 RSameValue); cbn; split; [tauto|lia].
    + destruct (Z_lt_ge_dec x 0x2006); [exists (amd_row 0x2000 0x2006 7 16 RUndefined); cbn; split; [tauto|lia]|].
      destruct (Z_lt_ge_dec x 0x2010); [exists (amd_row 0x2006 0x2010 7 24 RUndefined); cbn; split; [tauto|lia]|].
      exists (DwRow 0x2010 0x2040 (CfaExpression plt_expr) [(16, ROffset (-8))]); cbn; split; [tauto|lia].
  - intros r Hr. split; [apply H2, Hr|]. intros _. split; [|split; [reflexivity|apply not_signed_amd]]. left.
    apply filter_In in Hr. destruct Hr as [Hr _].
    destruct H as [-> | ->]; cbn in Hr; repeat (destruct Hr as [<-|Hr]; [reflexivity|]); destruct Hr.
Qed.

Lemma steps_of (w : world) eh f r x cfa v : last_at eh f -> In r (dw_rows_of f) ->
  in_range (df_start f) (df_len f) (w_look w (dx_first x) (dx_pc x)) ->
  dr_start r <= w_look w (dx_first x) (dx_pc x) < dr_end r ->
  cfa_value w r (dx_regs x) = Some cfa -> caller_value w Amd64 r cfa (dx_regs x) 16 = Some v ->
  dw_step w Amd64 (dw_says eh amd_column) x (DwFrame false v (step_regs w Amd64 r cfa (dx_regs x))).
Proof.
  intros H1 H2 H3 H4 H5 H6. exists r, 16, cfa, v. split; [exists f; tauto|]. split; [exact H5|]. split; [exact H6|].
  split; [reflexivity|]. split; [intros [? _]; discriminate|]. split; [reflexivity|reflexivity].
Qed.

Theorem sample_walks : eh_typed sample /\ dwarf2sframe rel64 amd sample = Ok sample_sfb /\
  build rel64 LE sample_sfb = Ok (sample_bytes LE) /\ wf_mode rel64 /\ rust_slice rel64 (sample_bytes LE) /\
  (forall f, last_at sample f -> rows_disjoint f /\ rows_cover f /\
     forall r, In r (wide_rows f) -> ~ clash Amd64 (fixed_ra_of amd sample) r /\ plain_row Amd64 r (amd_column f)) /\
  (exists l, walk (dw_step sample_world Amd64 (dw_says sample amd_column)) sample_start l /\
     map dx_pc l = [0x2009; 0x2021; 0x1011]) /\
  exists m, walk (sf_step sample_world (section_says rel64 LE sample_sf)) (SfFrame true 0x1010 0x100 (Some 0x200)) m /\
    map sx_pc m = [0x2009; 0x2021].
Proof.
  assert (HD : exists l, walk (dw_step sample_world Amd64 (dw_says sample amd_column)) sample_start l /\
     map dx_pc l = [0x2009; 0x2021; 0x1011]).
  { eexists. split.
    - eapply walk_step; [|eapply walk_step; [|eapply walk_step; [|apply walk_end]]].
      + apply (steps_of _ _ fn_prologue (amd_row 0x1004 0x101f 6 16 (ROffset (-16))) _ 0x210 0x2009);
          [apply sample_last_prologue|cbn; tauto|unfold in_range; cbn; lia|cbn; lia|reflexivity|reflexivity].
      + apply (steps_of _ _ fn_plt (amd_row 0x2006 0x2010 7 24 RUndefined) _ 0x228 0x2021);
          [apply sample_last_plt|cbn; tauto|unfold in_range; cbn; lia|cbn; lia|reflexivity|reflexivity].
      + apply (steps_of _ _ fn_plt (DwRow 0x2010 0x2040 (CfaExpression plt_expr) [(16, ROffset (-8))]) _ 0x510 0x1011);
          [apply sample_last_plt|cbn; tauto|unfold in_range; cbn; lia|cbn; lia|reflexivity|reflexivity].
    - reflexivity. }
  split; [apply sample_typed|]. split; [apply sample_converts|]. split; [apply sample_builds|].
  split; [right; reflexivity|]. split; [vm_compute; reflexivity|]. split; [exact sample_plain|]. split; [exact HD|].
  destruct (conv_end_to_end rel64 rel64 rel64 amd sample sample_sfb LE (sample_bytes LE) sample_typed (sample_converts _)
    (sample_builds LE) (or_intror eq_refl)) as (sf & HL & H1 & _); [vm_compute; reflexivity|apply sample_rows|].
  assert (sf = sample_sf) as -> by (apply (@ok_inj read_error); rewrite <- HL; vm_compute; reflexivity).
  assert (HS : forall f r x base cfa ra fp, last_at sample f -> In r (dw_rows_of f) -> in_range (df_start f) (df_len f) x ->
    dr_start r <= x < dr_end r -> classify Amd64 r = Some (base, cfa, ra, fp) ->
    section_says rel64 LE sample_sf x (Unwind base false (Some cfa) (Some ra) fp)).
  { intros f r x base cfa ra fp K1 K2 K3 K4 K5. destruct (H1 x r) as (u & Hu & M & _); [exists f; tauto|].
    rewrite (M _ _ _ _ (proj1 (classify_spec _ _ _ _ _ _) K5)) in Hu. exact Hu. }
  exists [SfFrame false 0x2009 0x210 (Some 0x300); SfFrame false 0x2021 0x228 (Some 0x300)]. split; [|reflexivity].
  apply walk_step; [|apply walk_step; [|apply walk_end]].
  - exists (Unwind Fp false (Some 16) (Some (-8)) (Some (-16))), 0x200, 16, (-8), 0x2009. split; [|repeat split].
    apply (HS fn_prologue (amd_row 0x1004 0x101f 6 16 (ROffset (-16))));
      [apply sample_last_prologue|cbn; tauto|unfold in_range; cbn; lia|cbn; lia|reflexivity].
  - exists (Unwind Sp false (Some 24) (Some (-8)) None), 0x210, 24, (-8), 0x2021. split; [|repeat split].
    apply (HS fn_plt (amd_row 0x2006 0x2010 7 24 RUndefined));
      [apply sample_last_plt|cbn; tauto|unfold in_range; cbn; lia|cbn; lia|reflexivity].
Qed.

(** ** The first converter: a rule for the frame pointer is dropped *)

Definition moved_row : dw_row := amd_row 0x1000 0x1010 7 8 (RRegister 3).
Definition framed_row : dw_row := amd_row 0x2000 0x2010 6 16 (ROffset (-16)).
Definition moved_rows : list dw_row := [moved_row; framed_row].
Definition moved_sfb : sfb := Eval vm_compute in
  match v1_convert rel64 all_print (eh_entries (of_rows moved_rows)) with Ok s => s | _ => sfb_new options_new end.
Definition moved_bytes : bytes := Eval vm_compute in section LE moved_sfb.
Definition moved_sf : sframe := Eval vm_compute in get_ok dummy_sf (load rel64 LE moved_bytes).
Definition moved_world : world := world_of [(0x100, 0x2004); (0x308, 0x1005); (0x300, 0); (0x48, 0x7777); (0x40, 0)].
Definition moved_start : dw_frame := frame_of 0x1004 [(7, 0x100); (6, 0x40); (3, 0x300)].
Definition moved_walk : list sf_frame := [ SfFrame false 0x2004 0x108 (Some 0x40); SfFrame false 0x7777 0x50 (Some 0) ].

Lemma of_rows_tells_v1 l s bs sf r base cfa ra fp x :
  eh_typed (of_rows l) -> v1_convert rel64 all_print (eh_entries (of_rows l)) = Ok s -> build rel64 LE s = Ok bs ->
  load rel64 LE bs = Ok sf -> rust_slice rel64 bs -> NoDup (map dr_start l) -> (forall r, In r l -> ~ v1_clash r) ->
  In r l -> classify Amd64 (norm_row r) = Some (base, cfa, ra, fp) -> dr_start r <= x < dr_end r ->
  section_says rel64 LE sf x (Unwind base false (Some cfa) (Some ra) fp).
Proof.
  intros Ht Hc Hb Hl Hs Hn Hg Hr HC Hx.
  destruct (v1_end_to_end rel64 rel64 rel64 all_print _ s LE bs Ht Hc Hb (or_intror eq_refl) Hs) as (sf' & HL & H & _).
  { intros f q Hf Hq. apply of_rows_last in Hf. destruct Hf as (q' & Hq' & ->). destruct Hq as [<-|[]]. apply Hg, Hq'. }
  rewrite Hl in HL. apply ok_inj in HL. subst sf'.
  destruct (H x (whole r) r) as (u & Hu & M & _).
  - apply last_of_rows; assumption.
  - unfold in_range. cbn. lia.
  - left. reflexivity.
  - lia.
  - intros r' [<-|[]] _. lia.
  - apply classify_spec, norm_representable in HC. rewrite (M _ _ _ _ HC) in Hu. exact Hu.
Qed.

Lemma moved_typed : eh_typed (of_rows moved_rows).
Proof. typed_eh. Qed.
Lemma moved_converts md : v1_convert md all_print (eh_entries (of_rows moved_rows)) = Ok moved_sfb.
Proof. destruct md as [[] [] ? ?]; vm_compute; reflexivity. Qed.
Lemma moved_tells r base cfa ra fp x : In r moved_rows -> classify Amd64 (norm_row r) = Some (base, cfa, ra, fp) ->
  dr_start r <= x < dr_end r -> section_says rel64 LE moved_sf x (Unwind base false (Some cfa) (Some ra) fp).
Proof.
  apply (of_rows_tells_v1 moved_rows moved_sfb moved_bytes moved_sf);
    [exact moved_typed|apply moved_converts|vm_compute; reflexivity|vm_compute; reflexivity
    |vm_compute; reflexivity|nodup|].
  intros q Hq. no_clash_v1 Hq.
Qed.

Theorem fp_rule_dropped :
  eh_typed (of_rows moved_rows) /\ v1_convert rel64 all_print (eh_entries (of_rows moved_rows)) = Ok moved_sfb /\
  build rel64 LE moved_sfb = Ok moved_bytes /\ load rel64 LE moved_bytes = Ok moved_sf /\
  (forall f, last_at (of_rows moved_rows) f -> rows_disjoint f /\ rows_cover f /\
     forall r, In r (wide_rows f) -> ~ v1_clash r /\ plain_row Amd64 r (amd_column f)) /\
  (exists l, walk (dw_step moved_world Amd64 (dw_says (of_rows moved_rows) amd_column)) moved_start l /\
     map dx_pc l = [0x2004; 0x1005]) /\
  walk (sf_step moved_world (section_says rel64 LE moved_sf)) (SfFrame true 0x1004 0x100 (Some 0x40)) moved_walk /\
  map sx_pc moved_walk = [0x2004; 0x7777] /\
  ~ same_walks moved_world Amd64 (dw_says (of_rows moved_rows) amd_column) (section_says rel64 LE moved_sf).
Proof.
  assert (HW : walk (sf_step moved_world (section_says rel64 LE moved_sf)) (SfFrame true 0x1004 0x100 (Some 0x40)) moved_walk).
  { apply walk_step; [|apply walk_step; [|apply walk_end]].
    - exists (Unwind Sp false (Some 8) (Some (-8)) None), 0x100, 8, (-8), 0x2004.
      split; [apply (moved_tells moved_row); [left; reflexivity|reflexivity|cbn; lia]|]. repeat split.
    - exists (Unwind Fp false (Some 16) (Some (-8)) (Some (-16))), 0x40, 16, (-8), 0x7777.
      split; [apply (moved_tells framed_row); [right; left; reflexivity|reflexivity|cbn; lia]|]. repeat split. }
  split; [exact moved_typed|]. split; [apply moved_converts|]. do 2 (split; [vm_compute; reflexivity|]). split.
  { intros f Hf. apply of_rows_fine in Hf. destruct Hf as (H1 & H2 & H3). split; [exact H1|]. split; [exact H2|].
    intros r Hr. apply H3 in Hr. destruct Hr as [Hr _]. split; [no_clash_v1 Hr|].
    intros _. split; [left; destruct Hr as [<-|[<-|[]]]; reflexivity|]. split; [reflexivity|apply not_signed_amd]. }
  split.
  { eexists. split.
    - eapply walk_step; [|eapply walk_step; [|apply walk_end]].
      + apply (of_rows_goes _ _ moved_rows _ _ moved_row 0x108 0x2004 0x2004); try reflexivity; [nodup|left; reflexivity|cbn; lia].
      + apply (of_rows_goes _ _ moved_rows _ _ framed_row 0x310 0x1005 0x1005); try reflexivity;
          [nodup|right; left; reflexivity|cbn; lia].
    - reflexivity. }
  split; [exact HW|]. split; [reflexivity|].
  apply (not_same _ _ _ _ moved_start (SfFrame true 0x1004 0x100 (Some 0x40)) moved_walk); [reflexivity|repeat split|exact HW|].
  intros l H E. destruct l as [|y [|z [|? l]]]; try discriminate. injection E as E1 E2.
  inversion H as [|? ? ? S1 H1]; subst. inversion H1 as [|? ? ? S2 H2]; subst.
  apply (of_rows_step _ _ _ _ _ _ moved_row) in S1.
  2:{ intros q [<-|[<-|[]]] Hq; [reflexivity|cbn in Hq; lia]. }
  destruct S1 as (cfa & v & A1 & A2 & A3 & _ & _ & A4).
  apply (of_rows_step _ _ _ _ _ _ framed_row) in S2.
  2:{ intros q [<-|[<-|[]]] Hq; [cbn in Hq; rewrite A3, E1 in Hq; cbn in Hq; lia|reflexivity]. }
  destruct S2 as (cfa' & v' & B1 & B2 & _ & _ & B3 & _).
  cbn in A1. injection A1 as <-. unfold cfa_value in B1. cbn [framed_row amd_row dr_cfa] in B1.
  rewrite (A4 6) in B1. cbn in B1. injection B1 as <-. cbn in B2. injection B2 as <-.
  specialize (B3 (not_signed_amd _)). congruence.
Qed.

(** ** A case for the first converter *)

(** Without the row of no width, which it would refuse. *)
Definition v1_prologue : dw_fde := Eval vm_compute in strip_fde fn_prologue.
Definition v1_walk_eh : eh_frame := of_functions [v1_prologue; fn_plt].
Definition v1_walk_sfb : sfb := Eval vm_compute in
  match v1_convert rel64 all_print (eh_entries v1_walk_eh) with Ok s => s | _ => sfb_new options_new end.
Definition v1_walk_bytes : bytes := Eval vm_compute in section LE v1_walk_sfb.

Theorem v1_walks_case : eh_typed v1_walk_eh /\ v1_convert rel64 all_print (eh_entries v1_walk_eh) = Ok v1_walk_sfb /\
  build rel64 LE v1_walk_sfb = Ok v1_walk_bytes /\ wf_mode rel64 /\ rust_slice rel64 v1_walk_bytes /\
  zlen v1_walk_bytes = 96 /\
  (forall f, last_at v1_walk_eh f -> rows_disjoint f /\ rows_cover f /\
     forall r, In r (dw_rows_of f) -> wide r /\ ~ v1_clash r /\ plain_row Amd64 r (amd_column f) /\ plain_fp r) /\
  exists l, walk (dw_step sample_world Amd64 (dw_says v1_walk_eh amd_column)) sample_start l /\
    map dx_pc l = [0x2009; 0x2021; 0x1011].
Proof.
  assert (L : forall f, last_at v1_walk_eh f -> f = v1_prologue \/ f = fn_plt).
  { intros f H. apply last_at_function in H. cbn in H. destruct H as [H|[H|[]]]; auto. }
  split; [typed_eh|]. split; [vm_compute; reflexivity|]. split; [vm_compute; reflexivity|]. split; [right; reflexivity|].
  split; [vm_compute; reflexivity|]. split; [vm_compute; reflexivity|]. split.
  - intros f H. apply L in H. split; [|split].
    + intros r r' Hr Hr' Hl. destruct H as [-> | ->]; vm_compute in Hr, Hr';
        repeat (destruct Hr as [<-|Hr]; [repeat (destruct Hr' as [<-|Hr']; [cbn in *; lia|]); destruct Hr'|]); destruct Hr.
    + intros x Hx. unfold in_range in Hx. destruct H as [-> | ->]; cbn in Hx |- *.
      * destruct (Z_lt_ge_dec x 0x1001); [exists (amd_row 0x1000 0x1001 7 8 RUndefined); cbn; split; [tauto|lia]|].
        destruct (Z_lt_ge_dec x 0x1004); [exists (amd_row 0x1001 0x1004 7 16 (ROffset (-16))); cbn; split; [tauto|lia]|].
        destruct (Z_lt_ge_dec x 0x101f); [exists (amd_row 0x1004 0x101f 6 16 (ROffset (-16))); cbn; split; [tauto|lia]|].
        exists (amd_row 0x101f 0x1020 7 8 RSameValue); cbn; split; [tauto|lia].
      * destruct (Z_lt_ge_dec x 0x2006); [exists (amd_row 0x2000 0x2006 7 16 RUndefined); cbn; split; [tauto|lia]|].
        destruct (Z_lt_ge_dec x 0x2010); [exists (amd_row 0x2006 0x2010 7 24 RUndefined); cbn; split; [tauto|lia]|].
        exists (DwRow 0x2010 0x2040 (CfaExpression plt_expr) [(16, ROffset (-8))]); cbn; split; [tauto|lia].
    + intros r Hr.
      assert (K : wide r /\ ~ v1_clash r /\ dr_register r 7 = RUndefined /\ plain_fp r).
      { destruct H as [-> | ->]; cbn in Hr; repeat (destruct Hr as [<-|Hr]; [
          (split; [apply wideb_spec; reflexivity|]); (split; [apply not_clashing_v1; vm_compute; try exact I; split; discriminate|]);
          (split; [reflexivity|]); intros base cfa ra (_ & _ & _ & _ & E); cbn in E; auto;
          exfalso; apply (E _ eq_refl)|]); destruct Hr. }
      destruct K as (K1 & K2 & K3 & K4). split; [exact K1|]. split; [exact K2|]. split; [|exact K4].
      intros _. split; [left; exact K3|]. split; [reflexivity|apply not_signed_amd].
  - assert (F1 : last_at v1_walk_eh v1_prologue).
    { exists [], [fn_plt]. split; [reflexivity|]. intros f' [<-|[]]. cbn. discriminate. }
    assert (F2 : last_at v1_walk_eh fn_plt).
    { exists [v1_prologue], []. split; [reflexivity|]. intros f' []. }
    eexists. split.
    + eapply walk_step; [|eapply walk_step; [|eapply walk_step; [|apply walk_end]]].
      * apply (steps_of _ _ v1_prologue (amd_row 0x1004 0x101f 6 16 (ROffset (-16))) _ 0x210 0x2009);
          [exact F1|cbn; tauto|unfold in_range; cbn; lia|cbn; lia|reflexivity|reflexivity].
      * apply (steps_of _ _ fn_plt (amd_row 0x2006 0x2010 7 24 RUndefined) _ 0x228 0x2021);
          [exact F2|cbn; tauto|unfold in_range; cbn; lia|cbn; lia|reflexivity|reflexivity].
      * apply (steps_of _ _ fn_plt (DwRow 0x2010 0x2040 (CfaExpression plt_expr) [(16, ROffset (-8))]) _ 0x510 0x1011);
          [exact F2|cbn; tauto|unfold in_range; cbn; lia|cbn; lia|reflexivity|reflexivity].
    + reflexivity.
Qed.

(** ** The converters disagree *)

Definition moved_sfb2 : sfb := Eval vm_compute in got (dwarf2sframe rel64 amd (of_rows moved_rows)).
Definition moved_bytes2 : bytes := Eval vm_compute in section LE moved_sfb2.
Definition moved_sf2 : sframe := Eval vm_compute in get_ok dummy_sf (load rel64 LE moved_bytes2).

Theorem converters_disagree :
  eh_typed (of_rows moved_rows) /\ v1_convert rel64 all_print (eh_entries (of_rows moved_rows)) = Ok moved_sfb /\
  dwarf2sframe rel64 amd (of_rows moved_rows) = Ok moved_sfb2 /\
  build rel64 LE moved_sfb = Ok moved_bytes /\ build rel64 LE moved_sfb2 = Ok moved_bytes2 /\
  wf_mode rel64 /\ rust_slice rel64 moved_bytes /\ rust_slice rel64 moved_bytes2 /\
  (forall f r, last_at (of_rows moved_rows) f -> In r (dw_rows_of f) -> wide r /\ ~ v1_clash r /\
     ~ clash Amd64 (fixed_ra_of amd (of_rows moved_rows)) r) /\
  load rel64 LE moved_bytes = Ok moved_sf /\ load rel64 LE moved_bytes2 = Ok moved_sf2 /\
  exists u1 u2, section_says rel64 LE moved_sf 0x1004 u1 /\ section_says rel64 LE moved_sf2 0x1004 u2 /\ ~ agree u1 u2 /\
    (forall u, section_says rel64 LE moved_sf 0x2004 u <-> section_says rel64 LE moved_sf2 0x2004 u).
Proof.
  assert (HG : forall f r, last_at (of_rows moved_rows) f -> In r (dw_rows_of f) -> wide r /\ ~ v1_clash r /\
     ~ clash Amd64 (fixed_ra_of amd (of_rows moved_rows)) r).
  { intros f r Hf Hr. apply of_rows_last in Hf. destruct Hf as (q & Hq & ->). destruct Hr as [<-|[]].
    split; [destruct Hq as [<-|[<-|[]]]; apply wideb_spec; reflexivity|]. split; [no_clash_v1 Hq|no_clash Hq]. }
  assert (HC2 : dwarf2sframe rel64 amd (of_rows moved_rows) = Ok moved_sfb2) by (vm_compute; reflexivity).
  assert (HB1 : build rel64 LE moved_sfb = Ok moved_bytes) by (vm_compute; reflexivity).
  assert (HB2 : build rel64 LE moved_sfb2 = Ok moved_bytes2) by (vm_compute; reflexivity).
  assert (HR1 : rust_slice rel64 moved_bytes) by (vm_compute; reflexivity).
  assert (HR2 : rust_slice rel64 moved_bytes2) by (vm_compute; reflexivity).
  assert (HL1 : load rel64 LE moved_bytes = Ok moved_sf) by (vm_compute; reflexivity).
  assert (HL2 : load rel64 LE moved_bytes2 = Ok moved_sf2) by (vm_compute; reflexivity).
  split; [exact moved_typed|]. split; [apply moved_converts|]. split; [exact HC2|]. split; [exact HB1|].
  split; [exact HB2|]. split; [right; reflexivity|]. split; [exact HR1|]. split; [exact HR2|].
  split; [exact HG|]. split; [exact HL1|]. split; [exact HL2|].
  destruct (conv_end_to_end rel64 rel64 rel64 amd _ _ LE _ moved_typed HC2 HB2 (or_intror eq_refl) HR2)
    as (sf & HL & H & _ & U2).
  { intros f Hf. destruct (of_rows_fine _ _ Hf) as (X1 & _). split; [exact X1|]. intros r Hr. apply (HG f r Hf).
    apply filter_In in Hr. apply Hr. }
  rewrite HL2 in HL. apply ok_inj in HL. subst sf.
  destruct (H 0x1004 moved_row) as (u2 & Hu2 & _ & M2).
  { exists (whole moved_row). split; [apply last_of_rows; [nodup|left; reflexivity]|]. unfold in_range. cbn.
    split; [lia|]. split; [left; reflexivity|lia]. }
  exists (Unwind Sp false (Some 8) (Some (-8)) None), u2.
  split; [apply (moved_tells moved_row); [left; reflexivity|reflexivity|cbn; lia]|]. split; [exact Hu2|].
  assert (M : uw_cfa u2 = None /\ uw_mangled u2 = false) by (apply M2, classify_none; reflexivity).
  split; [intros [E|[E _]]; [rewrite <- E in M; destruct M|]; discriminate|].
  assert (G1 : section_says rel64 LE moved_sf 0x2004 (Unwind Fp false (Some 16) (Some (-8)) (Some (-16))))
    by (apply (moved_tells framed_row); [right; left; reflexivity|reflexivity|cbn; lia]).
  assert (G2 : section_says rel64 LE moved_sf2 0x2004 (Unwind Fp false (Some 16) (Some (-8)) (Some (-16)))).
  { apply (of_rows_tells amd moved_rows moved_sfb2 moved_bytes2 moved_sf2 framed_row);
      [exact moved_typed|exact HC2|exact HB2|exact HL2|exact HR2|nodup| |right; left; reflexivity|reflexivity|cbn; lia].
    intros q Hq. no_clash Hq. }
  destruct (v1_end_to_end rel64 rel64 rel64 all_print _ _ LE _ moved_typed (moved_converts rel64) HB1 (or_intror eq_refl) HR1)
    as (sf & HL & _ & _ & U1).
  { intros f r Hf Hr. apply (HG f r Hf Hr). }
  rewrite HL1 in HL. apply ok_inj in HL. subst sf.
  intros u. split; intros Hu.
  - rewrite (U1 _ _ _ Hu G1). exact G2.
  - rewrite (U2 _ _ _ Hu G2). exact G1.
Qed.
