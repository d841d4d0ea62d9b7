(** Concrete inputs for the repaired converter. *)
From Verif Require Export ConvRepairedProps.
From Verif Require Import ConvProps ConvWitness ToolsProps ToolsWitness WalkFacts WalkWitness.

Definition xgot (o : outcome repair_error sfb) : sfb := get_ok (sfb_new (conv_sfoptions amd sample)) o.
Definition xsection (e : endian) (s : sfb) : bytes := get_ok [] (build_repaired rel64 e s).
Definition xload (e : endian) (bs : bytes) : sframe := get_ok dummy_sf (load rel64 e bs).

(** ** A program with a row of each kind *)

(** A leaf function, one that signs its return address, one whose offsets are tied, and one
    whose CFA is in another register. *)
Definition kinds_leaf : dw_row := DwRow 0x1000 0x1010 (CfaReg 31 0) [].
Definition kinds_signed : dw_row := DwRow 0x2000 0x2020 (CfaReg 31 16) [(29, ROffset (-16)); (30, ROffset (-8)); (34, RConstant 1)].
Definition kinds_tied : dw_row := DwRow 0x3000 0x3010 (CfaReg 31 (-128)) [(30, ROffset 128)].
Definition kinds_other : dw_row := DwRow 0x4000 0x4010 (CfaReg 9 0) [(30, ROffset (-8))].
Definition kinds_rows : list dw_row := [kinds_leaf; kinds_signed; kinds_tied; kinds_other].
Definition kinds : eh_frame := of_rows kinds_rows.
Definition column_30 (f : dw_fde) : Z := 30.
Definition kinds_sfb : sfb := Eval vm_compute in xgot (dwarf2sframe_repaired rel64 arm column_30 kinds).
Definition kinds_bytes : bytes := Eval vm_compute in xsection LE kinds_sfb.
Definition kinds_sf : sframe := Eval vm_compute in xload LE kinds_bytes.
Definition kinds_world : world :=
  world_of [(0x108, 0x77000000003005); (0x100, 0x50); (0x110, 0x4005); (0x8f8, 0x1005)].
Definition kinds_start : dw_frame := frame_of 0x1004 [(31, 0x100); (29, 0x40); (30, 0x2009); (9, 0x900)].

Lemma kinds_typed : eh_typed kinds.
Proof. typed_eh. Qed.

Lemma kinds_said :
  looked_up_whole rel64 LE kinds_sf 0x1004 (Unwind Sp false (Some 0) None None) /\
  looked_up_whole rel64 LE kinds_sf 0x2008 (Unwind Sp true (Some 16) (Some (-8)) (Some (-16))) /\
  looked_up_whole rel64 LE kinds_sf 0x3004 (Unwind Sp false (Some (-128)) (Some 128) None) /\
  looked_up_whole rel64 LE kinds_sf 0x4004 (Unwind Fp false None None None).
Proof.
  repeat split; try (vm_compute; discriminate); exists KeyA; vm_compute; reflexivity.
Qed.

Lemma kinds_signed_row : signed_row Aarch64 kinds_signed.
Proof. split; reflexivity. Qed.
Lemma kinds_not_signed r : In r [kinds_leaf; kinds_tied; kinds_other] -> ~ signed_row Aarch64 r.
Proof. intros [<-|[<-|[<-|[]]]] [_ H]; discriminate. Qed.

Theorem kinds_case :
  eh_typed kinds /\ dwarf2sframe_repaired rel64 arm column_30 kinds = Ok kinds_sfb /\
  build_repaired rel64 LE kinds_sfb = Ok kinds_bytes /\ load rel64 LE kinds_bytes = Ok kinds_sf /\
  wf_mode rel64 /\ rust_slice rel64 kinds_bytes /\
  (forall f, last_at kinds f -> rows_disjoint f /\ rows_cover f) /\
  same_link_point_exact Aarch64 kinds_start (LkFrame true 0x1004 0x100 (Some 0x40) (Some 0x2009)) /\
  (exists l, walk (dw_step kinds_world Aarch64 (dw_says kinds column_30)) kinds_start l /\
     map dx_pc l = [0x2009; 0x3005; 0x4005; 0x1005]) /\
  (exists m, walk (lk_step kinds_world (looked_up_whole rel64 LE kinds_sf)) (LkFrame true 0x1004 0x100 (Some 0x40) (Some 0x2009)) m /\
     map lx_pc m = [0x2009; 0x3005; 0x4005]) /\
  dw_says kinds column_30 0x4004 kinds_other 30 /\ inexpressible Aarch64 kinds_other 30.
Proof.
  split; [exact kinds_typed|]. do 3 (split; [vm_compute; reflexivity|]). split; [right; reflexivity|].
  split; [vm_compute; reflexivity|]. split; [intros f Hf; apply of_rows_fine in Hf; tauto|]. split; [repeat split|].
  split.
  { eexists. split.
    - eapply walk_step; [|eapply walk_step; [|eapply walk_step; [|eapply walk_step; [|apply walk_end]]]].
      + apply (of_rows_goes _ _ kinds_rows _ _ kinds_leaf 0x100 0x2009 0x2009); try reflexivity;
          [nodup|left; reflexivity|cbn; lia].
      + apply (of_rows_goes _ _ kinds_rows _ _ kinds_signed 0x110 0x77000000003005 0x3005); try reflexivity;
          [nodup|right; left; reflexivity|cbn; lia|intros H; destruct (H kinds_signed_row)].
      + apply (of_rows_goes _ _ kinds_rows _ _ kinds_tied 0x90 0x4005 0x4005); try reflexivity;
          [nodup|right; right; left; reflexivity|cbn; lia].
      + apply (of_rows_goes _ _ kinds_rows _ _ kinds_other 0x900 0x1005 0x1005); try reflexivity;
          [nodup|right; right; right; left; reflexivity|cbn; lia].
    - reflexivity. }
  split.
  { destruct kinds_said as (H1 & H2 & H3 & _).
    exists [ LkFrame false 0x2009 0x100 (Some 0x40) None; LkFrame false 0x3005 0x110 (Some 0x50) None;
             LkFrame false 0x4005 0x90 (Some 0x50) None ]. split; [|reflexivity].
    apply walk_step; [|apply walk_step; [|apply walk_step; [|apply walk_end]]].
    - exists (Unwind Sp false (Some 0) None None), 0x100, 0, 0x2009. split; [exact H1|]. repeat split.
    - exists (Unwind Sp true (Some 16) (Some (-8)) (Some (-16))), 0x100, 16, 0x77000000003005. split; [exact H2|]. repeat split.
    - exists (Unwind Sp false (Some (-128)) (Some 128) None), 0x110, (-128), 0x4005. split; [exact H3|]. repeat split. }
  split.
  - apply (of_rows_says kinds_rows column_30 kinds_other); [nodup|right; right; right; left; reflexivity|cbn; lia].
  - apply express_none. reflexivity.
Qed.

Theorem kinds_lookups :
  eh_typed kinds /\ dwarf2sframe_repaired rel64 arm column_30 kinds = Ok kinds_sfb /\
  build_repaired rel64 LE kinds_sfb = Ok kinds_bytes /\ wf_mode rel64 /\ rust_slice rel64 kinds_bytes /\
  (forall f, last_at kinds f -> rows_disjoint f) /\ load rel64 LE kinds_bytes = Ok kinds_sf /\
  (dw_says kinds column_30 0x1004 kinds_leaf 30 /\ link_row kinds_leaf Sp 0 /\
   looked_up_whole rel64 LE kinds_sf 0x1004 (Unwind Sp false (Some 0) None None)) /\
  (dw_says kinds column_30 0x2008 kinds_signed 30 /\ signed_row Aarch64 kinds_signed /\ ~ inexpressible Aarch64 kinds_signed 30 /\
   looked_up_whole rel64 LE kinds_sf 0x2008 (Unwind Sp true (Some 16) (Some (-8)) (Some (-16)))) /\
  (dw_says kinds column_30 0x3004 kinds_tied 30 /\ clash Aarch64 (fixed_ra_of arm kinds) kinds_tied /\
   looked_up_whole rel64 LE kinds_sf 0x3004 (Unwind Sp false (Some (-128)) (Some 128) None)) /\
  (dw_says kinds column_30 0x4004 kinds_other 30 /\ inexpressible Aarch64 kinds_other 30 /\
   looked_up_whole rel64 LE kinds_sf 0x4004 (Unwind Fp false None None None)).
Proof.
  destruct kinds_case as (H1 & H2 & H3 & H4 & H5 & H6 & H7 & _ & _ & _ & H8 & H9).
  destruct kinds_said as (L1 & L2 & L3 & L4).
  do 5 (split; [assumption|]). split; [intros f Hf; apply H7, Hf|]. split; [exact H4|].
  split; [split; [|split; [|exact L1]]|split; [split; [|split; [exact kinds_signed_row|split; [|exact L2]]]|split; [split; [|split; [|exact L3]]|tauto]]].
  - apply (of_rows_says kinds_rows column_30 kinds_leaf); [nodup|left; reflexivity|cbn; lia].
  - unfold link_row, in_i32, i32_min, i32_max. cbn. split; [reflexivity|]. split; [lia|]. split; right; reflexivity.
  - apply (of_rows_says kinds_rows column_30 kinds_signed); [nodup|right; left; reflexivity|cbn; lia].
  - intros H. apply express_none in H. discriminate.
  - apply (of_rows_says kinds_rows column_30 kinds_tied); [nodup|right; right; left; reflexivity|cbn; lia].
  - exists Sp, (-128), 128, None, (-128). split; [apply classify_spec; reflexivity|]. split; [reflexivity|].
    split; [left; reflexivity|right; left; reflexivity].
Qed.

(** ** Building *)

Definition overlap_rows : list dw_row := [amd_row 0x1000 0x1010 7 8 RUndefined; amd_row 0x1008 0x1018 7 8 RUndefined].
Definition overlap_sfb : sfb := Eval vm_compute in xgot (dwarf2sframe_repaired rel64 amd amd_column (of_rows overlap_rows)).

Theorem xbuilds_case :
  (eh_typed (of_rows overlap_rows) /\ dwarf2sframe_repaired rel64 amd amd_column (of_rows overlap_rows) = Ok overlap_sfb /\
   functions_overlap (of_rows overlap_rows)) /\
  (eh_typed kinds /\ dwarf2sframe_repaired rel64 arm column_30 kinds = Ok kinds_sfb /\ ~ functions_overlap kinds /\
   ~ exact_too_large kinds_sfb).
Proof.
  split.
  - split; [typed_eh|]. split; [vm_compute; reflexivity|].
    exists (whole (amd_row 0x1000 0x1010 7 8 RUndefined)), (whole (amd_row 0x1008 0x1018 7 8 RUndefined)).
    split; [apply last_of_rows; [nodup|left; reflexivity]|]. split; [apply last_of_rows; [nodup|right; left; reflexivity]|].
    split; [discriminate|]. unfold in_range. cbn. lia.
  - destruct kinds_case as (H1 & H2 & H3 & _). split; [exact H1|]. split; [exact H2|].
    apply (repaired_builds rel64 rel64 arm column_30 kinds kinds_sfb LE H1 H2). exists kinds_bytes. exact H3.
Qed.

(** ** Errors *)

Theorem xerrors_case :
  Forall eh_typed [ra_elsewhere; row_outside; row_twice; row_far; row_in_front] /\
  forall md, dwarf2sframe_repaired md amd amd_column ra_elsewhere = Err (RowRefused 0x1000 UnexpectedRaOffset) /\
    dwarf2sframe_repaired md amd amd_column row_outside = Err (RowRefused 0x1020 StartAddressOutsideFde) /\
    dwarf2sframe_repaired md amd amd_column row_twice = Err (RowRefused 0x1000 DuplicateRow) /\
    dwarf2sframe_repaired md amd amd_column row_far = Err (RowRefused 0x10001000 StartAddressTooLarge) /\
    dwarf2sframe_repaired md amd amd_column row_in_front = Err (RowInFront 0xfff) /\
    dwarf2sframe_repaired md amd amd_column sample = Ok sample_sfb.
Proof.
  split; [exact panics_typed|]. intros md. pose proof panics_typed as HT. rewrite !Forall_cons_iff in HT.
  destruct HT as (T1 & T2 & T3 & T4 & T5 & _).
  rewrite (repaired_same_options md rel64 amd amd amd_column ra_elsewhere T1) by reflexivity.
  rewrite (repaired_same_options md rel64 amd amd amd_column row_outside T2) by reflexivity.
  rewrite (repaired_same_options md rel64 amd amd amd_column row_twice T3) by reflexivity.
  rewrite (repaired_same_options md rel64 amd amd amd_column row_far T4) by reflexivity.
  rewrite (repaired_same_options md rel64 amd amd amd_column row_in_front T5) by reflexivity.
  rewrite (repaired_same_options md rel64 amd amd amd_column sample sample_typed) by reflexivity.
  vm_compute. auto 10.
Qed.

(** The hypotheses of [repaired_errors]. *)
Theorem xfirst_case :
  eh_typed panic_first /\
  (exists x post, entries_of panic_first = [] ++ x :: post /\
     entry_fault Amd64 (fixed_ra_of amd panic_first) amd_column x (RowRefused 0x1020 StartAddressOutsideFde)) /\
  dwarf2sframe_repaired rel64 amd amd_column panic_first = Err (RowRefused 0x1020 StartAddressOutsideFde) /\
  eh_typed long_eh /\
  entry_fault Amd64 (fixed_ra_of amd long_eh) amd_column (DwGoodFde long_fn) (AsBefore (InvalidFunctionLength i32_max i32_max)) /\
  dwarf2sframe_repaired rel64 amd amd_column long_eh = Err (AsBefore (InvalidFunctionLength i32_max i32_max)).
Proof.
  split; [typed_eh|]. split; [|split; [vm_compute; reflexivity|split; [typed_eh|split; [|vm_compute; reflexivity]]]].
  - eexists _, _. split; [reflexivity|]. apply ef_fde.
    apply (ff_row _ _ _ _ [] (amd_row 0x1020 0x1021 7 8 RUndefined) [] None).
    + unfold fits_section, i32_max. cbn. lia.
    + reflexivity.
    + intros [|? ?] ? ? ?; discriminate.
    + discriminate.
    + unfold row_faults, first_fault, off, i32_max, amd_row. cbn [dr_start df_start df_len].
      right. split; [lia|]. right. split; [lia|]. right. split; [lia|]. left. split; [lia|reflexivity].
  - apply ef_fde. apply (ff_end _ _ _ long_fn); unfold long_fn, i32_max; cbn [df_start df_len]; lia.
Qed.

(** ** Options *)

Theorem xoptions_case :
  eh_typed bad_expression /\ eh_typed dump_overflow /\
  (exists s, dwarf2sframe_repaired rel64 amd amd_column bad_expression = Ok s /\
     dwarf2sframe_repaired rel64 (set_debugdump true amd) amd_column bad_expression = Ok s) /\
  dwarf2sframe_repaired dev64 amd amd_column dump_overflow = Err (AsBefore (InvalidStartAddress (2 ^ 64 - 1))) /\
  dwarf2sframe_repaired dev64 (set_debugdump true amd) amd_column dump_overflow = Err (AsBefore (InvalidStartAddress (2 ^ 64 - 1))).
Proof.
  split; [typed_eh|]. split; [typed_eh|]. split; [eexists; split; vm_compute; reflexivity|]. vm_compute. auto.
Qed.

(** ** Where nothing changes *)

Theorem xsame_case : eh_typed sample /\ conv_untouched amd amd_column sample /\ dwarf2sframe rel64 amd sample = Ok sample_sfb /\
  length (fdes_of sample_sfb) = 2%nat.
Proof.
  split; [exact sample_typed|]. split; [|split; [apply sample_converts|reflexivity]].
  intros f Hf. cbn in Hf. destruct Hf as [Hf|[Hf|[Hf|[]]]]; [discriminate| |]; injection Hf as <-;
    (split; [unfold fits_section, i32_max; cbn; lia|]); intros r Hr;
    (split; [|intros base m cfa fp (_ & _ & _ & _ & _ & _ & E & _); discriminate]).
  - apply (sample_plain fn_prologue sample_last_prologue), Hr.
  - apply (sample_plain fn_plt sample_last_plt), Hr.
Qed.

(** ** Each repair is needed *)

Definition but_sp : cfixes := CFixes false true true true true true true.
Definition but_column : cfixes := CFixes true false true true true true true.
Definition but_sign : cfixes := CFixes true true false true true true true.
Definition but_link : cfixes := CFixes true true true false true true true.
Definition but_reject : cfixes := CFixes true true true true false true true.
Definition but_end : cfixes := CFixes true true true true true false true.
Definition but_dump : cfixes := CFixes true true true true true true false.

Definition beyond_row : dw_row := DwRow i32_max (i32_max + 2) (CfaReg 7 8) [(16, ROffset (-8))].

Lemma missaid_intro fx op c l x r s bs sf o : eh_typed (of_rows l) -> NoDup (map dr_start l) -> In r l ->
  dr_start r <= x < dr_end r ->
  dwarf2sframe_with fx rel64 op c (of_rows l) = Ok s -> build_repaired rel64 LE s = Ok bs -> load rel64 LE bs = Ok sf ->
  (in_i32 x -> lookup_key all_rfixes rel64 LE sf x = Ok o) ->
  (forall k u, in_i32 x -> o = Some (k, u) -> ~ conveys (op_arch op) r (c (whole r)) u) ->
  missaid fx rel64 LE op c (of_rows l) x r.
Proof.
  intros Ht Hn Hr Hx H1 H2 H3 H4 H5. split; [exact Ht|]. split; [intros f Hf; apply of_rows_fine in Hf; tauto|].
  exists (c (whole r)), s, bs, sf. split; [apply of_rows_says; assumption|]. do 3 (split; [assumption|]).
  intros u (Hi & k' & Hu). rewrite (H4 Hi) in Hu.
  apply (H5 k'); [exact Hi|congruence].
Qed.

Theorem conv_each_needed :
  missaid but_sp rel64 LE amd amd_column (of_rows switch_rows) 0x1004 switch_row /\
  missaid but_column rel64 LE amd column_17 (of_rows [column_row]) 0x1004 column_row /\
  missaid but_sign rel64 LE arm column_30 kinds 0x2008 kinds_signed /\
  missaid but_link rel64 LE arm column_30 kinds 0x1004 kinds_leaf /\
  (eh_typed ra_elsewhere /\ dwarf2sframe_with but_reject rel64 amd amd_column ra_elsewhere = Panic) /\
  missaid but_end rel64 LE amd amd_column (of_rows [beyond_row]) (i32_max + 1) beyond_row /\
  (eh_typed bad_expression /\
   dwarf2sframe_with but_dump rel64 (set_debugdump true amd) amd_column bad_expression <>
   dwarf2sframe_with but_dump rel64 amd amd_column bad_expression).
Proof.
  split; [|split; [|split; [|split; [|split; [|split]]]]].
  - eapply missaid_intro; [exact switch_typed|nodup|left; reflexivity|cbn; lia|vm_compute; reflexivity|vm_compute; reflexivity|
      vm_compute; reflexivity|intros _; vm_compute; reflexivity|].
    intros k u _ [= <- <-] [_ H]. destruct H as [H _]; [apply express_none; reflexivity|discriminate].
  - eapply missaid_intro; [typed_eh|nodup|left; reflexivity|cbn; lia|vm_compute; reflexivity|vm_compute; reflexivity|
      vm_compute; reflexivity|intros _; vm_compute; reflexivity|].
    intros k u _ [= <- <-] [_ H]. destruct H as [H _]; [apply express_none; reflexivity|discriminate].
  - eapply missaid_intro; [exact kinds_typed|nodup|right; left; reflexivity|cbn; lia|vm_compute; reflexivity|vm_compute; reflexivity|
      vm_compute; reflexivity|intros _; vm_compute; reflexivity|].
    intros k u _ [= <- <-] [H _].
    specialize (H Sp true 16 (Some (-8)) (Some (-16))). rewrite <- express_spec in H. specialize (H eq_refl). discriminate.
  - eapply missaid_intro; [exact kinds_typed|nodup|left; reflexivity|cbn; lia|vm_compute; reflexivity|vm_compute; reflexivity|
      vm_compute; reflexivity|intros _; vm_compute; reflexivity|].
    intros k u _ [= <- <-] [H _].
    specialize (H Sp false 0 None None). rewrite <- express_spec in H. specialize (H eq_refl). discriminate.
  - split; [|vm_compute; reflexivity]. pose proof panics_typed as HT. inversion HT; assumption.
  - eapply (missaid_intro _ _ _ _ _ _ _ _ _ None); [typed_eh|nodup|left; reflexivity|unfold beyond_row, i32_max; cbn [dr_start dr_end]; lia|vm_compute; reflexivity|
      vm_compute; reflexivity|vm_compute; reflexivity|intros [_ H]; lia|discriminate].
  - split; [typed_eh|]. vm_compute. discriminate.
Qed.
