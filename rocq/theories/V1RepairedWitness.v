(** Concrete inputs for the repaired first-generation converter. *)
From Coq Require Import String Ascii.
From Verif Require Export V1RepairedProps V1Witness.
From Verif Require Import ConvProps ConvWitness ToolsProps ToolsWitness ConvRepairedFacts ConvRepairedWitness WalkFacts WalkWitness.
Local Open Scope string_scope.

(** ** A file with rows of many kinds *)

Definition at_row (x : Z) (c : cfa_rule) (regs : list (Z * reg_rule)) : dw_fde := whole (DwRow x (x + 0x10) c regs).
Definition many : list dw_fde :=
  [ fn_prologue; fn_plt;
    at_row 0x3000 (CfaReg 7 8) [(6, RRegister 3); (16, ROffset (-8))];
    at_row 0x4000 (CfaReg 7 8) [(6, RExpression cut_expr); (16, ROffset (-8))];
    at_row 0x5000 (CfaReg 7 8) [(16, ROffset (-8))];
    at_row 0x6000 (CfaReg 7 8) [(7, ROffset 0); (16, ROffset (-8))];
    at_row 0x7000 (CfaReg 7 8) [(6, RSameValue); (16, ROffset (-8))];
    at_row 0x8000 (CfaReg 7 8) [(6, RSameValue); (16, RRegister 3)];
    at_row 0x9000 (CfaReg 7 (2 ^ 31)) [(16, ROffset (-8))];
    at_row 0xa000 (CfaReg 7 8) [(6, ROffset (2 ^ 31)); (16, ROffset (-8))];
    at_row 0xb000 (CfaReg 3 8) [(16, ROffset (-8))];
    DwFde 0xc000 0x10 (Insns [IDefCfaExpression cut_expr] None) (rows_ok [amd_row 0xc000 0xc010 7 8 RUndefined]) ].
Definition many_columns (f : dw_fde) : Z := if (df_start f =? 0x5000)%Z then 17 else 16.
Definition many_file : elf_file := file_of ElfX86_64 many.
Definition many_out : list event * outcome v1_repair_error out_file :=
  v1_main_with all_v1fixes some_texts1 rel64 LE many_columns (Some many_file).

Lemma many_typed m : file_typed (file_of m many).
Proof. typed_file. Qed.
Theorem many_reports :
  Forall row_payload_typed (all_rows (v1_entries_in all_v1fixes rel64 many_file)) /\ (forall f, 0 <= many_columns f) /\
  (forall t, tidy_texts (p1 some_texts1) t) /\ finished (snd many_out) /\
  Datatypes.length (wide_with many_columns (v1_entries_in all_v1fixes rel64 many_file)) = 17%nat /\
  stderr_of (fst many_out) =
    [ "DWARF FDE unwind table row requires evaluating a DWARF expression: Evaluation";
      "unsupported recovery rule for RBP: 3";
      "unsupported recovery rule for RBP: <cannot be decoded>";
      "unsupported return address register 17";
      "unsupported recovery rule for RSP: *(CFA+0)";
      "Unsupported recovery rule for RA: 3";
      "DWARF FDE register recovery offset 80000000 was outside the bounds of an i32";
      "DWARF register offset 2147483648 was outside the bounds of an" ++ newline ++
        "                                 i32, caused by: out of range integral type conversion attempted";
      "unsupported CFA source register 3" ].
Proof.
  split.
  { unfold all_rows. apply Forall_flat_map, Forall_forall. intros f Hf. apply Forall_forall. intros r Hr.
    revert f r Hf Hr. change (eh_payload_typed (of_functions many)). payload. }
  split; [intros f; unfold many_columns; destruct (df_start f =? 0x5000)%Z; lia|]. split; [apply some_tidy|].
  split; [apply finishedb_spec; vm_compute; reflexivity|]. split; vm_compute; reflexivity.
Qed.

(** The file of C83, and one whose functions overlap: errors, no panics. *)
Theorem many_outcome :
  (forall m, file_typed (file_of m many)) /\ file_typed (file_of ElfX86_64 [cut_cfa]) /\
  (forall md, finished (snd (v1_main_with all_v1fixes some_texts1 md LE amd_column (Some (file_of ElfX86_64 [cut_cfa]))))) /\
  (forall md, snd (v1_main_with all_v1fixes some_texts1 md LE amd_column (Some (file_of ElfAarch64 [cut_cfa]))) = Err V1Machine) /\
  (forall md, snd (v1_main_with all_v1fixes some_texts1 md LE amd_column
     (Some (file_with ElfX86_64 RtLittle (eh_entries row_in_front)))) = Err (V1AsBefore V1RowOffset)).
Proof.
  split; [exact many_typed|]. split; [typed_file|].
  split; [intros md; apply finishedb_spec|split; intros md]; destruct md as [[] [] ? ?]; vm_compute; reflexivity.
Qed.

(** ** C60, C85 *)

Definition many_bytes : bytes := Eval vm_compute in match snd many_out with Ok o => out_sframe o | _ => [] end.
Definition many_sf : sframe := Eval vm_compute in get_ok dummy_sf (load rel64 LE many_bytes).
Theorem many_label :
  file_typed many_file /\ (exists out, snd many_out = Ok out /\ out_sframe out = many_bytes) /\ rust_slice rel64 many_bytes /\
  load rel64 LE many_bytes = Ok many_sf /\ abi many_sf = 3 /\ num_fdes many_sf = 12 /\ fst many_out <> [].
Proof.
  split; [apply many_typed|]. split; [eexists; split; vm_compute; reflexivity|]. split; [vm_compute; reflexivity|].
  split; [vm_compute; reflexivity|]. split; [vm_compute; reflexivity|]. split; [vm_compute; reflexivity|].
  vm_compute. discriminate.
Qed.

(** ** C57, C79 *)

Definition misread : elf_file :=
  ElfFile RtLittle ElfX86_64 two_sections
    (Some (fun st => match ba_got (ps_bases st) with Some 0x4000 => eh_entries (of_functions many) | _ => DwEntries [] (Some (GimliError 1)) end)) None.
Lemma misread_same : same_when_set_up (v1_setup_with all_v1fixes rel64 many_file) many_file misread /\
  snd (v1_main_with no_v1fixes some_texts1 rel64 LE many_columns (Some misread)) = Err (V1AsBefore (V1Entry (GimliError 1))) /\
  finished (snd (v1_main_with all_v1fixes some_texts1 rel64 LE many_columns (Some misread))).
Proof. split; [repeat split|]. split; [vm_compute; reflexivity|]. apply finishedb_spec. vm_compute. reflexivity. Qed.

(** ** C55 *)

Definition three_fixes : v1fixes := V1Fixes true false true false true false false false false false.
Lemma three_fixes_stops : repairs_stops three_fixes.
Proof. constructor; reflexivity. Qed.
Definition stops_fns : list dw_fde :=
  [ fn_prologue; fn_plt; at_row 0x4000 (CfaReg 7 8) [(6, RExpression cut_expr); (16, ROffset (-8))];
    DwFde 0xc000 0x10 (Insns [IDefCfaExpression cut_expr] None) (rows_ok [amd_row 0xc000 0xc010 7 8 RUndefined]) ].
Definition but_one (fn : dw_fde) (fx : v1fixes) : Prop :=
  eh_typed (of_functions [fn]) /\ (exists s, dwarf2sframe rel64 amd (of_functions [fn]) = Ok s) /\
  ~ finished (snd (v1_convert_with fx some_texts1 ElfX86_64 rel64 amd_column (eh_entries (of_functions [fn])))).
Theorem stops_case :
  repairs_stops three_fixes /\ eh_typed (of_functions stops_fns) /\ (exists s, dwarf2sframe rel64 amd (of_functions stops_fns) = Ok s) /\
  but_one fn_prologue (V1Fixes false false true false true false false false false false) /\
  but_one (at_row 0x4000 (CfaReg 7 8) [(6, RExpression cut_expr); (16, ROffset (-8))]) (V1Fixes true false false false true false false false false false) /\
  but_one (DwFde 0xc000 0x10 (Insns [IDefCfaExpression cut_expr] None) (rows_ok [amd_row 0xc000 0xc010 7 8 RUndefined]))
    (V1Fixes true false true false false false false false false false).
Proof.
  split; [exact three_fixes_stops|]. split; [typed_eh|]. split; [eexists; vm_compute; reflexivity|].
  split; [|split]; (split; [typed_eh|]; split; [eexists; vm_compute; reflexivity|]; vm_compute; intros (a & H); discriminate H).
Qed.

Theorem all_follow_case :
  repairs_rows all_v1fixes /\ eh_typed (of_functions many) /\ op_arch amd = Amd64 /\
  exists s, dwarf2sframe_repaired rel64 amd many_columns (of_functions many) = Ok s.
Proof. split; [exact all_repairs_rows|]. split; [typed_eh|]. split; [reflexivity|]. eexists. vm_compute. reflexivity. Qed.

(** ** C95, C96 *)

Definition v1_got (c : dw_fde -> Z) (eh : eh_frame) : sfb :=
  get_ok (sfb_new v1_options) (snd (v1_convert_with all_v1fixes some_texts1 ElfX86_64 rel64 c (eh_entries eh))).
(** The walk of C95: from a function that saves RBP to one with RBP in another register. *)
Definition saved_rows : list dw_row := [amd_row 0x3000 0x3010 7 24 (ROffset (-16)); moved_row; framed_row].
Definition saved_sfb : sfb := Eval vm_compute in v1_got amd_column (of_rows saved_rows).
Definition saved_bytes : bytes := Eval vm_compute in xsection LE saved_sfb.
Definition saved_sf : sframe := Eval vm_compute in xload LE saved_bytes.
Definition saved_sfb2 : sfb := Eval vm_compute in xgot (dwarf2sframe_repaired rel64 amd amd_column (of_rows saved_rows)).
Definition saved_bytes2 : bytes := Eval vm_compute in xsection LE saved_sfb2.
Definition saved_sf2 : sframe := Eval vm_compute in xload LE saved_bytes2.
Definition saved_world : world := world_of [(0x110, 0x1004); (0x108, 0x300); (0x118, 0x2004); (0x400, 0x99); (0x408, 0x1005)].
Definition saved_start : dw_frame := frame_of 0x3004 [(7, 0x100); (6, 0x40); (3, 0x400)].

Theorem saved_case :
  eh_typed (of_rows saved_rows) /\
  snd (v1_convert_with all_v1fixes some_texts1 ElfX86_64 rel64 amd_column (eh_entries (of_rows saved_rows))) = Ok saved_sfb /\
  build_repaired rel64 LE saved_sfb = Ok saved_bytes /\ load rel64 LE saved_bytes = Ok saved_sf /\
  wf_mode rel64 /\ rust_slice rel64 saved_bytes /\
  (forall f, last_at (of_rows saved_rows) f -> rows_disjoint f /\ rows_cover f) /\
  same_link_point_exact Amd64 saved_start (LkFrame true 0x3004 0x100 (Some 0x40) None) /\
  (exists l, walk (dw_step saved_world Amd64 (dw_says (of_rows saved_rows) amd_column)) saved_start l /\
     map dx_pc l = [0x1004; 0x2004; 0x1005]) /\
  (exists m, walk (lk_step saved_world (looked_up_whole rel64 LE saved_sf)) (LkFrame true 0x3004 0x100 (Some 0x40) None) m /\
     map lx_pc m = [0x1004]) /\
  looked_up_whole rel64 LE saved_sf 0x1003 (Unwind Fp false None None None) /\
  dw_says (of_rows saved_rows) amd_column 0x1003 moved_row 16 /\ inexpressible Amd64 moved_row 16.
Proof.
  split; [typed_eh|]. do 3 (split; [vm_compute; reflexivity|]). split; [right; reflexivity|].
  split; [vm_compute; reflexivity|]. split; [intros f Hf; apply of_rows_fine in Hf; tauto|]. split; [repeat split|].
  split.
  { eexists. split.
    - eapply walk_step; [|eapply walk_step; [|eapply walk_step; [|apply walk_end]]].
      + apply (of_rows_goes _ _ saved_rows _ _ (amd_row 0x3000 0x3010 7 24 (ROffset (-16))) 0x118 0x1004 0x1004); try reflexivity;
          [nodup|left; reflexivity|cbn; lia].
      + apply (of_rows_goes _ _ saved_rows _ _ moved_row 0x120 0x2004 0x2004); try reflexivity;
          [nodup|right; left; reflexivity|cbn; lia].
      + apply (of_rows_goes _ _ saved_rows _ _ framed_row 0x410 0x1005 0x1005); try reflexivity;
          [nodup|right; right; left; reflexivity|cbn; lia].
    - reflexivity. }
  split.
  { exists [ LkFrame false 0x1004 0x118 (Some 0x300) None ]. split; [|reflexivity]. apply walk_step; [|apply walk_end].
    exists (Unwind Sp false (Some 24) (Some (-8)) (Some (-16))), 0x100, 24, 0x1004.
    split; [split; [split; vm_compute; discriminate|]; exists KeyA; vm_compute; reflexivity|]. repeat split. }
  split; [split; [split; vm_compute; discriminate|]; exists KeyA; vm_compute; reflexivity|].
  split.
  - apply (of_rows_says saved_rows amd_column moved_row); [nodup|right; left; reflexivity|cbn; lia].
  - apply express_none. reflexivity.
Qed.

Theorem both_agree_case :
  repairs_rows all_v1fixes /\ op_arch amd = Amd64 /\ eh_typed (of_rows saved_rows) /\
  snd (v1_convert_with all_v1fixes some_texts1 ElfX86_64 rel64 amd_column (eh_entries (of_rows saved_rows))) = Ok saved_sfb /\
  dwarf2sframe_repaired rel64 amd amd_column (of_rows saved_rows) = Ok saved_sfb2 /\
  build_repaired rel64 LE saved_sfb = Ok saved_bytes /\ build_repaired rel64 LE saved_sfb2 = Ok saved_bytes2 /\ wf_mode rel64 /\
  rust_slice rel64 saved_bytes /\ rust_slice rel64 saved_bytes2 /\ saved_bytes <> saved_bytes2 /\
  load rel64 LE saved_bytes = Ok saved_sf /\ load rel64 LE saved_bytes2 = Ok saved_sf2 /\
  (exists u, looked_up_whole rel64 LE saved_sf 0x3004 u /\ looked_up_whole rel64 LE saved_sf2 0x3004 u /\ uw_cfa u = Some 24) /\
  exists u1 u2, looked_up_whole rel64 LE saved_sf 0x1003 u1 /\ looked_up_whole rel64 LE saved_sf2 0x1003 u2 /\
    uw_cfa u1 = None /\ uw_cfa u2 = None.
Proof.
  split; [exact all_repairs_rows|]. split; [reflexivity|]. split; [typed_eh|]. do 4 (split; [vm_compute; reflexivity|]).
  split; [right; reflexivity|]. do 2 (split; [vm_compute; reflexivity|]). split; [vm_compute; discriminate|].
  do 2 (split; [vm_compute; reflexivity|]). split.
  - exists (Unwind Sp false (Some 24) (Some (-8)) (Some (-16))).
    split; [|split; [|reflexivity]]; (split; [split; vm_compute; discriminate|]; exists KeyA; vm_compute; reflexivity).
  - exists (Unwind Fp false None None None), (Unwind Fp false None (Some (-8)) None).
    split; [|split; [|split; reflexivity]]; (split; [split; vm_compute; discriminate|]; exists KeyA; vm_compute; reflexivity).
Qed.

(** ** Each repair is needed *)

Definition v1_but_skip : v1fixes := V1Fixes false true true true true true true true true true.
Definition v1_but_rbp : v1fixes := V1Fixes true false true true true true true true true true.
Definition v1_but_print : v1fixes := V1Fixes true true false true true true true true true true.
Definition v1_but_refuse : v1fixes := V1Fixes true true true false true true true true true true.
Definition v1_but_listing : v1fixes := V1Fixes true true true true false true true true true true.
Definition v1_but_end : v1fixes := V1Fixes true true true true true false true true true true.
Definition v1_but_stack : v1fixes := V1Fixes true true true true true true false true true true.
Definition v1_but_column : v1fixes := V1Fixes true true true true true true true false true true.
Definition v1_but_machine : v1fixes := V1Fixes true true true true true true true true false true.
Definition v1_but_setup : v1fixes := V1Fixes true true true true true true true true true false.
(** Nothing is at fault, but the conversion stops. *)
Definition v1_stops (fx : v1fixes) (fn : dw_fde) : Prop :=
  eh_typed (of_functions [fn]) /\ (exists s, dwarf2sframe_repaired rel64 amd amd_column (of_functions [fn]) = Ok s) /\
  ~ finished (snd (v1_convert_with fx some_texts1 ElfX86_64 rel64 amd_column (eh_entries (of_functions [fn])))).

Lemma v1_missaid_intro fx c l x r s bs sf o : eh_typed (of_rows l) -> NoDup (map dr_start l) -> In r l ->
  dr_start r <= x < dr_end r ->
  snd (v1_convert_with fx some_texts1 ElfX86_64 rel64 c (eh_entries (of_rows l))) = Ok s -> build_repaired rel64 LE s = Ok bs ->
  load rel64 LE bs = Ok sf -> (in_i32 x -> lookup_key all_rfixes rel64 LE sf x = Ok o) ->
  (forall k u, in_i32 x -> o = Some (k, u) -> ~ conveys Amd64 r (c (whole r)) u) ->
  v1_missaid fx some_texts1 rel64 c (of_rows l) x r.
Proof.
  intros Ht Hn Hr Hx H1 H2 H3 H4 H5. split; [exact Ht|]. split; [intros f Hf; apply of_rows_fine in Hf; tauto|].
  exists (c (whole r)), s, bs, sf. split; [apply of_rows_says; assumption|]. do 3 (split; [assumption|]).
  intros u (Hi & k' & Hu). rewrite (H4 Hi) in Hu. apply (H5 k'); [exact Hi|congruence].
Qed.

Theorem v1_each_needed :
  v1_stops v1_but_skip fn_prologue /\
  v1_missaid v1_but_rbp some_texts1 rel64 amd_column (of_rows moved_rows) 0x1004 moved_row /\
  v1_stops v1_but_print cut_rule /\
  (file_typed (file_with ElfX86_64 RtLittle (eh_entries row_in_front)) /\
   snd (v1_main_with v1_but_refuse some_texts1 dev64 LE amd_column (Some (file_with ElfX86_64 RtLittle (eh_entries row_in_front)))) = Panic) /\
  v1_stops v1_but_listing cut_insn /\
  v1_missaid v1_but_end some_texts1 rel64 amd_column (of_rows [beyond_row]) (i32_max + 1) beyond_row /\
  v1_missaid v1_but_stack some_texts1 rel64 amd_column (of_rows switch_rows) 0x1004 switch_row /\
  v1_missaid v1_but_column some_texts1 rel64 column_17 (of_rows [column_row]) 0x1004 column_row /\
  (exists out sf, snd (v1_main_with v1_but_machine some_texts1 rel64 LE amd_column (Some (file_of ElfAarch64 [arm_fde]))) = Ok out /\
     load rel64 LE (out_sframe out) = Ok sf /\ abi sf <> abi_number Aarch64 RtLittle) /\
  ~ right_bases two_sections (ps_bases (v1_setup_with v1_but_setup rel64 many_file)).
Proof.
  split; [|split; [|split; [|split; [|split; [|split; [|split; [|split; [|split]]]]]]]].
  - split; [typed_eh|]. split; [eexists; vm_compute; reflexivity|]. vm_compute. intros (a & H). discriminate H.
  - eapply v1_missaid_intro; [typed_eh|nodup|left; reflexivity|cbn; lia|vm_compute; reflexivity|vm_compute; reflexivity|
      vm_compute; reflexivity|intros _; vm_compute; reflexivity|].
    intros k u _ [= <- <-] [_ H]. destruct H as [H _]; [apply express_none; reflexivity|discriminate].
  - split; [typed_eh|]. split; [eexists; vm_compute; reflexivity|]. vm_compute. intros (a & H). discriminate H.
  - split; [typed_file|vm_compute; reflexivity].
  - split; [typed_eh|]. split; [eexists; vm_compute; reflexivity|]. vm_compute. intros (a & H). discriminate H.
  - eapply (v1_missaid_intro _ _ _ _ _ _ _ _ None); [typed_eh|nodup|left; reflexivity|unfold beyond_row, i32_max; cbn [dr_start dr_end]; lia|
      vm_compute; reflexivity|vm_compute; reflexivity|vm_compute; reflexivity|intros [_ H]; lia|discriminate].
  - eapply v1_missaid_intro; [exact switch_typed|nodup|left; reflexivity|cbn; lia|vm_compute; reflexivity|vm_compute; reflexivity|
      vm_compute; reflexivity|intros _; vm_compute; reflexivity|].
    intros k u _ [= <- <-] [_ H]. destruct H as [H _]; [apply express_none; reflexivity|discriminate].
  - eapply v1_missaid_intro; [typed_eh|nodup|left; reflexivity|cbn; lia|vm_compute; reflexivity|vm_compute; reflexivity|
      vm_compute; reflexivity|intros _; vm_compute; reflexivity|].
    intros k u _ [= <- <-] [_ H]. destruct H as [H _]; [apply express_none; reflexivity|discriminate].
  - eexists _, _. split; [vm_compute; reflexivity|]. split; [vm_compute; reflexivity|]. vm_compute. discriminate.
  - intros H. apply got_replaces_text. exact H.
Qed.
