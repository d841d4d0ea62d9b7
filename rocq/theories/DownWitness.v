(** Witnesses: programs with offsets at the edges of the widths. *)
From Coq Require Import String ZArith List Lia.
From Verif Require Import DownFacts CfiWitness StdWitness PipeWitness ProgramWitness ToolsWitness TripWitness WalkWitness.
Import ListNotations.
Open Scope Z_scope.
Open Scope list_scope.

(** [sub sp, sp, #128; stp x29, x30, [sp]], then a frame of 32768 bytes likewise. *)
Definition dn_program : list insn :=
  [ IAdvanceLoc 1; IDefCfaOffset 128; IOffset 29 16; IOffset 30 15; IAdvanceLoc 1; IDefCfaOffset 32768; IOffset 29 4096;
    IOffset 30 4095; INop ].
Definition dn_rows : list dw_row :=
  [ DwRow 0x1000 0x1004 (CfaReg 31 0) [];
    DwRow 0x1004 0x1008 (CfaReg 31 128) [(29, ROffset (-128)); (30, ROffset (-120))];
    DwRow 0x1008 0x1020 (CfaReg 31 32768) [(29, ROffset (-32768)); (30, ROffset (-32760))] ].
Definition dn_fn : dw_fde := DwFde 0x1000 0x20 (Insns dn_program None) (rows_ok dn_rows).
Definition dn_eh : eh_frame := of_functions [dn_fn].
Definition dn_sfb : sfb := Eval vm_compute in got (dwarf2sframe rel64 arm dn_eh).
Definition dn_bytes (e : endian) : bytes := section e dn_sfb.

Lemma dn_typed : eh_typed dn_eh.
Proof. typed_eh. Qed.
Lemma dn_last f : last_at dn_eh f <-> f = dn_fn.
Proof.
  split.
  - intros (pre & post & H & _). cbn in H. destruct pre as [|x [|y pre]]; try discriminate. injection H as <-. reflexivity.
  - intros ->. exists [], []. split; [reflexivity|intros ? []].
Qed.
Lemma dn_follows : follows_dwarf cie_arm dn_fn.
Proof. eexists dn_rows, _. split; [reflexivity|]. split; [vm_compute; reflexivity|]. unfold dn_rows. rows_agree. Qed.

Ltac downward_by_cases H := cbn in H; repeat (destruct H as [<-|H];
  [split; [intros n k [= _ <-]; lia|intros n k [-> | ->] E; cbn in E; try discriminate E; injection E as <-; lia]|]); destruct H.

Lemma dn_downward r : In r (wide_rows dn_fn) -> downward_row Aarch64 r.
Proof. intros H. downward_by_cases H. Qed.
Lemma dn_disjoint : rows_disjoint dn_fn.
Proof.
  intros r r' Hr Hr' Hl; vm_compute in Hr, Hr';
    repeat (destruct Hr as [<-|Hr]; [repeat (destruct Hr' as [<-|Hr']; [cbn in *; lia|]); destruct Hr'|]); destruct Hr.
Qed.
Lemma dn_says : dwarf_says dn_eh 0x1010 (DwRow 0x1008 0x1020 (CfaReg 31 32768) [(29, ROffset (-32768)); (30, ROffset (-32760))]).
Proof.
  exists dn_fn. split; [apply dn_last; reflexivity|]. unfold in_range. cbn. split; [lia|].
  split; [right; right; left; reflexivity|lia].
Qed.

Theorem dn_case e :
  eh_typed dn_eh /\ dwarf2sframe rel64 arm dn_eh = Ok dn_sfb /\ build rel64 e dn_sfb = Ok (dn_bytes e) /\
  wf_mode dev32 /\ rust_slice dev32 (dn_bytes e) /\ fixed_ra_of arm dn_eh = None /\
  (forall f, last_at dn_eh f -> rows_disjoint f /\ (exists c, follows_dwarf c f) /\
     forall r, In r (wide_rows f) -> downward_row (op_arch arm) r) /\
  dwarf_says dn_eh 0x1010 (DwRow 0x1008 0x1020 (CfaReg 31 32768) [(29, ROffset (-32768)); (30, ROffset (-32760))]) /\
  representable Aarch64 (DwRow 0x1008 0x1020 (CfaReg 31 32768) [(29, ROffset (-32768)); (30, ROffset (-32760))])
    Sp 32768 (-32760) (Some (-32768)) /\
  representable Aarch64 (DwRow 0x1004 0x1008 (CfaReg 31 128) [(29, ROffset (-128)); (30, ROffset (-120))])
    Sp 128 (-120) (Some (-128)) /\
  ~ downward_row Aarch64 tied_dw /\ clash Aarch64 None tied_dw.
Proof.
  split; [apply dn_typed|]. split; [vm_compute; reflexivity|]. split; [destruct e; vm_compute; reflexivity|].
  split; [left; reflexivity|]. split; [destruct e; vm_compute; reflexivity|]. split; [reflexivity|].
  split; [intros f Hf; apply dn_last in Hf; subst f; split; [exact dn_disjoint|]; split; [exists cie_arm; exact dn_follows|exact dn_downward]|].
  split; [apply dn_says|]. split; [apply classify_spec; reflexivity|]. split; [apply classify_spec; reflexivity|]. split.
  - intros [D _]. specialize (D 31 (-128) eq_refl). lia.
  - exists Sp, (-128), 128, None, (-128). split; [apply tied_represented|]. split; [reflexivity|]. split; [auto|]. right. left. reflexivity.
Qed.

(** The rows that the converter gives to the writer. *)
Theorem dn_written_case :
  sfb_sized rel64 dn_sfb /\
  (forall b r, In b (fdes_of dn_sfb) -> In r (rows_of b) -> downward_written r /\ ~ ambiguous (sb_options dn_sfb) r) /\
  exists b r o, In b (fdes_of dn_sfb) /\ In r (rows_of b) /\ r_offsets r = Some o /\ ro_cfa o = 128 /\ ro_fp o = Some (-128).
Proof.
  split; [|split].
  - apply (converted_sized rel64 arm dn_eh), dwarf2sframe_converted; [exact dn_typed|vm_compute; reflexivity].
  - intros b r Hb Hr. vm_compute in Hb. destruct Hb as [<-|[]]. vm_compute in Hr.
    repeat (destruct Hr as [<-|Hr]; [split;
      [intros o Ho; first [discriminate Ho|injection Ho as <-; cbn; split; [lia|split; intros k [= <-]; lia]]
      |intros (_ & x & Hx & Hr' & _); first [discriminate Hx|injection Hx as <-; discriminate Hr']]|]). destruct Hr.
  - eexists (hd blocks (fdes_of dn_sfb)), (nth 1 (rows_of (hd blocks (fdes_of dn_sfb))) (row3 0 0 0 0)), _.
    vm_compute. auto.
Qed.

Lemma two_downward c f : last_at eh_two f -> follows_dwarf c f -> downward_program Amd64 c f.
Proof.
  intros Hf F. apply two_last in Hf. apply downward_table; [destruct Hf as [-> | ->]; cbn; lia|exact F|].
  intros r Hr. destruct Hf as [-> | ->]; downward_by_cases Hr.
Qed.

Theorem dn_programs_case :
  eh_typed eh_two /\ ents_end (eh_entries eh_two) = None /\
  (forall x, In x (entries_of eh_two) -> match x with DwCie => True | DwBadFde _ => False
     | DwGoodFde f => (ordinary amd eh_two f /\ dump_fine rel64 amd f) /\ v1_ordinary v1_any f end) /\
  apart eh_two /\ countable (function_count eh_two) (table_rows eh_two) /\
  countable (function_count eh_two) (v1_rows_total (eh_entries eh_two)) /\
  (forall c f, last_at eh_two f -> follows_dwarf c f -> downward_program Amd64 c f) /\
  last_at eh_two fn_push /\ follows_dwarf cie_amd fn_push /\
  exists st, cfi_at cie_amd fn_push 0x1010 = Some st /\ cs_cfa st = Some (CfaReg 6 16).
Proof.
  destruct two_case as (P1 & P2 & P3 & P4 & P5 & P6 & P7 & _ & _ & _ & P8).
  split; [exact P1|]. split; [exact P2|]. split; [exact P3|]. split; [exact P4|]. rewrite P5, P6, P7.
  split; [vm_compute; split; discriminate|]. split; [vm_compute; split; discriminate|].
  split; [exact two_downward|]. split; [apply two_last; auto|]. split; [apply push_follows|exact P8].
Qed.

Theorem dn_v1_case :
  ents_typed (eh_entries eh_two) /\ (exists s bs, v1_convert rel64 v1_any (eh_entries eh_two) = Ok s /\ build rel64 LE s = Ok bs /\
    rust_slice dev32 bs) /\
  (forall f r, v1_last (eh_entries eh_two) f -> In r (dw_rows_of f) -> downward_row Amd64 r) /\
  v1_last (eh_entries eh_two) fn_push.
Proof.
  split; [exact (proj1 two_case)|]. split; [do 2 eexists; split; [vm_compute; reflexivity|]; split; [vm_compute; reflexivity|vm_compute; reflexivity]|].
  split; [|apply two_last; auto]. intros f r Hf Hr. assert (H : f = fn_push \/ f = fn_leaf) by (apply two_last; exact Hf).
  destruct H as [-> | ->]; downward_by_cases Hr.
Qed.

Theorem dn_pipe_case :
  let eh := file_eh rel64 two_file (fun _ => eh_entries eh_two) in let op := cli_options no_flags Amd64 RtLittle in
  file_typed two_file /\ (exists addr, has_section (elf_sections two_file) ".eh_frame"%string addr) /\ ents_end (eh_entries eh) = None /\
  (forall x, In x (entries_of eh) -> match x with DwCie => True | DwBadFde _ => False
     | DwGoodFde f => ordinary op eh f /\ dump_fine rel64 op f /\ ends_in_range f end) /\
  apart eh /\ countable (function_count eh) (table_rows eh) /\
  (forall c f, last_at eh f -> follows_dwarf c f -> downward_program Amd64 c f) /\
  (forall n, without newline_char (some_abi n)) /\
  dwarf2sframe2_main rel64 no_flags (Some two_file) = Ok two_out /\ holds_section (object_file two_out) two_out /\
  wf_mode dev32 /\ rust_slice dev32 (out_sframe two_out) /\
  last_at eh fn_push /\ follows_dwarf cie_amd fn_push /\ in_range (df_start fn_push) (df_len fn_push) 0x1010 /\
  sframedump_main dev32 LE (Some (object_file two_out)) = Ok two_dump /\ stdout_text some_abi two_dump = two_text /\
  dump_says (skipn 3 two_dump) 0x1010 (Shown (CellBase Fp 16) (CellCfa (-16)) (CellCfa (-8)) false).
Proof.
  intros eh op. destruct pipe_case as (P1 & P2 & P3 & P4 & P5 & P6 & _ & P8).
  split; [exact P1|]. split; [exact P2|]. split; [exact P3|]. split; [exact P4|]. split; [exact P5|]. split; [exact P6|].
  split; [exact two_downward|exact P8].
Qed.

Theorem dn_walks_case :
  eh_typed eh_two /\ dwarf2sframe rel64 amd eh_two = Ok two_sfb /\ build rel64 LE two_sfb = Ok two_section /\
  wf_mode rel64 /\ rust_slice rel64 two_section /\ programs_followed eh_two amd_cie /\
  (forall f, last_at eh_two f -> downward_program Amd64 (amd_cie f) f /\
     forall x st, in_range (df_start f) (df_len f) x -> cfi_at (amd_cie f) f x = Some st -> plain_row Amd64 (as_row st) (amd_column f)) /\
  same_point_exact Amd64 two_start (SfFrame true 0x1024 0x100 (Some 0x200)) /\
  exists l, walk (dw_step two_world Amd64 (cfi_says eh_two amd_cie amd_column)) two_start l /\ map dx_pc l = [0x1011; 0x5].
Proof.
  destruct two_walks as (P1 & P2 & P3 & _ & _ & P4 & P5 & _ & _ & P6 & P7 & P8).
  do 6 (split; [assumption|]). split; [|exact P8].
  intros f Hf. split; [apply two_downward; [exact Hf|apply P6, Hf]|]. apply (P7 f Hf).
Qed.
