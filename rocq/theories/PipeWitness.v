(** Two functions, converted and dumped, for C126. *)
From Coq Require Import String ZArith List Lia.
From Verif Require Export PipeFacts ToolsWitness IoWitness CfiWitness.
Import ListNotations.
Open Scope Z_scope.
Open Scope list_scope.

Definition two_file : elf_file := file_with ElfX86_64 RtLittle (eh_entries eh_two).
Definition two_bytes : bytes := Eval vm_compute in section LE two_sfb.
Definition two_out : out_file := OutFile ElfX86_64 RtLittle two_bytes.

(** The output file as the dump tool finds it. *)
Definition object_file (out : out_file) : elf_file :=
  {| elf_endian := out_endian out; elf_architecture := out_arch out; elf_sections := [(".sframe"%string, 0)];
     elf_eh_frame := None; elf_sframe := Some (out_sframe out) |}.

Lemma object_holds out : holds_section (object_file out) out.
Proof. split; [eexists; apply section_found; reflexivity|reflexivity]. Qed.

Definition two_dump : list dump_line := Eval vm_compute in
  match sframedump_main rel64 LE (Some (object_file two_out)) with Ok l => l | _ => [] end.
Definition two_text : string := Eval vm_compute in stdout_text some_abi two_dump.

(** Every hypothesis of the pipeline theorem, and what comes out. *)
Lemma pipe_case :
  let eh := file_eh rel64 two_file (fun _ => eh_entries eh_two) in let op := cli_options no_flags Amd64 RtLittle in
  file_typed two_file /\ (exists addr, has_section (elf_sections two_file) ".eh_frame"%string addr) /\ ents_end (eh_entries eh) = None /\
  (forall x, In x (entries_of eh) -> match x with DwCie => True | DwBadFde _ => False
     | DwGoodFde f => ordinary op eh f /\ dump_fine rel64 op f /\ ends_in_range f end) /\
  apart eh /\ countable (function_count eh) (table_rows eh) /\
  (forall c f, last_at eh f -> follows_dwarf c f -> unconfused Amd64 (fixed_ra_of op eh) c f) /\
  (forall n, without newline_char (some_abi n)) /\
  dwarf2sframe2_main rel64 no_flags (Some two_file) = Ok two_out /\ holds_section (object_file two_out) two_out /\
  wf_mode dev32 /\ rust_slice dev32 (out_sframe two_out) /\
  last_at eh fn_push /\ follows_dwarf cie_amd fn_push /\ in_range (df_start fn_push) (df_len fn_push) 0x1010 /\
  sframedump_main dev32 LE (Some (object_file two_out)) = Ok two_dump /\ stdout_text some_abi two_dump = two_text /\
  dump_says (skipn 3 two_dump) 0x1010 (Shown (CellBase Fp 16) (CellCfa (-16)) (CellCfa (-8)) false).
Proof.
  intros eh op. destruct two_case as (P1 & P2 & P3 & P4 & P5 & P6 & _ & P8 & _).
  assert (E : eh = EhFrame false (eh_entries eh_two)) by reflexivity.
  split; [intros parse setup [= <-]; exact P1|]. split; [eexists; apply section_found; reflexivity|]. split; [exact P2|].
  split; [|split; [exact P4|split; [vm_compute; split; discriminate|split; [intros c f Hf Hc; exact (proj1 (P8 c f Hf Hc))|]]]].
  { intros x Hx. specialize (P3 x Hx). destruct x as [|g|f]; [exact I|exact P3|]. destruct P3 as ((Q1 & Q2) & _).
    split; [exact Q1|]. split; [exact Q2|]. cbn in Hx. repeat (destruct Hx as [Hx|Hx]; [try discriminate; injection Hx as <-; vm_compute; discriminate|]). destruct Hx. }
  split; [intros n; cbn; unfold some_abi; repeat constructor; discriminate|].
  split; [vm_compute; reflexivity|]. split; [apply object_holds|]. split; [vm_compute; auto|]. split; [vm_compute; reflexivity|].
  split; [apply two_last; auto|]. split; [apply push_follows|]. split; [vm_compute; split; [discriminate|reflexivity]|].
  split; [vm_compute; reflexivity|]. split; [vm_compute; reflexivity|].
  exists [], 0, 0x1000, 0x20, (firstn 4 (skipn 5 two_dump)), (skipn 10 two_dump), 0x1004. split; [reflexivity|].
  split; [cbn; repeat constructor|]. split; [vm_compute; split; [discriminate|reflexivity]|]. split; [cbn; auto|]. split; [lia|].
  intros s' cfa fp ra m Hin Hle. cbn in Hin. repeat (destruct Hin as [Hin|Hin]; [injection Hin as <- _ _ _ _; lia|]). destruct Hin.
Qed.

(** The same for the first converter. *)
Definition two_v1_out : out_file := Eval vm_compute in
  match v1_main rel64 LE v1_any (Some two_file) with Ok o => o | _ => two_out end.
Definition two_v1_dump : list dump_line := Eval vm_compute in
  match sframedump_main rel64 LE (Some (object_file two_v1_out)) with Ok l => l | _ => [] end.
Definition two_v1_head : header_shown := Eval vm_compute in
  match read_dump (stdout_text some_abi two_v1_dump) with Some (h, _) => h | None => HeaderShown 0 0 0 0 "" None None end.
Lemma pipe_case_v1 :
  let ents := eh_entries eh_two in
  elf_eh_frame two_file = Some (fun _ => ents) /\
  (forall x, In x (ents_list ents) -> match x with DwCie => True | DwBadFde _ => False
     | DwGoodFde f => v1_ordinary v1_any f /\ ends_in_range f end) /\
  apart (in_eh ents) /\ countable (function_count (in_eh ents)) (v1_rows_total ents) /\
  (forall c f, v1_last ents f -> follows_dwarf c f -> v1_unconfused c f) /\
  v1_main rel64 LE v1_any (Some two_file) = Ok two_v1_out /\ out_sframe two_v1_out <> out_sframe two_out /\
  v1_last ents fn_push /\
  exists rest, read_dump (stdout_text some_abi two_v1_dump) = Some (two_v1_head, rest) /\
    sframedump_main dev32 LE (Some (object_file two_v1_out)) = Ok two_v1_dump /\
    dump_says rest 0x1010 (Shown (CellBase Fp 16) (CellCfa (-16)) (CellCfa (-8)) false).
Proof.
  intros ents. destruct two_case as (_ & _ & P3 & P4 & _ & _ & _ & P8 & _).
  split; [reflexivity|]. split.
  { intros x Hx. specialize (P3 x Hx). destruct x as [|g|f]; [exact I|exact P3|]. split; [apply P3|].
    cbn in Hx. repeat (destruct Hx as [Hx|Hx]; [try discriminate; injection Hx as <-; vm_compute; discriminate|]). destruct Hx. }
  split; [exact P4|]. split; [vm_compute; split; discriminate|].
  split; [intros c f Hf Hc; exact (proj2 (P8 c f Hf Hc))|]. split; [vm_compute; reflexivity|]. split; [vm_compute; discriminate|].
  split; [apply two_last; auto|]. eexists. split; [vm_compute; reflexivity|]. split; [vm_compute; reflexivity|].
  exists [], 0, 0x1000, 0x20, (firstn 4 (skipn 5 two_v1_dump)), (skipn 10 two_v1_dump), 0x1004. split; [reflexivity|].
  split; [cbn; repeat constructor|]. split; [vm_compute; split; [discriminate|reflexivity]|]. split; [cbn; auto|]. split; [lia|].
  intros s' cfa fp ra m Hin Hle. cbn in Hin. repeat (destruct Hin as [Hin|Hin]; [injection Hin as <- _ _ _ _; lia|]). destruct Hin.
Qed.

(** A function that ends beyond the addresses a section can hold: converted, but
    not to be dumped. *)
Definition fn_edge : dw_fde := DwFde 0x7ffffff8 0x10 (Insns [IAdvanceLoc 8; IDefCfaOffset 16] None)
  (rows_ok [amd_row 0x7ffffff8 0x80000000 7 8 RUndefined; amd_row 0x80000000 0x80000008 7 16 RUndefined]).
Definition edge_file : elf_file := file_with ElfX86_64 RtLittle (eh_entries (of_functions [fn_edge])).

Lemma edge_case : file_typed edge_file /\ follows_dwarf cie_amd fn_edge /\ ~ ends_in_range fn_edge /\
  exists out, dwarf2sframe2_main dev64 no_flags (Some edge_file) = Ok out /\
    sframedump_main dev64 LE (Some (object_file out)) = Panic.
Proof.
  split; [intros parse setup [= <-]; typed_eh|]. split.
  { eexists _, _. split; [reflexivity|]. split; [vm_compute; reflexivity|]. rows_agree. }
  split; [intros H; vm_compute in H; apply H; reflexivity|]. eexists. split; [vm_compute; reflexivity|vm_compute; reflexivity].
Qed.
