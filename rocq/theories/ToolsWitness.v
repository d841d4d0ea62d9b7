(** Concrete inputs of the command line tools. *)
From Coq Require Import String.
From Verif Require Export DumpFacts ConvWitness.
Local Open Scope string_scope.
Local Open Scope list_scope.

Definition all_print : dw_row -> bool := fun _ => true.

(** The sample without its zero-width row, with a rule for RBP that only the
    first-generation tool accepts. *)
Definition odd_fp : dw_row := amd_row 0x3000 0x3010 7 8 (RRegister 3).
Definition v1_sample : dw_entries := Eval vm_compute in eh_entries
  (of_functions [strip_fde fn_prologue; fn_plt; DwFde 0x3000 0x10 nops (rows_ok [odd_fp])]).
Definition v1_sfb : sfb := Eval vm_compute in
  match v1_convert rel64 all_print v1_sample with Ok s => s | _ => sfb_new options_new end.

Lemma v1_sample_typed : ents_typed v1_sample.
Proof. change (eh_typed (EhFrame false v1_sample)). typed_eh. Qed.
Lemma v1_sample_converts md : v1_convert md all_print v1_sample = Ok v1_sfb.
Proof. destruct md as [[] [] ? ?]; vm_compute; reflexivity. Qed.
Lemma v1_sample_fine : v1_fine all_print v1_sample.
Proof.
  destruct (v1_fate rel64 all_print v1_sample v1_sample_typed) as [(s & _ & H & _)|(q & Hp & Hq)]; [exact H|].
  rewrite v1_sample_converts in Hq. cbn in Hq. subst q. exfalso. eapply v1_problem_not_ok, Hp.
Qed.

(** ** C55 *)

Theorem zero_width_stops_v1 :
  eh_typed sample /\ (forall md, dwarf2sframe md amd sample = Ok sample_sfb) /\
  (forall md, v1_convert md all_print (eh_entries sample) = Err (V1InvalidRow DuplicateRow)) /\
  In (amd_row 0x1004 0x1004 7 24 (ROffset (-16))) (dw_rows_of fn_prologue).
Proof.
  split; [apply sample_typed|]. split; [apply sample_converts|]. split; [|right; right; left; reflexivity].
  intros md. destruct md as [[] [] ? ?]; vm_compute; reflexivity.
Qed.

Lemma strip_sample_wide f : In f (functions (entries_of (strip sample))) -> df_dump f = None /\
  forall r, In r (dw_rows_of f) -> wide r /\ all_print r = true.
Proof.
  intros H. vm_compute in H. destruct H as [<-|[<-|[]]]; (split; [reflexivity|]).
  all: intros r Hr; (split; [|reflexivity]); apply wideb_spec; vm_compute in Hr;
    repeat (destruct Hr as [<-|Hr]; [reflexivity|]); destruct Hr.
Qed.
Definition stripped : eh_frame := Eval vm_compute in strip sample.
Lemma strip_sample_typed : eh_typed (strip sample).
Proof. change (eh_typed stripped). typed_eh. Qed.

(** ** C57 *)

Definition two_sections : list (string * Z) := [(".text", 0x1000); (".eh_frame", 0x2000); (".got", 0x4000)].

Theorem got_replaces_text :
  has_section two_sections ".text" 0x1000 /\ has_section two_sections ".got" 0x4000 /\
  ba_text (tool_bases two_sections) = Some 0x4000 /\ ba_got (tool_bases two_sections) = None /\
  ~ right_bases two_sections (tool_bases two_sections).
Proof.
  split; [apply section_found; reflexivity|]. split; [apply section_found; reflexivity|].
  split; [reflexivity|]. split; [reflexivity|]. rewrite right_bases_iff. intros H. apply H. right. right. left. reflexivity.
Qed.

(** ** C58, C60 *)

Definition file_with (m : elf_arch) (en : rt_endian) (ents : dw_entries) : elf_file :=
  {| elf_endian := en; elf_architecture := m; elf_sections := two_sections;
     elf_eh_frame := Some (fun _ => ents); elf_sframe := None |}.
Definition no_flags : cli_args := CliArgs false false false.

Lemma v2_sample md args : ca_debug_dump args = false -> ca_warnings args = false -> ca_no_opt args = false ->
  dwarf2sframe2_main md args (Some (file_with ElfX86_64 RtLittle (eh_entries sample)))
  = Ok (OutFile ElfX86_64 RtLittle (sample_bytes LE)).
Proof. destruct args as [? ? ?]; cbn; intros -> -> ->. destruct md as [[] [] ? ?]; vm_compute; reflexivity. Qed.

Lemma file_sample_typed m en : file_typed (file_with m en (eh_entries sample)).
Proof. intros parse setup [= <-]. apply sample_typed. Qed.
Lemma file_v1_typed m en : file_typed (file_with m en v1_sample).
Proof. intros parse setup [= <-]. apply v1_sample_typed. Qed.

Definition v1_bytes (e : endian) : bytes := section e v1_sfb.
Lemma v1_sample_main md m en native :
  v1_main md native all_print (Some (file_with m en v1_sample)) = Ok (OutFile m en (v1_bytes native)).
Proof. destruct md as [[] [] ? ?], native; vm_compute; reflexivity. Qed.
Lemma v1_slice md e : wf_mode md -> rust_slice md (v1_bytes e).
Proof. intros H. unfold rust_slice. destruct H as [H|H]; destruct e; rewrite H; vm_compute; reflexivity. Qed.

Theorem v1_mislabels :
  (forall m en, file_typed (file_with m en v1_sample)) /\
  (forall m en, exists out sf, v1_main rel64 LE all_print (Some (file_with m en v1_sample)) = Ok out /\
     out_arch out = m /\ load rel64 LE (out_sframe out) = Ok sf /\ abi sf = 3) /\
  abi_number Aarch64 RtLittle = 2 /\
  (exists out, v1_main rel64 LE all_print (Some (file_with ElfAarch64 RtBig v1_sample)) = Ok out /\
     load rel64 BE (out_sframe out) = Err IncorrectEndian).
Proof.
  split; [exact file_v1_typed|]. split; [|split; [reflexivity|]].
  - intros m en. do 2 eexists. split; [apply v1_sample_main|]. split; [reflexivity|]. split; [vm_compute; reflexivity|reflexivity].
  - eexists. split; [apply v1_sample_main|]. vm_compute. reflexivity.
Qed.

(** ** C56 *)

Lemma not_clashing_v1 r :
  match classify Amd64 (norm_row r) with
  | Some (_, cfa, ra, fp) =>
      match dominant (stored_for None cfa ra fp) with
      | Some m => m <> -128 /\ m <> -32768
      | None => True
      end
  | None => True
  end -> ~ v1_clash r.
Proof.
  intros H (base & cfa & ra & fp & m & HR & Hd & Hm & _). apply norm_representable, classify_spec in HR.
  rewrite HR in H. cbn beta iota in H. rewrite Hd in H. tauto.
Qed.
Ltac no_clash_v1 H := apply not_clashing_v1; cbn in H; repeat (destruct H as [<-|H]); try contradiction;
  vm_compute; try exact I; split; discriminate.

Lemma v1_sample_no_clash f r : v1_last v1_sample f -> In r (dw_rows_of f) -> ~ v1_clash r.
Proof.
  intros (pre & post & H & _) Hr.
  assert (Hf : In f (functions (ents_list v1_sample))) by (rewrite H; apply in_elt).
  apply not_clashing_v1. vm_compute in Hf.
  repeat (destruct Hf as [<-|Hf]; [vm_compute in Hr; repeat (destruct Hr as [<-|Hr];
    [vm_compute; try exact I; split; discriminate|]); destruct Hr|]). destruct Hf.
Qed.

(** ** C59 *)

Definition sample_sf : sframe := Eval vm_compute in get_ok dummy_sf (load rel64 LE (sample_bytes LE)).
(** The first row of the first function is damaged: the second function is still
    listed. *)
Definition damaged : bytes := Eval vm_compute in firstn 69 (sample_bytes LE) ++ [x60] ++ skipn 70 (sample_bytes LE).
Definition damaged_sf : sframe := Eval vm_compute in get_ok dummy_sf (load rel64 LE damaged).

Lemma sample_dump : load rel64 LE (sample_bytes LE) = Ok sample_sf /\
  dump rel64 LE sample_sf = Ok
    [LineHeader 2 1 2 7 3 None (Some (-8)); LineBlank; LineIndex;
     LineFunc 0 0x1000 0x20; LineColumns PPcInc;
     LineRow 0x1000 (CellBase Sp 8) CellUnknown (CellCfa (-8)) false;
     LineRow 0x1001 (CellBase Sp 16) (CellCfa (-16)) (CellCfa (-8)) false;
     LineRow 0x1004 (CellBase Fp 16) (CellCfa (-16)) (CellCfa (-8)) false;
     LineRow 0x101f (CellBase Sp 8) CellUnknown (CellCfa (-8)) false; LineBlank;
     LineFunc 1 0x2000 0x40; LineColumns PPcInc;
     LineRow 0x2000 (CellBase Sp 16) CellUnknown (CellCfa (-8)) false;
     LineRow 0x2006 (CellBase Sp 24) CellUnknown (CellCfa (-8)) false;
     LineRow 0x2010 CellUnknown CellUnknown (CellCfa (-8)) false; LineBlank].
Proof. vm_compute. auto. Qed.

Lemma damaged_dump : load rel64 LE damaged = Ok damaged_sf /\
  exists l er, dump rel64 LE damaged_sf = Ok l /\ In (LineErr er) l /\ In (LineFunc 1 0x2000 0x40) l /\
    In (LineRow 0x2006 (CellBase Sp 24) CellUnknown (CellCfa (-8)) false) l.
Proof.
  split; [vm_compute; reflexivity|]. do 2 eexists. split; [vm_compute; reflexivity|]. cbn. intuition.
Qed.
