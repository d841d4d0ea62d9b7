(** What the flags of [dwarf2sframe2] do to the output (C82). *)
From Coq Require Import String.
From Verif Require Export ToolsWitness.

(** With row merging, neighbouring rows of a function differ. *)
Theorem conv_irredundant md op eh s b : eh_typed eh -> dwarf2sframe md op eh = Ok s -> op_merge_fres op = true ->
  In b (fdes_of s) -> forall x y, neighbours (rows_of b) x y -> payload x <> payload y.
Proof.
  intros Ht H Hm Hb. pose proof (dwarf2sframe_converted _ _ _ _ Ht H) as HC.
  pose proof (conv_opt_fp _ _ _ _ HC) as Hfp.
  destruct (conv_in _ _ _ _ HC b Hb) as (f & F1 & F2 & F3).
  destruct (built_before _ _ _ _ Hfp F3) as (b0 & Hb0 & S & K & _). rewrite Hm in Hb0.
  destruct (merge_rows_minimal b0 S K) as (b' & H1 & H2 & _).
  assert (b' = b) as -> by congruence. exact H2.
Qed.

Theorem cli_flags args a en :
  op_arch (cli_options args a en) = a /\ op_endian (cli_options args a en) = Some en /\
  op_debugdump (cli_options args a en) = ca_debug_dump args /\ op_warnings (cli_options args a en) = ca_warnings args /\
  op_merge_fres (cli_options args a en) = negb (ca_no_opt args) /\
  op_merge_fdes (cli_options args a en) = negb (ca_no_opt args).
Proof. repeat (split; [reflexivity|]). reflexivity. Qed.

Theorem main_rows md args file out : file_typed file -> dwarf2sframe2_main md args (Some file) = Ok out ->
  exists a parse s, arch_of (elf_architecture file) = Some a /\ elf_eh_frame file = Some parse /\
    build md (endian_of (elf_endian file)) s = Ok (out_sframe out) /\
    (forall f, last_at (file_eh md file parse) f -> exists b, In b (fdes_of s) /\ fb_start b = df_start f) /\
    StronglySorted Z.lt (map fb_start (fdes_of s)) /\
    forall b, In b (fdes_of s) ->
      if ca_no_opt args then
        exists f l, last_at (file_eh md file parse) f /\ fb_start b = df_start f /\ Permutation l (wide_rows f) /\
          Forall2 (translated a (sb_options s) (df_start f)) l (rows_of b)
      else forall x y, neighbours (rows_of b) x y -> payload x <> payload y.
Proof.
  intros Ht H. apply v2_main_ok in H. destruct H as (a & addr & parse & s & bs & H1 & H2 & H3 & H4 & H5 & ->).
  exists a, parse, s. split; [exact H1|]. split; [exact H3|]. split; [exact H5|].
  pose proof (Ht parse (tool_setup md (elf_sections file)) H3) as He. change (eh_typed (file_eh md file parse)) in He.
  destruct (conv_functions _ _ _ _ He H4) as (HF & _ & HO).
  split; [intros f Hf; destruct (HF f Hf) as (b & Hb & E & _); eauto|]. split; [exact HO|]. intros b Hb.
  assert (Hm : op_merge_fres (cli_options args a (elf_endian file)) = negb (ca_no_opt args)) by reflexivity.
  destruct (ca_no_opt args).
  - exact (conv_rows_exact md _ _ s b He H4 Hm Hb).
  - exact (conv_irredundant md _ _ s b He H4 Hm Hb).
Qed.

(** Two rows of the same contents. *)
Definition twice : dw_entries := Eval vm_compute in eh_entries (of_functions
  [DwFde 0x1000 0x20 nops (rows_ok [amd_row 0x1000 0x1008 7 16 (ROffset (-16)); amd_row 0x1008 0x1020 7 16 (ROffset (-16))])]).
Definition with_no_opt : cli_args := CliArgs false false true.
Lemma twice_typed : file_typed (file_with ElfX86_64 RtLittle twice).
Proof.
  intros parse st H. cbn in H. injection H as <-. change (eh_typed (EhFrame false twice)). typed_eh.
Qed.
Definition rows_in (o : outcome tool_error out_file) : option Z :=
  match o with
  | Ok x => match load rel64 LE (out_sframe x) with Ok sf => Some (num_fres sf) | _ => None end
  | _ => None
  end.
Theorem flags_matter : file_typed (file_with ElfX86_64 RtLittle twice) /\
  rows_in (dwarf2sframe2_main rel64 no_flags (Some (file_with ElfX86_64 RtLittle twice))) = Some 1 /\
  rows_in (dwarf2sframe2_main rel64 with_no_opt (Some (file_with ElfX86_64 RtLittle twice))) = Some 2.
Proof. split; [exact twice_typed|]. split; vm_compute; reflexivity. Qed.
