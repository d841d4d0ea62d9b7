(** Property C82: what the flags of [dwarf2sframe2] do. *)
From Coq Require Import String.
From Verif Require Import FlagsFacts.

(** * C82 --no-opt keeps every row, otherwise no row is redundant *)

Theorem C82_flags : forall args a en,
  op_arch (cli_options args a en) = a /\ op_endian (cli_options args a en) = Some en /\
  op_debugdump (cli_options args a en) = ca_debug_dump args /\ op_warnings (cli_options args a en) = ca_warnings args /\
  op_merge_fres (cli_options args a en) = negb (ca_no_opt args) /\
  op_merge_fdes (cli_options args a en) = negb (ca_no_opt args).
Proof. exact cli_flags. Qed.
Print Assumptions C82_flags.

Theorem C82_irredundant : forall md op eh s b,
  eh_typed eh -> dwarf2sframe md op eh = Ok s -> op_merge_fres op = true ->
  In b (fdes_of s) -> forall x y, neighbours (rows_of b) x y -> payload x <> payload y.
Proof. exact conv_irredundant. Qed.
Print Assumptions C82_irredundant.

Theorem C82_tool : forall md args file out,
  file_typed file -> dwarf2sframe2_main md args (Some file) = Ok out ->
  exists a parse s, arch_of (elf_architecture file) = Some a /\ elf_eh_frame file = Some parse /\
    build md (endian_of (elf_endian file)) s = Ok (out_sframe out) /\
    (forall f, last_at (file_eh md file parse) f -> exists b, In b (fdes_of s) /\ fb_start b = df_start f) /\
    StronglySorted Z.lt (map fb_start (fdes_of s)) /\
    forall b, In b (fdes_of s) ->
      if ca_no_opt args then
        exists f l, last_at (file_eh md file parse) f /\ fb_start b = df_start f /\ Permutation l (wide_rows f) /\
          Forall2 (translated a (sb_options s) (df_start f)) l (rows_of b)
      else forall x y, neighbours (rows_of b) x y -> payload x <> payload y.
Proof. exact main_rows. Qed.
Print Assumptions C82_tool.

(** Two DWARF rows of the same contents: one row by default, two with the flag. *)
Example C82_case : file_typed (file_with ElfX86_64 RtLittle twice) /\
  rows_in (dwarf2sframe2_main rel64 no_flags (Some (file_with ElfX86_64 RtLittle twice))) = Some 1 /\
  rows_in (dwarf2sframe2_main rel64 with_no_opt (Some (file_with ElfX86_64 RtLittle twice))) = Some 2.
Proof. exact flags_matter. Qed.
