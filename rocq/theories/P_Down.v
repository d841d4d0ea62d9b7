(** Property theorems about stacks that grow down: C160. *)
From Coq Require Import String ZArith List.
From Verif Require Import DownFacts ConvWitness CfiWitness PipeWitness ProgramWitness WalkWitness DownWitness.
Import ListNotations.
Open Scope Z_scope.
Open Scope list_scope.

(** * C160 Where the stack grows down no offset is confused with another *)

(** No row of DWARF is among the exceptions of C49 and C56. *)
Theorem C160_rows : forall a fixed r,
  downward_row a r -> ~ clash a fixed r /\ (a = Amd64 -> ~ v1_clash r).
Proof. exact down_rows. Qed.
Print Assumptions C160_rows.

(** No row given to the writer is among those of C37 and C38. *)
Theorem C160_written : forall r,
  downward_written r -> ~ tied r.
Proof. exact downward_not_tied. Qed.
Print Assumptions C160_written.

(** So what is written is read back, *)
Theorem C160_round_trip : forall md md' e s bs,
  sfb_sized md s -> build md e s = Ok bs -> wf_mode md' -> rust_slice md' bs ->
  (forall b r, In b (fdes_of s) -> In r (rows_of b) -> downward_written r /\ ~ ambiguous (sb_options s) r) ->
  exists sf, load md' e bs = Ok sf /\
    Forall2 (fun b en => exists good, all_fres md' e en = Ok (map inl good) /\
      Forall2 (fun r fr => fre_start_address_offset fr = r_start r /\ observed sf fr = intended (sb_options s) r)
        (rows_of b) good) (fdes_of s) (all_fdes sf).
Proof. exact down_round_trip. Qed.
Print Assumptions C160_round_trip.

(** what is converted is what DWARF says, *)
Theorem C160_end_to_end : forall md md' md'' op eh s e bs,
  eh_typed eh -> dwarf2sframe md op eh = Ok s ->
  build md' e s = Ok bs -> wf_mode md'' -> rust_slice md'' bs ->
  (forall f, last_at eh f -> rows_disjoint f /\ forall r, In r (wide_rows f) -> downward_row (op_arch op) r) ->
  exists sf, load md'' e bs = Ok sf /\
    (forall a r, dwarf_says eh a r -> exists u, section_says md'' e sf a u /\ matches (op_arch op) r u) /\
    (forall a u, section_says md'' e sf a u ->
       exists f r, last_at eh f /\ in_range (df_start f) (df_len f) a /\ In r (wide_rows f) /\ dr_start r <= a) /\
    (forall a u u', section_says md'' e sf a u -> section_says md'' e sf a u' -> u = u').
Proof. exact down_end_to_end. Qed.
Print Assumptions C160_end_to_end.

(** also by the first converter, *)
Theorem C160_first_end_to_end : forall md md' md'' p ents s e bs,
  ents_typed ents -> v1_convert md p ents = Ok s ->
  build md' e s = Ok bs -> wf_mode md'' -> rust_slice md'' bs ->
  (forall f r, v1_last ents f -> In r (dw_rows_of f) -> downward_row Amd64 r) ->
  exists sf, load md'' e bs = Ok sf /\
    (forall a f r, v1_last ents f -> in_range (df_start f) (df_len f) a -> In r (dw_rows_of f) -> dr_start r <= a ->
       (forall r', In r' (dw_rows_of f) -> dr_start r' <= a -> dr_start r' <= dr_start r) ->
       exists u, section_says md'' e sf a u /\
         (forall base cfa ra fp, v1_representable r base cfa ra fp -> u = Unwind base false (Some cfa) (Some ra) fp) /\
         ((forall base cfa ra fp, ~ v1_representable r base cfa ra fp) -> uw_cfa u = None /\ uw_mangled u = false)) /\
    (forall a u, section_says md'' e sf a u ->
       exists f r, v1_last ents f /\ in_range (df_start f) (df_len f) a /\ In r (dw_rows_of f) /\ dr_start r <= a) /\
    (forall a u u', section_says md'' e sf a u -> section_says md'' e sf a u' -> u = u').
Proof. exact down_v1_end_to_end. Qed.
Print Assumptions C160_first_end_to_end.

(** and also for an unwinder that follows the specification. *)
Theorem C160_standard : forall md md' op eh s e bs,
  eh_typed eh -> dwarf2sframe md op eh = Ok s -> build md' e s = Ok bs ->
  (forall f, last_at eh f -> (exists c, follows_dwarf c f) /\ forall r, In r (wide_rows f) -> downward_row (op_arch op) r) ->
  (forall c f x, last_at eh f -> follows_dwarf c f -> in_range (df_start f) (df_len f) x ->
     exists st u, cfi_at c f x = Some st /\ std_says e bs x KeyA u /\ matches (op_arch op) (as_row st) u /\
       forall k u', std_says e bs x k u' -> k = KeyA /\ u' = u) /\
  forall x k u, std_says e bs x k u -> exists f, last_at eh f /\ in_range (df_start f) (df_len f) x.
Proof. exact down_standard. Qed.
Print Assumptions C160_standard.

(** Ordinary programs are converted all the way (C124). *)
Theorem C160_programs : forall md md' op eh e,
  eh_typed eh -> ents_end (eh_entries eh) = None ->
  (forall x, In x (entries_of eh) -> match x with DwCie => True | DwBadFde _ => False
     | DwGoodFde f => ordinary op eh f /\ dump_fine md op f end) ->
  apart eh -> countable (function_count eh) (table_rows eh) ->
  (forall c f, last_at eh f -> follows_dwarf c f -> downward_program (op_arch op) c f) ->
  exists s bs, dwarf2sframe md op eh = Ok s /\ build md' e s = Ok bs /\
    zlen bs <= 28 + 20 * function_count eh + 17 * table_rows eh /\
    forall md'', wf_mode md'' -> rust_slice md'' bs ->
    exists sf, load md'' e bs = Ok sf /\
      (forall c f x, last_at eh f -> follows_dwarf c f -> in_range (df_start f) (df_len f) x ->
         exists st u, cfi_at c f x = Some st /\ section_says md'' e sf x u /\ matches (op_arch op) (as_row st) u /\
           forall u', section_says md'' e sf x u' -> u' = u) /\
      (forall x u, section_says md'' e sf x u -> exists f, last_at eh f /\ in_range (df_start f) (df_len f) x).
Proof. exact down_programs. Qed.
Print Assumptions C160_programs.

Theorem C160_first_programs : forall md md' p ents e,
  ents_typed ents -> ents_end ents = None ->
  (forall x, In x (ents_list ents) -> match x with DwCie => True | DwBadFde _ => False | DwGoodFde f => v1_ordinary p f end) ->
  apart (in_eh ents) -> countable (function_count (in_eh ents)) (v1_rows_total ents) ->
  (forall c f, v1_last ents f -> follows_dwarf c f -> downward_program Amd64 c f) ->
  exists s bs, v1_convert md p ents = Ok s /\ build md' e s = Ok bs /\
    zlen bs <= 28 + 20 * function_count (in_eh ents) + 17 * v1_rows_total ents /\
    forall md'', wf_mode md'' -> rust_slice md'' bs ->
    exists sf, load md'' e bs = Ok sf /\
      (forall c f x, v1_last ents f -> follows_dwarf c f -> in_range (df_start f) (df_len f) x ->
         exists st u, cfi_at c f x = Some st /\ section_says md'' e sf x u /\
           (forall base cfa ra fp, v1_representable (as_row st) base cfa ra fp -> u = Unwind base false (Some cfa) (Some ra) fp) /\
           ((forall base cfa ra fp, ~ v1_representable (as_row st) base cfa ra fp) -> uw_cfa u = None /\ uw_mangled u = false) /\
           forall u', section_says md'' e sf x u' -> u' = u) /\
      (forall x u, section_says md'' e sf x u -> exists f, v1_last ents f /\ in_range (df_start f) (df_len f) x).
Proof. exact down_v1_programs. Qed.
Print Assumptions C160_first_programs.

(** And the dump shows what they say (C126). *)
Theorem C160_dumped : forall md md' args file a parse addr abi_name,
  let eh := file_eh md file parse in let op := cli_options args a (elf_endian file) in
  file_typed file -> arch_of (elf_architecture file) = Some a -> elf_eh_frame file = Some parse ->
  has_section (elf_sections file) ".eh_frame"%string addr -> ents_end (eh_entries eh) = None ->
  (forall x, In x (entries_of eh) -> match x with DwCie => True | DwBadFde _ => False
     | DwGoodFde f => ordinary op eh f /\ dump_fine md op f /\ ends_in_range f end) ->
  apart eh -> countable (function_count eh) (table_rows eh) ->
  (forall c f, last_at eh f -> follows_dwarf c f -> downward_program a c f) ->
  wf_mode md' -> (forall n, without newline_char (abi_name n)) ->
  exists out, dwarf2sframe2_main md args (Some file) = Ok out /\
    zlen (out_sframe out) <= 28 + 20 * function_count eh + 17 * table_rows eh /\
    forall dumped, holds_section dumped out -> rust_slice md' (out_sframe out) ->
    exists l h rest, sframedump_main md' (endian_of (elf_endian file)) (Some dumped) = Ok l /\
      read_dump (stdout_text abi_name l) = Some (h, rest) /\ stderr_text l = ""%string /\
      (forall c f x, last_at eh f -> follows_dwarf c f -> in_range (df_start f) (df_len f) x ->
         exists st u, cfi_at c f x = Some st /\ matches a (as_row st) u /\ dump_says rest x (looks u) /\
           forall v, dump_says rest x v -> v = looks u) /\
      forall x v, dump_says rest x v -> exists f, last_at eh f /\ in_range (df_start f) (df_len f) x.
Proof. exact down_pipeline. Qed.
Print Assumptions C160_dumped.

(** Stacks are walked as the programs say (C153). *)
Theorem C160_walked : forall md md' md'' op eh s e bs cie column w,
  eh_typed eh -> dwarf2sframe md op eh = Ok s -> build md' e s = Ok bs -> wf_mode md'' -> rust_slice md'' bs ->
  programs_followed eh cie ->
  (forall f, last_at eh f -> downward_program (op_arch op) (cie f) f /\
     forall x st, in_range (df_start f) (df_len f) x -> cfi_at (cie f) f x = Some st -> plain_row (op_arch op) (as_row st) (column f)) ->
  (exists sf, load md'' e bs = Ok sf /\ same_walks w (op_arch op) (cfi_says eh cie column) (section_says md'' e sf)) /\
  same_walks w (op_arch op) (cfi_says eh cie column) (std_tells e bs).
Proof. exact down_walks. Qed.
Print Assumptions C160_walked.

(** Whether a program is such a one is seen from its rows. *)
Theorem C160_table : forall a c f,
  0 <= df_len f -> follows_dwarf c f -> (forall r, In r (wide_rows f) -> downward_row a r) -> downward_program a c f.
Proof. exact downward_table. Qed.
Print Assumptions C160_table.

(** Offsets at the edges of both widths; and a row of C49, which is not such a row. *)
Example C160_case : forall e,
  eh_typed dn_eh /\ dwarf2sframe rel64 arm dn_eh = Ok dn_sfb /\ build rel64 e dn_sfb = Ok (dn_bytes e) /\
  wf_mode dev32 /\ rust_slice dev32 (dn_bytes e) /\ fixed_ra_of arm dn_eh = None /\
  (forall f, last_at dn_eh f -> rows_disjoint f /\ (exists c, follows_dwarf c f) /\
     forall r, In r (wide_rows f) -> downward_row (op_arch arm) r) /\
  dwarf_says dn_eh 0x1010 (DwRow 0x1008 0x1020 (CfaReg 31 32768) [(29, ROffset (-32768)); (30, ROffset (-32760))]) /\
  representable Aarch64 (DwRow 0x1008 0x1020 (CfaReg 31 32768) [(29, ROffset (-32768)); (30, ROffset (-32760))])
    Sp 32768 (-32760) (Some (-32768)) /\
  representable Aarch64 (DwRow 0x1004 0x1008 (CfaReg 31 128) [(29, ROffset (-128)); (30, ROffset (-120))])
    Sp 128 (-120) (Some (-128)) /\
  ~ downward_row Aarch64 tied_dw /\ clash Aarch64 None tied_dw.
Proof. exact dn_case. Qed.

Example C160_written_case : 
  sfb_sized rel64 dn_sfb /\
  (forall b r, In b (fdes_of dn_sfb) -> In r (rows_of b) -> downward_written r /\ ~ ambiguous (sb_options dn_sfb) r) /\
  exists b r o, In b (fdes_of dn_sfb) /\ In r (rows_of b) /\ r_offsets r = Some o /\ ro_cfa o = 128 /\ ro_fp o = Some (-128).
Proof. exact dn_written_case. Qed.

Example C160_programs_case : 
  eh_typed eh_two /\ ents_end (eh_entries eh_two) = None /\
  (forall x, In x (entries_of eh_two) -> match x with DwCie => True | DwBadFde _ => False
     | DwGoodFde f => (ordinary amd eh_two f /\ dump_fine rel64 amd f) /\ v1_ordinary v1_any f end) /\
  apart eh_two /\ countable (function_count eh_two) (table_rows eh_two) /\
  countable (function_count eh_two) (v1_rows_total (eh_entries eh_two)) /\
  (forall c f, last_at eh_two f -> follows_dwarf c f -> downward_program Amd64 c f) /\
  last_at eh_two fn_push /\ follows_dwarf cie_amd fn_push /\
  exists st, cfi_at cie_amd fn_push 0x1010 = Some st /\ cs_cfa st = Some (CfaReg 6 16).
Proof. exact dn_programs_case. Qed.

Example C160_first_case : 
  ents_typed (eh_entries eh_two) /\ (exists s bs, v1_convert rel64 v1_any (eh_entries eh_two) = Ok s /\ build rel64 LE s = Ok bs /\
    rust_slice dev32 bs) /\
  (forall f r, v1_last (eh_entries eh_two) f -> In r (dw_rows_of f) -> downward_row Amd64 r) /\
  v1_last (eh_entries eh_two) fn_push.
Proof. exact dn_v1_case. Qed.

Example C160_dumped_case : 
  let eh := file_eh rel64 two_file (fun _ => eh_entries eh_two) in let op := cli_options no_flags Amd64 RtLittle in
  file_typed two_file /\ (exists addr, has_section (elf_sections two_file) ".eh_frame"%string addr) /\ ents_end (eh_entries eh) = None /\
  (forall x, In x (entries_of eh) -> match x with DwCie => True | DwBadFde _ => False
     | DwGoodFde f => ordinary op eh f /\ dump_fine rel64 op f /\ ends_in_range f end) /\
  apart eh /\ countable (function_count eh) (table_rows eh) /\
  (forall c f, last_at eh f -> follows_dwarf c f -> downward_program Amd64 c f) /\
  (forall n, without newline_char (some_abi n)) /\
  dwarf2sframe2_main rel64 no_flags (Some two_file) = Ok two_out /\ holds_section (object_file two_out) two_out /\
  wf_mode dev32 /\ rust_slice dev32 (out_sframe two_out) /\
  last_at eh fn_push /\ follows_dwarf cie_amd fn_push /\ in_range (df_start fn_push) (df_len fn_push) 0x1010 /\
  sframedump_main dev32 LE (Some (object_file two_out)) = Ok two_dump /\ stdout_text some_abi two_dump = two_text /\
  dump_says (skipn 3 two_dump) 0x1010 (Shown (CellBase Fp 16) (CellCfa (-16)) (CellCfa (-8)) false).
Proof. exact dn_pipe_case. Qed.

Example C160_walked_case :
  eh_typed eh_two /\ dwarf2sframe rel64 amd eh_two = Ok two_sfb /\ build rel64 LE two_sfb = Ok two_section /\
  wf_mode rel64 /\ rust_slice rel64 two_section /\ programs_followed eh_two amd_cie /\
  (forall f, last_at eh_two f -> downward_program Amd64 (amd_cie f) f /\
     forall x st, in_range (df_start f) (df_len f) x -> cfi_at (amd_cie f) f x = Some st -> plain_row Amd64 (as_row st) (amd_column f)) /\
  same_point_exact Amd64 two_start (SfFrame true 0x1024 0x100 (Some 0x200)) /\
  exists l, walk (dw_step two_world Amd64 (cfi_says eh_two amd_cie amd_column)) two_start l /\ map dx_pc l = [0x1011; 0x5].
Proof. exact dn_walks_case. Qed.
