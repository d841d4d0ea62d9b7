(** C49, C50, C51, C54, C80, C81, C94 and C142 with seven small repairs of the second
    converter: what would have to be changed. *)
From Verif Require Import ConvRepairedWitness.
From Verif Require Import ConvProps ConvWitness ToolsProps ToolsWitness WalkWitness.

(** * C94 A stack is walked with the converted section as with DWARF *)

(** A program is converted with the repairs of [ConvRepaired.v], written with those of
    [WriteRepaired.v] and looked up with those of [ReadRepaired.v].  Then the walks are the
    same until SFrame cannot tell, and there the look-up says so.  Nothing is assumed of the
    rules for the stack pointer, of the return address column, of signed return addresses or
    of tied offsets. *)
Theorem C94_repaired_partial : forall md md' md'' op c eh s e bs w, eh_typed eh -> dwarf2sframe_repaired md op c eh = Ok s ->
  build_repaired md' e s = Ok bs -> wf_mode md'' -> rust_slice md'' bs ->
  (forall f, last_at eh f -> rows_disjoint f /\ rows_cover f) ->
  exists sf, load md'' e bs = Ok sf /\
    same_link_walks w (op_arch op) (dw_says eh c) (looked_up_whole md'' e sf).
Proof. exact repaired_walks. Qed.
Print Assumptions C94_repaired_partial.

(** A leaf function is called by one that signs its return address, that by one with tied
    offsets, and that by one whose CFA is not in SP or FP. *)
Theorem C94_repaired_case :
  eh_typed kinds /\ dwarf2sframe_repaired rel64 arm column_30 kinds = Ok kinds_sfb /\
  build_repaired rel64 LE kinds_sfb = Ok kinds_bytes /\ load rel64 LE kinds_bytes = Ok kinds_sf /\
  wf_mode rel64 /\ rust_slice rel64 kinds_bytes /\
  (forall f, last_at kinds f -> rows_disjoint f /\ rows_cover f) /\
  same_link_point_exact Aarch64 kinds_start (LkFrame true 0x1004 0x100 (Some 0x40) (Some 0x2009)) /\
  (exists l, walk (dw_step kinds_world Aarch64 (dw_says kinds column_30)) kinds_start l /\
     map dx_pc l = [0x2009; 0x3005; 0x4005; 0x1005]) /\
  (exists m, walk (lk_step kinds_world (looked_up_whole rel64 LE kinds_sf)) (LkFrame true 0x1004 0x100 (Some 0x40) (Some 0x2009)) m /\
     map lx_pc m = [0x2009; 0x3005; 0x4005]) /\
  dw_says kinds column_30 0x4004 kinds_other 30 /\ inexpressible Aarch64 kinds_other 30.
Proof. exact kinds_case. Qed.
Print Assumptions C94_repaired_case.

(** Without the repairs this is the converter as it is, and where the converter is right
    already they change nothing. *)
Theorem C94_unrepaired_partial : forall md op c eh,
  dwarf2sframe_with no_cfixes md op c eh = as_before (dwarf2sframe md op eh).
Proof. exact conv_unrepaired. Qed.
Print Assumptions C94_unrepaired_partial.

Theorem C94_repaired_same_partial : forall md op c eh s, eh_typed eh -> conv_untouched op c eh ->
  dwarf2sframe md op eh = Ok s -> dwarf2sframe_repaired md op c eh = Ok s.
Proof. exact conv_repaired_same. Qed.
Print Assumptions C94_repaired_same_partial.

Theorem C94_repaired_same_case : eh_typed sample /\ conv_untouched amd amd_column sample /\
  dwarf2sframe rel64 amd sample = Ok sample_sfb /\ length (fdes_of sample_sfb) = 2%nat.
Proof. exact xsame_case. Qed.
Print Assumptions C94_repaired_same_case.

(** Each of the seven is needed. *)
Theorem C94_needed_refuted :
  missaid but_sp rel64 LE amd amd_column (of_rows switch_rows) 0x1004 switch_row /\
  missaid but_column rel64 LE amd column_17 (of_rows [column_row]) 0x1004 column_row /\
  missaid but_sign rel64 LE arm column_30 kinds 0x2008 kinds_signed /\
  missaid but_link rel64 LE arm column_30 kinds 0x1004 kinds_leaf /\
  (eh_typed ra_elsewhere /\ dwarf2sframe_with but_reject rel64 amd amd_column ra_elsewhere = Panic) /\
  missaid but_end rel64 LE amd amd_column (of_rows [beyond_row]) (i32_max + 1) beyond_row /\
  (eh_typed bad_expression /\
   dwarf2sframe_with but_dump rel64 (set_debugdump true amd) amd_column bad_expression <>
   dwarf2sframe_with but_dump rel64 amd amd_column bad_expression).
Proof. exact conv_each_needed. Qed.
Print Assumptions C94_needed_refuted.

(** * C142 A stack is walked by looking addresses up as with DWARF *)

(** The walk above uses nothing but look-ups. *)
Theorem C142_whole_repaired_partial : forall md md' md'' op c eh s e bs w, eh_typed eh ->
  dwarf2sframe_repaired md op c eh = Ok s -> build_repaired md' e s = Ok bs -> wf_mode md'' -> rust_slice md'' bs ->
  (forall f, last_at eh f -> rows_disjoint f /\ rows_cover f) ->
  exists sf, load md'' e bs = Ok sf /\
    same_link_walks w (op_arch op) (dw_says eh c) (looked_up_whole md'' e sf).
Proof. exact repaired_walks. Qed.
Print Assumptions C142_whole_repaired_partial.

(** * C49 Conversion preserves unwinding end to end *)

(** For every row, also one with tied offsets, and for look-ups. *)
Theorem C49_repaired_partial : forall md md' md'' op c eh s e bs, eh_typed eh -> dwarf2sframe_repaired md op c eh = Ok s ->
  build_repaired md' e s = Ok bs -> wf_mode md'' -> rust_slice md'' bs ->
  (forall f, last_at eh f -> rows_disjoint f) ->
  exists sf, load md'' e bs = Ok sf /\
    (forall x r k, dw_says eh c x r k -> exists u, looked_up_whole md'' e sf x u /\ conveys (op_arch op) r k u) /\
    (forall x u, looked_up_whole md'' e sf x u ->
       exists f r, last_at eh f /\ in_range (df_start f) (df_len f) x /\ In r (wide_rows f) /\ dr_start r <= x) /\
    (forall x, in_i32 x -> lookup_key all_rfixes md'' e sf x = Ok None \/
       exists u, lookup_key all_rfixes md'' e sf x = Ok (Some (KeyA, u))).
Proof. exact repaired_end_to_end. Qed.
Print Assumptions C49_repaired_partial.

(** A converted section can be written unless functions overlap or it is too large. *)
Theorem C49_repaired_builds_partial : forall md md' op c eh s e, eh_typed eh -> dwarf2sframe_repaired md op c eh = Ok s ->
  (build_repaired md' e s = Err (Emitting OverlappingFdes) <-> functions_overlap eh) /\
  (build_repaired md' e s = Err (Emitting SectionTooLarge) <-> ~ functions_overlap eh /\ exact_too_large s) /\
  ((exists bs, build_repaired md' e s = Ok bs) <-> ~ functions_overlap eh /\ ~ exact_too_large s) /\
  build_repaired md' e s <> Err CannotBeSaid /\ build_repaired md' e s <> Panic.
Proof. exact repaired_builds. Qed.
Print Assumptions C49_repaired_builds_partial.

Theorem C49_repaired_case :
  eh_typed kinds /\ dwarf2sframe_repaired rel64 arm column_30 kinds = Ok kinds_sfb /\
  build_repaired rel64 LE kinds_sfb = Ok kinds_bytes /\ wf_mode rel64 /\ rust_slice rel64 kinds_bytes /\
  (forall f, last_at kinds f -> rows_disjoint f) /\ load rel64 LE kinds_bytes = Ok kinds_sf /\
  (dw_says kinds column_30 0x1004 kinds_leaf 30 /\ link_row kinds_leaf Sp 0 /\
   looked_up_whole rel64 LE kinds_sf 0x1004 (Unwind Sp false (Some 0) None None)) /\
  (dw_says kinds column_30 0x2008 kinds_signed 30 /\ signed_row Aarch64 kinds_signed /\ ~ inexpressible Aarch64 kinds_signed 30 /\
   looked_up_whole rel64 LE kinds_sf 0x2008 (Unwind Sp true (Some 16) (Some (-8)) (Some (-16)))) /\
  (dw_says kinds column_30 0x3004 kinds_tied 30 /\ clash Aarch64 (fixed_ra_of arm kinds) kinds_tied /\
   looked_up_whole rel64 LE kinds_sf 0x3004 (Unwind Sp false (Some (-128)) (Some 128) None)) /\
  (dw_says kinds column_30 0x4004 kinds_other 30 /\ inexpressible Aarch64 kinds_other 30 /\
   looked_up_whole rel64 LE kinds_sf 0x4004 (Unwind Fp false None None None)).
Proof. exact kinds_lookups. Qed.
Print Assumptions C49_repaired_case.

Theorem C49_repaired_builds_case :
  (eh_typed (of_rows overlap_rows) /\ dwarf2sframe_repaired rel64 amd amd_column (of_rows overlap_rows) = Ok overlap_sfb /\
   functions_overlap (of_rows overlap_rows)) /\
  (eh_typed kinds /\ dwarf2sframe_repaired rel64 arm column_30 kinds = Ok kinds_sfb /\ ~ functions_overlap kinds /\
   ~ exact_too_large kinds_sfb).
Proof. exact xbuilds_case. Qed.
Print Assumptions C49_repaired_builds_case.

(** * C50 The converter reports bad input as an error, never a panic *)

(** It succeeds exactly if nothing is at fault, reports the first fault otherwise, and never
    panics; in every profile. *)
Theorem C50_repaired_partial : forall md op c eh, eh_typed eh ->
  ((exists s, dwarf2sframe_repaired md op c eh = Ok s) <-> section_faultless op c eh) /\
  (forall er, dwarf2sframe_repaired md op c eh = Err er <-> section_fault op c eh er) /\
  dwarf2sframe_repaired md op c eh <> Panic.
Proof. exact repaired_outcome. Qed.
Print Assumptions C50_repaired_partial.

(** The inputs on which the converter panics now. *)
Theorem C50_repaired_case :
  Forall eh_typed [ra_elsewhere; row_outside; row_twice; row_far; row_in_front] /\
  forall md, dwarf2sframe_repaired md amd amd_column ra_elsewhere = Err (RowRefused 0x1000 UnexpectedRaOffset) /\
    dwarf2sframe_repaired md amd amd_column row_outside = Err (RowRefused 0x1020 StartAddressOutsideFde) /\
    dwarf2sframe_repaired md amd amd_column row_twice = Err (RowRefused 0x1000 DuplicateRow) /\
    dwarf2sframe_repaired md amd amd_column row_far = Err (RowRefused 0x10001000 StartAddressTooLarge) /\
    dwarf2sframe_repaired md amd amd_column row_in_front = Err (RowInFront 0xfff) /\
    dwarf2sframe_repaired md amd amd_column sample = Ok sample_sfb.
Proof. exact xerrors_case. Qed.
Print Assumptions C50_repaired_case.

(** * C51 The first unrepresentable entry stops the conversion with its error *)

(** The first entry with an error decides; on success there was none, every function lies
    within the section's range, and every function that counts is there. *)
Theorem C51_repaired_partial : forall md op c eh, eh_typed eh ->
  (forall pre x post er, entries_of eh = pre ++ x :: post ->
     Forall (entry_faultless (op_arch op) (fixed_ra_of op eh) c) pre ->
     entry_fault (op_arch op) (fixed_ra_of op eh) c x er -> dwarf2sframe_repaired md op c eh = Err er) /\
  (forall s, dwarf2sframe_repaired md op c eh = Ok s ->
     ents_end (eh_entries eh) = None /\ (forall g, ~ In (DwBadFde g) (entries_of eh)) /\
     (forall f, In (DwGoodFde f) (entries_of eh) -> fits_section f /\ exists l, df_rows f = inl (DwRows l None)) /\
     (forall f, last_at eh f -> exists b, In b (fdes_of s) /\ fb_start b = df_start f /\ fb_size b = df_len f)).
Proof. exact repaired_errors. Qed.
Print Assumptions C51_repaired_partial.

Theorem C51_repaired_case :
  eh_typed panic_first /\
  (exists x post, entries_of panic_first = [] ++ x :: post /\
     entry_fault Amd64 (fixed_ra_of amd panic_first) amd_column x (RowRefused 0x1020 StartAddressOutsideFde)) /\
  dwarf2sframe_repaired rel64 amd amd_column panic_first = Err (RowRefused 0x1020 StartAddressOutsideFde) /\
  eh_typed long_eh /\
  entry_fault Amd64 (fixed_ra_of amd long_eh) amd_column (DwGoodFde long_fn) (AsBefore (InvalidFunctionLength i32_max i32_max)) /\
  dwarf2sframe_repaired rel64 amd amd_column long_eh = Err (AsBefore (InvalidFunctionLength i32_max i32_max)).
Proof. exact xfirst_case. Qed.
Print Assumptions C51_repaired_case.

(** * C54 Diagnostics options do not change the result *)

(** Nor do the profile and merging functions. *)
Theorem C54_repaired_partial : forall md md' op op' c eh, eh_typed eh -> op_arch op' = op_arch op ->
  op_merge_fres op' = op_merge_fres op -> op_endian op' = op_endian op ->
  dwarf2sframe_repaired md op c eh = dwarf2sframe_repaired md' op' c eh.
Proof. exact repaired_same_options. Qed.
Print Assumptions C54_repaired_partial.

Theorem C54_repaired_case :
  eh_typed bad_expression /\ eh_typed dump_overflow /\
  (exists s, dwarf2sframe_repaired rel64 amd amd_column bad_expression = Ok s /\
     dwarf2sframe_repaired rel64 (set_debugdump true amd) amd_column bad_expression = Ok s) /\
  dwarf2sframe_repaired dev64 amd amd_column dump_overflow = Err (AsBefore (InvalidStartAddress (2 ^ 64 - 1))) /\
  dwarf2sframe_repaired dev64 (set_debugdump true amd) amd_column dump_overflow = Err (AsBefore (InvalidStartAddress (2 ^ 64 - 1))).
Proof. exact xoptions_case. Qed.
Print Assumptions C54_repaired_case.

(** * C80 Signed return addresses are marked *)

(** [C49_repaired_case] has such a row. *)
Theorem C80_repaired_partial : forall md md' md'' op c eh s e bs, eh_typed eh -> dwarf2sframe_repaired md op c eh = Ok s ->
  build_repaired md' e s = Ok bs -> wf_mode md'' -> rust_slice md'' bs -> (forall f, last_at eh f -> rows_disjoint f) ->
  exists sf, load md'' e bs = Ok sf /\
    forall x r k, dw_says eh c x r k -> ~ inexpressible (op_arch op) r k ->
      exists u, looked_up_whole md'' e sf x u /\ (uw_mangled u = true <-> signed_row (op_arch op) r).
Proof. exact repaired_marks. Qed.
Print Assumptions C80_repaired_partial.

(** * C81 Frames whose return address is in the link register are converted *)

(** [C49_repaired_case] has such a row. *)
Theorem C81_repaired_partial : forall md md' md'' op c eh s e bs, eh_typed eh -> dwarf2sframe_repaired md op c eh = Ok s ->
  build_repaired md' e s = Ok bs -> wf_mode md'' -> rust_slice md'' bs -> (forall f, last_at eh f -> rows_disjoint f) ->
  op_arch op = Aarch64 ->
  exists sf, load md'' e bs = Ok sf /\
    forall x r base cfa, dw_says eh c x r (reg_ra Aarch64) -> link_row r base cfa ->
      (dr_register r (reg_sp Aarch64) = RUndefined \/ dr_register r (reg_sp Aarch64) = RValOffset 0) ->
      exists m, looked_up_whole md'' e sf x (Unwind base m (Some cfa) None None) /\ (m = true <-> signed_row Aarch64 r).
Proof. exact repaired_links. Qed.
Print Assumptions C81_repaired_partial.
