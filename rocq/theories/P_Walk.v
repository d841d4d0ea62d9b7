(** Stack walks: properties C94 to C96. *)
From Verif Require Import ConvWitness ToolsWitness WalkSpec WalkFacts WalkWitness.

(** * C94 A stack is walked with the converted section as with DWARF *)

(** Whatever the machine and the stack, and whatever DWARF says of the registers:

      forall md md' md'' op eh s e bs column w,
        eh_typed eh -> dwarf2sframe md op eh = Ok s -> build md' e s = Ok bs -> wf_mode md'' -> rust_slice md'' bs ->
        (forall f, last_at eh f -> rows_disjoint f /\ rows_cover f /\
           forall r, In r (wide_rows f) -> ~ clash (op_arch op) (fixed_ra_of op eh) r) ->
        exists sf, load md'' e bs = Ok sf /\
          same_walks w (op_arch op) (dw_says eh column) (section_says md'' e sf)

    It is false in three ways. *)

(** A rule for the stack pointer is not looked at. *)
Theorem C94_sp_rule_refuted :
  eh_typed (of_rows switch_rows) /\ dwarf2sframe rel64 amd (of_rows switch_rows) = Ok switch_sfb /\
  build rel64 LE switch_sfb = Ok switch_bytes /\ load rel64 LE switch_bytes = Ok switch_sf /\
  (forall f, last_at (of_rows switch_rows) f -> rows_disjoint f /\ rows_cover f /\
     forall r, In r (wide_rows f) -> ~ clash Amd64 (fixed_ra_of amd (of_rows switch_rows)) r /\
       amd_column f = reg_ra Amd64 /\ ~ signed_row Amd64 r) /\
  (exists l, walk (dw_step switch_world Amd64 (dw_says (of_rows switch_rows) amd_column)) switch_start l /\
     map dx_pc l = [0x2004; 0x1005]) /\
  walk (sf_step switch_world (section_says rel64 LE switch_sf)) (SfFrame true 0x1004 0x100 (Some 0x40)) switch_walk /\
  map sx_pc switch_walk = [0x2004; 0x8000] /\
  ~ same_walks switch_world Amd64 (dw_says (of_rows switch_rows) amd_column) (section_says rel64 LE switch_sf).
Proof. exact sp_rule_lost. Qed.
Print Assumptions C94_sp_rule_refuted.

(** Nor is the return address register that the CIE names. *)
Theorem C94_column_refuted :
  eh_typed (of_rows [column_row]) /\ dwarf2sframe rel64 amd (of_rows [column_row]) = Ok column_sfb /\
  build rel64 LE column_sfb = Ok column_bytes /\ load rel64 LE column_bytes = Ok column_sf /\
  (forall f, last_at (of_rows [column_row]) f -> rows_disjoint f /\ rows_cover f /\
     forall r, In r (wide_rows f) -> ~ clash Amd64 (fixed_ra_of amd (of_rows [column_row])) r /\
       dr_register r (reg_sp Amd64) = RUndefined /\ ~ signed_row Amd64 r) /\
  (exists y, dw_step column_world Amd64 (dw_says (of_rows [column_row]) column_17) column_start y /\ dx_pc y = 0x1008) /\
  sf_step column_world (section_says rel64 LE column_sf) (SfFrame true 0x1004 0x100 (Some 0x40))
    (SfFrame false 0x7777 0x118 (Some 0x40)) /\
  ~ same_walks column_world Amd64 (dw_says (of_rows [column_row]) column_17) (section_says rel64 LE column_sf).
Proof. exact column_ignored. Qed.
Print Assumptions C94_column_refuted.

(** Nor whether the return address is signed. *)
Theorem C94_signed_refuted :
  eh_typed (of_rows [signed_dw]) /\ dwarf2sframe rel64 arm (of_rows [signed_dw]) = Ok signed_walk_sfb /\
  build rel64 LE signed_walk_sfb = Ok signed_walk_bytes /\ load rel64 LE signed_walk_bytes = Ok signed_walk_sf /\
  (forall f, last_at (of_rows [signed_dw]) f -> rows_disjoint f /\ rows_cover f /\
     forall r, In r (wide_rows f) -> ~ clash Aarch64 (fixed_ra_of arm (of_rows [signed_dw])) r /\
       dr_register r (reg_sp Aarch64) = RUndefined /\ arm_column f = reg_ra Aarch64) /\
  (exists y, dw_step signed_world Aarch64 (dw_says (of_rows [signed_dw]) arm_column) signed_start y /\ dx_pc y = 0x1008) /\
  sf_step signed_world (section_says rel64 LE signed_walk_sf) (SfFrame true 0x1004 0x100 (Some 0x140))
    (SfFrame false signed_pc 0x110 (Some 0x180)) /\
  ~ same_walks signed_world Aarch64 (dw_says (of_rows [signed_dw]) arm_column) (section_says rel64 LE signed_walk_sf).
Proof. exact signature_kept. Qed.
Print Assumptions C94_signed_refuted.

(** Missing: rows with one of these three ([plain_row]). *)
Theorem C94_walks_partial : forall md md' md'' op eh s e bs column w,
  eh_typed eh -> dwarf2sframe md op eh = Ok s -> build md' e s = Ok bs -> wf_mode md'' -> rust_slice md'' bs ->
  (forall f, last_at eh f -> rows_disjoint f /\ rows_cover f /\
     forall r, In r (wide_rows f) -> ~ clash (op_arch op) (fixed_ra_of op eh) r /\ plain_row (op_arch op) r (column f)) ->
  exists sf, load md'' e bs = Ok sf /\
    same_walks w (op_arch op) (dw_says eh column) (section_says md'' e sf).
Proof. exact conv_walks. Qed.
Print Assumptions C94_walks_partial.

(** From a function with a frame pointer through a PLT to a row that SFrame cannot
    express: DWARF has one frame more. *)
Example C94_case : eh_typed sample /\ dwarf2sframe rel64 amd sample = Ok sample_sfb /\
  build rel64 LE sample_sfb = Ok (sample_bytes LE) /\ wf_mode rel64 /\ rust_slice rel64 (sample_bytes LE) /\
  (forall f, last_at sample f -> rows_disjoint f /\ rows_cover f /\
     forall r, In r (wide_rows f) -> ~ clash Amd64 (fixed_ra_of amd sample) r /\ plain_row Amd64 r (amd_column f)) /\
  (exists l, walk (dw_step sample_world Amd64 (dw_says sample amd_column)) sample_start l /\
     map dx_pc l = [0x2009; 0x2021; 0x1011]) /\
  exists m, walk (sf_step sample_world (section_says rel64 LE sample_sf)) (SfFrame true 0x1010 0x100 (Some 0x200)) m /\
    map sx_pc m = [0x2009; 0x2021].
Proof. exact sample_walks. Qed.

(** * C95 The same for the first-generation tool *)

(** As above, with [v1_convert] for [dwarf2sframe] and [v1_clash] for [clash].  It
    is false for yet another reason. *)
(** A rule for RBP that SFrame cannot express is dropped, and with it the row above. *)
Theorem C95_fp_rule_refuted :
  eh_typed (of_rows moved_rows) /\ v1_convert rel64 all_print (eh_entries (of_rows moved_rows)) = Ok moved_sfb /\
  build rel64 LE moved_sfb = Ok moved_bytes /\ load rel64 LE moved_bytes = Ok moved_sf /\
  (forall f, last_at (of_rows moved_rows) f -> rows_disjoint f /\ rows_cover f /\
     forall r, In r (wide_rows f) -> ~ v1_clash r /\ plain_row Amd64 r (amd_column f)) /\
  (exists l, walk (dw_step moved_world Amd64 (dw_says (of_rows moved_rows) amd_column)) moved_start l /\
     map dx_pc l = [0x2004; 0x1005]) /\
  walk (sf_step moved_world (section_says rel64 LE moved_sf)) (SfFrame true 0x1004 0x100 (Some 0x40)) moved_walk /\
  map sx_pc moved_walk = [0x2004; 0x7777] /\
  ~ same_walks moved_world Amd64 (dw_says (of_rows moved_rows) amd_column) (section_says rel64 LE moved_sf).
Proof. exact fp_rule_dropped. Qed.
Print Assumptions C95_fp_rule_refuted.

(** Missing: the rows of C94, and those with such a rule ([plain_fp]). *)
Theorem C95_walks_partial : forall md md' md'' p eh s e bs column w,
  eh_typed eh -> v1_convert md p (eh_entries eh) = Ok s -> build md' e s = Ok bs -> wf_mode md'' -> rust_slice md'' bs ->
  (forall f, last_at eh f -> rows_disjoint f /\ rows_cover f /\
     forall r, In r (dw_rows_of f) -> wide r /\ ~ v1_clash r /\ plain_row Amd64 r (column f) /\ plain_fp r) ->
  exists sf, load md'' e bs = Ok sf /\
    same_walks w Amd64 (dw_says eh column) (section_says md'' e sf).
Proof. exact v1_walks. Qed.
Print Assumptions C95_walks_partial.

Example C95_case : eh_typed v1_walk_eh /\ v1_convert rel64 all_print (eh_entries v1_walk_eh) = Ok v1_walk_sfb /\
  build rel64 LE v1_walk_sfb = Ok v1_walk_bytes /\ wf_mode rel64 /\ rust_slice rel64 v1_walk_bytes /\
  zlen v1_walk_bytes = 96 /\
  (forall f, last_at v1_walk_eh f -> rows_disjoint f /\ rows_cover f /\
     forall r, In r (dw_rows_of f) -> wide r /\ ~ v1_clash r /\ plain_row Amd64 r (amd_column f) /\ plain_fp r) /\
  exists l, walk (dw_step sample_world Amd64 (dw_says v1_walk_eh amd_column)) sample_start l /\
    map dx_pc l = [0x2009; 0x2021; 0x1011].
Proof. exact v1_walks_case. Qed.

(** * C96 Both converters produce equivalent sections *)

(** In full: under the conditions of the theorem below,

      forall a u1 u2, section_says md' e1 sf1 a u1 -> section_says md' e2 sf2 a u2 -> agree u1 u2 *)

(** RBP in another register: one says how to go on, the other that there is no way. *)
Theorem C96_equivalent_refuted :
  eh_typed (of_rows moved_rows) /\ v1_convert rel64 all_print (eh_entries (of_rows moved_rows)) = Ok moved_sfb /\
  dwarf2sframe rel64 amd (of_rows moved_rows) = Ok moved_sfb2 /\
  build rel64 LE moved_sfb = Ok moved_bytes /\ build rel64 LE moved_sfb2 = Ok moved_bytes2 /\
  wf_mode rel64 /\ rust_slice rel64 moved_bytes /\ rust_slice rel64 moved_bytes2 /\
  (forall f r, last_at (of_rows moved_rows) f -> In r (dw_rows_of f) -> wide r /\ ~ v1_clash r /\
     ~ clash Amd64 (fixed_ra_of amd (of_rows moved_rows)) r) /\
  load rel64 LE moved_bytes = Ok moved_sf /\ load rel64 LE moved_bytes2 = Ok moved_sf2 /\
  exists u1 u2, section_says rel64 LE moved_sf 0x1004 u1 /\ section_says rel64 LE moved_sf2 0x1004 u2 /\ ~ agree u1 u2 /\
    (forall u, section_says rel64 LE moved_sf 0x2004 u <-> section_says rel64 LE moved_sf2 0x2004 u).
Proof. exact converters_disagree. Qed.
Print Assumptions C96_equivalent_refuted.

(** Missing: rows whose rule for the frame pointer SFrame cannot express. *)
Theorem C96_equivalent_partial : forall md md1 md2 md' op p eh s1 s2 e1 e2 bs1 bs2, op_arch op = Amd64 ->
  eh_typed eh -> v1_convert md p (eh_entries eh) = Ok s1 -> dwarf2sframe md op eh = Ok s2 ->
  build md1 e1 s1 = Ok bs1 -> build md2 e2 s2 = Ok bs2 -> wf_mode md' -> rust_slice md' bs1 -> rust_slice md' bs2 ->
  (forall f r, last_at eh f -> In r (dw_rows_of f) -> wide r /\ ~ v1_clash r /\ ~ clash Amd64 (fixed_ra_of op eh) r) ->
  exists sf1 sf2, load md' e1 bs1 = Ok sf1 /\ load md' e2 bs2 = Ok sf2 /\
    (forall a f r, last_at eh f -> in_range (df_start f) (df_len f) a -> current_row f a r ->
       exists u1 u2, section_says md' e1 sf1 a u1 /\ section_says md' e2 sf2 a u2 /\
         (agree u1 u2 \/ odd_fp_rule r /\ uw_cfa u1 <> None /\ uw_fp u1 = None /\ uw_cfa u2 = None)) /\
    (forall a, (exists u1, section_says md' e1 sf1 a u1) <-> exists u2, section_says md' e2 sf2 a u2) /\
    (forall a u1 u2, section_says md' e1 sf1 a u1 -> section_says md' e2 sf2 a u2 -> agree u1 u2 \/
       exists f r, last_at eh f /\ in_range (df_start f) (df_len f) a /\ In r (dw_rows_of f) /\ odd_fp_rule r /\
         uw_cfa u1 <> None /\ uw_fp u1 = None /\ uw_cfa u2 = None).
Proof. exact both_agree. Qed.
Print Assumptions C96_equivalent_partial.

(** The first theorem shows sections that meet the conditions, and what both say
    of their second function. *)
