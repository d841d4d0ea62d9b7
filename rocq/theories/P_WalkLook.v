(** C142: walking a stack by looking addresses up. *)
From Verif Require Import WalkLookWitness.
From Verif Require Import ConvProps ConvWitness ToolsWitness WalkWitness LookupSpec LookupWitness.

(** * C142 A stack is walked by looking addresses up as with DWARF *)

(** The full statement: for every converted program of rows that the format can express,
    unwinding by [fde_for_address] and [get_fre_for_address] goes the way unwinding by
    DWARF goes.  A program of two functions: from the first the walk does not get anywhere,
    from the second it goes to a wrong address. *)
Theorem C142_refuted :
  eh_typed sample /\ dwarf2sframe rel64 amd sample = Ok sample_sfb /\
  build rel64 LE sample_sfb = Ok (sample_bytes LE) /\ load rel64 LE (sample_bytes LE) = Ok sample_sf /\ within_i32 sample_sfb /\
  (forall f, last_at sample f -> rows_disjoint f /\ rows_cover f /\
     forall r, In r (wide_rows f) -> ~ clash Amd64 (fixed_ra_of amd sample) r /\ plain_row Amd64 r (amd_column f)) /\
  ((exists l, walk (dw_step sample_world Amd64 (dw_says sample amd_column)) sample_start l /\
      map dx_pc l = [0x2009; 0x2021; 0x1011]) /\
   forall y, ~ sf_step sample_world (looked_up no_repairs rel64 LE sample_sf) (SfFrame true 0x1010 0x100 (Some 0x200)) y) /\
  (exists y, dw_step astray_world Amd64 (dw_says sample amd_column) astray_start y /\ dx_pc y = 0x2021) /\
  walk (sf_step astray_world (looked_up no_repairs rel64 LE sample_sf)) (SfFrame true 0x2008 0x210 (Some 0x300)) astray_walk /\
  ~ same_walks astray_world Amd64 (dw_says sample amd_column) (looked_up no_repairs rel64 LE sample_sf).
Proof. exact lookups_go_astray. Qed.
Print Assumptions C142_refuted.

(** What the look-ups as they are do instead, if the rows of all functions are near their
    starts: they apply one and the same rule in every frame. *)
Theorem C142_one_rule_partial : forall md md' md'' op eh s e bs w,
  eh_typed eh -> dwarf2sframe md op eh = Ok s -> (forall f, In f (functions (entries_of eh)) -> rows_near f) ->
  build md' e s = Ok bs -> wf_mode md'' -> rust_slice md'' bs -> overflow_checks md'' = false ->
  exists sf u, load md'' e bs = Ok sf /\
    forall x l, walk (sf_step w (looked_up no_repairs md'' e sf)) x l -> walk (sf_step w (fun _ v => v = u)) x l.
Proof. exact conv_look_one_rule. Qed.
Print Assumptions C142_one_rule_partial.

Theorem C142_one_rule_case : forall e, eh_typed sample /\ dwarf2sframe rel64 amd sample = Ok sample_sfb /\
  (forall f, In f (functions (entries_of sample)) -> rows_near f) /\
  build rel64 e sample_sfb = Ok (sample_bytes e) /\ wf_mode rel64 /\ rust_slice rel64 (sample_bytes e) /\
  near rel64 sample_sfb 0x2003 /\
  dwarf_says sample 0x2003 (amd_row 0x2000 0x2006 7 16 RUndefined) /\
  lookup rel64 e (get_ok dummy_sf (load rel64 e (sample_bytes e))) 0x2003 = Ok (Some (Unwind Sp false (Some 8) (Some (-8)) None)).
Proof. exact sample_answers. Qed.

(** Programs of one function with one row are walked as with DWARF. *)
Theorem C142_one_row_partial : forall md md' md'' op eh s e bs column w,
  eh_typed eh -> dwarf2sframe md op eh = Ok s -> build md' e s = Ok bs -> wf_mode md'' -> rust_slice md'' bs -> within_i32 s ->
  overflow_checks md'' = false -> only_one_row s ->
  (forall f, last_at eh f -> rows_disjoint f /\ rows_cover f /\
     forall r, In r (wide_rows f) -> ~ clash (op_arch op) (fixed_ra_of op eh) r /\ plain_row (op_arch op) r (column f)) ->
  exists sf, load md'' e bs = Ok sf /\
    same_walks w (op_arch op) (dw_says eh column) (looked_up no_repairs md'' e sf).
Proof. exact conv_one_row_walks. Qed.
Print Assumptions C142_one_row_partial.

Theorem C142_one_row_case :
  eh_typed leaf_eh /\ dwarf2sframe rel64 amd leaf_eh = Ok leaf_sfb /\
  build rel64 LE leaf_sfb = Ok leaf_bytes /\ wf_mode rel64 /\ rust_slice rel64 leaf_bytes /\ within_i32 leaf_sfb /\
  overflow_checks rel64 = false /\ only_one_row leaf_sfb /\
  (forall f, last_at leaf_eh f -> rows_disjoint f /\ rows_cover f /\
     forall r, In r (wide_rows f) -> ~ clash Amd64 (fixed_ra_of amd leaf_eh) r /\ plain_row Amd64 r (amd_column f)) /\
  exists m, walk (sf_step leaf_world (looked_up no_repairs rel64 LE leaf_sf)) (SfFrame true 0x1004 0x100 (Some 0x200)) m /\
    map sx_pc m = [0x1005; 0x1009].
Proof. exact one_row_case. Qed.

(** With the repairs of [Repaired.v] made to the reader (see C65) all programs of plain rows
    are, for both converters. *)
Theorem C142_repaired_partial : forall md md' md'' op eh s e bs column w,
  eh_typed eh -> dwarf2sframe md op eh = Ok s -> build md' e s = Ok bs -> wf_mode md'' -> rust_slice md'' bs -> within_i32 s ->
  (forall f, last_at eh f -> rows_disjoint f /\ rows_cover f /\
     forall r, In r (wide_rows f) -> ~ clash (op_arch op) (fixed_ra_of op eh) r /\ plain_row (op_arch op) r (column f)) ->
  exists sf, load md'' e bs = Ok sf /\
    same_walks w (op_arch op) (dw_says eh column) (looked_up all_repairs md'' e sf).
Proof. exact conv_look_walks. Qed.
Print Assumptions C142_repaired_partial.

Theorem C142_first_repaired_partial : forall md md' md'' p eh s e bs column w,
  eh_typed eh -> v1_convert md p (eh_entries eh) = Ok s -> build md' e s = Ok bs -> wf_mode md'' -> rust_slice md'' bs -> within_i32 s ->
  (forall f, last_at eh f -> rows_disjoint f /\ rows_cover f /\
     forall r, In r (dw_rows_of f) -> wide r /\ ~ v1_clash r /\ plain_row Amd64 r (column f) /\ plain_fp r) ->
  exists sf, load md'' e bs = Ok sf /\
    same_walks w Amd64 (dw_says eh column) (looked_up all_repairs md'' e sf).
Proof. exact v1_look_walks. Qed.
Print Assumptions C142_first_repaired_partial.

Theorem C142_repaired_case :
  eh_typed sample /\ dwarf2sframe rel64 amd sample = Ok sample_sfb /\
  build rel64 LE sample_sfb = Ok (sample_bytes LE) /\ wf_mode rel64 /\ rust_slice rel64 (sample_bytes LE) /\ within_i32 sample_sfb /\
  (forall f, last_at sample f -> rows_disjoint f /\ rows_cover f /\
     forall r, In r (wide_rows f) -> ~ clash Amd64 (fixed_ra_of amd sample) r /\ plain_row Amd64 r (amd_column f)) /\
  exists m, walk (sf_step sample_world (looked_up all_repairs rel64 LE sample_sf)) (SfFrame true 0x1010 0x100 (Some 0x200)) m /\
    map sx_pc m = [0x2009; 0x2021].
Proof. exact look_walks_case. Qed.
