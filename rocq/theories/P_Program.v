(** C153: stacks are walked as the call frame programs say. *)
From Verif Require Import ProgramWitness.
From Verif Require Import ConvWitness WalkWitness CfiWitness ConvRepairedWitness V1Witness V1RepairedFacts V1RepairedWitness.

(** * C153 A stack is walked with the converted section as its call frame programs say *)

(** The full statement: for every [.eh_frame] section whose programs gimli evaluates as the
    DWARF standard says, walking a stack with the converted section goes the way that the rules
    in force go, and ends early only where SFrame cannot express a rule.  It is false: in a
    function that signs its return address, as compilers make them with branch protection, the
    walk goes to the signed address. *)
Theorem C153_signed_refuted :
  eh_typed pac_eh /\ dwarf2sframe rel64 arm pac_eh = Ok pac_sfb /\ build rel64 LE pac_sfb = Ok pac_bytes /\
  load rel64 LE pac_bytes = Ok pac_sf /\ programs_followed pac_eh arm_cie /\
  (forall f, last_at pac_eh f -> unconfused Aarch64 (fixed_ra_of arm pac_eh) (arm_cie f) f) /\
  (exists y, dw_step pac_world Aarch64 (cfi_says pac_eh arm_cie column_30) pac_start y /\ dx_pc y = 0x3011) /\
  sf_step pac_world (section_says rel64 LE pac_sf) (SfFrame true 0x1010 0x100 (Some 0x140)) (SfFrame false pac_signed 0x110 (Some 0x180)) /\
  ~ same_walks pac_world Aarch64 (cfi_says pac_eh arm_cie column_30) (section_says rel64 LE pac_sf).
Proof. exact pac_wrong. Qed.
Print Assumptions C153_signed_refuted.

(** For programs whose rules are plain and not confused it holds, for this library and for an
    unwinder written from the SFrame specification. *)
Theorem C153_walks_partial : forall md md' md'' op eh s e bs cie column w,
  eh_typed eh -> dwarf2sframe md op eh = Ok s -> build md' e s = Ok bs -> wf_mode md'' -> rust_slice md'' bs ->
  programs_followed eh cie -> (forall f, last_at eh f -> plain_program op eh cie column f) ->
  (exists sf, load md'' e bs = Ok sf /\ same_walks w (op_arch op) (cfi_says eh cie column) (section_says md'' e sf)) /\
  same_walks w (op_arch op) (cfi_says eh cie column) (std_tells e bs).
Proof. exact program_walks. Qed.
Print Assumptions C153_walks_partial.

Theorem C153_first_walks_partial : forall md md' md'' p eh s e bs cie column w,
  eh_typed eh -> v1_convert md p (eh_entries eh) = Ok s -> build md' e s = Ok bs -> wf_mode md'' -> rust_slice md'' bs ->
  programs_followed eh cie -> (forall f, last_at eh f -> v1_plain_program cie column f) ->
  (exists sf, load md'' e bs = Ok sf /\ same_walks w Amd64 (cfi_says eh cie column) (section_says md'' e sf)) /\
  same_walks w Amd64 (cfi_says eh cie column) (std_tells e bs).
Proof. exact v1_program_walks. Qed.
Print Assumptions C153_first_walks_partial.

(** A leaf function called by one with a frame pointer. *)
Theorem C153_walks_case :
  eh_typed eh_two /\ dwarf2sframe rel64 amd eh_two = Ok two_sfb /\ build rel64 LE two_sfb = Ok two_section /\
  v1_convert rel64 v1_any (eh_entries eh_two) = Ok two_first /\ build rel64 LE two_first = Ok two_first_section /\
  wf_mode rel64 /\ rust_slice rel64 two_section /\ rust_slice rel64 two_first_section /\ load rel64 LE two_section = Ok two_sf /\
  programs_followed eh_two amd_cie /\
  (forall f, last_at eh_two f -> plain_program amd eh_two amd_cie amd_column f /\ v1_plain_program amd_cie amd_column f) /\
  same_point_exact Amd64 two_start (SfFrame true 0x1024 0x100 (Some 0x200)) /\
  exists l, walk (dw_step two_world Amd64 (cfi_says eh_two amd_cie amd_column)) two_start l /\ map dx_pc l = [0x1011; 0x5].
Proof. exact two_walks. Qed.
Print Assumptions C153_walks_case.

(** With the repairs of the converter, the writer and the look-ups (C49, C94) nothing is
    excepted.  At every address a look-up, and an unwinder written from the specification, find
    all that SFrame can say of the rule in force; and nothing elsewhere. *)
Theorem C153_repaired_rules_partial : forall md md' md'' op c eh s e bs cie, eh_typed eh -> dwarf2sframe_repaired md op c eh = Ok s ->
  build_repaired md' e s = Ok bs -> wf_mode md'' -> rust_slice md'' bs -> programs_followed eh cie ->
  exists sf, load md'' e bs = Ok sf /\
    (forall x r k, cfi_says eh cie c x r k -> exists u, conveys (op_arch op) r k u /\ looked_up_whole md'' e sf x u /\ std_tells e bs x u) /\
    (forall x u, looked_up_whole md'' e sf x u <-> std_tells e bs x u) /\
    (forall x k u, std_says e bs x k u -> k = KeyA /\ exists r k', cfi_says eh cie c x r k') /\
    (forall x u u', std_tells e bs x u -> std_tells e bs x u' -> u = u').
Proof. exact repaired_program. Qed.
Print Assumptions C153_repaired_rules_partial.

Theorem C153_repaired_partial : forall md md' md'' op c eh s e bs cie w, eh_typed eh -> dwarf2sframe_repaired md op c eh = Ok s ->
  build_repaired md' e s = Ok bs -> wf_mode md'' -> rust_slice md'' bs -> programs_followed eh cie ->
  exists sf, load md'' e bs = Ok sf /\
    same_link_walks w (op_arch op) (cfi_says eh cie c) (looked_up_whole md'' e sf) /\
    same_link_walks w (op_arch op) (cfi_says eh cie c) (std_tells e bs).
Proof. exact repaired_program_walks. Qed.
Print Assumptions C153_repaired_partial.

(** And every step succeeds for functions that lie within the range of addresses, do not overlap
    and are not too many. *)
Theorem C153_repaired_succeeds_partial : forall md md' op c eh cie e, eh_typed eh -> ents_end (eh_entries eh) = None ->
  (forall x, In x (entries_of eh) -> match x with DwCie => True | DwBadFde _ => False | DwGoodFde f => takeable op eh cie c f end) ->
  ~ functions_overlap eh -> countable (function_count eh) (table_rows eh) ->
  exists s bs, dwarf2sframe_repaired md op c eh = Ok s /\ build_repaired md' e s = Ok bs /\
    forall md'' w, wf_mode md'' -> rust_slice md'' bs ->
    exists sf, load md'' e bs = Ok sf /\
      same_link_walks w (op_arch op) (cfi_says eh cie c) (looked_up_whole md'' e sf) /\
      same_link_walks w (op_arch op) (cfi_says eh cie c) (std_tells e bs).
Proof. exact takeable_walks. Qed.
Print Assumptions C153_repaired_succeeds_partial.

(** The walk that goes wrong above, from a leaf function through the one that signs. *)
Theorem C153_repaired_case :
  eh_typed pac_eh /\ ents_end (eh_entries pac_eh) = None /\
  (forall x, In x (entries_of pac_eh) -> match x with DwCie => True | DwBadFde _ => False
     | DwGoodFde f => takeable arm pac_eh arm_cie column_30 f end) /\
  ~ functions_overlap pac_eh /\ countable (function_count pac_eh) (table_rows pac_eh) /\ programs_followed pac_eh arm_cie /\
  dwarf2sframe_repaired rel64 arm column_30 pac_eh = Ok pac_whole /\ build_repaired rel64 LE pac_whole = Ok pac_whole_bytes /\
  load rel64 LE pac_whole_bytes = Ok pac_whole_sf /\ rust_slice rel64 pac_whole_bytes /\
  same_link_point_exact Aarch64 leaf_start (LkFrame true 0x2004 0x100 (Some 0x140) (Some 0x1011)) /\
  walk (lk_step pac_world (looked_up_whole rel64 LE pac_whole_sf)) (LkFrame true 0x2004 0x100 (Some 0x140) (Some 0x1011)) pac_walk /\
  walk (lk_step pac_world (std_tells LE pac_whole_bytes)) (LkFrame true 0x2004 0x100 (Some 0x140) (Some 0x1011)) pac_walk /\
  exists l, walk (dw_step pac_world Aarch64 (cfi_says pac_eh arm_cie column_30)) leaf_start l /\ map dx_pc l = [0x1011; 0x3011; 0x5].
Proof. exact pac_right. Qed.
Print Assumptions C153_repaired_case.

(** The first converter, with its repairs (C84). *)
Theorem C153_first_repaired_partial : forall fx p m md md' md'' c eh s e bs cie w, repairs_rows fx -> eh_typed eh ->
  snd (v1_convert_with fx p m md c (eh_entries eh)) = Ok s ->
  build_repaired md' e s = Ok bs -> wf_mode md'' -> rust_slice md'' bs -> programs_followed eh cie ->
  exists sf, load md'' e bs = Ok sf /\
    same_link_walks w Amd64 (cfi_says eh cie c) (looked_up_whole md'' e sf) /\
    same_link_walks w Amd64 (cfi_says eh cie c) (std_tells e bs).
Proof. exact v1_repaired_program_walks. Qed.
Print Assumptions C153_first_repaired_partial.

Theorem C153_first_repaired_case :
  repairs_rows all_v1fixes /\ eh_typed eh_two /\
  snd (v1_convert_with all_v1fixes some_texts1 ElfX86_64 rel64 amd_column (eh_entries eh_two)) = Ok two_first_whole /\
  build_repaired rel64 LE two_first_whole = Ok two_first_whole_bytes /\ wf_mode rel64 /\ rust_slice rel64 two_first_whole_bytes /\
  programs_followed eh_two amd_cie /\ length (fdes_of two_first_whole) = 2%nat.
Proof. exact two_first_right. Qed.
Print Assumptions C153_first_repaired_case.
