(** Property theorems about call frame programs: C122-C125. *)
From Verif Require Import CfiTotal CfiWitness.

(** * C122 A section says what the call frame programs say *)

(** At every address of a function a reader finds what the DWARF standard says the
    function's call frame program means there, and nothing else; outside the
    functions it finds nothing. *)
Theorem C122_program_preserved : forall md md' md'' op eh s e bs,
  eh_typed eh -> dwarf2sframe md op eh = Ok s -> build md' e s = Ok bs -> wf_mode md'' -> rust_slice md'' bs ->
  (forall f, last_at eh f -> (exists c, follows_dwarf c f) /\
     forall r, In r (wide_rows f) -> ~ clash (op_arch op) (fixed_ra_of op eh) r) ->
  exists sf, load md'' e bs = Ok sf /\
    (forall c f x, last_at eh f -> follows_dwarf c f -> in_range (df_start f) (df_len f) x ->
       exists st u, cfi_at c f x = Some st /\ section_says md'' e sf x u /\ matches (op_arch op) (as_row st) u /\
         forall u', section_says md'' e sf x u' -> u' = u) /\
    forall x u, section_says md'' e sf x u -> exists f, last_at eh f /\ in_range (df_start f) (df_len f) x.
Proof. exact program_preserved. Qed.
Print Assumptions C122_program_preserved.

(** The first converter. *)
Theorem C122_first_converter : forall md md' md'' p ents s e bs,
  ents_typed ents -> v1_convert md p ents = Ok s -> build md' e s = Ok bs -> wf_mode md'' -> rust_slice md'' bs ->
  (forall f, v1_last ents f -> (exists c, follows_dwarf c f) /\ forall r, In r (dw_rows_of f) -> ~ v1_clash r) ->
  exists sf, load md'' e bs = Ok sf /\
    (forall c f x, v1_last ents f -> follows_dwarf c f -> in_range (df_start f) (df_len f) x ->
       exists st u, cfi_at c f x = Some st /\ section_says md'' e sf x u /\
         (forall base cfa ra fp, v1_representable (as_row st) base cfa ra fp -> u = Unwind base false (Some cfa) (Some ra) fp) /\
         ((forall base cfa ra fp, ~ v1_representable (as_row st) base cfa ra fp) -> uw_cfa u = None /\ uw_mangled u = false) /\
         forall u', section_says md'' e sf x u' -> u' = u) /\
    forall x u, section_says md'' e sf x u -> exists f, v1_last ents f /\ in_range (df_start f) (df_len f) x.
Proof. exact v1_program_preserved. Qed.
Print Assumptions C122_first_converter.

Example C122_case : forall e,
  eh_typed eh_push /\ dwarf2sframe rel64 amd eh_push = Ok push_sfb /\ build rel64 e push_sfb = Ok (push_bytes e) /\
  wf_mode dev32 /\ rust_slice dev32 (push_bytes e) /\ last_at eh_push fn_push /\ follows_dwarf cie_amd fn_push /\
  forall r, In r (wide_rows fn_push) -> ~ clash Amd64 (fixed_ra_of amd eh_push) r.
Proof.
  intros e. destruct (push_case e) as (P1 & _ & _ & P2 & _ & P3 & P4 & P5 & _ & P6). rewrite P6.
  split; [exact P1|]. split; [exact P2|]. split; [exact P3|]. split; [left; reflexivity|]. split; [exact P4|]. split; [exact P5|].
  split; [apply push_follows|apply push_no_clash].
Qed.

(** * C123 Programs with the same effect convert to the same section *)

Theorem C123_same_effect_same_section : forall md md' op eh eh' s s',
  eh_typed eh -> eh_typed eh' -> op_merge_fres op = true -> effective_endian op eh' = effective_endian op eh ->
  same_programs (same_rule (op_arch op)) follows_dwarf eh eh' ->
  dwarf2sframe md op eh = Ok s -> dwarf2sframe md' op eh' = Ok s' -> s = s'.
Proof. exact same_effect_same_section. Qed.
Print Assumptions C123_same_effect_same_section.

Theorem C123_first_converter : forall md md' p p' ents ents' s s',
  ents_typed ents -> ents_typed ents' ->
  same_programs v1_same_rule (fun c f => follows_dwarf c f /\ advances c f) (in_eh ents) (in_eh ents') ->
  v1_convert md p ents = Ok s -> v1_convert md' p' ents' = Ok s' -> s = s'.
Proof. exact v1_same_effect. Qed.
Print Assumptions C123_first_converter.

(** Two programs with hardly an instruction in common and different tables. *)
Example C123_case :
  eh_typed eh_push /\ eh_typed eh_stack /\ op_merge_fres amd = true /\
  df_insns fn_push <> df_insns fn_stack /\ df_rows fn_push <> df_rows fn_stack /\
  same_programs (same_rule Amd64) follows_dwarf eh_push eh_stack /\
  same_programs v1_same_rule (fun c f => follows_dwarf c f /\ advances c f) eh_push eh_stack /\
  dwarf2sframe rel64 amd eh_push = Ok push_sfb /\ dwarf2sframe rel64 amd eh_stack = Ok push_sfb /\
  v1_convert rel64 v1_any (eh_entries eh_push) = v1_convert rel64 v1_any (eh_entries eh_stack) /\
  exists s, v1_convert rel64 v1_any (eh_entries eh_push) = Ok s.
Proof.
  destruct (push_case LE) as (P1 & P2 & _ & P3 & P4 & _).
  split; [exact P1|]. split; [exact P2|]. split; [reflexivity|]. split; [discriminate|]. split; [discriminate|].
  destruct push_stack_v1 as (V1 & V2 & V3).
  split; [split; intros f Hf; [apply push_last in Hf|apply stack_last in Hf]; subst f|].
  - exists cie_amd, fn_stack, cie_amd. split; [apply push_follows|]. split; [apply stack_last; reflexivity|].
    split; [apply stack_follows|apply push_stack_same].
  - exists cie_amd, fn_push, cie_amd. split; [apply stack_follows|]. split; [apply push_last; reflexivity|].
    split; [apply push_follows|apply push_stack_same].
  - split; [split; intros f Hf; [apply push_last in Hf|apply stack_last in Hf]; subst f|].
    + exists cie_amd, fn_stack, cie_amd. split; [split; [apply push_follows|exact V2]|]. split; [apply stack_last; reflexivity|].
      split; [split; [apply stack_follows|exact V3]|exact V1].
    + exists cie_amd, fn_push, cie_amd. split; [split; [apply stack_follows|exact V3]|]. split; [apply push_last; reflexivity|].
      split; [split; [apply push_follows|exact V2]|exact V1].
    + split; [exact P3|]. split; [exact P4|]. split; [vm_compute; reflexivity|]. eexists. vm_compute. reflexivity.
Qed.

(** * C124 Ordinary programs are converted, all the way *)

(** Functions of ordinary size and position that do not overlap: the conversion
    succeeds, so does the build, and the result says what the programs say. *)
Theorem C124_ordinary_programs : forall md md' op eh e,
  eh_typed eh -> ents_end (eh_entries eh) = None ->
  (forall x, In x (entries_of eh) -> match x with DwCie => True | DwBadFde _ => False
     | DwGoodFde f => ordinary op eh f /\ dump_fine md op f end) ->
  apart eh -> countable (function_count eh) (table_rows eh) ->
  (forall c f, last_at eh f -> follows_dwarf c f -> unconfused (op_arch op) (fixed_ra_of op eh) c f) ->
  exists s bs, dwarf2sframe md op eh = Ok s /\ build md' e s = Ok bs /\
    zlen bs <= 28 + 20 * function_count eh + 17 * table_rows eh /\
    forall md'', wf_mode md'' -> rust_slice md'' bs ->
    exists sf, load md'' e bs = Ok sf /\
      (forall c f x, last_at eh f -> follows_dwarf c f -> in_range (df_start f) (df_len f) x ->
         exists st u, cfi_at c f x = Some st /\ section_says md'' e sf x u /\ matches (op_arch op) (as_row st) u /\
           forall u', section_says md'' e sf x u' -> u' = u) /\
      (forall x u, section_says md'' e sf x u -> exists f, last_at eh f /\ in_range (df_start f) (df_len f) x).
Proof. exact ordinary_section. Qed.
Print Assumptions C124_ordinary_programs.

(** Conversion alone needs less. *)
Theorem C124_ordinary_converts : forall md op eh,
  eh_typed eh -> ents_end (eh_entries eh) = None ->
  (forall x, In x (entries_of eh) -> match x with DwCie => True | DwBadFde _ => False
     | DwGoodFde f => ordinary op eh f /\ dump_fine md op f end) ->
  exists s, dwarf2sframe md op eh = Ok s.
Proof. exact ordinary_converts. Qed.
Print Assumptions C124_ordinary_converts.

Theorem C124_first_converter : forall md md' p ents e,
  ents_typed ents -> ents_end ents = None ->
  (forall x, In x (ents_list ents) -> match x with DwCie => True | DwBadFde _ => False | DwGoodFde f => v1_ordinary p f end) ->
  apart (in_eh ents) -> countable (function_count (in_eh ents)) (v1_rows_total ents) ->
  (forall c f, v1_last ents f -> follows_dwarf c f -> v1_unconfused c f) ->
  exists s bs, v1_convert md p ents = Ok s /\ build md' e s = Ok bs /\
    zlen bs <= 28 + 20 * function_count (in_eh ents) + 17 * v1_rows_total ents /\
    forall md'', wf_mode md'' -> rust_slice md'' bs ->
    exists sf, load md'' e bs = Ok sf /\
      (forall c f x, v1_last ents f -> follows_dwarf c f -> in_range (df_start f) (df_len f) x ->
         exists st u, cfi_at c f x = Some st /\ section_says md'' e sf x u /\
           (forall base cfa ra fp, v1_representable (as_row st) base cfa ra fp -> u = Unwind base false (Some cfa) (Some ra) fp) /\
           ((forall base cfa ra fp, ~ v1_representable (as_row st) base cfa ra fp) -> uw_cfa u = None /\ uw_mangled u = false) /\
           forall u', section_says md'' e sf x u' -> u' = u) /\
      (forall x u, section_says md'' e sf x u -> exists f, v1_last ents f /\ in_range (df_start f) (df_len f) x).
Proof. exact v1_ordinary_section. Qed.
Print Assumptions C124_first_converter.

Example C124_case :
  eh_typed eh_two /\ ents_end (eh_entries eh_two) = None /\
  (forall x, In x (entries_of eh_two) -> match x with DwCie => True | DwBadFde _ => False
     | DwGoodFde f => (ordinary amd eh_two f /\ dump_fine rel64 amd f) /\ v1_ordinary v1_any f end) /\
  apart eh_two /\ function_count eh_two = 2 /\ table_rows eh_two = 5 /\ v1_rows_total (eh_entries eh_two) = 5 /\
  (forall c f, last_at eh_two f -> follows_dwarf c f -> unconfused Amd64 (fixed_ra_of amd eh_two) c f /\ v1_unconfused c f) /\
  dwarf2sframe rel64 amd eh_two = Ok two_sfb /\ last_at eh_two fn_leaf /\
  exists st, cfi_at cie_amd fn_push 0x1010 = Some st /\ cs_cfa st = Some (CfaReg 6 16).
Proof. exact two_case. Qed.

(** * C125 A section is no larger than its DWARF warrants *)

Theorem C125_no_more_rows : forall md op eh s,
  eh_typed eh -> dwarf2sframe md op eh = Ok s ->
  zlen (fdes_of s) <= function_count eh /\ row_count (fdes_of s) <= table_rows eh.
Proof. exact converted_count. Qed.
Print Assumptions C125_no_more_rows.

Theorem C125_size : forall md md' op eh s e bs,
  eh_typed eh -> dwarf2sframe md op eh = Ok s -> build md' e s = Ok bs ->
  zlen bs <= 28 + 20 * function_count eh + 17 * table_rows eh.
Proof. exact converted_size. Qed.
Print Assumptions C125_size.

(** Hence, without overlaps, a table of ordinary size can always be built. *)
Theorem C125_builds : forall md md' op eh s e,
  eh_typed eh -> dwarf2sframe md op eh = Ok s -> apart eh -> countable (function_count eh) (table_rows eh) ->
  exists bs, build md' e s = Ok bs.
Proof. exact apart_builds. Qed.
Print Assumptions C125_builds.

Theorem C125_first_converter : forall md md' p ents s e bs,
  ents_typed ents -> v1_convert md p ents = Ok s ->
  (zlen (fdes_of s) <= function_count (in_eh ents) /\ row_count (fdes_of s) <= v1_rows_total ents) /\
  (build md' e s = Ok bs -> zlen bs <= 28 + 20 * function_count (in_eh ents) + 17 * v1_rows_total ents).
Proof. exact v1_no_larger. Qed.
Print Assumptions C125_first_converter.

(** Both bounds on the counts are reached: with no rows to merge and no start
    address twice. *)
Example C125_case :
  eh_typed eh_two /\ dwarf2sframe rel64 amd eh_two = Ok two_sfb /\
  zlen (fdes_of two_sfb) = function_count eh_two /\ row_count (fdes_of two_sfb) = table_rows eh_two /\
  apart eh_two /\ countable (function_count eh_two) (table_rows eh_two).
Proof.
  destruct two_case as (P1 & _ & _ & P2 & P3 & P4 & _ & _ & P5 & _). split; [exact P1|]. split; [exact P5|].
  split; [reflexivity|]. split; [reflexivity|]. split; [exact P2|]. rewrite P3, P4. vm_compute. split; discriminate.
Qed.
