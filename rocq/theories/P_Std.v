(** Property theorems about unwinders that follow the SFrame specification: C132-C134. *)
From Verif Require Import StdConv StdWitness.

(** * C132 An unwinder that follows the specification finds in a built section what was asked for: false *)

(** The full statement is: [forall md e s bs, sfb_reach md s -> build md e s = Ok bs ->
    forall a k u, std_says e bs a k u <-> asked_with_key s a k u]. *)

(** A repeated function: the bit lands in the FRE type, which no longer exists. *)
Theorem C132_repeated_refuted : forall e,
  sfb_reach rel64 blocks_sfb /\ build rel64 e blocks_sfb = Ok (blocks_bytes e) /\
  asked_with_key blocks_sfb 0x104 KeyA second_row /\
  forall a k u, ~ std_says e (blocks_bytes e) a k u.
Proof. exact blocks_silent. Qed.
Print Assumptions C132_repeated_refuted.

(** A function signed with key B: the bit makes it repeated, with blocks of size zero. *)
Theorem C132_key_refuted : forall e,
  sfb_reach rel64 signed_sfb /\ build rel64 e signed_sfb = Ok (signed_bytes e) /\
  asked_with_key signed_sfb 0x104 KeyB second_row /\
  forall a k u, ~ std_says e (signed_bytes e) a k u.
Proof. exact signed_silent. Qed.
Print Assumptions C132_key_refuted.

(** What it finds inside a function, exactly: nothing unless the function is neither
    repeated nor signed with key B; else the row in effect, as it is written. *)
Theorem C132_inside_partial : forall md e s bs, sfb_reach md s -> build md e s = Ok bs ->
  forall a k u b, In b (fdes_of s) -> in_range (fb_start b) (fb_size b) a ->
  (std_says e bs a k u <->
   ordinary_function b /\ k = KeyA /\
   exists r, in_effect (rows_of b) (offset_in b a) r /\ u = std_unwind bs (written r)).
Proof. exact built_std. Qed.
Print Assumptions C132_inside_partial.

(** A row, as it is written, says what was asked for exactly when it is neither tied
    nor ambiguous. *)
Theorem C132_row_partial : forall md e s bs, sfb_reach md s -> build md e s = Ok bs ->
  forall b r, In b (fdes_of s) -> In r (rows_of b) ->
  (std_unwind bs (written r) = intended (sb_options s) r <-> ~ tied r /\ ~ ambiguous (sb_options s) r).
Proof. exact std_row_meaning. Qed.
Print Assumptions C132_row_partial.

(** Outside all functions it finds nothing. *)
Theorem C132_outside_partial : forall md e s bs, sfb_reach md s -> build md e s = Ok bs ->
  forall a k u, (forall b, In b (fdes_of s) -> ~ in_range (fb_start b) (fb_size b) a) -> ~ std_says e bs a k u.
Proof. exact built_std_outside. Qed.
Print Assumptions C132_outside_partial.

(** So the statement holds of builders without such functions and rows. *)
Theorem C132_all_partial : forall md e s bs, sfb_reach md s -> build md e s = Ok bs ->
  (forall b, In b (fdes_of s) -> ordinary_function b) ->
  (forall b r, In b (fdes_of s) -> In r (rows_of b) -> ~ tied r /\ ~ ambiguous (sb_options s) r) ->
  forall a k u, std_says e bs a k u <-> asked_with_key s a k u.
Proof. exact built_std_all. Qed.
Print Assumptions C132_all_partial.

(** Two functions; the second says nothing in front of its first row. *)
Example C132_case : forall e, sfb_reach rel64 demo_sfb /\ build rel64 e demo_sfb = Ok (demo e) /\
  (forall b, In b (fdes_of demo_sfb) -> ordinary_function b) /\
  (forall b r, In b (fdes_of demo_sfb) -> In r (rows_of b) -> ~ tied r /\ ~ ambiguous (sb_options demo_sfb) r) /\
  std_says e (demo e) 0x102 KeyA first_row /\ std_says e (demo e) 0x104 KeyA second_row /\
  forall k u, ~ std_says e (demo e) 0x201 k u.
Proof. exact demo_std. Qed.

(** * C133 An unwinder that follows the specification finds in a converted section what the DWARF says *)

Theorem C133_program_preserved : forall md md' op eh s e bs,
  eh_typed eh -> dwarf2sframe md op eh = Ok s -> build md' e s = Ok bs ->
  (forall f, last_at eh f -> (exists c, follows_dwarf c f) /\
     forall r, In r (wide_rows f) -> ~ clash (op_arch op) (fixed_ra_of op eh) r) ->
  (forall c f x, last_at eh f -> follows_dwarf c f -> in_range (df_start f) (df_len f) x ->
     exists st u, cfi_at c f x = Some st /\ std_says e bs x KeyA u /\ matches (op_arch op) (as_row st) u /\
       forall k u', std_says e bs x k u' -> k = KeyA /\ u' = u) /\
  forall x k u, std_says e bs x k u -> exists f, last_at eh f /\ in_range (df_start f) (df_len f) x.
Proof. exact std_program_preserved. Qed.
Print Assumptions C133_program_preserved.

(** In terms of the rows that gimli delivers, whatever program they come from. *)
Theorem C133_rows_preserved : forall md md' op eh s e bs,
  eh_typed eh -> dwarf2sframe md op eh = Ok s -> build md' e s = Ok bs ->
  (forall f, last_at eh f -> rows_disjoint f /\
     forall r, In r (wide_rows f) -> ~ clash (op_arch op) (fixed_ra_of op eh) r) ->
  (forall a r, dwarf_says eh a r -> exists u, std_says e bs a KeyA u /\ matches (op_arch op) r u) /\
  (forall a k u, std_says e bs a k u ->
     exists f r, last_at eh f /\ in_range (df_start f) (df_len f) a /\ In r (wide_rows f) /\ dr_start r <= a) /\
  (forall a k k' u u', std_says e bs a k u -> std_says e bs a k' u' -> k = KeyA /\ k' = KeyA /\ u = u').
Proof. exact std_rows_preserved. Qed.
Print Assumptions C133_rows_preserved.

Theorem C133_first_converter : forall md md' p ents s e bs,
  ents_typed ents -> v1_convert md p ents = Ok s -> build md' e s = Ok bs ->
  (forall f, v1_last ents f -> (exists c, follows_dwarf c f) /\ forall r, In r (dw_rows_of f) -> ~ v1_clash r) ->
  (forall c f x, v1_last ents f -> follows_dwarf c f -> in_range (df_start f) (df_len f) x ->
     exists st u, cfi_at c f x = Some st /\ std_says e bs x KeyA u /\
       (forall base cfa ra fp, v1_representable (as_row st) base cfa ra fp -> u = Unwind base false (Some cfa) (Some ra) fp) /\
       ((forall base cfa ra fp, ~ v1_representable (as_row st) base cfa ra fp) -> uw_cfa u = None /\ uw_mangled u = false) /\
       forall k u', std_says e bs x k u' -> k = KeyA /\ u' = u) /\
  forall x k u, std_says e bs x k u -> exists f, v1_last ents f /\ in_range (df_start f) (df_len f) x.
Proof. exact std_v1_preserved. Qed.
Print Assumptions C133_first_converter.

Example C133_case : forall e,
  eh_typed eh_push /\ dwarf2sframe rel64 amd eh_push = Ok push_sfb /\ build rel64 e push_sfb = Ok (push_bytes e) /\
  (forall f, last_at eh_push f -> (exists c, follows_dwarf c f) /\ rows_disjoint f /\
     forall r, In r (wide_rows f) -> ~ clash (op_arch amd) (fixed_ra_of amd eh_push) r) /\
  (exists st, cfi_at cie_amd fn_push 0x1010 = Some st /\ cs_cfa st = Some (CfaReg 6 16)) /\
  std_says e (push_bytes e) 0x1010 KeyA (Unwind Fp false (Some 16) (Some (-8)) (Some (-16))).
Proof.
  intros e. destruct (push_case e) as (P1 & _ & _ & P2 & _ & P3 & _).
  split; [exact P1|]. split; [exact P2|]. split; [exact P3|]. split; [exact push_std_hyp|]. apply push_std.
Qed.

Example C133_first_converter_case : forall e,
  ents_typed (eh_entries eh_push) /\ v1_convert rel64 v1_any (eh_entries eh_push) = Ok v1_push_sfb /\
  (exists bs, build rel64 e v1_push_sfb = Ok bs) /\
  forall f, v1_last (eh_entries eh_push) f -> (exists c, follows_dwarf c f) /\ forall r, In r (dw_rows_of f) -> ~ v1_clash r.
Proof. exact v1_push_std. Qed.

(** * C134 Sections of other producers are read as the specification says: false *)

(** The full statement is: [forall md e bs sf, wf_mode md -> rust_slice md bs ->
    load md e bs = Ok sf -> spec_version bs = 2 ->
    forall a k u, lib_says md e sf a k u <-> std_says e bs a k u]. *)

(** A repeated function is taken for one that is not and that is signed with key B. *)
Theorem C134_repeated_refuted : forall e,
  load rel64 e (masked e) = Ok (masked_sf e) /\ std_says e (masked e) 0x108 KeyA first_row /\
  forall k u, lib_says rel64 e (masked_sf e) 0x108 k u -> k = KeyB /\ u = second_row.
Proof. exact masked_misread. Qed.
Print Assumptions C134_repeated_refuted.

(** Key B is never seen. *)
Theorem C134_key_refuted : forall e,
  load rel64 e (keyed_b e) = Ok (keyed_b_sf e) /\ std_says e (keyed_b e) 0x104 KeyB second_row /\
  forall k u, lib_says rel64 e (keyed_b_sf e) 0x104 k u -> k = KeyA.
Proof. exact key_misread. Qed.
Print Assumptions C134_key_refuted.

(** A row that starts at the end of its function hides all rows (C12). *)
Theorem C134_row_at_end_refuted : forall e,
  load rel64 e (cut_short e) = Ok (cut_short_sf e) /\ std_says e (cut_short e) 0x102 KeyA first_row /\
  forall k u, ~ lib_says rel64 e (cut_short_sf e) 0x102 k u.
Proof. exact cut_unread. Qed.
Print Assumptions C134_row_at_end_refuted.

(** Apart from these it holds, at each address. *)
Theorem C134_same_partial : forall md e bs sf, wf_mode md -> rust_slice md bs ->
  load md e bs = Ok sf -> spec_version bs = 2 -> forall a k u,
  (forall i, 0 <= i < spec_num_fdes e bs -> in_range (sd_start (spec_entry e bs i)) (sd_size (spec_entry e bs i)) a ->
     plain_info (spec_entry e bs i) /\ rows_end_inside e bs (spec_entry e bs i)) ->
  (lib_says md e sf a k u <-> std_says e bs a k u).
Proof. exact lib_std. Qed.
Print Assumptions C134_same_partial.

(** A section that this library does not write: reserved bits and padding are set. *)
Example C134_case : forall e,
  rust_slice rel64 (foreign e) /\ load rel64 e (foreign e) = Ok (foreign_sf e) /\ spec_version (foreign e) = 2 /\
  (forall i, 0 <= i < spec_num_fdes e (foreign e) ->
     plain_info (spec_entry e (foreign e) i) /\ rows_end_inside e (foreign e) (spec_entry e (foreign e) i)) /\
  std_says e (foreign e) 0x104 KeyA second_row.
Proof. exact foreign_read. Qed.
