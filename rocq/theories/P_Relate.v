(** Property theorems about related inputs: C117-C121. *)
From Verif Require Import V1Relate RelateWitness.

(** * C117 The order of the entries does not matter *)

(** Two sections with the same functions in any order convert to the same result,
    provided no start address occurs twice. *)
Theorem C117_order_does_not_matter : forall md op eh eh' s,
  eh_typed eh -> reordered eh eh' -> distinct_starts eh ->
  (dwarf2sframe md op eh = Ok s <-> dwarf2sframe md op eh' = Ok s).
Proof. exact order_harmless_distinct. Qed.
Print Assumptions C117_order_does_not_matter.

(** If a start address occurs twice: provided the same function comes last. *)
Theorem C117_order_up_to_the_last : forall md op eh eh' s,
  eh_typed eh -> reordered eh eh' -> (forall f, last_at eh f <-> last_at eh' f) ->
  (dwarf2sframe md op eh = Ok s <-> dwarf2sframe md op eh' = Ok s).
Proof. exact order_harmless. Qed.
Print Assumptions C117_order_up_to_the_last.

(** The first converter. *)
Theorem C117_first_converter : forall md p ents ents' s,
  ents_typed ents -> reordered (in_eh ents) (in_eh ents') -> (forall f, v1_last ents f <-> v1_last ents' f) ->
  (v1_convert md p ents = Ok s <-> v1_convert md p ents' = Ok s).
Proof. exact v1_order_harmless. Qed.
Print Assumptions C117_first_converter.

(** Both provisos are needed: of two functions with the same start the later one
    is kept, and the error reported is that of the first bad entry. *)
Theorem C117_same_start_matters :
  eh_typed same_start /\ eh_typed same_start_backwards /\ reordered same_start same_start_backwards /\
  exists s s', dwarf2sframe rel64 amd same_start = Ok s /\ dwarf2sframe rel64 amd same_start_backwards = Ok s' /\ s <> s'.
Proof. exact same_start_differs. Qed.
Print Assumptions C117_same_start_matters.

Theorem C117_errors_follow_the_order :
  eh_typed bad_pair /\ reordered bad_pair bad_pair_backwards /\ distinct_starts bad_pair /\
  dwarf2sframe rel64 amd bad_pair = Err (InvalidDwarfFde (GimliError 1)) /\
  dwarf2sframe rel64 amd bad_pair_backwards = Err (InvalidDwarfFde (GimliError 2)).
Proof. exact errors_follow_order. Qed.
Print Assumptions C117_errors_follow_the_order.

Example C117_case :
  eh_typed sample /\ reordered sample sample_backwards /\ distinct_starts sample /\
  entries_of sample <> entries_of sample_backwards /\
  dwarf2sframe rel64 amd sample = Ok sample_sfb /\ dwarf2sframe rel64 amd sample_backwards = Ok sample_sfb.
Proof.
  split; [apply sample_typed|]. split; [apply backwards_reordered|]. split; [apply backwards_reordered|].
  split; [apply backwards_reordered|]. split; [apply sample_converts|]. vm_compute. reflexivity.
Qed.

(** * C118 Every function is converted on its own *)

(** The builder made for a function does not depend on the rest of the section. *)
Theorem C118_converted_on_its_own : forall md md' op eh eh' s s' f,
  eh_typed eh -> eh_typed eh' -> effective_endian op eh' = effective_endian op eh ->
  dwarf2sframe md op eh = Ok s -> dwarf2sframe md' op eh' = Ok s' -> last_at eh f -> last_at eh' f ->
  exists b, In b (fdes_of s) /\ In b (fdes_of s') /\ fb_start b = df_start f.
Proof. exact function_on_its_own. Qed.
Print Assumptions C118_converted_on_its_own.

(** Nor does what a reader finds for it in the two files. *)
Theorem C118_read_on_its_own : forall md md' md1 md1' mdr op eh eh' s s' f e bs bs',
  eh_typed eh -> eh_typed eh' -> effective_endian op eh' = effective_endian op eh ->
  dwarf2sframe md op eh = Ok s -> dwarf2sframe md' op eh' = Ok s' -> last_at eh f -> last_at eh' f ->
  build md1 e s = Ok bs -> build md1' e s' = Ok bs' -> wf_mode mdr -> rust_slice mdr bs -> rust_slice mdr bs' ->
  exists sf sf' en en', load mdr e bs = Ok sf /\ load mdr e bs' = Ok sf' /\
    In en (all_fdes sf) /\ In en' (all_fdes sf') /\ en_start_address en = df_start f /\ same_function mdr e en en' /\
    fixed_ra_offset sf = fixed_ra_offset sf' /\ fixed_fp_offset sf = fixed_fp_offset sf'.
Proof. exact function_reads_on_its_own. Qed.
Print Assumptions C118_read_on_its_own.

(** One section after the other converts exactly when both do, to the union. *)
Theorem C118_joined_sections : forall md op eh eh',
  eh_typed eh -> eh_typed eh' -> effective_endian op eh' = effective_endian op eh -> ents_end (eh_entries eh) = None ->
  (forall s'', dwarf2sframe md op (joined eh eh') = Ok s'' ->
     exists s s', dwarf2sframe md op eh = Ok s /\ dwarf2sframe md op eh' = Ok s' /\ union_of s s' s'') /\
  (forall s s', dwarf2sframe md op eh = Ok s -> dwarf2sframe md op eh' = Ok s' ->
     exists s'', dwarf2sframe md op (joined eh eh') = Ok s'' /\ union_of s s' s'').
Proof. exact joined_converts. Qed.
Print Assumptions C118_joined_sections.

(** The first converter. *)
Theorem C118_first_converter : forall md md' p p' ents ents' s s' f,
  ents_typed ents -> ents_typed ents' ->
  v1_convert md p ents = Ok s -> v1_convert md' p' ents' = Ok s' -> v1_last ents f -> v1_last ents' f ->
  exists b, In b (fdes_of s) /\ In b (fdes_of s') /\ fb_start b = df_start f.
Proof. exact v1_on_its_own. Qed.
Print Assumptions C118_first_converter.

Theorem C118_first_converter_joined : forall md p ents ents',
  ents_typed ents -> ents_typed ents' -> ents_end ents = None ->
  let both := eh_entries (joined (in_eh ents) (in_eh ents')) in
  (forall s'', v1_convert md p both = Ok s'' ->
     exists s s', v1_convert md p ents = Ok s /\ v1_convert md p ents' = Ok s' /\ union_of s s' s'') /\
  (forall s s', v1_convert md p ents = Ok s -> v1_convert md p ents' = Ok s' ->
     exists s'', v1_convert md p both = Ok s'' /\ union_of s s' s'').
Proof. exact v1_joined. Qed.
Print Assumptions C118_first_converter_joined.

Example C118_case : forall e,
  eh_typed alone /\ eh_typed sample /\ effective_endian amd alone = effective_endian amd sample /\
  dwarf2sframe rel64 amd alone = Ok alone_sfb /\ dwarf2sframe rel64 amd sample = Ok sample_sfb /\
  last_at alone fn_plt /\ last_at sample fn_plt /\
  build rel64 e alone_sfb = Ok (alone_bytes e) /\ build rel64 e sample_sfb = Ok (sample_bytes e) /\
  rust_slice rel64 (alone_bytes e) /\ rust_slice rel64 (sample_bytes e) /\ alone_sfb <> sample_sfb.
Proof. exact alone_case. Qed.

(** * C119 Moving everything changes only the start addresses *)

(** The DWARF of a program loaded elsewhere converts to the moved builder. *)
Theorem C119_moved_conversion : forall md op eh k s,
  eh_typed eh -> eh_typed (move_eh k eh) ->
  (forall f, In f (functions (entries_of eh)) -> df_start f + k <= i32_max) ->
  dwarf2sframe md op eh = Ok s -> dwarf2sframe md op (move_eh k eh) = Ok (move_sfb k s).
Proof. exact moved_conversion. Qed.
Print Assumptions C119_moved_conversion.

(** A moved builder gives the same bytes outside the start addresses, and reads
    back as the moved section. *)
Theorem C119_moved_section : forall md md' e s k bs sf,
  wf_mode md' -> sfb_reach md s -> (forall b, In b (fdes_of s) -> in_i32 (fb_start b + k)) ->
  build md e s = Ok bs -> rust_slice md' bs -> load md' e bs = Ok sf ->
  exists bs', build md e (move_sfb k s) = Ok bs' /\ length bs' = length bs /\
    (forall p, ~ start_field (length (fdes_of s)) p -> nth_error bs' p = nth_error bs p) /\
    load md' e bs' = Ok (move_sf k sf).
Proof. exact moved_section. Qed.
Print Assumptions C119_moved_section.

(** A builder that cannot be built cannot be built elsewhere either. *)
Theorem C119_moved_failure : forall md e s k,
  sfb_reach md s -> (forall b, In b (fdes_of s) -> in_i32 (fb_start b + k)) ->
  (forall er, build md e s = Err er -> build md e (move_sfb k s) = Err er) /\
  (build md e s = Panic -> build md e (move_sfb k s) = Panic).
Proof. exact moved_build_fails. Qed.
Print Assumptions C119_moved_failure.

(** The first converter. *)
Theorem C119_first_converter : forall md p p' ents k s,
  ents_typed ents -> ents_typed (eh_entries (move_eh k (in_eh ents))) ->
  (forall f, In f (functions (ents_list ents)) -> df_start f + k <= i32_max) ->
  (forall r, p' (move_row k r) = p r) ->
  v1_convert md p ents = Ok s -> v1_convert md p' (eh_entries (move_eh k (in_eh ents))) = Ok (move_sfb k s).
Proof. exact v1_moved. Qed.
Print Assumptions C119_first_converter.

Example C119_case :
  eh_typed sample /\ eh_typed (move_eh 0x400000 sample) /\ eh_typed (move_eh (-0x800) sample) /\
  (forall f, In f (functions (entries_of sample)) -> df_start f + 0x400000 <= i32_max) /\
  dwarf2sframe rel64 amd sample = Ok sample_sfb /\
  build rel64 LE sample_sfb = Ok (sample_bytes LE) /\ rust_slice rel64 (sample_bytes LE) /\
  forall k, k = 0x400000 \/ k = -0x800 \/ k = -0x1800 -> forall b, In b (fdes_of sample_sfb) -> in_i32 (fb_start b + k).
Proof. exact moved_case. Qed.

(** * C120 Lookups in a moved section give the moved answers *)

(** An unwinder is told the same at the moved address, whatever the section
    holds: hit, miss, error or panic. *)
Theorem C120_moved_lookup : forall md e k sf a,
  movable k sf -> in_i32 a -> in_i32 (a + k) ->
  lookup md e (move_sf k sf) (a + k) = lookup md e sf a.
Proof. intros md e k sf a _ _ _. exact (moved_lookup md e k sf a). Qed.
Print Assumptions C120_moved_lookup.

(** The steps: the function found, the row found, all functions, all rows. *)
Theorem C120_moved_function : forall md k sf a,
  movable k sf -> in_i32 a -> in_i32 (a + k) ->
  fde_for_address md (move_sf k sf) (a + k) = omap (option_map (move_en k)) (fde_for_address md sf a).
Proof. intros md k sf a _ _ _. exact (moved_function md k sf a). Qed.
Print Assumptions C120_moved_function.

Theorem C120_moved_row : forall md e k en a,
  in_i32 (en_start_address en) -> in_i32 (en_start_address en + k) -> in_i32 a -> in_i32 (a + k) ->
  get_fre_for_address md e (move_en k en) (a + k) = omap (option_map (move_fre k)) (get_fre_for_address md e en a).
Proof. intros md e k en a _ _ _ _. exact (moved_row md e k en a). Qed.
Print Assumptions C120_moved_row.

Theorem C120_moved_lists : forall md e k sf en,
  movable k sf ->
  all_fdes (move_sf k sf) = map (move_en k) (all_fdes sf) /\
  all_fres md e (move_en k en) = omap (map (move_item k)) (all_fres md e en).
Proof. intros md e k sf en _. exact (conj (move_all_fdes k sf) (moved_rows md e k en)). Qed.
Print Assumptions C120_moved_lists.

(** A moved function differs in its start alone, a moved row in its address. *)
Theorem C120_only_starts_move : forall k sf fr en,
  en_start_address (move_en k en) = en_start_address en + k /\ en_size (move_en k en) = en_size en /\
  en_fdetype (move_en k en) = en_fdetype en /\
  en_pauth_key (move_en k en) = en_pauth_key en /\ en_rep_block_size (move_en k en) = en_rep_block_size en /\
  view_fre (move_fre k fr) = view_fre fr /\ observed (move_sf k sf) (move_fre k fr) = observed sf fr /\
  fre_start_address_offset (move_fre k fr) = fre_start_address_offset fr.
Proof. exact moved_shown. Qed.
Print Assumptions C120_only_starts_move.

Theorem C120_row_addresses_move : forall (E : Type) md k fr,
  in_i32 (fde_start_address (fr_fde fr) + fr_start fr) ->
  in_i32 (fde_start_address (fr_fde fr) + fr_start fr + k) ->
  @fre_start_address E md (move_fre k fr) = omap (fun x => x + k) (fre_start_address md fr).
Proof. exact (fun E md k fr => @moved_row_start E md k fr). Qed.
Print Assumptions C120_row_addresses_move.

(** The rule is that of another function (C115), here and there. *)
Example C120_case :
  movable 0x400000 (built_sf LE sample_sfb) /\ movable (-0x1800) (built_sf LE sample_sfb) /\
  load rel64 LE (sample_bytes LE) = Ok (built_sf LE sample_sfb) /\
  lookup rel64 LE (built_sf LE sample_sfb) 0x2008 = Ok (Some (Unwind Sp false (Some 8) (Some (-8)) None)) /\
  lookup rel64 LE (move_sf 0x400000 (built_sf LE sample_sfb)) 0x402008 = Ok (Some (Unwind Sp false (Some 8) (Some (-8)) None)) /\
  lookup rel64 LE (move_sf (-0x1800) (built_sf LE sample_sfb)) 0x808 = Ok (Some (Unwind Sp false (Some 8) (Some (-8)) None)) /\
  lookup rel64 LE (move_sf 0x400000 (built_sf LE sample_sfb)) 0x2008 = Ok None.
Proof.
  assert (M : forall k, -0x2000 <= k <= 0x400000 -> movable k (built_sf LE sample_sfb)).
  { intros k Hk f Hf. vm_compute in Hf. unfold in_i32, i32_min, i32_max. destruct Hf as [<-|[<-|[]]]; cbn; lia. }
  split; [apply M; lia|]. split; [apply M; lia|]. repeat (split; [vm_compute; reflexivity|]). vm_compute. reflexivity.
Qed.

(** * C121 Tables that say the same convert to the same section *)

(** How the compiler cut the table into rows does not show, when rows are merged. *)
Theorem C121_same_meaning_same_section : forall md md' op eh eh' s s',
  eh_typed eh -> eh_typed eh' -> op_merge_fres op = true -> effective_endian op eh' = effective_endian op eh ->
  (forall f, last_at eh f -> orderly f) -> (forall f, last_at eh' f -> orderly f) ->
  same_meanings (op_arch op) eh eh' ->
  dwarf2sframe md op eh = Ok s -> dwarf2sframe md' op eh' = Ok s' -> s = s'.
Proof. exact same_meaning_same_result. Qed.
Print Assumptions C121_same_meaning_same_section.

(** The first converter, which always merges. *)
Theorem C121_first_converter : forall md md' p p' ents ents' s s',
  ents_typed ents -> ents_typed ents' ->
  (forall f, v1_last ents f -> v1_orderly f) -> (forall f, v1_last ents' f -> v1_orderly f) ->
  all_alike v1_same_rule (in_eh ents) (in_eh ents') ->
  v1_convert md p ents = Ok s -> v1_convert md' p' ents' = Ok s' -> s = s'.
Proof. exact v1_same_meaning. Qed.
Print Assumptions C121_first_converter.

(** Without merging, the cuts show. *)
Theorem C121_merging_is_needed : exists s s',
  dwarf2sframe rel64 amd_apart sample = Ok s /\ dwarf2sframe rel64 amd_apart sample_cut = Ok s' /\ s <> s'.
Proof. exact apart_differs. Qed.
Print Assumptions C121_merging_is_needed.

Example C121_case :
  eh_typed sample /\ eh_typed sample_cut /\ same_meanings Amd64 sample sample_cut /\
  (forall f, last_at sample f -> orderly f) /\ (forall f, last_at sample_cut f -> orderly f) /\
  dwarf2sframe rel64 amd sample = Ok sample_sfb /\ dwarf2sframe rel64 amd sample_cut = Ok sample_sfb.
Proof. exact cut_case. Qed.

(** The first converter: a case for C118, C119 and C121. *)
Example C121_case_first :
  ents_typed v1_whole /\ ents_typed v1_cut /\ all_alike v1_same_rule (in_eh v1_whole) (in_eh v1_cut) /\
  (forall f, v1_last v1_whole f -> v1_orderly f) /\ (forall f, v1_last v1_cut f -> v1_orderly f) /\
  v1_convert rel64 v1_any v1_whole = Ok v1_sfb /\ v1_convert rel64 v1_any v1_cut = Ok v1_sfb /\
  v1_last v1_cut fn_cut /\ ents_typed (eh_entries (move_eh 0x400000 (in_eh v1_cut))) /\
  v1_convert rel64 v1_any (eh_entries (move_eh 0x400000 (in_eh v1_cut))) = Ok (move_sfb 0x400000 v1_sfb) /\
  move_sfb 0x400000 v1_sfb <> v1_sfb.
Proof. exact v1_case. Qed.
