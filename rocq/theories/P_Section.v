(** Property theorems of whole sections: C61-C66. *)
From Verif Require Import SectionWitness.

(** * C61 Building again what was read gives the same bytes *)

Theorem C61_rebuilt : forall md md' e s bs,
  sfb_reach md s -> build md e s = Ok bs ->
  wf_mode md' -> rust_slice md' bs -> Forall rows_inside (fdes_of s) ->
  (forall b r, In b (fdes_of s) -> In r (rows_of b) -> made_invalid r) ->
  exists sf s', load md' e bs = Ok sf /\ section_read md' e sf = Some s' /\
    build md e s' = Ok bs.
Proof. exact section_rebuilt. Qed.
Print Assumptions C61_rebuilt.

(** [demo_sfb] meets the hypotheses, and so does a section with an ambiguous row,
    which reads back as another row but still gives the same bytes. *)
Example C61_case : 
  (Forall rows_inside (fdes_of demo_sfb) /\ (forall b r, In b (fdes_of demo_sfb) -> In r (rows_of b) -> made_invalid r) /\
   section_read rel64 LE (demo_sf LE) = Some demo_sfb) /\
  (exists bs sf, build rel64 LE amb_sfb = Ok bs /\ load rel64 LE bs = Ok sf /\
     section_read rel64 LE sf = Some nofp_sfb /\ nofp_sfb <> amb_sfb /\ build rel64 LE nofp_sfb = Ok bs).
Proof. exact rebuilt_case. Qed.

(** * C62 The byte order changes only the representation *)

Theorem C62_byte_order : forall md md' e e' s,
  sfb_reach md s -> wf_mode md' ->
  (forall er, build md e s = Err er <-> build md e' s = Err er) /\
  (build md e s = Panic <-> build md e' s = Panic) /\
  (forall bs, build md e s = Ok bs -> rust_slice md' bs ->
     exists bs' sf sf', build md e' s = Ok bs' /\ zlen bs' = zlen bs /\
       load md' e bs = Ok sf /\ load md' e' bs' = Ok sf' /\ same_shown md' e e' sf sf').
Proof. exact byte_order. Qed.
Print Assumptions C62_byte_order.

Example C62_case :
  sfb_reach rel64 demo_sfb /\ build rel64 LE demo_sfb = Ok (demo LE) /\ rust_slice dev32 (demo LE) /\
  build rel64 BE demo_sfb = Ok (demo BE) /\ demo LE <> demo BE /\
  load rel64 LE (demo LE) = Ok (demo_sf LE) /\ num_fdes (demo_sf LE) = 2.
Proof. exact byte_order_case. Qed.

(** * C63 Different contents give different bytes: false *)

(** Two functions that save different registers, with equal sections. *)
Theorem C63_collision_refuted :
  sfb_sized rel64 amb_sfb /\ sfb_sized rel64 nofp_sfb /\
  build rel64 LE amb_sfb = build rel64 LE nofp_sfb /\ (exists bs, build rel64 LE amb_sfb = Ok bs) /\
  map (map (intended options_new)) (map rows_of (fdes_of amb_sfb)) = [[Unwind Sp false (Some 16) None (Some (-16))]] /\
  map (map (intended options_new)) (map rows_of (fdes_of nofp_sfb)) = [[Unwind Sp false (Some 16) (Some (-16)) None]].
Proof. exact different_builders_same_bytes. Qed.
Print Assumptions C63_collision_refuted.

(** Equal sections mean equal options, functions and rows as written. *)
Theorem C63_same_bytes_partial : forall md md' e s s' bs bs',
  sfb_reach md s -> sfb_reach md' s' ->
  build md e s = Ok bs -> build md' e s' = Ok bs' ->
  (bs = bs' <-> sb_options s = sb_options s' /\ Forall2 same_content (fdes_of s) (fdes_of s')).
Proof. exact same_bytes. Qed.
Print Assumptions C63_same_bytes_partial.

(** Without tied and ambiguous rows building is injective. *)
Theorem C63_injective_partial : forall md md' e s s' bs,
  sfb_reach md s -> sfb_reach md' s' ->
  (forall b r, In b (fdes_of s) -> In r (rows_of b) -> ~ tied r /\ ~ ambiguous (sb_options s) r) ->
  (forall b r, In b (fdes_of s') -> In r (rows_of b) -> ~ tied r /\ ~ ambiguous (sb_options s') r) ->
  build md e s = Ok bs -> build md' e s' = Ok bs -> s = s'.
Proof. exact same_bytes_same_builder. Qed.
Print Assumptions C63_injective_partial.

Theorem C63_orders_differ_partial : forall md md' s s' bs,
  sfb_reach md s -> sfb_reach md' s' ->
  build md LE s = Ok bs -> build md' BE s' <> Ok bs.
Proof. exact orders_differ. Qed.
Print Assumptions C63_orders_differ_partial.

Example C63_case :
  sfb_reach rel64 demo_sfb /\ sfb_reach rel64 single_sfb /\
  (forall b r, In b (fdes_of demo_sfb) -> In r (rows_of b) -> ~ tied r /\ ~ ambiguous (sb_options demo_sfb) r) /\
  build rel64 LE demo_sfb = Ok (demo LE) /\ build rel64 LE single_sfb = Ok (single LE) /\ demo LE <> single LE.
Proof. exact injective_case. Qed.

(** * C64 Size of a section; merging rows never enlarges it *)

Theorem C64_size_bounds : forall md e s bs,
  sfb_reach md s -> build md e s = Ok bs ->
  28 + 20 * zlen (fdes_of s) + 2 * row_count (fdes_of s) <= zlen bs <=
  28 + 20 * zlen (fdes_of s) + 17 * row_count (fdes_of s).
Proof. exact size_bounds. Qed.
Print Assumptions C64_size_bounds.

Theorem C64_merge_not_larger : forall b b',
  fdb_reach b -> merge_adjacent_fres b = Ok b' -> fde_fre_size b' <= fde_fre_size b.
Proof. exact merge_not_larger. Qed.
Print Assumptions C64_merge_not_larger.

(** Both bounds are attained, and merging does shrink a function. *)
Example C64_case :
  (sfb_reach rel64 (sized_sfb small_row) /\ exists bs, build rel64 LE (sized_sfb small_row) = Ok bs /\ zlen bs = 28 + 20 + 2) /\
  (sfb_reach rel64 (sized_sfb large_row) /\ exists bs, build rel64 LE (sized_sfb large_row) = Ok bs /\ zlen bs = 28 + 20 + 17).
Proof. exact sizes_met. Qed.
Example C64_merge_case : exists b b',
  fdb_reach b /\ merge_adjacent_fres b = Ok b' /\ fde_fre_size b' < fde_fre_size b /\ 0 < fde_fre_size b'.
Proof. exact merge_shrinks. Qed.

(** * C65 Looking up an address gives what was asked for there: false *)

(** The first row of the function is found instead of the row in effect. *)
Theorem C65_first_row_refuted :
  sfb_sized rel64 single_sfb /\ build rel64 LE single_sfb = Ok (single LE) /\ load rel64 LE (single LE) = Ok (single_sf LE) /\
  asked_at single_sfb 0x104 (Unwind Sp false (Some 16) (Some (-8)) (Some (-16))) /\
  lookup rel64 LE (single_sf LE) 0x104 = Ok (Some (Unwind Sp false (Some 8) (Some (-8)) (Some (-16)))).
Proof. exact lookup_wrong_row. Qed.
Print Assumptions C65_first_row_refuted.

(** With two functions the first is not found, and the second is given the rows of the first. *)
Theorem C65_missed_function_refuted :
  sfb_sized rel64 demo_sfb /\ build rel64 LE demo_sfb = Ok (demo LE) /\ load rel64 LE (demo LE) = Ok (demo_sf LE) /\
  asked_at demo_sfb 0x100 (Unwind Sp false (Some 8) (Some (-8)) (Some (-16))) /\
  lookup rel64 LE (demo_sf LE) 0x100 = Ok None /\
  asked_at demo_sfb 0x202 (Unwind Sp false (Some 24) (Some (-8)) (Some (-16))) /\
  lookup rel64 LE (demo_sf LE) 0x202 = Ok (Some (Unwind Sp false (Some 8) (Some (-8)) (Some (-16)))).
Proof. exact lookup_misses. Qed.
Print Assumptions C65_missed_function_refuted.

Theorem C65_missed_partial : forall md md' e s bs sf a i b,
  sfb_reach md s -> build md e s = Ok bs ->
  wf_mode md' -> rust_slice md' bs -> load md' e bs = Ok sf -> in_i32 a -> near md' s a ->
  nth_error (fdes_of s) i = Some b -> in_range (fb_start b) (fb_size b) a ->
  reached (bsearch md') (zlen (fdes_of s)) (Z.of_nat i) = false ->
  lookup md' e sf a = Ok None.
Proof. exact lookup_missed. Qed.
Print Assumptions C65_missed_partial.

Theorem C65_outside_partial : forall md md' e s bs sf a,
  sfb_reach md s -> build md e s = Ok bs ->
  wf_mode md' -> rust_slice md' bs -> load md' e bs = Ok sf -> in_i32 a -> near md' s a ->
  (forall b, In b (fdes_of s) -> ~ in_range (fb_start b) (fb_size b) a) ->
  lookup md' e sf a = Ok None.
Proof. exact lookup_outside. Qed.
Print Assumptions C65_outside_partial.

Theorem C65_single_partial : forall md md' e s bs sf a b,
  sfb_reach md s -> build md e s = Ok bs ->
  wf_mode md' -> rust_slice md' bs -> load md' e bs = Ok sf -> in_i32 a -> near md' s a ->
  fdes_of s = [b] -> rows_inside b -> fb_rep_size b <> Some 0 -> in_range (fb_start b) (fb_size b) a ->
  match rows_of b with
  | [] => lookup md' e sf a = Ok None
  | r :: rest =>
      (offset_in b a < r_start r -> lookup md' e sf a = Ok None) /\
      (r_start r <= offset_in b a ->
         (exists u, lookup md' e sf a = Ok (Some u) /\
            (u = intended (sb_options s) r <-> ~ tied r /\ ~ ambiguous (sb_options s) r)) /\
         (in_effect (rows_of b) (offset_in b a) r <-> forall r', In r' rest -> offset_in b a < r_start r'))
  end.
Proof. exact lookup_single. Qed.
Print Assumptions C65_single_partial.

Example C65_case :
  sfb_reach rel64 single_sfb /\ fdes_of single_sfb = [demo_f1] /\ rows_inside demo_f1 /\ fb_rep_size demo_f1 <> Some 0 /\
  near rel64 single_sfb 0x102 /\ in_range (fb_start demo_f1) (fb_size demo_f1) 0x102 /\
  lookup rel64 LE (single_sf LE) 0x102 = Ok (Some (Unwind Sp false (Some 8) (Some (-8)) (Some (-16)))) /\
  asked_at single_sfb 0x102 (Unwind Sp false (Some 8) (Some (-8)) (Some (-16))) /\
  lookup rel64 LE (single_sf LE) 0xff = Ok None /\
  reached BsBase (zlen (fdes_of demo_sfb)) 0 = false.
Proof. exact single_case. Qed.

(** * C66 Version 1 mask rows are searched by mask *)

Theorem C66_kind : forall en, fde_ok (en_fde en) -> en_fdetype en = kind_of (en_fde en).
Proof. exact kind_ok. Qed.
Print Assumptions C66_kind.

Theorem C66_mask_search : forall md e en a good bad,
  fde_ok (en_fde en) -> in_i32 a ->
  (overflow_checks md = false \/ a - en_start_address en <= i32_max) ->
  en_start_address en <= a <= en_start_address en + en_size en ->
  all_fres md e en = Ok (map inl good ++ map inr bad) -> v1_mask (en_fde en) ->
  (forall fr, get_fre_for_address md e en a = Ok (Some fr) <-> first_masked good (a - en_start_address en) fr) /\
  (get_fre_for_address md e en a = Ok None <->
     bad = [] /\ Forall (fun g => ~ covers_mask (a - en_start_address en) (fre_start_address_offset g)) good) /\
  (forall er, get_fre_for_address md e en a = Err er <->
     (exists er' t, bad = er' :: t /\ er = inr er') /\
     Forall (fun g => ~ covers_mask (a - en_start_address en) (fre_start_address_offset g)) good) /\
  get_fre_for_address md e en a <> Panic.
Proof. exact mask_search. Qed.
Print Assumptions C66_mask_search.

Example C66_case :
  fde_ok (en_fde mask_entry) /\ v1_mask (en_fde mask_entry) /\
  all_fres rel64 LE mask_entry = Ok (map inl mask_rows) /\ map fre_start_address_offset mask_rows = [8; 4; 0] /\
  map (fun a => match get_fre_for_address rel64 LE mask_entry a with
                | Ok (Some fr) => Some (fre_start_address_offset fr) | _ => None end)
      [0x100; 0x103; 0x104; 0x107; 0x108; 0x10c] = map Some [0; 0; 4; 4; 8; 8].
Proof. exact mask_case. Qed.
