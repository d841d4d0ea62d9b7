(** Specification of how the answers for related inputs are related: entries in
    another order, functions taken away or added, tables that say the same in
    other rows, and everything moved by the same distance. *)
From Coq Require Export Permutation.
From Verif Require Export SectionSpec ConvSpec LocalSpec ToolsSpec.

(** ** The same functions in another order *)

Definition not_cie (x : dw_entry) : bool := match x with DwCie => false | _ => true end.

(** [eh'] has the entries of [eh] in some order; CIEs may come and go. *)
Record reordered (eh eh' : eh_frame) : Prop := {
  rd_entries : Permutation (filter not_cie (entries_of eh)) (filter not_cie (entries_of eh'));
  rd_end : ents_end (eh_entries eh') = ents_end (eh_entries eh);
  rd_endian : eh_big_endian eh' = eh_big_endian eh }.

(** No two functions have the same start. *)
Definition distinct_starts (eh : eh_frame) : Prop := NoDup (map df_start (functions (entries_of eh))).

(** ** One section after the other *)

Definition joined (eh eh' : eh_frame) : eh_frame :=
  EhFrame (eh_big_endian eh) (DwEntries (entries_of eh ++ entries_of eh') (ents_end (eh_entries eh'))).

(** The functions of [s''] are those of [s'] and those of [s] that [s'] does not
    replace. *)
Definition union_of (s s' s'' : sfb) : Prop :=
  sb_options s'' = sb_options s' /\
  forall b, In b (fdes_of s'') <->
    In b (fdes_of s') \/ (In b (fdes_of s) /\ forall b', In b' (fdes_of s') -> fb_start b' <> fb_start b).

(** ** The same function, read from two sections *)

Definition same_function (md : mode) (e : endian) (en en' : entry) : Prop :=
  en_start_address en = en_start_address en' /\ en_size en = en_size en' /\ en_fdetype en = en_fdetype en' /\
  en_rep_block_size en = en_rep_block_size en' /\ en_pauth_key en = en_pauth_key en' /\
  exists good good', all_fres md e en = Ok (map inl good) /\ all_fres md e en' = Ok (map inl good') /\
    map view_fre good = map view_fre good'.

(** ** Tables with the same meaning *)

(** Two rows an SFrame row expresses alike: the same rule, or neither has one. *)
Definition same_rule (a : arch) (r r' : dw_row) : Prop :=
  forall base cfa ra fp, representable a r base cfa ra fp <-> representable a r' base cfa ra fp.

(** The row [r] of [f] covers the address [x]. *)
Definition covers (f : dw_fde) (x : Z) (r : dw_row) : Prop :=
  In r (dw_rows_of f) /\ dr_start r <= x < dr_end r.

(** From the first row on, every address of the function is covered. *)
Definition gapless (f : dw_fde) : Prop :=
  forall r x, In r (wide_rows f) -> dr_start r <= x < df_start f + df_len f -> exists r', covers f x r'.

(** [f] and [f'] say the same at every address. *)
Definition says_alike (same : dw_row -> dw_row -> Prop) (f f' : dw_fde) : Prop :=
  df_start f' = df_start f /\ df_len f' = df_len f /\
  forall x, in_range (df_start f) (df_len f) x ->
    (forall r, covers f x r -> exists r', covers f' x r') /\
    (forall r, covers f' x r -> exists r', covers f x r') /\
    (forall r r', covers f x r -> covers f' x r' -> same r r').
Definition same_meaning (a : arch) : dw_fde -> dw_fde -> Prop := says_alike (same_rule a).

(** As gimli produces them: no overlap, no gap. *)
Definition orderly (f : dw_fde) : Prop :=
  rows_disjoint f /\ gapless f /\ forall r, In r (wide_rows f) -> dr_start r < dr_end r.

Definition all_alike (same : dw_row -> dw_row -> Prop) (eh eh' : eh_frame) : Prop :=
  (forall f, last_at eh f -> exists f', last_at eh' f' /\ says_alike same f f') /\
  (forall f', last_at eh' f' -> exists f, last_at eh f /\ says_alike same f f').
Definition same_meanings (a : arch) : eh_frame -> eh_frame -> Prop := all_alike (same_rule a).

(** The same for the first converter, which has its own idea of which rows have a
    rule and does not skip rows of no width. *)
Definition v1_same_rule (r r' : dw_row) : Prop :=
  forall base cfa ra fp, v1_representable r base cfa ra fp <-> v1_representable r' base cfa ra fp.
Definition v1_orderly (f : dw_fde) : Prop :=
  orderly f /\ forall r, In r (dw_rows_of f) -> dr_start r < dr_end r.
(** The entries the first converter reads, as a section. *)
Definition in_eh (ents : dw_entries) : eh_frame := EhFrame false ents.

(** ** Everything moved by the same distance *)

Definition move_row (k : Z) (r : dw_row) : dw_row :=
  DwRow (dr_start r + k) (dr_end r + k) (dr_cfa r) (dr_regs r).
Definition move_fde (k : Z) (f : dw_fde) : dw_fde :=
  DwFde (df_start f + k) (df_len f) (df_insns f)
    match df_rows f with
    | inl rs => inl (DwRows (map (move_row k) (rows_list rs)) (rows_end rs))
    | inr g => inr g
    end.
Definition move_entry (k : Z) (x : dw_entry) : dw_entry :=
  match x with DwGoodFde f => DwGoodFde (move_fde k f) | _ => x end.
Definition move_eh (k : Z) (eh : eh_frame) : eh_frame :=
  EhFrame (eh_big_endian eh) (DwEntries (map (move_entry k) (entries_of eh)) (ents_end (eh_entries eh))).

Definition move_fdb (k : Z) (b : fdb) : fdb :=
  Fdb (fb_options b) (fb_start b + k) (fb_size b) (fb_rep_size b) (fb_pauth b) (fb_fres b).
Definition move_sfb (k : Z) (s : sfb) : sfb :=
  Sfb (sb_options s) (map (fun kb => (fst kb + k, move_fdb k (snd kb))) (sb_fdes s)).

Definition move_raw1 (k : Z) (f : raw_fde1) : raw_fde1 :=
  RawFde1 (f1_start_address f + k) (f1_size f) (f1_start_fre_off f) (f1_num_fres f) (f1_info f).
Definition move_raw2 (k : Z) (f : raw_fde2) : raw_fde2 :=
  RawFde2 (f2_start_address f + k) (f2_size f) (f2_start_fre_off f) (f2_num_fres f) (f2_info f)
    (f2_rep_size f) (f2_padding f).
Definition move_desc (k : Z) (f : fde) : fde :=
  match f with FdeV1 r => FdeV1 (move_raw1 k r) | FdeV2 r => FdeV2 (move_raw2 k r) end.
Definition move_en (k : Z) (en : entry) : entry := Entry (move_desc k (en_fde en)) (en_fres en).
Definition move_fre (k : Z) (fr : fre) : fre :=
  Fre (move_desc k (fr_fde fr)) (fr_start fr) (fr_info fr) (fr_offsets fr).
Definition move_sf (k : Z) (sf : sframe) : sframe :=
  SFrame (sf_preamble sf) (sf_abi_arch sf) (sf_fixed_fp sf) (sf_fixed_ra sf) (sf_num_fdes sf) (sf_num_fres sf)
    (sf_aux sf)
    match sf_fdes sf with ListV1 l => ListV1 (map (move_raw1 k) l) | ListV2 l => ListV2 (map (move_raw2 k) l) end
    (sf_fres sf).

(** The starts stay in range, before and after. *)
Definition movable (k : Z) (sf : sframe) : Prop :=
  forall f, In f (it_fdes (fdes sf)) -> in_i32 (fde_start_address f) /\ in_i32 (fde_start_address f + k).

(** Byte [p] of a built section with [n] functions belongs to the start address
    of one of them. *)
Definition start_field (n p : nat) : Prop :=
  (28 <= p /\ p < 28 + 20 * n /\ (p - 28) mod 20 < 4)%nat.
