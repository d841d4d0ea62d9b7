(** An unwinder that follows the SFrame specification, version 2, and knows nothing
    of this library: what a section means to it at each address. *)
From Verif Require Export SectionSpec.

(** The info byte of a function descriptor: FRE type in bits 0-3, FDE type in bit 4,
    pointer authentication key in bit 5. *)
Definition std_fre_type (d : spec_fde) : Z := bits 0 4 (sd_info d).
Definition std_repeats (d : spec_fde) : bool := bits 4 1 (sd_info d) =? 1.
Definition std_key (d : spec_fde) : pauth := if bits 5 1 (sd_info d) =? 1 then KeyB else KeyA.

(** Where in the function, or in the repeated block, an address lies.  There are no
    blocks of size zero. *)
Definition std_offset (d : spec_fde) (a : Z) : option Z :=
  if std_repeats d then
    match sd_rep d with
    | Some rep => if rep =? 0 then None else Some ((a - sd_start d) mod rep)
    | None => None
    end
  else Some (a - sd_start d).

(** The row in effect: the greatest start that is not above the offset. *)
Definition std_row_at (rows : list spec_row) (x : Z) (r : spec_row) : Prop :=
  In r rows /\ sr_start r <= x /\ forall r', In r' rows -> sr_start r' <= x -> sr_start r' <= sr_start r.

(** What a row says: the CFA offset, then the RA offset unless the header fixes it,
    then the FP offset unless the header fixes it. *)
Definition std_unwind (bs : bytes) (r : spec_row) : unwind :=
  let ra := nonzero (spec_fixed_ra bs) in
  let fp := nonzero (spec_fixed_fp bs) in
  {| uw_base := if sr_base_is_sp r then Sp else Fp;
     uw_mangled := sr_mangled r;
     uw_cfa := nth_error (sr_offsets r) 0;
     uw_ra := match ra with Some o => Some o | None => nth_error (sr_offsets r) 1 end;
     uw_fp := match fp with
              | Some o => Some o
              | None => nth_error (sr_offsets r) (match ra with Some _ => 1 | None => 2 end)
              end |}.

(** The rows of a descriptor. *)
Definition std_rows (e : endian) (bs : bytes) (d : spec_fde) (rows : list spec_row) : Prop :=
  exists aw rest, width_of (std_fre_type d) = Some aw /\ zlen rows = sd_num_fres d /\
    spec_rows_at e aw (spec_rows_of e bs d) rows rest.

(** At address [a] the section says [u], with key [k]. *)
Definition std_says (e : endian) (bs : bytes) (a : Z) (k : pauth) (u : unwind) : Prop :=
  good_magic e bs /\ spec_version bs = 2 /\ layout_fits e bs /\
  exists i rows x r,
    0 <= i < spec_num_fdes e bs /\
    in_range (sd_start (spec_entry e bs i)) (sd_size (spec_entry e bs i)) a /\
    std_rows e bs (spec_entry e bs i) rows /\
    std_offset (spec_entry e bs i) a = Some x /\
    std_row_at rows x r /\
    std_key (spec_entry e bs i) = k /\ std_unwind bs r = u.

(** ** Built sections *)

(** What the builder asked for at address [a], with the key. *)
Definition asked_with_key (s : sfb) (a : Z) (k : pauth) (u : unwind) : Prop :=
  exists b r, In b (fdes_of s) /\ in_range (fb_start b) (fb_size b) a /\
    in_effect (rows_of b) (offset_in b a) r /\ fb_pauth b = k /\ intended (sb_options s) r = u.

(** A function that is neither repeated nor signed with key B. *)
Definition ordinary_function (b : fdb) : Prop := fb_rep_size b = None /\ fb_pauth b = KeyA.

(** ** This library as an unwinder *)

(** What this library, used through its iterators and accessors, says at [a]: the
    row of a function that contains [a] with the greatest start not above the
    offset, which for a repeated function is taken within the block. *)
Definition lib_offset (en : entry) (a : Z) : option Z :=
  match en_fdetype en, en_rep_block_size en with
  | PPcInc, _ => Some (a - en_start_address en)
  | PPcMask, Some rep => if rep =? 0 then None else Some ((a - en_start_address en) mod rep)
  | _, _ => None
  end.
Definition lib_says (md : mode) (e : endian) (sf : sframe) (a : Z) (k : pauth) (u : unwind) : Prop :=
  exists en good x fr,
    In en (all_fdes sf) /\ in_range (en_start_address en) (en_size en) a /\
    all_fres md e en = Ok (map inl good) /\ lib_offset en a = Some x /\
    In fr good /\ fre_start_address_offset fr <= x /\
    (forall fr', In fr' good -> fre_start_address_offset fr' <= x ->
       fre_start_address_offset fr' <= fre_start_address_offset fr) /\
    en_pauth_key en = k /\ observed sf fr = u.

(** A descriptor whose FDE type and key bits are clear, with bit 3, which belongs to
    the FRE type, clear as well. *)
Definition plain_info (d : spec_fde) : Prop := bits 3 3 (sd_info d) = 0.

(** No row starts at or behind the end of the function. *)
Definition rows_end_inside (e : endian) (bs : bytes) (d : spec_fde) : Prop :=
  forall rows, std_rows e bs d rows -> Forall (fun r => sr_start r < sd_size d) rows.
