(** The writer: [crates/sframe/src/write.rs]. *)
From Verif Require Import Base BTree Raw.

(** ** Options, write.rs:13-58 *)

(** [SFrameOptions].  [Option<NonZeroI8>] is [option Z] without [Some 0]. *)
Record sframe_options : Type := SFrameOptions {
  so_flags : Z;
  so_abi : Z;
  so_fixed_fp : option Z;
  so_fixed_ra : option Z }.

(** [SFrameOptions::new], write.rs:22-29.  [Abi::default()] is 0. *)
Definition options_new : sframe_options :=
  {| so_flags := FLAG_FDE_SORTED; so_abi := 0; so_fixed_fp := None; so_fixed_ra := None |}.

(** [SFrameOptions::frame_pointer], write.rs:32-35; [Flags::set] inserts or
    removes the bits ([!0x2] on [u8] is [0xFD]). *)
Definition options_frame_pointer (value : bool) (o : sframe_options) : sframe_options :=
  {| so_flags := if value then Z.lor (so_flags o) FLAG_FRAME_POINTER
                 else Z.land (so_flags o) 0xFD;
     so_abi := so_abi o; so_fixed_fp := so_fixed_fp o; so_fixed_ra := so_fixed_ra o |}.

(** [SFrameOptions::abi], write.rs:38-41. *)
Definition options_abi (abi : Z) (o : sframe_options) : sframe_options :=
  {| so_flags := so_flags o; so_abi := abi; so_fixed_fp := so_fixed_fp o; so_fixed_ra := so_fixed_ra o |}.

(** [.and_then(NonZeroI8::new)]. *)
Definition non_zero (v : option Z) : option Z :=
  match v with
  | Some z => if z =? 0 then None else Some z
  | None => None
  end.

(** [SFrameOptions::fixed_fp_offset], write.rs:46-49. *)
Definition options_fixed_fp (v : option Z) (o : sframe_options) : sframe_options :=
  {| so_flags := so_flags o; so_abi := so_abi o; so_fixed_fp := non_zero v; so_fixed_ra := so_fixed_ra o |}.

(** [SFrameOptions::fixed_ra_offset], write.rs:54-57. *)
Definition options_fixed_ra (v : option Z) (o : sframe_options) : sframe_options :=
  {| so_flags := so_flags o; so_abi := so_abi o; so_fixed_fp := so_fixed_fp o; so_fixed_ra := non_zero v |}.

Definition optZ_eqb (a b : option Z) : bool :=
  match a, b with
  | Some x, Some y => x =? y
  | None, None => true
  | _, _ => false
  end.

(** [SFrameOptions: PartialEq] (derived), write.rs:13. *)
Definition options_eqb (a b : sframe_options) : bool :=
  (so_flags a =? so_flags b) && (so_abi a =? so_abi b) &&
  optZ_eqb (so_fixed_fp a) (so_fixed_fp b) && optZ_eqb (so_fixed_ra a) (so_fixed_ra b).

(** ** Rows, write.rs:494-595 *)

(** [FrameRowOffsets], write.rs:546-571. *)
Record row_offsets : Type := RowOffsets {
  ro_cfa : Z;
  ro_ra : option Z;
  ro_fp : option Z }.

(** [FrameRowBuilder], write.rs:494-500. *)
Record row : Type := Row {
  r_start : Z;
  r_offsets : option row_offsets;
  r_mangled : bool;
  r_base : base_reg }.

(** [FrameRowBuilder::new], write.rs:503-510. *)
Definition row_new (b : base_reg) (start : Z) (o : row_offsets) : row :=
  {| r_start := start; r_offsets := Some o; r_mangled := false; r_base := b |}.
(** [FrameRowBuilder::invalid], write.rs:512-519. *)
Definition row_invalid (start : Z) : row :=
  {| r_start := start; r_offsets := None; r_mangled := false; r_base := Fp |}.
(** [FrameRowBuilder::new_from_sp] and [new_from_fp], write.rs:521-527. *)
Definition row_new_from_sp (start : Z) (o : row_offsets) : row := row_new Sp start o.
Definition row_new_from_fp (start : Z) (o : row_offsets) : row := row_new Fp start o.
(** [FrameRowBuilder::mangled_ra_p], write.rs:529-532. *)
Definition row_mangled_ra_p (v : bool) (r : row) : row :=
  {| r_start := r_start r; r_offsets := r_offsets r; r_mangled := v; r_base := r_base r |}.

(** [FreAddrSize], write.rs:61-65. *)
Inductive addr_size : Type := SzU8 | SzU16 | SzU32.

(** [FrameRowOffsets::offset_type], write.rs:574-594: the offset of largest
    magnitude (the first one on ties) decides. *)
Definition offset_type (o : row_offsets) : addr_size :=
  let m0 := ro_cfa o in
  let m1 := match ro_ra o with
            | Some ra => if Z.abs m0 <? Z.abs ra then ra else m0
            | None => m0
            end in
  let m2 := match ro_fp o with
            | Some fp => if Z.abs m1 <? Z.abs fp then fp else m1
            | None => m1
            end in
  if (-0x80 <=? m2) && (m2 <=? 0x7F) then SzU8
  else if (-0x8000 <=? m2) && (m2 <=? 0x7FFF) then SzU16
  else SzU32.

Definition base_reg_eqb (a b : base_reg) : bool :=
  match a, b with Fp, Fp => true | Sp, Sp => true | _, _ => false end.

Definition row_offsets_eqb (a b : row_offsets) : bool :=
  (ro_cfa a =? ro_cfa b) && optZ_eqb (ro_ra a) (ro_ra b) && optZ_eqb (ro_fp a) (ro_fp b).

(** [FrameRowBuilder: PartialEq] (derived), write.rs:494. *)
Definition row_eqb (a b : row) : bool :=
  (r_start a =? r_start b) &&
  (match r_offsets a, r_offsets b with
   | Some x, Some y => row_offsets_eqb x y
   | None, None => true
   | _, _ => false
   end) &&
  Bool.eqb (r_mangled a) (r_mangled b) && base_reg_eqb (r_base a) (r_base b).

(** ** Function descriptors, write.rs:344-492 *)

(** [FuncDescBuilder]. *)
Record fdb : Type := Fdb {
  fb_options : sframe_options;
  fb_start : Z;
  fb_size : Z;
  fb_rep_size : option Z;
  fb_pauth : pauth;
  fb_fres : btree row }.

(** [FuncDescBuilder::new], write.rs:355-364. *)
Definition fdb_new (o : sframe_options) (start size : Z) : fdb :=
  {| fb_options := o; fb_start := start; fb_size := size; fb_rep_size := None;
     fb_pauth := KeyA; fb_fres := [] |}.

(** write.rs:366-369 *)
Definition fdb_pcinc (b : fdb) : fdb :=
  {| fb_options := fb_options b; fb_start := fb_start b; fb_size := fb_size b;
     fb_rep_size := None; fb_pauth := fb_pauth b; fb_fres := fb_fres b |}.
(** write.rs:371-374 *)
Definition fdb_pcmask (rep : Z) (b : fdb) : fdb :=
  {| fb_options := fb_options b; fb_start := fb_start b; fb_size := fb_size b;
     fb_rep_size := Some rep; fb_pauth := fb_pauth b; fb_fres := fb_fres b |}.
(** write.rs:376-379 *)
Definition fdb_set_start (start : Z) (b : fdb) : fdb :=
  {| fb_options := fb_options b; fb_start := start; fb_size := fb_size b;
     fb_rep_size := fb_rep_size b; fb_pauth := fb_pauth b; fb_fres := fb_fres b |}.
(** write.rs:381-384 *)
Definition fdb_set_size (size : Z) (b : fdb) : fdb :=
  {| fb_options := fb_options b; fb_start := fb_start b; fb_size := size;
     fb_rep_size := fb_rep_size b; fb_pauth := fb_pauth b; fb_fres := fb_fres b |}.
(** write.rs:386-389 *)
Definition fdb_set_pauth (k : pauth) (b : fdb) : fdb :=
  {| fb_options := fb_options b; fb_start := fb_start b; fb_size := fb_size b;
     fb_rep_size := fb_rep_size b; fb_pauth := k; fb_fres := fb_fres b |}.
(** Assignment to [self.fres] (helper). *)
Definition fdb_set_fres (m : btree row) (b : fdb) : fdb :=
  {| fb_options := fb_options b; fb_start := fb_start b; fb_size := fb_size b;
     fb_rep_size := fb_rep_size b; fb_pauth := fb_pauth b; fb_fres := m |}.

(** [FuncDescBuilder::fdetype], write.rs:391-396. *)
Definition fdb_fdetype (b : fdb) : fde_type :=
  match fb_rep_size b with Some _ => PcMask | None => PcInc end.

(** The struct update [FrameRowBuilder { start_address: 0, ..*r }],
    write.rs:427-434. *)
Definition row_zero_start (r : row) : row :=
  {| r_start := 0; r_offsets := r_offsets r; r_mangled := r_mangled r; r_base := r_base r |}.

(** The loop of [merge_adjacent_fres], write.rs:414-445. *)
Fixpoint merge_fres_loop (fuel : nat) (address : Z) (m : btree row) : outcome fuel_error (btree row) :=
  match fuel with
  | O => Err OutOfFuel
  | S k =>
      match bt_range_from address m with
      | (_, current) :: (_, next) :: _ =>
          let saved := address in
          let address := r_start next in
          if negb (row_eqb (row_zero_start current) (row_zero_start next))
          then merge_fres_loop k address m
          else merge_fres_loop k saved (bt_remove address m)
      | _ => Ok m
      end
  end.

(** [FuncDescBuilder::merge_adjacent_fres], write.rs:408-446. *)
Definition merge_adjacent_fres (b : fdb) : outcome fuel_error fdb :=
  match bt_first (fb_fres b) with
  | None => Ok b
  | Some (address, _) =>
      let* m := merge_fres_loop (S (length (fb_fres b))) address (fb_fres b) in
      Ok (fdb_set_fres m b)
  end.

(** [FrameRowError], write.rs:600-654.  [MissingRaOffset] and
    [MissingFpOffset] are never constructed. *)
Inductive row_error : Type :=
| StartAddressTooLarge
| StartAddressLargerThanRepSize
| StartAddressOutsideFde
| MissingRaOffset
| MissingFpOffset
| UnexpectedRaOffset
| UnexpectedFpOffset
| DuplicateRow.

(** The fixed RA check, write.rs:464-472. *)
Definition check_fixed (fixed given : option Z) (err : row_error) : outcome row_error (option Z) :=
  match fixed with
  | None => Ok given
  | Some f =>
      match given with
      | Some g => if g =? f then Ok None else Err err
      | None => Ok None
      end
  end.

(** write.rs:463-483 *)
Definition normalise_offsets (o : sframe_options) (r : row) : outcome row_error row :=
  match r_offsets r with
  | None => Ok r
  | Some offs =>
      let* ra := check_fixed (so_fixed_ra o) (ro_ra offs) UnexpectedRaOffset in
      let* fp := check_fixed (so_fixed_fp o) (ro_fp offs) UnexpectedFpOffset in
      Ok {| r_start := r_start r;
            r_offsets := Some {| ro_cfa := ro_cfa offs; ro_ra := ra; ro_fp := fp |};
            r_mangled := r_mangled r; r_base := r_base r |}
  end.

(** [FuncDescBuilder::row], write.rs:448-491: the builder afterwards and the
    result. *)
Definition fdb_row_st (b : fdb) (r : row) : fdb * outcome row_error unit :=
  if 0x10000000 <=? r_start r then (b, Err StartAddressTooLarge)
  else if match fb_rep_size b with Some rep => rep <=? r_start r | None => false end
  then (b, Err StartAddressLargerThanRepSize)
  else if fb_size b <=? r_start r then (b, Err StartAddressOutsideFde)
  else
    match normalise_offsets (fb_options b) r with
    | Err er => (b, Err er)
    | Panic => (b, Panic)
    | Ok r' =>
        match bt_get (r_start r') (fb_fres b) with
        | Some _ => (b, Err DuplicateRow)
        | None => (fdb_set_fres (bt_insert (r_start r') r' (fb_fres b)) b, Ok tt)
        end
    end.

(** The same for callers that stop at the first error ([row(..)?] and
    [row(..).unwrap()]): the builder after a successful call. *)
Definition fdb_row (b : fdb) (r : row) : outcome row_error fdb :=
  match fdb_row_st b r with
  | (b', Ok _) => Ok b'
  | (_, Err er) => Err er
  | (_, Panic) => Panic
  end.

(** ** The section builder, write.rs:67-342 *)

(** [SFrameBuilder]. *)
Record sfb : Type := Sfb {
  sb_options : sframe_options;
  sb_fdes : btree fdb }.

(** [SFrameBuilder::new], write.rs:74-79. *)
Definition sfb_new (o : sframe_options) : sfb := {| sb_options := o; sb_fdes := [] |}.

(** [SFrameBuilder::fde], write.rs:89-93. *)
Definition sfb_fde (s : sfb) (b : fdb) : outcome never sfb :=
  if options_eqb (sb_options s) (fb_options b)
  then Ok {| sb_options := sb_options s; sb_fdes := bt_insert (fb_start b) b (sb_fdes s) |}
  else Panic.

Definition pauth_eqb (a b : pauth) : bool :=
  match a, b with KeyA, KeyA => true | KeyB, KeyB => true | _, _ => false end.

(** [BTreeMap<u32, FrameRowBuilder>: PartialEq]. *)
Fixpoint fres_eqb (a b : btree row) : bool :=
  match a, b with
  | [], [] => true
  | (k, r) :: a', (k', r') :: b' => (k =? k') && row_eqb r r' && fres_eqb a' b'
  | _, _ => false
  end.

(** The [match] at write.rs:140-147: [true] means "do not merge". *)
Definition rep_mismatch (current next : fdb) : bool :=
  match fb_rep_size current, fb_rep_size next with
  | Some a, Some b => negb (a =? b)
  | Some a, None => negb (a =? fb_size next)
  | None, Some b => negb (b =? fb_size current)
  | None, None => negb (fb_size current =? fb_size next) || (255 <? fb_size current)
  end.

(** The merged descriptor, write.rs:153-158. *)
Definition merged_fde (current next : fdb) : fdb :=
  {| fb_options := fb_options current; fb_start := fb_start current;
     fb_size := fb_size current + fb_size next;
     fb_rep_size := Some match fb_rep_size current, fb_rep_size next with
                         | Some a, _ => a
                         | None, Some b => b
                         | None, None => as_u 8 (fb_size current)
                         end;
     fb_pauth := fb_pauth current; fb_fres := fb_fres current |}.

(** One iteration's decision, write.rs:124-151: [Ok true] means merge. *)
Definition should_merge {E} (md : mode) (current next : fdb) : outcome E bool :=
  if debug_asserts md && negb (options_eqb (fb_options current) (fb_options next)) then Panic
  else if negb (pauth_eqb (fb_pauth current) (fb_pauth next)) then Ok false
  else
    let* relative := sub_i32 md (fb_start current) (fb_start next) in
    if negb (as_u 32 relative =? fb_size current) then Ok false
    else if u32_max <? fb_size current + fb_size next then Ok false
    else if rep_mismatch current next then Ok false
    else if negb (fres_eqb (fb_fres current) (fb_fres next)) then Ok false
    else Ok true.

(** The loop of [merge_adjacent_fdes], write.rs:111-162.  Writing through
    [range_mut]'s reference is an insertion at the entry's key. *)
Fixpoint merge_fdes_loop (fuel : nat) (md : mode) (address : Z) (m : btree fdb)
  : outcome fuel_error (btree fdb) :=
  match fuel with
  | O => Err OutOfFuel
  | S k =>
      match bt_range_from address m with
      | (key, current) :: (_, next) :: _ =>
          let saved := address in
          let address := fb_start next in
          let* merge := should_merge md current next in
          if merge : bool
          then merge_fdes_loop k md saved
                 (bt_remove address (bt_insert key (merged_fde current next) m))
          else merge_fdes_loop k md address m
      | _ => Ok m
      end
  end.

(** [SFrameBuilder::merge_adjacent_fdes], write.rs:105-163. *)
Definition merge_adjacent_fdes (md : mode) (s : sfb) : outcome fuel_error sfb :=
  match bt_first (sb_fdes s) with
  | None => Ok s
  | Some (address, _) =>
      let* m := merge_fdes_loop (S (length (sb_fdes s))) md address (sb_fdes s) in
      Ok {| sb_options := sb_options s; sb_fdes := m |}
  end.

(** [EmitError], write.rs:688-701. *)
Inductive emit_error : Type := OverlappingFdes | SectionTooLarge.

(** [self.fdes.values().pairs(..).any(|v| v)], write.rs:176-183 and 719-758:
    consecutive pairs, stopping at the first [true]. *)
Fixpoint has_overlap {E} (md : mode) (l : list fdb) : outcome E bool :=
  match l with
  | a :: ((b :: _) as t) =>
      if debug_asserts md && negb (fb_start a <=? fb_start b) then Panic
      else
        let* d := sub_i32 md (fb_start b) (fb_start a) in
        if as_u 32 d <? fb_size a then Ok true else has_overlap md t
  | _ => Ok false
  end.

(** write.rs:195-207: the width of the start address field. *)
Definition addr_type {E} (max_offset : Z) : outcome E addr_size :=
  if (0 <=? max_offset) && (max_offset <=? 0x7F) then Ok SzU8
  else if (0 <=? max_offset) && (max_offset <=? 0x7FFF) then Ok SzU16
  else if (0 <=? max_offset) && (max_offset <=? 0x7FFFFFFF) then Ok SzU32
  else Panic.

Definition max_offset (b : fdb) : Z :=
  match bt_last (fb_fres b) with Some (_, r) => r_start r | None => 0 end.

(** write.rs:224-228 *)
Definition addr_fre_type (a : addr_size) : fre_type :=
  match a with SzU8 => Addr1 | SzU16 => Addr2 | SzU32 => Addr4 end.
(** write.rs:258-262 *)
Definition addr_fre_offset (a : addr_size) : fre_offset :=
  match a with SzU8 => Off1B | SzU16 => Off2B | SzU32 => Off4B end.
(** Bytes per value. *)
Definition addr_bytes (a : addr_size) : nat :=
  match a with SzU8 => 1 | SzU16 => 2 | SzU32 => 4 end.

(** The [ArrayVec] of offsets, write.rs:243-255. *)
Definition row_values (r : row) : list Z :=
  match r_offsets r with
  | None => []
  | Some o =>
      ro_cfa o ::
      (match ro_ra o with Some ra => [ra] | None => [] end) ++
      (match ro_fp o with Some fp => [fp] | None => [] end)
  end.

(** write.rs:238-241 *)
Definition row_offset_type (r : row) : addr_size :=
  match r_offsets r with Some o => offset_type o | None => SzU8 end.

(** write.rs:257-265 *)
Definition row_info {E} (r : row) : outcome E Z :=
  let i := set_offset_size (addr_fre_offset (row_offset_type r)) 0 in
  let* i := set_offset_count (zlen (row_values r)) i in
  Ok (set_mangled_ra_p (r_mangled r) (set_cfa_base_reg_id (r_base r) i)).

(** The bytes of one row, write.rs:237-311.  [enc] keeps the low bytes, as the
    casts [as u8], [as u16], [as i8], [as i16] do. *)
Definition row_bytes {E} (e : endian) (addr_ty : addr_size) (r : row) : outcome E bytes :=
  let* info := row_info r in
  Ok (enc e (addr_bytes addr_ty) (r_start r) ++ enc e 1 info ++
      concat (map (enc e (addr_bytes (row_offset_type r))) (row_values r))).

(** [for fre in fde.fres.values()], write.rs:237-311. *)
Fixpoint rows_bytes {E} (e : endian) (addr_ty : addr_size) (rows : list row) : outcome E bytes :=
  match rows with
  | [] => Ok []
  | r :: t =>
      let* b := row_bytes e addr_ty r in
      let* bs := rows_bytes e addr_ty t in
      Ok (b ++ bs)
  end.

(** The descriptor written for an FDE, write.rs:210-233. *)
Definition fde_raw (b : fdb) (addr_ty : addr_size) (offset : Z) : raw_fde2 :=
  {| f2_start_address := fb_start b;
     f2_size := fb_size b;
     f2_start_fre_off := offset;
     f2_num_fres := zlen (fb_fres b);
     f2_info := set_pauth_key (fb_pauth b)
                  (set_fretype (addr_fre_type addr_ty) (set_fdetype (fdb_fdetype b) 0));
     f2_rep_size := match fb_rep_size b with Some rep => rep | None => 0 end;
     f2_padding := 0 |}.

(** State of the emission loop: the FDE table written so far (without the
    header placeholder), the FRE bytes, and the number of FREs. *)
Record emit_state : Type := EmitState {
  es_table : bytes;
  es_fres : bytes;
  es_count : Z }.

(** One iteration of the emission loop, write.rs:189-312. *)
Definition emit_fde (e : endian) (st : emit_state) (b : fdb) : outcome emit_error emit_state :=
  let offset := zlen (es_fres st) in
  if negb (fits_u32 offset) then Err SectionTooLarge
  else
    let* addr_ty := addr_type (max_offset b) in
    if negb (fits_u32 (zlen (fb_fres b))) then Err SectionTooLarge
    else
      let* rows := rows_bytes e addr_ty (bt_values (fb_fres b)) in
      Ok {| es_table := es_table st ++ fde2_bytes e (fde_raw b addr_ty offset);
            es_fres := es_fres st ++ rows;
            es_count := es_count st + zlen (fb_fres b) |}.

Fixpoint emit_fdes (e : endian) (st : emit_state) (l : list fdb) : outcome emit_error emit_state :=
  match l with
  | [] => Ok st
  | b :: t => let* st' := emit_fde e st b in emit_fdes e st' t
  end.

Definition opt_or_zero (o : option Z) : Z := match o with Some z => z | None => 0 end.

(** [SFrameBuilder::build], write.rs:165-341.  The zero-filled placeholder for
    the header (line 174) is overwritten by the header (line 338), so the output
    is header ++ table ++ rows. *)
Definition build (md : mode) (e : endian) (s : sfb) : outcome emit_error bytes :=
  let* ov := has_overlap md (bt_values (sb_fdes s)) in
  if ov : bool then Err OverlappingFdes
  else
    let* st := emit_fdes e (EmitState [] [] 0) (bt_values (sb_fdes s)) in
    if negb (fits_u32 (es_count st)) then Err SectionTooLarge
    else if negb (fits_u32 (zlen (sb_fdes s))) then Err SectionTooLarge
    else if negb (fits_u32 (zlen (es_fres st))) then Err SectionTooLarge
    else if negb (fits_u32 (zlen (es_table st))) then Err SectionTooLarge
    else
      let h := {| h_preamble := Preamble MAGIC VERSION_V2 (so_flags (sb_options s));
                  h_abi_arch := so_abi (sb_options s);
                  h_fixed_fp_offset := opt_or_zero (so_fixed_fp (sb_options s));
                  h_fixed_ra_offset := opt_or_zero (so_fixed_ra (sb_options s));
                  h_auxhdr_len := 0;
                  h_num_fdes := zlen (sb_fdes s);
                  h_num_fres := es_count st;
                  h_fre_len := zlen (es_fres st);
                  h_fdeoff := 0;
                  h_freoff := zlen (es_table st) |} in
      Ok (header_bytes e h ++ es_table st ++ es_fres st).
