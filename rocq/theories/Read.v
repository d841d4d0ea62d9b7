(** The reader: [crates/sframe/src/read.rs]. *)
From Verif Require Import Base Raw.

(** [ReadError], error.rs:8-35.  [UnsupportedFdeType] is never constructed by
    the reader and is kept for completeness. *)
Inductive read_error : Type :=
| UnsupportedVersion (v : Z)
| UnsupportedFdeType (t : fde_type)
| UnsupportedFreType (t : fre_type)
| UnsupportedFreOffset (o : fre_offset)
| UnexpectedEof
| IncorrectEndian
| InvalidFreOffsetCount (c : Z)
| InvalidFdeRepBlockSize
| MissingFreOffset.

(** [FdeList], read.rs:239-243. *)
Inductive fde_list : Type :=
| ListV1 (l : list raw_fde1)
| ListV2 (l : list raw_fde2).

(** [SFrame], read.rs:11-23. *)
Record sframe : Type := SFrame {
  sf_preamble : preamble;
  sf_abi_arch : Z;
  sf_fixed_fp : Z;
  sf_fixed_ra : Z;
  sf_num_fdes : Z;
  sf_num_fres : Z;
  sf_aux : bytes;
  sf_fdes : fde_list;
  sf_fres : bytes }.

(** [slice.get(..n)]. *)
Definition get_to (n : Z) (bs : bytes) : option bytes :=
  if n <=? zlen bs then Some (firstn (Z.to_nat n) bs) else None.
(** [slice.get(n..)]. *)
Definition get_from (n : Z) (bs : bytes) : option bytes :=
  if n <=? zlen bs then Some (skipn (Z.to_nat n) bs) else None.
(** [slice.get(a..b)]. *)
Definition get_range (a b : Z) (bs : bytes) : option bytes :=
  if (a <=? b) && (b <=? zlen bs)
  then Some (firstn (Z.to_nat (b - a)) (skipn (Z.to_nat a) bs))
  else None.

(** [.ok_or(e)?] *)
Definition ok_or {E A} (o : option A) (e : E) : outcome E A :=
  match o with Some a => Ok a | None => Err e end.

(** [SFrame::load], read.rs:26-95. *)
Definition load (md : mode) (e : endian) (section : bytes) : outcome read_error sframe :=
  let* pre := ok_or (preamble_from_prefix e section) UnexpectedEof in
  if negb (pre_magic pre =? MAGIC) then Err IncorrectEndian
  else if negb ((pre_version pre =? VERSION_V1) || (pre_version pre =? VERSION_V2))
  then Err (UnsupportedVersion (pre_version pre))
  else
    let* h := ok_or (header_from_prefix e section) UnexpectedEof in
    let data := skipn HEADER_SIZE section in
    let* aux := ok_or (get_to (h_auxhdr_len h) data) UnexpectedEof in
    let data := skipn (length aux) data in
    let* tbl := ok_or (get_from (h_fdeoff h) data) UnexpectedEof in
    let* fdes :=
      if pre_version pre =? VERSION_V1 then
        let* r := ok_or (slice_from_prefix md FDE1_SIZE (fde1_decode e) tbl (h_num_fdes h)) UnexpectedEof in
        Ok (ListV1 (fst r))
      else if pre_version pre =? VERSION_V2 then
        let* r := ok_or (slice_from_prefix md FDE2_SIZE (fde2_decode e) tbl (h_num_fdes h)) UnexpectedEof in
        Ok (ListV2 (fst r))
      else Panic (* the unreachable!() at read.rs:74 *)
    in
    let* fre_end := add_usize md (h_freoff h) (h_fre_len h) in
    let* fres := ok_or (get_range (h_freoff h) fre_end data) UnexpectedEof in
    Ok {| sf_preamble := h_preamble h;
          sf_abi_arch := h_abi_arch h;
          sf_fixed_fp := h_fixed_fp_offset h;
          sf_fixed_ra := h_fixed_ra_offset h;
          sf_num_fdes := h_num_fdes h;
          sf_num_fres := h_num_fres h;
          sf_aux := aux;
          sf_fdes := fdes;
          sf_fres := fres |}.

(** read.rs:98-100, 103-105, 108-110, 116-118, 149-155 *)
Definition version (sf : sframe) : Z := pre_version (sf_preamble sf).
Definition flags (sf : sframe) : Z := pre_flags (sf_preamble sf).
Definition abi (sf : sframe) : Z := sf_abi_arch sf.
Definition raw_aux (sf : sframe) : bytes := sf_aux sf.
Definition num_fdes (sf : sframe) : Z := sf_num_fdes sf.
Definition num_fres (sf : sframe) : Z := sf_num_fres sf.

(** read.rs:128-133 *)
Definition fixed_fp_offset (sf : sframe) : option Z :=
  if sf_fixed_fp sf =? 0 then None else Some (sf_fixed_fp sf).
(** read.rs:142-147 *)
Definition fixed_ra_offset (sf : sframe) : option Z :=
  if sf_fixed_ra sf =? 0 then None else Some (sf_fixed_ra sf).

(** ** Descriptors *)

(** [Fde], read.rs:245-249. *)
Inductive fde : Type :=
| FdeV1 (f : raw_fde1)
| FdeV2 (f : raw_fde2).

(** read.rs:253-258 *)
Definition fde_start_address (f : fde) : Z :=
  match f with FdeV1 r => f1_start_address r | FdeV2 r => f2_start_address r end.
(** read.rs:261-266 *)
Definition fde_size (f : fde) : Z :=
  match f with FdeV1 r => f1_size r | FdeV2 r => f2_size r end.
(** read.rs:269-274 *)
Definition fde_start_fre_off (f : fde) : Z :=
  match f with FdeV1 r => f1_start_fre_off r | FdeV2 r => f2_start_fre_off r end.
(** read.rs:277-282 *)
Definition fde_num_fres (f : fde) : Z :=
  match f with FdeV1 r => f1_num_fres r | FdeV2 r => f2_num_fres r end.
(** read.rs:284-289 *)
Definition fde_info (f : fde) : Z :=
  match f with FdeV1 r => f1_info r | FdeV2 r => f2_info r end.
(** read.rs:291-296 *)
Definition fde_rep_size (f : fde) : option Z :=
  match f with FdeV1 _ => None | FdeV2 r => Some (f2_rep_size r) end.

(** The public [FdeType], read.rs:314-332. *)
Inductive pub_fde_type : Type := PPcInc | PPcMask | PPcMaskV1.

(** [Fde::fdetype], read.rs:298-309. *)
Definition fde_fdetype (f : fde) : pub_fde_type :=
  match f with
  | FdeV1 r => match fdetype (f1_info r) with PcInc => PPcInc | PcMask => PPcMaskV1 end
  | FdeV2 r => match fdetype (f2_info r) with PcInc => PPcInc | PcMask => PPcMask end
  end.

(** [FuncDescEntry], read.rs:340-343. *)
Record entry : Type := Entry {
  en_fde : fde;
  en_fres : bytes }.

(** read.rs:354-377 *)
Definition en_start_address (en : entry) : Z := fde_start_address (en_fde en).
Definition en_size (en : entry) : Z := fde_size (en_fde en).
Definition en_fdetype (en : entry) : pub_fde_type := fde_fdetype (en_fde en).
Definition en_pauth_key (en : entry) : pauth := pauth_key (fde_info (en_fde en)).
Definition en_rep_block_size (en : entry) : option Z := fde_rep_size (en_fde en).

(** [FuncDescEntry::contains], read.rs:380-387. *)
Definition contains {E} (md : mode) (en : entry) (address : Z) : outcome E bool :=
  let start := en_start_address en in
  if address <? start then Ok false
  else
    let* d := sub_i32 md address start in
    Ok (as_u 32 d <? en_size en).

(** ** The FDE iterator, read.rs:707-772 *)

(** [FuncDescIter]: a slice iterator (the entries not yet delivered) and the FRE
    bytes. *)
Record fde_iter : Type := FdeIter {
  it_fdes : list fde;
  it_fres : bytes }.

(** [SFrame::fdes], read.rs:160-170. *)
Definition fdes (sf : sframe) : fde_iter :=
  {| it_fdes := match sf_fdes sf with
                | ListV1 l => map FdeV1 l
                | ListV2 l => map FdeV2 l
                end;
     it_fres := sf_fres sf |}.

(** [FuncDescIter::next], read.rs:723-735.  Out-of-range offsets give an empty
    slice ([unwrap_or_default]). *)
Definition fdi_next (it : fde_iter) : option entry * fde_iter :=
  match it_fdes it with
  | [] => (None, it)
  | f :: rest =>
      let rows := match get_from (fde_start_fre_off f) (it_fres it) with
                  | Some r => r
                  | None => []
                  end in
      (Some {| en_fde := f; en_fres := rows |},
       {| it_fdes := rest; it_fres := it_fres it |})
  end.

(** [FuncDescIter::nth], read.rs:737-747.  [slice::Iter::nth] exhausts the
    iterator when [n] is past the end.  The row slice is the whole FRE
    sub-section. *)
Definition fdi_nth (n : nat) (it : fde_iter) : option entry * fde_iter :=
  match skipn n (it_fdes it) with
  | [] => (None, {| it_fdes := []; it_fres := it_fres it |})
  | f :: rest =>
      (Some {| en_fde := f; en_fres := it_fres it |},
       {| it_fdes := rest; it_fres := it_fres it |})
  end.

(** [FuncDescIter::next_back], read.rs:758-768. *)
Definition fdi_next_back (it : fde_iter) : option entry * fde_iter :=
  match rev (it_fdes it) with
  | [] => (None, it)
  | f :: rest =>
      (Some {| en_fde := f; en_fres := it_fres it |},
       {| it_fdes := rev rest; it_fres := it_fres it |})
  end.

(** [FuncDescIter::size_hint], read.rs:749-754: both bounds of a slice iterator
    are its length. *)
Definition fdi_size_hint (it : fde_iter) : Z * option Z :=
  (zlen (it_fdes it), Some (zlen (it_fdes it))).

(** A [for] loop over [next]: everything the iterator still delivers.  Fuel is
    the number of entries left; [fdi_collect_spec] shows it suffices. *)
Fixpoint fdi_collect (fuel : nat) (it : fde_iter) : list entry :=
  match fuel with
  | O => []
  | S k => match fdi_next it with
           | (Some en, it') => en :: fdi_collect k it'
           | (None, _) => []
           end
  end.

(** All entries of a section, in iteration order. *)
Definition all_fdes (sf : sframe) : list entry :=
  fdi_collect (S (length (it_fdes (fdes sf)))) (fdes sf).

(** ** Rows *)

(** [FrameRowEntry], read.rs:511-517.  [fr_offsets] has three elements. *)
Record fre : Type := Fre {
  fr_fde : fde;
  fr_start : Z;
  fr_info : Z;
  fr_offsets : list Z }.

(** The header of a row: start address field of [n] bytes and the info byte
    ([v2::FrameRowEntry<T>::ref_from_prefix] and the [get(size_of_val..)] after
    it, read.rs:522-548). *)
Definition fre_header (e : endian) (n : nat) (bs : bytes) : outcome read_error (Z * Z * bytes) :=
  if (length bs <? n + 1)%nat then Err UnexpectedEof
  else Ok (rd_u e 0 n bs, rd_u e n 1 bs, skipn (n + 1) bs).

(** [array::from_fn(|i| offsets.get(i).copied().unwrap_or(0))], read.rs:567-594. *)
Definition pad3 (l : list Z) : list Z :=
  [nth 0 l 0; nth 1 l 0; nth 2 l 0].

(** The offsets of a row: [count] signed integers of [n] bytes
    ([slice_from_prefix], read.rs:560-595). *)
Definition fre_read_offsets (md : mode) (e : endian) (n : nat) (count : Z) (bs : bytes)
  : outcome read_error (list Z * bytes) :=
  let* r := ok_or (slice_from_prefix md n (fun b => rd_s e 0 n b) bs count) UnexpectedEof in
  Ok (pad3 (fst r), snd r).

(** [FrameRowEntry::load], read.rs:520-615. *)
Definition fre_load (md : mode) (e : endian) (f : fde) (bs : bytes)
  : outcome read_error (fre * bytes) :=
  let* hdr :=
    match fretype (fde_info f) with
    | Addr1 => fre_header e 1 bs
    | Addr2 => fre_header e 2 bs
    | Addr4 => fre_header e 4 bs
    | ty => Err (UnsupportedFreType ty)
    end in
  let '(start, info, obytes) := hdr in
  let count := offset_count info in
  if negb ((0 <=? count) && (count <=? 3)) then Err (InvalidFreOffsetCount count)
  else
    let* r :=
      match offset_size info with
      | Off1B => fre_read_offsets md e 1 count obytes
      | Off2B => fre_read_offsets md e 2 count obytes
      | Off4B => fre_read_offsets md e 4 count obytes
      | ty => Err (UnsupportedFreOffset ty)
      end in
    (* assert!(start_address < fde.size()), read.rs:600-605 *)
    if start <? fde_size f
    then Ok ({| fr_fde := f; fr_start := start; fr_info := info; fr_offsets := fst r |}, snd r)
    else Panic.

(** [FrameRowEntry::start_address], read.rs:618-629. *)
Definition fre_start_address {E} (md : mode) (fr : fre) : outcome E Z :=
  let sum := fde_start_address (fr_fde fr) + fr_start fr in
  if debug_asserts md then
    if in_i32b sum then Ok sum else Panic
  else Ok (as_s 32 sum).

(** read.rs:633-635 *)
Definition fre_start_address_offset (fr : fre) : Z := fr_start fr.

(** [FrameRowEntry::offsets], read.rs:637-643. *)
Definition fre_offsets (fr : fre) : list Z :=
  let count := offset_count (fr_info fr) in
  if count <=? zlen (fr_offsets fr)
  then firstn (Z.to_nat count) (fr_offsets fr)
  else fr_offsets fr.

(** read.rs:646-651 *)
Definition fre_cfa_offset (fr : fre) : outcome read_error Z :=
  ok_or (nth_error (fre_offsets fr) 0) MissingFreOffset.

(** read.rs:654-663 *)
Definition fre_ra_offset (fr : fre) (sf : sframe) : outcome read_error Z :=
  match fixed_ra_offset sf with
  | Some o => Ok o
  | None => ok_or (nth_error (fre_offsets fr) 1) MissingFreOffset
  end.

(** read.rs:666-681 *)
Definition fre_fp_offset (fr : fre) (sf : sframe) : outcome read_error Z :=
  match fixed_fp_offset sf with
  | Some o => Ok o
  | None =>
      let index := match fixed_ra_offset sf with Some _ => 1%nat | None => 2%nat end in
      ok_or (nth_error (fre_offsets fr) index) MissingFreOffset
  end.

(** read.rs:684-692 *)
Definition fre_cfa_base_reg_id (fr : fre) : base_reg := cfa_base_reg_id (fr_info fr).
Definition fre_mangled_ra_p (fr : fre) : bool := mangled_ra_p (fr_info fr).

(** ** The row iterator, read.rs:774-825 *)

(** [FrameRowIter]. *)
Record fre_iter : Type := FreIter {
  ri_fde : fde;
  ri_fres : bytes;
  ri_index : Z }.

(** An item of the iterator: [Result<FrameRowEntry, ReadError>]. *)
Definition fre_item : Type := (fre + read_error)%type.

(** [FrameRowIter::new] / [FuncDescEntry::fres], read.rs:349-351, 783-789. *)
Definition fres (en : entry) : fre_iter :=
  {| ri_fde := en_fde en; ri_fres := en_fres en; ri_index := 0 |}.

(** [FrameRowIter::next], read.rs:795-813.  [index += 1] cannot overflow because
    [index < num_fres <= u32::MAX]. *)
Definition fri_next (md : mode) (e : endian) (it : fre_iter)
  : outcome never (option fre_item * fre_iter) :=
  if fde_num_fres (ri_fde it) <=? ri_index it then Ok (None, it)
  else
    match fre_load md e (ri_fde it) (ri_fres it) with
    | Ok (fr, rest) =>
        Ok (Some (inl fr), {| ri_fde := ri_fde it; ri_fres := rest; ri_index := ri_index it + 1 |})
    | Err er =>
        Ok (Some (inr er), {| ri_fde := ri_fde it; ri_fres := ri_fres it; ri_index := u32_max |})
    | Panic => Panic
    end.

(** [FrameRowIter::size_hint], read.rs:815-822. *)
Definition fri_size_hint (it : fre_iter) : Z * option Z :=
  if fde_num_fres (ri_fde it) <=? ri_index it then (0, Some 0)
  else
    let bound := fde_num_fres (ri_fde it) - ri_index it in
    (Z.min 1 bound, Some bound).

(** A [for] loop over the iterator: all its items.  Each successful step
    consumes at least two bytes, so the length of the byte string plus two is
    enough fuel (theorem [fri_collect_fuel]). *)
Fixpoint fri_collect (fuel : nat) (md : mode) (e : endian) (it : fre_iter)
  : outcome fuel_error (list fre_item) :=
  match fuel with
  | O => Err OutOfFuel
  | S k =>
      match fri_next md e it with
      | Ok (None, _) => Ok []
      | Ok (Some x, it') =>
          match fri_collect k md e it' with
          | Ok l => Ok (x :: l)
          | Err er => Err er
          | Panic => Panic
          end
      | Err er => match er with end
      | Panic => Panic
      end
  end.

Definition fri_fuel (it : fre_iter) : nat := S (S (length (ri_fres it))).

(** All items of [entry.fres()]. *)
Definition all_fres (md : mode) (e : endian) (en : entry) : outcome fuel_error (list fre_item) :=
  fri_collect (fri_fuel (fres en)) md e (fres en).

(** ** Searching *)

(** Three-way comparison result, [core::cmp::Ordering]. *)
Inductive ordering : Type := Less | Equal | Greater.

(** The closure passed to [binary_search_by], read.rs:183-194 and 197-208. *)
Definition search_cmp {E} (md : mode) (address : Z) (f : fde) : outcome E ordering :=
  if address <? fde_start_address f then Ok Less
  else
    let* reladdr := sub_i32 md address (fde_start_address f) in
    if fde_size f <=? as_u 32 reladdr then Ok Greater else Ok Equal.

(** [slice::binary_search_by] of Rust 1.52-1.81: probe the middle of
    [left..right], go right on [Less], left on [Greater], stop on [Equal]. *)
Fixpoint bs_left_right (fuel : nat) (cmp : fde -> outcome fuel_error ordering)
    (l : list fde) (left right : nat) : outcome fuel_error (option nat) :=
  match fuel with
  | O => Err OutOfFuel
  | S k =>
      if (left <? right)%nat then
        let mid := (left + (right - left) / 2)%nat in
        match nth_error l mid with
        | None => Panic (* out of bounds: never happens *)
        | Some f =>
            let* c := cmp f in
            match c with
            | Less => bs_left_right k cmp l (S mid) right
            | Greater => bs_left_right k cmp l left mid
            | Equal => Ok (Some mid)
            end
        end
      else Ok None
  end.

(** [slice::binary_search_by] of Rust 1.82 and later: narrow [base..base+size]
    to one element, without early exit. *)
Fixpoint bs_base (fuel : nat) (cmp : fde -> outcome fuel_error ordering)
    (l : list fde) (base size : nat) : outcome fuel_error (option nat) :=
  match fuel with
  | O => Err OutOfFuel
  | S k =>
      if (1 <? size)%nat then
        let half := (size / 2)%nat in
        let mid := (base + half)%nat in
        match nth_error l mid with
        | None => Panic
        | Some f =>
            let* c := cmp f in
            match c with
            | Greater => bs_base k cmp l base (size - half)
            | _ => bs_base k cmp l mid (size - half)
            end
        end
      else
        match nth_error l base with
        | None => Panic
        | Some f =>
            let* c := cmp f in
            match c with
            | Equal => Ok (Some base)
            | _ => Ok None
            end
        end
  end.

(** [binary_search_by(..).ok()]. *)
Definition binary_search (md : mode) (cmp : fde -> outcome fuel_error ordering) (l : list fde)
  : outcome fuel_error (option nat) :=
  match bsearch md with
  | BsLeftRight => bs_left_right (S (length l)) cmp l 0 (length l)
  | BsBase => match l with
              | [] => Ok None
              | _ => bs_base (S (length l)) cmp l 0 (length l)
              end
  end.

(** [iter.find(|fde| fde.contains(address))]. *)
Fixpoint fdi_find (fuel : nat) (md : mode) (address : Z) (it : fde_iter)
  : outcome fuel_error (option entry) :=
  match fuel with
  | O => Err OutOfFuel
  | S k =>
      match fdi_next it with
      | (None, _) => Ok None
      | (Some en, it') =>
          let* c := contains md en address in
          if c : bool then Ok (Some en) else fdi_find k md address it'
      end
  end.

(** [SFrame::fde_for_address], read.rs:173-214. *)
Definition fde_for_address (md : mode) (sf : sframe) (address : Z)
  : outcome fuel_error (option entry) :=
  let it := fdes sf in
  if negb (Z.land (flags sf) FLAG_FDE_SORTED =? FLAG_FDE_SORTED)
  then fdi_find (S (length (it_fdes it))) md address it
  else
    let* idx := binary_search md (search_cmp md address) (it_fdes it) in
    match idx with
    | None => Ok None
    | Some i => Ok (fst (fdi_nth i it))
    end.

(** The [for fre in self.fres()] loops of [get_fre_for_address]: the first row
    satisfying [p], or the first error. *)
Fixpoint fri_find (fuel : nat) (md : mode) (e : endian) (p : fre -> bool) (it : fre_iter)
  : outcome (fuel_error + read_error) (option fre) :=
  match fuel with
  | O => Err (inl OutOfFuel)
  | S k =>
      match fri_next md e it with
      | Ok (None, _) => Ok None
      | Ok (Some (inr er), _) => Err (inr er)
      | Ok (Some (inl fr), it') => if p fr then Ok (Some fr) else fri_find k md e p it'
      | Err er => match er with end
      | Panic => Panic
      end
  end.

(** [FuncDescEntry::get_fre_for_address], read.rs:399-450.  [unwrap] on
    [rep_block_size] panics for a v1 entry, which never has type [PcMask]. *)
Definition get_fre_for_address (md : mode) (e : endian) (en : entry) (address : Z)
  : outcome (fuel_error + read_error) (option fre) :=
  if address <? en_start_address en then Ok None
  else
    let* d := sub_i32 md address (en_start_address en) in
    let relative := as_u 32 d in
    if en_size en <? relative then Ok None
    else
      let it := fres en in
      match en_fdetype en with
      | PPcInc => fri_find (fri_fuel it) md e (fun fr => fr_start fr <=? relative) it
      | PPcMask =>
          match en_rep_block_size en with
          | None => Panic
          | Some rep =>
              if rep =? 0 then Err (inr InvalidFdeRepBlockSize)
              else
                let modrel := relative mod rep in
                fri_find (fri_fuel it) md e (fun fr => fr_start fr <=? modrel) it
          end
      | PPcMaskV1 =>
          fri_find (fri_fuel it) md e
            (fun fr => let mask := fr_start fr in mask <=? Z.land relative mask) it
      end.
