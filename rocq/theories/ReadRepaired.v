(** The look-ups of [Repaired.v] with two more repairs, and with the key.  Nothing here
    is in /repo.

    - [fix_bits]: the FRE type, the FDE type and the key are taken from bits 0-3, 4 and 5
      of the info byte, as in the specification, instead of bits 0-2, 3 and 4
      (raw/v2.rs:108-150); the values 8 to 15 of the FRE type are unsupported like 3 to 7;
    - [fix_tail]: a row that starts at or behind the end of the function is read like any
      other instead of tripping the assertion (read.rs:600-605).

    [fix_sub] also covers [contains] (read.rs:380-387) here. *)
From Verif Require Import Base Raw Read SectionSpec Repaired.

Record rfixes : Type := RFixes { fix_look : repairs; fix_bits : bool; fix_tail : bool }.
Definition no_rfixes : rfixes := RFixes no_repairs false false.
Definition all_rfixes : rfixes := RFixes all_repairs true true.

(** raw/v2.rs:108-150 *)
Definition fretype_with (fx : rfixes) (i : Z) : fre_type :=
  if fix_bits fx then
    match Z.land i 0xF with
    | 0 => Addr1 | 1 => Addr2 | 2 => Addr4
    | 3 => FtReserved3 | 4 => FtReserved4 | 5 => FtReserved5 | 6 => FtReserved6
    | _ => FtReserved7
    end
  else fretype i.
Definition fdetype_with (fx : rfixes) (i : Z) : fde_type :=
  if fix_bits fx then (if Z.land (Z.shiftr i 4) 1 =? 0 then PcInc else PcMask) else fdetype i.
Definition pauth_key_with (fx : rfixes) (i : Z) : pauth :=
  if fix_bits fx then (if Z.land (Z.shiftr i 5) 1 =? 0 then KeyA else KeyB) else pauth_key i.

(** read.rs:298-309 *)
Definition fde_fdetype_with (fx : rfixes) (f : fde) : pub_fde_type :=
  match f with
  | FdeV1 r => match fdetype_with fx (f1_info r) with PcInc => PPcInc | PcMask => PPcMaskV1 end
  | FdeV2 r => match fdetype_with fx (f2_info r) with PcInc => PPcInc | PcMask => PPcMask end
  end.

(** read.rs:380-387 *)
Definition contains_with {E} (fx : rfixes) (md : mode) (en : entry) (address : Z) : outcome E bool :=
  let start := en_start_address en in
  if address <? start then Ok false
  else
    let* d := distance (fix_look fx) md address start in
    Ok (as_u 32 d <? en_size en).

Fixpoint fdi_find_with (fuel : nat) (fx : rfixes) (md : mode) (address : Z) (it : fde_iter)
  : outcome fuel_error (option entry) :=
  match fuel with
  | O => Err OutOfFuel
  | S k =>
      match fdi_next it with
      | (None, _) => Ok None
      | (Some en, it') =>
          let* c := contains_with fx md en address in
          if c : bool then Ok (Some en) else fdi_find_with k fx md address it'
      end
  end.

(** read.rs:173-214 *)
Definition fde_for_address_whole (fx : rfixes) (md : mode) (sf : sframe) (address : Z)
  : outcome fuel_error (option entry) :=
  let it := fdes sf in
  if negb (Z.land (flags sf) FLAG_FDE_SORTED =? FLAG_FDE_SORTED)
  then fdi_find_with (S (length (it_fdes it))) fx md address it
  else
    let* idx := binary_search md (search_cmp_with (fix_look fx) md address) (it_fdes it) in
    match idx with
    | None => Ok None
    | Some i => Ok (fst (fdi_nth_with (fix_look fx) i it))
    end.

(** read.rs:520-615 *)
Definition fre_load_with (fx : rfixes) (md : mode) (e : endian) (f : fde) (bs : bytes)
  : outcome read_error (fre * bytes) :=
  let* hdr :=
    match fretype_with fx (fde_info f) with
    | Addr1 => fre_header e 1 bs
    | Addr2 => fre_header e 2 bs
    | Addr4 => fre_header e 4 bs
    | ty => Err (UnsupportedFreType ty)
    end in
  let '(start, info, obytes) := hdr in
  let count := offset_count info in
  if negb ((0 <=? count) && (count <=? 3)) then Err (InvalidFreOffsetCount count)
  else
    let* r :=
      match offset_size info with
      | Off1B => fre_read_offsets md e 1 count obytes
      | Off2B => fre_read_offsets md e 2 count obytes
      | Off4B => fre_read_offsets md e 4 count obytes
      | ty => Err (UnsupportedFreOffset ty)
      end in
    if fix_tail fx || (start <? fde_size f)
    then Ok ({| fr_fde := f; fr_start := start; fr_info := info; fr_offsets := fst r |}, snd r)
    else Panic.

(** read.rs:795-813 *)
Definition fri_next_with (fx : rfixes) (md : mode) (e : endian) (it : fre_iter)
  : outcome never (option fre_item * fre_iter) :=
  if fde_num_fres (ri_fde it) <=? ri_index it then Ok (None, it)
  else
    match fre_load_with fx md e (ri_fde it) (ri_fres it) with
    | Ok (fr, rest) =>
        Ok (Some (inl fr), {| ri_fde := ri_fde it; ri_fres := rest; ri_index := ri_index it + 1 |})
    | Err er =>
        Ok (Some (inr er), {| ri_fde := ri_fde it; ri_fres := ri_fres it; ri_index := u32_max |})
    | Panic => Panic
    end.

(** The first row that satisfies [p], or the last of those at the beginning that do. *)
Fixpoint fri_find_with (fuel : nat) (fx : rfixes) (md : mode) (e : endian) (p : fre -> bool) (it : fre_iter)
  : outcome (fuel_error + read_error) (option fre) :=
  match fuel with
  | O => Err (inl OutOfFuel)
  | S k =>
      match fri_next_with fx md e it with
      | Ok (None, _) => Ok None
      | Ok (Some (inr er), _) => Err (inr er)
      | Ok (Some (inl fr), it') => if p fr then Ok (Some fr) else fri_find_with k fx md e p it'
      | Err er => match er with end
      | Panic => Panic
      end
  end.
Fixpoint fri_last_with (fuel : nat) (fx : rfixes) (md : mode) (e : endian) (p : fre -> bool) (best : option fre)
  (it : fre_iter) : outcome (fuel_error + read_error) (option fre) :=
  match fuel with
  | O => Err (inl OutOfFuel)
  | S k =>
      match fri_next_with fx md e it with
      | Ok (None, _) => Ok best
      | Ok (Some (inr er), _) => Err (inr er)
      | Ok (Some (inl fr), it') => if p fr then fri_last_with k fx md e p (Some fr) it' else Ok best
      | Err er => match er with end
      | Panic => Panic
      end
  end.
Definition fri_pick_with (fx : rfixes) (md : mode) (e : endian) (p : fre -> bool) (it : fre_iter)
  : outcome (fuel_error + read_error) (option fre) :=
  if fix_pick (fix_look fx) then fri_last_with (fri_fuel it) fx md e p None it
  else fri_find_with (fri_fuel it) fx md e p it.

(** read.rs:399-450 *)
Definition get_fre_whole (fx : rfixes) (md : mode) (e : endian) (en : entry) (address : Z)
  : outcome (fuel_error + read_error) (option fre) :=
  if address <? en_start_address en then Ok None
  else
    let* d := distance (fix_look fx) md address (en_start_address en) in
    let relative := as_u 32 d in
    if en_size en <? relative then Ok None
    else
      let it := fres en in
      match fde_fdetype_with fx (en_fde en) with
      | PPcInc => fri_pick_with fx md e (fun fr => fr_start fr <=? relative) it
      | PPcMask =>
          match en_rep_block_size en with
          | None => Panic
          | Some rep =>
              if rep =? 0 then Err (inr InvalidFdeRepBlockSize)
              else
                let modrel := relative mod rep in
                fri_pick_with fx md e (fun fr => fr_start fr <=? modrel) it
          end
      | PPcMaskV1 =>
          fri_find_with (fri_fuel it) fx md e
            (fun fr => let mask := fr_start fr in mask <=? Z.land relative mask) it
      end.

(** The two look-ups, with the key of the function found. *)
Definition lookup_key (fx : rfixes) (md : mode) (e : endian) (sf : sframe) (a : Z)
  : outcome (fuel_error + read_error) (option (pauth * unwind)) :=
  match fde_for_address_whole fx md sf a with
  | Ok None => Ok None
  | Ok (Some en) =>
      match get_fre_whole fx md e en a with
      | Ok o => Ok (option_map (fun fr => (pauth_key_with fx (fde_info (en_fde en)), observed sf fr)) o)
      | Err er => Err er
      | Panic => Panic
      end
  | Err er => Err (inl er)
  | Panic => Panic
  end.
Definition without_key (o : outcome (fuel_error + read_error) (option (pauth * unwind)))
  : outcome (fuel_error + read_error) (option unwind) :=
  match o with Ok x => Ok (option_map snd x) | Err er => Err er | Panic => Panic end.
