(** [build] with some of four repairs made.  Nothing here is in /repo: this is what
    write.rs:165-341, write.rs:574-594 and raw/v2.rs:108-150 would be after small
    changes, to see that the mistakes found there are all there are.

    - [fix_gap]: the distance of neighbouring functions (write.rs:176-183) is computed
      in a type that holds it;
    - [fix_width]: the width of the offsets of a row (write.rs:574-594) is the smallest
      that holds each of them, instead of the one greatest in magnitude;
    - [fix_info]: the FDE type and the key are in bits 4 and 5 of the info byte, as in
      the specification, instead of bits 3 and 4 (raw/v2.rs:108-150);
    - [fix_refuse]: what the format cannot say is refused: a row with an FP offset
      but no RA offset where the header fixes none, and blocks of size zero. *)
From Verif Require Import Base BTree Raw Write.

Record wfixes : Type := WFixes { fix_gap : bool; fix_width : bool; fix_info : bool; fix_refuse : bool }.
Definition no_fixes : wfixes := WFixes false false false false.
Definition all_fixes : wfixes := WFixes true true true true.

(** write.rs:176-183 *)
Fixpoint has_overlap_with {E} (f : wfixes) (md : mode) (l : list fdb) : outcome E bool :=
  match l with
  | a :: ((b :: _) as t) =>
      if debug_asserts md && negb (fb_start a <=? fb_start b) then Panic
      else
        let* d := if fix_gap f then Ok (fb_start b - fb_start a) else sub_i32 md (fb_start b) (fb_start a) in
        if (if fix_gap f then d else as_u 32 d) <? fb_size a then Ok true else has_overlap_with f md t
  | _ => Ok false
  end.

(** write.rs:574-594, write.rs:238-241 *)
Definition within (n v : Z) : bool := (- n <=? v) && (v <? n).
Definition row_type_with (f : wfixes) (r : row) : addr_size :=
  if fix_width f
  then if forallb (within 0x80) (row_values r) then SzU8
       else if forallb (within 0x8000) (row_values r) then SzU16 else SzU32
  else row_offset_type r.

(** write.rs:257-265 *)
Definition row_info_with {E} (f : wfixes) (r : row) : outcome E Z :=
  let i := set_offset_size (addr_fre_offset (row_type_with f r)) 0 in
  let* i := set_offset_count (zlen (row_values r)) i in
  Ok (set_mangled_ra_p (r_mangled r) (set_cfa_base_reg_id (r_base r) i)).

(** write.rs:237-311 *)
Definition row_bytes_with {E} (f : wfixes) (e : endian) (addr_ty : addr_size) (r : row) : outcome E bytes :=
  let* info := row_info_with f r in
  Ok (enc e (addr_bytes addr_ty) (r_start r) ++ enc e 1 info ++
      concat (map (enc e (addr_bytes (row_type_with f r))) (row_values r))).
Fixpoint rows_bytes_with {E} (f : wfixes) (e : endian) (addr_ty : addr_size) (rows : list row) : outcome E bytes :=
  match rows with
  | [] => Ok []
  | r :: t =>
      let* b := row_bytes_with f e addr_ty r in
      let* bs := rows_bytes_with f e addr_ty t in
      Ok (b ++ bs)
  end.

(** raw/v2.rs:108-150 *)
Definition set_fretype_with (f : wfixes) (t : fre_type) (i : Z) : Z :=
  if fix_info f then Z.lor (Z.land i 0xF0) (fre_type_u8 t) else set_fretype t i.
Definition set_fdetype_with (f : wfixes) (t : fde_type) (i : Z) : Z :=
  if fix_info f then Z.lor (Z.land i 0xEF) (Z.shiftl (fde_type_u8 t) 4) else set_fdetype t i.
Definition set_pauth_key_with (f : wfixes) (k : pauth) (i : Z) : Z :=
  if fix_info f then Z.lor (Z.land i 0xDF) (Z.shiftl (pauth_u8 k) 5) else set_pauth_key k i.

(** write.rs:210-233 *)
Definition fde_raw_with (f : wfixes) (b : fdb) (addr_ty : addr_size) (offset : Z) : raw_fde2 :=
  {| f2_start_address := fb_start b;
     f2_size := fb_size b;
     f2_start_fre_off := offset;
     f2_num_fres := zlen (fb_fres b);
     f2_info := set_pauth_key_with f (fb_pauth b)
                  (set_fretype_with f (addr_fre_type addr_ty) (set_fdetype_with f (fdb_fdetype b) 0));
     f2_rep_size := match fb_rep_size b with Some rep => rep | None => 0 end;
     f2_padding := 0 |}.

(** write.rs:189-312 *)
Definition emit_fde_with (f : wfixes) (e : endian) (st : emit_state) (b : fdb) : outcome emit_error emit_state :=
  let offset := zlen (es_fres st) in
  if negb (fits_u32 offset) then Err SectionTooLarge
  else
    let* addr_ty := addr_type (max_offset b) in
    if negb (fits_u32 (zlen (fb_fres b))) then Err SectionTooLarge
    else
      let* rows := rows_bytes_with f e addr_ty (bt_values (fb_fres b)) in
      Ok {| es_table := es_table st ++ fde2_bytes e (fde_raw_with f b addr_ty offset);
            es_fres := es_fres st ++ rows;
            es_count := es_count st + zlen (fb_fres b) |}.
Fixpoint emit_fdes_with (f : wfixes) (e : endian) (st : emit_state) (l : list fdb) : outcome emit_error emit_state :=
  match l with
  | [] => Ok st
  | b :: t => let* st' := emit_fde_with f e st b in emit_fdes_with f e st' t
  end.

(** write.rs:165-341 *)
Definition emit_with (f : wfixes) (md : mode) (e : endian) (s : sfb) : outcome emit_error bytes :=
  let* ov := has_overlap_with f md (bt_values (sb_fdes s)) in
  if ov : bool then Err OverlappingFdes
  else
    let* st := emit_fdes_with f e (EmitState [] [] 0) (bt_values (sb_fdes s)) in
    if negb (fits_u32 (es_count st)) then Err SectionTooLarge
    else if negb (fits_u32 (zlen (sb_fdes s))) then Err SectionTooLarge
    else if negb (fits_u32 (zlen (es_fres st))) then Err SectionTooLarge
    else if negb (fits_u32 (zlen (es_table st))) then Err SectionTooLarge
    else
      let h := {| h_preamble := Preamble MAGIC VERSION_V2 (so_flags (sb_options s));
                  h_abi_arch := so_abi (sb_options s);
                  h_fixed_fp_offset := opt_or_zero (so_fixed_fp (sb_options s));
                  h_fixed_ra_offset := opt_or_zero (so_fixed_ra (sb_options s));
                  h_auxhdr_len := 0;
                  h_num_fdes := zlen (sb_fdes s);
                  h_num_fres := es_count st;
                  h_fre_len := zlen (es_fres st);
                  h_fdeoff := 0;
                  h_freoff := zlen (es_table st) |} in
      Ok (header_bytes e h ++ es_table st ++ es_fres st).

(** What is refused beforehand. *)
Inductive build_error : Type := CannotBeSaid | Emitting (er : emit_error).
Definition row_sayable (o : sframe_options) (r : row) : bool :=
  match so_fixed_ra o, r_offsets r with
  | None, Some x => match ro_ra x, ro_fp x with None, Some _ => false | _, _ => true end
  | _, _ => true
  end.
Definition fde_sayable (o : sframe_options) (b : fdb) : bool :=
  match fb_rep_size b with Some rep => negb (rep =? 0) | None => true end &&
  forallb (row_sayable o) (bt_values (fb_fres b)).

Definition emitted {A} (o : outcome emit_error A) : outcome build_error A :=
  match o with Ok a => Ok a | Err er => Err (Emitting er) | Panic => Panic end.
Definition build_with (f : wfixes) (md : mode) (e : endian) (s : sfb) : outcome build_error bytes :=
  if fix_refuse f && negb (forallb (fde_sayable (sb_options s)) (bt_values (sb_fdes s)))
  then Err CannotBeSaid
  else emitted (emit_with f md e s).
Definition build_repaired : mode -> endian -> sfb -> outcome build_error bytes := build_with all_fixes.
