(** [build] with the start fields of a function's rows as narrow as they can be.  Nothing
    here is in /repo: this is what write.rs:165-341 would be if the ranges in lines 200-202
    were [0..=0xFF] and [0..=0xFFFF] instead of [0..=0x7F] and [0..=0x7FFF].  The field is
    unsigned (raw/v2.rs, [FrameRowEntry]), and it is read as such. *)
From Verif Require Import Base BTree Raw Write.

(** write.rs:195-207 *)
Definition addr_type_narrow {E} (max_offset : Z) : outcome E addr_size :=
  if (0 <=? max_offset) && (max_offset <=? 0xFF) then Ok SzU8
  else if (0 <=? max_offset) && (max_offset <=? 0xFFFF) then Ok SzU16
  else if (0 <=? max_offset) && (max_offset <=? 0x7FFFFFFF) then Ok SzU32
  else Panic.

(** The choice, with or without the change. *)
Definition addr_type_with {E} (narrow : bool) (max_offset : Z) : outcome E addr_size :=
  if narrow then addr_type_narrow max_offset else addr_type max_offset.

(** write.rs:189-312 *)
Definition emit_fde_sized (narrow : bool) (e : endian) (st : emit_state) (b : fdb) : outcome emit_error emit_state :=
  let offset := zlen (es_fres st) in
  if negb (fits_u32 offset) then Err SectionTooLarge
  else
    let* addr_ty := addr_type_with narrow (max_offset b) in
    if negb (fits_u32 (zlen (fb_fres b))) then Err SectionTooLarge
    else
      let* rows := rows_bytes e addr_ty (bt_values (fb_fres b)) in
      Ok {| es_table := es_table st ++ fde2_bytes e (fde_raw b addr_ty offset);
            es_fres := es_fres st ++ rows;
            es_count := es_count st + zlen (fb_fres b) |}.
Fixpoint emit_fdes_sized (narrow : bool) (e : endian) (st : emit_state) (l : list fdb) : outcome emit_error emit_state :=
  match l with
  | [] => Ok st
  | b :: t => let* st' := emit_fde_sized narrow e st b in emit_fdes_sized narrow e st' t
  end.

(** write.rs:165-341 *)
Definition build_sized (narrow : bool) (md : mode) (e : endian) (s : sfb) : outcome emit_error bytes :=
  let* ov := has_overlap md (bt_values (sb_fdes s)) in
  if ov : bool then Err OverlappingFdes
  else
    let* st := emit_fdes_sized narrow e (EmitState [] [] 0) (bt_values (sb_fdes s)) in
    if negb (fits_u32 (es_count st)) then Err SectionTooLarge
    else if negb (fits_u32 (zlen (sb_fdes s))) then Err SectionTooLarge
    else if negb (fits_u32 (zlen (es_fres st))) then Err SectionTooLarge
    else if negb (fits_u32 (zlen (es_table st))) then Err SectionTooLarge
    else
      let h := {| h_preamble := Preamble MAGIC VERSION_V2 (so_flags (sb_options s));
                  h_abi_arch := so_abi (sb_options s);
                  h_fixed_fp_offset := opt_or_zero (so_fixed_fp (sb_options s));
                  h_fixed_ra_offset := opt_or_zero (so_fixed_ra (sb_options s));
                  h_auxhdr_len := 0;
                  h_num_fdes := zlen (sb_fdes s);
                  h_num_fres := es_count st;
                  h_fre_len := zlen (es_fres st);
                  h_fdeoff := 0;
                  h_freoff := zlen (es_table st) |} in
      Ok (header_bytes e h ++ es_table st ++ es_fres st).
Definition build_narrow : mode -> endian -> sfb -> outcome emit_error bytes := build_sized true.
