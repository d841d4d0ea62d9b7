(** [dwarf2sframe] with some of seven repairs made.  Nothing here is in /repo: this is what
    dwarf2sframe2/src/lib.rs:142-464 would be after small changes.

    - [fix_sp]: a row with a rule for the stack pointer (other than CFA+0) is reported and
      left empty, like others that SFrame cannot express;
    - [fix_column]: so are the rows of a function whose CIE names another return address
      register than the usual one;
    - [fix_sign]: on AArch64 rows whose return address is signed are marked;
    - [fix_link]: on AArch64 a row whose return address and frame pointer are not saved
      becomes a row without RA offset;
    - [fix_reject]: a row in front of its function and a row that [row] refuses are
      reported as errors, and warning about a row of an empty function does not panic;
    - [fix_end]: a function that ends beyond [i32::MAX] is refused;
    - [fix_dump]: dumping does not decide on the result. *)
From Verif Require Import Base BTree Raw Write.
From Verif Require Export Convert.

Record cfixes : Type := CFixes {
  fix_sp : bool; fix_column : bool; fix_sign : bool; fix_link : bool;
  fix_reject : bool; fix_end : bool; fix_dump : bool }.
Definition no_cfixes : cfixes := CFixes false false false false false false false.
Definition all_cfixes : cfixes := CFixes true true true true true true true.

(** The errors there are, and two more. *)
Inductive repair_error : Type :=
| AsBefore (er : conv_error)
| RowInFront (address : Z)
| RowRefused (address : Z) (er : row_error).
Definition as_before {A} (o : outcome conv_error A) : outcome repair_error A :=
  match o with Ok a => Ok a | Err er => Err (AsBefore er) | Panic => Panic end.

(** lib.rs:443-464 *)
Definition warn_with (fx : cfixes) (md : mode) (op : options) (f : dw_fde) (r : dw_row) : outcome never row_result :=
  if fix_reject fx then Ok RowWarning else warn md op f r.

Definition is_aarch64 (a : arch) : bool := match a with Aarch64 => true | Amd64 => false end.
Definition sp_is_cfa (a : arch) (r : dw_row) : bool :=
  match dr_register r (arch_sp a) with RUndefined => true | RValOffset o => o =? 0 | _ => false end.
(** Register 34 is RA_SIGN_STATE. *)
Definition signed_here (a : arch) (r : dw_row) : bool :=
  is_aarch64 a && match dr_register r 34 with RConstant c => c =? 1 | _ => false end.

(** lib.rs:320-441; [column] is the return address register of the function's CIE. *)
Definition convert_row_with (fx : cfixes) (md : mode) (op : options) (column : Z) (f : dw_fde) (r : dw_row)
  : outcome never row_result :=
  let fp := arch_fp (op_arch op) in
  let sp := arch_sp (op_arch op) in
  let ra := arch_ra (op_arch op) in
  match dr_cfa r with
  | CfaExpression _ => warn_with fx md op f r
  | CfaReg reg offset =>
      let base :=
        if reg =? sp then Some Sp
        else if reg =? fp then Some Fp
        else None in
      match base with
      | None => warn_with fx md op f r
      | Some base =>
          let* d := sub_u64 md (dr_start r) (df_start f) in
          if negb (row_start_ok d) then Ok (RowFatal (InvalidRowOffset (dr_start r) d))
          else if negb (in_i32b offset) then warn_with fx md op f r
          else if fix_sp fx && negb (sp_is_cfa (op_arch op) r) then warn_with fx md op f r
          else if fix_column fx && negb (column =? ra) then warn_with fx md op f r
          else
            let fp_result :=
              match dr_register r fp with
              | ROffset o => if in_i32b o then Some (Some o) else None
              | RSameValue => Some None
              | RUndefined => Some None
              | _ => None
              end in
            match fp_result with
            | None => warn_with fx md op f r
            | Some fp_offset =>
                let in_link := fix_link fx && is_aarch64 (op_arch op) && match fp_offset with None => true | Some _ => false end in
                let ra_result :=
                  match dr_register r ra with
                  | ROffset o => if in_i32b o then Some (Some o) else None
                  | RSameValue | RUndefined => if in_link then Some None else None
                  | _ => None
                  end in
                match ra_result with
                | None => warn_with fx md op f r
                | Some ra_offset =>
                    Ok (RowOk (row_mangled_ra_p (fix_sign fx && signed_here (op_arch op) r)
                      (row_new base d {| ro_cfa := offset; ro_ra := ra_offset; ro_fp := fp_offset |})))
                end
            end
      end
  end.

(** lib.rs:244-304 *)
Fixpoint convert_rows_with (fx : cfixes) (md : mode) (op : options) (column : Z) (f : dw_fde) (l : list dw_row) (b : fdb)
  : outcome repair_error fdb :=
  match l with
  | [] => Ok b
  | r :: t =>
      if dr_start r =? dr_end r then convert_rows_with fx md op column f t b
      else if fix_reject fx && (dr_start r <? df_start f) then Err (RowInFront (dr_start r))
      else
        let* d := sub_u64 md (dr_start r) (df_start f) in
        if negb (row_start_ok d) then Err (AsBefore (InvalidRowOffset (dr_start r) d))
        else
          let* res := lift (convert_row_with fx md op column f r) in
          let* nr :=
            match res with
            | RowOk nr => Ok nr
            | RowWarning => Ok (row_invalid d)
            | RowFatal er => Err (AsBefore er)
            end in
          match fdb_row b nr with
          | Ok b' => convert_rows_with fx md op column f t b'
          | Err er => if fix_reject fx then Err (RowRefused (dr_start r) er) else Panic
          | Panic => Panic
          end
  end.

(** lib.rs:203-315 *)
Definition convert_fde_with (fx : cfixes) (md : mode) (op : options) (column : dw_fde -> Z) (s : sfb) (f : dw_fde)
  : outcome repair_error sfb :=
  let* _ :=
    if op_debugdump op && negb (fix_dump fx) then
      let* _ := add_u64 md (df_start f) (df_len f) in
      match df_dump f with Some g => Err (AsBefore (InvalidDwarfFde g)) | None => Ok tt end
    else Ok tt in
  if i32_max <? df_start f then Err (AsBefore (InvalidStartAddress (df_start f)))
  else if (i32_max <? df_len f) || fix_end fx && (i32_max <? df_start f + df_len f)
  then Err (AsBefore (InvalidFunctionLength (df_start f) (df_len f)))
  else
    let b := fdb_new (sb_options s) (as_s 32 (df_start f)) (as_u 32 (df_len f)) in
    match df_rows f with
    | inr g => Err (AsBefore (InvalidUnwindTable g))
    | inl rows =>
        let* b := convert_rows_with fx md op (column f) f (rows_list rows) b in
        match rows_end rows with
        | Some g => Err (AsBefore (InvalidUnwindTable g))
        | None =>
            let* b := if op_merge_fres op then as_before (of_fuel (merge_adjacent_fres b)) else Ok b in
            lift (sfb_fde s b)
        end
    end.

(** lib.rs:186-318 *)
Fixpoint convert_entries_with (fx : cfixes) (md : mode) (op : options) (column : dw_fde -> Z) (l : list dw_entry) (s : sfb)
  : outcome repair_error sfb :=
  match l with
  | [] => Ok s
  | DwCie :: t => convert_entries_with fx md op column t s
  | DwBadFde g :: _ => Err (AsBefore (InvalidDwarfFde g))
  | DwGoodFde f :: t =>
      let* s' := convert_fde_with fx md op column s f in
      convert_entries_with fx md op column t s'
  end.

(** lib.rs:142-178 *)
Definition dwarf2sframe_with (fx : cfixes) (md : mode) (op : options) (column : dw_fde -> Z) (eh : eh_frame)
  : outcome repair_error sfb :=
  let* s := convert_entries_with fx md op column (ents_list (eh_entries eh)) (sfb_new (conv_sfoptions op eh)) in
  match ents_end (eh_entries eh) with
  | Some g => Err (AsBefore (InvalidEhFrameEntry g))
  | None => if op_merge_fdes op then as_before (of_fuel (merge_adjacent_fdes md s)) else Ok s
  end.
Definition dwarf2sframe_repaired : mode -> options -> (dw_fde -> Z) -> eh_frame -> outcome repair_error sfb :=
  dwarf2sframe_with all_cfixes.
