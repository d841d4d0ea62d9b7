(** The DWARF to SFrame converter: [crates/dwarf2sframe2/src/lib.rs].

    gimli (the DWARF parser) is not part of the repository.  What its calls
    return is an input of this model: see [Dwarf.v]. *)
From Verif Require Import Base BTree Raw Write.
From Verif Require Export Dwarf.

(** ** What dumping an FDE returns *)

(** [dump_expression], dump.rs:202-259: printing, then the iterator's error. *)
Definition dump_expression_result (x : expression) : option gimli_error := ex_end x.

(** [dump_cfi_instructions], dump.rs:7-200: an error of the instruction iterator
    is printed (lines 26-29); an error in an expression is returned.  What is
    printed is in [Loud.v]. *)
Definition insn_expression (i : insn) : option expression :=
  match i with
  | IDefCfaExpression x | IExpression _ x | IValExpression _ x => Some x
  | _ => None
  end.
Fixpoint dump_insns_result (l : list insn) : option gimli_error :=
  match l with
  | [] => None
  | i :: t =>
      match insn_expression i with
      | Some x => match dump_expression_result x with Some g => Some g | None => dump_insns_result t end
      | None => dump_insns_result t
      end
  end.
Definition df_dump (f : dw_fde) : option gimli_error := dump_insns_result (is_list (df_insns f)).

(** ** Options, lib.rs:25-107 *)

(** [Architecture], lib.rs:112-115. *)
Inductive arch : Type := Amd64 | Aarch64.

(** [gimli::RunTimeEndian]. *)
Inductive rt_endian : Type := RtLittle | RtBig.

(** [Options]; [bases] is already applied to the entries. *)
Record options : Type := Options {
  op_arch : arch;
  op_merge_fres : bool;
  op_merge_fdes : bool;
  op_warnings : bool;
  op_debugdump : bool;
  op_endian : option rt_endian }.

(** [Options::new], lib.rs:36-46. *)
Definition conv_options_new (a : arch) : options :=
  {| op_arch := a; op_merge_fres := true; op_merge_fdes := true; op_warnings := false;
     op_debugdump := false; op_endian := None |}.

(** The setters of [Options], lib.rs:54-106; [bases] is not modelled. *)
Definition conv_merge_fres (v : bool) (o : options) : options :=
  {| op_arch := op_arch o; op_merge_fres := v; op_merge_fdes := op_merge_fdes o; op_warnings := op_warnings o;
     op_debugdump := op_debugdump o; op_endian := op_endian o |}.
Definition conv_merge_fdes (v : bool) (o : options) : options :=
  {| op_arch := op_arch o; op_merge_fres := op_merge_fres o; op_merge_fdes := v; op_warnings := op_warnings o;
     op_debugdump := op_debugdump o; op_endian := op_endian o |}.
Definition conv_endian (v : option rt_endian) (o : options) : options :=
  {| op_arch := op_arch o; op_merge_fres := op_merge_fres o; op_merge_fdes := op_merge_fdes o;
     op_warnings := op_warnings o; op_debugdump := op_debugdump o; op_endian := v |}.
Definition conv_arch (v : arch) (o : options) : options :=
  {| op_arch := v; op_merge_fres := op_merge_fres o; op_merge_fdes := op_merge_fdes o;
     op_warnings := op_warnings o; op_debugdump := op_debugdump o; op_endian := op_endian o |}.
Definition conv_debugdump (v : bool) (o : options) : options :=
  {| op_arch := op_arch o; op_merge_fres := op_merge_fres o; op_merge_fdes := op_merge_fdes o;
     op_warnings := op_warnings o; op_debugdump := v; op_endian := op_endian o |}.
Definition conv_warnings (v : bool) (o : options) : options :=
  {| op_arch := op_arch o; op_merge_fres := op_merge_fres o; op_merge_fdes := op_merge_fdes o;
     op_warnings := v; op_debugdump := op_debugdump o; op_endian := op_endian o |}.

(** [Architecture::fp/sp/ra], lib.rs:118-139, with gimli's DWARF register
    numbers: RBP = 6, RSP = 7, RA = 16; X29, X30, SP = 29, 30, 31. *)
Definition arch_fp (a : arch) : Z := match a with Amd64 => 6 | Aarch64 => 29 end.
Definition arch_sp (a : arch) : Z := match a with Amd64 => 7 | Aarch64 => 31 end.
Definition arch_ra (a : arch) : Z := match a with Amd64 => 16 | Aarch64 => 30 end.

(** [Error], error.rs:7-38. *)
Inductive conv_error : Type :=
| InvalidEhFrameEntry (g : gimli_error)
| InvalidDwarfFde (g : gimli_error)
| InvalidUnwindTable (g : gimli_error)
| InvalidStartAddress (address : Z)
| InvalidRowOffset (address offset : Z)
| InvalidFunctionLength (address len : Z)
| ConvOutOfFuel (* model only: the fuel of [merge_adjacent_*]; never happens *).

Definition of_fuel {A} (o : outcome fuel_error A) : outcome conv_error A :=
  match o with
  | Ok a => Ok a
  | Err OutOfFuel => Err ConvOutOfFuel
  | Panic => Panic
  end.

(** ** Rows *)

(** What [convert_row] returns: a row, a warning, or a fatal error. *)
Inductive row_result : Type :=
| RowOk (r : row)
| RowWarning
| RowFatal (er : conv_error).

(** [Dwarf2SFrame::warn], lib.rs:443-464: with warnings on, formatting the
    message computes [fde.len().ilog2()], which panics for 0 (in every build
    profile), and the row offset again. *)
Definition warn (md : mode) (op : options) (f : dw_fde) (r : dw_row) : outcome never row_result :=
  if negb (op_warnings op) then Ok RowWarning
  else
    let* _ := sub_u64 md (dr_start r) (df_start f) in
    if df_len f =? 0 then Panic else Ok RowWarning.

(** lib.rs:276-284 and 354-362: [u32::try_from(..)] below [i32::MAX]. *)
Definition row_start_ok (d : Z) : bool := d <? i32_max.

(** [Dwarf2SFrame::convert_row], lib.rs:320-441. *)
Definition convert_row (md : mode) (op : options) (f : dw_fde) (r : dw_row)
  : outcome never row_result :=
  let fp := arch_fp (op_arch op) in
  let sp := arch_sp (op_arch op) in
  let ra := arch_ra (op_arch op) in
  match dr_cfa r with
  | CfaExpression _ => warn md op f r
  | CfaReg reg offset =>
      let base :=
        if reg =? sp then Some Sp
        else if reg =? fp then Some Fp
        else None in
      match base with
      | None => warn md op f r
      | Some base =>
          let* d := sub_u64 md (dr_start r) (df_start f) in
          if negb (row_start_ok d) then Ok (RowFatal (InvalidRowOffset (dr_start r) d))
          else if negb (in_i32b offset) then warn md op f r
          else
            let fp_result :=
              match dr_register r fp with
              | ROffset o => if in_i32b o then Some (Some o) else None
              | RSameValue => Some None
              | RUndefined => Some None
              | _ => None
              end in
            match fp_result with
            | None => warn md op f r
            | Some fp_offset =>
                let ra_result :=
                  match dr_register r ra with
                  | ROffset o => if in_i32b o then Some o else None
                  | _ => None
                  end in
                match ra_result with
                | None => warn md op f r
                | Some ra_offset =>
                    Ok (RowOk (row_new base d
                      {| ro_cfa := offset; ro_ra := Some ra_offset; ro_fp := fp_offset |}))
                end
            end
      end
  end.

(** The [while let Some(row)] loop, lib.rs:244-304 (the debug printing has no
    effect on the result).  A rejected row panics (lib.rs:299-303). *)
Fixpoint convert_rows (md : mode) (op : options) (f : dw_fde) (l : list dw_row) (b : fdb)
  : outcome conv_error fdb :=
  match l with
  | [] => Ok b
  | r :: t =>
      if dr_start r =? dr_end r then convert_rows md op f t b
      else
        let* d := sub_u64 md (dr_start r) (df_start f) in
        if negb (row_start_ok d) then Err (InvalidRowOffset (dr_start r) d)
        else
          let* res := lift (convert_row md op f r) in
          let* nr :=
            match res with
            | RowOk nr => Ok nr
            | RowWarning => Ok (row_invalid d)
            | RowFatal er => Err er
            end in
          match fdb_row b nr with
          | Ok b' => convert_rows md op f t b'
          | Err _ => Panic
          | Panic => Panic
          end
  end.

(** One FDE, lib.rs:203-315. *)
Definition convert_fde (md : mode) (op : options) (s : sfb) (f : dw_fde) : outcome conv_error sfb :=
  let* _ :=
    if op_debugdump op then
      let* _ := add_u64 md (df_start f) (df_len f) in
      match df_dump f with Some g => Err (InvalidDwarfFde g) | None => Ok tt end
    else Ok tt in
  if i32_max <? df_start f then Err (InvalidStartAddress (df_start f))
  else if i32_max <? df_len f then Err (InvalidFunctionLength (df_start f) (df_len f))
  else
    let b := fdb_new (sb_options s) (as_s 32 (df_start f)) (as_u 32 (df_len f)) in
    match df_rows f with
    | inr g => Err (InvalidUnwindTable g)
    | inl rows =>
        let* b := convert_rows md op f (rows_list rows) b in
        match rows_end rows with
        | Some g => Err (InvalidUnwindTable g)
        | None =>
            let* b := if op_merge_fres op then of_fuel (merge_adjacent_fres b) else Ok b in
            lift (sfb_fde s b)
        end
    end.

(** [Dwarf2SFrame::convert], lib.rs:186-318. *)
Fixpoint convert_entries (md : mode) (op : options) (l : list dw_entry) (s : sfb)
  : outcome conv_error sfb :=
  match l with
  | [] => Ok s
  | DwCie :: t => convert_entries md op t s
  | DwBadFde g :: _ => Err (InvalidDwarfFde g)
  | DwGoodFde f :: t =>
      let* s' := convert_fde md op s f in
      convert_entries md op t s'
  end.

Definition convert (md : mode) (op : options) (eh : eh_frame) (s : sfb) : outcome conv_error sfb :=
  let* s' := convert_entries md op (ents_list (eh_entries eh)) s in
  match ents_end (eh_entries eh) with
  | Some g => Err (InvalidEhFrameEntry g)
  | None => Ok s'
  end.

(** The ABI identifier, lib.rs:146-156. *)
Definition conv_abi (op : options) (eh : eh_frame) : Z :=
  let inferred := if eh_big_endian eh then RtBig else RtLittle in
  let endian := match op_endian op with Some en => en | None => inferred end in
  match op_arch op, endian with
  | Aarch64, RtLittle => ABI_AARCH64_LE
  | Aarch64, RtBig => ABI_AARCH64_BE
  | Amd64, RtLittle => ABI_AMD64_LE
  | Amd64, RtBig => ABI_INVALID
  end.

(** The section options, lib.rs:158-163. *)
Definition conv_sfoptions (op : options) (eh : eh_frame) : sframe_options :=
  let abi := conv_abi op eh in
  let o := options_abi abi options_new in
  if abi =? ABI_AMD64_LE then options_fixed_ra (Some (-8)) o else o.

(** [dwarf2sframe], lib.rs:142-178. *)
Definition dwarf2sframe (md : mode) (op : options) (eh : eh_frame) : outcome conv_error sfb :=
  let* s := convert md op eh (sfb_new (conv_sfoptions op eh)) in
  if op_merge_fdes op then of_fuel (merge_adjacent_fdes md s) else Ok s.
