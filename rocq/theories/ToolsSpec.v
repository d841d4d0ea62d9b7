(** Specification of the command line tools: what the theorems about their
    [main] functions are stated with. *)
From Coq Require Import String.
From Verif Require Export ConvSpec Tools.

(** ** The first-generation tool *)

(** Values are those the Rust types allow. *)
Definition ents_typed (ents : dw_entries) : Prop := Forall dw_entry_typed (ents_list ents).

(** Rows it can express: as [representable] for AMD64, but any rule for RBP that
    is not CFA+offset counts as unknown. *)
Definition v1_representable (r : dw_row) (base : base_reg) (cfa ra : Z) (fp : option Z) : Prop :=
  dr_cfa r = CfaReg (reg_base Amd64 base) cfa /\ in_i32 cfa /\
  dr_register r (reg_ra Amd64) = ROffset ra /\ in_i32 ra /\
  match fp with
  | Some o => dr_register r (reg_fp Amd64) = ROffset o /\ in_i32 o
  | None => forall o, dr_register r (reg_fp Amd64) <> ROffset o
  end.

(** What an unwinder is told for a DWARF row. *)
Definition v1_matches (r : dw_row) (u : unwind) : Prop :=
  (forall base cfa ra fp, v1_representable r base cfa ra fp ->
     u = Unwind base false (Some cfa) (Some ra) fp) /\
  ((forall base cfa ra fp, ~ v1_representable r base cfa ra fp) ->
     uw_cfa u = None /\ uw_ra u = None /\ uw_fp u = None /\ uw_mangled u = false).
Definition v1_translated (o : sframe_options) (start : Z) (r : dw_row) (x : row) : Prop :=
  r_start x = dr_start r - start /\ v1_matches r (intended o x) /\
  ((forall base cfa ra fp, ~ v1_representable r base cfa ra fp) -> r_offsets x = None).

(** The offsets stored for a row clash (see [clash]; no offset is fixed). *)
Definition v1_clash (r : dw_row) : Prop :=
  exists base cfa ra fp m, v1_representable r base cfa ra fp /\
    dominant (stored_for None cfa ra fp) = Some m /\ (m = -128 \/ m = -32768) /\
    In (- m) (stored_for None cfa ra fp).

(** A row after the rows [before] of the same function is converted.  Unlike
    the second-generation tool there is no exception for rows of no width. *)
Definition v1_row_fine (print_ok : dw_row -> bool) (f : dw_fde) (before : list dw_row) (r : dw_row) : Prop :=
  print_ok r = true /\ 0 <= off f r < df_len f /\ off f r < 0x10000000 /\
  forall r', In r' before -> dr_start r' <> dr_start r.

Inductive v1_row_problem (md : mode) (print_ok : dw_row -> bool) (f : dw_fde) (before : list dw_row) (r : dw_row)
  : outcome v1_error unit -> Prop :=
| v1p_before_checked : off f r < 0 -> overflow_checks md = true ->
    v1_row_problem md print_ok f before r Panic
| v1p_before : off f r < 0 -> overflow_checks md = false ->
    v1_row_problem md print_ok f before r (Err V1RowOffset)
| v1p_far : i32_max <= off f r -> v1_row_problem md print_ok f before r (Err V1RowOffset)
| v1p_print : 0 <= off f r < i32_max -> print_ok r = false ->
    v1_row_problem md print_ok f before r Panic
| v1p_large : 0x10000000 <= off f r < i32_max -> print_ok r = true ->
    v1_row_problem md print_ok f before r (Err (V1InvalidRow StartAddressTooLarge))
| v1p_outside : 0 <= off f r < 0x10000000 -> print_ok r = true -> df_len f <= off f r ->
    v1_row_problem md print_ok f before r (Err (V1InvalidRow StartAddressOutsideFde))
| v1p_twice r' : 0 <= off f r < 0x10000000 -> print_ok r = true -> off f r < df_len f ->
    In r' before -> dr_start r' = dr_start r ->
    v1_row_problem md print_ok f before r (Err (V1InvalidRow DuplicateRow)).

Definition v1_rows_fine (print_ok : dw_row -> bool) (f : dw_fde) (l : list dw_row) : Prop :=
  forall pre r post, l = pre ++ r :: post -> v1_row_fine print_ok f pre r.

Definition v1_fde_fine (print_ok : dw_row -> bool) (f : dw_fde) : Prop :=
  df_start f <= i32_max /\ df_len f <= i32_max /\ df_dump f = None /\
  exists l, df_rows f = inl (DwRows l None) /\ v1_rows_fine print_ok f l.

Inductive v1_fde_problem (md : mode) (print_ok : dw_row -> bool) (f : dw_fde)
  : outcome v1_error unit -> Prop :=
| v1f_start : i32_max < df_start f -> v1_fde_problem md print_ok f (Err (V1StartTooLarge (df_start f)))
| v1f_len : df_start f <= i32_max -> i32_max < df_len f ->
    v1_fde_problem md print_ok f (Err (V1LenTooLarge (df_len f)))
| v1f_rows g : df_start f <= i32_max -> df_len f <= i32_max -> df_rows f = inr g ->
    v1_fde_problem md print_ok f (Err (V1Rows g))
| v1f_dump rs g : df_start f <= i32_max -> df_len f <= i32_max -> df_rows f = inl rs -> df_dump f = Some g ->
    v1_fde_problem md print_ok f (Err (V1Dump g))
| v1f_row pre r post en o : df_start f <= i32_max -> df_len f <= i32_max -> df_dump f = None ->
    df_rows f = inl (DwRows (pre ++ r :: post) en) -> v1_rows_fine print_ok f pre ->
    v1_row_problem md print_ok f pre r o -> v1_fde_problem md print_ok f o
| v1f_end l g : df_start f <= i32_max -> df_len f <= i32_max -> df_dump f = None ->
    df_rows f = inl (DwRows l (Some g)) -> v1_rows_fine print_ok f l ->
    v1_fde_problem md print_ok f (Err (V1NextRow g)).

Definition v1_entry_fine (print_ok : dw_row -> bool) (x : dw_entry) : Prop :=
  match x with
  | DwCie => True
  | DwBadFde _ => False
  | DwGoodFde f => v1_fde_fine print_ok f
  end.
Inductive v1_entry_problem (md : mode) (print_ok : dw_row -> bool) : dw_entry -> outcome v1_error unit -> Prop :=
| v1e_bad g : v1_entry_problem md print_ok (DwBadFde g) (Err (V1Fde g))
| v1e_fde f o : v1_fde_problem md print_ok f o -> v1_entry_problem md print_ok (DwGoodFde f) o.

Definition v1_fine (print_ok : dw_row -> bool) (ents : dw_entries) : Prop :=
  Forall (v1_entry_fine print_ok) (ents_list ents) /\ ents_end ents = None.
Inductive v1_problem (md : mode) (print_ok : dw_row -> bool) (ents : dw_entries) : outcome v1_error unit -> Prop :=
| v1s_entry pre x post o : ents_list ents = pre ++ x :: post -> Forall (v1_entry_fine print_ok) pre ->
    v1_entry_problem md print_ok x o -> v1_problem md print_ok ents o
| v1s_end g : Forall (v1_entry_fine print_ok) (ents_list ents) -> ents_end ents = Some g ->
    v1_problem md print_ok ents (Err (V1Entry g)).

(** [f] is the last function described for its start address. *)
Definition v1_last (ents : dw_entries) (f : dw_fde) : Prop :=
  exists pre post, functions (ents_list ents) = pre ++ f :: post /\
    forall f', In f' post -> df_start f' <> df_start f.

(** ** Base addresses *)

(** The first section of a given name has the address [a]. *)
Definition has_section (l : list (string * Z)) (name : string) (a : Z) : Prop :=
  exists pre post, l = pre ++ (name, a) :: post /\ ~ In name (map fst pre).
Definition no_section (l : list (string * Z)) (name : string) : Prop := ~ In name (map fst l).
(** A base address is that of the section of the given name, if there is one. *)
Definition base_from (l : list (string * Z)) (name : string) (v : option Z) : Prop :=
  (forall a, has_section l name a -> v = Some a) /\ (no_section l name -> v = None).
(** What C57 asks for. *)
Definition right_bases (l : list (string * Z)) (b : base_addresses) : Prop :=
  base_from l ".eh_frame_hdr" (ba_eh_frame_hdr b) /\ base_from l ".eh_frame" (ba_eh_frame b) /\
  base_from l ".text" (ba_text b) /\ base_from l ".got" (ba_got b).

(** ** Machines *)

Definition arch_of (m : elf_arch) : option arch :=
  match m with ElfX86_64 => Some Amd64 | ElfAarch64 => Some Aarch64 | _ => None end.
Definition endian_of (en : rt_endian) : endian := match en with RtBig => BE | RtLittle => LE end.

(** What gimli parses out of the file, with the setup of the tools. *)
Definition file_eh (md : mode) (file : elf_file) (parse : parser_setup -> dw_entries) : eh_frame :=
  {| eh_big_endian := rt_is_big (elf_endian file); eh_entries := parse (tool_setup md (elf_sections file)) |}.
(** Values are those the Rust types allow. *)
Definition file_typed (file : elf_file) : Prop :=
  forall parse setup, elf_eh_frame file = Some parse -> ents_typed (parse setup).

(** ** sframedump *)

(** A cell shows a value iff the reader returns one. *)
Definition shows {E} (mk : Z -> cell) (o : outcome E Z) (c : cell) : Prop :=
  (forall z, o = Ok z -> c = mk z) /\ ((forall z, o <> Ok z) -> c = CellUnknown).

(** The line for a row. *)
Definition row_line (md : mode) (sf : sframe) (fr : fre) (ln : dump_line) : Prop :=
  exists start cfa fp ra, ln = LineRow start cfa fp ra (fre_mangled_ra_p fr) /\
    @fre_start_address never md fr = Ok start /\
    shows (CellBase (fre_cfa_base_reg_id fr)) (fre_cfa_offset fr) cfa /\
    shows CellCfa (fre_fp_offset fr sf) fp /\ shows CellCfa (fre_ra_offset fr sf) ra.

(** The rows of a function as a reader gets them: rows, then possibly an error. *)
Definition fre_results (md : mode) (e : endian) (en : entry) (good : list fre) (er : option read_error) : Prop :=
  all_fres md e en = Ok (map inl good ++ match er with Some x => [inr x] | None => [] end).

(** The lines for a function: its heading, its rows, an error if there is one. *)
Definition func_lines (md : mode) (e : endian) (sf : sframe) (idx : Z) (en : entry) (l : list dump_line) : Prop :=
  exists good er rows, fre_results md e en good er /\ Forall2 (row_line md sf) good rows /\
    l = LineFunc idx (en_start_address en) (en_size en) :: LineColumns (en_fdetype en) :: rows ++
        (match er with Some x => [LineErr x] | None => [] end) ++ [LineBlank].

(** One group of lines per function, numbered from [idx]. *)
Fixpoint all_func_lines (md : mode) (e : endian) (sf : sframe) (idx : Z) (ens : list entry) (l : list dump_line) : Prop :=
  match ens with
  | [] => l = []
  | en :: t => exists l1 l2, l = l1 ++ l2 /\ func_lines md e sf idx en l1 /\ all_func_lines md e sf (idx + 1) t l2
  end.

(** Something in a function panics: reading its rows, or computing where one
    of them starts. *)
Definition panics_in (md : mode) (e : endian) (en : entry) : Prop :=
  all_fres md e en = Panic \/
  exists good er fr, fre_results md e en good er /\ In fr good /\ @fre_start_address never md fr = Panic.

(** ** Parser setup *)

(** The size of a pointer and the vendor of a machine. *)
Definition pointer_size (m : elf_arch) : option Z :=
  match m with
  | ElfX86_64 | ElfAarch64 | ElfRiscv64 | ElfLoongArch64 => Some 8
  | ElfX86_64_X32 | ElfI386 | ElfArm | ElfRiscv32 => Some 4
  | ElfOther _ size => size
  end.
Definition vendor_of (m : elf_arch) : vendor := match m with ElfAarch64 => VendorAArch64 | _ => VendorDefault end.
Definition right_setup (m : elf_arch) (p : parser_setup) : Prop :=
  (forall n, pointer_size m = Some n -> ps_address_size p = n) /\ ps_vendor p = vendor_of m.

(** ** Signed return addresses *)

(** On AArch64 gimli counts [DW_CFA_AARCH64_negate_ra_state] in the pseudo
    register 34 (RA_SIGN_STATE): the return address is signed if its rule is the
    constant 1. *)
Definition ra_signed (r : dw_row) : Prop := dr_register r 34 = RConstant 1.

(** ** Return addresses that are still in their register *)

(** An SFrame row without an offset for RA says that RA is in the link
    register.  [link_row]: CFA = SP or FP plus [cfa], RA not saved, FP saved
    nowhere or unknown. *)
Definition link_row (r : dw_row) (base : base_reg) (cfa : Z) : Prop :=
  dr_cfa r = CfaReg (reg_base Aarch64 base) cfa /\ in_i32 cfa /\
  (dr_register r (reg_ra Aarch64) = RSameValue \/ dr_register r (reg_ra Aarch64) = RUndefined) /\
  (dr_register r (reg_fp Aarch64) = RSameValue \/ dr_register r (reg_fp Aarch64) = RUndefined).
