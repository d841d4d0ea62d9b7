(** Specification of the converter: what the theorems about [dwarf2sframe] are
    stated with.  Of the converter's model only the types describing gimli's
    results, the options and the errors are used. *)
From Verif Require Export WriteSpec Convert.

(** ** The input *)

(** Values the Rust types allow. *)
Definition dw_row_typed (r : dw_row) : Prop := in_u64 (dr_start r) /\ in_u64 (dr_end r).
Definition dw_rows_of (f : dw_fde) : list dw_row :=
  match df_rows f with inl rs => rows_list rs | inr _ => [] end.
Definition dw_fde_typed (f : dw_fde) : Prop :=
  in_u64 (df_start f) /\ in_u64 (df_len f) /\ Forall dw_row_typed (dw_rows_of f).
Definition dw_entry_typed (x : dw_entry) : Prop :=
  match x with DwGoodFde f => dw_fde_typed f | _ => True end.
Definition entries_of (eh : eh_frame) : list dw_entry := ents_list (eh_entries eh).
Definition eh_typed (eh : eh_frame) : Prop := Forall dw_entry_typed (entries_of eh).

(** The functions described by a list of entries, in order. *)
Fixpoint functions (l : list dw_entry) : list dw_fde :=
  match l with
  | [] => []
  | DwGoodFde f :: t => f :: functions t
  | _ :: t => functions t
  end.

(** [f] is the last function described for its start address. *)
Definition last_at (eh : eh_frame) (f : dw_fde) : Prop :=
  exists pre post, functions (entries_of eh) = pre ++ f :: post /\
    forall f', In f' post -> df_start f' <> df_start f.

(** Rows that cover at least one address. *)
Definition wide (r : dw_row) : Prop := dr_start r <> dr_end r.
Definition wideb (r : dw_row) : bool := negb (dr_start r =? dr_end r).
Definition wide_rows (f : dw_fde) : list dw_row := filter wideb (dw_rows_of f).

(** The input without its zero-width rows. *)
Definition strip_fde (f : dw_fde) : dw_fde :=
  DwFde (df_start f) (df_len f) (df_insns f)
    match df_rows f with
    | inl rs => inl (DwRows (filter wideb (rows_list rs)) (rows_end rs))
    | inr g => inr g
    end.
Definition strip_entry (x : dw_entry) : dw_entry :=
  match x with DwGoodFde f => DwGoodFde (strip_fde f) | _ => x end.
Definition strip (eh : eh_frame) : eh_frame :=
  EhFrame (eh_big_endian eh)
    (DwEntries (map strip_entry (entries_of eh)) (ents_end (eh_entries eh))).

(** ** Registers: the DWARF numbers of the two ABIs *)

Definition reg_sp (a : arch) : Z := match a with Amd64 => 7 | Aarch64 => 31 end.
Definition reg_fp (a : arch) : Z := match a with Amd64 => 6 | Aarch64 => 29 end.
Definition reg_ra (a : arch) : Z := match a with Amd64 => 16 | Aarch64 => 30 end.
Definition reg_base (a : arch) (b : base_reg) : Z :=
  match b with Sp => reg_sp a | Fp => reg_fp a end.

(** ** Rows an SFrame row can express *)

(** CFA = SP or FP plus [cfa], RA saved at CFA+[ra], FP saved at CFA+[fp] or
    unchanged or unknown. *)
Definition representable (a : arch) (r : dw_row) (base : base_reg) (cfa ra : Z) (fp : option Z) : Prop :=
  dr_cfa r = CfaReg (reg_base a base) cfa /\ in_i32 cfa /\
  dr_register r (reg_ra a) = ROffset ra /\ in_i32 ra /\
  match fp with
  | Some o => dr_register r (reg_fp a) = ROffset o /\ in_i32 o
  | None => dr_register r (reg_fp a) = RSameValue \/ dr_register r (reg_fp a) = RUndefined
  end.
Definition unrepresentable (a : arch) (r : dw_row) : Prop :=
  forall base cfa ra fp, ~ representable a r base cfa ra fp.

(** What an unwinder must be told for a DWARF row. *)
Definition matches (a : arch) (r : dw_row) (u : unwind) : Prop :=
  (forall base cfa ra fp, representable a r base cfa ra fp ->
     u = Unwind base false (Some cfa) (Some ra) fp) /\
  (unrepresentable a r -> uw_cfa u = None /\ uw_mangled u = false).

(** The SFrame row [x] is the translation of the row [r] of a function starting
    at [start]. *)
Definition translated (a : arch) (o : sframe_options) (start : Z) (r : dw_row) (x : row) : Prop :=
  r_start x = dr_start r - start /\ matches a r (intended o x) /\
  (unrepresentable a r -> r_offsets x = None).

(** ** Section header *)

Definition effective_endian (op : options) (eh : eh_frame) : rt_endian :=
  match op_endian op with
  | Some en => en
  | None => if eh_big_endian eh then RtBig else RtLittle
  end.
(** Identifiers of the SFrame specification. *)
Definition abi_number (a : arch) (en : rt_endian) : Z :=
  match a, en with
  | Aarch64, RtBig => 1
  | Aarch64, RtLittle => 2
  | Amd64, RtLittle => 3
  | Amd64, RtBig => 0
  end.
Definition header_ra (a : arch) (en : rt_endian) : option Z :=
  match a, en with Amd64, RtLittle => Some (-8) | _, _ => None end.
Definition fixed_ra_of (op : options) (eh : eh_frame) : option Z :=
  header_ra (op_arch op) (effective_endian op eh).

(** ** What becomes of each row, function and entry *)

Definition off (f : dw_fde) (r : dw_row) : Z := dr_start r - df_start f.

(** The writer accepts the row: see C26. *)
Definition row_fits (a : arch) (fixed : option Z) (f : dw_fde) (before : list dw_row) (r : dw_row) : Prop :=
  off f r < 0x10000000 /\ off f r < df_len f /\
  (forall base cfa ra fp x, representable a r base cfa ra fp -> fixed = Some x -> ra = x) /\
  (forall r', In r' before -> wide r' -> dr_start r' <> dr_start r).

(** A row after the rows [before] of the same function is converted. *)
Definition row_fine a fixed f before r : Prop := 0 <= off f r /\ row_fits a fixed f before r.

(** Or it stops the conversion with an error or a panic. *)
Inductive row_problem (md : mode) (a : arch) (fixed : option Z) (f : dw_fde) (before : list dw_row) (r : dw_row)
  : outcome conv_error unit -> Prop :=
| rp_before_checked : off f r < 0 -> overflow_checks md = true ->
    row_problem md a fixed f before r Panic
| rp_before : off f r < 0 -> overflow_checks md = false ->
    row_problem md a fixed f before r (Err (InvalidRowOffset (dr_start r) (off f r + 2 ^ 64)))
| rp_far : i32_max <= off f r ->
    row_problem md a fixed f before r (Err (InvalidRowOffset (dr_start r) (off f r)))
| rp_rejected : 0 <= off f r < i32_max -> ~ row_fits a fixed f before r ->
    row_problem md a fixed f before r Panic.

Definition rows_fine (a : arch) (fixed : option Z) (f : dw_fde) (l : list dw_row) : Prop :=
  forall pre r post, l = pre ++ r :: post -> wide r -> row_fine a fixed f pre r.

(** Dumping, with [debugdump] on: the end address may overflow, and the
    instructions may contain a malformed expression. *)
Definition dump_overflows (md : mode) (op : options) (f : dw_fde) : Prop :=
  op_debugdump op = true /\ overflow_checks md = true /\ 2 ^ 64 <= df_start f + df_len f.
Definition dump_fine (md : mode) (op : options) (f : dw_fde) : Prop :=
  ~ dump_overflows md op f /\ (op_debugdump op = true -> df_dump f = None).
Definition header_fine (md : mode) (op : options) (f : dw_fde) : Prop :=
  dump_fine md op f /\ df_start f <= i32_max /\ df_len f <= i32_max.

Definition fde_fine (md : mode) (op : options) (fixed : option Z) (f : dw_fde) : Prop :=
  header_fine md op f /\
  exists l, df_rows f = inl (DwRows l None) /\ rows_fine (op_arch op) fixed f l.

Inductive fde_problem (md : mode) (op : options) (fixed : option Z) (f : dw_fde)
  : outcome conv_error unit -> Prop :=
| fp_overflow : dump_overflows md op f -> fde_problem md op fixed f Panic
| fp_dump g : ~ dump_overflows md op f -> op_debugdump op = true -> df_dump f = Some g ->
    fde_problem md op fixed f (Err (InvalidDwarfFde g))
| fp_start : dump_fine md op f -> i32_max < df_start f ->
    fde_problem md op fixed f (Err (InvalidStartAddress (df_start f)))
| fp_len : dump_fine md op f -> df_start f <= i32_max -> i32_max < df_len f ->
    fde_problem md op fixed f (Err (InvalidFunctionLength (df_start f) (df_len f)))
| fp_rows g : header_fine md op f -> df_rows f = inr g ->
    fde_problem md op fixed f (Err (InvalidUnwindTable g))
| fp_row pre r post en o : header_fine md op f -> df_rows f = inl (DwRows (pre ++ r :: post) en) ->
    rows_fine (op_arch op) fixed f pre -> wide r -> row_problem md (op_arch op) fixed f pre r o ->
    fde_problem md op fixed f o
| fp_end l g : header_fine md op f -> df_rows f = inl (DwRows l (Some g)) ->
    rows_fine (op_arch op) fixed f l ->
    fde_problem md op fixed f (Err (InvalidUnwindTable g)).

Definition entry_fine (md : mode) (op : options) (fixed : option Z) (x : dw_entry) : Prop :=
  match x with
  | DwCie => True
  | DwBadFde _ => False
  | DwGoodFde f => fde_fine md op fixed f
  end.

Inductive entry_problem (md : mode) (op : options) (fixed : option Z)
  : dw_entry -> outcome conv_error unit -> Prop :=
| ep_bad g : entry_problem md op fixed (DwBadFde g) (Err (InvalidDwarfFde g))
| ep_fde f o : fde_problem md op fixed f o -> entry_problem md op fixed (DwGoodFde f) o.

(** How the conversion of a whole section ends. *)
Inductive section_problem (md : mode) (op : options) (eh : eh_frame)
  : outcome conv_error unit -> Prop :=
| sp_entry pre x post o : entries_of eh = pre ++ x :: post ->
    Forall (entry_fine md op (fixed_ra_of op eh)) pre ->
    entry_problem md op (fixed_ra_of op eh) x o -> section_problem md op eh o
| sp_end g : Forall (entry_fine md op (fixed_ra_of op eh)) (entries_of eh) ->
    ents_end (eh_entries eh) = Some g -> section_problem md op eh (Err (InvalidEhFrameEntry g)).
Definition section_fine (md : mode) (op : options) (eh : eh_frame) : Prop :=
  Forall (entry_fine md op (fixed_ra_of op eh)) (entries_of eh) /\ ents_end (eh_entries eh) = None.

(** The outcome of a conversion without the builder. *)
Definition forget {E A} (o : outcome E A) : outcome E unit :=
  match o with Ok _ => Ok tt | Err er => Err er | Panic => Panic end.

(** ** Unwinding with DWARF and with the section *)

(** [r] is the DWARF row for address [a]. *)
Definition dwarf_says (eh : eh_frame) (a : Z) (r : dw_row) : Prop :=
  exists f, last_at eh f /\ in_range (df_start f) (df_len f) a /\ In r (dw_rows_of f) /\
    dr_start r <= a < dr_end r.

(** Rows of a function do not overlap. *)
Definition rows_disjoint (f : dw_fde) : Prop :=
  forall r r', In r (wide_rows f) -> In r' (wide_rows f) -> dr_start r < dr_start r' ->
    dr_end r <= dr_start r'.

(** The offsets stored for a row clash: the one of greatest magnitude is the
    least value of its width and its negation is stored too (see C38). *)
Definition stored_for (fixed : option Z) (cfa ra : Z) (fp : option Z) : list Z :=
  cfa :: (match fixed with Some _ => [] | None => [ra] end)
      ++ (match fp with Some o => [o] | None => [] end).
Definition clash (a : arch) (fixed : option Z) (r : dw_row) : Prop :=
  exists base cfa ra fp m, representable a r base cfa ra fp /\
    dominant (stored_for fixed cfa ra fp) = Some m /\ (m = -128 \/ m = -32768) /\
    In (- m) (stored_for fixed cfa ra fp).

(** At address [a] the section, read through its iterators, says [u]: the row
    with the greatest start not above [a] of a function containing [a]. *)
Definition section_says (md : mode) (e : endian) (sf : sframe) (a : Z) (u : unwind) : Prop :=
  exists en good fr,
    In en (all_fdes sf) /\ in_range (en_start_address en) (en_size en) a /\
    all_fres md e en = Ok (map inl good) /\
    In fr good /\ en_start_address en + fre_start_address_offset fr <= a /\
    (forall fr', In fr' good -> en_start_address en + fre_start_address_offset fr' <= a ->
       fre_start_address_offset fr' <= fre_start_address_offset fr) /\
    observed sf fr = u.

(** ** Conditions under which nothing goes wrong, and errors of entries *)

(** No row of [f] is rejected by the writer or lies before the function, and
    dumping it does not overflow. *)
Definition tame (md : mode) (op : options) (fixed : option Z) (f : dw_fde) : Prop :=
  ~ dump_overflows md op f /\ NoDup (map dr_start (wide_rows f)) /\
  forall r, In r (wide_rows f) -> 0 <= off f r < df_len f /\ off f r < 0x10000000 /\
    forall base cfa ra fp x, representable (op_arch op) r base cfa ra fp -> fixed = Some x -> ra = x.

(** An entry that does not parse or whose function does not fit. *)
Inductive entry_error : dw_entry -> conv_error -> Prop :=
| ee_bad g : entry_error (DwBadFde g) (InvalidDwarfFde g)
| ee_start f : i32_max < df_start f -> entry_error (DwGoodFde f) (InvalidStartAddress (df_start f))
| ee_len f : df_start f <= i32_max -> i32_max < df_len f ->
    entry_error (DwGoodFde f) (InvalidFunctionLength (df_start f) (df_len f))
| ee_rows f g : df_start f <= i32_max -> df_len f <= i32_max -> df_rows f = inr g ->
    entry_error (DwGoodFde f) (InvalidUnwindTable g).

(** ** Options *)

Definition set_warnings (v : bool) (op : options) : options :=
  Options (op_arch op) (op_merge_fres op) (op_merge_fdes op) v (op_debugdump op) (op_endian op).

Definition set_debugdump (v : bool) (op : options) : options :=
  Options (op_arch op) (op_merge_fres op) (op_merge_fdes op) (op_warnings op) v (op_endian op).

Definition set_merge_fres (v : bool) (op : options) : options :=
  Options (op_arch op) v (op_merge_fdes op) (op_warnings op) (op_debugdump op) (op_endian op).

Definition set_merge_fdes (v : bool) (op : options) : options :=
  Options (op_arch op) (op_merge_fres op) v (op_warnings op) (op_debugdump op) (op_endian op).

(** Nothing that dumping would trip over. *)
Definition dumpable (md : mode) (f : dw_fde) : Prop :=
  df_dump f = None /\ (overflow_checks md = true -> df_start f + df_len f < 2 ^ 64).

Definition same_unwinding (x y : outcome conv_error sfb) : Prop :=
  match x, y with
  | Ok s, Ok s' => sb_options s' = sb_options s /\ map fb_start (fdes_of s') = map fb_start (fdes_of s) /\
      forall a k p, unwind_at s' a k p <-> unwind_at s a k p
  | Err er, Err er' => er' = er
  | Panic, Panic => True
  | _, _ => False
  end.
