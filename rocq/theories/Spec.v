(** The independent specification used in the theorem statements.

    Nothing here mentions the functions of the model ([Read], [Write], ...);
    only machine-level notions ([byte], [endian]) and, where a statement is about
    them, the data types of the public API are shared. *)
From Verif Require Import Base.

(** ** Bytes *)

(** Value of a byte string: least significant byte first (LE) or most
    significant byte first (BE). *)
Definition uint (e : endian) (l : bytes) : Z :=
  match e with
  | LE => fold_right (fun b acc => bZ b + 256 * acc) 0 l
  | BE => fold_left (fun acc b => 256 * acc + bZ b) l 0
  end.

(** Two's complement value of a byte string. *)
Definition sint (e : endian) (l : bytes) : Z :=
  let u := uint e l in
  let m := 256 ^ zlen l in
  if 2 * u <? m then u else u - m.

(** [n] bytes from position [off]. *)
Definition slice (off n : Z) (bs : bytes) : bytes :=
  firstn (Z.to_nat n) (skipn (Z.to_nat off) bs).

Definition u_at (e : endian) (off n : Z) (bs : bytes) : Z := uint e (slice off n bs).
Definition s_at (e : endian) (off n : Z) (bs : bytes) : Z := sint e (slice off n bs).

(** ** Layout of an SFrame section (SFrame specification, "SFrame header") *)

Definition spec_header_size : Z := 28.
Definition spec_magic : Z := 57058. (* 0xdee2 *)

Definition spec_version (bs : bytes) : Z := u_at LE 2 1 bs.
Definition spec_flags (bs : bytes) : Z := u_at LE 3 1 bs.
Definition spec_abi (bs : bytes) : Z := u_at LE 4 1 bs.
Definition spec_fixed_fp (bs : bytes) : Z := s_at LE 5 1 bs.
Definition spec_fixed_ra (bs : bytes) : Z := s_at LE 6 1 bs.
Definition spec_aux_len (bs : bytes) : Z := u_at LE 7 1 bs.
Definition spec_num_fdes (e : endian) (bs : bytes) : Z := u_at e 8 4 bs.
Definition spec_num_fres (e : endian) (bs : bytes) : Z := u_at e 12 4 bs.
Definition spec_fre_len (e : endian) (bs : bytes) : Z := u_at e 16 4 bs.
Definition spec_fdeoff (e : endian) (bs : bytes) : Z := u_at e 20 4 bs.
Definition spec_freoff (e : endian) (bs : bytes) : Z := u_at e 24 4 bs.

(** Sub-section offsets count from the end of the header and its auxiliary part. *)
Definition spec_base (bs : bytes) : Z := spec_header_size + spec_aux_len bs.

(** Size of a function descriptor in each version. *)
Definition spec_entry_size (bs : bytes) : Z := if spec_version bs =? 1 then 17 else 20.

(** Absolute position of the [i]-th descriptor. *)
Definition spec_entry_pos (e : endian) (bs : bytes) (i : Z) : Z :=
  spec_base bs + spec_fdeoff e bs + i * spec_entry_size bs.

Definition good_magic (e : endian) (bs : bytes) : Prop := u_at e 0 2 bs = spec_magic.
Definition good_version (bs : bytes) : Prop := spec_version bs = 1 \/ spec_version bs = 2.

(** The whole declared layout lies inside the byte string. *)
Definition layout_fits (e : endian) (bs : bytes) : Prop :=
  spec_header_size <= zlen bs /\
  spec_base bs <= zlen bs /\
  spec_base bs + spec_fdeoff e bs + spec_num_fdes e bs * spec_entry_size bs <= zlen bs /\
  spec_base bs + spec_freoff e bs + spec_fre_len e bs <= zlen bs.

Definition spec_aux (bs : bytes) : bytes := slice spec_header_size (spec_aux_len bs) bs.
Definition spec_fre_bytes (e : endian) (bs : bytes) : bytes :=
  slice (spec_base bs + spec_freoff e bs) (spec_fre_len e bs) bs.

(** A fixed offset of zero means "none". *)
Definition nonzero (z : Z) : option Z := if z =? 0 then None else Some z.

(** A Rust slice is at most [isize::MAX] bytes long. *)
Definition rust_slice (md : mode) (bs : bytes) : Prop := zlen bs < 2 ^ (usize_bits md - 1).

(** ** Intervals *)

(** [a] is an address of the function [start, start+size). *)
Definition in_range (start size a : Z) : Prop := start <= a < start + size.

(** ** Rows of a function *)

(** A decoded row, as the format describes it. *)
Record spec_row : Type := SpecRow {
  sr_start : Z;
  sr_base_is_sp : bool;
  sr_mangled : bool;
  sr_offsets : list Z }.

(** Bits of an info byte, lowest first. *)
Definition bits (lo n b : Z) : Z := (b / 2 ^ lo) mod 2 ^ n.

(** Address width selected by the FRE type number: 0, 1, 2 for 1, 2, 4 bytes. *)
Definition width_of (t : Z) : option Z :=
  if t =? 0 then Some 1 else if t =? 1 then Some 2 else if t =? 2 then Some 4 else None.

(** [bs] starts with the encoding of [r], followed by [rest]: a start field of
    [aw] bytes, the info byte, and [count] offsets of [ow] bytes. *)
Definition spec_row_at (e : endian) (aw : Z) (bs : bytes) (r : spec_row) (rest : bytes) : Prop :=
  exists start info ow (chunks : list bytes),
    bs = start ++ [info] ++ concat chunks ++ rest /\
    zlen start = aw /\
    sr_start r = uint e start /\
    sr_base_is_sp r = (bits 0 1 (bZ info) =? 1) /\
    sr_mangled r = (bits 7 1 (bZ info) =? 1) /\
    width_of (bits 5 2 (bZ info)) = Some ow /\
    Forall (fun c => zlen c = ow) chunks /\
    zlen chunks = bits 1 4 (bZ info) /\ zlen chunks <= 3 /\
    sr_offsets r = map (sint e) chunks.

(** [bs] starts with the consecutive encodings of the rows [l]. *)
Fixpoint spec_rows_at (e : endian) (aw : Z) (bs : bytes) (l : list spec_row) (rest : bytes) : Prop :=
  match l with
  | [] => bs = rest
  | r :: t => exists mid, spec_row_at e aw bs r mid /\ spec_rows_at e aw mid t rest
  end.

(** ** Function descriptors *)

(** A function descriptor entry as the format describes it; the repeat size
    exists in version 2 only. *)
Record spec_fde : Type := SpecFde {
  sd_start : Z;
  sd_size : Z;
  sd_fre_off : Z;
  sd_num_fres : Z;
  sd_info : Z;
  sd_rep : option Z }.

(** The [i]-th descriptor of a section. *)
Definition spec_entry (e : endian) (bs : bytes) (i : Z) : spec_fde :=
  let p := spec_entry_pos e bs i in
  {| sd_start := s_at e p 4 bs;
     sd_size := u_at e (p + 4) 4 bs;
     sd_fre_off := u_at e (p + 8) 4 bs;
     sd_num_fres := u_at e (p + 12) 4 bs;
     sd_info := u_at e (p + 16) 1 bs;
     sd_rep := if spec_version bs =? 1 then None else Some (u_at e (p + 17) 1 bs) |}.

(** The bytes in which the rows of a descriptor are stored: the FRE sub-section
    from the descriptor's offset on. *)
Definition spec_rows_of (e : endian) (bs : bytes) (d : spec_fde) : bytes :=
  skipn (Z.to_nat (sd_fre_off d)) (spec_fre_bytes e bs).

(** ** Double-ended iteration over the indices [lo, hi) *)

Inductive iter_op : Type := OpNext | OpNextBack | OpNth (n : nat).

Definition window_step (w : Z * Z) (op : iter_op) : option Z * (Z * Z) :=
  let '(lo, hi) := w in
  match op with
  | OpNext => if lo <? hi then (Some lo, (lo + 1, hi)) else (None, w)
  | OpNextBack => if lo <? hi then (Some (hi - 1), (lo, hi - 1)) else (None, w)
  | OpNth n =>
      if lo + Z.of_nat n <? hi
      then (Some (lo + Z.of_nat n), (lo + Z.of_nat n + 1, hi))
      else (None, (hi, hi))
  end.

Fixpoint window_run (w : Z * Z) (ops : list iter_op) : list (option Z) * (Z * Z) :=
  match ops with
  | [] => ([], w)
  | op :: t =>
      let '(o, w') := window_step w op in
      let '(os, w'') := window_run w' t in
      (o :: os, w'')
  end.
