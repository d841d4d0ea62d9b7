(** Outcomes, machine integers, bytes and build profiles.

    Nothing here is specific to SFrame.  Rust integers are [Z] together with a
    range; every operation of the code that may leave its range is written with
    its check or its wrap. *)
From Coq Require Export ZArith List Bool Lia NArith.
From Coq.Strings Require Export Byte.
Export ListNotations.
Global Open Scope Z_scope.

(** ** Outcomes *)

(** What a Rust function returning [Result<A, E>] can do: return [Ok], return
    [Err], or panic. *)
Inductive outcome (E A : Type) : Type :=
| Ok (a : A)
| Err (e : E)
| Panic.
Arguments Ok {E A} a.
Arguments Err {E A} e.
Arguments Panic {E A}.

(** Rust's [?] operator and plain sequencing. *)
Definition bind {E A B : Type} (o : outcome E A) (k : A -> outcome E B) : outcome E B :=
  match o with
  | Ok a => k a
  | Err e => Err e
  | Panic => Panic
  end.
Notation "'let*' x ':=' o 'in' k" := (bind o (fun x => k))
  (at level 200, x binder, o at level 100, k at level 200, right associativity).

(** Error type of the fuelled loops: theorems show it never occurs. *)
Inductive fuel_error : Type := OutOfFuel.

(** Error type of functions that cannot return an error (only panic). *)
Definition never : Type := Empty_set.

(** Use a function that cannot return [Err] in a function that can. *)
Definition lift {E A : Type} (o : outcome never A) : outcome E A :=
  match o with
  | Ok a => Ok a
  | Err e => match e with end
  | Panic => Panic
  end.

(** ** Build profiles *)

(** Which [slice::binary_search_by] the standard library provides: the
    left/right loop with early exit (Rust 1.52-1.81) or the base/size loop
    (Rust 1.82 and later). *)
Inductive bsearch_impl : Type := BsLeftRight | BsBase.

(** A build profile of the crates: [-C overflow-checks], [cfg!(debug_assertions)],
    the pointer width of the target, and the standard library's binary search. *)
Record mode : Type := Mode {
  overflow_checks : bool;
  debug_asserts : bool;
  usize_bits : Z;
  bsearch : bsearch_impl }.

(** The targets the crate can be built for. *)
Definition wf_mode (md : mode) : Prop := usize_bits md = 32 \/ usize_bits md = 64.

(** ** Machine integers *)

Definition i32_max : Z := 2147483647.
Definition i32_min : Z := -2147483648.
Definition u32_max : Z := 4294967295.

Definition in_u8 (z : Z) : Prop := 0 <= z < 256.
Definition in_i8 (z : Z) : Prop := -128 <= z < 128.
Definition in_u32 (z : Z) : Prop := 0 <= z <= u32_max.
Definition in_i32 (z : Z) : Prop := i32_min <= z <= i32_max.
Definition in_u64 (z : Z) : Prop := 0 <= z < 2 ^ 64.
Definition in_i64 (z : Z) : Prop := - 2 ^ 63 <= z < 2 ^ 63.

Definition in_i32b (z : Z) : bool := (i32_min <=? z) && (z <=? i32_max).

(** [z as u{w}]. *)
Definition as_u (w z : Z) : Z := z mod 2 ^ w.
(** [z as i{w}]. *)
Definition as_s (w z : Z) : Z :=
  let u := z mod 2 ^ w in if u <? 2 ^ (w - 1) then u else u - 2 ^ w.

(** [a - b] on [i32]: panics on overflow when overflow checks are on, wraps
    otherwise. *)
Definition sub_i32 {E} (md : mode) (a b : Z) : outcome E Z :=
  if in_i32b (a - b) then Ok (a - b)
  else if overflow_checks md then Panic
  else Ok (as_s 32 (a - b)).

(** [a - b] on [u64]. *)
Definition sub_u64 {E} (md : mode) (a b : Z) : outcome E Z :=
  if 0 <=? a - b then Ok (a - b)
  else if overflow_checks md then Panic
  else Ok (as_u 64 (a - b)).

(** [a + b] on [u64]. *)
Definition add_u64 {E} (md : mode) (a b : Z) : outcome E Z :=
  if a + b <? 2 ^ 64 then Ok (a + b)
  else if overflow_checks md then Panic
  else Ok (as_u 64 (a + b)).

(** [a + b] on [usize]. *)
Definition add_usize {E} (md : mode) (a b : Z) : outcome E Z :=
  if a + b <? 2 ^ usize_bits md then Ok (a + b)
  else if overflow_checks md then Panic
  else Ok (as_u (usize_bits md) (a + b)).

(** [u32::try_from(usize)]. *)
Definition fits_u32 (z : Z) : bool := (0 <=? z) && (z <=? u32_max).

(** ** Bytes *)

Definition bytes : Type := list byte.

Definition bZ (b : byte) : Z := Z.of_N (Byte.to_N b).
(** The byte with value [z mod 256] ([z as u8]). *)
Definition Zb (z : Z) : byte :=
  match Byte.of_N (Z.to_N (z mod 256)) with
  | Some b => b
  | None => x00
  end.

(** Length of a slice as a Rust [usize] value. *)
Definition zlen {A} (l : list A) : Z := Z.of_nat (length l).

(** zerocopy's [ByteOrder] type parameter. *)
Inductive endian : Type := LE | BE.

Fixpoint enc_le (n : nat) (z : Z) : bytes :=
  match n with
  | O => []
  | S n' => Zb z :: enc_le n' (z / 256)
  end.

Fixpoint dec_le (bs : bytes) : Z :=
  match bs with
  | [] => 0
  | b :: t => bZ b + 256 * dec_le t
  end.

(** The [n]-byte encoding of [z] (two's complement for negative [z]): zerocopy's
    [U16/U32/I16/I32::<O>::new(z).as_bytes()]. *)
Definition enc (e : endian) (n : nat) (z : Z) : bytes :=
  match e with
  | LE => enc_le n z
  | BE => rev (enc_le n z)
  end.

(** The unsigned value of a byte string: zerocopy's [U16/U32::<O>::get]. *)
Definition dec (e : endian) (bs : bytes) : Z :=
  match e with
  | LE => dec_le bs
  | BE => dec_le (rev bs)
  end.

(** [n] bytes at position [off]. *)
Definition sub_bytes (off n : nat) (bs : bytes) : bytes := firstn n (skipn off bs).

(** Unsigned field of [n] bytes at position [off] of a packed struct. *)
Definition rd_u (e : endian) (off n : nat) (bs : bytes) : Z :=
  dec e (sub_bytes off n bs).
(** Signed field of [n] bytes at position [off] of a packed struct. *)
Definition rd_s (e : endian) (off n : nat) (bs : bytes) : Z :=
  as_s (8 * Z.of_nat n) (rd_u e off n bs).
