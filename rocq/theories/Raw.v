(** The raw structures: [crates/sframe/src/raw/mod.rs], [raw/v1.rs],
    [raw/v2.rs]. *)
From Verif Require Import Base.

(** ** Constants *)

(** raw/mod.rs:35 *)
Definition MAGIC : Z := 0xDEE2.
(** raw/mod.rs:46 and 49 *)
Definition VERSION_V1 : Z := 1.
Definition VERSION_V2 : Z := 2.
(** raw/mod.rs:74 and 77 *)
Definition FLAG_FDE_SORTED : Z := 0x1.
Definition FLAG_FRAME_POINTER : Z := 0x2.
(** raw/v2.rs:61-64 *)
Definition ABI_INVALID : Z := 0.
Definition ABI_AARCH64_BE : Z := 1.
Definition ABI_AARCH64_LE : Z := 2.
Definition ABI_AMD64_LE : Z := 3.

(** ** FDE info byte, raw/v2.rs:104-216 *)

(** raw/v2.rs:191-216 *)
Inductive fre_type : Type :=
| Addr1 | Addr2 | Addr4 | FtReserved3 | FtReserved4 | FtReserved5 | FtReserved6 | FtReserved7.

Definition fre_type_u8 (t : fre_type) : Z :=
  match t with
  | Addr1 => 0 | Addr2 => 1 | Addr4 => 2 | FtReserved3 => 3
  | FtReserved4 => 4 | FtReserved5 => 5 | FtReserved6 => 6 | FtReserved7 => 7
  end.

(** raw/v2.rs:167-185 *)
Inductive fde_type : Type := PcInc | PcMask.
Definition fde_type_u8 (t : fde_type) : Z := match t with PcInc => 0 | PcMask => 1 end.

(** raw/v2.rs:159-162 *)
Inductive pauth : Type := KeyA | KeyB.
Definition pauth_u8 (k : pauth) : Z := match k with KeyA => 0 | KeyB => 1 end.

(** [FdeInfo::fretype], raw/v2.rs:109-121.  [None] is the [unreachable!()] arm. *)
Definition fretype_opt (i : Z) : option fre_type :=
  match Z.land i 0x7 with
  | 0 => Some Addr1
  | 1 => Some Addr2
  | 2 => Some Addr4
  | 3 => Some FtReserved3
  | 4 => Some FtReserved4
  | 5 => Some FtReserved5
  | 6 => Some FtReserved6
  | 7 => Some FtReserved7
  | _ => None
  end.

(** The same without the dead arm (it is dead: theorem [C23_unreachable]). *)
Definition fretype (i : Z) : fre_type :=
  match fretype_opt i with Some t => t | None => FtReserved7 end.

(** [FdeInfo::set_fretype], raw/v2.rs:123-126.  [!0x7] on [u8] is [0xF8]. *)
Definition set_fretype (t : fre_type) (i : Z) : Z :=
  Z.lor (Z.land i 0xF8) (fre_type_u8 t).

(** [FdeInfo::fdetype], raw/v2.rs:128-134. *)
Definition fdetype_opt (i : Z) : option fde_type :=
  match Z.land (Z.shiftr i 3) 1 with
  | 0 => Some PcInc
  | 1 => Some PcMask
  | _ => None
  end.
Definition fdetype (i : Z) : fde_type :=
  match fdetype_opt i with Some t => t | None => PcMask end.

(** [FdeInfo::set_fdetype], raw/v2.rs:136-139.  [!(1 << 3)] on [u8] is [0xF7]. *)
Definition set_fdetype (t : fde_type) (i : Z) : Z :=
  Z.lor (Z.land i 0xF7) (Z.shiftl (fde_type_u8 t) 3).

(** [FdeInfo::pauth_key], raw/v2.rs:142-148. *)
Definition pauth_key_opt (i : Z) : option pauth :=
  match Z.land (Z.shiftr i 4) 1 with
  | 0 => Some KeyA
  | 1 => Some KeyB
  | _ => None
  end.
Definition pauth_key (i : Z) : pauth :=
  match pauth_key_opt i with Some k => k | None => KeyB end.

(** [FdeInfo::set_pauth_key], raw/v2.rs:150-153.  [!(1 << 4)] on [u8] is [0xEF]. *)
Definition set_pauth_key (k : pauth) (i : Z) : Z :=
  Z.lor (Z.land i 0xEF) (Z.shiftl (pauth_u8 k) 4).

(** ** FRE info byte, raw/v2.rs:225-316 *)

(** raw/v2.rs:302-309 *)
Inductive fre_offset : Type := Off1B | Off2B | Off4B | OffReserved3.
Definition fre_offset_u8 (o : fre_offset) : Z :=
  match o with Off1B => 0 | Off2B => 1 | Off4B => 2 | OffReserved3 => 3 end.

(** raw/v2.rs:313-316 *)
Inductive base_reg : Type := Fp | Sp.
Definition base_reg_u8 (b : base_reg) : Z := match b with Fp => 0 | Sp => 1 end.

(** [FreInfo::cfa_base_reg_id], raw/v2.rs:235-241. *)
Definition cfa_base_reg_id_opt (i : Z) : option base_reg :=
  match Z.land i 1 with
  | 0 => Some Fp
  | 1 => Some Sp
  | _ => None
  end.
Definition cfa_base_reg_id (i : Z) : base_reg :=
  match cfa_base_reg_id_opt i with Some b => b | None => Sp end.

(** [FreInfo::set_cfa_base_reg_id], raw/v2.rs:243-246. *)
Definition set_cfa_base_reg_id (b : base_reg) (i : Z) : Z :=
  Z.lor (Z.land i 0xFE) (base_reg_u8 b).

(** [FreInfo::offset_count], raw/v2.rs:249-251. *)
Definition offset_count (i : Z) : Z := Z.land (Z.shiftr i 1) 0xF.

(** [FreInfo::set_offset_count], raw/v2.rs:253-258.  [count] is a [u8]; the
    assertion panics above 15; [count << 1] stays in [u8] below that. *)
Definition set_offset_count {E} (count : Z) (i : Z) : outcome E Z :=
  if count <=? 15
  then Ok (Z.lor (Z.land i 0xE1) (Z.land (Z.shiftl count 1) 0x1E))
  else Panic.

(** [FreInfo::offset_size], raw/v2.rs:261-269. *)
Definition offset_size_opt (i : Z) : option fre_offset :=
  match Z.land (Z.shiftr i 5) 3 with
  | 0 => Some Off1B
  | 1 => Some Off2B
  | 2 => Some Off4B
  | 3 => Some OffReserved3
  | _ => None
  end.
Definition offset_size (i : Z) : fre_offset :=
  match offset_size_opt i with Some o => o | None => OffReserved3 end.

(** [FreInfo::set_offset_size], raw/v2.rs:271-274. *)
Definition set_offset_size (o : fre_offset) (i : Z) : Z :=
  Z.lor (Z.land i 0x9F) (Z.land (Z.shiftl (fre_offset_u8 o) 5) 0x60).

(** [FreInfo::mangled_ra_p], raw/v2.rs:278-280. *)
Definition mangled_ra_p (i : Z) : bool :=
  negb (Z.land (Z.shiftr i 7) 1 =? 0).

(** [FreInfo::set_mangled_ra_p], raw/v2.rs:282-285. *)
Definition set_mangled_ra_p (v : bool) (i : Z) : Z :=
  Z.lor (Z.land i 0x7F) (Z.shiftl (if v then 1 else 0) 7).

(** ** Packed structures *)

(** [Preamble], raw/mod.rs:14-29. *)
Record preamble : Type := Preamble {
  pre_magic : Z;
  pre_version : Z;
  pre_flags : Z }.

Definition PREAMBLE_SIZE : nat := 4.

(** [Preamble::<O>::ref_from_prefix].  [U16<O>] at 0, [u8] at 2 and 3. *)
Definition preamble_from_prefix (e : endian) (bs : bytes) : option preamble :=
  if (length bs <? PREAMBLE_SIZE)%nat then None
  else Some (Preamble (rd_u e 0 2 bs) (rd_u e 2 1 bs) (rd_u e 3 1 bs)).

(** [v2::Header], raw/v2.rs:17-53. *)
Record header : Type := Header {
  h_preamble : preamble;
  h_abi_arch : Z;
  h_fixed_fp_offset : Z;
  h_fixed_ra_offset : Z;
  h_auxhdr_len : Z;
  h_num_fdes : Z;
  h_num_fres : Z;
  h_fre_len : Z;
  h_fdeoff : Z;
  h_freoff : Z }.

(** [mem::size_of::<v2::Header<O>>()]. *)
Definition HEADER_SIZE : nat := 28.

(** [v2::Header::<O>::ref_from_prefix]: preamble, four single-byte fields
    (two of them [i8]), five [U32<O>]. *)
Definition header_from_prefix (e : endian) (bs : bytes) : option header :=
  if (length bs <? HEADER_SIZE)%nat then None
  else Some
    {| h_preamble := Preamble (rd_u e 0 2 bs) (rd_u e 2 1 bs) (rd_u e 3 1 bs);
       h_abi_arch := rd_u e 4 1 bs;
       h_fixed_fp_offset := rd_s e 5 1 bs;
       h_fixed_ra_offset := rd_s e 6 1 bs;
       h_auxhdr_len := rd_u e 7 1 bs;
       h_num_fdes := rd_u e 8 4 bs;
       h_num_fres := rd_u e 12 4 bs;
       h_fre_len := rd_u e 16 4 bs;
       h_fdeoff := rd_u e 20 4 bs;
       h_freoff := rd_u e 24 4 bs |}.

(** [header.as_bytes()]. *)
Definition header_bytes (e : endian) (h : header) : bytes :=
  enc e 2 (pre_magic (h_preamble h)) ++
  enc e 1 (pre_version (h_preamble h)) ++
  enc e 1 (pre_flags (h_preamble h)) ++
  enc e 1 (h_abi_arch h) ++
  enc e 1 (h_fixed_fp_offset h) ++
  enc e 1 (h_fixed_ra_offset h) ++
  enc e 1 (h_auxhdr_len h) ++
  enc e 4 (h_num_fdes h) ++
  enc e 4 (h_num_fres h) ++
  enc e 4 (h_fre_len h) ++
  enc e 4 (h_fdeoff h) ++
  enc e 4 (h_freoff h).

(** [v1::FuncDescEntry], raw/v1.rs:19-41. *)
Record raw_fde1 : Type := RawFde1 {
  f1_start_address : Z;
  f1_size : Z;
  f1_start_fre_off : Z;
  f1_num_fres : Z;
  f1_info : Z }.
Definition FDE1_SIZE : nat := 17.

Definition fde1_decode (e : endian) (bs : bytes) : raw_fde1 :=
  {| f1_start_address := rd_s e 0 4 bs;
     f1_size := rd_u e 4 4 bs;
     f1_start_fre_off := rd_u e 8 4 bs;
     f1_num_fres := rd_u e 12 4 bs;
     f1_info := rd_u e 16 1 bs |}.

(** [v2::FuncDescEntry], raw/v2.rs:73-102. *)
Record raw_fde2 : Type := RawFde2 {
  f2_start_address : Z;
  f2_size : Z;
  f2_start_fre_off : Z;
  f2_num_fres : Z;
  f2_info : Z;
  f2_rep_size : Z;
  f2_padding : Z }.
Definition FDE2_SIZE : nat := 20.

Definition fde2_decode (e : endian) (bs : bytes) : raw_fde2 :=
  {| f2_start_address := rd_s e 0 4 bs;
     f2_size := rd_u e 4 4 bs;
     f2_start_fre_off := rd_u e 8 4 bs;
     f2_num_fres := rd_u e 12 4 bs;
     f2_info := rd_u e 16 1 bs;
     f2_rep_size := rd_u e 17 1 bs;
     f2_padding := rd_u e 18 2 bs |}.

(** [header.as_bytes()] of a v2 descriptor. *)
Definition fde2_bytes (e : endian) (f : raw_fde2) : bytes :=
  enc e 4 (f2_start_address f) ++
  enc e 4 (f2_size f) ++
  enc e 4 (f2_start_fre_off f) ++
  enc e 4 (f2_num_fres f) ++
  enc e 1 (f2_info f) ++
  enc e 1 (f2_rep_size f) ++
  enc e 2 (f2_padding f).

(** [count] consecutive entries of [size] bytes. *)
Fixpoint decode_entries {A} (size : nat) (d : bytes -> A) (count : nat) (bs : bytes) : list A :=
  match count with
  | O => []
  | S n => d (firstn size bs) :: decode_entries size d n (skipn size bs)
  end.

(** zerocopy's [T::slice_from_prefix(bytes, count)] for a [T] of [size] bytes:
    [None] if [size * count] overflows [usize] or exceeds the slice; else the
    decoded entries and the rest. *)
Definition slice_from_prefix {A} (md : mode) (size : nat) (d : bytes -> A)
    (bs : bytes) (count : Z) : option (list A * bytes) :=
  let total := Z.of_nat size * count in
  if 2 ^ usize_bits md <=? total then None
  else if zlen bs <? total then None
  else Some (decode_entries size d (Z.to_nat count) bs, skipn (Z.to_nat total) bs).
