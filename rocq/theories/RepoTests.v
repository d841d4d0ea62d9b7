(** The tests of the repository: [crates/sframe/tests/roundtrip.rs], the tests of
    [crates/sframe/src/raw/v2.rs] and of [crates/bpfunwind/src/lib.rs].

    A test passes if it returns [Ok]; [?] on an error fails it, and so does a
    panic. *)
From Verif Require Import Base BTree Raw Read Write.

(** [anyhow::Error], as far as its source is concerned. *)
Inductive test_error : Type :=
| TestRow (er : row_error)
| TestEmit (er : emit_error)
| TestRead (er : read_error).

Definition test : Type := outcome test_error unit.
Definition passes (t : test) : Prop := t = Ok tt.

(** [?] with the conversion to [anyhow::Error]. *)
Definition try {E A} (f : E -> test_error) (o : outcome E A) : outcome test_error A :=
  match o with Ok a => Ok a | Err er => Err (f er) | Panic => Panic end.
(** [assert!] *)
Definition check (b : bool) : outcome test_error unit := if b then Ok tt else Panic.
(** [Option::unwrap] *)
Definition unwrap {E A} (o : option A) : outcome E A := match o with Some a => Ok a | None => Panic end.
(** [Result::is_err] *)
Definition is_err {E A} (o : outcome E A) : bool := match o with Err _ => true | _ => false end.

Definition pub_type_eqb (a b : pub_fde_type) : bool :=
  match a, b with PPcInc, PPcInc | PPcMask, PPcMask | PPcMaskV1, PPcMaskV1 => true | _, _ => false end.
Definition fre_offset_eqb (a b : fre_offset) : bool := fre_offset_u8 a =? fre_offset_u8 b.

(** [fres.next().unwrap()?] *)
Definition next_row (md : mode) (e : endian) (it : fre_iter) : outcome test_error fre :=
  let* r := lift (fri_next md e it) in
  let* item := unwrap (fst r) in
  match item with inl fr => Ok fr | inr er => Err (TestRead er) end.

(** [fdes.next().unwrap()] *)
Definition first_fde (sf : sframe) : outcome test_error entry := unwrap (fst (fdi_next (fdes sf))).

(** roundtrip.rs:6-64; [e] is [NativeEndian]. *)
Definition test_roundtrip (md : mode) (e : endian) : test :=
  let options := options_new in
  let sframe := sfb_new options in
  let fde := fdb_new options 0x1000 0x100 in
  let* fde := try TestRow (fdb_row fde (row_new Sp 0x00 {| ro_cfa := -8; ro_ra := Some 32; ro_fp := Some 24 |})) in
  let* fde := try TestRow (fdb_row fde (row_new Fp 0x10 {| ro_cfa := 32; ro_ra := None; ro_fp := None |})) in
  let* fde := try TestRow (fdb_row fde (row_new Sp 0x20 {| ro_cfa := 64; ro_ra := Some 17; ro_fp := None |})) in
  let* sframe := lift (sfb_fde sframe fde) in
  let* data := try TestEmit (build md e sframe) in
  let* sframe := try TestRead (load md e data) in
  let* _ := check (num_fdes sframe =? 1) in
  let* _ := check (num_fres sframe =? 3) in
  let* fde := first_fde sframe in
  let* _ := check (pub_type_eqb (en_fdetype fde) PPcInc) in
  let* _ := check (en_start_address fde =? 0x1000) in
  let* fre := next_row md e (fres fde) in
  let* _ := check (base_reg_eqb (fre_cfa_base_reg_id fre) Sp) in
  let* cfa := try TestRead (fre_cfa_offset fre) in
  let* _ := check (cfa =? -8) in
  let* fp := try TestRead (fre_fp_offset fre sframe) in
  let* _ := check (fp =? 24) in
  let* ra := try TestRead (fre_ra_offset fre sframe) in
  let* _ := check (ra =? 32) in
  check (fre_start_address_offset fre =? 0x0000).

(** roundtrip.rs:66-104 *)
Definition test_roundtrip_u16_offset (md : mode) (e : endian) : test :=
  let options := options_new in
  let sframe := sfb_new options in
  let fde := fdb_new options 0x1000 0x100000 in
  let* fde := try TestRow (fdb_row fde (row_new Sp 0x100 {| ro_cfa := -0x100; ro_ra := Some 32; ro_fp := Some 24 |})) in
  let* sframe := lift (sfb_fde sframe fde) in
  let* data := try TestEmit (build md e sframe) in
  let* sframe := try TestRead (load md e data) in
  let* _ := check (num_fdes sframe =? 1) in
  let* _ := check (num_fres sframe =? 1) in
  let* fde := first_fde sframe in
  let* _ := check (pub_type_eqb (en_fdetype fde) PPcInc) in
  let* _ := check (en_start_address fde =? 0x1000) in
  let* fre := next_row md e (fres fde) in
  let* _ := check (base_reg_eqb (fre_cfa_base_reg_id fre) Sp) in
  let* cfa := try TestRead (fre_cfa_offset fre) in
  let* _ := check (cfa =? -0x100) in
  let* fp := try TestRead (fre_fp_offset fre sframe) in
  let* _ := check (fp =? 24) in
  let* ra := try TestRead (fre_ra_offset fre sframe) in
  let* _ := check (ra =? 32) in
  check (fre_start_address_offset fre =? 0x100).

(** roundtrip.rs:106-135 *)
Definition test_roundtrip_invalid_fre (md : mode) (e : endian) : test :=
  let options := options_new in
  let sframe := sfb_new options in
  let fde := fdb_new options 0x1000 0x100000 in
  let* fde := try TestRow (fdb_row fde (row_invalid 0x10)) in
  let* sframe := lift (sfb_fde sframe fde) in
  let* data := try TestEmit (build md e sframe) in
  let* sframe := try TestRead (load md e data) in
  let* fde := first_fde sframe in
  let* _ := check (pub_type_eqb (en_fdetype fde) PPcInc) in
  let* _ := check (en_start_address fde =? 0x1000) in
  let* fre := next_row md e (fres fde) in
  let* _ := check (is_err (fre_cfa_offset fre)) in
  let* _ := check (is_err (fre_fp_offset fre sframe)) in
  check (is_err (fre_ra_offset fre sframe)).

(** raw/v2.rs:322-328; [FreInfo::new()] is 0. *)
Definition test_info_base : test :=
  check (base_reg_eqb (cfa_base_reg_id (set_cfa_base_reg_id Sp 0)) Sp).

(** raw/v2.rs:330-341 *)
Definition test_info_count : test :=
  let rt count := let* info := set_offset_count count 0 in Ok (offset_count info) in
  let* a := rt 0x0 in
  let* _ := check (a =? 0x0) in
  let* b := rt 0x3 in
  let* _ := check (b =? 0x3) in
  let* c := rt 0xF in
  check (c =? 0xF).

(** raw/v2.rs:343-356 *)
Definition test_info_size : test :=
  let rt size :=
    let* info := set_offset_count 0 (set_offset_size size 0) in
    Ok (offset_size (set_mangled_ra_p false info)) in
  let* a := rt Off1B in
  let* _ := check (fre_offset_eqb a Off1B) in
  let* b := rt Off2B in
  let* _ := check (fre_offset_eqb b Off2B) in
  let* c := rt Off4B in
  check (fre_offset_eqb c Off4B).

(** [add], bpfunwind/src/lib.rs:1-3, and its test, lines 9-13. *)
Definition bpf_add (md : mode) (left right : Z) : outcome test_error Z :=
  if left + right <? 2 ^ usize_bits md then Ok (left + right)
  else if overflow_checks md then Panic else Ok ((left + right) mod 2 ^ usize_bits md).
Definition test_bpf_add (md : mode) : test :=
  let* result := bpf_add md 2 2 in
  check (result =? 4).
