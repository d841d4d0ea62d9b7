(** Which bytes of a section an answer depends on, and sections of version 1 in
    the form of version 2. *)
From Verif Require Export ReadSpec WriteSpec.

(** ** Bytes *)

(** [a] and [b] have the same [n] bytes from position [lo] on. *)
Definition same_at (lo n : Z) (a b : bytes) : Prop := slice lo n a = slice lo n b.

(** Where the rows of a function start. *)
Definition spec_rows_pos (e : endian) (bs : bytes) (d : spec_fde) : Z :=
  spec_base bs + spec_freoff e bs + sd_fre_off d.

(** The number of bytes a row takes: start, info byte, offsets. *)
Definition row_len (fr : fre) : Z :=
  match width_of (bits 0 3 (fde_info (fr_fde fr))), width_of (bits 5 2 (fr_info fr)) with
  | Some aw, Some ow => aw + 1 + bits 1 4 (fr_info fr) * ow
  | _, _ => 0
  end.
Definition rows_len (l : list fre) : Z := fold_right (fun fr n => row_len fr + n) 0 l.

(** The next rows the iterator delivers are [l]. *)
Definition delivers (md : mode) (e : endian) (en : entry) (l : list fre) : Prop :=
  exists it, fri_calls (length l) md e (fres en) = Ok (map (fun fr => Some (inl fr)) l, it).

(** ** Damage *)

(** [bs'] is [bs] except in the [i]-th of the functions [l]: in its descriptor
    and its rows. *)
Definition damaged_in (l : list fdb) (i : nat) (bs bs' : bytes) : Prop :=
  length bs' = length bs /\
  forall p, nth_error bs' (Z.to_nat p) <> nth_error bs (Z.to_nat p) -> 0 <= p ->
    exists b, nth_error l i = Some b /\
      (28 + 20 * Z.of_nat i <= p < 28 + 20 * Z.of_nat i + 20 \/
       28 + 20 * zlen l + rows_off l i <= p < 28 + 20 * zlen l + rows_off l i + fde_fre_size b).

(** [bs'] is [bs] except in the rows of the [i]-th of the functions [l]. *)
Definition damaged_rows (l : list fdb) (i : nat) (bs bs' : bytes) : Prop :=
  length bs' = length bs /\
  forall p, nth_error bs' (Z.to_nat p) <> nth_error bs (Z.to_nat p) -> 0 <= p ->
    exists b, nth_error l i = Some b /\
      28 + 20 * zlen l + rows_off l i <= p < 28 + 20 * zlen l + rows_off l i + fde_fre_size b.

(** The two entries hold the same descriptor and give the same rows. *)
Definition reads_alike (md : mode) (e : endian) (en en' : entry) : Prop :=
  en_fde en = en_fde en' /\ all_fres md e en = all_fres md e en' /\
  forall a, get_fre_for_address md e en a = get_fre_for_address md e en' a.

(** ** Versions *)

(** The same descriptor, apart from the block size, which version 1 does not have. *)
Definition same_but_rep (d d' : spec_fde) : Prop :=
  sd_start d = sd_start d' /\ sd_size d = sd_size d' /\ sd_fre_off d = sd_fre_off d' /\
  sd_num_fres d = sd_num_fres d' /\ sd_info d = sd_info d'.

(** [bs] is a section of version 1, [bs'] the same section in version 2. *)
Definition transcribed (e : endian) (bs bs' : bytes) : Prop :=
  spec_version bs = 1 /\ spec_version bs' = 2 /\ spec_flags bs = spec_flags bs' /\
  spec_fixed_fp bs = spec_fixed_fp bs' /\ spec_fixed_ra bs = spec_fixed_ra bs' /\
  spec_num_fdes e bs = spec_num_fdes e bs' /\ spec_fre_bytes e bs = spec_fre_bytes e bs' /\
  forall i, 0 <= i < spec_num_fdes e bs -> same_but_rep (spec_entry e bs i) (spec_entry e bs' i).

(** What a row says, through the accessors. *)
Definition row_says (md : mode) (sf : sframe) (fr : fre)
  : spec_row * outcome never Z * outcome read_error Z * outcome read_error Z * outcome read_error Z :=
  (view_fre fr, fre_start_address md fr, fre_cfa_offset fr, fre_ra_offset fr sf, fre_fp_offset fr sf).

(** The same answer. *)
Definition both {E A B} (P : A -> B -> Prop) (x : outcome E A) (y : outcome E B) : Prop :=
  match x, y with
  | Ok a, Ok b => P a b
  | Err er, Err er' => er = er'
  | Panic, Panic => True
  | _, _ => False
  end.
Definition both_some {A B} (P : A -> B -> Prop) (x : option A) (y : option B) : Prop :=
  match x, y with
  | Some a, Some b => P a b
  | None, None => True
  | _, _ => False
  end.
Definition says_same (md : mode) (sf sf' : sframe) (fr fr' : fre) : Prop := row_says md sf fr = row_says md sf' fr'.
Definition item_same (md : mode) (sf sf' : sframe) (x y : fre_item) : Prop :=
  match x, y with
  | inl fr, inl fr' => says_same md sf sf' fr fr'
  | inr er, inr er' => er = er'
  | _, _ => False
  end.

(** The same function, as far as a version 1 section can tell: its fields, its
    rows and, unless it is a repeated block, the row for every address. *)
Definition reads_same (md : mode) (e : endian) (sf sf' : sframe) (en en' : entry) : Prop :=
  same_but_rep (view_fde (en_fde en)) (view_fde (en_fde en')) /\
  en_start_address en = en_start_address en' /\ en_size en = en_size en' /\ en_pauth_key en = en_pauth_key en' /\
  (en_fdetype en = PPcInc <-> en_fdetype en' = PPcInc) /\
  both (Forall2 (item_same md sf sf')) (all_fres md e en) (all_fres md e en') /\
  (en_fdetype en = PPcInc -> forall a, both (both_some (says_same md sf sf')) (get_fre_for_address md e en a) (get_fre_for_address md e en' a)).
