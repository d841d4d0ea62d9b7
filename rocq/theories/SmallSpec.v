(** The fewest bytes that say a list of rows (C151). *)
From Verif Require Import Base Spec WriteSpec.

(** All of [bs] says the rows [l], with start fields of [aw] bytes. *)
Definition says_rows (e : endian) (aw : Z) (bs : bytes) (l : list spec_row) : Prop :=
  (aw = 1 \/ aw = 2 \/ aw = 4) /\ spec_rows_at e aw bs l [].

(** [n] bytes say the rows, and fewer do not. *)
Definition fewest (n : Z) (l : list spec_row) : Prop :=
  (exists e aw bs, says_rows e aw bs l /\ zlen bs = n) /\
  forall e aw bs, says_rows e aw bs l -> n <= zlen bs.

(** The bytes [seg] of the section [bs] are where its [i]-th descriptor places its rows,
    and the descriptor says that the start fields have [aw] bytes. *)
Definition rows_stored (e : endian) (bs : bytes) (i : nat) (aw : Z) (seg : bytes) : Prop :=
  exists before after, spec_fre_bytes e bs = before ++ seg ++ after /\
    zlen before = sd_fre_off (spec_entry e bs (Z.of_nat i)) /\
    width_of (bits 0 3 (sd_info (spec_entry e bs (Z.of_nat i)))) = Some aw.

(** Bytes a start field has too many, where the last row starts there. *)
Definition last_start (rows : list row) : Z := fold_right Z.max 0 (map r_start rows).
Definition excess (rows : list row) : Z :=
  if (0x80 <=? last_start rows) && (last_start rows <=? 0xFF) then 1
  else if (0x8000 <=? last_start rows) && (last_start rows <=? 0xFFFF) then 2
  else 0.
