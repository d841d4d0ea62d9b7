(** Merging functions with the distance repaired.  Nothing here is in /repo: this is
    what write.rs:105-163 would be if write.rs:129 read
    [next.start_address.wrapping_sub(current.start_address)], to see which of the
    mistakes of C42 and C43 that one line accounts for. *)
From Verif Require Import Base BTree Write MergeSpec.

Definition should_merge_repaired {E} (md : mode) (current next : fdb) : outcome E bool :=
  if debug_asserts md && negb (options_eqb (fb_options current) (fb_options next)) then Panic
  else if negb (pauth_eqb (fb_pauth current) (fb_pauth next)) then Ok false
  else
    let relative := as_s 32 (fb_start next - fb_start current) in
    if negb (as_u 32 relative =? fb_size current) then Ok false
    else if u32_max <? fb_size current + fb_size next then Ok false
    else if rep_mismatch current next then Ok false
    else if negb (fres_eqb (fb_fres current) (fb_fres next)) then Ok false
    else Ok true.

Fixpoint merge_repaired_loop (fuel : nat) (md : mode) (address : Z) (m : btree fdb)
  : outcome fuel_error (btree fdb) :=
  match fuel with
  | O => Err OutOfFuel
  | S k =>
      match bt_range_from address m with
      | (key, current) :: (_, next) :: _ =>
          let saved := address in
          let address := fb_start next in
          let* merge := should_merge_repaired md current next in
          if merge : bool
          then merge_repaired_loop k md saved
                 (bt_remove address (bt_insert key (merged_fde current next) m))
          else merge_repaired_loop k md address m
      | _ => Ok m
      end
  end.

Definition merge_repaired (md : mode) (s : sfb) : outcome fuel_error sfb :=
  match bt_first (sb_fdes s) with
  | None => Ok s
  | Some (address, _) =>
      let* m := merge_repaired_loop (S (length (sb_fdes s))) md address (sb_fdes s) in
      Ok {| sb_options := sb_options s; sb_fdes := m |}
  end.

(** ** What it is meant to do *)

(** [b] goes on where [a] ends, with the same key, rows and blocks. *)
Definition continues (a b : fdb) : Prop :=
  fb_pauth a = fb_pauth b /\ fb_start b = fb_start a + fb_size a /\
  fb_size a + fb_size b <= u32_max /\ rep_compatible a b /\ fb_fres a = fb_fres b.

Inductive joins : list fdb -> list fdb -> Prop :=
| jo_nil : joins [] []
| jo_last a : joins [a] [a]
| jo_join a b t l : continues a b -> joins (join a b :: t) l -> joins (a :: b :: t) l
| jo_keep a b t l : ~ continues a b -> joins (b :: t) l -> joins (a :: b :: t) (a :: l).

(** A repeated function ends with a whole block. *)
Definition whole_blocks (b : fdb) : Prop :=
  match fb_rep_size b with None => True | Some n => (n | fb_size b) end.
