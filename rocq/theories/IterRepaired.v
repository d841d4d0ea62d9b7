(** The iterators and look-ups of [ReadRepaired.v], where each repair can be made on its
    own.  Nothing here is in /repo.

    - [fix_rows] of [Repaired.v] here also covers [next_back] (read.rs:758-768), which takes
      the rows from the descriptor's own offset like [next];
    - [fix_end]: [get_fre_for_address] (read.rs:399-450) refuses the first address behind the
      function (read.rs:408) as [contains] does. *)
From Verif Require Import Base Raw Read Spec ReadSpec SectionSpec Repaired ReadRepaired.

(** read.rs:758-768 *)
Definition fdi_next_back_with (rp : repairs) (it : fde_iter) : option entry * fde_iter :=
  match rev (it_fdes it) with
  | [] => (None, it)
  | f :: rest =>
      (Some {| en_fde := f;
               en_fres := if fix_rows rp
                          then match get_from (fde_start_fre_off f) (it_fres it) with Some r => r | None => [] end
                          else it_fres it |},
       {| it_fdes := rev rest; it_fres := it_fres it |})
  end.

Definition fdi_step_with (rp : repairs) (it : fde_iter) (op : iter_op) : option entry * fde_iter :=
  match op with
  | OpNext => fdi_next it
  | OpNextBack => fdi_next_back_with rp it
  | OpNth n => fdi_nth_with rp n it
  end.
Fixpoint fdi_run_with (rp : repairs) (it : fde_iter) (ops : list iter_op) : list (option entry) * fde_iter :=
  match ops with
  | [] => ([], it)
  | op :: t =>
      let '(o, it') := fdi_step_with rp it op in
      let '(os, it'') := fdi_run_with rp it' t in
      (o :: os, it'')
  end.

(** A [for] loop over the rows, as [fri_collect] of [Read.v]. *)
Fixpoint fri_collect_with (fuel : nat) (fx : rfixes) (md : mode) (e : endian) (it : fre_iter)
  : outcome fuel_error (list fre_item) :=
  match fuel with
  | O => Err OutOfFuel
  | S k =>
      match fri_next_with fx md e it with
      | Ok (None, _) => Ok []
      | Ok (Some x, it') =>
          let* l := fri_collect_with k fx md e it' in
          Ok (x :: l)
      | Err er => match er with end
      | Panic => Panic
      end
  end.
Definition all_fres_with (fx : rfixes) (md : mode) (e : endian) (en : entry) : outcome fuel_error (list fre_item) :=
  fri_collect_with (fri_fuel (fres en)) fx md e (fres en).

(** read.rs:399-450 with [fix_end] *)
Definition get_fre_within (fix_end : bool) (fx : rfixes) (md : mode) (e : endian) (en : entry) (address : Z)
  : outcome (fuel_error + read_error) (option fre) :=
  if address <? en_start_address en then Ok None
  else
    let* d := distance (fix_look fx) md address (en_start_address en) in
    let relative := as_u 32 d in
    if if fix_end then en_size en <=? relative else en_size en <? relative then Ok None
    else
      let it := fres en in
      match fde_fdetype_with fx (en_fde en) with
      | PPcInc => fri_pick_with fx md e (fun fr => fr_start fr <=? relative) it
      | PPcMask =>
          match en_rep_block_size en with
          | None => Panic
          | Some rep =>
              if rep =? 0 then Err (inr InvalidFdeRepBlockSize)
              else
                let modrel := relative mod rep in
                fri_pick_with fx md e (fun fr => fr_start fr <=? modrel) it
          end
      | PPcMaskV1 =>
          fri_find_with (fri_fuel it) fx md e
            (fun fr => let mask := fr_start fr in mask <=? Z.land relative mask) it
      end.

(** The offset that selects the row, as [lookup_offset] of [ReadSpec.v]. *)
Definition lookup_offset_with (fx : rfixes) (en : entry) (rel : Z) : option Z :=
  match fde_fdetype_with fx (en_fde en) with
  | PPcInc => Some rel
  | PPcMask => match en_rep_block_size en with
               | Some r => if r =? 0 then None else Some (rel mod r)
               | None => None
               end
  | PPcMaskV1 => None
  end.

(** One repair each. *)
Definition rows_only : repairs := Repairs false true false false.
Definition tail_only : rfixes := RFixes no_repairs false true.
(** All repairs of the look-ups except for the bits of the info byte, which the writer of
    /repo puts where the reader of /repo expects them. *)
Definition lib_rfixes : rfixes := RFixes all_repairs false true.
