(** The look-ups of the reader with some of four repairs made.  Nothing here is in
    /repo: this is what read.rs:173-214, 399-450 and 737-747 would be after
    one-line changes, to see that the mistakes found there are all there are.

    - [fix_order]: the comparison of the binary search (read.rs:183-194, 197-208)
      says where the function is seen from the address, as [binary_search_by]
      expects it, instead of where the address is seen from the function;
    - [fix_rows]: [nth] (read.rs:737-747) takes the rows from the descriptor's own
      offset, as [next] does;
    - [fix_pick]: the row search (read.rs:399-450) goes on to the last row that
      starts at or before the offset instead of stopping at the first;
    - [fix_sub]: the distances are computed with [wrapping_sub]. *)
From Verif Require Import Base Raw Read SectionSpec.

Record repairs : Type := Repairs { fix_order : bool; fix_rows : bool; fix_pick : bool; fix_sub : bool }.
Definition no_repairs : repairs := Repairs false false false false.
Definition all_repairs : repairs := Repairs true true true true.

Definition distance {E} (rp : repairs) (md : mode) (a s : Z) : outcome E Z :=
  if fix_sub rp then Ok (as_s 32 (a - s)) else sub_i32 md a s.

Definition search_cmp_with {E} (rp : repairs) (md : mode) (address : Z) (f : fde) : outcome E ordering :=
  if address <? fde_start_address f then Ok (if fix_order rp then Greater else Less)
  else
    let* reladdr := distance rp md address (fde_start_address f) in
    if fde_size f <=? as_u 32 reladdr then Ok (if fix_order rp then Less else Greater) else Ok Equal.

Definition fdi_nth_with (rp : repairs) (n : nat) (it : fde_iter) : option entry * fde_iter :=
  match skipn n (it_fdes it) with
  | [] => (None, {| it_fdes := []; it_fres := it_fres it |})
  | f :: rest =>
      if fix_rows rp then fdi_next {| it_fdes := f :: rest; it_fres := it_fres it |}
      else (Some {| en_fde := f; en_fres := it_fres it |}, {| it_fdes := rest; it_fres := it_fres it |})
  end.

Definition fde_for_address_with (rp : repairs) (md : mode) (sf : sframe) (address : Z)
  : outcome fuel_error (option entry) :=
  let it := fdes sf in
  if negb (Z.land (flags sf) FLAG_FDE_SORTED =? FLAG_FDE_SORTED)
  then fdi_find (S (length (it_fdes it))) md address it
  else
    let* idx := binary_search md (search_cmp_with rp md address) (it_fdes it) in
    match idx with
    | None => Ok None
    | Some i => Ok (fst (fdi_nth_with rp i it))
    end.

(** The last of the rows at the beginning that satisfy [p]. *)
Fixpoint fri_last (fuel : nat) (md : mode) (e : endian) (p : fre -> bool) (best : option fre) (it : fre_iter)
  : outcome (fuel_error + read_error) (option fre) :=
  match fuel with
  | O => Err (inl OutOfFuel)
  | S k =>
      match fri_next md e it with
      | Ok (None, _) => Ok best
      | Ok (Some (inr er), _) => Err (inr er)
      | Ok (Some (inl fr), it') => if p fr then fri_last k md e p (Some fr) it' else Ok best
      | Err er => match er with end
      | Panic => Panic
      end
  end.
Definition fri_pick (rp : repairs) (md : mode) (e : endian) (p : fre -> bool) (it : fre_iter)
  : outcome (fuel_error + read_error) (option fre) :=
  if fix_pick rp then fri_last (fri_fuel it) md e p None it else fri_find (fri_fuel it) md e p it.

Definition get_fre_with (rp : repairs) (md : mode) (e : endian) (en : entry) (address : Z)
  : outcome (fuel_error + read_error) (option fre) :=
  if address <? en_start_address en then Ok None
  else
    let* d := distance rp md address (en_start_address en) in
    let relative := as_u 32 d in
    if en_size en <? relative then Ok None
    else
      let it := fres en in
      match en_fdetype en with
      | PPcInc => fri_pick rp md e (fun fr => fr_start fr <=? relative) it
      | PPcMask =>
          match en_rep_block_size en with
          | None => Panic
          | Some rep =>
              if rep =? 0 then Err (inr InvalidFdeRepBlockSize)
              else
                let modrel := relative mod rep in
                fri_pick rp md e (fun fr => fr_start fr <=? modrel) it
          end
      | PPcMaskV1 =>
          fri_find (fri_fuel it) md e
            (fun fr => let mask := fr_start fr in mask <=? Z.land relative mask) it
      end.

(** [lookup] of [SectionSpec.v] with these. *)
Definition lookup_with (rp : repairs) (md : mode) (e : endian) (sf : sframe) (a : Z)
  : outcome (fuel_error + read_error) (option unwind) :=
  match fde_for_address_with rp md sf a with
  | Ok None => Ok None
  | Ok (Some en) =>
      match get_fre_with rp md e en a with
      | Ok o => Ok (option_map (observed sf) o)
      | Err er => Err er
      | Panic => Panic
      end
  | Err er => Err (inl er)
  | Panic => Panic
  end.

(** Without repairs this is the reader as it is. *)
Lemma lookup_unrepaired md e sf a : lookup_with no_repairs md e sf a = lookup md e sf a.
Proof. reflexivity. Qed.
