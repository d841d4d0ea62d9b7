(** Copying a section with builders that refuse what they do not keep.  Nothing here is
    in /repo: this is [section_read] of SectionSpec.v with some of four refusals.

    - [kf_same]: [SFrameBuilder::fde] (write.rs:89-93) refuses a function that begins
      where another does, instead of replacing it;
    - [kf_tied]: [FuncDescBuilder::row] (write.rs:448-491) refuses a row with an offset
      that does not fit the width [build] chooses for the row (write.rs:574-594);
    - [kf_base]: a row without offsets and with base register SP is refused, since
      [FrameRowBuilder::invalid] (write.rs:512-519) takes no base register;
    - [kf_mask]: a function of version 1 that is searched by mask is refused, since
      [build] writes version 2, which has none. *)
From Verif Require Import Base BTree Raw Read Write WriteRepaired WriteSpec SectionSpec.

Record kfixes : Type := KFixes { kf_same : bool; kf_tied : bool; kf_base : bool; kf_mask : bool }.
Definition no_kfixes : kfixes := KFixes false false false false.
Definition all_kfixes : kfixes := KFixes true true true true.

(** Some offset does not fit the width that [build] chooses (write.rs:574-594). *)
Definition too_narrow (r : row) : bool := negb (forallb (within (2 ^ (8 * Z.of_nat (addr_bytes (row_offset_type r)) - 1))) (row_values r)).

Definition row_refused (k : kfixes) (o : sframe_options) (fr : fre) (r : row) : bool :=
  kf_tied k && too_narrow (kept_row o r) ||
  kf_base k && match r_offsets r with None => negb (base_reg_eqb (fre_cfa_base_reg_id fr) (r_base r)) | Some _ => false end.

Definition fdb_read_with (k : kfixes) (md : mode) (e : endian) (sf : sframe) (en : entry) : option fdb :=
  match res (all_fres md e en) with
  | None => None
  | Some items =>
      match good_rows items with
      | None => None
      | Some rows =>
          if kf_mask k && match en_fdetype en with PPcMaskV1 => true | _ => false end then None
          else if existsb (fun fr => row_refused k (options_read sf) fr (row_read sf fr)) rows then None
          else fdb_read md e sf en
      end
  end.

Inductive fde_error : Type := FunctionThere.
Definition sfb_fde_with (k : kfixes) (s : sfb) (b : fdb) : outcome fde_error sfb :=
  if kf_same k && match bt_get (fb_start b) (sb_fdes s) with Some _ => true | None => false end then Err FunctionThere
  else match sfb_fde s b with Ok s' => Ok s' | Err er => match er with end | Panic => Panic end.

Fixpoint fdes_read_with (k : kfixes) (md : mode) (e : endian) (sf : sframe) (l : list entry) (s : sfb) : option sfb :=
  match l with
  | [] => Some s
  | en :: t =>
      match fdb_read_with k md e sf en with
      | None => None
      | Some b => match sfb_fde_with k s b with
                  | Ok s' => fdes_read_with k md e sf t s'
                  | _ => None
                  end
      end
  end.
Definition section_read_with (k : kfixes) (md : mode) (e : endian) (sf : sframe) : option sfb :=
  fdes_read_with k md e sf (all_fdes sf) (sfb_new (options_read sf)).
