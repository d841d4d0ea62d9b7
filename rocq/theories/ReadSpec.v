(** Specification of the reader beyond [Spec]: notions that need the data types
    of the API.  Functions of the model occur only where a statement is about a
    sequence of calls, or shows what accessors return. *)
From Verif Require Export Base Raw Read Spec.
From Coq Require Import Sorted.

(** ** Descriptors and rows as the API shows them *)

Definition swap (e : endian) : endian := match e with LE => BE | BE => LE end.

(** What the API shows of a descriptor. *)
Definition view_fde (f : fde) : spec_fde :=
  {| sd_start := fde_start_address f;
     sd_size := fde_size f;
     sd_fre_off := fde_start_fre_off f;
     sd_num_fres := fde_num_fres f;
     sd_info := fde_info f;
     sd_rep := fde_rep_size f |}.

(** What the API shows of a row. *)
Definition view_fre (fr : fre) : spec_row :=
  {| sr_start := fre_start_address_offset fr;
     sr_base_is_sp := match fre_cfa_base_reg_id fr with Sp => true | Fp => false end;
     sr_mangled := fre_mangled_ra_p fr;
     sr_offsets := fre_offsets fr |}.

Definition fde_ok (f : fde) : Prop :=
  in_i32 (fde_start_address f) /\ in_u32 (fde_size f) /\ in_u32 (fde_start_fre_off f) /\
  in_u32 (fde_num_fres f) /\ in_u8 (fde_info f).

(** FRE type number of a descriptor, as the code extracts it. *)
Definition fre_type_num (info : Z) : Z := bits 0 3 info.

(** What the accessors of a function return.  Kind and key are the bits the code
    takes them from (C25). *)
Definition accessors_show (version : Z) (d : spec_fde) (en : entry) : Prop :=
  en_start_address en = sd_start d /\ en_size en = sd_size d /\
  en_fdetype en = (if bits 3 1 (sd_info d) =? 0 then PPcInc else if version =? 1 then PPcMaskV1 else PPcMask) /\
  en_pauth_key en = (if bits 4 1 (sd_info d) =? 0 then KeyA else KeyB) /\
  en_rep_block_size en = sd_rep d.

(** ** Iterators *)

(** One iterator call of the model. *)
Definition fdi_step (it : fde_iter) (op : iter_op) : option entry * fde_iter :=
  match op with
  | OpNext => fdi_next it
  | OpNextBack => fdi_next_back it
  | OpNth n => fdi_nth n it
  end.

Fixpoint fdi_run (it : fde_iter) (ops : list iter_op) : list (option entry) * fde_iter :=
  match ops with
  | [] => ([], it)
  | op :: t =>
      let '(o, it') := fdi_step it op in
      let '(os, it'') := fdi_run it' t in
      (o :: os, it'')
  end.

(** [n] calls of [next]. *)
Fixpoint fri_calls (n : nat) (md : mode) (e : endian) (it : fre_iter)
  : outcome never (list (option fre_item) * fre_iter) :=
  match n with
  | O => Ok ([], it)
  | S k =>
      let* r := fri_next md e it in
      let* s := fri_calls k md e (snd r) in
      Ok (fst r :: fst s, snd s)
  end.

(** ** Searching *)

(** The probes each algorithm makes reach the target in these cases only. *)
Definition reached (i : bsearch_impl) (n k : Z) : bool :=
  match i with
  | BsLeftRight => k =? n / 2
  | BsBase => (n =? 1) || ((n =? 2) && (k =? 1))
  end.

Definition is_sorted_flag (bs : bytes) : bool := Z.odd (spec_flags bs).

(** The table is sorted and disjoint. *)
Definition sorted_disjoint (e : endian) (bs : bytes) : Prop :=
  forall i j, 0 <= i < j -> j < spec_num_fdes e bs ->
    sd_start (spec_entry e bs i) + sd_size (spec_entry e bs i) <= sd_start (spec_entry e bs j).

(** The row an address selects: among the rows starting at or before [rel], the
    one starting last. *)
Definition row_in_effect (rows : list fre) (rel : Z) (fr : fre) : Prop :=
  In fr rows /\ fre_start_address_offset fr <= rel /\
  forall g, In g rows -> fre_start_address_offset g <= rel ->
    fre_start_address_offset g <= fre_start_address_offset fr.

Definition ascending (rows : list fre) : Prop :=
  StronglySorted (fun a b => fre_start_address_offset a < fre_start_address_offset b) rows.

(** The offset used to select the row: [rel], or [rel] modulo the block size. *)
Definition lookup_offset (en : entry) (rel : Z) : option Z :=
  match en_fdetype en with
  | PPcInc => Some rel
  | PPcMask => match en_rep_block_size en with
               | Some r => if r =? 0 then None else Some (rel mod r)
               | None => None
               end
  | PPcMaskV1 => None
  end.

(** The [k]-th offset stored in a row. *)
Definition stored (r : spec_row) (k : nat) : outcome read_error Z :=
  match nth_error (sr_offsets r) k with Some o => Ok o | None => Err MissingFreOffset end.

(** ** Fields of the info bytes *)

Definition fde_fields (i : Z) := (fretype i, fdetype i, pauth_key i, i / 32).

Definition fre_fields (i : Z) := (cfa_base_reg_id i, offset_count i, offset_size i, mangled_ra_p i).
