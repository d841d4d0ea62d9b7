(** Specification of the writer: what the theorems about [FuncDescBuilder] and
    [SFrameBuilder] are stated with.  Only the data types of the writer and, in
    the definition of call histories, its public methods are used. *)
From Verif Require Export Base BTree Raw Read Write Spec ReadSpec.

(** ** What a builder holds *)

Definition rows_of (b : fdb) : list row := map snd (fb_fres b).
Definition fdes_of (s : sfb) : list fdb := map snd (sb_fdes s).

(** ** Values the Rust types allow *)

Definition opt_in (P : Z -> Prop) (o : option Z) : Prop :=
  match o with Some z => P z | None => True end.

Definition offsets_typed (o : row_offsets) : Prop :=
  in_i32 (ro_cfa o) /\ opt_in in_i32 (ro_ra o) /\ opt_in in_i32 (ro_fp o).

Definition row_typed (r : row) : Prop :=
  in_u32 (r_start r) /\ match r_offsets r with Some o => offsets_typed o | None => True end.

(** ** Call histories *)

(** Options reachable through the setters of [SFrameOptions]. *)
Inductive opts_reach : sframe_options -> Prop :=
| or_new : opts_reach options_new
| or_frame_pointer v o : opts_reach o -> opts_reach (options_frame_pointer v o)
| or_abi a o : in_u8 a -> opts_reach o -> opts_reach (options_abi a o)
| or_fixed_fp v o : opt_in in_i8 v -> opts_reach o -> opts_reach (options_fixed_fp v o)
| or_fixed_ra v o : opt_in in_i8 v -> opts_reach o -> opts_reach (options_fixed_ra v o).

(** [FuncDescBuilder]s reachable through its methods (a failing [row] is covered
    by [fdb_row_st]'s first component). *)
Inductive fdb_reach : fdb -> Prop :=
| br_new o start size :
    opts_reach o -> in_i32 start -> in_u32 size -> fdb_reach (fdb_new o start size)
| br_pcinc b : fdb_reach b -> fdb_reach (fdb_pcinc b)
| br_pcmask rep b : in_u8 rep -> fdb_reach b -> fdb_reach (fdb_pcmask rep b)
| br_start a b : in_i32 a -> fdb_reach b -> fdb_reach (fdb_set_start a b)
| br_size n b : in_u32 n -> fdb_reach b -> fdb_reach (fdb_set_size n b)
| br_pauth k b : fdb_reach b -> fdb_reach (fdb_set_pauth k b)
| br_row r b : row_typed r -> fdb_reach b -> fdb_reach (fst (fdb_row_st b r))
| br_merge b b' : fdb_reach b -> merge_adjacent_fres b = Ok b' -> fdb_reach b'.

(** [SFrameBuilder]s reachable through its methods in profile [md]. *)
Inductive sfb_reach (md : mode) : sfb -> Prop :=
| sr_new o : opts_reach o -> sfb_reach md (sfb_new o)
| sr_fde s b s' : sfb_reach md s -> fdb_reach b -> sfb_fde s b = Ok s' -> sfb_reach md s'
| sr_merge s s' : sfb_reach md s -> merge_adjacent_fdes md s = Ok s' -> sfb_reach md s'.

(** The same without [FuncDescBuilder::size], which can make a function smaller
    than its rows. *)
Inductive fdb_sized : fdb -> Prop :=
| bs_new o start size :
    opts_reach o -> in_i32 start -> in_u32 size -> fdb_sized (fdb_new o start size)
| bs_pcinc b : fdb_sized b -> fdb_sized (fdb_pcinc b)
| bs_pcmask rep b : in_u8 rep -> fdb_sized b -> fdb_sized (fdb_pcmask rep b)
| bs_start a b : in_i32 a -> fdb_sized b -> fdb_sized (fdb_set_start a b)
| bs_pauth k b : fdb_sized b -> fdb_sized (fdb_set_pauth k b)
| bs_row r b : row_typed r -> fdb_sized b -> fdb_sized (fst (fdb_row_st b r))
| bs_merge b b' : fdb_sized b -> merge_adjacent_fres b = Ok b' -> fdb_sized b'.

Inductive sfb_sized (md : mode) : sfb -> Prop :=
| ss_new o : opts_reach o -> sfb_sized md (sfb_new o)
| ss_fde s b s' : sfb_sized md s -> fdb_sized b -> sfb_fde s b = Ok s' -> sfb_sized md s'
| ss_merge s s' : sfb_sized md s -> merge_adjacent_fdes md s = Ok s' -> sfb_sized md s'.

(** Calls of the option setters, and what was asked for last. *)
Inductive opt_call : Type :=
| CallFramePointer (v : bool)
| CallAbi (a : Z)
| CallFixedFp (v : option Z)
| CallFixedRa (v : option Z).
Definition call_typed (c : opt_call) : Prop :=
  match c with
  | CallFramePointer _ => True
  | CallAbi a => in_u8 a
  | CallFixedFp v => opt_in in_i8 v
  | CallFixedRa v => opt_in in_i8 v
  end.
Definition run_call (o : sframe_options) (c : opt_call) : sframe_options :=
  match c with
  | CallFramePointer v => options_frame_pointer v o
  | CallAbi a => options_abi a o
  | CallFixedFp v => options_fixed_fp v o
  | CallFixedRa v => options_fixed_ra v o
  end.
Definition run_calls (l : list opt_call) : sframe_options := fold_left run_call l options_new.
Fixpoint last_of {A} (f : opt_call -> option A) (d : A) (l : list opt_call) : A :=
  match l with
  | [] => d
  | c :: t => last_of f (match f c with Some a => a | None => d end) t
  end.
Definition asked_frame_pointer := last_of (fun c => match c with CallFramePointer v => Some v | _ => None end) false.
Definition asked_abi := last_of (fun c => match c with CallAbi a => Some a | _ => None end) 0.
Definition asked_fixed_fp := last_of (fun c => match c with CallFixedFp v => Some v | _ => None end) None.
Definition asked_fixed_ra := last_of (fun c => match c with CallFixedRa v => Some v | _ => None end) None.
Definition zero_is_none (v : option Z) : option Z :=
  match v with Some z => nonzero z | None => None end.

(** Add rows with [row()], in order, stopping at the first error. *)
Fixpoint add_rows (b : fdb) (rows : list row) : outcome row_error fdb :=
  match rows with
  | [] => Ok b
  | r :: t => let* b' := fdb_row b r in add_rows b' t
  end.

(** Add FDEs with [fde()], in order. *)
Fixpoint add_fdes (s : sfb) (l : list fdb) : outcome never sfb :=
  match l with
  | [] => Ok s
  | b :: t => let* s' := sfb_fde s b in add_fdes s' t
  end.

(** ** Acceptance of a row *)

(** A given offset agrees with the section's fixed one. *)
Definition agrees (fixed given : option Z) : Prop :=
  forall f g, fixed = Some f -> given = Some g -> g = f.

(** The conditions on a row, in order, each with its documented error. *)
Definition row_conditions (b : fdb) (r : row) : list (Prop * row_error) :=
  [ (r_start r < 0x10000000, StartAddressTooLarge);
    (forall rep, fb_rep_size b = Some rep -> r_start r < rep, StartAddressLargerThanRepSize);
    (r_start r < fb_size b, StartAddressOutsideFde);
    (forall o, r_offsets r = Some o -> agrees (so_fixed_ra (fb_options b)) (ro_ra o), UnexpectedRaOffset);
    (forall o, r_offsets r = Some o -> agrees (so_fixed_fp (fb_options b)) (ro_fp o), UnexpectedFpOffset);
    (forall r', In r' (rows_of b) -> r_start r' <> r_start r, DuplicateRow) ].

(** [er] belongs to the first violated condition. *)
Definition first_violated (l : list (Prop * row_error)) (er : row_error) : Prop :=
  exists pre c post, l = pre ++ (c, er) :: post /\ ~ c /\ Forall (fun p => fst p) pre.

(** The row kept for an accepted row: offsets fixed by the section are dropped. *)
Definition drop_fixed (fixed given : option Z) : option Z :=
  match fixed with Some _ => None | None => given end.
Definition kept_row (o : sframe_options) (r : row) : row :=
  {| r_start := r_start r;
     r_offsets := match r_offsets r with
                  | None => None
                  | Some x => Some {| ro_cfa := ro_cfa x;
                                      ro_ra := drop_fixed (so_fixed_ra o) (ro_ra x);
                                      ro_fp := drop_fixed (so_fixed_fp o) (ro_fp x) |}
                  end;
     r_mangled := r_mangled r; r_base := r_base r |}.

(** ** Overlap *)

(** The start of one FDE lies inside the range of another. *)
Definition overlapping (s : sfb) : Prop :=
  exists a b, In a (fdes_of s) /\ In b (fdes_of s) /\ fb_start a <> fb_start b /\
    in_range (fb_start a) (fb_size a) (fb_start b).

Definition neighbours {A} (l : list A) (a b : A) : Prop :=
  exists pre post, l = pre ++ a :: b :: post.

(** ** Sizes *)

(** [v] can be stored in [w] bytes, two's complement. *)
Definition storable (w v : Z) : Prop := - 2 ^ (8 * w - 1) <= v < 2 ^ (8 * w - 1).
Definition storableb (w v : Z) : bool := (- 2 ^ (8 * w - 1) <=? v) && (v <? 2 ^ (8 * w - 1)).

(** The offsets a row stores, in order. *)
Definition stored_values (r : row) : list Z :=
  match r_offsets r with
  | None => []
  | Some o => ro_cfa o :: (match ro_ra o with Some x => [x] | None => [] end)
                       ++ (match ro_fp o with Some x => [x] | None => [] end)
  end.

(** The first value of greatest magnitude. *)
Fixpoint dominant (l : list Z) : option Z :=
  match l with
  | [] => None
  | v :: t => match dominant t with
              | Some w => if Z.abs v <? Z.abs w then Some w else Some v
              | None => Some v
              end
  end.

(** Bytes per stored offset: what the dominant value needs. *)
Definition offset_width (r : row) : Z :=
  match dominant (stored_values r) with
  | None => 1
  | Some m => if storableb 1 m then 1 else if storableb 2 m then 2 else 4
  end.

(** Bytes per start field of a function: what its last start needs (signed). *)
Definition start_width (rows : list row) : Z :=
  let m := fold_right Z.max 0 (map r_start rows) in
  if m <=? 0x7F then 1 else if m <=? 0x7FFF then 2 else 4.

(** Size of a row, of a function's rows, and of all rows. *)
Definition row_size (aw : Z) (r : row) : Z := aw + 1 + zlen (stored_values r) * offset_width r.
Definition sumz (l : list Z) : Z := fold_right Z.add 0 l.
Definition fde_fre_size (b : fdb) : Z := sumz (map (row_size (start_width (rows_of b))) (rows_of b)).
Definition fre_size (s : sfb) : Z := sumz (map fde_fre_size (fdes_of s)).

(** A size that the header cannot express. *)
Definition too_large (s : sfb) : Prop := u32_max < fre_size s \/ u32_max < 20 * zlen (fdes_of s).
Definition row_count (l : list fdb) : Z := sumz (map (fun b => zlen (rows_of b)) l).
(** Offset of the rows of the [i]-th function: the rows before it. *)
Definition rows_off (l : list fdb) (i : nat) : Z := sumz (map fde_fre_size (firstn i l)).

(** Two neighbouring starts further apart than [i32::MAX]. *)
Definition wide_gap (l : list fdb) : Prop :=
  exists a b, neighbours l a b /\ i32_max < fb_start b - fb_start a.

(** ** What a built section contains *)

(** [v] kept in [w] bytes and read back. *)
Definition wrap (w v : Z) : Z := as_s (8 * w) v.

(** The row the format describes for a builder row. *)
Definition written (r : row) : spec_row :=
  {| sr_start := r_start r;
     sr_base_is_sp := match r_base r with Sp => true | Fp => false end;
     sr_mangled := r_mangled r;
     sr_offsets := map (wrap (offset_width r)) (stored_values r) |}.

(** The info byte of a descriptor: FRE type in bits 0-2, FDE type in bit 3, key
    in bit 4 (the positions this library uses, see C25). *)
Definition info_of (b : fdb) : Z :=
  (match fb_pauth b with KeyA => 0 | KeyB => 16 end) +
  (match fb_rep_size b with Some _ => 8 | None => 0 end) +
  (if start_width (rows_of b) =? 1 then 0 else if start_width (rows_of b) =? 2 then 1 else 2).

(** The [i]-th descriptor. *)
Definition descriptor (l : list fdb) (i : nat) (b : fdb) : spec_fde :=
  {| sd_start := fb_start b; sd_size := fb_size b; sd_fre_off := rows_off l i;
     sd_num_fres := zlen (rows_of b); sd_info := info_of b;
     sd_rep := Some (match fb_rep_size b with Some rep => rep | None => 0 end) |}.

(** The descriptor as seen through the API. *)
Definition pub_type (b : fdb) : pub_fde_type :=
  match fb_rep_size b with Some _ => PPcMask | None => PPcInc end.
Definition same_descriptor (b : fdb) (en : entry) : Prop :=
  en_start_address en = fb_start b /\ en_size en = fb_size b /\ en_fdetype en = pub_type b /\
  en_rep_block_size en = Some (match fb_rep_size b with Some rep => rep | None => 0 end) /\
  en_pauth_key en = fb_pauth b /\ fde_num_fres (en_fde en) = zlen (rows_of b).

(** Every row starts inside the function. *)
Definition rows_inside (b : fdb) : Prop := Forall (fun r => r_start r < fb_size b) (rows_of b).

(** Every stored offset fits the width chosen for the row. *)
Definition untruncated (r : row) : Prop := Forall (storable (offset_width r)) (stored_values r).

(** The value of greatest magnitude is the most negative one of its width and
    its negation, which does not fit, is also stored. *)
Definition tied (r : row) : Prop :=
  exists m, dominant (stored_values r) = Some m /\ (m = -128 \/ m = -32768) /\ In (- m) (stored_values r).

(** A row with an FP offset but neither an RA offset nor a fixed one. *)
Definition ambiguous (o : sframe_options) (r : row) : Prop :=
  so_fixed_ra o = None /\ exists x, r_offsets r = Some x /\ ro_ra x = None /\ ro_fp x <> None.

(** ** What a row means to an unwinder *)

Record unwind : Type := Unwind {
  uw_base : base_reg;
  uw_mangled : bool;
  uw_cfa : option Z;
  uw_ra : option Z;
  uw_fp : option Z }.

(** What was asked for: fixed offsets apply to every row. *)
Definition or_fixed (fixed given : option Z) : option Z :=
  match fixed with Some f => Some f | None => given end.
Definition intended (o : sframe_options) (r : row) : unwind :=
  {| uw_base := r_base r; uw_mangled := r_mangled r;
     uw_cfa := option_map ro_cfa (r_offsets r);
     uw_ra := or_fixed (so_fixed_ra o) (match r_offsets r with Some x => ro_ra x | None => None end);
     uw_fp := or_fixed (so_fixed_fp o) (match r_offsets r with Some x => ro_fp x | None => None end) |}.

(** What a reader sees through the accessors of [FrameRowEntry]. *)
Definition res {E A} (o : outcome E A) : option A := match o with Ok a => Some a | _ => None end.
Definition observed (sf : sframe) (fr : fre) : unwind :=
  {| uw_base := fre_cfa_base_reg_id fr; uw_mangled := fre_mangled_ra_p fr;
     uw_cfa := res (fre_cfa_offset fr);
     uw_ra := res (fre_ra_offset fr sf);
     uw_fp := res (fre_fp_offset fr sf) |}.

(** ** Row in effect *)

(** [r] is the row of [rows] in effect at offset [x]: the one with the greatest
    start not above [x]. *)
Definition in_effect (rows : list row) (x : Z) (r : row) : Prop :=
  In r rows /\ r_start r <= x /\
  forall r', In r' rows -> r_start r' <= x -> r_start r' <= r_start r.

(** Everything a row says apart from where it starts. *)
Definition payload (r : row) : option row_offsets * bool * base_reg :=
  (r_offsets r, r_mangled r, r_base r).

(** The unwind information in effect at offset [x]. *)
Definition says (rows : list row) (x : Z) (p : option row_offsets * bool * base_reg) : Prop :=
  exists r, in_effect rows x r /\ payload r = p.

(** ** Unwind information of a whole builder *)

(** Where in the rows an address of the function is looked up: for a repeated
    block, its offset inside the block. *)
Definition offset_in (b : fdb) (a : Z) : Z :=
  match fb_rep_size b with
  | None => a - fb_start b
  | Some rep => (a - fb_start b) mod rep
  end.

(** At address [a] the section says [p], with return addresses signed by [k]. *)
Definition unwind_at (s : sfb) (a : Z) (k : pauth) (p : option row_offsets * bool * base_reg) : Prop :=
  exists b, In b (fdes_of s) /\ in_range (fb_start b) (fb_size b) a /\ fb_pauth b = k /\
    says (rows_of b) (offset_in b a) p.

(** ** Merging and reading back *)

(** The repetition sizes of two functions allow merging them. *)
Definition rep_compatible (cur next : fdb) : Prop :=
  match fb_rep_size cur, fb_rep_size next with
  | Some a, Some b => a = b
  | Some a, None => a = fb_size next
  | None, Some b => b = fb_size cur
  | None, None => fb_size cur = fb_size next /\ fb_size cur <= 255
  end.

(** The exact condition under which the code merges [b] into [a].  The adjacency
    test compares the negated distance with the size, so adjacency shows only
    as a distance that wraps around the 32-bit range. *)
Definition mergeable (md : mode) (a b : fdb) : Prop :=
  fb_pauth a = fb_pauth b /\
  fb_start b - fb_start a + fb_size a = 2 ^ 32 /\
  (overflow_checks md = false \/ fb_start b - fb_start a <= 2 ^ 31) /\
  fb_size a + fb_size b <= u32_max /\ rep_compatible a b /\ fb_fres a = fb_fres b.

(** What reading the rows of one function gives. *)
Definition rows_result (md : mode) (e : endian) (o : sframe_options) (sf : sframe) (b : fdb) (en : entry) : Prop :=
  (rows_inside b -> exists good, all_fres md e en = Ok (map inl good) /\
     Forall2 (fun r fr => fre_start_address_offset fr = r_start r /\ view_fre fr = written r /\
                (observed sf fr = intended o r <-> ~ tied r /\ ~ ambiguous o r))
       (rows_of b) good) /\
  (~ rows_inside b -> all_fres md e en = Panic).

(** Reading the rows of an entry succeeds. *)
Definition reads_well (md : mode) (e : endian) (en : entry) : Prop :=
  exists good, all_fres md e en = Ok (map inl good).
