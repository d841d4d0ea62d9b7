(** [FuncDescBuilder::row] and [FuncDescBuilder::size] with the checks their documentation
    asks for, and what is printed and found with the repaired iterators of
    [IterRepaired.v].  Nothing here is in /repo.

    - [fdb_row_strict]: an offset that the header does not fix must be given
      (write.rs:448-491 with the errors of write.rs:623-629);
    - [fdb_size_checked]: a size that leaves rows outside the function is refused
      (write.rs:381-384). *)
From Coq Require Import String.
From Verif Require Import Base BTree Raw Read Write Spec ReadSpec WriteSpec SectionSpec StdSpec Repaired ReadRepaired IterRepaired WriteRepaired Text Debug.

(** ** The builder *)

(** write.rs:464-483 *)
Definition check_given (fixed given : option Z) (unexpected missing : row_error) : outcome row_error (option Z) :=
  match fixed, given with
  | None, None => Err missing
  | _, _ => check_fixed fixed given unexpected
  end.
Definition normalise_strict (o : sframe_options) (r : row) : outcome row_error row :=
  match r_offsets r with
  | None => Ok r
  | Some offs =>
      let* ra := check_given (so_fixed_ra o) (ro_ra offs) UnexpectedRaOffset MissingRaOffset in
      let* fp := check_given (so_fixed_fp o) (ro_fp offs) UnexpectedFpOffset MissingFpOffset in
      Ok {| r_start := r_start r;
            r_offsets := Some {| ro_cfa := ro_cfa offs; ro_ra := ra; ro_fp := fp |};
            r_mangled := r_mangled r; r_base := r_base r |}
  end.
(** write.rs:448-491 *)
Definition fdb_row_strict (b : fdb) (r : row) : fdb * outcome row_error unit :=
  if 0x10000000 <=? r_start r then (b, Err StartAddressTooLarge)
  else if match fb_rep_size b with Some rep => rep <=? r_start r | None => false end
  then (b, Err StartAddressLargerThanRepSize)
  else if fb_size b <=? r_start r then (b, Err StartAddressOutsideFde)
  else
    match normalise_strict (fb_options b) r with
    | Err er => (b, Err er)
    | Panic => (b, Panic)
    | Ok r' =>
        match bt_get (r_start r') (fb_fres b) with
        | Some _ => (b, Err DuplicateRow)
        | None => (fdb_set_fres (bt_insert (r_start r') r' (fb_fres b)) b, Ok tt)
        end
    end.

(** write.rs:381-384 *)
Definition fdb_size_checked (n : Z) (b : fdb) : fdb :=
  if forallb (fun r => r_start r <? n) (bt_values (fb_fres b)) then fdb_set_size n b else b.

(** Builders made with the checked [size], and with [row] as it is or strict. *)
Inductive fdb_checked (strict : bool) : fdb -> Prop :=
| bc_new o start size :
    opts_reach o -> in_i32 start -> in_u32 size -> fdb_checked strict (fdb_new o start size)
| bc_pcinc b : fdb_checked strict b -> fdb_checked strict (fdb_pcinc b)
| bc_pcmask rep b : in_u8 rep -> fdb_checked strict b -> fdb_checked strict (fdb_pcmask rep b)
| bc_start a b : in_i32 a -> fdb_checked strict b -> fdb_checked strict (fdb_set_start a b)
| bc_size n b : in_u32 n -> fdb_checked strict b -> fdb_checked strict (fdb_size_checked n b)
| bc_pauth k b : fdb_checked strict b -> fdb_checked strict (fdb_set_pauth k b)
| bc_row r b : row_typed r -> fdb_checked strict b ->
    fdb_checked strict (fst (if strict then fdb_row_strict b r else fdb_row_st b r))
| bc_merge b b' : fdb_checked strict b -> merge_adjacent_fres b = Ok b' -> fdb_checked strict b'.

Inductive sfb_checked (strict : bool) (md : mode) : sfb -> Prop :=
| sc_new o : opts_reach o -> sfb_checked strict md (sfb_new o)
| sc_fde s b s' : sfb_checked strict md s -> fdb_checked strict b -> sfb_fde s b = Ok s' -> sfb_checked strict md s'
| sc_merge s s' : sfb_checked strict md s -> merge_adjacent_fdes md s = Ok s' -> sfb_checked strict md s'.

(** The conditions on a row, in order, each with its documented error. *)
Definition given_if_needed (fixed given : option Z) : Prop := fixed = None -> given <> None.
Definition strict_conditions (b : fdb) (r : row) : list (Prop * row_error) :=
  [ (r_start r < 0x10000000, StartAddressTooLarge);
    (forall rep, fb_rep_size b = Some rep -> r_start r < rep, StartAddressLargerThanRepSize);
    (r_start r < fb_size b, StartAddressOutsideFde);
    (forall o, r_offsets r = Some o -> agrees (so_fixed_ra (fb_options b)) (ro_ra o), UnexpectedRaOffset);
    (forall o, r_offsets r = Some o -> given_if_needed (so_fixed_ra (fb_options b)) (ro_ra o), MissingRaOffset);
    (forall o, r_offsets r = Some o -> agrees (so_fixed_fp (fb_options b)) (ro_fp o), UnexpectedFpOffset);
    (forall o, r_offsets r = Some o -> given_if_needed (so_fixed_fp (fb_options b)) (ro_fp o), MissingFpOffset);
    (forall r', In r' (rows_of b) -> r_start r' <> r_start r, DuplicateRow) ].

(** ** [build] with the distance of functions repaired and nothing else *)

Definition gap_only : wfixes := WFixes true false false false.

(** ** The repaired iterators *)

Definition rows_read (fx : rfixes) (md : mode) (e : endian) (en : entry) : Prop :=
  exists good, all_fres_with fx md e en = Ok (map inl good).

(** As [lib_says] of [StdSpec.v]. *)
Definition lib_offset_with (fx : rfixes) (en : entry) (a : Z) : option Z :=
  match fde_fdetype_with fx (en_fde en), en_rep_block_size en with
  | PPcInc, _ => Some (a - en_start_address en)
  | PPcMask, Some rep => if rep =? 0 then None else Some ((a - en_start_address en) mod rep)
  | _, _ => None
  end.
Definition lib_says_with (fx : rfixes) (md : mode) (e : endian) (sf : sframe) (a : Z) (k : pauth) (u : unwind) : Prop :=
  exists en good x fr,
    In en (all_fdes sf) /\ in_range (en_start_address en) (en_size en) a /\
    all_fres_with fx md e en = Ok (map inl good) /\ lib_offset_with fx en a = Some x /\
    In fr good /\ fre_start_address_offset fr <= x /\
    (forall fr', In fr' good -> fre_start_address_offset fr' <= x ->
       fre_start_address_offset fr' <= fre_start_address_offset fr) /\
    pauth_key_with fx (fde_info (en_fde en)) = k /\ observed sf fr = u.

(** ** The text of a section, read.rs:217-236 and 453-495, with the repaired row iterator *)
Local Open Scope string_scope.

Definition entry_debug_with (fx : rfixes) (md : mode) (e : endian) (en : entry) : outcome fuel_error dbg :=
  let* rows := all_fres_with fx md e en in
  let f := en_fde en in
  Ok (DStruct "FuncDescEntry"
       ([("start_address", DLeaf (fmt_hex_alt 32 (fde_start_address f)));
         ("size", int_debug (fde_size f));
         ("fdetype", fde_type_debug (fdetype (fde_info f)));
         ("pauth_key", pauth_debug (pauth_key (fde_info f)))]
        ++ match f with FdeV1 _ => [] | FdeV2 r => [("rep_size", int_debug (f2_rep_size r))] end
        ++ [("num_fres", int_debug (fde_num_fres f));
            ("start_fre_off", int_debug (fde_start_fre_off f));
            ("fres", DList (map (result_debug fre_debug read_error_debug) rows))])%list).
Fixpoint entries_debug_with (fx : rfixes) (md : mode) (e : endian) (l : list entry) : outcome fuel_error (list dbg) :=
  match l with
  | [] => Ok []
  | en :: t =>
      let* x := entry_debug_with fx md e en in
      let* y := entries_debug_with fx md e t in
      Ok (x :: y)
  end.
Definition section_text_with (fx : rfixes) (alternate : bool) (dt : debug_texts) (md : mode) (e : endian) (sf : sframe)
  : outcome fuel_error string :=
  let* l := entries_debug_with fx md e (all_fdes sf) in
  Ok (print_debug alternate (DStruct "SFrame"
    [("preamble", preamble_debug dt (sf_preamble sf));
     ("abi_arch", dt_abi dt (sf_abi_arch sf));
     ("fixed_fp_offset", option_debug int_debug (fixed_fp_offset sf));
     ("fixed_ra_offset", option_debug int_debug (fixed_ra_offset sf));
     ("num_fdes", int_debug (sf_num_fdes sf));
     ("num_fres", int_debug (sf_num_fres sf));
     ("fdes", DList l)])).
