(** Specification of whole-section properties: building again what was read,
    byte order, equal sections, sizes, and looking up an address in a built
    section.  Reader and writer functions occur only as calls of the API. *)
From Verif Require Export WriteSpec.

(** ** Building again what a reader sees *)

(** The options shown by a section, set again through [SFrameOptions]. *)
Definition options_read (sf : sframe) : sframe_options :=
  options_fixed_ra (fixed_ra_offset sf)
    (options_fixed_fp (fixed_fp_offset sf)
      (options_abi (abi sf)
        (options_frame_pointer (negb (Z.land (flags sf) FLAG_FRAME_POINTER =? 0)) options_new))).

(** The row shown by an entry, made again with [FrameRowBuilder::new], or with
    [FrameRowBuilder::invalid] if it has no CFA offset. *)
Definition row_read (sf : sframe) (fr : fre) : row :=
  row_mangled_ra_p (fre_mangled_ra_p fr)
    match res (fre_cfa_offset fr) with
    | Some cfa =>
        row_new (fre_cfa_base_reg_id fr) (fre_start_address_offset fr)
          {| ro_cfa := cfa; ro_ra := res (fre_ra_offset fr sf); ro_fp := res (fre_fp_offset fr sf) |}
    | None => row_invalid (fre_start_address_offset fr)
    end.

(** All rows, if none is an error. *)
Fixpoint good_rows (l : list fre_item) : option (list fre) :=
  match l with
  | [] => Some []
  | inl fr :: t => option_map (cons fr) (good_rows t)
  | inr _ :: _ => None
  end.

(** The function shown by an entry, made again with [FuncDescBuilder]: [new],
    [pauth_key], all rows in order, then [pcmask] if it repeats. *)
Definition fdb_read (md : mode) (e : endian) (sf : sframe) (en : entry) : option fdb :=
  match res (all_fres md e en) with
  | None => None
  | Some items =>
      match good_rows items with
      | None => None
      | Some rows =>
          match add_rows (fdb_set_pauth (en_pauth_key en)
                            (fdb_new (options_read sf) (en_start_address en) (en_size en)))
                         (map (row_read sf) rows) with
          | Ok b =>
              match en_fdetype en, en_rep_block_size en with
              | PPcMask, Some rep => Some (fdb_pcmask rep b)
              | _, _ => Some b
              end
          | _ => None
          end
      end
  end.

(** Every function added to [s], in order. *)
Fixpoint fdes_read (md : mode) (e : endian) (sf : sframe) (l : list entry) (s : sfb) : option sfb :=
  match l with
  | [] => Some s
  | en :: t =>
      match fdb_read md e sf en with
      | None => None
      | Some b => match sfb_fde s b with
                  | Ok s' => fdes_read md e sf t s'
                  | _ => None
                  end
      end
  end.

Definition section_read (md : mode) (e : endian) (sf : sframe) : option sfb :=
  fdes_read md e sf (all_fdes sf) (sfb_new (options_read sf)).

(** Rows without offsets have base register FP: those made by
    [FrameRowBuilder::invalid], the only way to make them, do. *)
Definition made_invalid (r : row) : Prop := r_offsets r = None -> r_base r = Fp.

(** ** The same contents *)

(** What a reader sees of the rows of a function: the rows as shown and their
    meaning, or a panic. *)
Definition rows_shown (md : mode) (e : endian) (sf : sframe) (en : entry)
    (l : list (spec_row * unwind)) : Prop :=
  exists good, all_fres md e en = Ok (map inl good) /\ l = map (fun fr => (view_fre fr, observed sf fr)) good.
Definition same_rows_shown (md : mode) (e e' : endian) (sf sf' : sframe) (en en' : entry) : Prop :=
  (exists l, rows_shown md e sf en l /\ rows_shown md e' sf' en' l) \/
  (all_fres md e en = Panic /\ all_fres md e' en' = Panic).

(** Two sections, read with different byte orders, show the same. *)
Definition same_shown (md : mode) (e e' : endian) (sf sf' : sframe) : Prop :=
  version sf = version sf' /\ flags sf = flags sf' /\ abi sf = abi sf' /\
  fixed_fp_offset sf = fixed_fp_offset sf' /\ fixed_ra_offset sf = fixed_ra_offset sf' /\
  num_fdes sf = num_fdes sf' /\ num_fres sf = num_fres sf' /\ raw_aux sf = raw_aux sf' /\
  Forall2 (fun en en' => view_fde (en_fde en) = view_fde (en_fde en') /\ same_rows_shown md e e' sf sf' en en')
    (all_fdes sf) (all_fdes sf').

(** Two functions that the format cannot tell apart. *)
Definition same_content (b b' : fdb) : Prop :=
  fb_start b = fb_start b' /\ fb_size b = fb_size b' /\ fb_pauth b = fb_pauth b' /\
  fb_rep_size b = fb_rep_size b' /\ map written (rows_of b) = map written (rows_of b').

(** ** Looking up an address *)

(** What an unwinder does with the API: find the function, then the row. *)
Definition lookup (md : mode) (e : endian) (sf : sframe) (a : Z) : outcome (fuel_error + read_error) (option unwind) :=
  match fde_for_address md sf a with
  | Ok None => Ok None
  | Ok (Some en) =>
      match get_fre_for_address md e en a with
      | Ok o => Ok (option_map (observed sf) o)
      | Err er => Err er
      | Panic => Panic
      end
  | Err er => Err (inl er)
  | Panic => Panic
  end.

(** What the builder asked for at address [a]. *)
Definition asked_at (s : sfb) (a : Z) (u : unwind) : Prop :=
  exists b r, In b (fdes_of s) /\ in_range (fb_start b) (fb_size b) a /\
    in_effect (rows_of b) (offset_in b a) r /\ intended (sb_options s) r = u.

(** The distances the reader computes for address [a] do not overflow. *)
Definition near (md : mode) (s : sfb) (a : Z) : Prop :=
  overflow_checks md = false \/ forall b, In b (fdes_of s) -> a - fb_start b <= i32_max.

(** ** Version 1 masks *)

(** A version 1 descriptor with bit 3 of its info byte set. *)
Definition v1_mask (f : fde) : Prop :=
  match f with FdeV1 r => bits 3 1 (f1_info r) = 1 | FdeV2 _ => False end.

(** The kind of a function, by the version of its descriptor and bit 3. *)
Definition kind_of (f : fde) : pub_fde_type :=
  match f with
  | FdeV1 r => if bits 3 1 (f1_info r) =? 1 then PPcMaskV1 else PPcInc
  | FdeV2 r => if bits 3 1 (f2_info r) =? 1 then PPcMask else PPcInc
  end.

(** Every bit set in [mask] is set in [x]. *)
Definition covers_mask (x mask : Z) : Prop := forall i, 0 <= i -> Z.testbit mask i = true -> Z.testbit x i = true.

(** [fr] is the first row of [rows] whose start, as a mask, is covered by [rel]. *)
Definition first_masked (rows : list fre) (rel : Z) (fr : fre) : Prop :=
  exists pre post, rows = pre ++ fr :: post /\ covers_mask rel (fre_start_address_offset fr) /\
    Forall (fun g => ~ covers_mask rel (fre_start_address_offset g)) pre.
