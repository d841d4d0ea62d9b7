(** Specification of the debug output of builders and raw structures: how it is
    read.  Of [BuilderDebug.v] only the type [word_texts] occurs. *)
From Coq Require Import String Ascii.
From Verif Require Export DebugSpec Write.
From Verif Require Import BuilderDebug.
Local Open Scope string_scope.

(** ** Builders *)

Definition read_map {A} (r : dbg -> option A) (t : dbg) : option (list (Z * A)) :=
  match t with
  | DMap l => all_some (map (fun kv => match integer (fst kv), r (snd kv) with Some k, Some v => Some (k, v) | _, _ => None end) l)
  | _ => None
  end.

(** What another crate prints for the ABI is left as it is. *)
Record options_seen : Type := OptionsSeen { os_flags : Z; os_abi : dbg; os_fp : option Z; os_ra : option Z }.
Record fdb_seen : Type := FdbSeen {
  bz_options : options_seen; bz_start : Z; bz_size : Z; bz_rep : option Z; bz_key : pauth; bz_rows : list (Z * row) }.
Record sfb_seen : Type := SfbSeen { ws_options : options_seen; ws_fdes : list (Z * fdb_seen) }.

Definition read_options_of (t : dbg) : option options_seen :=
  match open_struct "SFrameOptions" ["flags"; "abi_arch"; "fixed_fp_offset"; "fixed_ra_offset"] t with
  | Some [fl; a; fp; ra] =>
      match under "Flags" read_int (fun x => x) fl, read_opt read_int fp, read_opt read_int ra with
      | Some fl, Some fp, Some ra => Some (OptionsSeen fl a fp ra)
      | _, _, _ => None
      end
  | _ => None
  end.
Definition read_offsets_of (t : dbg) : option row_offsets :=
  match open_struct "FrameRowOffsets" ["cfa"; "ra"; "fp"] t with
  | Some [c; ra; fp] =>
      match read_int c, read_opt read_int ra, read_opt read_int fp with
      | Some c, Some ra, Some fp => Some (RowOffsets c ra fp)
      | _, _, _ => None
      end
  | _ => None
  end.
Definition read_base_reg : dbg -> option base_reg := read_name [("Fp", Fp); ("Sp", Sp)].
Definition read_new_row_of (t : dbg) : option row :=
  match open_struct "FrameRowBuilder" ["start_address"; "offsets"; "mangled_ra_p"; "cfa_base_reg_id"] t with
  | Some [a; o; m; b] =>
      match read_int a, read_opt read_offsets_of o, read_bool m, read_base_reg b with
      | Some a, Some o, Some m, Some b => Some (Row a o m b)
      | _, _, _, _ => None
      end
  | _ => None
  end.
Definition read_fdb_of (t : dbg) : option fdb_seen :=
  match open_struct "FuncDescBuilder" ["options"; "start_address"; "size"; "rep_size"; "pauth_key"; "fres"] t with
  | Some [o; a; n; r; k; l] =>
      match read_options_of o, read_int a, read_int n, read_opt read_int r, read_key k, read_map read_new_row_of l with
      | Some o, Some a, Some n, Some r, Some k, Some l => Some (FdbSeen o a n r k l)
      | _, _, _, _, _, _ => None
      end
  | _ => None
  end.
Definition read_sfb_of (t : dbg) : option sfb_seen :=
  match open_struct "SFrameBuilder" ["options"; "fdes"] t with
  | Some [o; l] =>
      match read_options_of o, read_map read_fdb_of l with
      | Some o, Some l => Some (SfbSeen o l)
      | _, _ => None
      end
  | _ => None
  end.
(** Read the debug output of a builder. *)
Definition read_builder (s : string) : option sfb_seen :=
  match read_text s with Some t => read_sfb_of t | None => None end.

(** What there is to see. *)
Definition options_is_seen (dt : debug_texts) (o : sframe_options) (s : options_seen) : Prop :=
  os_flags s = so_flags o /\ os_abi s = dt_abi dt (so_abi o) /\ os_fp s = so_fixed_fp o /\ os_ra s = so_fixed_ra o.
Definition fdb_is_seen (dt : debug_texts) (b : fdb) (s : fdb_seen) : Prop :=
  options_is_seen dt (fb_options b) (bz_options s) /\ bz_start s = fb_start b /\ bz_size s = fb_size b /\
  bz_rep s = fb_rep_size b /\ bz_key s = fb_pauth b /\ bz_rows s = fb_fres b.
Definition sfb_is_seen (dt : debug_texts) (b : sfb) (s : sfb_seen) : Prop :=
  options_is_seen dt (sb_options b) (ws_options s) /\
  Forall2 (fun x y => fst y = fst x /\ fdb_is_seen dt (snd x) (snd y)) (sb_fdes b) (ws_fdes s).

(** What other crates print tells values apart. *)
Definition telling {A} (f : Z -> A) : Prop := forall x y, f x = f y -> x = y.

Definition telling_texts (dt : debug_texts) : Prop := telling (dt_u16 dt) /\ telling (dt_version dt) /\ telling (dt_abi dt).

(** ** Errors *)

Definition read_row_error_of : dbg -> option row_error :=
  read_name [("StartAddressTooLarge", StartAddressTooLarge); ("StartAddressLargerThanRepSize", StartAddressLargerThanRepSize);
             ("StartAddressOutsideFde", StartAddressOutsideFde); ("MissingRaOffset", MissingRaOffset);
             ("MissingFpOffset", MissingFpOffset); ("UnexpectedRaOffset", UnexpectedRaOffset);
             ("UnexpectedFpOffset", UnexpectedFpOffset); ("DuplicateRow", DuplicateRow)].
Definition read_emit_error_of : dbg -> option emit_error :=
  read_name [("OverlappingFdes", OverlappingFdes); ("SectionTooLarge", SectionTooLarge)].

(** ** Trees with maps as the values of fields *)

Inductive mapped : dbg -> Prop :=
| mp_plain t : wordy t -> mapped t
| mp_struct n fs : is_word n -> fs <> [] -> Forall (fun kv => is_word (fst kv) /\ mapped (snd kv)) fs -> mapped (DStruct n fs)
| mp_map l : Forall (fun kv => is_word (fst kv) /\ mapped (snd kv)) l -> mapped (DMap l).

Definition plain_words (wt : word_texts) : Prop :=
  (forall z, wordy (wt_u32 wt z)) /\ (forall z, wordy (wt_i32 wt z)).
