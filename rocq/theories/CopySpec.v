(** Copying a section through the library: every option, function and row the
    reading API shows, made again with the builders and built (C139). *)
From Verif Require Export StdSpec.

(** The section [sf], copied with byte order [e'], gives [bs']. *)
Definition copied (md md' : mode) (e e' : endian) (sf : sframe) (bs' : bytes) : Prop :=
  exists s, section_read md e sf = Some s /\ build md' e' s = Ok bs'.

(** All rows of a function can be read, and the builder takes them: no two start at
    the same offset and none starts at 2^28 or above. *)
Definition rows_copyable (md : mode) (e : endian) (en : entry) : Prop :=
  exists good, all_fres md e en = Ok (map inl good) /\
    NoDup (map fre_start_address_offset good) /\
    Forall (fun fr => fre_start_address_offset fr < 0x10000000) good.

(** The offsets the format keeps of a row: CFA, then RA and FP unless they are fixed. *)
Definition kept_offsets (sf : sframe) (fr : fre) : list Z :=
  match fixed_ra_offset sf, fixed_fp_offset sf with
  | None, None => firstn 3 (fre_offsets fr)
  | Some _, Some _ => firstn 1 (fre_offsets fr)
  | _, _ => firstn 2 (fre_offsets fr)
  end.

(** The row holds -128 or -32768 and its negation, and nothing greater. *)
Definition tied_offsets (l : list Z) : Prop :=
  exists m, dominant l = Some m /\ (m = -128 \/ m = -32768) /\ In (- m) l.

(** A function whose rows mean the same when they are made again: it is not searched
    by mask as in version 1, rows without offsets have base register FP, and no row
    is tied. *)
Definition rows_kept (md : mode) (e : endian) (sf : sframe) (en : entry) : Prop :=
  en_fdetype en <> PPcMaskV1 /\
  forall good, all_fres md e en = Ok (map inl good) -> Forall (fun fr =>
    (fre_offsets fr = [] -> fre_cfa_base_reg_id fr = Fp) /\ ~ tied_offsets (kept_offsets sf fr)) good.
