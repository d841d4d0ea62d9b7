(** C140: look-ups in sections of both byte orders. *)
From Verif Require Import OrderWitness.
From Verif Require Import LookupWitness EmitWitness.

(** * C140 A look-up gives the same in both byte orders *)

(** The full statement: of the two sections one builder gives, every look-up gives the same.
    Two sections converted for x86-64: the rows of the first function are read with starts
    of two bytes. *)
Theorem C140_refuted :
  dwarf2sframe rel64 amd (short_long 32) = Ok (sl_sfb 32) /\
  (forall e, build rel64 e (sl_sfb 32) = Ok (sl_bytes e 32) /\ load rel64 e (sl_bytes e 32) = Ok (sl_sf e 32)) /\
  Forall (fun md => lookup md LE (sl_sf LE 32) 0x2010 = Panic /\
    exists u, lookup md BE (sl_sf BE 32) 0x2010 = Ok (Some u) /\ uw_cfa u = None) [rel64; rel64old; dev64; rel32; dev32] /\
  Forall (fun md => lookup md LE (sl_sf LE 200) 0x2010 = Err (inr (InvalidFreOffsetCount 4)) /\
    lookup md BE (sl_sf BE 200) 0x2010 = Panic) [rel64; rel64old; dev64; rel32; dev32].
Proof. exact order_matters. Qed.
Print Assumptions C140_refuted.

(** The function found is the same in every built section. *)
Theorem C140_found_partial : forall md md' e e' s bs bs' sf sf',
  sfb_reach md s -> build md e s = Ok bs -> build md e' s = Ok bs' ->
  wf_mode md' -> rust_slice md' bs -> load md' e bs = Ok sf -> load md' e' bs' = Ok sf' ->
  forall a, match fde_for_address md' sf a, fde_for_address md' sf' a with
  | Ok None, Ok None | Panic, Panic => True
  | Ok (Some x), Ok (Some y) => exists i b, nth_error (fdes_of s) i = Some b /\
      (en_start_address x = fb_start b /\ en_size x = fb_size b) /\ en_start_address y = fb_start b /\ en_size y = fb_size b
  | _, _ => False
  end.
Proof. exact order_found. Qed.
Print Assumptions C140_found_partial.

(** The whole look-up is the same where all functions store the starts of their rows in the
    same number of bytes: rows, errors and panics, at every address. *)
Theorem C140_lookup_partial : forall md md' e e' s bs bs' sf sf',
  sfb_reach md s -> build md e s = Ok bs -> build md e' s = Ok bs' ->
  wf_mode md' -> rust_slice md' bs -> load md' e bs = Ok sf -> load md' e' bs' = Ok sf' ->
  (forall b c, In b (fdes_of s) -> In c (fdes_of s) -> start_width (rows_of b) = start_width (rows_of c)) ->
  forall a, lookup md' e sf a = lookup md' e' sf' a.
Proof. exact order_lookup. Qed.
Print Assumptions C140_lookup_partial.

Theorem C140_case : forall e, sfb_reach rel64 demo_sfb /\ build rel64 e demo_sfb = Ok (demo e) /\
  wf_mode dev32 /\ rust_slice dev32 (demo e) /\ load dev32 e (demo e) = Ok (demo_sf e) /\
  (forall b c, In b (fdes_of demo_sfb) -> In c (fdes_of demo_sfb) -> start_width (rows_of b) = start_width (rows_of c)) /\
  demo LE <> demo BE /\
  exists u, lookup dev32 e (demo_sf e) 0x204 = Ok (Some u) /\ uw_cfa u = Some 8.
Proof. exact order_case. Qed.
