(** Looking up addresses in sections of several functions: C65 and C135. *)
From Verif Require Import LookupSpec LookupExact LookupConv LookupWitness.

(** * C65 Looking up an address gives what was asked for there: what it gives *)

(** The rows searched are the first ones of the section, as many as the function found has. *)
Theorem C65_reached_partial : forall md md' e s bs sf a i b,
  sfb_reach md s -> build md e s = Ok bs ->
  wf_mode md' -> rust_slice md' bs -> load md' e bs = Ok sf -> in_i32 a -> near md' s a ->
  nth_error (fdes_of s) i = Some b -> in_range (fb_start b) (fb_size b) a ->
  reached (bsearch md') (zlen (fdes_of s)) (Z.of_nat i) = true -> fb_rep_size b <> Some 0 -> uniform s b ->
  forall pre tl, firstn (length (rows_of b)) (stored_rows s) = pre ++ tl ->
    Forall (fun r => offset_in b a < r_start r < fb_size b) pre ->
    match tl with
    | [] => lookup md' e sf a = Ok None
    | r :: _ =>
        (r_start r <= offset_in b a -> exists u, lookup md' e sf a = Ok (Some u) /\
           (u = intended (sb_options s) r <-> ~ tied r /\ ~ ambiguous (sb_options s) r)) /\
        (fb_size b <= r_start r -> lookup md' e sf a = Panic)
    end.
Proof. exact lookup_reached. Qed.
Print Assumptions C65_reached_partial.

Example C65_reached_case : forall e,
  reached (bsearch rel64) (zlen (fdes_of late_sfb)) 1 = true /\ uniform late_sfb late_f2 /\
  nth_error (fdes_of late_sfb) 1 = Some late_f2 /\ in_range (fb_start late_f2) (fb_size late_f2) 0x204 /\
  fb_rep_size late_f2 <> Some 0 /\ near rel64 late_sfb 0x204 /\
  firstn (length (rows_of late_f2)) (stored_rows late_sfb) = [] ++ [row3 50 8 (-8) (-16)] /\
  fb_size late_f2 <= 50 /\ lookup rel64 e (late_sf e) 0x204 = Panic.
Proof. exact late_reached. Qed.

(** All look-ups that find anything give the same answer, whatever the address. *)
Theorem C65_one_answer_partial : forall md md' e s bs sf,
  sfb_reach md s -> build md e s = Ok bs ->
  wf_mode md' -> rust_slice md' bs -> load md' e bs = Ok sf -> plainly_built s ->
  exists u, (forall r rest, stored_rows s = r :: rest -> (u = intended (sb_options s) r <-> ~ tied r /\ ~ ambiguous (sb_options s) r)) /\
    forall a, in_i32 a -> near md' s a ->
      (lookup md' e sf a = Ok None /\
         forall i b, nth_error (fdes_of s) i = Some b -> in_range (fb_start b) (fb_size b) a ->
           rows_of b = [] \/ reached (bsearch md') (zlen (fdes_of s)) (Z.of_nat i) = false) \/
      (lookup md' e sf a = Ok (Some u) /\
         exists i b, nth_error (fdes_of s) i = Some b /\ in_range (fb_start b) (fb_size b) a /\
           rows_of b <> [] /\ reached (bsearch md') (zlen (fdes_of s)) (Z.of_nat i) = true).
Proof. exact one_answer. Qed.
Print Assumptions C65_one_answer_partial.

Example C65_one_answer_case : forall e,
  sfb_sized rel64 three_sfb /\ build rel64 e three_sfb = Ok (section e three_sfb) /\
  load rel64 e (section e three_sfb) = Ok (three_sf e) /\ plainly_built three_sfb /\
  near rel64 three_sfb 0x80 /\
  map (lookup rel64old e (three_sf e)) [0x80; 0x100; 0x106; 0x200; 0x400] =
    [Ok None; Ok (Some (Unwind Sp false (Some 8) (Some (-8)) (Some (-16))));
     Ok (Some (Unwind Sp false (Some 8) (Some (-8)) (Some (-16)))); Ok None; Ok None] /\
  asked_at three_sfb 0x106 (Unwind Sp false (Some 32) (Some (-8)) (Some (-16))).
Proof. exact three_answers. Qed.

(** * C135 Looking up an address in a built section does not fail: false *)

(** A section converted from a short function and one with a row more than 127
    bytes inside: the rows of the short one are read with starts of two bytes. *)
Theorem C135_error_refuted : forall e,
  eh_typed (short_long 8) /\ dwarf2sframe rel64 amd (short_long 8) = Ok (sl_sfb 8) /\
  build rel64 e (sl_sfb 8) = Ok (sl_bytes e 8) /\ load rel64 e (sl_bytes e 8) = Ok (sl_sf e 8) /\
  dwarf_says (short_long 8) 0x2010 (amd_row 0x2000 0x2081 7 8 RUndefined) /\
  Forall (fun md => lookup md e (sl_sf e 8) 0x2010 = Err (inr (InvalidFreOffsetCount 4))) [rel64; rel64old; dev64; rel32; dev32].
Proof. exact converted_lookup_fails. Qed.
Print Assumptions C135_error_refuted.

(** The same with another CFA offset in the short function: a panic. *)
Theorem C135_panic_refuted :
  eh_typed (short_long 32) /\ dwarf2sframe rel64 amd (short_long 32) = Ok (sl_sfb 32) /\
  build rel64 LE (sl_sfb 32) = Ok (sl_bytes LE 32) /\ load rel64 LE (sl_bytes LE 32) = Ok (sl_sf LE 32) /\
  dwarf_says (short_long 32) 0x2010 (amd_row 0x2000 0x2081 7 8 RUndefined) /\
  Forall (fun md => lookup md LE (sl_sf LE 32) 0x2010 = Panic) [rel64; rel64old; dev64; rel32; dev32].
Proof. exact converted_lookup_panics. Qed.
Print Assumptions C135_panic_refuted.

(** Starts of the same width do not help if a row of the first function lies
    further inside than the function found is long. *)
Theorem C135_late_row_refuted : forall e,
  sfb_sized rel64 late_sfb /\ build rel64 e late_sfb = Ok (section e late_sfb) /\
  load rel64 e (section e late_sfb) = Ok (late_sf e) /\
  asked_at late_sfb 0x204 (Unwind Sp false (Some 24) (Some (-8)) (Some (-16))) /\
  Forall (fun md => lookup md e (late_sf e) 0x204 = Panic) [rel64; rel64old; dev64; rel32; dev32].
Proof. exact built_lookup_panics. Qed.
Print Assumptions C135_late_row_refuted.

(** No look-up fails in a section converted from functions whose rows begin
    where the function does and start within 127 bytes. *)
Theorem C135_converted_partial : forall md md' md'' op eh s e bs,
  eh_typed eh -> dwarf2sframe md op eh = Ok s ->
  (forall f, In f (functions (entries_of eh)) -> rows_near f) ->
  build md' e s = Ok bs -> wf_mode md'' -> rust_slice md'' bs ->
  exists sf u, load md'' e bs = Ok sf /\
    forall a, in_i32 a -> near md'' s a -> lookup md'' e sf a = Ok None \/ lookup md'' e sf a = Ok (Some u).
Proof. exact conv_one_answer. Qed.
Print Assumptions C135_converted_partial.

Example C135_case : forall e, eh_typed sample /\ dwarf2sframe rel64 amd sample = Ok sample_sfb /\
  (forall f, In f (functions (entries_of sample)) -> rows_near f) /\
  build rel64 e sample_sfb = Ok (sample_bytes e) /\ wf_mode rel64 /\ rust_slice rel64 (sample_bytes e) /\
  near rel64 sample_sfb 0x2003 /\
  dwarf_says sample 0x2003 (amd_row 0x2000 0x2006 7 16 RUndefined) /\
  lookup rel64 e (get_ok dummy_sf (load rel64 e (sample_bytes e))) 0x2003 = Ok (Some (Unwind Sp false (Some 8) (Some (-8)) None)).
Proof. exact sample_answers. Qed.
