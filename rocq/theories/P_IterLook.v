(** C141: built sections used through the iterators. *)
From Verif Require Import IterLookWitness.
From Verif Require Import EmitWitness.

(** * C141 Used through its iterators, the library says of a built section what was asked for *)

(** The full statement: for the section of every builder, whatever address and key and row,
    the iterators say it exactly if it was asked for.  A row with a value and its negation
    that do not both fit, a row with an offset for FP but none for RA, and a function that
    was made smaller after its rows were added. *)
Theorem C141_refuted : forall e,
  says_other e tie_sfb 0x100 (Unwind Sp false (Some (-128)) (Some 128) None) (Some (Unwind Sp false (Some (-128)) (Some (-128)) None)) /\
  says_other e amb_sfb 0x100 (Unwind Sp false (Some 16) None (Some (-16))) (Some (Unwind Sp false (Some 16) (Some (-16)) None)) /\
  says_other e cut_sfb 0x100 first_row None.
Proof. exact iter_other. Qed.
Print Assumptions C141_refuted.

(** Inside a function: the key asked for, and the row asked for as it was written, if all
    rows lie in the function and the block size is not 0; nothing otherwise. *)
Theorem C141_inside_partial : forall md md' e s bs sf,
  sfb_reach md s -> build md e s = Ok bs -> wf_mode md' -> rust_slice md' bs -> load md' e bs = Ok sf ->
  forall a b k u, In b (fdes_of s) -> in_range (fb_start b) (fb_size b) a ->
  (lib_says md' e sf a k u <->
     rows_inside b /\ fb_rep_size b <> Some 0 /\ fb_pauth b = k /\
     exists r fr, in_effect (rows_of b) (offset_in b a) r /\ view_fre fr = written r /\ observed sf fr = u).
Proof. exact iter_inside. Qed.
Print Assumptions C141_inside_partial.

(** The row as it was written is the row asked for exactly if it is not tied and not ambiguous. *)
Theorem C141_row_partial : forall md md' e s bs sf,
  sfb_reach md s -> build md e s = Ok bs -> wf_mode md' -> rust_slice md' bs -> load md' e bs = Ok sf ->
  forall b r fr, In b (fdes_of s) -> In r (rows_of b) -> view_fre fr = written r ->
  (observed sf fr = intended (sb_options s) r <-> ~ tied r /\ ~ ambiguous (sb_options s) r).
Proof. exact iter_row. Qed.
Print Assumptions C141_row_partial.

(** Outside all functions nothing is said. *)
Theorem C141_outside_partial : forall md md' e s bs sf,
  sfb_reach md s -> build md e s = Ok bs -> wf_mode md' -> rust_slice md' bs -> load md' e bs = Ok sf ->
  forall a k u, (forall b, In b (fdes_of s) -> ~ in_range (fb_start b) (fb_size b) a) -> ~ lib_says md' e sf a k u.
Proof. exact iter_outside. Qed.
Print Assumptions C141_outside_partial.

(** Together: where those three mistakes do not occur, exactly what was asked for. *)
Theorem C141_all_partial : forall md md' e s bs sf,
  sfb_reach md s -> build md e s = Ok bs -> wf_mode md' -> rust_slice md' bs -> load md' e bs = Ok sf ->
  forall a,
  (forall b, In b (fdes_of s) -> in_range (fb_start b) (fb_size b) a ->
     rows_inside b /\ fb_rep_size b <> Some 0 /\ forall r, In r (rows_of b) -> ~ tied r /\ ~ ambiguous (sb_options s) r) ->
  forall k u, lib_says md' e sf a k u <-> asked_with_key s a k u.
Proof. exact iter_all. Qed.
Print Assumptions C141_all_partial.

(** Three functions, the third of repeated blocks and signed with key B. *)
Theorem C141_case : forall e,
  sfb_reach rel64 stub_sfb /\ build rel64 e stub_sfb = Ok (stub_bytes e) /\
  wf_mode rel64 /\ rust_slice rel64 (stub_bytes e) /\ load rel64 e (stub_bytes e) = Ok (stub_sf e) /\
  (forall b, In b (fdes_of stub_sfb) ->
     rows_inside b /\ fb_rep_size b <> Some 0 /\ forall r, In r (rows_of b) -> ~ tied r /\ ~ ambiguous (sb_options stub_sfb) r) /\
  says_at rel64 e (stub_sf e) 0x104 = [(KeyA, second_row)] /\
  says_at rel64 e (stub_sf e) 0x41b = [(KeyB, first_row)] /\
  says_at rel64 e (stub_sf e) 0x41d = [(KeyB, second_row)] /\ says_at rel64 e (stub_sf e) 0x420 = [].
Proof. exact iter_case. Qed.
