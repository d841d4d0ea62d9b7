(** Properties C145-C147: copies of copies, and functions among other functions. *)
From Verif Require Import ReadRepaired IterRepaired PlaceWitness.

(** * C145 Copying a copy changes nothing *)

(** Whatever the first copy lost, its copies are those of the original, in both byte orders
    and all profiles; in particular copying it in its own byte order gives it again. *)
Theorem C145_copied_again : forall md e bs sf,
  wf_mode md -> rust_slice md bs -> load md e bs = Ok sf ->
  forall md1 e1 bs1, copied md md1 e e1 sf bs1 -> forall md2, wf_mode md2 -> rust_slice md2 bs1 ->
  exists sf1, load md2 e1 bs1 = Ok sf1 /\
    (forall md3 e3 bs3, copied md2 md3 e1 e3 sf1 bs3 <-> copied md md3 e e3 sf bs3).
Proof. exact copied_again. Qed.
Print Assumptions C145_copied_again.

(** The same of refusals and panics of build. *)
Theorem C145_build_again : forall md e bs sf,
  wf_mode md -> rust_slice md bs -> load md e bs = Ok sf ->
  forall md1 e1 s bs1, section_read md e sf = Some s -> build md1 e1 s = Ok bs1 ->
  forall md2, wf_mode md2 -> rust_slice md2 bs1 ->
  exists sf1 s1, load md2 e1 bs1 = Ok sf1 /\ section_read md2 e1 sf1 = Some s1 /\
    forall md3 e3, build md3 e3 s1 = build md3 e3 s.
Proof. exact copy_again. Qed.
Print Assumptions C145_build_again.

(** A section with its rows in reverse order, and three that do not survive the first copy (C139). *)
Example C145_case : forall e,
  copied_twice e (swapped e) (single e) /\
  copied_twice e (doubled e) (copy_bytes e (sf_of e (doubled e))) /\
  copied_twice e (wide e) (copy_bytes e (sf_of e (wide e))) /\
  copied_twice e (empty_sp e) (copy_bytes e (sf_of e (empty_sp e))).
Proof. exact twice_case. Qed.

(** * C146 A function says the same in whatever section it is put *)

Theorem C146_placed : forall md1 md2 md1' md2' e1 e2 s1 s2 bs1 bs2 sf1 sf2,
  sfb_reach md1 s1 -> build md1 e1 s1 = Ok bs1 -> wf_mode md1' -> rust_slice md1' bs1 -> load md1' e1 bs1 = Ok sf1 ->
  sfb_reach md2 s2 -> build md2 e2 s2 = Ok bs2 -> wf_mode md2' -> rust_slice md2' bs2 -> load md2' e2 bs2 = Ok sf2 ->
  forall b a k u, In b (fdes_of s1) -> In b (fdes_of s2) -> in_range (fb_start b) (fb_size b) a ->
  (lib_says md1' e1 sf1 a k u <-> lib_says md2' e2 sf2 a k u).
Proof. exact placed_says. Qed.
Print Assumptions C146_placed.

(** Adding a function changes nothing outside it and outside the function it replaces. *)
Theorem C146_added : forall md md' e s s1 b bs bs1 sf sf1,
  sfb_reach md s -> fdb_reach b -> sfb_fde s b = Ok s1 -> build md e s = Ok bs -> build md e s1 = Ok bs1 ->
  wf_mode md' -> rust_slice md' bs -> rust_slice md' bs1 -> load md' e bs = Ok sf -> load md' e bs1 = Ok sf1 ->
  forall a, ~ in_range (fb_start b) (fb_size b) a -> (forall c, replaced s b c -> ~ in_range (fb_start c) (fb_size c) a) ->
  forall k u, lib_says md' e sf a k u <-> lib_says md' e sf1 a k u.
Proof. exact added_says. Qed.
Print Assumptions C146_added.

Example C146_case : forall e,
  added_to e second_sfb demo_f1 /\ added_to e single_sfb demo_f2 /\
  ~ in_range (fb_start demo_f2) (fb_size demo_f2) 0x104 /\ ~ in_range (fb_start demo_f1) (fb_size demo_f1) 0x204 /\
  says_at rel64 e (sf_of e (section e single_sfb)) 0x104 = [(KeyA, second_row)] /\ says_at rel64 e (demo_sf e) 0x104 = [(KeyA, second_row)] /\
  says_at rel64 e (second_sf e) 0x204 = [(KeyA, third_row)] /\ says_at rel64 e (demo_sf e) 0x204 = [(KeyA, third_row)].
Proof. exact added_case. Qed.

(** * C147 Adding a function changes no look-up elsewhere: false *)

(** The full statement: for every builder and function, at every address outside that
    function and the one it replaces, the look-up gives the same before and after.
    The first function is not found any more once the second is there, and the second
    shows the row of the first once that is there. *)
Theorem C147_added_refuted : forall e,
  (added_to e single_sfb demo_f2 /\ ~ in_range (fb_start demo_f2) (fb_size demo_f2) 0x100 /\
   Forall (fun md => lookup md e (sf_of e (section e single_sfb)) 0x100 = Ok (Some first_row) /\ lookup md e (demo_sf e) 0x100 = Ok None)
     [rel64; dev64; rel32; dev32]) /\
  (added_to e second_sfb demo_f1 /\ ~ in_range (fb_start demo_f1) (fb_size demo_f1) 0x204 /\
   Forall (fun md => lookup md e (second_sf e) 0x204 = Ok (Some third_row) /\ lookup md e (demo_sf e) 0x204 = Ok (Some first_row))
     [rel64; dev64; rel32; dev32]).
Proof. exact added_lost. Qed.
Print Assumptions C147_added_refuted.

(** Outside all functions it holds. *)
Theorem C147_outside_partial : forall md md' e s s1 b bs bs1 sf sf1,
  sfb_reach md s -> fdb_reach b -> sfb_fde s b = Ok s1 -> build md e s = Ok bs -> build md e s1 = Ok bs1 ->
  wf_mode md' -> rust_slice md' bs -> rust_slice md' bs1 -> load md' e bs = Ok sf -> load md' e bs1 = Ok sf1 ->
  forall a, in_i32 a -> near md' s a -> near md' s1 a ->
  (forall c, In c (fdes_of s) \/ In c (fdes_of s1) -> ~ in_range (fb_start c) (fb_size c) a) ->
  lookup md' e sf a = lookup md' e sf1 a.
Proof. exact added_outside. Qed.
Print Assumptions C147_outside_partial.

(** With the reader repaired in five places (C135) it holds of every section. *)
Theorem C147_repaired_partial : forall md md' e s s1 b bs bs1 sf sf1,
  sfb_reach md s -> fdb_reach b -> sfb_fde s b = Ok s1 -> build md e s = Ok bs -> build md e s1 = Ok bs1 ->
  wf_mode md' -> rust_slice md' bs -> rust_slice md' bs1 -> load md' e bs = Ok sf -> load md' e bs1 = Ok sf1 ->
  forall a, ~ in_range (fb_start b) (fb_size b) a -> (forall c, replaced s b c -> ~ in_range (fb_start c) (fb_size c) a) ->
  in_i32 a -> lookup_key lib_rfixes md' e sf a = lookup_key lib_rfixes md' e sf1 a.
Proof. exact added_looked. Qed.
Print Assumptions C147_repaired_partial.

Example C147_case : forall e,
  added_to e single_sfb demo_f2 /\
  lookup_key lib_rfixes rel64 e (sf_of e (section e single_sfb)) 0x104 = Ok (Some (KeyA, second_row)) /\
  lookup_key lib_rfixes rel64 e (demo_sf e) 0x104 = Ok (Some (KeyA, second_row)) /\
  near rel64 single_sfb 0x180 /\ near rel64 demo_sfb 0x180 /\
  (forall c, In c (fdes_of single_sfb) \/ In c (fdes_of demo_sfb) -> ~ in_range (fb_start c) (fb_size c) 0x180) /\
  lookup rel64 e (demo_sf e) 0x180 = Ok None.
Proof. exact added_kept_case. Qed.
