(** Two sections made into one with the builder (C148). *)
From Verif Require Export PlaceSpec StdSpec SectionSpec.

(** No function of one starts where a function of the other starts: the builder would
    take the later for the earlier. *)
Definition distinct (s1 s2 : sfb) : Prop :=
  forall b c, In b (fdes_of s1) -> In c (fdes_of s2) -> fb_start b <> fb_start c.

(** No function of one starts inside a function of the other. *)
Definition separate (s1 s2 : sfb) : Prop :=
  forall b c, In b (fdes_of s1) -> In c (fdes_of s2) ->
    ~ in_range (fb_start b) (fb_size b) (fb_start c) /\ ~ in_range (fb_start c) (fb_size c) (fb_start b).

(** The functions of the second are added to the first with [SFrameBuilder::fde]
    (crates/sframe/src/write.rs:89-93), one after the other. *)
Definition joined_sfb (s1 s2 s : sfb) : Prop := add_fdes s1 (fdes_of s2) = Ok s.

(** The builder of a section that was read (SectionSpec.v) gives its bytes again. *)
Definition read_again (md md' : mode) (e : endian) (bs : bytes) (sf : sframe) (s : sfb) : Prop :=
  wf_mode md' /\ rust_slice md' bs /\ load md' e bs = Ok sf /\ section_read md' e sf = Some s /\ build md e s = Ok bs.
