(** Adding a function to a section (C146, C147). *)
From Verif Require Export StdSpec.

(** Adding [b] to [s] replaces [c] ([SFrameBuilder::fde], write.rs:89-93). *)
Definition replaced (s : sfb) (b c : fdb) : Prop := bt_get (fb_start b) (sb_fdes s) = Some c.
