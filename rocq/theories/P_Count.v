(** Property C152: how many rows a section hands out. *)
From Verif Require Import ToolsSpec WriteWitness SectionWitness CountWitness.

(** * C152 A section hands out no more rows than it has *)

(** In full: when every function of an accepted section is iterated once, the rows handed out
    are altogether at most as many as the header counts, and at most half as many as the row
    bytes.  This is false: the header's count is never looked at, and functions may share
    their rows.  A section of 28 + 22 * k bytes whose header counts k rows hands out k * k. *)
Theorem C152_shared_refuted : forall md e k, Z.of_nat k < 2 ^ 27 -> wf_mode md -> rust_slice md (crowd e k) ->
  zlen (crowd e k) = 28 + 22 * Z.of_nat k /\
  exists sf, load md e (crowd e k) = Ok sf /\ num_fdes sf = Z.of_nat k /\ num_fres sf = Z.of_nat k /\
    zlen (spec_fre_bytes e (crowd e k)) = 2 * Z.of_nat k /\ handed_all md e sf (Z.of_nat k * Z.of_nat k).
Proof. exact crowd_handed. Qed.
Print Assumptions C152_shared_refuted.

(** sframedump prints a line for each of them. *)
Theorem C152_dump_refuted : forall md e k, Z.of_nat k < 2 ^ 27 -> wf_mode md -> rust_slice md (crowd e k) ->
  exists sf out, load md e (crowd e k) = Ok sf /\ dump md e sf = Ok out /\ zlen out = 3 + Z.of_nat k * (Z.of_nat k + 3).
Proof. exact crowd_dump. Qed.
Print Assumptions C152_dump_refuted.

(** More than the square it cannot be. *)
Theorem C152_square_partial : forall md e bs sf total,
  wf_mode md -> rust_slice md bs -> load md e bs = Ok sf -> handed_all md e sf total ->
  total <= counted sf /\ 2 * total <= num_fdes sf * zlen (spec_fre_bytes e bs) /\ 34 * total <= (zlen bs - 28) * (zlen bs - 28).
Proof. exact handed_square. Qed.
Print Assumptions C152_square_partial.

Theorem C152_dump_partial : forall md e bs sf out,
  wf_mode md -> rust_slice md bs -> load md e bs = Ok sf -> dump md e sf = Ok out ->
  2 * zlen out <= 6 + num_fdes sf * (8 + zlen (spec_fre_bytes e bs)).
Proof. exact dump_bound. Qed.
Print Assumptions C152_dump_partial.

(** Of the sections the builder writes it is true. *)
Theorem C152_built_partial : forall md md' e s bs sf total,
  sfb_reach md s -> build md e s = Ok bs -> wf_mode md' -> rust_slice md' bs -> load md' e bs = Ok sf -> handed_all md' e sf total ->
  total <= num_fres sf /\ num_fres sf = row_count (fdes_of s) /\ 2 * num_fres sf <= zlen (spec_fre_bytes e bs).
Proof. exact built_handed. Qed.
Print Assumptions C152_built_partial.

(** With a load that compares the counts it is true of every accepted section. *)
Theorem C152_repaired_partial : forall md e bs sf total,
  wf_mode md -> rust_slice md bs -> load_counted true md e bs = Ok sf -> handed_all md e sf total ->
  total <= num_fres sf /\ 2 * num_fres sf <= zlen (spec_fre_bytes e bs) /\ 2 * num_fres sf <= zlen bs - 28.
Proof. exact counted_handed. Qed.
Print Assumptions C152_repaired_partial.

(** It accepts exactly the sections whose counts are so, among them all built ones. *)
Theorem C152_repaired_accepts_partial : forall md e bs sf,
  load_counted true md e bs = Ok sf <->
  load md e bs = Ok sf /\ counted sf <= num_fres sf /\ 2 * num_fres sf <= zlen (sf_fres sf).
Proof. exact counted_iff. Qed.
Print Assumptions C152_repaired_accepts_partial.

Theorem C152_repaired_built_partial : forall md md' e s bs,
  sfb_reach md s -> build md e s = Ok bs -> wf_mode md' -> rust_slice md' bs ->
  load_counted true md' e bs = load md' e bs.
Proof. exact counted_built. Qed.
Print Assumptions C152_repaired_built_partial.

Theorem C152_unrepaired_partial : forall md e bs, load_counted false md e bs = load md e bs.
Proof. exact uncounted. Qed.
Print Assumptions C152_unrepaired_partial.

Theorem C152_repaired_case : forall e,
  rust_slice rel64 (crowd e 5) /\ zlen (crowd e 5) = 138 /\ load_counted true rel64 e (crowd e 5) = Err UnexpectedEof /\
  load_counted true rel64 e (section e demo_sfb) = load rel64 e (section e demo_sfb) /\
  exists sf, load_counted true rel64 e (section e demo_sfb) = Ok sf /\ num_fres sf = 3 /\ handed_all rel64 e sf 3.
Proof. exact counted_case. Qed.
Print Assumptions C152_repaired_case.
