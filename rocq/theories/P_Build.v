(** Property theorems about the setters of the builders (C78). *)
From Verif Require Import Base Write Convert BuildSpec BuildFacts.

(** * C78 Builder setters change one thing, and the last call wins *)

Theorem C78_function_setters : forall o start size l,
  fb_options (fdb_run o start size l) = o /\
  fb_start (fdb_run o start size l) = asked_start start l /\
  fb_size (fdb_run o start size l) = asked_size size l /\
  fb_rep_size (fdb_run o start size l) = asked_rep l /\
  fb_pauth (fdb_run o start size l) = asked_key l.
Proof. exact fdb_run_fields. Qed.
Print Assumptions C78_function_setters.

Theorem C78_setters_keep_rows : forall b c, touches_rows c = false -> fb_fres (fdb_run_call b c) = fb_fres b.
Proof. exact setters_keep_rows. Qed.
Print Assumptions C78_setters_keep_rows.

Theorem C78_row_constructors : forall start x v,
  row_new_from_sp start x = Row start (Some x) false Sp /\
  row_new_from_fp start x = Row start (Some x) false Fp /\
  row_invalid start = Row start None false Fp /\
  forall r, row_mangled_ra_p v r = Row (r_start r) (r_offsets r) v (r_base r).
Proof. exact row_constructors. Qed.
Print Assumptions C78_row_constructors.

Theorem C78_converter_options : forall a l,
  conv_run a l = Options (asked_arch a l) (asked_merge_fres l) (asked_merge_fdes l) (asked_warnings l)
                   (asked_debugdump l) (asked_endian l).
Proof. exact conv_run_fields. Qed.
Print Assumptions C78_converter_options.

Definition some_row : row := row_mangled_ra_p true (row_new_from_sp 4 (RowOffsets 16 (Some (-8)) None)).
Definition some_calls : list fdb_call :=
  [ FcPcMask 16; FcStart 32; FcRow some_row; FcSize 8; FcKey KeyB; FcPcMask 12; FcRow (row_invalid 9); FcMerge;
    FcStart 48 ].
(** Two rows are offered, the second is outside the new size and refused. *)
Example C78_case :
  fdb_run options_new 0 100 some_calls = Fdb options_new 48 8 (Some 12) KeyB [(4, some_row)] /\
  asked_start 0 some_calls = 48 /\ asked_size 100 some_calls = 8 /\ asked_rep some_calls = Some 12 /\
  asked_key some_calls = KeyB /\ touches_rows (FcSize 8) = false /\
  conv_run Amd64 [CcWarnings true; CcArch Aarch64; CcMergeFres false; CcWarnings false; CcEndian (Some RtBig)] =
    Options Aarch64 false true false false (Some RtBig).
Proof. vm_compute. auto 10. Qed.
