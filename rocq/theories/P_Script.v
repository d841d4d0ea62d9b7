(** Property theorems about [dump-dirlibs.sh]: C127-C131. *)
From Coq Require Import String Ascii ZArith List Permutation Bool.
From Verif Require Import ScriptWitness ScriptTools.
Import ListNotations.
Open Scope Z_scope.
Open Scope list_scope.

(** * C127 Every program found is converted, once, under its own path *)

(** False: a path with a blank is taken for two. *)
Theorem C127_refuted : ~ forall T found d sts d' ok,
  listing found -> programs found <> [] -> script T found d sts d' ok -> none_aborts sts ->
  Permutation (programs found) (map fst sts).
Proof. exact blanks_split. Qed.
Print Assumptions C127_refuted.

(** A quote ends the run: the programs behind it are not converted. *)
Theorem C127_quote_refuted : ~ forall T found d sts d' ok p,
  listing found -> script T found d sts d' ok -> none_aborts sts -> In p (programs found) -> plain_path p ->
  In p (map fst sts).
Proof. exact quotes_stop. Qed.
Print Assumptions C127_quote_refuted.

(** True of paths without blanks, newlines, quotes, backslashes and colons. *)
Theorem C127_every_program_once_partial : forall found,
  listing found -> (forall p, In p (map fst found) -> plain_path p) ->
  forall T d sts d' ok, script T found d sts d' ok -> none_aborts sts -> programs found <> [] ->
  Permutation (programs found) (map fst sts).
Proof. exact every_program_once. Qed.
Print Assumptions C127_every_program_once_partial.

(** Also if a conversion returns 255, which stops xargs, nothing else is converted
    and nothing twice. *)
Theorem C127_only_programs_partial : forall found,
  listing found -> (forall p, In p (map fst found) -> plain_path p) ->
  forall T d sts d' ok, script T found d sts d' ok -> programs found <> [] ->
  (forall p, In p (map fst sts) -> In p (programs found)) /\ NoDup (map fst sts).
Proof. exact only_programs. Qed.
Print Assumptions C127_only_programs_partial.

(** Exactly the paths without special characters get through xargs. *)
Theorem C127_paths_partial : forall p, p <> [] -> (xargs (p ++ [nl]) = ([p], false) <-> safe p).
Proof. exact xargs_exact. Qed.
Print Assumptions C127_paths_partial.

(** Where there is no program, nothing is converted all the same. *)
Theorem C127_no_programs_partial : forall found,
  listing found -> (forall p, In p (map fst found) -> plain_path p) ->
  forall T d sts d' ok, script T found d sts d' ok -> programs found = [] -> none_aborts sts -> map fst sts = [[]].
Proof. exact no_programs. Qed.
Print Assumptions C127_no_programs_partial.

Example C127_case : listing fine /\ (forall p, In p (map fst fine) -> plain_path p) /\ programs fine = fine_paths /\
  script talkers fine empty_dir (map (fun p => (p, 0)) fine_paths) fine_dir true.
Proof. destruct fine_case as (P1 & P2 & P3 & _ & _ & P4 & _). auto 10. Qed.

(** A text file can pass for a program. *)
Example C127_impostor : listing impostor /\ programs impostor = [] /\
  forall input, handed_on impostor input -> xargs input = (map chars ["/usr/lib/a:"; "application/x-sharedlib;b"]%string, false).
Proof. exact impostor_case. Qed.

(** * C128 The results of different programs are kept apart *)

(** False: they are named after the last component of the path. *)
Theorem C128_refuted : ~ forall T found d sts d' ok p st,
  listing found -> (forall p, In p (map fst found) -> plain_path p) -> programs found <> [] ->
  script T found d sts d' ok -> In (p, st) sts -> left_by T p d d' st.
Proof. exact twins_clash. Qed.
Print Assumptions C128_refuted.

(** True if the last components differ, however the runs are interleaved. *)
Theorem C128_results_apart_partial : forall found,
  listing found -> (forall p, In p (map fst found) -> plain_path p) -> NoDup (map basename (programs found)) ->
  forall T d sts d' ok, script T found d sts d' ok -> programs found <> [] ->
  (forall p st, In (p, st) sts -> left_by T p d d' st) /\
  forall n, (forall p, In p (programs found) -> ~ In n (files_of p)) -> d' n = d n.
Proof. exact results_apart. Qed.
Print Assumptions C128_results_apart_partial.

(** The name is what follows the last slash; a path that does not end in one has it. *)
Theorem C128_name_partial : forall p b, last_component p b -> basename p = b.
Proof. exact basename_last. Qed.
Print Assumptions C128_name_partial.

Theorem C128_named_partial : forall p c, c <> slash -> exists b, last_component (p ++ [c]) b.
Proof. exact last_component_ex. Qed.
Print Assumptions C128_named_partial.

Theorem C128_side_by_side_partial : forall T ps sts d d',
  NoDup (map basename ps) ->
  runs T (map start_of ps) d (map (fun x => (fst x, AtEnd (snd x))) sts) d' ->
  map fst sts = ps /\ (forall p st, In (p, st) sts -> left_by T p d d' st) /\
  forall n, (forall p, In p ps -> ~ In n (files_of p)) -> d' n = d n.
Proof. exact side_by_side. Qed.
Print Assumptions C128_side_by_side_partial.

(** Every schedule can be carried on to its end, and the script has an outcome. *)
Theorem C128_runs_end_partial : forall T js d, exists js' d', runs T js d js' d' /\ Forall ended js'.
Proof. exact runs_end. Qed.
Print Assumptions C128_runs_end_partial.

Theorem C128_script_total_partial : forall T found d, exists sts d' ok, script T found d sts d' ok.
Proof. exact script_total. Qed.
Print Assumptions C128_script_total_partial.

Example C128_case : listing fine /\ (forall p, In p (map fst fine) -> plain_path p) /\ NoDup (map basename (programs fine)) /\
  programs fine = fine_paths /\ script talkers fine empty_dir (map (fun p => (p, 0)) fine_paths) fine_dir true /\
  fine_dir (chars "libb.so.sframe") = Some (chars "sframe object /usr/lib/b/libb.so").
Proof. destruct fine_case as (P1 & P2 & P3 & P4 & _ & P5 & P6). auto 10. Qed.

(** * C129 Exit status 0 means that every program was converted *)

(** False: a path with a colon is left out silently. *)
Theorem C129_refuted : ~ forall T found d sts d' p,
  writes_object T -> listing found -> NoDup (map basename (programs found)) ->
  script T found d sts d' true -> In p (programs found) -> complete T p d'.
Proof. exact colons_lost. Qed.
Print Assumptions C129_refuted.

(** And of two programs of the same name one is lost. *)
Theorem C129_names_refuted : ~ forall T found d sts d' p,
  writes_object T -> listing found -> (forall p, In p (map fst found) -> plain_path p) ->
  script T found d sts d' true -> In p (programs found) -> complete T p d'.
Proof. exact twins_lost. Qed.
Print Assumptions C129_names_refuted.

Theorem C129_success_partial : forall found,
  listing found -> (forall p, In p (map fst found) -> plain_path p) -> NoDup (map basename (programs found)) ->
  forall T d sts d', writes_object T -> script T found d sts d' true -> programs found <> [] ->
  forall p, In p (programs found) -> complete T p d'.
Proof. exact success_means_complete. Qed.
Print Assumptions C129_success_partial.

Theorem C129_failure_partial : forall found,
  listing found -> (forall p, In p (map fst found) -> plain_path p) ->
  forall T d sts d', script T found d sts d' false -> exists p st, In (p, st) sts /\ st <> 0.
Proof. exact failure_means_failed. Qed.
Print Assumptions C129_failure_partial.

Example C129_case : listing fine /\ (forall p, In p (map fst fine) -> plain_path p) /\ NoDup (map basename (programs fine)) /\
  writes_object talkers /\ programs fine = fine_paths /\
  script talkers fine empty_dir (map (fun p => (p, 0)) fine_paths) fine_dir true.
Proof. destruct fine_case as (P1 & P2 & P3 & P4 & P5 & P6 & _). auto 10. Qed.

(** * C130 The results in the directory are of the last run *)

(** False: after a failed conversion the object of an earlier run is still there. *)
Theorem C130_refuted : ~ forall T found d sts d' ok p st ext v,
  listing found -> (forall p, In p (map fst found) -> plain_path p) -> NoDup (map basename (programs found)) ->
  script T found d sts d' ok -> In (p, st) sts -> In ext extensions -> d' (name (basename p) ext) = Some v ->
  from_run T p ext v.
Proof. exact results_stale. Qed.
Print Assumptions C130_refuted.

Theorem C130_fresh_partial : forall found,
  listing found -> (forall p, In p (map fst found) -> plain_path p) -> NoDup (map basename (programs found)) ->
  forall T sts d' ok, script T found (fun _ => None) sts d' ok -> programs found <> [] ->
  (forall p st ext v, In (p, st) sts -> In ext extensions -> d' (name (basename p) ext) = Some v -> from_run T p ext v) /\
  forall n v, d' n = Some v -> exists p, In p (programs found) /\ In n (files_of p).
Proof. exact fresh_results. Qed.
Print Assumptions C130_fresh_partial.

Example C130_case : listing fine /\ (forall p, In p (map fst fine) -> plain_path p) /\ NoDup (map basename (programs fine)) /\
  programs fine = fine_paths /\ script talkers fine (fun _ => None) (map (fun p => (p, 0)) fine_paths) fine_dir true.
Proof. destruct fine_case as (P1 & P2 & P3 & P4 & _ & P5 & _). auto 10. Qed.

(** * C131 The dumps the script leaves show what the DWARF says *)

(** The tools are the modelled ones; C126 says what the second makes of the first's
    output. *)
Theorem C131_script_shows_programs : forall T md md' abi_name input emit parse found d sts d' ok p file a eh0,
  let native := endian_of (elf_endian file) in
  let eh := file_eh md file eh0 in let op := cli_options script_flags a (elf_endian file) in
  modelled T md md' native abi_name input emit parse ->
  listing found -> (forall q, In q (map fst found) -> plain_path q) -> NoDup (map basename (programs found)) ->
  script T found d sts d' ok -> none_aborts sts -> In p (programs found) -> fst (t_dwarfdump T p) = 0 ->
  input p = Some file -> file_typed file ->
  (exists out, dwarf2sframe2_main md script_flags (Some file) = Ok out /\ rust_slice md' (out_sframe out)) ->
  arch_of (elf_architecture file) = Some a -> elf_eh_frame file = Some eh0 ->
  wf_mode md' -> (forall n, without newline_char (abi_name n)) ->
  (forall f, last_at eh f -> ends_in_range f /\ (exists c, follows_dwarf c f) /\
     forall r, In r (wide_rows f) -> ~ clash a (fixed_ra_of op eh) r) ->
  exists s h rest, d' (name (basename p) ".sframe"%string) = Some (chars s) /\ read_dump s = Some (h, rest) /\
    (forall c f x, last_at eh f -> follows_dwarf c f -> in_range (df_start f) (df_len f) x ->
       exists st u, cfi_at c f x = Some st /\ matches a (as_row st) u /\ dump_says rest x (looks u) /\
         forall v, dump_says rest x v -> v = looks u) /\
    forall x v, dump_says rest x v -> exists f, last_at eh f /\ in_range (df_start f) (df_len f) x.
Proof. exact script_shows_programs. Qed.
Print Assumptions C131_script_shows_programs.

(** The file and what [C126_case] says of it. *)
Example C131_case :
  modelled real_tools rel64 rel64 LE some_abi real_input (fun _ => chars "ELF") (fun _ => Some (object_file two_out)) /\
  listing one /\ (forall p, In p (map fst one) -> plain_path p) /\ NoDup (map basename (programs one)) /\
  script real_tools one empty_dir [(path_a, 0)] real_dir true /\ programs one = [path_a] /\ real_input path_a = Some two_file /\
  dwarf2sframe2_main rel64 script_flags (Some two_file) = Ok two_out /\ rust_slice rel64 (out_sframe two_out) /\
  real_dir (chars "liba.so.sframe") = Some (chars two_text).
Proof.
  destruct stale_case as (P1 & P2 & P3 & _). destruct real_case as (R1 & R2 & R3 & R4 & R5 & R6 & R7).
  split; [exact R1|]. split; [exact P1|]. split; [exact P2|]. split; [rewrite P3; repeat constructor; intros []|]. auto 10.
Qed.
