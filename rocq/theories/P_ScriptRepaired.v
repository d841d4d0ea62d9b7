(** C127 to C130 with small repairs of [dump-dirlibs.sh]. *)
From Coq Require Import String Ascii ZArith List Permutation Bool.
From Verif Require Import ScriptRepairedWitness.
Import ListNotations.
Open Scope Z_scope.
Open Scope list_scope.

(** * C127 Every program found is converted, once, under its own path *)

(** Without repairs this is the script as it is. *)
Theorem C127_unrepaired_partial : forall T found d sts d' ok,
  script_asked sf_none T found d sts d' ok <-> script T found d sts d' ok.
Proof. exact script_none. Qed.
Print Assumptions C127_unrepaired_partial.

(** With four of them no path is an exception, and neither is a status of 255. *)
Theorem C127_repaired_partial : forall fx found,
  sf_type fx = true -> sf_zero fx = true -> listing_of_paths found ->
  forall T d sts d' ok,
  sf_skip fx = true -> sf_status fx = true ->
  script_asked fx T found d sts d' ok -> Permutation (programs found) (map fst sts).
Proof. exact every_program_asked. Qed.
Print Assumptions C127_repaired_partial.

Example C127_repaired_case : forall d,
  listing_of_paths odd /\ programs odd = odd_paths /\ writes_object talkers /\
  script_asked sf_all talkers odd d (map (fun p => (p, 0)) odd_paths) (odd_dir) true /\
  odd_dir (chars "%2Fusr%2Flib%2Fa%2Flibx.so.sframe") = Some (chars "sframe object /usr/lib/a/libx.so") /\
  odd_dir (chars "%2Fusr%2Flib%2Fb%2Flibx.so.sframe") = Some (chars "sframe object /usr/lib/b/libx.so") /\
  odd_dir (chars "%2Fusr%2Flib%2Fa%252Flibx.so.sframe") = Some (chars "sframe object /usr/lib/a%2Flibx.so").
Proof. exact odd_case. Qed.

Example C127_repaired_abort_case : forall d,
  listing_of_paths twins /\ programs twins = twin_paths /\
  script_asked sf_all aborting twins d (map (fun p => (p, 255)) twin_paths) abort_dir false.
Proof. exact abort_case. Qed.

Example C127_repaired_none_case : forall d,
  listing_of_paths none_there /\ programs none_there = [] /\
  script_asked sf_all talkers none_there d [] (fun _ => None) true.
Proof. exact none_there_case. Qed.

(** Each of the four is needed, all others being made. *)
Theorem C127_type_needed_refuted :
  ~ forall T found d sts d' ok,
  listing_of_paths found -> script_asked but_type T found d sts d' ok -> Permutation (programs found) (map fst sts).
Proof. exact type_needed. Qed.
Print Assumptions C127_type_needed_refuted.

Theorem C127_impostor_needed_refuted :
  ~ forall T found d sts d' ok p,
  listing_of_paths found -> script_asked but_type T found d sts d' ok -> In p (map fst sts) -> In p (programs found).
Proof. exact impostor_needed. Qed.
Print Assumptions C127_impostor_needed_refuted.

Theorem C127_zero_needed_refuted :
  ~ forall T found d sts d' ok,
  listing_of_paths found -> script_asked but_zero T found d sts d' ok -> Permutation (programs found) (map fst sts).
Proof. exact zero_needed. Qed.
Print Assumptions C127_zero_needed_refuted.

Theorem C127_skip_needed_refuted :
  ~ forall T found d sts d' ok,
  listing_of_paths found -> script_asked but_skip T found d sts d' ok -> Permutation (programs found) (map fst sts).
Proof. exact skip_needed. Qed.
Print Assumptions C127_skip_needed_refuted.

Theorem C127_status_needed_refuted :
  ~ forall T found d sts d' ok,
  listing_of_paths found -> script_asked but_status T found d sts d' ok -> Permutation (programs found) (map fst sts).
Proof. exact status_needed. Qed.
Print Assumptions C127_status_needed_refuted.

(** * C128 The results of different programs are kept apart *)

(** With names made of the whole path. *)
Theorem C128_repaired_partial : forall fx found,
  sf_type fx = true -> sf_zero fx = true -> listing_of_paths found -> sf_name fx = true ->
  forall T d sts d' ok,
  script_asked fx T found d sts d' ok ->
  forall p st, In (p, st) sts -> left_as escaped T p (dir_asked fx d) d' st.
Proof. exact results_asked. Qed.
Print Assumptions C128_repaired_partial.

(** Other files stay as they are, or as the emptying of the directory left them. *)
Theorem C128_repaired_others_partial : forall fx found,
  sf_type fx = true -> sf_zero fx = true -> listing_of_paths found -> sf_name fx = true ->
  forall T d sts d' ok,
  sf_skip fx = true -> script_asked fx T found d sts d' ok ->
  forall n, (forall p, In p (programs found) -> ~ In n (files_as escaped p)) -> d' n = dir_asked fx d n.
Proof. exact others_kept. Qed.
Print Assumptions C128_repaired_others_partial.

(** No two paths have the same name, and no name leads out of the directory. *)
Theorem C128_repaired_names_partial : forall p q,
  escaped p = escaped q -> p = q.
Proof. exact escaped_apart. Qed.
Print Assumptions C128_repaired_names_partial.

Theorem C128_repaired_flat_partial : forall p,
  lacks slash (escaped p).
Proof. exact escaped_flat. Qed.
Print Assumptions C128_repaired_flat_partial.

(** Whatever is repaired, the script has an outcome. *)
Theorem C128_repaired_total_partial : forall fx T found d,
  exists sts d' ok, script_asked fx T found d sts d' ok.
Proof. exact script_asked_total. Qed.
Print Assumptions C128_repaired_total_partial.

Example C128_repaired_case : forall d,
  listing_of_paths odd /\ programs odd = odd_paths /\ writes_object talkers /\
  script_asked sf_all talkers odd d (map (fun p => (p, 0)) odd_paths) (odd_dir) true /\
  odd_dir (chars "%2Fusr%2Flib%2Fa%2Flibx.so.sframe") = Some (chars "sframe object /usr/lib/a/libx.so") /\
  odd_dir (chars "%2Fusr%2Flib%2Fb%2Flibx.so.sframe") = Some (chars "sframe object /usr/lib/b/libx.so") /\
  odd_dir (chars "%2Fusr%2Flib%2Fa%252Flibx.so.sframe") = Some (chars "sframe object /usr/lib/a%2Flibx.so").
Proof. exact odd_case. Qed.

Theorem C128_name_needed_refuted :
  ~ forall T found d sts d' ok p st,
  listing_of_paths found -> script_asked but_name T found d sts d' ok -> In (p, st) sts ->
  left_as (base_asked but_name) T p (dir_asked but_name d) d' st.
Proof. exact name_needed. Qed.
Print Assumptions C128_name_needed_refuted.

(** * C129 Exit status 0 means that every program was converted *)

Theorem C129_repaired_partial : forall fx found,
  sf_type fx = true -> sf_zero fx = true -> listing_of_paths found -> sf_name fx = true ->
  forall T d sts d',
  writes_object T -> script_asked fx T found d sts d' true ->
  forall p, In p (programs found) -> complete_as escaped T p d'.
Proof. exact success_asked. Qed.
Print Assumptions C129_repaired_partial.

Theorem C129_repaired_failure_partial : forall fx found,
  sf_type fx = true -> sf_zero fx = true -> listing_of_paths found ->
  forall T d sts d',
  script_asked fx T found d sts d' false -> exists p st, In (p, st) sts /\ st <> 0%Z.
Proof. exact failure_asked. Qed.
Print Assumptions C129_repaired_failure_partial.

Example C129_repaired_case : forall d,
  listing_of_paths odd /\ programs odd = odd_paths /\ writes_object talkers /\
  script_asked sf_all talkers odd d (map (fun p => (p, 0)) odd_paths) (odd_dir) true /\
  odd_dir (chars "%2Fusr%2Flib%2Fa%2Flibx.so.sframe") = Some (chars "sframe object /usr/lib/a/libx.so") /\
  odd_dir (chars "%2Fusr%2Flib%2Fb%2Flibx.so.sframe") = Some (chars "sframe object /usr/lib/b/libx.so") /\
  odd_dir (chars "%2Fusr%2Flib%2Fa%252Flibx.so.sframe") = Some (chars "sframe object /usr/lib/a%2Flibx.so").
Proof. exact odd_case. Qed.

Example C129_repaired_failure_case : forall d,
  listing_of_paths twins /\ programs twins = twin_paths /\
  script_asked sf_all aborting twins d (map (fun p => (p, 255)) twin_paths) abort_dir false.
Proof. exact abort_case. Qed.

Theorem C129_type_needed_refuted :
  ~ forall T found d sts d' p,
  writes_object T -> listing_of_paths found -> script_asked but_type T found d sts d' true -> In p (programs found) ->
  complete_as (base_asked but_type) T p d'.
Proof. exact type_success_needed. Qed.
Print Assumptions C129_type_needed_refuted.

Theorem C129_zero_needed_refuted :
  ~ forall T found d sts d' p,
  writes_object T -> listing_of_paths found -> script_asked but_zero T found d sts d' true -> In p (programs found) ->
  complete_as (base_asked but_zero) T p d'.
Proof. exact zero_success_needed. Qed.
Print Assumptions C129_zero_needed_refuted.

Theorem C129_name_needed_refuted :
  ~ forall T found d sts d' p,
  writes_object T -> listing_of_paths found -> script_asked but_name T found d sts d' true -> In p (programs found) ->
  complete_as (base_asked but_name) T p d'.
Proof. exact name_success_needed. Qed.
Print Assumptions C129_name_needed_refuted.

(** * C130 The results in the directory are of the last run *)

(** With the directory removed first. *)
Theorem C130_repaired_partial : forall fx found,
  sf_type fx = true -> sf_zero fx = true -> listing_of_paths found -> sf_name fx = true ->
  forall T d sts d' ok,
  sf_fresh fx = true -> script_asked fx T found d sts d' ok ->
  forall p st ext v, In (p, st) sts -> In ext extensions -> d' (name (escaped p) ext) = Some v -> from_run T p ext v.
Proof. exact fresh_asked. Qed.
Print Assumptions C130_repaired_partial.

(** Then there is nothing else in it either. *)
Theorem C130_repaired_nothing_else_partial : forall fx found,
  sf_type fx = true -> sf_zero fx = true -> listing_of_paths found -> sf_name fx = true ->
  forall T d sts d' ok,
  sf_skip fx = true -> sf_fresh fx = true -> script_asked fx T found d sts d' ok ->
  forall n v, d' n = Some v -> exists p, In p (programs found) /\ In n (files_as escaped p).
Proof. exact nothing_else. Qed.
Print Assumptions C130_repaired_nothing_else_partial.

Example C130_repaired_case :
  listing_of_paths one /\ programs one = [path_a] /\
  script_asked sf_all failing one full_dir [(path_a, 1)] emptied_dir false /\
  full_dir (name (escaped path_a) ".o") = Some (chars "old object") /\ emptied_dir (name (escaped path_a) ".o") = None /\
  emptied_dir (name (escaped path_a) ".log") = Some (said "error " path_a) /\ emptied_dir (chars "liba.so.o") = None.
Proof. exact emptied_case. Qed.

Theorem C130_fresh_needed_refuted :
  ~ forall T found d sts d' ok p st ext v,
  listing_of_paths found -> script_asked but_fresh T found d sts d' ok -> In (p, st) sts -> In ext extensions ->
  d' (name (escaped p) ext) = Some v -> from_run T p ext v.
Proof. exact fresh_needed. Qed.
Print Assumptions C130_fresh_needed_refuted.
