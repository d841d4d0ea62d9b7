(** Concrete directories for the repaired [dump-dirlibs.sh]. *)
From Coq Require Import String Ascii ZArith List Permutation Lia Bool.
From Verif Require Export ScriptWitness ScriptRepairedProps.
Import ListNotations.
Open Scope Z_scope.
Open Scope list_scope.

Ltac paths := split; [split; [distinct|reports]|
  repeat (apply Forall_cons; [intros X; vm_compute in X; intuition discriminate|]); apply Forall_nil].

(** *** Paths the script does not handle, and one name twice *)
Definition new_line : string := String (ascii_of_nat 10) EmptyString.
Definition odd : list (text * file_report) :=
  [lib_report "/usr/lib/my lib.so"; lib_report "/usr/lib/it's.so"; text_report "/usr/lib/conf"; lib_report "/usr/lib/a:b.so";
   lib_report ("/usr/lib/a" ++ new_line ++ "b.so"); lib_report "/usr/lib/a/libx.so"; lib_report "/usr/lib/b/libx.so";
   lib_report "/usr/lib/a%2Flibx.so"; text_report "/usr/lib/a: application/x-sharedlib;b"]%string.
Definition odd_paths : list text :=
  map chars ["/usr/lib/my lib.so"; "/usr/lib/it's.so"; "/usr/lib/a:b.so"; "/usr/lib/a" ++ new_line ++ "b.so";
             "/usr/lib/a/libx.so"; "/usr/lib/b/libx.so"; "/usr/lib/a%2Flibx.so"]%string.
Definition odd_dir : dir := snd (serial_as escaped talkers odd_paths (fun _ => None)).

Lemma odd_listing : listing_of_paths odd.
Proof. paths. Qed.
Lemma odd_case d : listing_of_paths odd /\ programs odd = odd_paths /\ writes_object talkers /\
  script_asked sf_all talkers odd d (map (fun p => (p, 0)) odd_paths) (odd_dir) true /\
  odd_dir (chars "%2Fusr%2Flib%2Fa%2Flibx.so.sframe") = Some (chars "sframe object /usr/lib/a/libx.so") /\
  odd_dir (chars "%2Fusr%2Flib%2Fb%2Flibx.so.sframe") = Some (chars "sframe object /usr/lib/b/libx.so") /\
  odd_dir (chars "%2Fusr%2Flib%2Fa%252Flibx.so.sframe") = Some (chars "sframe object /usr/lib/a%2Flibx.so").
Proof.
  split; [apply odd_listing|]. split; [reflexivity|]. split; [apply writes_talkers|].
  split; [exact (script_asked_in_order sf_all talkers odd d)|]. repeat split; vm_compute; reflexivity.
Qed.

(** *** Conversions that end in status 255 *)
Definition aborting : tools := {|
  t_convert := fun p => (255, said "error " p, None);
  t_dwarfdump := t_dwarfdump talkers; t_sframedump := t_sframedump talkers; t_objdump := t_objdump talkers |}.
Definition abort_dir : dir := snd (serial_as escaped aborting twin_paths (fun _ => None)).
Lemma twins_paths : listing_of_paths twins.
Proof. paths. Qed.
Lemma abort_case d : listing_of_paths twins /\ programs twins = twin_paths /\
  script_asked sf_all aborting twins d (map (fun p => (p, 255)) twin_paths) abort_dir false.
Proof. split; [apply twins_paths|]. split; [reflexivity|]. exact (script_asked_in_order sf_all aborting twins d). Qed.

(** *** No program at all *)
Definition none_there : list (text * file_report) := [text_report "/usr/lib/conf"].
Lemma none_there_case d : listing_of_paths none_there /\ programs none_there = [] /\
  script_asked sf_all talkers none_there d [] (fun _ => None) true.
Proof. split; [paths|]. split; [reflexivity|]. exact (script_asked_in_order sf_all talkers none_there d). Qed.

(** *** A directory from an earlier run *)
Lemma one_paths : listing_of_paths one.
Proof. paths. Qed.
Definition full_dir : dir := put (name (escaped path_a) ".o") (chars "old object") old_dir.
Definition emptied_dir : dir := snd (serial_as escaped failing [path_a] (fun _ => None)).
Lemma emptied_case : listing_of_paths one /\ programs one = [path_a] /\
  script_asked sf_all failing one full_dir [(path_a, 1)] emptied_dir false /\
  full_dir (name (escaped path_a) ".o") = Some (chars "old object") /\ emptied_dir (name (escaped path_a) ".o") = None /\
  emptied_dir (name (escaped path_a) ".log") = Some (said "error " path_a) /\ emptied_dir (chars "liba.so.o") = None.
Proof.
  split; [apply one_paths|]. split; [reflexivity|]. split; [exact (script_asked_in_order sf_all failing one full_dir)|].
  repeat split; vm_compute; reflexivity.
Qed.

(** ** Every repair is needed *)

Lemma type_needed : ~ forall T found d sts d' ok,
  listing_of_paths found -> script_asked but_type T found d sts d' ok -> Permutation (programs found) (map fst sts).
Proof.
  intros H. assert (HP : listing_of_paths with_colon) by paths.
  pose proof (H _ _ _ _ _ _ HP (script_asked_in_order but_type talkers with_colon empty_dir)) as X.
  apply Permutation_length in X. vm_compute in X. discriminate.
Qed.

(** A text file that passes for a program. *)
Lemma impostor_needed : ~ forall T found d sts d' ok p,
  listing_of_paths found -> script_asked but_type T found d sts d' ok -> In p (map fst sts) -> In p (programs found).
Proof.
  intros H. assert (HP : listing_of_paths impostor) by paths.
  pose proof (H _ _ _ _ _ _ (chars "/usr/lib/a: application/x-sharedlib;b") HP (script_asked_in_order but_type talkers impostor empty_dir)
    ltac:(vm_compute; auto)) as X. destruct X.
Qed.

Lemma zero_needed : ~ forall T found d sts d' ok,
  listing_of_paths found -> script_asked but_zero T found d sts d' ok -> Permutation (programs found) (map fst sts).
Proof.
  intros H. assert (HP : listing_of_paths blank) by paths.
  pose proof (H _ _ _ _ _ _ HP (script_asked_in_order but_zero talkers blank empty_dir)) as X.
  apply Permutation_length in X. vm_compute in X. discriminate.
Qed.

Lemma skip_needed : ~ forall T found d sts d' ok,
  listing_of_paths found -> script_asked but_skip T found d sts d' ok -> Permutation (programs found) (map fst sts).
Proof.
  intros H. pose proof (H _ _ _ _ _ _ (proj1 (none_there_case empty_dir)) (script_asked_in_order but_skip talkers none_there empty_dir)) as X.
  apply Permutation_length in X. vm_compute in X. discriminate.
Qed.

Definition first_twin : text := chars "/usr/lib/a/libx.so".
Definition stopped_dir : dir := snd (serial_as escaped aborting [first_twin] (fun _ => None)).
Lemma stopped : script_asked but_status aborting twins empty_dir [(first_twin, 255)] stopped_dir false.
Proof.
  eapply (script_asked_run but_status aborting twins empty_dir (in_order_asked but_status twins) twin_paths false [first_twin]).
  - eexists. split; [apply Permutation_refl|reflexivity].
  - vm_compute. reflexivity.
  - reflexivity.
  - exact (runs_serial_as escaped aborting [first_twin] (fun _ => None) []).
  - intros _. exists first_twin, 255. split; [left; reflexivity|reflexivity].
Qed.
Lemma status_needed : ~ forall T found d sts d' ok,
  listing_of_paths found -> script_asked but_status T found d sts d' ok -> Permutation (programs found) (map fst sts).
Proof. intros H. pose proof (H _ _ _ _ _ _ twins_paths stopped) as X. apply Permutation_length in X. vm_compute in X. discriminate. Qed.

Lemma name_needed : ~ forall T found d sts d' ok p st,
  listing_of_paths found -> script_asked but_name T found d sts d' ok -> In (p, st) sts ->
  left_as (base_asked but_name) T p (dir_asked but_name d) d' st.
Proof.
  intros H. pose proof (H _ _ _ _ _ _ first_twin 0 twins_paths (script_asked_in_order but_name talkers twins empty_dir) ltac:(vm_compute; auto)) as X.
  vm_compute in X. destruct X as (X & _). discriminate.
Qed.

(** Exit status 0 and yet not all converted. *)
Lemma type_success_needed : ~ forall T found d sts d' p,
  writes_object T -> listing_of_paths found -> script_asked but_type T found d sts d' true -> In p (programs found) ->
  complete_as (base_asked but_type) T p d'.
Proof.
  intros H. assert (HP : listing_of_paths with_colon) by paths.
  destruct (H _ _ _ _ _ (chars "/usr/lib/a:b.so") writes_talkers HP (script_asked_in_order but_type talkers with_colon empty_dir) ltac:(vm_compute; auto))
    as (log & o & dw & dz & dj & _ & _ & _ & _ & X & _). vm_compute in X. discriminate.
Qed.
Lemma zero_success_needed : ~ forall T found d sts d' p,
  writes_object T -> listing_of_paths found -> script_asked but_zero T found d sts d' true -> In p (programs found) ->
  complete_as (base_asked but_zero) T p d'.
Proof.
  intros H. assert (HP : listing_of_paths blank) by paths.
  destruct (H _ _ _ _ _ (chars "/usr/lib/my lib.so") writes_talkers HP (script_asked_in_order but_zero talkers blank empty_dir) ltac:(vm_compute; auto))
    as (log & o & dw & dz & dj & _ & _ & _ & _ & X & _). vm_compute in X. discriminate.
Qed.
Lemma name_success_needed : ~ forall T found d sts d' p,
  writes_object T -> listing_of_paths found -> script_asked but_name T found d sts d' true -> In p (programs found) ->
  complete_as (base_asked but_name) T p d'.
Proof.
  intros H.
  destruct (H _ _ _ _ _ first_twin writes_talkers twins_paths (script_asked_in_order but_name talkers twins empty_dir) ltac:(vm_compute; auto))
    as (log & o & dw & dz & dj & X1 & _ & _ & _ & X & _). vm_compute in X1, X. injection X1 as <- <-. discriminate.
Qed.

Lemma fresh_needed : ~ forall T found d sts d' ok p st ext v,
  listing_of_paths found -> script_asked but_fresh T found d sts d' ok -> In (p, st) sts -> In ext extensions ->
  d' (name (escaped p) ext) = Some v -> from_run T p ext v.
Proof.
  intros H. pose proof (H _ _ _ _ _ _ path_a 1 ".o"%string (chars "old object") one_paths (script_asked_in_order but_fresh failing one full_dir)
    ltac:(vm_compute; auto) ltac:(cbn; auto) ltac:(vm_compute; reflexivity)) as X.
  vm_compute in X. destruct X as [[X _]|[[_ X]|[[X _]|[[X _]|[X _]]]]]; discriminate.
Qed.
