(** Concrete directories for C127 to C131. *)
From Coq Require Import String Ascii ZArith List Permutation Lia Bool.
From Verif Require Export PipeWitness ScriptTools.
Import ListNotations.
Open Scope Z_scope.
Open Scope list_scope.

Definition lib_report (p : string) : text * file_report :=
  (chars p, FileReport (chars p) (chars "application/x-sharedlib") (chars "binary")).
Definition text_report (p : string) : text * file_report :=
  (chars p, FileReport (chars p) (chars "text/x-shellscript") (chars "us-ascii")).

(** Tools that always succeed and say what they were given. *)
Definition said (s : string) (p : text) : text := chars s ++ p.
Definition talkers : tools := {|
  t_convert := fun p => (0, said "log " p, Some (said "object " p));
  t_dwarfdump := fun p => (0, said "dwarf " p);
  t_sframedump := fun o => match o with Some o => (0, said "sframe " o) | None => (1, []) end;
  t_objdump := fun p => (0, said "asm " p) |}.
(** Tools whose conversions fail. *)
Definition failing : tools := {|
  t_convert := fun p => (1, said "error " p, None);
  t_dwarfdump := t_dwarfdump talkers; t_sframedump := t_sframedump talkers; t_objdump := t_objdump talkers |}.
Definition empty_dir : dir := fun _ => None.

Ltac distinct := repeat constructor; cbn; intuition discriminate.
Lemma one_word s : forallb (fun c => negb (Nat.eqb (nat_of_ascii c) 9) && negb (Nat.eqb (nat_of_ascii c) 32))%bool s = true -> single_spaced s.
Proof.
  intros H. rewrite forallb_forall in H.
  assert (H9 : ~ In (ascii_of_nat 9) s) by (intros X; apply H in X; discriminate).
  assert (HB : ~ In " "%char s) by (intros X; apply H in X; discriminate).
  split; [exact H9|]. intros a b. repeat split; intros ->; apply HB; [left; reflexivity|apply in_or_app; right; left; reflexivity..].
Qed.
Ltac report :=
  split; [reflexivity|split; [apply one_word; vm_compute; reflexivity|split; [intros c [-> |[-> | ->]] X; vm_compute in X; intuition discriminate|
    intros X; vm_compute in X; intuition discriminate]]].
Ltac reports := repeat (apply Forall_cons; [split; [discriminate|report]|]); apply Forall_nil.

Lemma writes_talkers : writes_object talkers.
Proof. intros p log obj [= _ <-]. discriminate. Qed.

(** In the order in which [find] printed them. *)
Definition in_order (found : list (text * file_report)) : text := uniq (concat (map (fun x => print_if_lib (fst x) (snd x)) found)).
Lemma handed_in_order found : handed_on found (in_order found).
Proof. eexists. split; [apply Permutation_refl|reflexivity]. Qed.
Lemma script_in_order T found d : let r := serial T (fst (xargs (in_order found))) d in
  script T found d (fst r) (snd r) (negb (snd (xargs (in_order found))) && forallb (fun x => Z.eqb (snd x) 0) (fst r)).
Proof. intros r. apply script_serial with (input := in_order found); [apply handed_in_order|destruct (xargs (in_order found)); reflexivity]. Qed.

(** *** A path with a blank *)
Definition blank : list (text * file_report) := [lib_report "/usr/lib/my lib.so"].
Lemma blank_case : listing blank /\ programs blank = [chars "/usr/lib/my lib.so"] /\
  (forall T d sts d' ok, script T blank d sts d' ok -> none_aborts sts -> map fst sts = [chars "/usr/lib/my"; chars "lib.so"]).
Proof.
  split; [split; [distinct|reports]|]. split; [reflexivity|]. intros T d sts d' ok H HN.
  destruct (script_inv _ _ _ _ _ _ H) as (input & args & bad & args' & rest & (outs & O1 & ->) & I2 & I3 & I4 & I5 & I6 & _).
  cbn [map blank] in O1. apply Permutation_length_1_inv in O1. subst outs. vm_compute in I2. injection I2 as <- <-.
  rewrite (I5 HN), app_nil_r in I3. rewrite I6, <- I3. reflexivity.
Qed.

(** *** A path with a quote: nothing is converted if it comes first *)
Definition quoted : list (text * file_report) := [lib_report "/usr/lib/it's.so"; lib_report "/usr/lib/plain.so"].
Lemma quoted_case : listing quoted /\ programs quoted = map chars ["/usr/lib/it's.so"; "/usr/lib/plain.so"]%string /\
  script talkers quoted empty_dir [] empty_dir false.
Proof.
  split; [split; [distinct|reports]|]. split; [reflexivity|]. exact (script_in_order talkers quoted empty_dir).
Qed.

(** *** A path with a colon: left out, and nobody is told *)
Definition with_colon : list (text * file_report) := [lib_report "/usr/lib/a:b.so"; lib_report "/usr/lib/plain.so"].
Definition colon_dir : dir := snd (serial talkers [chars "/usr/lib/plain.so"] empty_dir).
Lemma colon_case : listing with_colon /\ In (chars "/usr/lib/a:b.so") (programs with_colon) /\
  script talkers with_colon empty_dir [(chars "/usr/lib/plain.so", 0)] colon_dir true /\
  NoDup (map basename (programs with_colon)) /\ ~ complete talkers (chars "/usr/lib/a:b.so") colon_dir.
Proof.
  split; [split; [distinct|reports]|]. split; [vm_compute; auto|]. split; [exact (script_in_order talkers with_colon empty_dir)|].
  split; [vm_compute; distinct|]. intros (log & o & dw & dz & dj & _ & _ & _ & _ & H & _). vm_compute in H. discriminate.
Qed.

(** *** A script that passes for a library *)
Definition impostor : list (text * file_report) := [text_report "/usr/lib/a: application/x-sharedlib;b"].
Lemma impostor_case : listing impostor /\ programs impostor = [] /\
  forall input, handed_on impostor input -> xargs input = (map chars ["/usr/lib/a:"; "application/x-sharedlib;b"]%string, false).
Proof.
  split; [split; [distinct|reports]|]. split; [reflexivity|]. intros input (outs & O1 & ->).
  cbn [map impostor] in O1. apply Permutation_length_1_inv in O1. subst outs. vm_compute. reflexivity.
Qed.

(** *** The same base name twice *)
Definition twins : list (text * file_report) := [lib_report "/usr/lib/a/libx.so"; lib_report "/usr/lib/b/libx.so"].
Definition twin_paths : list text := map chars ["/usr/lib/a/libx.so"; "/usr/lib/b/libx.so"]%string.
Definition twin_dir : dir := snd (serial talkers twin_paths empty_dir).
Lemma twins_case : listing twins /\ (forall p, In p (map fst twins) -> plain_path p) /\ programs twins = twin_paths /\
  script talkers twins empty_dir (map (fun p => (p, 0)) twin_paths) twin_dir true /\
  ~ left_by talkers (chars "/usr/lib/a/libx.so") empty_dir twin_dir 0 /\ ~ complete talkers (chars "/usr/lib/a/libx.so") twin_dir.
Proof.
  split; [split; [distinct|reports]|]. split.
  { intros p Hp. cbn in Hp. repeat (destruct Hp as [<-|Hp]; [split; [split; [discriminate|split; [repeat constructor|reflexivity]]|vm_compute; intuition discriminate]|]). destruct Hp. }
  split; [reflexivity|]. split; [exact (script_in_order talkers twins empty_dir)|]. split.
  - intros H. vm_compute in H. destruct H as (H & _). discriminate.
  - intros (log & o & dw & dz & dj & H1 & _ & _ & _ & H & _). vm_compute in H1, H. injection H1 as <- <-. discriminate.
Qed.

(** *** A directory from an earlier run *)
Definition one : list (text * file_report) := [lib_report "/usr/lib/liba.so"; text_report "/usr/lib/conf"].
Definition path_a : text := chars "/usr/lib/liba.so".
Definition old_dir : dir := put (chars "liba.so.o") (chars "old object") empty_dir.
Definition stale_dir : dir := snd (serial failing [path_a] old_dir).
Lemma stale_case : listing one /\ (forall p, In p (map fst one) -> plain_path p) /\ programs one = [path_a] /\
  script failing one old_dir [(path_a, 1)] stale_dir false /\
  stale_dir (name (basename path_a) ".o") = Some (chars "old object") /\ ~ from_run failing path_a ".o" (chars "old object").
Proof.
  split; [split; [distinct|reports]|]. split.
  { intros p Hp. cbn in Hp. repeat (destruct Hp as [<-|Hp]; [split; [split; [discriminate|split; [repeat constructor|reflexivity]]|vm_compute; intuition discriminate]|]). destruct Hp. }
  split; [reflexivity|]. split; [exact (script_in_order failing one old_dir)|]. split; [vm_compute; reflexivity|].
  intros H. vm_compute in H. destruct H as [[H _]|[[_ H]|[[H _]|[[H _]|[H _]]]]]; discriminate.
Qed.

(** *** A directory the script handles *)
Definition fine : list (text * file_report) := [lib_report "/usr/lib/liba.so"; text_report "/usr/lib/conf"; lib_report "/usr/lib/b/libb.so"].
Definition fine_paths : list text := map chars ["/usr/lib/liba.so"; "/usr/lib/b/libb.so"]%string.
Definition fine_dir : dir := snd (serial talkers fine_paths empty_dir).
Lemma fine_case : listing fine /\ (forall p, In p (map fst fine) -> plain_path p) /\ programs fine = fine_paths /\
  NoDup (map basename (programs fine)) /\ writes_object talkers /\
  script talkers fine empty_dir (map (fun p => (p, 0)) fine_paths) fine_dir true /\
  fine_dir (chars "libb.so.sframe") = Some (chars "sframe object /usr/lib/b/libb.so").
Proof.
  split; [split; [distinct|reports]|]. split.
  { intros p Hp. cbn in Hp. repeat (destruct Hp as [<-|Hp]; [split; [split; [discriminate|split; [repeat constructor|reflexivity]]|vm_compute; intuition discriminate]|]). destruct Hp. }
  split; [reflexivity|]. split; [vm_compute; distinct|]. split; [apply writes_talkers|]. split; [exact (script_in_order talkers fine empty_dir)|].
  vm_compute. reflexivity.
Qed.

(** *** The modelled tools at work *)
Definition real_input (p : text) : option elf_file := if text_eqb p path_a then Some two_file else None.
Definition real_tools : tools := {|
  t_convert := fun p => match dwarf2sframe2_main rel64 script_flags (real_input p) with
    | Ok out => (0, chars "log", Some (chars "ELF")) | _ => (1, chars "error", None) end;
  t_dwarfdump := fun p => (0, said "dwarf " p);
  t_sframedump := fun o => (0, chars (stdout_text some_abi two_dump));
  t_objdump := fun p => (0, said "asm " p) |}.
Definition real_dir : dir := snd (serial real_tools [path_a] empty_dir).

Lemma real_case :
  modelled real_tools rel64 rel64 LE some_abi real_input (fun _ => chars "ELF") (fun _ => Some (object_file two_out)) /\
  script real_tools one empty_dir [(path_a, 0)] real_dir true /\ programs one = [path_a] /\ real_input path_a = Some two_file /\
  dwarf2sframe2_main rel64 script_flags (Some two_file) = Ok two_out /\ rust_slice rel64 (out_sframe two_out) /\
  real_dir (chars "liba.so.sframe") = Some (chars two_text).
Proof.
  assert (HO : dwarf2sframe2_main rel64 script_flags (Some two_file) = Ok two_out) by (vm_compute; reflexivity).
  split.
  - split.
    + intros p out H. exists (chars "log"). unfold real_tools. cbn [t_convert]. rewrite H. reflexivity.
    + intros p out H. exists (object_file two_out). split; [reflexivity|]. unfold real_input in H. destruct (text_eqb p path_a); [|discriminate].
      rewrite HO in H. injection H as <-. apply object_holds.
    + intros o l H. cbn [t_sframedump real_tools]. assert (E : sframedump_main rel64 LE (Some (object_file two_out)) = Ok two_dump) by (vm_compute; reflexivity).
      rewrite E in H. injection H as <-. reflexivity.
  - split; [exact (script_in_order real_tools one empty_dir)|]. split; [reflexivity|]. split; [reflexivity|]. split; [exact HO|].
    split; [vm_compute; reflexivity|]. vm_compute. reflexivity.
Qed.

(** *** What is false *)

Lemma blanks_split : ~ forall T found d sts d' ok,
  listing found -> programs found <> [] -> script T found d sts d' ok -> none_aborts sts ->
  Permutation (programs found) (map fst sts).
Proof.
  intros H. destruct blank_case as (P1 & P2 & P3). pose proof (script_in_order talkers blank empty_dir) as S. cbv zeta in S.
  assert (HN : none_aborts (fst (serial talkers (fst (xargs (in_order blank))) empty_dir))) by (intros p Hp; vm_compute in Hp; intuition discriminate).
  pose proof (H _ _ _ _ _ _ P1 ltac:(rewrite P2; discriminate) S HN) as X. rewrite (P3 _ _ _ _ _ S HN), P2 in X. apply Permutation_length in X. discriminate.
Qed.

Lemma quotes_stop : ~ forall T found d sts d' ok p,
  listing found -> script T found d sts d' ok -> none_aborts sts -> In p (programs found) -> plain_path p ->
  In p (map fst sts).
Proof.
  intros H. destruct quoted_case as (P1 & P2 & P3). apply (H _ _ _ _ _ _ (chars "/usr/lib/plain.so") P1 P3); [intros p []|rewrite P2; cbn; auto|].
  split; [split; [discriminate|split; [repeat constructor|reflexivity]]|vm_compute; intuition discriminate].
Qed.

Lemma twins_clash : ~ forall T found d sts d' ok p st,
  listing found -> (forall p, In p (map fst found) -> plain_path p) -> programs found <> [] ->
  script T found d sts d' ok -> In (p, st) sts -> left_by T p d d' st.
Proof.
  intros H. destruct twins_case as (P1 & P2 & P3 & P4 & P5 & _). apply P5. eapply H; [exact P1|exact P2|rewrite P3; discriminate|exact P4|left; reflexivity].
Qed.

Lemma colons_lost : ~ forall T found d sts d' p,
  writes_object T -> listing found -> NoDup (map basename (programs found)) ->
  script T found d sts d' true -> In p (programs found) -> complete T p d'.
Proof.
  intros H. destruct colon_case as (P1 & P2 & P3 & P4 & P5). apply P5. eapply H; [apply writes_talkers|exact P1|exact P4|exact P3|exact P2].
Qed.

Lemma twins_lost : ~ forall T found d sts d' p,
  writes_object T -> listing found -> (forall p, In p (map fst found) -> plain_path p) ->
  script T found d sts d' true -> In p (programs found) -> complete T p d'.
Proof.
  intros H. destruct twins_case as (P1 & P2 & P3 & P4 & _ & P5). apply P5. eapply H; [apply writes_talkers|exact P1|exact P2|exact P4|rewrite P3; left; reflexivity].
Qed.

Lemma results_stale : ~ forall T found d sts d' ok p st ext v,
  listing found -> (forall p, In p (map fst found) -> plain_path p) -> NoDup (map basename (programs found)) ->
  script T found d sts d' ok -> In (p, st) sts -> In ext extensions -> d' (name (basename p) ext) = Some v ->
  from_run T p ext v.
Proof.
  intros H. destruct stale_case as (P1 & P2 & P3 & P4 & P5 & P6). apply P6.
  eapply H; [exact P1|exact P2|rewrite P3; repeat constructor; intros []|exact P4|left; reflexivity|cbn; auto|exact P5].
Qed.
