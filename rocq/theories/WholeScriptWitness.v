(** A directory with the programs that the repairs are needed for, for C164. *)
From Coq Require Import String Ascii ZArith List Permutation Lia Bool.
From Verif Require Export WholeScript WalkScriptWitness DumpedRepairedWitness.
From Verif Require Import BaseFacts CfiFacts WalkFacts RelateFacts RunFacts ConvWitness CfiWitness V1Witness ProgramWitness RunWitness ConvRepairedWitness ArmRunWitness CodeWitness ToolsWitness.
Import ListNotations.
Open Scope Z_scope.
Open Scope list_scope.

Definition cf_file : elf_file := file_with ElfX86_64 RtLittle (eh_entries cf_eh).
Definition aw_file : elf_file := file_with ElfAarch64 RtLittle (eh_entries aw_eh).
Definition whole_column (file : elf_file) (_ : dw_fde) : Z := match elf_architecture file with ElfX86_64 => 16 | _ => 30 end.
Definition whole_input (p : text) : option elf_file :=
  if text_eqb p path_a then Some cf_file else if text_eqb p path_b then Some aw_file else None.
Definition whole_parse (t : text) : option elf_file := Some (object_file (if text_eqb t (chars "amd"%string) then cf_whole_out else aw_out)).
Definition whole_tools : tools := {|
  t_convert := fun p => match whole_input p with
    | Some file => (0, chars "log"%string, Some (lib_emit (OutFile (elf_architecture file) RtLittle []))) | None => (1, chars "error"%string, None) end;
  t_dwarfdump := fun p => (0, ScriptWitness.said "dwarf "%string p);
  t_sframedump := fun o => match o with
    | Some o => match sframedump_main dev32 LE (whole_parse o) with
      | Ok l => (0, chars (stdout_text some_abi l)) | _ => (1, []) end
    | None => (1, []) end;
  t_objdump := fun p => (0, ScriptWitness.said "asm "%string p) |}.
Definition whole_dir : dir := snd (serial_as escaped whole_tools fine_paths (fun _ => None)).

Lemma whole_cf out : whole_output rel64 whole_column cf_file out -> out = cf_whole_out.
Proof.
  intros (a & parse & s & bs & H1 & H2 & H3 & H4 & ->). injection H1 as <-. injection H2 as <-.
  assert (E : dwarf2sframe_repaired rel64 (cli_options script_flags Amd64 RtLittle) (whole_column cf_file) (file_eh rel64 cf_file (fun _ => eh_entries cf_eh)) = Ok cf_whole)
    by (vm_compute; reflexivity).
  assert (B : build_repaired rel64 LE cf_whole = Ok cf_whole_bytes) by (vm_compute; reflexivity).
  change (endian_of (elf_endian cf_file)) with LE in H4.
  pose proof (eq_trans (eq_sym E) H3) as X. injection X as X. subst s. assert (bs = cf_whole_bytes) as -> by congruence. reflexivity.
Qed.
Lemma whole_aw out : whole_output rel64 whole_column aw_file out -> out = aw_out.
Proof.
  intros (a & parse & s & bs & H1 & H2 & H3 & H4 & ->). injection H1 as <-. injection H2 as <-.
  assert (E : dwarf2sframe_repaired rel64 (cli_options script_flags Aarch64 RtLittle) (whole_column aw_file) (file_eh rel64 aw_file (fun _ => eh_entries aw_eh)) = Ok aw_sfb)
    by (vm_compute; reflexivity).
  assert (B : build_repaired rel64 LE aw_sfb = Ok aw_bytes) by (vm_compute; reflexivity).
  change (endian_of (elf_endian aw_file)) with LE in H4.
  pose proof (eq_trans (eq_sym E) H3) as X. injection X as X. subst s. assert (bs = aw_bytes) as -> by congruence. reflexivity.
Qed.

Lemma whole_fitted : fitted (whole_output rel64 whole_column) whole_tools dev32 LE some_abi whole_input lib_emit whole_parse.
Proof.
  split.
  - intros p file out Hi H. exists (chars "log"%string). unfold whole_tools. cbn [t_convert]. rewrite Hi.
    destruct H as (a & parse & s & bs & _ & _ & _ & _ & ->). reflexivity.
  - intros p file out Hi H. unfold whole_input in Hi. destruct (text_eqb p path_a); [|destruct (text_eqb p path_b); [|discriminate]]; injection Hi as <-.
    + apply whole_cf in H. subst out. exists (object_file cf_whole_out). split; [reflexivity|apply object_holds].
    + apply whole_aw in H. subst out. exists (object_file aw_out). split; [reflexivity|apply object_holds].
  - intros o l H. unfold whole_tools. cbn [t_sframedump]. rewrite H. reflexivity.
Qed.

Theorem whole_script_case :
  fitted (whole_output rel64 whole_column) whole_tools dev32 LE some_abi whole_input lib_emit whole_parse /\
  whole_output rel64 whole_column cf_file cf_whole_out /\ whole_output rel64 whole_column aw_file aw_out /\
  listing_of_paths fine /\ programs fine = [path_a; path_b] /\
  (forall d, script_asked sf_all whole_tools fine d [(path_a, 0); (path_b, 0)] whole_dir true) /\
  whole_input path_a = Some cf_file /\ whole_input path_b = Some aw_file /\
  (forall out, whole_output rel64 whole_column cf_file out -> rust_slice dev32 (out_sframe out)) /\
  (forall out, whole_output rel64 whole_column aw_file out -> rust_slice dev32 (out_sframe out)) /\
  left_dump escaped whole_dir path_a (fun tells => walk (sf_step cf_world tells) (frame_of_thread cf_now) [cf_frame0]) /\
  left_dump escaped whole_dir path_b (fun tells => walk (lk_step aw_world tells) (frame_of_athread aw_now) aw_frames).
Proof.
  pose proof whole_fitted as M. destruct fine_case as (_ & _ & Ep & _).
  assert (LP : listing_of_paths fine) by paths.
  assert (O1 : whole_output rel64 whole_column cf_file cf_whole_out).
  { exists Amd64, (fun _ => eh_entries cf_eh), cf_whole, cf_whole_bytes. split; [reflexivity|]. split; [reflexivity|]. split; [vm_compute; reflexivity|]. split; [vm_compute; reflexivity|reflexivity]. }
  assert (O2 : whole_output rel64 whole_column aw_file aw_out).
  { exists Aarch64, (fun _ => eh_entries aw_eh), aw_sfb, aw_bytes. split; [reflexivity|]. split; [reflexivity|]. split; [vm_compute; reflexivity|]. split; [vm_compute; reflexivity|reflexivity]. }
  assert (S' : forall d, script_asked sf_all whole_tools fine d [(path_a, 0); (path_b, 0)] whole_dir true) by (intros d; exact (script_asked_in_order sf_all whole_tools fine d)).
  assert (R1 : forall out, whole_output rel64 whole_column cf_file out -> rust_slice dev32 (out_sframe out)) by (intros out H; apply whole_cf in H; subst out; vm_compute; reflexivity).
  assert (R2 : forall out, whole_output rel64 whole_column aw_file out -> rust_slice dev32 (out_sframe out)) by (intros out H; apply whole_aw in H; subst out; vm_compute; reflexivity).
  assert (Hm : wf_mode dev32) by (vm_compute; intuition discriminate).
  assert (T1 : file_typed cf_file) by (intros parse tbl H; injection H as <-; exact cf_typed).
  assert (T2 : file_typed aw_file) by (intros parse tbl H; injection H as <-; exact aw_typed).
  assert (Ia : In path_a (programs fine)) by (rewrite Ep; left; reflexivity).
  assert (Ib : In path_b (programs fine)) by (rewrite Ep; right; left; reflexivity).
  pose proof (whole_script sf_all whole_tools rel64 dev32 whole_column some_abi whole_input lib_emit whole_parse fine empty_dir _ whole_dir true path_a cf_file _ cf_fs (fun _ => usual_cie)
    eq_refl eq_refl eq_refl eq_refl eq_refl M LP (S' empty_dir) Ia eq_refl Hm some_abi_line (fun _ => eq_refl) eq_refl T1 eq_refl eq_refl cf_written cf_of_size R1) as W1.
  pose proof (whole_script_arm sf_all whole_tools rel64 dev32 whole_column some_abi whole_input lib_emit whole_parse fine empty_dir _ whole_dir true path_b aw_file _ aw_fs (fun _ => ausual_cie)
    eq_refl eq_refl eq_refl eq_refl eq_refl M LP (S' empty_dir) Ib eq_refl Hm some_abi_line (fun _ => eq_refl) eq_refl T2 eq_refl eq_refl aw_written aw_of_size R2) as W2.
  do 4 (split; [assumption|]). split; [exact Ep|]. split; [exact S'|]. split; [reflexivity|]. split; [reflexivity|]. do 2 (split; [assumption|]). split.
  - destruct W1 as (s & h & rest & D1 & D2 & W). exists s, h, rest. split; [exact D1|]. split; [exact D2|].
    apply (W _ _ _ _ _ _ cf_begins cf_reaches cf_sees cf_outside). exists []. reflexivity.
  - destruct W2 as (s & h & rest & D1 & D2 & W). exists s, h, rest. split; [exact D1|]. split; [exact D2|].
    destruct awritten_repaired_case as (_ & _ & _ & _ & G & L & B & R & E & O & _).
    refine (proj2 (W _ _ _ _ _ _ _ _ G L _ B R E O _ aw_frames) _); [unfold canonical; lia|intros f i _ _ _; exact I|].
    exists []. symmetry. apply app_nil_r.
Qed.
