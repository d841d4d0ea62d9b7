(** A directory with the programs of C163, for C164. *)
From Coq Require Import String Ascii ZArith List Permutation Lia Bool.
From Verif Require Export WalkScript DumpedWitness ScriptRepairedWitness.
From Verif Require Import BaseFacts CfiFacts WalkFacts RelateFacts RunFacts ConvWitness CfiWitness V1Witness ProgramWitness RunWitness ConvRepairedWitness ArmRunWitness CodeWitness ToolsWitness.
Import ListNotations.
Open Scope Z_scope.
Open Scope list_scope.

Definition path_b : text := chars "/usr/lib/b/libb.so"%string.
Definition lib_input (p : text) : option elf_file :=
  if text_eqb p path_a then Some cd_file else if text_eqb p path_b then Some ap_file else None.
Definition lib_emit (o : out_file) : text := match out_arch o with ElfX86_64 => chars "amd"%string | _ => chars "arm"%string end.
Definition lib_parse (t : text) : option elf_file := Some (object_file (if text_eqb t (chars "amd"%string) then cd_out else ap_out)).
Definition lib_tools : tools := {|
  t_convert := fun p => match dwarf2sframe2_main rel64 script_flags (lib_input p) with
    | Ok out => (0, chars "log"%string, Some (lib_emit out)) | _ => (1, chars "error"%string, None) end;
  t_dwarfdump := fun p => (0, ScriptWitness.said "dwarf "%string p);
  t_sframedump := fun o => match o with
    | Some o => match sframedump_main dev32 LE (lib_parse o) with
      | Ok l => (0, chars (stdout_text some_abi l)) | _ => (1, []) end
    | None => (1, []) end;
  t_objdump := fun p => (0, ScriptWitness.said "asm "%string p) |}.
Definition lib_dir : dir := snd (serial lib_tools fine_paths empty_dir).
Definition lib_dir_all : dir := snd (serial_as escaped lib_tools fine_paths (fun _ => None)).

Lemma lib_modelled : modelled lib_tools rel64 dev32 LE some_abi lib_input lib_emit lib_parse.
Proof.
  assert (E1 : dwarf2sframe2_main rel64 script_flags (Some cd_file) = Ok cd_out) by (vm_compute; reflexivity).
  assert (E2 : dwarf2sframe2_main rel64 script_flags (Some ap_file) = Ok ap_out) by (vm_compute; reflexivity).
  split.
  - intros p out H. exists (chars "log"%string). unfold lib_tools. cbn [t_convert]. rewrite H. reflexivity.
  - intros p out H. unfold lib_input in H. destruct (text_eqb p path_a); [|destruct (text_eqb p path_b); [|discriminate]].
    + rewrite E1 in H. injection H as <-. exists (object_file cd_out). split; [reflexivity|apply object_holds].
    + rewrite E2 in H. injection H as <-. exists (object_file ap_out). split; [reflexivity|apply object_holds].
  - intros o l H. unfold lib_tools. cbn [t_sframedump]. rewrite H. reflexivity.
Qed.

Theorem script_walk_case :
  modelled lib_tools rel64 dev32 LE some_abi lib_input lib_emit lib_parse /\
  listing fine /\ (forall p, In p (map fst fine) -> plain_path p) /\ NoDup (map basename (programs fine)) /\
  listing_of_paths fine /\ programs fine = [path_a; path_b] /\
  script lib_tools fine empty_dir [(path_a, 0); (path_b, 0)] lib_dir true /\ none_aborts [(path_a, 0); (path_b, 0)] /\
  (forall d, script_asked sf_all lib_tools fine d [(path_a, 0); (path_b, 0)] lib_dir_all true) /\
  lib_input path_a = Some cd_file /\ lib_input path_b = Some ap_file /\
  (forall out, dwarf2sframe2_main rel64 script_flags (Some cd_file) = Ok out -> rust_slice dev32 (out_sframe out)) /\
  (forall out, dwarf2sframe2_main rel64 script_flags (Some ap_file) = Ok out -> rust_slice dev32 (out_sframe out)) /\
  (exists s, lib_dir (chars "liba.so.sframe"%string) = Some (chars s) /\ s = stdout_text some_abi cd_dump) /\
  left_dump basename lib_dir path_a (fun tells => walk (sf_step cd_world tells) (frame_of_thread cd_now) cd_frames) /\
  left_dump basename lib_dir path_b (fun tells => walk (lk_step ap_world tells) (frame_of_athread ap_now) ap_frames) /\
  left_dump escaped lib_dir_all path_a (fun tells => walk (sf_step cd_world tells) (frame_of_thread cd_now) cd_frames).
Proof.
  pose proof lib_modelled as M. destruct fine_case as (L & P & Ep & B & _).
  assert (LP : listing_of_paths fine) by paths.
  assert (S : script lib_tools fine empty_dir [(path_a, 0); (path_b, 0)] lib_dir true) by exact (script_in_order lib_tools fine empty_dir).
  assert (S' : forall d, script_asked sf_all lib_tools fine d [(path_a, 0); (path_b, 0)] lib_dir_all true) by (intros d; exact (script_asked_in_order sf_all lib_tools fine d)).
  assert (N : none_aborts [(path_a, 0); (path_b, 0)]) by (intros p [H|[H|[]]]; discriminate H).
  assert (R1 : forall out, dwarf2sframe2_main rel64 script_flags (Some cd_file) = Ok out -> rust_slice dev32 (out_sframe out)).
  { assert (E1 : dwarf2sframe2_main rel64 script_flags (Some cd_file) = Ok cd_out) by (vm_compute; reflexivity).
    intros out H. rewrite E1 in H. injection H as <-. vm_compute. reflexivity. }
  assert (R2 : forall out, dwarf2sframe2_main rel64 script_flags (Some ap_file) = Ok out -> rust_slice dev32 (out_sframe out)).
  { assert (E2 : dwarf2sframe2_main rel64 script_flags (Some ap_file) = Ok ap_out) by (vm_compute; reflexivity).
    intros out H. rewrite E2 in H. injection H as <-. vm_compute. reflexivity. }
  assert (A1 : has_section (elf_sections cd_file) ".eh_frame"%string 0x2000) by (apply section_found; reflexivity).
  assert (A2 : has_section (elf_sections ap_file) ".eh_frame"%string 0x2000) by (apply section_found; reflexivity).
  assert (Hm : wf_mode dev32) by (vm_compute; intuition discriminate).
  destruct dumped_case as (T1 & _). destruct dumped_arm_case as (T2 & _).
  assert (Ia : In path_a (programs fine)) by (rewrite Ep; left; reflexivity).
  assert (Ib : In path_b (programs fine)) by (rewrite Ep; right; left; reflexivity).
  pose proof (script_walks lib_tools rel64 dev32 some_abi lib_input lib_emit lib_parse fine empty_dir _ lib_dir true path_a cd_file _ _ cd_fs (fun _ => usual_cie)
    M L P B S N Ia eq_refl Hm some_abi_line eq_refl T1 eq_refl eq_refl A1 cd_written cd_of_size R1) as W1.
  pose proof (script_arm_walks lib_tools rel64 dev32 some_abi lib_input lib_emit lib_parse fine empty_dir _ lib_dir true path_b ap_file _ _ [ac_plain] (fun _ => ausual_cie)
    M L P B S N Ib eq_refl Hm some_abi_line eq_refl T2 eq_refl eq_refl A2 ap_written ap_of_size ap_upright ac_plain_unsigned R2) as W2.
  pose proof (script_walks_asked sf_all lib_tools rel64 dev32 some_abi lib_input lib_emit lib_parse fine empty_dir _ lib_dir_all true path_a cd_file _ _ cd_fs (fun _ => usual_cie)
    eq_refl eq_refl eq_refl eq_refl eq_refl M LP (S' empty_dir) Ia eq_refl Hm some_abi_line eq_refl T1 eq_refl eq_refl A1 cd_written cd_of_size R1) as W3.
  assert (X : forall tells, code_always_walked cd_eh cd_fs tells -> walk (sf_step cd_world tells) (frame_of_thread cd_now) cd_frames).
  { intros tells W. refine (proj2 (W _ _ _ _ _ _ cd_begins cd_reaches cd_sees cd_outside cd_frames) _). exists []. symmetry. apply app_nil_r. }
  assert (Y : forall tells, acode_walked ac_plain_eh [ac_plain] on_stack tells -> walk (lk_step ap_world tells) (frame_of_athread ap_now) ap_frames).
  { intros tells W. destruct ap_case as (_ & _ & _ & _ & _ & _ & _ & _ & _ & _ & _ & G & Lw & Bg & R & E & O & K & _).
    refine (proj2 (W _ _ _ _ _ _ _ _ G Lw _ Bg R E O K ap_frames) _); [unfold canonical; lia|]. exists []. symmetry. apply app_nil_r. }
  do 4 (split; [assumption|]). split; [exact LP|]. split; [exact Ep|]. do 3 (split; [assumption|]). split; [reflexivity|]. split; [reflexivity|].
  do 2 (split; [assumption|]). split; [exists (stdout_text some_abi cd_dump); split; [vm_compute; reflexivity|reflexivity]|].
  split; [destruct W1 as (s & h & rest & D1 & D2 & D3); exists s, h, rest; auto|].
  split; [destruct W2 as (s & h & rest & D1 & D2 & D3); exists s, h, rest; auto|].
  destruct W3 as (s & h & rest & D1 & D2 & D3). exists s, h, rest. auto.
Qed.
