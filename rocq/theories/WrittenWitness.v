(** Programs that WrittenSpec.v is about. *)
From Verif Require Export WrittenLook CodeWitness.
From Verif Require Import BaseFacts ConvWitness CfiWitness V1Witness ProgramWitness RunWitness RunFacts CfiFacts ConvRepairedWitness ProgramFacts CfiTotal StdConv.
Open Scope Z_scope.
Open Scope list_scope.

(** ** Checks by computing *)

Definition tiledb (f : routine) : bool :=
  forallb (fun n => existsb (fun i => (it_at i <=? Z.of_nat n) && (Z.of_nat n <? it_at i + it_len i)) (rt_items f)) (seq 0 (Z.to_nat (rt_len f))).
Lemma tiledb_ok f : tiledb f = true -> tiled f.
Proof.
  unfold tiledb. rewrite forallb_forall. intros H b Hb. specialize (H (Z.to_nat b) ltac:(apply in_seq; lia)).
  apply existsb_exists in H. destruct H as (i & Hi & H). apply andb_prop in H. destruct H as [H1 H2]. apply Z.leb_le in H1. apply Z.ltb_lt in H2.
  exists i. split; [exact Hi|lia].
Qed.
Definition uprightb (f : routine) : bool :=
  forallb (fun i => let ok := fun o => match o with Some d => 0 <=? d | None => true end in
    ok (vw_sp (rt_view f (it_at i))) && ok (vw_fp (rt_view f (it_at i)))) (rt_items f).
Lemma uprightb_ok f : uprightb f = true -> upright f.
Proof.
  unfold uprightb. rewrite forallb_forall. intros H i d Hi Hd. specialize (H i Hi). cbn beta zeta in H. apply andb_prop in H. destruct H as [H1 H2].
  destruct Hd as [E|E]; rewrite E in *; [apply Z.leb_le, H1|apply Z.leb_le, H2].
Qed.

(** No row of the table has a rule for the stack pointer. *)
Lemma no_sp_rule c d : 0 <= df_len d -> follows_dwarf c d -> Forall (fun r => dr_register r 7 = RUndefined) (dw_rows_of d) ->
  forall x st, in_range (df_start d) (df_len d) x -> cfi_at c d x = Some st -> dr_register (as_row st) 7 = RUndefined.
Proof.
  intros Hl F HR x st Hx S. unfold in_range in Hx. destruct (follows_covers c d x Hl F ltac:(lia)) as (r & Hr).
  destruct (follows_at c d x r Hl F ltac:(lia) Hr) as (t & T1 & _ & T3). assert (t = st) by congruence. subst t.
  unfold as_row, dr_register in *. cbn [dr_regs]. rewrite <- T3. rewrite Forall_forall in HR. apply HR, Hr.
Qed.

(** ** The program of C158 *)

Lemma cd_of_size : of_size cd_fs.
Proof.
  split; [|split; [|split; [exact cd_apart|vm_compute; split; discriminate]]].
  - intros f Hf. split; [exact (cd_checked f Hf)|]. destruct Hf as [<-|[<-|[]]]; (split; [apply tiledb_ok; vm_compute; reflexivity|]);
      (split; [apply uprightb_ok; vm_compute; reflexivity|]); vm_compute; split; discriminate.
  - constructor; [|constructor; [intros []|constructor]]. intros [E|[]]. apply (f_equal rt_start) in E. discriminate E.
Qed.
Lemma cd_written : code_written cd_fs cd_eh (fun _ => usual_cie).
Proof.
  split; [reflexivity|]. split; [intros g; cbn; intuition discriminate|]. split; [|exact cd_described].
  change (functions (entries_of cd_eh)) with [cd_saver_fde; cd_roomy_fde].
  assert (L1 : last_at cd_eh cd_saver_fde) by (apply cd_last; auto). assert (L2 : last_at cd_eh cd_roomy_fde) by (apply cd_last; auto).
  constructor; [|constructor; [|constructor]].
  - split; [reflexivity|]. split; [reflexivity|]. split; [vm_compute; reflexivity|]. split; [exact (cd_followed _ L1)|].
    apply no_sp_rule; [exact (last_len _ _ cd_typed L1)|exact (cd_followed _ L1)|].
    change (dw_rows_of cd_saver_fde) with cd_saver_rows. unfold cd_saver_rows. repeat (apply Forall_cons; [reflexivity|]). apply Forall_nil.
  - split; [reflexivity|]. split; [reflexivity|]. split; [vm_compute; reflexivity|]. split; [exact (cd_followed _ L2)|].
    apply no_sp_rule; [exact (last_len _ _ cd_typed L2)|exact (cd_followed _ L2)|].
    change (dw_rows_of cd_roomy_fde) with cd_roomy_rows. unfold cd_roomy_rows. repeat (apply Forall_cons; [reflexivity|]). apply Forall_nil.
Qed.
Lemma cd_no_empty : no_empty_rows cd_eh (fun _ => usual_cie).
Proof.
  intros d Hd. apply cd_last in Hd. destruct Hd as [-> | ->]; [exists cd_saver_rows|exists cd_roomy_rows]; (split; [vm_compute; reflexivity|]);
    intros r Hr; vm_compute in Hr; repeat (destruct Hr as [<-|Hr]; [vm_compute; reflexivity|]); destruct Hr.
Qed.

(** ** A function that saves [rbp] at the end of a big frame *)

(** [rbp] lies 128 bytes below the CFA and so does [rsp]: the offset to the one takes a byte and
    the offset to the other two. *)
Definition cf_deep : routine := Routine 0x2000 20
  [ Item 0 4 (SubSp 112); Item 4 1 (Push 6); Item 5 4 (Any false true [9]); Item 9 5 CallFn; Item 14 1 (Pop 6); Item 15 4 (AddSp 112); Item 19 1 RetFn ]
  (views [ (0, View (Some 8) None None true); (4, View (Some 120) None None true); (5, View (Some 128) None (Some (-128)) true);
    (9, View (Some 128) None (Some (-128)) false); (14, View (Some 128) None (Some (-128)) false); (15, View (Some 120) None None true);
    (19, View (Some 8) None None true) ]).
Definition cf_fs : list routine := [cf_deep].
Definition cf_insns : list insn :=
  [ IAdvanceLoc 4; IDefCfaOffset 120; IAdvanceLoc 1; IDefCfaOffset 128; IOffset 6 16; IAdvanceLoc 10; IDefCfaOffset 120; IRestore 6; IAdvanceLoc 4; IDefCfaOffset 8 ].
Definition cf_rows : list dw_row := Eval vm_compute in table_of 0x2000 20 cf_insns.
Definition cf_fde : dw_fde := DwFde 0x2000 20 (Insns cf_insns None) (rows_ok cf_rows).
Definition cf_eh : eh_frame := of_functions [cf_fde].

Lemma cf_typed : eh_typed cf_eh.
Proof. unfold cf_eh, cf_fde, cf_rows. typed_eh. Qed.
Lemma cf_last d : last_at cf_eh d <-> d = cf_fde.
Proof.
  transitivity (In d (functions (entries_of cf_eh))).
  - apply distinct_last. repeat constructor; cbn; intuition discriminate.
  - change (functions (entries_of cf_eh)) with [cf_fde]. cbn. intuition congruence.
Qed.
Lemma cf_follows : follows_dwarf usual_cie cf_fde.
Proof. exists cf_rows, cf_rows. split; [reflexivity|]. split; [vm_compute; reflexivity|apply same_rows_refl]. Qed.
Lemma cf_of_size : of_size cf_fs.
Proof.
  split; [|split; [|split; [|vm_compute; split; discriminate]]].
  - intros f [<-|[]]. split; [apply checkedb_ok; vm_compute; reflexivity|]. split; [apply tiledb_ok; vm_compute; reflexivity|].
    split; [apply uprightb_ok; vm_compute; reflexivity|]. vm_compute; split; discriminate.
  - constructor; [intros []|constructor].
  - intros f g a [<-|[]] [<-|[]] _ _. reflexivity.
Qed.
Lemma cf_written : code_written cf_fs cf_eh (fun _ => usual_cie).
Proof.
  split; [reflexivity|]. split; [intros g; cbn; intuition discriminate|]. split.
  - change (functions (entries_of cf_eh)) with [cf_fde]. constructor; [|constructor].
    split; [reflexivity|]. split; [reflexivity|]. split; [vm_compute; reflexivity|]. split; [exact cf_follows|].
    apply no_sp_rule; [cbn; lia|exact cf_follows|].
    change (dw_rows_of cf_fde) with cf_rows. unfold cf_rows. repeat (apply Forall_cons; [reflexivity|]). apply Forall_nil.
  - intros f i b [<-|[]] Hi Hb.
    destruct (describedb_ok usual_cie cf_fde cf_deep ltac:(vm_compute; reflexivity) i b Hi Hb) as (st & S1 & S2 & S3).
    exists cf_fde, st. split; [apply cf_last; reflexivity|]. auto.
Qed.
Lemma cf_no_empty : no_empty_rows cf_eh (fun _ => usual_cie).
Proof.
  intros d Hd. apply cf_last in Hd. subst d. exists cf_rows. split; [vm_compute; reflexivity|].
  intros r Hr; vm_compute in Hr; repeat (destruct Hr as [<-|Hr]; [vm_compute; reflexivity|]); destruct Hr.
Qed.

Definition cf_mem0 : Z -> Z := put 0x7000 0x400000 (fun _ => 0).
Definition cf_mem1 : Z -> Z := put 0x6f88 0x1234 cf_mem0.
Definition cf_frame0 : sf_frame := SfFrame false 0x400000 0x7008 (Some 0x1234).
Definition cf_begin : list sf_frame * thread := ([cf_frame0], Thread 0x102000 0x7000 0x1234 cf_mem0).
Definition cf_now : thread := Thread 0x102009 0x6f88 0x55 cf_mem1.
Lemma cf_begins : begins 0x100000 cf_fs 0x400000 cf_begin.
Proof. exists cf_deep, 0x7000, 0x1234, cf_mem0. split; [left; reflexivity|]. repeat split; lia. Qed.
Lemma cf_reaches : goes 0x100000 cf_fs cf_begin ([cf_frame0], cf_now).
Proof.
  eapply goes_more.
  2: { apply (do_any 0x100000 cf_fs [cf_frame0] cf_deep (Item 5 4 (Any false true [9])) false true [9] 9 0x6f88 0x6f88 0x1234 0x55 cf_mem1 cf_mem1);
       [member|member|reflexivity|member|reflexivity|discriminate|lia|intros a _; split; [reflexivity|discriminate]]. }
  eapply goes_more.
  2: { apply (do_push_reg 0x100000 cf_fs [cf_frame0] cf_deep (Item 4 1 (Push 6)) 6 0x6f90 0x1234 cf_mem0 cf_mem1);
       [member|member|reflexivity|lia|reflexivity|apply put_kept; lia]. }
  eapply goes_more.
  2: { apply (do_sub_sp 0x100000 cf_fs [cf_frame0] cf_deep (Item 0 4 (SubSp 112)) 112 0x7000 0x1234 cf_mem0); [member|member|reflexivity|lia]. }
  apply goes_none.
Qed.
Definition cf_world : world :=
  World (fun a => Some (cf_mem1 a)) (fun _ _ _ => None) (fun v => v) (fun first p => if first then p - 0x100000 else p - 0x100000 - 1) true.
Lemma cf_sees : sees 0x100000 cf_world cf_now.
Proof. split; [reflexivity|]. split; [reflexivity|]. intros p. right. reflexivity. Qed.
Lemma cf_outside d : last_at cf_eh d ->
  ~ in_range (df_start d) (df_len d) (0x400000 - 0x100000) /\ ~ in_range (df_start d) (df_len d) (0x400000 - 0x100000 - 1).
Proof. intros Hd. apply cf_last in Hd. subst d. unfold in_range. cbn. lia. Qed.
Definition cf_sfb : sfb := Eval vm_compute in got (dwarf2sframe rel64 amd cf_eh).
Definition cf_section : bytes := section LE cf_sfb.

Theorem written_case :
  (eh_typed cd_eh /\ code_written cd_fs cd_eh (fun _ => usual_cie) /\ of_size cd_fs /\ no_empty_rows cd_eh (fun _ => usual_cie) /\
   goes 0x100000 cd_fs cd_begin (cd_frames, cd_now) /\
   walk (sf_step cd_world (std_tells LE cd_section)) (frame_of_thread cd_now) cd_frames) /\
  (eh_typed cf_eh /\ code_written cf_fs cf_eh (fun _ => usual_cie) /\ of_size cf_fs /\ no_empty_rows cf_eh (fun _ => usual_cie) /\
   begins 0x100000 cf_fs 0x400000 cf_begin /\ goes 0x100000 cf_fs cf_begin ([cf_frame0], cf_now) /\ sees 0x100000 cf_world cf_now /\
   (forall d, last_at cf_eh d ->
      ~ in_range (df_start d) (df_len d) (0x400000 - 0x100000) /\ ~ in_range (df_start d) (df_len d) (0x400000 - 0x100000 - 1)) /\
   dwarf2sframe rel64 amd cf_eh = Ok cf_sfb /\ build rel64 LE cf_sfb = Ok cf_section /\
   std_tells LE cf_section 0x2009 (Unwind Sp false (Some 128) (Some (-8)) (Some (-128))) /\
   walk (sf_step cf_world (std_tells LE cf_section)) (frame_of_thread cf_now) [cf_frame0]).
Proof.
  pose proof cd_typed. pose proof cd_written. pose proof cd_of_size. pose proof cd_no_empty. pose proof cd_reaches.
  pose proof cf_typed as T. pose proof cf_written as W. pose proof cf_of_size as S. pose proof cf_no_empty. pose proof cf_begins as B.
  pose proof cf_reaches as R. pose proof cf_sees as E. pose proof cf_outside as O.
  assert (Y1 : dwarf2sframe rel64 amd cf_eh = Ok cf_sfb) by (vm_compute; reflexivity).
  assert (Y2 : build rel64 LE cf_sfb = Ok cf_section) by (vm_compute; reflexivity).
  split; [do 5 (split; [assumption|]); apply cd_case|]. do 10 (split; [assumption|]).
  destruct (written_walks cf_fs cf_eh (fun _ => usual_cie) T W S rel64 rel64 amd LE eq_refl) as (s & bs & Hc & Hb & Hw & _).
  assert (s = cf_sfb) as -> by congruence. assert (bs = cf_section) as -> by congruence.
  assert (K : walk (sf_step cf_world (std_tells LE cf_section)) (frame_of_thread cf_now) [cf_frame0])
    by (apply (Hw _ _ _ _ _ _ B R E O); exists []; reflexivity).
  split; [|exact K].
  destruct (std_program_preserved rel64 rel64 amd cf_eh cf_sfb LE cf_section T Y1 Y2) as (P1 & _).
  { intros d Hd. apply cf_last in Hd. subst d. split; [exists usual_cie; exact cf_follows|]. intros r Hr.
    apply (follows_clash _ _ usual_cie cf_fde r ltac:(cbn; lia) cf_follows); [|exact Hr].
    apply (written_unconfused cf_fs cf_eh (fun _ => usual_cie) T W S); [vm_compute; auto|apply cf_last; reflexivity|exact cf_follows]. }
  destruct (P1 usual_cie cf_fde 0x2009 (proj2 (cf_last cf_fde) eq_refl) cf_follows ltac:(unfold in_range; cbn; lia)) as (st & u' & U1 & U2 & [U3 _] & U4).
  vm_compute in U1. injection U1 as <-.
  rewrite (U3 Sp 128 (-8) (Some (-128))) in U2; [exact U2|]. unfold representable, in_i32, i32_min, i32_max. cbn. repeat split; lia.
Qed.

(** With the repairs *)
Definition column_16 : dw_fde -> Z := fun _ => 16.
Definition cf_whole : sfb := Eval vm_compute in
  match dwarf2sframe_repaired rel64 amd column_16 cf_eh with Ok s => s | _ => cf_sfb end.
Definition cf_whole_bytes : bytes := Eval vm_compute in match build_repaired rel64 LE cf_whole with Ok b => b | _ => [] end.
Theorem written_repaired_case :
  (forall d, column_16 d = 16) /\
  dwarf2sframe_repaired rel64 amd column_16 cf_eh = Ok cf_whole /\ build_repaired rel64 LE cf_whole = Ok cf_whole_bytes /\
  walk (sf_step cf_world (std_tells LE cf_whole_bytes)) (frame_of_thread cf_now) [cf_frame0].
Proof.
  assert (H1 : dwarf2sframe_repaired rel64 amd column_16 cf_eh = Ok cf_whole) by (vm_compute; reflexivity).
  assert (H2 : build_repaired rel64 LE cf_whole = Ok cf_whole_bytes) by (vm_compute; reflexivity).
  split; [reflexivity|]. split; [exact H1|]. split; [exact H2|].
  destruct (written_repaired cf_fs cf_eh (fun _ => usual_cie) cf_typed cf_written cf_of_size rel64 rel64 amd column_16 LE eq_refl (fun _ => eq_refl)) as (s & bs & Hc & Hb & Hw & _).
  assert (s = cf_whole) as -> by congruence. assert (bs = cf_whole_bytes) as -> by congruence.
  apply (Hw _ _ _ _ _ _ cf_begins cf_reaches cf_sees cf_outside). exists []. reflexivity.
Qed.
