(** Programs for C162: the second function of ArmCodeCheck.v by itself, and with one that signs. *)
From Verif Require Export ArmWrittenFacts ArmCodeWitness.
From Verif Require Import BaseFacts CfiFacts WalkFacts RelateFacts RunFacts ConvWitness CfiWitness V1Witness ProgramWitness RunWitness ConvRepairedWitness ArmRunWitness.
Open Scope Z_scope.
Open Scope list_scope.

Definition atiledb (f : aroutine) : bool :=
  forallb (fun b => existsb (fun i => (ai_at i <=? b) && (b <? ai_at i + 4)) (ar_items f)) (map Z.of_nat (seq 0 (Z.to_nat (ar_len f)))).
Lemma atiledb_ok f : atiledb f = true -> atiled f.
Proof.
  unfold atiledb. rewrite forallb_forall. intros H b Hb. specialize (H b). rewrite existsb_exists in H. destruct H as (i & Hi & E).
  - apply in_map_iff. exists (Z.to_nat b). split; [lia|]. apply in_seq. lia.
  - apply andb_true_iff in E. destruct E as [E1 E2]. apply Z.leb_le in E1. apply Z.ltb_lt in E2. exists i. split; [exact Hi|lia].
Qed.
Definition auprightb (f : aroutine) : bool :=
  forallb (fun i => let v := ar_view f (ai_at i) in
    match av_sp v with Some a => 0 <=? a | None => true end && match av_fp v with Some a => 0 <=? a | None => true end &&
    forallb (fun k => k <=? 0) (slots v)) (ar_items f).
Lemma auprightb_ok f : auprightb f = true -> aupright f.
Proof.
  unfold auprightb. rewrite forallb_forall. intros H i Hi. specialize (H i Hi). cbv zeta in H. rewrite !andb_true_iff in H. destruct H as ((H1 & H2) & H3). split.
  - intros a [E|E]; rewrite E in *; apply Z.leb_le; assumption.
  - intros k Hk. rewrite forallb_forall in H3. apply Z.leb_le, H3, Hk.
Qed.

Lemma ap_of_size : aof_size [ac_plain].
Proof.
  split; [|split; [|split; [|vm_compute; split; discriminate]]].
  - intros f [<-|[]]. split; [apply acheckedb_ok; vm_compute; reflexivity|]. split; [apply atiledb_ok; vm_compute; reflexivity|]. vm_compute; split; discriminate.
  - constructor; [intros []|constructor].
  - intros f g a [<-|[]] [<-|[]] _ _. reflexivity.
Qed.
Lemma ap_upright f : In f [ac_plain] -> aupright f.
Proof. intros [<-|[]]. apply auprightb_ok. vm_compute. reflexivity. Qed.
Lemma ap_written : acode_written [ac_plain] ac_plain_eh (fun _ => ausual_cie).
Proof.
  split; [reflexivity|]. split; [intros g; cbn; intuition discriminate|]. split; [|exact ac_plain_described].
  change (functions (entries_of ac_plain_eh)) with [ac_plain_fde]. constructor; [|constructor].
  split; [reflexivity|]. split; [reflexivity|]. split; [vm_compute; reflexivity|exact ac_plain_followed].
Qed.

(** As [ac_signer], with nothing between its instructions. *)
Definition aw_signer : aroutine := ARoutine 0x1000 0x30
  [ AItem 0 (AElse false false false [4; 0x2c]); AItem 4 (AOps [OSign]); AItem 8 (AOps [OMove (-32); OStoreFp 0; OStoreLr 8]);
    AItem 0xc (AOps [OFrame 0]); AItem 0x10 (AElse true false true [0x14]); AItem 0x14 ACall; AItem 0x18 (AElse false false true [0x14; 0x1c]);
    AItem 0x1c (AOps [OUnframe 0]); AItem 0x20 (AOps [OLoadFp 0; OLoadLr 8; OMove 32]); AItem 0x24 (AOps [OAuth]); AItem 0x28 ARet;
    AItem 0x2c AJump ]
  (aviews [ (0, entry_view); (4, entry_view); (8, AView (Some 0) None None true None (Some true));
    (0xc, AView (Some 32) None (Some (-32)) true (Some (-24, true)) (Some true)); (0x10, AView (Some 32) (Some 32) (Some (-32)) false (Some (-24, true)) None);
    (0x14, ac_room); (0x18, ac_room); (0x1c, ac_room); (0x20, AView (Some 32) (Some 32) (Some (-32)) false (Some (-24, true)) None);
    (0x24, AView (Some 0) None None true None (Some true)); (0x28, entry_view); (0x2c, entry_view) ]).
Definition aw_insns : list insn :=
  [ IAdvanceLoc 2; INegateRaState; IAdvanceLoc 1; IDefCfaOffset 32; IOffset 29 4; IOffset 30 3; IAdvanceLoc 1; IDefCfaRegister 29;
    IAdvanceLoc 4; IDefCfa 31 32; IAdvanceLoc 1; IRestore 30; IRestore 29; IDefCfaOffset 0; IAdvanceLoc 1; INegateRaState ].
Definition aw_rows : list dw_row := Eval vm_compute in atable_of 0x1000 0x30 aw_insns.
Definition aw_fde : dw_fde := DwFde 0x1000 0x30 (Insns aw_insns None) (rows_ok aw_rows).
Definition aw_fs : list aroutine := [aw_signer; ac_plain].
Definition aw_eh : eh_frame := of_functions [aw_fde; ac_plain_fde].
Lemma aw_typed : eh_typed aw_eh.
Proof. unfold aw_eh, aw_fde, ac_plain_fde, aw_rows, ac_plain_rows. typed_eh. Qed.
Lemma aw_last d : last_at aw_eh d <-> d = aw_fde \/ d = ac_plain_fde.
Proof.
  transitivity (In d (functions (entries_of aw_eh))).
  - apply distinct_last. repeat constructor; cbn; intuition discriminate.
  - change (functions (entries_of aw_eh)) with [aw_fde; ac_plain_fde]. cbn. intuition congruence.
Qed.
Lemma aw_followed : follows_dwarf ausual_cie aw_fde.
Proof. exists aw_rows, aw_rows. split; [reflexivity|]. split; [vm_compute; reflexivity|apply asame_rows_refl]. Qed.
Lemma aw_written : acode_written aw_fs aw_eh (fun _ => ausual_cie).
Proof.
  split; [reflexivity|]. split; [intros g; cbn; intuition discriminate|]. split.
  - change (functions (entries_of aw_eh)) with [aw_fde; ac_plain_fde]. constructor; [|constructor; [|constructor]].
    + split; [reflexivity|]. split; [reflexivity|]. split; [vm_compute; reflexivity|exact aw_followed].
    + split; [reflexivity|]. split; [reflexivity|]. split; [vm_compute; reflexivity|exact ac_plain_followed].
  - intros f i b [<-|[<-|[]]] Hi Hb.
    + destruct (adescribedb_ok ausual_cie aw_fde aw_signer ltac:(vm_compute; reflexivity) i b Hi Hb) as (st & S1 & S2 & S3).
      exists aw_fde, st. split; [apply aw_last; auto|]. auto.
    + destruct (adescribedb_ok ausual_cie ac_plain_fde ac_plain ltac:(vm_compute; reflexivity) i b Hi Hb) as (st & S1 & S2 & S3).
      exists ac_plain_fde, st. split; [apply aw_last; auto|]. auto.
Qed.
Lemma aw_of_size : aof_size aw_fs.
Proof.
  split; [|split; [|split; [|vm_compute; split; discriminate]]].
  - intros f [<-|[<-|[]]]; (split; [apply acheckedb_ok; vm_compute; reflexivity|]); (split; [apply atiledb_ok; vm_compute; reflexivity|]); vm_compute; split; discriminate.
  - constructor; [|constructor; [intros []|constructor]]. intros [E|[]]. apply (f_equal ar_start) in E. discriminate E.
  - intros f g a Hf Hg. destruct Hf as [<-|[<-|[]]], Hg as [<-|[<-|[]]]; cbn; intros; first [reflexivity|exfalso; lia].
Qed.

(** A run up to the first instruction of the function called. *)
Definition aw_frames : list lk_frame := [ac_frame1; ac_frame0].
Definition aw_now : athread := AThread 0x101100 0x7f00 0x7fe0 0x101018 ac_mem1.
Lemma aw_guard a : aguarded 0x100000 aw_fs (0x100000 + 0x1000 + 0x10) [ac_frame0] a -> 0x7f00 <= a.
Proof.
  intros G. inversion G as [pc c st f o k Hf Ep Ho Ek|pc c st a' G']; subst; [|inversion G'].
  destruct Hf as [<-|[<-|[]]]; cbn in Ep, Ho; [|lia]. assert (o = 0x10) by lia. subst o. cbn in Ek. destruct Ek as [<-|[<-|[]]]; cbn; lia.
Qed.
Lemma aw_reaches : agoes ar_sign ar_strip 0x100000 aw_fs ac_begin (aw_frames, aw_now).
Proof.
  eapply agoes_more.
  2: { apply (ado_call ar_sign ar_strip 0x100000 aw_fs [ac_frame0] aw_signer ac_plain (AItem 0x14 ACall) 0x7f00 0x7fe0 0 ac_mem1); [amember|amember|amember|reflexivity]. }
  eapply agoes_more.
  2: { apply (ado_else ar_sign ar_strip 0x100000 aw_fs [ac_frame0] aw_signer (AItem 0x10 (AElse true false true [0x14])) true false true [0x14] 0x14 0x7fe0 0x7f00 0x7fe0 0x7fe0 0x77000000400000 0 ac_mem1 ac_mem1);
       [amember|amember|reflexivity|amember|discriminate|reflexivity|discriminate|intros _; cbn; lia|]. intros a G. split; [reflexivity|]. intros _. apply aw_guard, G. }
  eapply agoes_more.
  2: { apply (ado_ops ar_sign ar_strip 0x100000 aw_fs [ac_frame0] aw_signer (AItem 0xc (AOps [OFrame 0])) [OFrame 0] 0x7fe0 0x1234 0x77000000400000 ac_mem1
         (AThread 0x10100c 0x7fe0 0x7fe0 0x77000000400000 ac_mem1)); [amember|amember|reflexivity|].
       eapply does_more; [apply does_frame|apply does_none]. }
  eapply agoes_more.
  2: { apply (ado_ops ar_sign ar_strip 0x100000 aw_fs [ac_frame0] aw_signer (AItem 8 (AOps [OMove (-32); OStoreFp 0; OStoreLr 8])) [OMove (-32); OStoreFp 0; OStoreLr 8]
         0x8000 0x1234 0x77000000400000 ar_mem0 (AThread 0x101008 0x7fe0 0x1234 0x77000000400000 ac_mem1)); [amember|amember|reflexivity|].
       eapply does_more; [apply does_move; lia|]. eapply does_more; [apply (does_store_fp _ _ 0 _ _ _ _ _ (put 0x7fe0 0x1234 ar_mem0)); apply put_stores|].
       eapply does_more; [apply (does_store_lr _ _ 8 _ _ _ _ _ ac_mem1); apply put_stores|apply does_none]. }
  eapply agoes_more.
  2: { apply (ado_ops ar_sign ar_strip 0x100000 aw_fs [ac_frame0] aw_signer (AItem 4 (AOps [OSign])) [OSign] 0x8000 0x1234 0x400000 ar_mem0
         (AThread 0x101004 0x8000 0x1234 0x77000000400000 ar_mem0)); [amember|amember|reflexivity|].
       eapply does_more; [|apply does_none]. change 0x77000000400000 with (ar_sign 0x400000 0x8000). apply does_sign. }
  eapply agoes_more.
  2: { apply (ado_else ar_sign ar_strip 0x100000 aw_fs [ac_frame0] aw_signer (AItem 0 (AElse false false false [4; 0x2c])) false false false [4; 0x2c] 4 0x8000 0x8000 0x1234 0x1234 0x400000 0x400000 ar_mem0 ar_mem0);
       [amember|amember|reflexivity|amember|reflexivity|reflexivity|reflexivity|discriminate|intros a _; split; [reflexivity|discriminate]]. }
  apply agoes_none.
Qed.
Definition aw_world : world :=
  World (fun a => Some (ac_mem1 a)) (fun _ _ _ => None) ar_strip (fun first p => if first then p - 0x100000 else p - 0x100000 - 1) true.
Definition aw_sfb : sfb := Eval vm_compute in match dwarf2sframe_repaired rel64 arm column_30 aw_eh with Ok s => s | _ => pac_sfb end.
Definition aw_bytes : bytes := Eval vm_compute in match build_repaired rel64 LE aw_sfb with Ok b => b | _ => [] end.

Theorem awritten_case :
  eh_typed ac_plain_eh /\ acode_written [ac_plain] ac_plain_eh (fun _ => ausual_cie) /\ aof_size [ac_plain] /\
  (forall f, In f [ac_plain] -> aupright f) /\ saved_unsigned [ac_plain] /\
  agoes ar_sign ar_strip 0x100000 [ac_plain] ap_begin (ap_frames, ap_now) /\
  dwarf2sframe rel64 arm ac_plain_eh = Ok ap_sfb /\ build rel64 LE ap_sfb = Ok ap_bytes /\
  walk (lk_step ap_world (std_tells LE ap_bytes)) (frame_of_athread ap_now) ap_frames.
Proof.
  pose proof ac_plain_typed. pose proof ap_written. pose proof ap_of_size. pose proof ap_upright. pose proof ac_plain_unsigned. pose proof ap_reaches.
  do 6 (split; [assumption|]). split; [vm_compute; reflexivity|]. split; [vm_compute; reflexivity|]. apply ap_case.
Qed.
Theorem awritten_repaired_case :
  eh_typed aw_eh /\ acode_written aw_fs aw_eh (fun _ => ausual_cie) /\ aof_size aw_fs /\ ~ saved_unsigned aw_fs /\
  signs ar_sign ar_strip /\ aroutines_low 0x100000 aw_fs /\ abegins 0x100000 aw_fs 0x400000 ac_begin /\
  agoes ar_sign ar_strip 0x100000 aw_fs ac_begin (aw_frames, aw_now) /\ asees ar_strip 0x100000 aw_world aw_now /\
  (forall d, last_at aw_eh d ->
     ~ in_range (df_start d) (df_len d) (0x400000 - 0x100000) /\ ~ in_range (df_start d) (df_len d) (0x400000 - 0x100000 - 1)) /\
  dwarf2sframe_repaired rel64 arm column_30 aw_eh = Ok aw_sfb /\ build_repaired rel64 LE aw_sfb = Ok aw_bytes /\
  walk (lk_step aw_world (std_tells LE aw_bytes)) (frame_of_athread aw_now) aw_frames /\
  map lx_pc aw_frames = [0x101018; 0x400000] /\ map lx_fp aw_frames = [Some 0x7fe0; Some 0x1234].
Proof.
  pose proof aw_typed as T. pose proof aw_written as W. pose proof aw_of_size as S. pose proof ar_signs as G. pose proof aw_reaches as R.
  assert (N : ~ saved_unsigned aw_fs).
  { intros U. apply (U aw_signer (AItem 0xc (AOps [OFrame 0])) (-24)); [amember|amember|reflexivity]. }
  assert (L : aroutines_low 0x100000 aw_fs) by (intros f [<-|[<-|[]]]; cbn; lia).
  assert (B : abegins 0x100000 aw_fs 0x400000 ac_begin).
  { exists aw_signer, 0x8000, 0x1234, ar_mem0. split; [left; reflexivity|]. split; [lia|reflexivity]. }
  assert (E : asees ar_strip 0x100000 aw_world aw_now).
  { split; [reflexivity|]. split; [reflexivity|]. split; [reflexivity|]. intros p. right. reflexivity. }
  assert (O : forall d, last_at aw_eh d ->
     ~ in_range (df_start d) (df_len d) (0x400000 - 0x100000) /\ ~ in_range (df_start d) (df_len d) (0x400000 - 0x100000 - 1)).
  { intros d Hd. apply aw_last in Hd. destruct Hd as [-> | ->]; unfold in_range; cbn; lia. }
  assert (H1 : dwarf2sframe_repaired rel64 arm column_30 aw_eh = Ok aw_sfb) by (vm_compute; reflexivity).
  assert (H2 : build_repaired rel64 LE aw_sfb = Ok aw_bytes) by (vm_compute; reflexivity).
  do 12 (split; [assumption|]). split; [|split; reflexivity].
  destruct (awritten_repaired aw_fs aw_eh (fun _ => ausual_cie) T W S rel64 rel64 arm column_30 LE eq_refl (fun _ => eq_refl)) as (s & bs & Hc & Hb & Hw & _).
  assert (s = aw_sfb) as -> by congruence. assert (bs = aw_bytes) as -> by congruence.
  refine (proj2 (Hw _ _ _ _ _ _ _ _ G L _ B R E O _ aw_frames) _); [unfold canonical; lia|intros f i _ _ _; exact I|].
  exists []. symmetry. apply app_nil_r.
Qed.
