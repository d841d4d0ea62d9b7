(** Runs of the functions of ArmCodeCheck.v. *)
From Verif Require Export ArmCodeCheck.
From Verif Require Import BaseFacts CfiFacts WalkFacts RelateFacts RunFacts ConvWitness CfiWitness V1Witness ProgramWitness RunWitness ConvRepairedWitness ArmRunWitness DownFacts.
Open Scope Z_scope.
Open Scope list_scope.

Definition ac_mem1 : Z -> Z := put 0x7fe8 0x77000000400000 (put 0x7fe0 0x1234 ar_mem0).
Definition ac_mem2 : Z -> Z := put 0x7ed0 0x101018 ac_mem1.
Definition ac_mem3 : Z -> Z := put 0x7ef8 0x7fe0 ac_mem2.
Definition ac_mem4 : Z -> Z := put 0x7ea0 0x101110 ac_mem3.
Definition ac_frame0 : lk_frame := caller 0x400000 0x8000 0x1234.
Definition ac_frame1 : lk_frame := caller 0x101018 0x7f00 0x7fe0.
Definition ac_frame2 : lk_frame := caller 0x101110 0x7ed0 0x99.
Definition ac_begin : list lk_frame * athread := ([ac_frame0], AThread 0x101000 0x8000 0x1234 0x400000 ar_mem0).
Definition ac_frames : list lk_frame := [ac_frame2; ac_frame1; ac_frame0].
Definition ac_now : athread := AThread 0x101104 0x7ea0 0x99 0x101110 ac_mem4.

Lemma put_stores a v m : stores a v m (put a v m).
Proof. split; [unfold put; rewrite Z.eqb_refl; reflexivity|]. intros b Hb. unfold put. destruct (Z.eqb_spec b a); [lia|reflexivity]. Qed.

Lemma ac_guard a : aguarded 0x100000 ac_fs (0x100000 + 0x1000 + 0x10) [ac_frame0] a -> 0x7f00 <= a.
Proof.
  intros G. inversion G as [pc c st f o k Hf Ep Ho Ek|pc c st a' G']; subst; [|inversion G'].
  destruct Hf as [<-|[<-|[]]]; cbn in Ep, Ho; [|lia]. assert (o = 0x10) by lia. subst o. cbn in Ek. destruct Ek as [<-|[<-|[]]]; cbn; lia.
Qed.

Ltac amember := cbn; repeat (first [left; reflexivity|right]).
Lemma ac_reaches : agoes ar_sign ar_strip 0x100000 ac_fs ac_begin (ac_frames, ac_now).
Proof.
  eapply agoes_more.
  2: { apply (ado_ops ar_sign ar_strip 0x100000 ac_fs ac_frames ac_plain (AItem 0 (AOps [OMove (-48); OStoreLr 0])) [OMove (-48); OStoreLr 0] 0x7ed0 0x99 0x101110 ac_mem3
         (AThread 0x101100 0x7ea0 0x99 0x101110 ac_mem4)); [amember|amember|reflexivity|].
       eapply does_more; [apply does_move; lia|]. eapply does_more; [apply (does_store_lr _ _ 0 _ _ _ _ _ ac_mem4); apply put_stores|apply does_none]. }
  eapply agoes_more.
  2: { apply (ado_jump ar_sign ar_strip 0x100000 ac_fs ac_frames ac_signer ac_plain (AItem 0x38 AJump) 0x7ed0 0x99 0x101110 ac_mem3); [amember|amember|amember|reflexivity]. }
  eapply agoes_more.
  2: { apply (ado_else ar_sign ar_strip 0x100000 ac_fs ac_frames ac_signer (AItem 0 (AElse false false false [4; 0x38])) false false false [4; 0x38] 0x38 0x7ed0 0x7ed0 0x99 0x99 0x101110 0x101110 ac_mem3 ac_mem3);
       [amember|amember|reflexivity|amember|reflexivity|reflexivity|reflexivity|discriminate|intros a _; split; [reflexivity|discriminate]]. }
  eapply agoes_more.
  2: { apply (ado_call ar_sign ar_strip 0x100000 ac_fs [ac_frame1; ac_frame0] ac_plain ac_signer (AItem 0xc ACall) 0x7ed0 0x99 0 ac_mem3); [amember|amember|amember|reflexivity]. }
  eapply agoes_more.
  2: { apply (ado_else ar_sign ar_strip 0x100000 ac_fs [ac_frame1; ac_frame0] ac_plain (AItem 8 (AElse false true true [0xc])) false true true [0xc] 0xc 0x7ed0 0x7ed0 0x7fe0 0x99 0x101018 0 ac_mem3 ac_mem3);
       [amember|amember|reflexivity|amember|reflexivity|discriminate|discriminate|discriminate|intros a _; split; [reflexivity|discriminate]]. }
  eapply agoes_more.
  2: { apply (ado_ops ar_sign ar_strip 0x100000 ac_fs [ac_frame1; ac_frame0] ac_plain (AItem 4 (AOps [OStoreFp 40])) [OStoreFp 40] 0x7ed0 0x7fe0 0x101018 ac_mem2
         (AThread 0x101104 0x7ed0 0x7fe0 0x101018 ac_mem3)); [amember|amember|reflexivity|].
       eapply does_more; [apply (does_store_fp _ _ 40 _ _ _ _ _ ac_mem3); apply put_stores|apply does_none]. }
  eapply agoes_more.
  2: { apply (ado_ops ar_sign ar_strip 0x100000 ac_fs [ac_frame1; ac_frame0] ac_plain (AItem 0 (AOps [OMove (-48); OStoreLr 0])) [OMove (-48); OStoreLr 0] 0x7f00 0x7fe0 0x101018 ac_mem1
         (AThread 0x101100 0x7ed0 0x7fe0 0x101018 ac_mem2)); [amember|amember|reflexivity|].
       eapply does_more; [apply does_move; lia|]. eapply does_more; [apply (does_store_lr _ _ 0 _ _ _ _ _ ac_mem2); apply put_stores|apply does_none]. }
  eapply agoes_more.
  2: { apply (ado_call ar_sign ar_strip 0x100000 ac_fs [ac_frame0] ac_signer ac_plain (AItem 0x14 ACall) 0x7f00 0x7fe0 0 ac_mem1); [amember|amember|amember|reflexivity]. }
  eapply agoes_more.
  2: { apply (ado_else ar_sign ar_strip 0x100000 ac_fs [ac_frame0] ac_signer (AItem 0x10 (AElse true false true [0x14])) true false true [0x14] 0x14 0x7fe0 0x7f00 0x7fe0 0x7fe0 0x77000000400000 0 ac_mem1 ac_mem1);
       [amember|amember|reflexivity|amember|discriminate|reflexivity|discriminate|intros _; cbn; lia|]. intros a G. split; [reflexivity|]. intros _. apply ac_guard, G. }
  eapply agoes_more.
  2: { apply (ado_ops ar_sign ar_strip 0x100000 ac_fs [ac_frame0] ac_signer (AItem 0xc (AOps [OFrame 0])) [OFrame 0] 0x7fe0 0x1234 0x77000000400000 ac_mem1
         (AThread 0x10100c 0x7fe0 0x7fe0 0x77000000400000 ac_mem1)); [amember|amember|reflexivity|].
       eapply does_more; [apply does_frame|apply does_none]. }
  eapply agoes_more.
  2: { apply (ado_ops ar_sign ar_strip 0x100000 ac_fs [ac_frame0] ac_signer (AItem 8 (AOps [OMove (-32); OStoreFp 0; OStoreLr 8])) [OMove (-32); OStoreFp 0; OStoreLr 8]
         0x8000 0x1234 0x77000000400000 ar_mem0 (AThread 0x101008 0x7fe0 0x1234 0x77000000400000 ac_mem1)); [amember|amember|reflexivity|].
       eapply does_more; [apply does_move; lia|]. eapply does_more; [apply (does_store_fp _ _ 0 _ _ _ _ _ (put 0x7fe0 0x1234 ar_mem0)); apply put_stores|].
       eapply does_more; [apply (does_store_lr _ _ 8 _ _ _ _ _ ac_mem1); apply put_stores|apply does_none]. }
  eapply agoes_more.
  2: { apply (ado_ops ar_sign ar_strip 0x100000 ac_fs [ac_frame0] ac_signer (AItem 4 (AOps [OSign])) [OSign] 0x8000 0x1234 0x400000 ar_mem0
         (AThread 0x101004 0x8000 0x1234 0x77000000400000 ar_mem0)); [amember|amember|reflexivity|].
       eapply does_more; [|apply does_none]. change 0x77000000400000 with (ar_sign 0x400000 0x8000). apply does_sign. }
  eapply agoes_more.
  2: { apply (ado_else ar_sign ar_strip 0x100000 ac_fs [ac_frame0] ac_signer (AItem 0 (AElse false false false [4; 0x38])) false false false [4; 0x38] 4 0x8000 0x8000 0x1234 0x1234 0x400000 0x400000 ar_mem0 ar_mem0);
       [amember|amember|reflexivity|amember|reflexivity|reflexivity|reflexivity|discriminate|intros a _; split; [reflexivity|discriminate]]. }
  apply agoes_none.
Qed.

Definition ac_world : world :=
  World (fun a => Some (ac_mem4 a)) (fun _ _ _ => None) ar_strip (fun first p => if first then p - 0x100000 else p - 0x100000 - 1) true.
Lemma ac_sees : asees ar_strip 0x100000 ac_world ac_now.
Proof. split; [reflexivity|]. split; [reflexivity|]. split; [reflexivity|]. intros p. right. reflexivity. Qed.
Lemma ac_outside d : last_at ac_eh d ->
  ~ in_range (df_start d) (df_len d) (0x400000 - 0x100000) /\ ~ in_range (df_start d) (df_len d) (0x400000 - 0x100000 - 1).
Proof. intros Hd. apply ac_last in Hd. destruct Hd as [-> | ->]; unfold in_range; cbn; lia. Qed.
Lemma ac_low : aroutines_low 0x100000 ac_fs.
Proof. intros f [<-|[<-|[]]]; cbn; lia. Qed.
Lemma ac_begins : abegins 0x100000 ac_fs 0x400000 ac_begin.
Proof. exists ac_signer, 0x8000, 0x1234, ar_mem0. split; [left; reflexivity|]. split; [lia|reflexivity]. Qed.
Lemma ac_no_overlap : ~ functions_overlap ac_eh.
Proof.
  intros (f & g & F & G & Hne & Hr). apply ac_last in F, G. destruct F as [-> | ->], G as [-> | ->]; unfold in_range in Hr; cbn in Hr, Hne; lia.
Qed.
Lemma ac_entries x : In x (entries_of ac_eh) -> match x with DwCie => True | DwBadFde _ => False
  | DwGoodFde f => fits_section f /\ df_len f <= 0x10000000 /\ follows_dwarf ausual_cie f end.
Proof.
  intros Hx. cbn in Hx. destruct Hx as [<-|[<-|[<-|[]]]]; [exact I| |].
  - split; [split; vm_compute; discriminate|]. split; [vm_compute; discriminate|exact ac_signer_followed].
  - split; [split; vm_compute; discriminate|]. split; [vm_compute; discriminate|exact ac_plain_followed].
Qed.

Definition ac_sfb : sfb := Eval vm_compute in match dwarf2sframe_repaired rel64 arm column_30 ac_eh with Ok s => s | _ => pac_sfb end.
Definition ac_bytes : bytes := Eval vm_compute in match build_repaired rel64 LE ac_sfb with Ok b => b | _ => [] end.

Theorem ac_case : eh_typed ac_eh /\ ents_end (eh_entries ac_eh) = None /\
  (forall x, In x (entries_of ac_eh) -> match x with DwCie => True | DwBadFde _ => False
     | DwGoodFde f => fits_section f /\ df_len f <= 0x10000000 /\ follows_dwarf ausual_cie f end) /\
  ~ functions_overlap ac_eh /\ countable (function_count ac_eh) (table_rows ac_eh) /\
  (forall f, In f ac_fs -> achecked f) /\ aroutines_apart ac_fs /\ acode_described ac_eh (fun _ => ausual_cie) ac_fs /\
  signs ar_sign ar_strip /\ aroutines_low 0x100000 ac_fs /\ abegins 0x100000 ac_fs 0x400000 ac_begin /\
  agoes ar_sign ar_strip 0x100000 ac_fs ac_begin (ac_frames, ac_now) /\ asees ar_strip 0x100000 ac_world ac_now /\
  (forall d, last_at ac_eh d ->
     ~ in_range (df_start d) (df_len d) (0x400000 - 0x100000) /\ ~ in_range (df_start d) (df_len d) (0x400000 - 0x100000 - 1)) /\
  dwarf2sframe_repaired rel64 arm column_30 ac_eh = Ok ac_sfb /\ build_repaired rel64 LE ac_sfb = Ok ac_bytes /\
  walk (lk_step ac_world (std_tells LE ac_bytes)) (frame_of_athread ac_now) ac_frames /\
  map lx_pc ac_frames = [0x101110; 0x101018; 0x400000] /\ map lx_fp ac_frames = [Some 0x99; Some 0x7fe0; Some 0x1234].
Proof.
  pose proof ac_typed as T. pose proof ac_entries as X. pose proof ac_no_overlap as V. pose proof ac_checked as C. pose proof ac_apart as A.
  pose proof ac_described as D. pose proof ar_signs as G. pose proof ac_low as L. pose proof ac_begins as B. pose proof ac_reaches as R.
  pose proof ac_sees as E. pose proof ac_outside as O.
  assert (K : countable (function_count ac_eh) (table_rows ac_eh)) by (vm_compute; split; discriminate).
  assert (N : ents_end (eh_entries ac_eh) = None) by reflexivity.
  assert (H1 : dwarf2sframe_repaired rel64 arm column_30 ac_eh = Ok ac_sfb) by (vm_compute; reflexivity).
  assert (H2 : build_repaired rel64 LE ac_sfb = Ok ac_bytes) by (vm_compute; reflexivity).
  do 16 (split; [assumption|]). split; [|split; reflexivity].
  destruct (acode_repaired_converted rel64 rel64 arm column_30 ac_eh LE (fun _ => ausual_cie) ac_fs T eq_refl (fun _ => eq_refl) N X V K C A D) as (s & bs & Hc & Hb & Hw & _).
  assert (s = ac_sfb) as -> by congruence. assert (bs = ac_bytes) as -> by congruence.
  refine (proj2 (Hw _ _ _ _ _ _ _ _ G L _ B R E O _ ac_frames) _); [unfold canonical; lia|intros f i _ _ _; exact I|].
  exists []. symmetry. apply app_nil_r.
Qed.

(** The second function alone, calling itself, for the converter as it is. *)
Definition ap_mem1 : Z -> Z := put 0x7fd0 0x400000 ar_mem0.
Definition ap_mem2 : Z -> Z := put 0x7ff8 0x1234 ap_mem1.
Definition ap_mem3 : Z -> Z := put 0x7fa0 0x101110 ap_mem2.
Definition ap_begin : list lk_frame * athread := ([ac_frame0], AThread 0x101100 0x8000 0x1234 0x400000 ar_mem0).
Definition ap_frames : list lk_frame := [caller 0x101110 0x7fd0 0x99; ac_frame0].
Definition ap_now : athread := AThread 0x101104 0x7fa0 0x99 0x101110 ap_mem3.
Lemma ap_reaches : agoes ar_sign ar_strip 0x100000 [ac_plain] ap_begin (ap_frames, ap_now).
Proof.
  eapply agoes_more.
  2: { apply (ado_ops ar_sign ar_strip 0x100000 [ac_plain] ap_frames ac_plain (AItem 0 (AOps [OMove (-48); OStoreLr 0])) [OMove (-48); OStoreLr 0] 0x7fd0 0x99 0x101110 ap_mem2
         (AThread 0x101100 0x7fa0 0x99 0x101110 ap_mem3)); [amember|amember|reflexivity|].
       eapply does_more; [apply does_move; lia|]. eapply does_more; [apply (does_store_lr _ _ 0 _ _ _ _ _ ap_mem3); apply put_stores|apply does_none]. }
  eapply agoes_more.
  2: { apply (ado_call ar_sign ar_strip 0x100000 [ac_plain] [ac_frame0] ac_plain ac_plain (AItem 0xc ACall) 0x7fd0 0x99 0 ap_mem2); [amember|amember|amember|reflexivity]. }
  eapply agoes_more.
  2: { apply (ado_else ar_sign ar_strip 0x100000 [ac_plain] [ac_frame0] ac_plain (AItem 8 (AElse false true true [0xc])) false true true [0xc] 0xc 0x7fd0 0x7fd0 0x1234 0x99 0x400000 0 ap_mem2 ap_mem2);
       [amember|amember|reflexivity|amember|reflexivity|discriminate|discriminate|discriminate|intros a _; split; [reflexivity|discriminate]]. }
  eapply agoes_more.
  2: { apply (ado_ops ar_sign ar_strip 0x100000 [ac_plain] [ac_frame0] ac_plain (AItem 4 (AOps [OStoreFp 40])) [OStoreFp 40] 0x7fd0 0x1234 0x400000 ap_mem1
         (AThread 0x101104 0x7fd0 0x1234 0x400000 ap_mem2)); [amember|amember|reflexivity|].
       eapply does_more; [apply (does_store_fp _ _ 40 _ _ _ _ _ ap_mem2); apply put_stores|apply does_none]. }
  eapply agoes_more.
  2: { apply (ado_ops ar_sign ar_strip 0x100000 [ac_plain] [ac_frame0] ac_plain (AItem 0 (AOps [OMove (-48); OStoreLr 0])) [OMove (-48); OStoreLr 0] 0x8000 0x1234 0x400000 ar_mem0
         (AThread 0x101100 0x7fd0 0x1234 0x400000 ap_mem1)); [amember|amember|reflexivity|].
       eapply does_more; [apply does_move; lia|]. eapply does_more; [apply (does_store_lr _ _ 0 _ _ _ _ _ ap_mem1); apply put_stores|apply does_none]. }
  apply agoes_none.
Qed.
Definition ap_world : world :=
  World (fun a => Some (ap_mem3 a)) (fun _ _ _ => None) ar_strip (fun first p => if first then p - 0x100000 else p - 0x100000 - 1) true.
Lemma ap_down c d : last_at ac_plain_eh d -> follows_dwarf c d -> downward_program Aarch64 c d.
Proof.
  intros Hd F. apply ac_plain_last in Hd. subst d. apply downward_table; [vm_compute; discriminate|exact F|].
  intros r Hr. change (wide_rows ac_plain_fde) with ac_plain_rows in Hr. unfold ac_plain_rows in Hr.
  repeat (destruct Hr as [<-|Hr]; [split; [intros n k H; injection H as <- <-; lia|intros n k [-> | ->] H; vm_compute in H; try discriminate H; injection H as <-; lia]|]).
  destruct Hr.
Qed.
Definition ap_sfb : sfb := Eval vm_compute in match dwarf2sframe rel64 arm ac_plain_eh with Ok s => s | _ => pac_sfb end.
Definition ap_bytes : bytes := Eval vm_compute in match build rel64 LE ap_sfb with Ok b => b | _ => [] end.

Theorem ap_case : eh_typed ac_plain_eh /\ ents_end (eh_entries ac_plain_eh) = None /\
  (forall x, In x (entries_of ac_plain_eh) -> match x with DwCie => True | DwBadFde _ => False
     | DwGoodFde f => ordinary arm ac_plain_eh f /\ dump_fine rel64 arm f end) /\
  apart ac_plain_eh /\ countable (function_count ac_plain_eh) (table_rows ac_plain_eh) /\
  (forall c d, last_at ac_plain_eh d -> follows_dwarf c d -> downward_program Aarch64 c d) /\
  programs_followed ac_plain_eh (fun _ => ausual_cie) /\
  (forall f, In f [ac_plain] -> achecked f) /\ aroutines_apart [ac_plain] /\ acode_described ac_plain_eh (fun _ => ausual_cie) [ac_plain] /\
  saved_unsigned [ac_plain] /\ signs ar_sign ar_strip /\ aroutines_low 0x100000 [ac_plain] /\ abegins 0x100000 [ac_plain] 0x400000 ap_begin /\
  agoes ar_sign ar_strip 0x100000 [ac_plain] ap_begin (ap_frames, ap_now) /\ asees ar_strip 0x100000 ap_world ap_now /\
  (forall d, last_at ac_plain_eh d ->
     ~ in_range (df_start d) (df_len d) (0x400000 - 0x100000) /\ ~ in_range (df_start d) (df_len d) (0x400000 - 0x100000 - 1)) /\
  (forall f i, In f [ac_plain] -> In i (ar_items f) -> at_pc ap_now = 0x100000 + ar_start f + ai_at i -> on_stack f i) /\
  dwarf2sframe rel64 arm ac_plain_eh = Ok ap_sfb /\ build rel64 LE ap_sfb = Ok ap_bytes /\
  walk (lk_step ap_world (std_tells LE ap_bytes)) (frame_of_athread ap_now) ap_frames /\
  map lx_pc ap_frames = [0x101110; 0x400000] /\ map lx_fp ap_frames = [Some 0x99; Some 0x1234].
Proof.
  pose proof ac_plain_typed as T. pose proof ap_down as W. pose proof ac_plain_described as D. pose proof ac_plain_unsigned as U.
  pose proof ar_signs as G. pose proof ap_reaches as R.
  assert (N : ents_end (eh_entries ac_plain_eh) = None) by reflexivity.
  assert (X : forall x, In x (entries_of ac_plain_eh) -> match x with DwCie => True | DwBadFde _ => False
     | DwGoodFde f => ordinary arm ac_plain_eh f /\ dump_fine rel64 arm f end).
  { intros x Hx. cbn in Hx. destruct Hx as [<-|[<-|[]]]; [exact I|]. split.
    - split; [vm_compute; discriminate|]. split; [vm_compute; discriminate|]. exists ausual_cie. split; [exact ac_plain_followed|].
      intros x st base cfa ra fp o _ _ _ Hx. discriminate Hx.
    - split; [intros (O & _); discriminate O|intros _; vm_compute; reflexivity]. }
  assert (A : apart ac_plain_eh).
  { intros d d' Hd Hd' Hne Hr. apply ac_plain_last in Hd, Hd'. subst d d'. contradiction. }
  assert (K : countable (function_count ac_plain_eh) (table_rows ac_plain_eh)) by (vm_compute; split; discriminate).
  assert (F : programs_followed ac_plain_eh (fun _ => ausual_cie)) by (intros d Hd; apply ac_plain_last in Hd; subst d; exact ac_plain_followed).
  assert (C : forall f, In f [ac_plain] -> achecked f) by (intros f Hf; apply ac_checked; right; exact Hf).
  assert (A' : aroutines_apart [ac_plain]) by (intros f g a [<-|[]] [<-|[]] _ _; reflexivity).
  assert (L : aroutines_low 0x100000 [ac_plain]) by (intros f [<-|[]]; cbn; lia).
  assert (B : abegins 0x100000 [ac_plain] 0x400000 ap_begin).
  { exists ac_plain, 0x8000, 0x1234, ar_mem0. split; [left; reflexivity|]. split; [lia|reflexivity]. }
  assert (E : asees ar_strip 0x100000 ap_world ap_now).
  { split; [reflexivity|]. split; [reflexivity|]. split; [reflexivity|]. intros p. right. reflexivity. }
  assert (O : forall d, last_at ac_plain_eh d ->
     ~ in_range (df_start d) (df_len d) (0x400000 - 0x100000) /\ ~ in_range (df_start d) (df_len d) (0x400000 - 0x100000 - 1)).
  { intros d Hd. apply ac_plain_last in Hd. subst d. unfold in_range. cbn. lia. }
  assert (S : forall f i, In f [ac_plain] -> In i (ar_items f) -> at_pc ap_now = 0x100000 + ar_start f + ai_at i -> on_stack f i).
  { intros f i [<-|[]] _ Hp. cbn in Hp. unfold on_stack. replace (ai_at i) with 4 by lia. reflexivity. }
  assert (H1 : dwarf2sframe rel64 arm ac_plain_eh = Ok ap_sfb) by (vm_compute; reflexivity).
  assert (H2 : build rel64 LE ap_sfb = Ok ap_bytes) by (vm_compute; reflexivity).
  do 20 (split; [assumption|]). split; [|split; reflexivity].
  destruct (acode_converted rel64 rel64 arm ac_plain_eh LE (fun _ => ausual_cie) [ac_plain] T eq_refl N X A K W F C A' D U) as (s & bs & Hc & Hb & Hw & _).
  assert (s = ap_sfb) as -> by congruence. assert (bs = ap_bytes) as -> by congruence.
  refine (proj2 (Hw _ _ _ _ _ _ _ _ G L _ B R E O S ap_frames) _); [unfold canonical; lia|].
  exists []. symmetry. apply app_nil_r.
Qed.
