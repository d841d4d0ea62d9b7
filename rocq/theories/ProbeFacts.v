(** The two probes of notes.md, instruction by instruction. *)
From Verif Require Export ProbeSpec.
From Verif Require Import ConvProps ConvWitness CfiWitness RelateFacts StdConv WalkFacts.

(** ** Sums of 64 bits *)

Lemma plus64_plus x a b : plus64 (plus64 x a) b = plus64 x (a + b).
Proof. unfold plus64, as_u. rewrite Zplus_mod_idemp_l. f_equal. lia. Qed.
Lemma plus64_0 x : in_u64 x -> plus64 x 0 = x.
Proof. unfold in_u64, plus64, as_u. intros H. rewrite Z.add_0_r. apply Z.mod_small. lia. Qed.
Lemma plus64_inj x a b : Z.abs (a - b) < 2 ^ 64 -> plus64 x a = plus64 x b -> a = b.
Proof.
  unfold plus64, as_u. intros H E.
  assert (D : (a - b) mod 2 ^ 64 = 0).
  { replace (a - b) with ((x + a) - (x + b)) by lia. rewrite Zminus_mod, E, Z.sub_diag. reflexivity. }
  apply Z.mod_divide in D; [|lia]. destruct D as [k D]. assert (k = 0) by lia. lia.
Qed.
Lemma plus64_u64 x a : in_u64 (plus64 x a).
Proof. unfold in_u64, plus64, as_u. pose proof (Z.mod_pos_bound (x + a) (2 ^ 64) ltac:(lia)). lia. Qed.
Lemma cmp_zero x a b : Z.abs (a - b) < 2 ^ 64 -> (plus64 (plus64 x a) (- plus64 x b) =? 0) = (a =? b).
Proof.
  intros H. assert (E : plus64 (plus64 x a) (- plus64 x b) = (a - b) mod 2 ^ 64).
  { unfold plus64, as_u. rewrite Zplus_mod_idemp_l, <- Z.sub_opp_r, Z.opp_involutive, Zminus_mod_idemp_r. f_equal. lia. }
  rewrite E. destruct (Z.eqb_spec a b) as [->|N]; [rewrite Z.sub_diag; reflexivity|].
  apply Z.eqb_neq. intros D. apply Z.mod_divide in D; [|lia]. destruct D as [k D]. assert (k = 0) by lia. lia.
Qed.

(** ** The first probe *)

Definition same_mem (m m' : Z -> Z) : Prop := forall a, m a = m' a.

Definition r11_at (x0 x : cpu) : Prop :=
  same_mem (c_mem x) (c_mem x0) /\ c_fp x = c_fp x0 /\
  (c_pc x = 0x58f4 /\ c_sp x = c_sp x0 \/
   exists k, c_sp x = plus64 (c_sp x0) (-0x1000 * k) /\ c_r11 x = plus64 (c_sp x0) (-0x4000) /\
     (c_pc x = 0x58fc /\ 0 <= k <= 3 \/ (c_pc x = 0x5903 \/ c_pc x = 0x5908) /\ 1 <= k <= 4 \/
      c_pc x = 0x590b /\ 1 <= k <= 4 /\ c_zf x = (k =? 4) \/ c_pc x = 0x590d /\ k = 4)).

Lemma some_inj {A} (a b : A) : Some a = Some b -> a = b.
Proof. intros H. injection H as H. exact H. Qed.
Ltac stepped S E :=
  unfold step in S; rewrite E in S;
  match type of S with context [fetch ?l ?s ?p] => let r := eval vm_compute in (fetch l s p) in change (fetch l s p) with r in S end;
  cbv iota beta in S; first [discriminate S|apply some_inj in S; subst; unfold exec].

Lemma or_same x : same_mem (fun b => if b =? c_sp x then Z.lor (c_mem x (c_sp x)) 0 else c_mem x b) (c_mem x).
Proof. intros b. destruct (Z.eqb_spec b (c_sp x)) as [->|N]; [apply Z.lor_0_r|reflexivity]. Qed.

Lemma r11_run x0 x : begins x0 -> reaches r11_probe x0 x -> r11_at x0 x.
Proof.
  intros [B U] R. induction R as [|y z R IH S].
  - split; [intros a; reflexivity|]. split; [reflexivity|]. left. split; [exact B|reflexivity].
  - destruct IH as (M & F & [[P Q]|(k & Q & T & [[P K]|[[[P|P] K]|[(P & K & Zf)|[P K]]]])]); stepped S P; cbn.
    + split; [exact M|]. split; [exact F|]. right. exists 0. cbn. rewrite Q. split; [symmetry; apply plus64_0, U|].
      split; [reflexivity|]. left. split; [reflexivity|lia].
    + split; [exact M|]. split; [exact F|]. right. exists (k + 1). cbn. rewrite Q, plus64_plus.
      split; [f_equal; lia|]. split; [exact T|]. right. left. split; [left; reflexivity|lia].
    + split; [intros a; cbn; rewrite (or_same y a); apply M|]. split; [exact F|]. right. exists k. cbn. split; [exact Q|].
      split; [exact T|]. right. left. split; [right; reflexivity|lia].
    + split; [exact M|]. split; [exact F|]. right. exists k. cbn. split; [exact Q|]. split; [exact T|]. right. right. left.
      split; [reflexivity|]. split; [lia|]. rewrite Q, T, cmp_zero by lia.
      destruct (Z.eqb_spec (-0x1000 * k) (-0x4000)), (Z.eqb_spec k 4); lia || reflexivity.
    + rewrite Zf. destruct (Z.eqb_spec k 4) as [->|N]; cbn; (split; [exact M|]); (split; [exact F|]); right.
      * exists 4. cbn. split; [exact Q|]. split; [exact T|]. right. right. right. split; reflexivity.
      * exists k. cbn. split; [exact Q|]. split; [exact T|]. left. split; [reflexivity|lia].
Qed.

(** ** The second probe *)

Definition pushed (x0 : cpu) (b : Z) : Z := if b =? plus64 (c_sp x0) (-8) then c_fp x0 else c_mem x0 b.

Definition rbp_at (d : Z) (x0 x : cpu) : Prop :=
  c_pc x = 0x58f4 /\ c_sp x = c_sp x0 /\ c_fp x = c_fp x0 /\ same_mem (c_mem x) (c_mem x0) \/
  same_mem (c_mem x) (pushed x0) /\
  (c_pc x = 0x58f5 /\ c_sp x = plus64 (c_sp x0) (-8) /\ c_fp x = c_fp x0 \/
   (exists k, c_sp x = plus64 (c_sp x0) (-8 - 0x1000 * k) /\ c_fp x = plus64 (c_sp x0) (-0x4008) /\
      (c_pc x = 0x58fd /\ 0 <= k <= 3 \/ (c_pc x = 0x5904 \/ c_pc x = 0x5909) /\ 1 <= k <= 4 \/
       c_pc x = 0x590c /\ 1 <= k <= 4 /\ c_zf x = (k =? 4) \/ c_pc x = 0x590e /\ k = 4)) \/
   c_pc x = 0x5912 /\ c_sp x = plus64 (c_sp x0) (-0x4000) /\ c_fp x = plus64 (c_sp x0) (-0x4008) \/
   c_pc x = 0x591a /\ c_sp x = plus64 (c_sp x0) (-0x4000) /\ c_fp x = pushed x0 (plus64 (c_sp x0) (-0x4000 + d))).

Lemma rbp_run d x0 x : begins x0 -> reaches (rbp_probe d) x0 x -> rbp_at d x0 x.
Proof.
  intros [B U] R. induction R as [|y z R IH S].
  - left. split; [exact B|]. split; [reflexivity|]. split; [reflexivity|intros a; reflexivity].
  - destruct IH as [(P & Q & F & M)|(M & [(P & Q & F)|[(k & Q & F & [[P K]|[[[P|P] K]|[(P & K & Zf)|[P K]]]])|[(P & Q & F)|(P & Q & F)]]])];
      stepped S P; right; cbn.
    + split. { intros a. cbn. unfold pushed. rewrite Q, F. destruct (a =? _); [reflexivity|apply M]. }
      left. cbn. rewrite Q. split; [reflexivity|]. split; [reflexivity|exact F].
    + split; [exact M|]. right. left. exists 0. cbn. rewrite Q, plus64_plus. split; [reflexivity|]. split; [reflexivity|].
      left. split; [reflexivity|lia].
    + split; [exact M|]. right. left. exists (k + 1). cbn. rewrite Q, plus64_plus. split; [f_equal; lia|]. split; [exact F|].
      right. left. split; [left; reflexivity|lia].
    + split; [intros a; cbn; rewrite (or_same y a); apply M|]. right. left. exists k. cbn. split; [exact Q|]. split; [exact F|].
      right. left. split; [right; reflexivity|lia].
    + split; [exact M|]. right. left. exists k. cbn. split; [exact Q|]. split; [exact F|]. right. right. left.
      split; [reflexivity|]. split; [lia|]. rewrite Q, F, cmp_zero by lia.
      destruct (Z.eqb_spec (-8 - 0x1000 * k) (-0x4008)), (Z.eqb_spec k 4); lia || reflexivity.
    + rewrite Zf. destruct (Z.eqb_spec k 4) as [->|N]; cbn; (split; [exact M|]); right; left.
      * exists 4. cbn. split; [exact Q|]. split; [exact F|]. right. right. right. split; reflexivity.
      * exists k. cbn. split; [exact Q|]. split; [exact F|]. left. split; [reflexivity|lia].
    + split; [exact M|]. right. right. left. cbn. rewrite Q, plus64_plus. split; [reflexivity|]. split; [f_equal; lia|exact F].
    + split; [exact M|]. right. right. right. cbn. rewrite Q, plus64_plus, M. split; [reflexivity|]. split; reflexivity.
Qed.

(** ** Both come to their ends *)

Ltac fetched := match goal with |- context [fetch ?l ?s ?p] => let r := eval vm_compute in (fetch l s p) in change (fetch l s p) with r end; reflexivity.
Ltac go R P := eapply reaches_step in R; [|unfold step; rewrite P; fetched].
Ltac go_on R a := eapply reaches_step in R; [|unfold step; match goal with |- context [c_pc ?t] => change (c_pc t) with a end; fetched].

Lemma r11_round x0 y k : reaches r11_probe x0 y -> c_pc y = 0x58fc -> c_sp y = plus64 (c_sp x0) (-0x1000 * k) ->
  c_r11 y = plus64 (c_sp x0) (-0x4000) -> 0 <= k <= 3 ->
  exists z, reaches r11_probe x0 z /\ c_pc z = (if k =? 3 then 0x590d else 0x58fc) /\
    c_sp z = plus64 (c_sp x0) (-0x1000 * (k + 1)) /\ c_r11 z = plus64 (c_sp x0) (-0x4000).
Proof.
  intros R P Q T K. go R P. go_on R 0x5903. go_on R 0x5908. go_on R 0x590b.
  eexists. split; [exact R|]. cbn. rewrite Q, T, (plus64_plus (c_sp x0) (-4096 * k) (-4096)), cmp_zero by lia.
  replace (-4096 * k + -4096) with (-4096 * (k + 1)) by lia.
  destruct (Z.eqb_spec (-4096 * (k + 1)) (-16384)), (Z.eqb_spec k 3); try lia; cbn; rewrite ?Q, ?plus64_plus;
    (split; [reflexivity|split; [f_equal; lia|first [reflexivity|exact T]]]).
Qed.
Theorem r11_ends x0 : begins x0 -> exists x, reaches r11_probe x0 x /\ c_pc x = 0x590d.
Proof.
  intros [B U]. pose proof (reaches_same r11_probe x0) as R. go R B.
  eapply (r11_round _ _ 0) in R; [|reflexivity|cbn; symmetry; apply plus64_0, U|reflexivity|lia].
  destruct R as (y1 & R & P & Q & T). eapply (r11_round _ _ 1) in R; [|exact P|exact Q|exact T|lia].
  clear y1 P Q T. destruct R as (y1 & R & P & Q & T). eapply (r11_round _ _ 2) in R; [|exact P|exact Q|exact T|lia].
  clear y1 P Q T. destruct R as (y1 & R & P & Q & T). eapply (r11_round _ _ 3) in R; [|exact P|exact Q|exact T|lia].
  destruct R as (y2 & R & P2 & _). exists y2. split; assumption.
Qed.

Lemma rbp_round d x0 y k : reaches (rbp_probe d) x0 y -> c_pc y = 0x58fd -> c_sp y = plus64 (c_sp x0) (-8 - 0x1000 * k) ->
  c_fp y = plus64 (c_sp x0) (-0x4008) -> 0 <= k <= 3 ->
  exists z, reaches (rbp_probe d) x0 z /\ c_pc z = (if k =? 3 then 0x590e else 0x58fd) /\
    c_sp z = plus64 (c_sp x0) (-8 - 0x1000 * (k + 1)) /\ c_fp z = plus64 (c_sp x0) (-0x4008).
Proof.
  intros R P Q T K. go R P. go_on R 0x5904. go_on R 0x5909. go_on R 0x590c.
  eexists. split; [exact R|]. cbn. rewrite Q, T, (plus64_plus (c_sp x0) (-8 - 4096 * k) (-4096)), cmp_zero by lia.
  replace (-8 - 4096 * k + -4096) with (-8 - 4096 * (k + 1)) by lia.
  destruct (Z.eqb_spec (-8 - 4096 * (k + 1)) (-16392)), (Z.eqb_spec k 3); try lia; cbn; rewrite ?Q, ?plus64_plus;
    (split; [reflexivity|split; [f_equal; lia|first [reflexivity|exact T]]]).
Qed.
Theorem rbp_ends d x0 : begins x0 -> exists x, reaches (rbp_probe d) x0 x /\ c_pc x = 0x591a.
Proof.
  intros [B U]. pose proof (reaches_same (rbp_probe d) x0) as R. go R B. go_on R 0x58f5.
  eapply (rbp_round d _ _ 0) in R; [|reflexivity|reflexivity|cbn; rewrite plus64_plus; reflexivity|lia].
  destruct R as (y1 & R & P & Q & T). eapply (rbp_round d _ _ 1) in R; [|exact P|exact Q|exact T|lia].
  clear y1 P Q T. destruct R as (y1 & R & P & Q & T). eapply (rbp_round d _ _ 2) in R; [|exact P|exact Q|exact T|lia].
  clear y1 P Q T. destruct R as (y1 & R & P & Q & T). eapply (rbp_round d _ _ 3) in R; [|exact P|exact Q|exact T|lia].
  destruct R as (y2 & R & P2 & _). cbn in P2. go R P2. go_on R 0x5912. eexists. split; [exact R|reflexivity].
Qed.

(** ** What a section tells *)

Lemma step_told tells x base c ra fp b :
  (forall u, tells (c_pc x) u <-> u = Unwind base false (Some c) (Some ra) fp) -> sf_base (frame_now x) base = Some b ->
  forall z, sf_step (world_now x) tells (frame_now x) z <->
    z = SfFrame false (c_mem x (plus64 (plus64 b c) ra)) (plus64 b c)
          (Some match fp with Some f => c_mem x (plus64 (plus64 b c) f) | None => c_fp x end).
Proof.
  intros Ht Hb z. split.
  - intros (u & b' & c' & o & v & T & B & C & O & V & Z1 & Z2 & Z3 & Z4). cbn in T. apply Ht in T. subst u.
    cbn in B, C, O, V, Z2, Z4. rewrite Hb in B. injection B as <-. injection C as <-. injection O as <-. injection V as <-.
    destruct z as [q1 q2 q3 q4]. cbn in *. subst. destruct fp; reflexivity.
  - intros ->. exists (Unwind base false (Some c) (Some ra) fp), b, c, ra, (c_mem x (plus64 (plus64 b c) ra)).
    cbn. split; [apply Ht; reflexivity|]. split; [exact Hb|]. repeat (split; [reflexivity|]). destruct fp; reflexivity.
Qed.

Definition tells_of (eh : eh_frame) (tells : Z -> unwind -> Prop) : Prop :=
  (forall a r, dwarf_says eh a r -> exists u, tells a u /\ matches Amd64 r u) /\
  (forall a u u', tells a u -> tells a u' -> u = u').

Lemma told eh tells a r base c ra fp : tells_of eh tells -> dwarf_says eh a r -> classify Amd64 r = Some (base, c, ra, fp) ->
  forall u, tells a u <-> u = Unwind base false (Some c) (Some ra) fp.
Proof.
  intros [H1 H2] D C u. apply classify_spec in C. destruct (H1 a r D) as (u' & T & M & _). rewrite (M _ _ _ _ C) in T.
  split; [intros T'; exact (H2 a _ _ T' T)|intros ->; exact T].
Qed.
Lemma not_told eh tells x r : tells_of eh tells -> dwarf_says eh (c_pc x) r -> unrepresentable Amd64 r -> stuck tells x.
Proof.
  intros [H1 H2] D N z (u & b' & c' & o & v & T & B & C & _). cbn in T. destruct (H1 _ r D) as (u' & T' & _ & M).
  destruct (M N) as [E _]. rewrite (H2 _ _ _ T T') in C. congruence.
Qed.

Lemma only_last f g : last_at (of_functions [f]) g -> g = f.
Proof. intros (pre & post & H & _). cbn in H. destruct pre as [|? [|? ?]]; cbn in H; try discriminate. injection H as -> _. reflexivity. Qed.
Lemma is_last f : last_at (of_functions [f]) f.
Proof. exists [], []. split; [reflexivity|]. intros ? []. Qed.

Lemma both_of md md' md'' op eh e s bs (P : (Z -> unwind -> Prop) -> Prop) : op_arch op = Amd64 -> eh_typed eh -> dwarf2sframe md op eh = Ok s -> build md' e s = Ok bs ->
  wf_mode md'' -> rust_slice md'' bs ->
  (forall f, last_at eh f -> rows_disjoint f /\ forall r, In r (wide_rows f) -> forall fixed, fixed = None \/ fixed = Some (-8) -> ~ clash Amd64 fixed r) ->
  (forall tells, tells_of eh tells -> P tells) -> both_tell md'' e bs P.
Proof.
  intros A Ht C B W S G H.
  assert (G' : forall f, last_at eh f -> rows_disjoint f /\ forall r, In r (wide_rows f) -> ~ clash (op_arch op) (fixed_ra_of op eh) r).
  { intros f Hf. destruct (G f Hf) as [G1 G2]. split; [exact G1|]. intros r Hr. unfold fixed_ra_of. rewrite A. apply (G2 r Hr).
    cbn. destruct (effective_endian op eh); auto. }
  split.
  - destruct (conv_end_to_end md md' md'' op eh s e bs Ht C B W S G') as (sf & L & P1 & _ & P3). exists sf. split; [exact L|].
    apply H. rewrite A in P1. split; [exact P1|exact P3].
  - destruct (std_rows_preserved md md' op eh s e bs Ht C B G') as (P1 & _ & P3). apply H. rewrite A in P1. split; [exact P1|].
    intros a u u' U U'. exact (proj2 (proj2 (P3 a _ _ _ _ U U'))).
Qed.

Ltac fine := intros f Hf; apply only_last in Hf; subst f; split;
  [intros r r' Hr Hr' Hl; vm_compute in Hr, Hr';
   repeat (destruct Hr as [<-|Hr]; [repeat (destruct Hr' as [<-|Hr']; [cbn in *; lia|]); destruct Hr'|]); destruct Hr
  |intros r Hr fixed [-> | ->]; apply not_clashing; vm_compute in Hr;
   repeat (destruct Hr as [<-|Hr]; [vm_compute; try exact I; split; discriminate|]); destruct Hr].

Lemma r11_typed : eh_typed r11_eh.
Proof. unfold r11_eh, rbp_eh, probe_start. typed_eh. Qed.
Lemma rbp_typed : eh_typed rbp_eh.
Proof. unfold r11_eh, rbp_eh, probe_start. typed_eh. Qed.

Definition r11_fde : dw_fde := DwFde probe_start 0x29 (Insns r11_program None) (rows_ok r11_rows).
Definition rbp_fde : dw_fde := DwFde probe_start 0x36 (Insns rbp_program None) (rows_ok rbp_rows).
Theorem r11_follows : follows_dwarf cie_amd r11_fde.
Proof. eexists r11_rows, _. split; [reflexivity|]. split; [vm_compute; reflexivity|]. unfold r11_rows, rbp_rows. rows_agree. Qed.
Theorem rbp_follows : follows_dwarf cie_amd rbp_fde.
Proof. eexists rbp_rows, _. split; [reflexivity|]. split; [vm_compute; reflexivity|]. unfold r11_rows, rbp_rows. rows_agree. Qed.

Lemma r11_row a r : In r r11_rows -> dr_start r <= a < dr_end r -> dwarf_says r11_eh a r.
Proof.
  intros Hr Ha. exists r11_fde. split; [apply is_last|]. split; [|split; [exact Hr|exact Ha]].
  unfold in_range, r11_fde. cbn. cbn in Hr. repeat (destruct Hr as [<-|Hr]; [cbn in Ha; unfold probe_start; lia|]). destruct Hr.
Qed.
Lemma rbp_row a r : In r rbp_rows -> dr_start r <= a < dr_end r -> dwarf_says rbp_eh a r.
Proof.
  intros Hr Ha. exists rbp_fde. split; [apply is_last|]. split; [|split; [exact Hr|exact Ha]].
  unfold in_range, rbp_fde. cbn. cbn in Hr. repeat (destruct Hr as [<-|Hr]; [cbn in Ha; unfold probe_start; lia|]). destruct Hr.
Qed.

(** ** The theorems *)

Lemma u64_next x : in_u64 x -> plus64 x (-8) <> x.
Proof. intros U E. rewrite <- (plus64_0 x U) in E at 2. apply plus64_inj in E; lia. Qed.
Lemma pushed_top x0 : in_u64 (c_sp x0) -> pushed x0 (c_sp x0) = c_mem x0 (c_sp x0).
Proof. intros U. unfold pushed. destruct (Z.eqb_spec (c_sp x0) (plus64 (c_sp x0) (-8))) as [E|N]; [symmetry in E; apply u64_next in E; [contradiction|exact U]|reflexivity]. Qed.
Lemma pushed_fp x0 : pushed x0 (plus64 (c_sp x0) (-8)) = c_fp x0.
Proof. unfold pushed. rewrite Z.eqb_refl. reflexivity. Qed.

Theorem r11_unwound md md' md'' op e s bs : op_arch op = Amd64 -> dwarf2sframe md op r11_eh = Ok s -> build md' e s = Ok bs ->
  wf_mode md'' -> rust_slice md'' bs ->
  both_tell md'' e bs (fun tells => forall x0 x, begins x0 -> reaches r11_probe x0 x ->
    (0x58fc <= c_pc x < 0x590d -> stuck tells x) /\ (~ (0x58fc <= c_pc x < 0x590d) -> unwinds tells x (caller x0))).
Proof.
  intros A C B W S. apply (both_of md md' md'' op r11_eh e s bs _ A r11_typed C B W S); [fine|].
  intros tells T x0 x Hb R. pose proof (proj2 Hb) as U. pose proof (r11_run x0 x Hb R) as (M & F & I). split.
  - intros L. apply (not_told r11_eh tells x (amd_row 0x58fc 0x590d 11 16392 RUndefined) T).
    + apply r11_row; [right; left; reflexivity|exact L].
    + intros base cfa ra fp (Q & _). destruct base; discriminate.
  - intros L z. destruct I as [[P Q]|(k & Q & T11 & K)].
    + rewrite (step_told tells x Sp 8 (-8) None (c_sp x)); [| |reflexivity].
      2:{ apply (told r11_eh tells _ (amd_row 0x58f4 0x58fc 7 8 RUndefined)); [exact T|apply r11_row; [left; reflexivity|cbn; lia]|reflexivity]. }
      rewrite Q, plus64_plus, M, F. change (8 + -8) with 0. rewrite (plus64_0 _ U). reflexivity.
    + assert (P : c_pc x = 0x590d /\ k = 4) by intuition lia. destruct P as [P ->].
      rewrite (step_told tells x Sp 0x4008 (-8) None (c_sp x)); [| |reflexivity].
      2:{ apply (told r11_eh tells _ (amd_row 0x590d 0x591d 7 0x4008 RUndefined)); [exact T|apply r11_row; [right; right; left; reflexivity|cbn; lia]|reflexivity]. }
      rewrite Q, !plus64_plus, M, F. change (-0x1000 * 4 + 0x4008) with 8. change (-0x1000 * 4 + (0x4008 + -8)) with 0. rewrite (plus64_0 _ U). reflexivity.
Qed.

(** No row of SFrame would do for the loop. *)
Theorem r11_hopeless : forall u, exists x0 x, begins x0 /\ reaches r11_probe x0 x /\ c_pc x = 0x58fc /\
  ~ sf_step (world_now x) (fun _ v => v = u) (frame_now x) (caller x0).
Proof.
  intros u. pose (x0 := fun f => Cpu probe_start 0x10000 f 0 false (fun _ => 0)).
  assert (B : forall f, begins (x0 f)) by (intros f; split; [reflexivity|unfold in_u64; cbn; lia]).
  assert (R : forall f, exists x, reaches r11_probe (x0 f) x /\ c_pc x = 0x58fc /\ c_sp x = 0x10000 /\ c_fp x = f).
  { intros f. pose proof (reaches_same r11_probe (x0 f)) as R. go_on R 0x58f4. eexists. split; [exact R|]. repeat split. }
  assert (R' : forall f, exists x, reaches r11_probe (x0 f) x /\ c_pc x = 0x58fc /\ c_sp x = 0xf000 /\ c_fp x = f).
  { intros f. pose proof (reaches_same r11_probe (x0 f)) as H. go_on H 0x58f4. go_on H 0x58fc. go_on H 0x5903. go_on H 0x5908. go_on H 0x590b.
    eexists. split; [exact H|]. split; [vm_compute; reflexivity|]. split; vm_compute; reflexivity. }
  assert (N : forall f x, sf_step (world_now x) (fun _ v => v = u) (frame_now x) (caller (x0 f)) ->
    exists b c, sf_base (frame_now x) (uw_base u) = Some b /\ uw_cfa u = Some c /\ plus64 b c = 0x10008).
  { intros f x (v & b & c & o & w & -> & H1 & H2 & _ & _ & _ & _ & H3 & _). exists b, c. cbn in H3. split; [exact H1|]. split; [exact H2|].
    change (plus64 0x10000 8) with 0x10008 in H3. symmetry. exact H3. }
  destruct (uw_base u) eqn:E.
  - (* frame pointer *)
    destruct (R 0) as (x & R0 & P & Q & F). destruct (uw_cfa u) as [c|] eqn:C.
    + destruct (Z.eq_dec (plus64 0 c) 0x10008) as [D|D].
      * destruct (R 1) as (y & R1 & P1 & Q1 & F1). exists (x0 1), y. split; [apply B|]. split; [exact R1|]. split; [exact P1|].
        intros H. apply N in H. destruct H as (b & c' & H1 & H2 & H3). injection H2 as <-. cbn in H1. rewrite F1 in H1. injection H1 as <-.
        rewrite <- D in H3. unfold plus64, as_u in H3, D. replace (1 + c) with (c + 1) in H3 by lia. change (0 + c) with c in *.
        rewrite <- Zplus_mod_idemp_l, D in H3. discriminate.
      * exists (x0 0), x. split; [apply B|]. split; [exact R0|]. split; [exact P|]. intros H. apply N in H.
        destruct H as (b & c' & H1 & H2 & H3). injection H2 as <-. cbn in H1. rewrite F in H1. injection H1 as <-. exact (D H3).
    + exists (x0 0), x. split; [apply B|]. split; [exact R0|]. split; [exact P|]. intros H. apply N in H.
      destruct H as (b & c' & _ & H2 & _). discriminate.
  - (* stack pointer *)
    destruct (R 0) as (x & R0 & P & Q & F). destruct (uw_cfa u) as [c|] eqn:C.
    + destruct (Z.eq_dec (plus64 0x10000 c) 0x10008) as [D|D].
      * destruct (R' 0) as (y & R1 & P1 & Q1 & F1). exists (x0 0), y. split; [apply B|]. split; [exact R1|]. split; [exact P1|].
        intros H. apply N in H. destruct H as (b & c' & H1 & H2 & H3). injection H2 as <-. cbn in H1. rewrite Q1 in H1. injection H1 as <-.
        rewrite <- D in H3. unfold plus64, as_u in H3, D. replace (0xf000 + c) with ((0x10000 + c) + -0x1000) in H3 by lia.
        rewrite <- Zplus_mod_idemp_l, D in H3. discriminate.
      * exists (x0 0), x. split; [apply B|]. split; [exact R0|]. split; [exact P|]. intros H. apply N in H.
        destruct H as (b & c' & H1 & H2 & H3). injection H2 as <-. cbn in H1. rewrite Q in H1. injection H1 as <-. exact (D H3).
    + exists (x0 0), x. split; [apply B|]. split; [exact R0|]. split; [exact P|]. intros H. apply N in H.
      destruct H as (b & c' & _ & H2 & _). discriminate.
Qed.

Theorem rbp_unwound d md md' md'' op e s bs : op_arch op = Amd64 -> dwarf2sframe md op rbp_eh = Ok s -> build md' e s = Ok bs ->
  wf_mode md'' -> rust_slice md'' bs ->
  both_tell md'' e bs (fun tells => forall x0 x, begins x0 -> reaches (rbp_probe d) x0 x ->
    (c_pc x <> 0x591a -> unwinds tells x (caller x0)) /\
    (c_pc x = 0x591a -> unwinds tells x (SfFrame false (c_mem x0 (c_sp x0)) (plus64 (c_sp x0) 8) (Some (c_fp x))))).
Proof.
  intros A C B W S. apply (both_of md md' md'' op rbp_eh e s bs _ A rbp_typed C B W S); [fine|].
  intros tells T x0 x Hb R. pose proof (proj2 Hb) as U. pose proof (rbp_run d x0 x Hb R) as I.
  assert (Top : plus64 (plus64 (c_sp x0) 8) (-8) = c_sp x0) by (rewrite plus64_plus; apply plus64_0, U).
  assert (Sv : plus64 (plus64 (c_sp x0) 8) (-16) = plus64 (c_sp x0) (-8)) by (rewrite plus64_plus; reflexivity).
  assert (Mid : 0x58fd <= c_pc x < 0x591a -> c_fp x = plus64 (c_sp x0) (-0x4008) -> same_mem (c_mem x) (pushed x0) -> unwinds tells x (caller x0)).
  { intros P F M z. rewrite (step_told tells x Fp 0x4010 (-8) (Some (-16)) (c_fp x)); [| |reflexivity].
    2:{ apply (told rbp_eh tells _ (amd_row 0x58fd 0x591a 6 0x4010 (ROffset (-16)))); [exact T|apply rbp_row; [right; right; left; reflexivity|exact P]|reflexivity]. }
    assert (Q : plus64 (c_fp x) 0x4010 = plus64 (c_sp x0) 8) by (rewrite F, plus64_plus; f_equal; lia).
    rewrite Q, Top, Sv, !M, pushed_top, pushed_fp by exact U. reflexivity. }
  split.
  - intros N. destruct I as [(P & Q & F & M)|(M & [(P & Q & F)|[(k & Q & F & K)|[(P & Q & F)|(P & Q & F)]]])].
    + intros z. rewrite (step_told tells x Sp 8 (-8) None (c_sp x)); [| |reflexivity].
      2:{ apply (told rbp_eh tells _ (amd_row 0x58f4 0x58f5 7 8 RUndefined)); [exact T|apply rbp_row; [left; reflexivity|cbn; lia]|reflexivity]. }
      rewrite Q, Top, M, F. reflexivity.
    + intros z. rewrite (step_told tells x Sp 16 (-8) (Some (-16)) (c_sp x)); [| |reflexivity].
      2:{ apply (told rbp_eh tells _ (amd_row 0x58f5 0x58fd 7 16 (ROffset (-16)))); [exact T|apply rbp_row; [right; left; reflexivity|cbn; lia]|reflexivity]. }
      assert (E : plus64 (c_sp x) 16 = plus64 (c_sp x0) 8) by (rewrite Q, plus64_plus; reflexivity).
      rewrite E, Top, Sv, !M, pushed_top, pushed_fp by exact U. reflexivity.
    + apply Mid; [intuition lia|exact F|exact M].
    + apply Mid; [lia|exact F|exact M].
    + contradiction.
  - intros P. destruct I as [(P' & _)|(M & [(P' & _)|[(k & _ & _ & K)|[(P' & _)|(_ & Q & F)]]])]; try lia.
    intros z. rewrite (step_told tells x Sp 0x4008 (-8) None (c_sp x)); [| |reflexivity].
    2:{ apply (told rbp_eh tells _ (amd_row 0x591a 0x592a 7 0x4008 RUndefined)); [exact T|apply rbp_row; [right; right; right; left; reflexivity|cbn; lia]|reflexivity]. }
    assert (E : plus64 (c_sp x) 0x4008 = plus64 (c_sp x0) 8) by (rewrite Q, plus64_plus; reflexivity).
    rewrite E, Top, M, pushed_top by exact U. reflexivity.
Qed.

Lemma rbp_end d x0 x : begins x0 -> reaches (rbp_probe d) x0 x -> c_pc x = 0x591a ->
  c_sp x = plus64 (c_sp x0) (-0x4000) /\ c_fp x = pushed x0 (plus64 (c_sp x0) (-0x4000 + d)) /\ same_mem (c_mem x) (pushed x0).
Proof.
  intros Hb R P. pose proof (rbp_run d x0 x Hb R) as [(P' & _)|(M & [(P' & _)|[(k & _ & _ & K)|[(P' & _)|(_ & Q & F)]]])]; try lia.
  split; [exact Q|split; [exact F|exact M]].
Qed.
Lemma r11_end x0 x : begins x0 -> reaches r11_probe x0 x -> c_pc x = 0x590d ->
  c_sp x = plus64 (c_sp x0) (-0x4000) /\ c_fp x = c_fp x0 /\ same_mem (c_mem x) (c_mem x0).
Proof.
  intros Hb R P. destruct (r11_run x0 x Hb R) as (M & F & [[P' _]|(k & Q & _ & K)]); [lia|].
  assert (k = 4) by intuition lia. subst k. split; [exact Q|split; [exact F|exact M]].
Qed.

Lemma notes_lost x0 : pushed x0 (plus64 (c_sp x0) (-0x4000 + notes_disp)) = c_mem x0 (plus64 (c_sp x0) (-0x8000)).
Proof.
  unfold pushed, notes_disp. change (-0x4000 + -0x4000) with (-0x8000). destruct (Z.eqb_spec (plus64 (c_sp x0) (-0x8000)) (plus64 (c_sp x0) (-8))) as [E|N]; [|reflexivity].
  apply plus64_inj in E; lia.
Qed.

Theorem notes_wrong md md' md'' op e s bs : op_arch op = Amd64 -> dwarf2sframe md op rbp_eh = Ok s -> build md' e s = Ok bs ->
  wf_mode md'' -> rust_slice md'' bs ->
  both_tell md'' e bs (fun tells => forall x0, begins x0 -> exists x, reaches (rbp_probe notes_disp) x0 x /\ c_pc x = 0x591a /\
    c_fp x = c_mem x0 (plus64 (c_sp x0) (-0x8000)) /\
    (c_mem x0 (plus64 (c_sp x0) (-0x8000)) <> c_fp x0 -> ~ sf_step (world_now x) tells (frame_now x) (caller x0))) /\
  exists x0, begins x0 /\ c_mem x0 (plus64 (c_sp x0) (-0x8000)) <> c_fp x0.
Proof.
  intros A C B W S. split.
  - assert (G : forall tells : Z -> unwind -> Prop,
      (forall x0 x, begins x0 -> reaches (rbp_probe notes_disp) x0 x ->
        (c_pc x <> 0x591a -> unwinds tells x (caller x0)) /\
        (c_pc x = 0x591a -> unwinds tells x (SfFrame false (c_mem x0 (c_sp x0)) (plus64 (c_sp x0) 8) (Some (c_fp x))))) ->
      forall x0, begins x0 -> exists x, reaches (rbp_probe notes_disp) x0 x /\ c_pc x = 0x591a /\
        c_fp x = c_mem x0 (plus64 (c_sp x0) (-0x8000)) /\
        (c_mem x0 (plus64 (c_sp x0) (-0x8000)) <> c_fp x0 -> ~ sf_step (world_now x) tells (frame_now x) (caller x0))).
    { intros tells H x0 Hb. destruct (rbp_ends notes_disp x0 Hb) as (x & R & P). exists x. split; [exact R|]. split; [exact P|].
      destruct (rbp_end _ x0 x Hb R P) as (_ & F & _). rewrite notes_lost in F. split; [exact F|]. intros N Z1.
      apply (proj2 (H x0 x Hb R) P) in Z1. apply N. rewrite <- F. apply (f_equal sx_fp) in Z1. cbn in Z1. congruence. }
    destruct (rbp_unwound notes_disp md md' md'' op e s bs A C B W S) as ((sf & L & H1) & H2).
    split; [exists sf; split; [exact L|exact (G _ H1)]|exact (G _ H2)].
  - exists (Cpu probe_start 0x10000 7 0 false (fun _ => 0)). split; [split; [reflexivity|unfold in_u64; cbn; lia]|]. cbn. discriminate.
Qed.

(** With the right displacement it is all as the notes say. *)
Theorem rbp_right md md' md'' op e s bs : op_arch op = Amd64 -> dwarf2sframe md op rbp_eh = Ok s -> build md' e s = Ok bs ->
  wf_mode md'' -> rust_slice md'' bs ->
  both_tell md'' e bs (fun tells => forall x0 x, begins x0 -> reaches (rbp_probe right_disp) x0 x -> unwinds tells x (caller x0)).
Proof.
  intros A C B W S.
  assert (G : forall tells : Z -> unwind -> Prop,
    (forall x0 x, begins x0 -> reaches (rbp_probe right_disp) x0 x ->
      (c_pc x <> 0x591a -> unwinds tells x (caller x0)) /\
      (c_pc x = 0x591a -> unwinds tells x (SfFrame false (c_mem x0 (c_sp x0)) (plus64 (c_sp x0) 8) (Some (c_fp x))))) ->
    forall x0 x, begins x0 -> reaches (rbp_probe right_disp) x0 x -> unwinds tells x (caller x0)).
  { intros tells H x0 x Hb R. destruct (Z.eq_dec (c_pc x) 0x591a) as [P|P]; [|apply (proj1 (H x0 x Hb R)), P].
    pose proof (proj2 (H x0 x Hb R) P) as G. destruct (rbp_end _ x0 x Hb R P) as (_ & F & _).
    change (-0x4000 + right_disp) with (-8) in F. rewrite pushed_fp in F. rewrite F in G. exact G. }
  destruct (rbp_unwound right_disp md md' md'' op e s bs A C B W S) as ((sf & L & H1) & H2).
  split; [exists sf; split; [exact L|exact (G _ H1)]|exact (G _ H2)].
Qed.

(** And it leaves what the first leaves, except for the word that has been pushed. *)
Theorem probes_alike x0 : begins x0 ->
  (exists x, reaches r11_probe x0 x /\ c_pc x = 0x590d) /\ (exists y, reaches (rbp_probe right_disp) x0 y /\ c_pc y = 0x591a) /\
  forall x y, reaches r11_probe x0 x -> c_pc x = 0x590d -> reaches (rbp_probe right_disp) x0 y -> c_pc y = 0x591a ->
    c_sp y = c_sp x /\ c_fp y = c_fp x /\ c_fp x = c_fp x0 /\ c_sp x = plus64 (c_sp x0) (-0x4000) /\
    forall a, a <> plus64 (c_sp x0) (-8) -> c_mem y a = c_mem x a.
Proof.
  intros Hb. split; [apply r11_ends, Hb|]. split; [apply rbp_ends, Hb|]. intros x y R P R' P'.
  destruct (r11_end x0 x Hb R P) as (Q & F & M). destruct (rbp_end _ x0 y Hb R' P') as (Q' & F' & M').
  change (-0x4000 + right_disp) with (-8) in F'. rewrite pushed_fp in F'.
  split; [congruence|]. split; [congruence|]. split; [exact F|]. split; [exact Q|]. intros a N. rewrite M', M. unfold pushed.
  destruct (Z.eqb_spec a (plus64 (c_sp x0) (-8))); [contradiction|reflexivity].
Qed.

(** ** All of this can happen *)

Definition r11_sfb : sfb := Eval vm_compute in got (dwarf2sframe rel64 amd r11_eh).
Definition r11_section : bytes := Eval vm_compute in section LE r11_sfb.
Definition rbp_sfb : sfb := Eval vm_compute in got (dwarf2sframe rel64 amd rbp_eh).
Definition rbp_section : bytes := Eval vm_compute in section LE rbp_sfb.
Theorem probe_case :
  op_arch amd = Amd64 /\ wf_mode rel64 /\
  follows_dwarf cie_amd r11_fde /\ last_at r11_eh r11_fde /\ dwarf2sframe rel64 amd r11_eh = Ok r11_sfb /\
  build rel64 LE r11_sfb = Ok r11_section /\ rust_slice rel64 r11_section /\
  follows_dwarf cie_amd rbp_fde /\ last_at rbp_eh rbp_fde /\ dwarf2sframe rel64 amd rbp_eh = Ok rbp_sfb /\
  build rel64 LE rbp_sfb = Ok rbp_section /\ rust_slice rel64 rbp_section /\
  (exists row, dwarf_says r11_eh 0x58fc row /\ dr_start row = 0x58fc /\ dr_end row = 0x590d /\ dr_cfa row = CfaReg 11 16392 /\
     dr_register row 16 = ROffset (-8)) /\
  exists x0 x y, begins x0 /\ reaches r11_probe x0 x /\ c_pc x = 0x5903 /\ reaches (rbp_probe right_disp) x0 y /\ c_pc y = 0x5904 /\
    c_sp x <> c_sp y /\ caller x0 = SfFrame false 0x401000 0x10008 (Some 7).
Proof.
  split; [reflexivity|]. split; [right; reflexivity|]. split; [exact r11_follows|]. split; [apply is_last|].
  do 3 (split; [vm_compute; reflexivity|]). split; [exact rbp_follows|]. split; [apply is_last|].
  do 3 (split; [vm_compute; reflexivity|]). split.
  { exists (amd_row 0x58fc 0x590d 11 16392 RUndefined). split; [apply r11_row; [right; left; reflexivity|cbn; lia]|]. repeat split. }
  pose (x0 := Cpu probe_start 0x10000 7 0 false (fun _ => 0x401000)).
  pose proof (reaches_same r11_probe x0) as R. go_on R 0x58f4. go_on R 0x58fc.
  pose proof (reaches_same (rbp_probe right_disp) x0) as R'. go_on R' 0x58f4. go_on R' 0x58f5. go_on R' 0x58fd.
  exists x0. eexists. eexists. split; [split; [reflexivity|unfold in_u64; cbn; lia]|]. split; [exact R|]. split; [reflexivity|].
  split; [exact R'|]. split; [reflexivity|]. split; [vm_compute; discriminate|reflexivity].
Qed.
