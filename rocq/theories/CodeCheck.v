(** The check of CodeSpec.v as a program, and functions for C158. *)
From Verif Require Export CodeFacts.
From Verif Require Import BaseFacts CfiWitness V1Witness ProgramWitness RunWitness.
Open Scope Z_scope.
Open Scope list_scope.

(** ** Computing the check *)

Definition same_option (x y : option Z) : bool :=
  match x, y with Some a, Some b => a =? b | None, None => true | _, _ => false end.
(** Of [y] nothing that is not known of [x]. *)
Definition weaker_option (x y : option Z) : bool := match y with None => true | Some _ => same_option x y end.
Definition not_belowb (a : Z) (saved : option Z) : bool := match saved with Some k => - a <=? k | None => true end.
Definition claims_lessb (v v' : view) : bool :=
  weaker_option (vw_sp v) (vw_sp v') &&
  match vw_sp v', vw_sp v with None, Some a => not_belowb a (vw_saved v') | _, _ => true end &&
  weaker_option (vw_fp v) (vw_fp v') && weaker_option (vw_saved v) (vw_saved v') && implb (vw_same v') (vw_same v).
Definition unwoundb (v : view) : bool := same_option (vw_sp v) (Some 8) && vw_same v.
Definition same_view (v v' : view) : bool :=
  same_option (vw_sp v) (vw_sp v') && same_option (vw_fp v) (vw_fp v') && same_option (vw_saved v) (vw_saved v') && Bool.eqb (vw_same v) (vw_same v').
Definition item_checkedb (f : routine) (i : item) : bool :=
  match after_act (it_act i) (rt_view f (it_at i)) with
  | Some v => forallb (fun o => claims_lessb v (rt_view f o) && existsb (fun j => it_at j =? o) (rt_items f)) (next_of i)
  | None => false
  end &&
  match it_act i with
  | CallFn => same_view (rt_view f (it_at i + it_len i)) (rt_view f (it_at i)) &&
      match vw_sp (rt_view f (it_at i)) with Some a => not_belowb a (vw_saved (rt_view f (it_at i))) | None => true end
  | RetFn | JumpFn => unwoundb (rt_view f (it_at i))
  | _ => true
  end.
(** In the order of their addresses. *)
Fixpoint in_order (l : list item) : bool :=
  match l with i :: (j :: _) as t => (it_at i <? it_at j) && in_order t | _ => true end.
Definition checkedb (f : routine) : bool :=
  forallb (fun i => (0 <=? it_at i) && (1 <=? it_len i) && (it_at i + it_len i <=? rt_len f) && item_checkedb f i) (rt_items f) &&
  in_order (rt_items f) && existsb (fun i => it_at i =? 0) (rt_items f) && claims_lessb (View (Some 8) None None true) (rt_view f 0).

Lemma same_option_eq x y : same_option x y = true -> x = y.
Proof. destruct x, y; cbn; intros H; try discriminate; [apply Z.eqb_eq in H; congruence|reflexivity]. Qed.
Lemma weaker_option_le x y : weaker_option x y = true -> forall a, y = Some a -> x = Some a.
Proof. intros H a ->. apply same_option_eq in H. exact H. Qed.
Lemma not_belowb_ok a s : not_belowb a s = true -> not_below a s.
Proof. intros H k ->. apply Z.leb_le in H. exact H. Qed.
Lemma claims_lessb_ok v v' : claims_lessb v v' = true -> claims_less v v'.
Proof.
  unfold claims_lessb. rewrite !andb_true_iff. intros ((((H1 & H2) & H3) & H4) & H5). split; [apply weaker_option_le, H1|]. split; [|split; [apply weaker_option_le, H3|split; [apply weaker_option_le, H4|]]].
  - intros E. rewrite E in H2. destruct (vw_sp v); [apply not_belowb_ok, H2|exact I].
  - intros E. rewrite E in H5. exact H5.
Qed.
Lemma same_view_eq v v' : same_view v v' = true -> v = v'.
Proof.
  unfold same_view. rewrite !andb_true_iff. intros (((H1 & H2) & H3) & H4). destruct v, v'. cbn in *.
  apply same_option_eq in H1, H2, H3. apply Bool.eqb_prop in H4. congruence.
Qed.
Lemma item_checkedb_ok f i : item_checkedb f i = true -> item_checked f i.
Proof.
  unfold item_checkedb, item_checked. rewrite andb_true_iff. intros [H1 H2]. split.
  - destruct (after_act (it_act i) (rt_view f (it_at i))) as [v|]; [|discriminate]. exists v. split; [reflexivity|]. intros o Ho.
    rewrite forallb_forall in H1. specialize (H1 o Ho). apply andb_prop in H1. destruct H1 as [H1 H3]. split; [apply claims_lessb_ok, H1|].
    apply existsb_exists in H3. destruct H3 as (j & J1 & J2). apply Z.eqb_eq in J2. eauto.
  - destruct (it_act i); try exact I.
    + apply andb_prop in H2. destruct H2 as [H2 H3]. split; [apply same_view_eq, H2|]. destruct (vw_sp _); [apply not_belowb_ok, H3|exact I].
    + unfold unwoundb in H2. apply andb_prop in H2. destruct H2 as [H2 H3]. apply same_option_eq in H2. split; assumption.
    + unfold unwoundb in H2. apply andb_prop in H2. destruct H2 as [H2 H3]. apply same_option_eq in H2. split; assumption.
Qed.
Lemma in_order_head l : forall i j, in_order (i :: l) = true -> In j l -> it_at i < it_at j.
Proof.
  induction l as [|k l IH]; intros i j H Hj; [destruct Hj|]. change (in_order (i :: k :: l)) with ((it_at i <? it_at k) && in_order (k :: l)) in H.
  apply andb_prop in H. destruct H as [H1 H2]. apply Z.ltb_lt in H1. destruct Hj as [<-|Hj]; [exact H1|]. specialize (IH k j H2 Hj). lia.
Qed.
Lemma in_order_tail i l : in_order (i :: l) = true -> in_order l = true.
Proof. destruct l as [|k l]; [reflexivity|]. intros H. apply andb_prop in H. apply H. Qed.
Lemma in_order_ok l : in_order l = true -> forall i j, In i l -> In j l -> it_at i = it_at j -> i = j.
Proof.
  induction l as [|k l IH]; intros H i j Hi Hj E; [destruct Hi|]. destruct Hi as [<-|Hi], Hj as [<-|Hj].
  - reflexivity.
  - pose proof (in_order_head l k j H Hj). lia.
  - pose proof (in_order_head l k i H Hi). lia.
  - apply (IH (in_order_tail k l H) i j Hi Hj E).
Qed.
Theorem checkedb_ok f : checkedb f = true -> checked f.
Proof.
  unfold checkedb. rewrite !andb_true_iff. intros (((H1 & H2) & H3) & H4). rewrite forallb_forall in H1. split; [|split; [|split]].
  - intros i Hi. specialize (H1 i Hi). rewrite !andb_true_iff in H1. destruct H1 as (((A & B) & C) & D).
    apply Z.leb_le in A, B, C. split; [exact A|]. split; [exact B|]. split; [exact C|]. apply item_checkedb_ok, D.
  - apply in_order_ok, H2.
  - apply existsb_exists in H3. destruct H3 as (i & I1 & I2). apply Z.eqb_eq in I2. eauto.
  - apply claims_lessb_ok, H4.
Qed.

(** A rule follows from what is known, as a program. *)
Definition rule_rightb (v : view) (r : dw_row) : bool :=
  match dr_cfa r with
  | CfaReg reg cfa =>
      in_i32b cfa && ((reg =? 7) && same_option (vw_sp v) (Some cfa) || (reg =? 6) && same_option (vw_fp v) (Some cfa)) &&
      match dr_register r 16 with ROffset o => o =? -8 | _ => false end &&
      match dr_register r 6 with
      | ROffset k => in_i32b k && same_option (vw_saved v) (Some k)
      | RSameValue | RUndefined => vw_same v
      | _ => false
      end
  | CfaExpression _ => false
  end.
Lemma rule_rightb_ok v r : rule_rightb v r = true -> rule_right v r.
Proof.
  unfold rule_rightb, rule_right, representable. cbn [reg_base reg_ra reg_fp]. destruct (dr_cfa r) as [reg cfa|]; [|discriminate]. rewrite !andb_true_iff, orb_true_iff, !andb_true_iff.
  intros (((H1 & H2) & H3) & H4). apply in_i32b_spec in H1.
  destruct (dr_register r 16) as [| |o| | | | | |] eqn:E16; try discriminate. apply Z.eqb_eq in H3. subst o.
  assert (I8 : in_i32 (-8)) by (unfold in_i32, i32_min, i32_max; lia).
  assert (HB : exists base, CfaReg reg cfa = CfaReg (reg_base Amd64 base) cfa /\ match base with Sp => vw_sp v = Some cfa | Fp => vw_fp v = Some cfa end).
  { destruct H2 as [[A B]|[A B]]; apply Z.eqb_eq in A; apply same_option_eq in B; subst reg; [exists Sp|exists Fp]; auto. }
  destruct HB as (base & B1 & B2). rewrite B1.
  destruct (dr_register r 6) as [| |k| | | | | |] eqn:E6; try discriminate.
  - exists base, cfa, None. auto 8.
  - exists base, cfa, None. auto 8.
  - apply andb_prop in H4. destruct H4 as [H4 H5]. apply in_i32b_spec in H4. apply same_option_eq in H5. exists base, cfa, (Some k). auto 8.
Qed.

(** At every byte of every instruction. *)
Definition bytes_of (i : item) : list Z := map (fun n => it_at i + Z.of_nat n) (seq 0 (Z.to_nat (it_len i))).
Definition describedb (c : cie_info) (d : dw_fde) (f : routine) : bool :=
  forallb (fun i => forallb (fun b =>
    (df_start d <=? rt_start f + b) && (rt_start f + b <? df_start d + df_len d) &&
    match cfi_at c d (rt_start f + b) with Some st => rule_rightb (rt_view f (it_at i)) (as_row st) | None => false end) (bytes_of i)) (rt_items f).
Lemma in_bytes i b : it_at i <= b < it_at i + it_len i -> In b (bytes_of i).
Proof.
  intros H. unfold bytes_of. apply in_map_iff. exists (Z.to_nat (b - it_at i)). split; [lia|]. apply in_seq. lia.
Qed.
Lemma describedb_ok c d f : describedb c d f = true -> forall i b, In i (rt_items f) -> it_at i <= b < it_at i + it_len i ->
  exists st, in_range (df_start d) (df_len d) (rt_start f + b) /\ cfi_at c d (rt_start f + b) = Some st /\ rule_right (rt_view f (it_at i)) (as_row st).
Proof.
  unfold describedb. rewrite forallb_forall. intros H i b Hi Hb. specialize (H i Hi). rewrite forallb_forall in H. specialize (H b (in_bytes i b Hb)).
  rewrite !andb_true_iff in H. destruct H as ((H1 & H2) & H3). apply Z.leb_le in H1. apply Z.ltb_lt in H2.
  destruct (cfi_at c d (rt_start f + b)) as [st|]; [|discriminate]. exists st. split; [unfold in_range; lia|]. split; [reflexivity|apply rule_rightb_ok, H3].
Qed.

(** ** Two functions *)

Definition views (l : list (Z * view)) (o : Z) : view :=
  match find (fun p => fst p =? o) l with Some (_, v) => v | None => View None None None false end.

(** The first is ready at once or saves [rbp] and [rbx], reserves room, uses [rbp] for something
    else, and calls in a loop; if ready it jumps to the second. *)
Definition cd_saver : routine := Routine 0x1000 0x25
  [ Item 0 2 (Any false false [2; 0x20]); Item 2 1 (Push 6); Item 3 1 (Push 3); Item 4 4 (SubSp 24);
    Item 8 3 (Any false true [11]); Item 11 5 CallFn; Item 16 3 (Any false true [8; 19]); Item 19 4 (AddSp 24);
    Item 23 1 (Pop 3); Item 24 1 (Pop 6); Item 25 1 RetFn;
    Item 26 6 (Any false false [0x20]); Item 0x20 5 JumpFn ]
  (views [ (0, View (Some 8) None None true); (2, View (Some 8) None None true); (3, View (Some 16) None (Some (-16)) true);
    (4, View (Some 24) None (Some (-16)) true); (8, View (Some 48) None (Some (-16)) false); (11, View (Some 48) None (Some (-16)) false);
    (16, View (Some 48) None (Some (-16)) false); (19, View (Some 48) None (Some (-16)) false); (23, View (Some 24) None (Some (-16)) false);
    (24, View (Some 16) None (Some (-16)) false); (25, View (Some 8) None (Some (-16)) true);
    (26, View (Some 8) None (Some (-16)) true); (0x20, View (Some 8) None None true) ]).
(** The second keeps a frame pointer, saves [r12] and reserves room of unknown size. *)
Definition cd_roomy : routine := Routine 0x1040 22
  [ Item 0 1 (Push 6); Item 1 3 MovFp; Item 4 2 (Push 12); Item 6 3 (Any true false [9]); Item 9 5 CallFn;
    Item 14 4 (LeaSp 8); Item 18 2 (Pop 12); Item 20 1 (Pop 6); Item 21 1 RetFn ]
  (views [ (0, View (Some 8) None None true); (1, View (Some 16) None (Some (-16)) true); (4, View (Some 16) (Some 16) (Some (-16)) false);
    (6, View (Some 24) (Some 16) (Some (-16)) false); (9, View None (Some 16) (Some (-16)) false); (14, View None (Some 16) (Some (-16)) false);
    (18, View (Some 24) (Some 16) (Some (-16)) false); (20, View (Some 16) (Some 16) (Some (-16)) false); (21, View (Some 8) None (Some (-16)) true) ]).
Definition cd_fs : list routine := [cd_saver; cd_roomy].

Definition cd_saver_insns : list insn :=
  [ IRememberState; IAdvanceLoc 3; IDefCfaOffset 16; IOffset 6 2; IAdvanceLoc 1; IDefCfaOffset 24; IOffset 3 3; IAdvanceLoc 4; IDefCfaOffset 48;
    IAdvanceLoc 15; IDefCfaOffset 24; IAdvanceLoc 1; IDefCfaOffset 16; IAdvanceLoc 1; IDefCfaOffset 8; IAdvanceLoc 7; IRestoreState ].
Definition cd_roomy_insns : list insn :=
  [ IAdvanceLoc 1; IDefCfaOffset 16; IOffset 6 2; IAdvanceLoc 3; IDefCfaRegister 6; IAdvanceLoc 2; IOffset 12 3; IAdvanceLoc 15; IDefCfa 7 8 ].
Definition table_of (start len : Z) (l : list insn) : list dw_row :=
  match cfi_table usual_cie (DwFde start len (Insns l None) (rows_ok [])) with Some rows => rows | None => [] end.
Definition cd_saver_rows : list dw_row := Eval vm_compute in table_of 0x1000 0x25 cd_saver_insns.
Definition cd_roomy_rows : list dw_row := Eval vm_compute in table_of 0x1040 22 cd_roomy_insns.
Definition cd_saver_fde : dw_fde := DwFde 0x1000 0x25 (Insns cd_saver_insns None) (rows_ok cd_saver_rows).
Definition cd_roomy_fde : dw_fde := DwFde 0x1040 22 (Insns cd_roomy_insns None) (rows_ok cd_roomy_rows).
Definition cd_eh : eh_frame := of_functions [cd_saver_fde; cd_roomy_fde].

Lemma cd_checked f : In f cd_fs -> checked f.
Proof. intros [<-|[<-|[]]]; apply checkedb_ok; vm_compute; reflexivity. Qed.
Lemma cd_apart : routines_apart cd_fs.
Proof. intros f g a Hf Hg. destruct Hf as [<-|[<-|[]]], Hg as [<-|[<-|[]]]; cbn; intros; first [reflexivity|exfalso; lia]. Qed.
Lemma cd_last d : last_at cd_eh d <-> d = cd_saver_fde \/ d = cd_roomy_fde.
Proof.
  transitivity (In d (functions (entries_of cd_eh))).
  - apply distinct_last. repeat constructor; cbn; intuition discriminate.
  - change (functions (entries_of cd_eh)) with [cd_saver_fde; cd_roomy_fde]. cbn. intuition congruence.
Qed.
Lemma same_rows_refl l : Forall2 same_row l l.
Proof. induction l; constructor; [repeat split|assumption]. Qed.
Lemma cd_followed : programs_followed cd_eh (fun _ => usual_cie).
Proof.
  intros d Hd. apply cd_last in Hd. destruct Hd as [-> | ->].
  - exists cd_saver_rows, cd_saver_rows. split; [reflexivity|]. split; [vm_compute; reflexivity|apply same_rows_refl].
  - exists cd_roomy_rows, cd_roomy_rows. split; [reflexivity|]. split; [vm_compute; reflexivity|apply same_rows_refl].
Qed.
Lemma cd_described : code_described cd_eh (fun _ => usual_cie) cd_fs.
Proof.
  intros f i b Hf Hi Hb. destruct Hf as [<-|[<-|[]]].
  - destruct (describedb_ok usual_cie cd_saver_fde cd_saver ltac:(vm_compute; reflexivity) i b Hi Hb) as (st & S1 & S2 & S3).
    exists cd_saver_fde, st. split; [apply cd_last; auto|]. auto.
  - destruct (describedb_ok usual_cie cd_roomy_fde cd_roomy ltac:(vm_compute; reflexivity) i b Hi Hb) as (st & S1 & S2 & S3).
    exists cd_roomy_fde, st. split; [apply cd_last; auto|]. auto.
Qed.
Lemma cd_typed : eh_typed cd_eh.
Proof. unfold cd_eh, cd_saver_fde, cd_roomy_fde, cd_saver_rows, cd_roomy_rows. typed_eh. Qed.
