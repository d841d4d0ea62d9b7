(** The check of ArmCodeSpec.v as a program, and functions for C161. *)
From Verif Require Export ArmCodeProps.
From Verif Require Import BaseFacts CfiFacts RelateFacts WalkFacts RunFacts CfiWitness V1Witness ProgramWitness RunWitness ConvRepairedWitness ArmRunWitness.
Open Scope Z_scope.
Open Scope list_scope.

(** ** Computing the check *)

(** Of [y] nothing that is not known of [x]. *)
Definition weaker {A} (same : A -> A -> bool) (x y : option A) : bool :=
  match y, x with None, _ => true | Some b, Some a => same a b | Some _, None => false end.
Definition same_pair (p q : Z * bool) : bool := (fst p =? fst q) && Bool.eqb (snd p) (snd q).
Definition aclaims_lessb (v v' : aview) : bool :=
  weaker Z.eqb (av_sp v) (av_sp v') && weaker Z.eqb (av_fp v) (av_fp v') && weaker Z.eqb (av_saved v) (av_saved v') &&
  implb (av_same v') (av_same v) && weaker same_pair (av_back v) (av_back v') && weaker Bool.eqb (av_link v) (av_link v').
Definition is_none {A} (x : option A) : bool := match x with None => true | Some _ => false end.
Definition aitem_checkedb (f : aroutine) (i : aitem) : bool :=
  match after_aact (ai_act i) (ar_view f (ai_at i)) with
  | Some v => forallb (fun o => aclaims_lessb v (ar_view f o) && existsb (fun j => ai_at j =? o) (ar_items f)) (anext_of i)
  | None => false
  end &&
  match ai_act i with
  | ACall => aclaims_lessb (ar_view f (ai_at i + 4)) (ar_view f (ai_at i)) && aclaims_lessb (ar_view f (ai_at i)) (ar_view f (ai_at i + 4)) &&
      is_none (av_link (ar_view f (ai_at i)))
  | ARet | AJump =>
      weaker Z.eqb (av_sp (ar_view f (ai_at i))) (Some 0) && av_same (ar_view f (ai_at i)) &&
      weaker Bool.eqb (av_link (ar_view f (ai_at i))) (Some false)
  | _ => true
  end.
Definition acheckedb (f : aroutine) : bool :=
  forallb (fun i => (0 <=? ai_at i) && (ai_at i + 4 <=? ar_len f) && aitem_checkedb f i) (ar_items f) &&
  existsb (fun i => ai_at i =? 0) (ar_items f) && aclaims_lessb entry_view (ar_view f 0).

Lemma weaker_le {A} (same : A -> A -> bool) x y : (forall a b, same a b = true -> a = b) -> weaker same x y = true -> forall a, y = Some a -> x = Some a.
Proof. intros S H a ->. destruct x as [b|]; [|discriminate]. cbn in H. rewrite (S _ _ H). reflexivity. Qed.
Lemma eqb_z a b : (a =? b) = true -> a = b.
Proof. apply Z.eqb_eq. Qed.
Lemma same_pair_eq p q : same_pair p q = true -> p = q.
Proof. destruct p, q. unfold same_pair. cbn. intros H. apply andb_prop in H. destruct H as [H1 H2]. apply Z.eqb_eq in H1. apply Bool.eqb_prop in H2. congruence. Qed.
Lemma aclaims_lessb_ok v v' : aclaims_lessb v v' = true -> aclaims_less v v'.
Proof.
  unfold aclaims_lessb. rewrite !andb_true_iff. intros (((((H1 & H2) & H3) & H4) & H5) & H6).
  split; [apply (weaker_le Z.eqb); [exact eqb_z|exact H1]|]. split; [apply (weaker_le Z.eqb); [exact eqb_z|exact H2]|].
  split; [apply (weaker_le Z.eqb); [exact eqb_z|exact H3]|]. split; [intros E; rewrite E in H4; exact H4|].
  split; [apply (weaker_le same_pair); [exact same_pair_eq|exact H5]|apply (weaker_le Bool.eqb); [exact Bool.eqb_prop|exact H6]].
Qed.
Lemma claims_both v v' : aclaims_less v v' -> aclaims_less v' v -> v = v'.
Proof.
  intros (L1 & L2 & L3 & L4 & L5 & L6) (M1 & M2 & M3 & M4 & M5 & M6). destruct v as [a b s t k l], v' as [a' b' s' t' k' l']. cbn in *.
  assert (O : forall A (x y : option A), (forall c, y = Some c -> x = Some c) -> (forall c, x = Some c -> y = Some c) -> x = y).
  { intros A [c|] y H1 H2; [symmetry; apply H2; reflexivity|]. destruct y as [c|]; [apply H1; reflexivity|reflexivity]. }
  rewrite (O _ a a' L1 M1), (O _ b b' L2 M2), (O _ s s' L3 M3), (O _ k k' L5 M5), (O _ l l' L6 M6).
  f_equal. destruct t, t'; try reflexivity; [symmetry; apply M4; reflexivity|apply L4; reflexivity].
Qed.
Lemma aitem_checkedb_ok f i : aitem_checkedb f i = true -> aitem_checked f i.
Proof.
  unfold aitem_checkedb, aitem_checked. rewrite andb_true_iff. intros [H1 H2]. split.
  - destruct (after_aact (ai_act i) (ar_view f (ai_at i))) as [v|]; [|discriminate]. exists v. split; [reflexivity|]. intros o Ho.
    rewrite forallb_forall in H1. specialize (H1 o Ho). apply andb_prop in H1. destruct H1 as [H1 H3]. split; [apply aclaims_lessb_ok, H1|].
    apply existsb_exists in H3. destruct H3 as (j & J1 & J2). apply Z.eqb_eq in J2. eauto.
  - assert (U : weaker Z.eqb (av_sp (ar_view f (ai_at i))) (Some 0) && av_same (ar_view f (ai_at i)) &&
      weaker Bool.eqb (av_link (ar_view f (ai_at i))) (Some false) = true -> aunwound (ar_view f (ai_at i))).
    { rewrite !andb_true_iff. intros ((U1 & U2) & U3). split; [apply (weaker_le Z.eqb _ _ eqb_z U1); reflexivity|]. split; [exact U2|].
      apply (weaker_le Bool.eqb _ _ Bool.eqb_prop U3). reflexivity. }
    destruct (ai_act i); try exact I; try (apply U, H2).
    rewrite !andb_true_iff in H2. destruct H2 as ((H2 & H3) & H4). split; [apply claims_both; apply aclaims_lessb_ok; assumption|].
    destruct (av_link (ar_view f (ai_at i))); [discriminate|reflexivity].
Qed.
Theorem acheckedb_ok f : acheckedb f = true -> achecked f.
Proof.
  unfold acheckedb. rewrite !andb_true_iff. intros ((H1 & H2) & H3). rewrite forallb_forall in H1. split; [|split].
  - intros i Hi. specialize (H1 i Hi). rewrite !andb_true_iff in H1. destruct H1 as ((A & B) & C). apply Z.leb_le in A, B.
    split; [exact A|]. split; [exact B|apply aitem_checkedb_ok, C].
  - apply existsb_exists in H2. destruct H2 as (i & I1 & I2). apply Z.eqb_eq in I2. eauto.
  - apply aclaims_lessb_ok, H3.
Qed.

(** A rule follows from what is known, as a program. *)
Definition signs_row (r : dw_row) : bool := match dr_register r 34 with RConstant n => n =? 1 | _ => false end.
Definition arule_rightb (v : aview) (r : dw_row) : bool :=
  match dr_cfa r with
  | CfaReg reg cfa =>
      in_i32b cfa && ((reg =? 31) && weaker Z.eqb (av_sp v) (Some cfa) || (reg =? 29) && weaker Z.eqb (av_fp v) (Some cfa)) &&
      match dr_register r 31 with RUndefined => true | _ => false end &&
      match dr_register r 29, dr_register r 30 with
      | ROffset k, ROffset o => in_i32b k && weaker Z.eqb (av_saved v) (Some k) && in_i32b o && weaker same_pair (av_back v) (Some (o, signs_row r))
      | RUndefined, ROffset o => av_same v && in_i32b o && weaker same_pair (av_back v) (Some (o, signs_row r))
      | RUndefined, RUndefined => av_same v && weaker Bool.eqb (av_link v) (Some (signs_row r))
      | _, _ => false
      end
  | CfaExpression _ => false
  end.
Lemma signs_row_ok r : signs_row r = true <-> signed_row Aarch64 r.
Proof.
  unfold signs_row, signed_row, ra_signed. split.
  - destruct (dr_register r 34); try discriminate. intros H. apply Z.eqb_eq in H. subst. auto.
  - intros [_ ->]. reflexivity.
Qed.
Lemma arule_rightb_ok v r : arule_rightb v r = true -> arule_right v r.
Proof.
  unfold arule_rightb, arule_right, expressible. cbn [reg_base reg_ra reg_fp reg_sp]. destruct (dr_cfa r) as [reg cfa|]; [|discriminate].
  rewrite !andb_true_iff, orb_true_iff, !andb_true_iff. intros (((H1 & H2) & H3) & H4). apply in_i32b_spec in H1.
  destruct (dr_register r 31) eqn:E31; try discriminate. pose proof (signs_row_ok r) as Sg.
  assert (HB : exists base, CfaReg reg cfa = CfaReg (reg_base Aarch64 base) cfa /\ match base with Sp => av_sp v = Some cfa | Fp => av_fp v = Some cfa end).
  { destruct H2 as [[A B]|[A B]]; apply Z.eqb_eq in A; apply (weaker_le Z.eqb _ _ eqb_z) with (a := cfa) in B; try reflexivity; subst reg; [exists Sp|exists Fp]; auto. }
  destruct HB as (base & B1 & B2). rewrite B1.
  destruct (dr_register r 29) as [| |k| | | | | |] eqn:E29; try discriminate; destruct (dr_register r 30) as [| |o| | | | | |] eqn:E30; try discriminate;
    rewrite !andb_true_iff in H4.
  - destruct H4 as [G1 G2]. apply (weaker_le Bool.eqb _ _ Bool.eqb_prop) with (a := signs_row r) in G2; [|reflexivity].
    exists base, (signs_row r), cfa, None, None. split; [|auto]. auto 12.
  - destruct H4 as ((G1 & G2) & G3). apply in_i32b_spec in G2. apply (weaker_le same_pair _ _ same_pair_eq) with (a := (o, signs_row r)) in G3; [|reflexivity].
    exists base, (signs_row r), cfa, (Some o), None. split; [|auto]. auto 12.
  - destruct H4 as (((G1 & G2) & G3) & G4). apply in_i32b_spec in G1, G3. apply (weaker_le same_pair _ _ same_pair_eq) with (a := (o, signs_row r)) in G4; [|reflexivity].
    apply (weaker_le Z.eqb _ _ eqb_z) with (a := k) in G2; [|reflexivity]. exists base, (signs_row r), cfa, (Some o), (Some k). split; [|auto]. auto 12.
Qed.
Definition adescribedb (c : cie_info) (d : dw_fde) (f : aroutine) : bool :=
  forallb (fun i => forallb (fun b =>
    (df_start d <=? ar_start f + b) && (ar_start f + b <? df_start d + df_len d) &&
    match cfi_at c d (ar_start f + b) with Some st => arule_rightb (ar_view f (ai_at i)) (as_row st) | None => false end)
    [ai_at i; ai_at i + 1; ai_at i + 2; ai_at i + 3]) (ar_items f).
Theorem adescribedb_ok c d f : adescribedb c d f = true -> forall i b, In i (ar_items f) -> ai_at i <= b < ai_at i + 4 ->
  exists st, in_range (df_start d) (df_len d) (ar_start f + b) /\ cfi_at c d (ar_start f + b) = Some st /\ arule_right (ar_view f (ai_at i)) (as_row st).
Proof.
  unfold adescribedb. rewrite forallb_forall. intros H i b Hi Hb. specialize (H i Hi). rewrite forallb_forall in H.
  assert (Hin : In b [ai_at i; ai_at i + 1; ai_at i + 2; ai_at i + 3]) by (cbn; lia). specialize (H b Hin).
  rewrite !andb_true_iff in H. destruct H as ((H1 & H2) & H3). apply Z.leb_le in H1. apply Z.ltb_lt in H2.
  destruct (cfi_at c d (ar_start f + b)) as [st|]; [|discriminate]. exists st. split; [unfold in_range; lia|]. split; [reflexivity|apply arule_rightb_ok, H3].
Qed.

(** ** Two functions *)

Definition aviews (l : list (Z * aview)) (o : Z) : aview :=
  match find (fun p => fst p =? o) l with Some (_, v) => v | None => AView None None None false None None end.

(** The first jumps to the second if ready at once; else it signs and saves its return address,
    keeps a frame pointer, reserves room of unknown size and calls in a loop. *)
Definition ac_room : aview := AView None (Some 32) (Some (-32)) false (Some (-24, true)) None.
Definition ac_signer : aroutine := ARoutine 0x1000 0x3c
  [ AItem 0 (AElse false false false [4; 0x38]); AItem 4 (AOps [OSign]); AItem 8 (AOps [OMove (-32); OStoreFp 0; OStoreLr 8]);
    AItem 0xc (AOps [OFrame 0]); AItem 0x10 (AElse true false true [0x14]); AItem 0x14 ACall; AItem 0x18 (AElse false false true [0x14; 0x1c]);
    AItem 0x1c (AOps [OUnframe 0]); AItem 0x20 (AOps [OLoadFp 0; OLoadLr 8; OMove 32]); AItem 0x24 (AOps [OAuth]); AItem 0x28 ARet;
    AItem 0x38 AJump ]
  (aviews [ (0, entry_view); (4, entry_view); (8, AView (Some 0) None None true None (Some true));
    (0xc, AView (Some 32) None (Some (-32)) true (Some (-24, true)) (Some true)); (0x10, AView (Some 32) (Some 32) (Some (-32)) false (Some (-24, true)) None);
    (0x14, ac_room); (0x18, ac_room); (0x1c, ac_room); (0x20, AView (Some 32) (Some 32) (Some (-32)) false (Some (-24, true)) None);
    (0x24, AView (Some 0) None None true None (Some true)); (0x28, entry_view); (0x38, entry_view) ]).
(** The second saves its return address first and [x29] later, and uses [x29] for something else. *)
Definition ac_busy : aview := AView (Some 48) None (Some (-8)) false (Some (-48, false)) None.
Definition ac_plain : aroutine := ARoutine 0x1100 0x20
  [ AItem 0 (AOps [OMove (-48); OStoreLr 0]); AItem 4 (AOps [OStoreFp 40]); AItem 8 (AElse false true true [0xc]); AItem 0xc ACall;
    AItem 0x10 (AElse false true true [0xc; 0x14]); AItem 0x14 (AOps [OLoadFp 40]); AItem 0x18 (AOps [OLoadLr 0; OMove 48]); AItem 0x1c ARet ]
  (aviews [ (0, entry_view); (4, AView (Some 48) None None true (Some (-48, false)) None); (8, AView (Some 48) None (Some (-8)) true (Some (-48, false)) None);
    (0xc, ac_busy); (0x10, ac_busy); (0x14, ac_busy); (0x18, AView (Some 48) None (Some (-8)) true (Some (-48, false)) None); (0x1c, entry_view) ]).
Definition ac_fs : list aroutine := [ac_signer; ac_plain].

Definition ac_signer_insns : list insn :=
  [ IRememberState; IAdvanceLoc 2; INegateRaState; IAdvanceLoc 1; IDefCfaOffset 32; IOffset 29 4; IOffset 30 3; IAdvanceLoc 1; IDefCfaRegister 29;
    IAdvanceLoc 4; IDefCfa 31 32; IAdvanceLoc 1; IRestore 30; IRestore 29; IDefCfaOffset 0; IAdvanceLoc 1; INegateRaState; IAdvanceLoc 4; IRestoreState ].
Definition ac_plain_insns : list insn :=
  [ IAdvanceLoc 1; IDefCfaOffset 48; IOffset 30 6; IAdvanceLoc 1; IOffset 29 1; IAdvanceLoc 4; IRestore 29; IAdvanceLoc 1; IRestore 30; IDefCfaOffset 0 ].
Definition atable_of (start len : Z) (l : list insn) : list dw_row :=
  match cfi_table ausual_cie (DwFde start len (Insns l None) (rows_ok [])) with Some rows => rows | None => [] end.
Definition ac_signer_rows : list dw_row := Eval vm_compute in atable_of 0x1000 0x3c ac_signer_insns.
Definition ac_plain_rows : list dw_row := Eval vm_compute in atable_of 0x1100 0x20 ac_plain_insns.
Definition ac_signer_fde : dw_fde := DwFde 0x1000 0x3c (Insns ac_signer_insns None) (rows_ok ac_signer_rows).
Definition ac_plain_fde : dw_fde := DwFde 0x1100 0x20 (Insns ac_plain_insns None) (rows_ok ac_plain_rows).
Definition ac_eh : eh_frame := of_functions [ac_signer_fde; ac_plain_fde].
Definition ac_plain_eh : eh_frame := of_functions [ac_plain_fde].

Lemma ac_checked f : In f ac_fs -> achecked f.
Proof. intros [<-|[<-|[]]]; apply acheckedb_ok; vm_compute; reflexivity. Qed.
Lemma ac_apart : aroutines_apart ac_fs.
Proof. intros f g a Hf Hg. destruct Hf as [<-|[<-|[]]], Hg as [<-|[<-|[]]]; cbn; intros; first [reflexivity|exfalso; lia]. Qed.
Lemma ac_last d : last_at ac_eh d <-> d = ac_signer_fde \/ d = ac_plain_fde.
Proof.
  transitivity (In d (functions (entries_of ac_eh))).
  - apply distinct_last. repeat constructor; cbn; intuition discriminate.
  - change (functions (entries_of ac_eh)) with [ac_signer_fde; ac_plain_fde]. cbn. intuition congruence.
Qed.
Lemma ac_plain_last d : last_at ac_plain_eh d <-> d = ac_plain_fde.
Proof.
  transitivity (In d (functions (entries_of ac_plain_eh))).
  - apply distinct_last. repeat constructor; cbn; intuition discriminate.
  - change (functions (entries_of ac_plain_eh)) with [ac_plain_fde]. cbn. intuition congruence.
Qed.
Lemma asame_rows_refl l : Forall2 same_row l l.
Proof. induction l; constructor; [repeat split|assumption]. Qed.
Lemma ac_signer_followed : follows_dwarf ausual_cie ac_signer_fde.
Proof. exists ac_signer_rows, ac_signer_rows. split; [reflexivity|]. split; [vm_compute; reflexivity|apply asame_rows_refl]. Qed.
Lemma ac_plain_followed : follows_dwarf ausual_cie ac_plain_fde.
Proof. exists ac_plain_rows, ac_plain_rows. split; [reflexivity|]. split; [vm_compute; reflexivity|apply asame_rows_refl]. Qed.
Lemma ac_described : acode_described ac_eh (fun _ => ausual_cie) ac_fs.
Proof.
  intros f i b Hf Hi Hb. destruct Hf as [<-|[<-|[]]].
  - destruct (adescribedb_ok ausual_cie ac_signer_fde ac_signer ltac:(vm_compute; reflexivity) i b Hi Hb) as (st & S1 & S2 & S3).
    exists ac_signer_fde, st. split; [apply ac_last; auto|]. auto.
  - destruct (adescribedb_ok ausual_cie ac_plain_fde ac_plain ltac:(vm_compute; reflexivity) i b Hi Hb) as (st & S1 & S2 & S3).
    exists ac_plain_fde, st. split; [apply ac_last; auto|]. auto.
Qed.
Lemma ac_plain_described : acode_described ac_plain_eh (fun _ => ausual_cie) [ac_plain].
Proof.
  intros f i b Hf Hi Hb. destruct Hf as [<-|[]].
  destruct (adescribedb_ok ausual_cie ac_plain_fde ac_plain ltac:(vm_compute; reflexivity) i b Hi Hb) as (st & S1 & S2 & S3).
  exists ac_plain_fde, st. split; [apply ac_plain_last; auto|]. auto.
Qed.
Lemma ac_typed : eh_typed ac_eh.
Proof. unfold ac_eh, ac_signer_fde, ac_plain_fde, ac_signer_rows, ac_plain_rows. typed_eh. Qed.
Lemma ac_plain_typed : eh_typed ac_plain_eh.
Proof. unfold ac_plain_eh, ac_plain_fde, ac_plain_rows. typed_eh. Qed.
Lemma ac_plain_unsigned : saved_unsigned [ac_plain].
Proof.
  intros f i k Hf Hi. destruct Hf as [<-|[]]. cbn [ac_plain ar_items In] in Hi.
  repeat (destruct Hi as [<-|Hi]; [vm_compute; discriminate|]). destruct Hi.
Qed.
