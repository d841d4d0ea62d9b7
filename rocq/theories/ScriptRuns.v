(** Proofs about runs of [convert] side by side. *)
From Coq Require Import String Ascii ZArith List Permutation Lia Bool.
From Verif Require Export ScriptFacts.
Import ListNotations.
Open Scope list_scope.

(** ** Names *)

Lemma name_same b ext ext' : In ext extensions -> In ext' extensions -> name b ext = name b ext' -> ext = ext'.
Proof.
  intros H H' E. unfold name in E. apply app_inv_head in E. cbn in H, H'.
  repeat (destruct H as [<-|H]); try destruct H; repeat (destruct H' as [<-|H']); try destruct H'; solve [reflexivity|discriminate E].
Qed.

Lemma rev_name b ext : rev (name b ext) = rev (chars ext) ++ rev b.
Proof. apply rev_app_distr. Qed.

Lemma name_base b b' ext ext' : In ext extensions -> In ext' extensions -> name b ext = name b' ext' -> b = b' /\ ext = ext'.
Proof.
  intros H H' E. apply (f_equal (@rev _)) in E. rewrite !rev_name in E. cbn in H, H'.
  repeat (destruct H as [<-|H]); try destruct H; repeat (destruct H' as [<-|H']); try destruct H'; cbn in E; try discriminate E.
  all: injection E as E; apply (f_equal (@rev _)) in E; rewrite !rev_involutive in E; auto.
Qed.

Lemma files_disjoint p q n : In n (files_of p) -> In n (files_of q) -> basename p = basename q.
Proof.
  unfold files_of. rewrite !in_map_iff. intros (e & <- & H) (e' & E & H'). symmetry. exact (proj1 (name_base _ _ _ _ H' H E)).
Qed.

Lemma put_same n v d : put n v d n = Some v.
Proof. unfold put. destruct (text_eqb_spec n n); [reflexivity|contradiction]. Qed.
Lemma put_other n m v d : m <> n -> put n v d m = d m.
Proof. unfold put. destruct (text_eqb_spec m n); [contradiction|reflexivity]. Qed.

(** ** One step *)

Definition agree_on (p : text) (d d' : dir) : Prop := forall n, In n (files_of p) -> d n = d' n.

Lemma put_agree p n v d d' : agree_on p d d' -> agree_on p (put n v d) (put n v d').
Proof. intros H m Hm. unfold put. destruct (text_eqb m n); [reflexivity|apply H, Hm]. Qed.
Lemma put_outside p n v (d : dir) m : In n (files_of p) -> ~ In m (files_of p) -> put n v d m = d m.
Proof. intros H H'. apply put_other. intros ->. contradiction. Qed.

Lemma own p ext : In ext extensions -> In (name (basename p) ext) (files_of p).
Proof. intros H. apply in_map, H. Qed.

Ltac owned := apply own; cbn; auto 10.

Lemma step_agree T p a d e a' d' : convert_step T p a d = Some (a', d') -> agree_on p d e ->
  exists e', convert_step T p a e = Some (a', e') /\ agree_on p d' e'.
Proof.
  intros H HA. destruct a; cbn [convert_step] in *.
  - injection H as <- <-. eexists. split; [reflexivity|apply put_agree, HA].
  - destruct (t_convert T p) as [[st log] obj]. injection H as <- <-. eexists. split; [reflexivity|]. apply put_agree. destruct obj; [apply put_agree|]; exact HA.
  - injection H as <- <-. eexists. split; [reflexivity|apply put_agree, HA].
  - destruct (t_dwarfdump T p) as [st out]. injection H as <- <-. eexists. split; [reflexivity|apply put_agree, HA].
  - injection H as <- <-. eexists. split; [reflexivity|apply put_agree, HA].
  - rewrite <- (HA (name (basename p) ".o")) by owned. destruct (t_sframedump T (d (name (basename p) ".o"))) as [st out]. injection H as <- <-.
    eexists. split; [reflexivity|apply put_agree, HA].
  - injection H as <- <-. eexists. split; [reflexivity|apply put_agree, HA].
  - destruct (t_objdump T p) as [st out]. injection H as <- <-. eexists. split; [reflexivity|apply put_agree, HA].
  - discriminate.
Qed.

Lemma step_outside T p a d a' d' n : convert_step T p a d = Some (a', d') -> ~ In n (files_of p) -> d' n = d n.
Proof.
  intros H Hn. destruct a; cbn [convert_step] in *.
  - injection H as <- <-. apply (put_outside p); [owned|exact Hn].
  - destruct (t_convert T p) as [[st log] obj]. injection H as <- <-. rewrite (put_outside p); [|owned|exact Hn].
    destruct obj; [apply (put_outside p); [owned|exact Hn]|reflexivity].
  - injection H as <- <-. apply (put_outside p); [owned|exact Hn].
  - destruct (t_dwarfdump T p) as [st out]. injection H as <- <-. apply (put_outside p); [owned|exact Hn].
  - injection H as <- <-. apply (put_outside p); [owned|exact Hn].
  - destruct (t_sframedump T (d (name (basename p) ".o"))) as [st out]. injection H as <- <-. apply (put_outside p); [owned|exact Hn].
  - injection H as <- <-. apply (put_outside p); [owned|exact Hn].
  - destruct (t_objdump T p) as [st out]. injection H as <- <-. apply (put_outside p); [owned|exact Hn].
  - discriminate.
Qed.

(** ** A run by itself *)

Fixpoint go (T : tools) (p : text) (k : nat) (a : place) (d : dir) : place * dir :=
  match k with
  | O => (a, d)
  | S k => match convert_step T p a d with Some (a', d') => go T p k a' d' | None => (a, d) end
  end.

Lemma go_snoc T p k : forall a d a1 d1 a2 d2, go T p k a d = (a1, d1) -> convert_step T p a1 d1 = Some (a2, d2) -> go T p (S k) a d = (a2, d2).
Proof.
  induction k as [|k IH]; intros a d a1 d1 a2 d2 H HS.
  - cbn in H. injection H as -> ->. cbn. rewrite HS. reflexivity.
  - cbn [go] in H |- *. destruct (convert_step T p a d) as [[a' d']|] eqn:E.
    + cbn [go] in IH. eapply IH; eassumption.
    + injection H as -> ->. congruence.
Qed.

Lemma go_ended T p k m : forall a d st d', go T p k a d = (AtEnd st, d') -> go T p (k + m) a d = (AtEnd st, d').
Proof.
  induction k as [|k IH]; intros a d st d' H.
  - cbn in H. injection H as -> ->. destruct m; reflexivity.
  - cbn [go plus] in *. destruct (convert_step T p a d) as [[a' e]|] eqn:E; [apply IH, H|exact H].
Qed.

Ltac look :=
  repeat match goal with
  | |- context [put ?n _ _ ?n] => rewrite put_same
  | |- context [put (name ?b ?e') _ _ (name ?b ?e)] =>
      rewrite (put_other (name b e') (name b e)) by (intros X; apply name_same in X; [discriminate|cbn; auto 10|cbn; auto 10])
  end.

Lemma go_left T p d : exists st d', go T p 8 AtLog d = (AtEnd st, d') /\ left_by T p d d' st.
Proof.
  unfold left_by. cbn [go convert_step]. destruct (t_convert T p) as [[c log] obj] eqn:EC. unfold unless at 1. destruct (Z.eqb c 0) eqn:E1.
  - cbn [convert_step]. destruct (t_dwarfdump T p) as [w dw] eqn:ED. cbn [fst snd]. unfold unless at 1. destruct (Z.eqb w 0) eqn:E2.
    + cbn [convert_step].
      match goal with |- context [t_sframedump T (?f (name (basename p) ".o"))] =>
        assert (EO : f (name (basename p) ".o") = match obj with Some o => Some o | None => d (name (basename p) ".o") end)
          by (destruct obj; look; reflexivity) end.
      rewrite EO. destruct (t_sframedump T _) as [z zs] eqn:ES. cbn [fst snd]. unfold unless at 1. destruct (Z.eqb z 0) eqn:E3.
      * cbn [convert_step]. destruct (t_objdump T p) as [j js] eqn:EJ. eexists _, _. split; [reflexivity|]. cbn [fst snd].
        destruct obj; look; auto 10.
      * cbn [convert_step]. unfold unless. rewrite E3. eexists _, _. split; [reflexivity|]. destruct obj; look; auto 10.
    + cbn [convert_step]. unfold unless. rewrite E2. eexists _, _. split; [reflexivity|]. destruct obj; look; auto 10.
  - cbn [convert_step]. unfold unless. rewrite E1. eexists _, _. split; [reflexivity|]. destruct obj; look; auto 10.
Qed.

Lemma go_any_left T p k d st d' : go T p k AtLog d = (AtEnd st, d') -> left_by T p d d' st.
Proof.
  intros H. destruct (go_left T p d) as (st' & e & H' & HL).
  apply (go_ended _ _ _ 8) in H. apply (go_ended _ _ _ k) in H'. rewrite Nat.add_comm in H'. rewrite H in H'. injection H' as <- <-. exact HL.
Qed.

(** ** Runs side by side *)

(** Each job is where it would be by itself, and sees what it would see. *)
Definition on_course (T : tools) (d0 d : dir) (j : text * place) : Prop :=
  exists k e, go T (fst j) k AtLog d0 = (snd j, e) /\ agree_on (fst j) d e.

Definition bases (js : jobs) : list text := map (fun j => basename (fst j)) js.

Lemma runs_names T js d js' d' : runs T js d js' d' -> map fst js' = map fst js.
Proof.
  induction 1 as [|js1 p a js2 d a' d' js' d'' _ _ IH]; [reflexivity|]. rewrite IH, !map_app. reflexivity.
Qed.

Theorem runs_apart T d0 js d js' d' : NoDup (bases js) -> runs T js d js' d' ->
  Forall (on_course T d0 d) js -> (forall n, (forall j, In j js -> ~ In n (files_of (fst j))) -> d n = d0 n) ->
  Forall (on_course T d0 d') js' /\ forall n, (forall j, In j js' -> ~ In n (files_of (fst j))) -> d' n = d0 n.
Proof.
  intros HN HR. revert HN. induction HR as [js d|js1 p a js2 d a' d' js' d'' HS HR IH]; intros HN HC HO; [auto|].
  assert (HB : bases (js1 ++ (p, a') :: js2) = bases (js1 ++ (p, a) :: js2)) by (unfold bases; rewrite !map_app; reflexivity).
  apply IH; [rewrite HB; exact HN| |].
  - assert (HD : forall j, In j js1 \/ In j js2 -> basename (fst j) <> basename p).
    { intros j Hj E. unfold bases in HN. rewrite map_app in HN. cbn [map fst] in HN. apply NoDup_remove_2 in HN. apply HN.
      rewrite in_app_iff, !in_map_iff. destruct Hj; [left|right]; exists j; auto. }
    assert (HK : forall j, In j js1 \/ In j js2 -> on_course T d0 d j -> on_course T d0 d' j).
    { intros j Hj (k & e & K1 & K2). exists k, e. split; [exact K1|]. intros n Hn. rewrite <- (K2 n Hn).
      eapply step_outside; [exact HS|]. intros X. apply (HD j Hj). eapply files_disjoint; eassumption. }
    apply Forall_app in HC. destruct HC as [C1 C2]. inversion C2 as [|? ? C3 C4]; subst. apply Forall_app. split; [|constructor].
    + rewrite Forall_forall in *. intros j Hj. apply HK; auto.
    + destruct C3 as (k & e & K1 & K2). cbn [fst snd] in *. destruct (step_agree _ _ _ _ e _ _ HS K2) as (e' & S1 & S2).
      exists (S k), e'. split; [eapply go_snoc; eassumption|exact S2].
    + rewrite Forall_forall in *. intros j Hj. apply HK; auto.
  - intros n Hn. rewrite <- HO.
    + eapply step_outside; [exact HS|]. apply (Hn (p, a')). apply in_or_app. right; left; reflexivity.
    + intros j Hj. apply in_app_or in Hj. destruct Hj as [Hj|[<-|Hj]].
      * apply Hn. apply in_or_app. auto.
      * apply (Hn (p, a')). apply in_or_app. right; left; reflexivity.
      * apply Hn. apply in_or_app. right; right; exact Hj.
Qed.

Lemma left_agree T p d e e' st : agree_on p e e' -> left_by T p d e' st -> left_by T p d e st.
Proof.
  intros H HL. unfold left_by in *. destruct (t_convert T p) as [[c log] obj].
  rewrite !H by owned. exact HL.
Qed.

(** Runs with different base names: each leaves what it leaves by itself, and other
    files stay as they are. *)
Theorem side_by_side T ps sts d d' : NoDup (map basename ps) ->
  runs T (map start_of ps) d (map (fun x => (fst x, AtEnd (snd x))) sts) d' ->
  map fst sts = ps /\ (forall p st, In (p, st) sts -> left_by T p d d' st) /\
  forall n, (forall p, In p ps -> ~ In n (files_of p)) -> d' n = d n.
Proof.
  intros HN HR. assert (HP : map fst sts = ps).
  { pose proof (runs_names _ _ _ _ _ HR) as E. rewrite !map_map in E. cbn [fst start_of] in E. rewrite map_id in E. exact E. }
  destruct (runs_apart T d (map start_of ps) d _ d' ltac:(unfold bases; rewrite map_map; exact HN) HR) as [H1 H2].
  - apply Forall_forall. intros j Hj. apply in_map_iff in Hj. destruct Hj as (p & <- & _). exists O, d. split; [reflexivity|intros n _; reflexivity].
  - reflexivity.
  - split; [exact HP|]. split.
    + intros p st Hin. rewrite Forall_forall in H1. destruct (H1 (p, AtEnd st)) as (k & e & K1 & K2).
      { apply in_map_iff. exists (p, st). auto. }
      cbn [fst snd] in *. eapply left_agree; [exact K2|]. eapply go_any_left, K1.
    + intros n Hn. apply H2. intros j Hj. apply in_map_iff in Hj. destruct Hj as ([p st] & <- & Hin). cbn [fst]. apply Hn.
      rewrite <- HP. apply in_map_iff. exists (p, st). auto.
Qed.

(** Any schedule can be brought to its end. *)
Definition rank (a : place) : nat :=
  match a with AtLog => 8 | AtConvert => 7 | AtDwarf => 6 | AtDwarfdump => 5 | AtSframe => 4 | AtSframedump => 3 | AtAsm => 2 | AtObjdump => 1 | AtEnd _ => 0 end.

Lemma step_rank T p a d a' d' : convert_step T p a d = Some (a', d') -> (rank a' < rank a)%nat.
Proof.
  destruct a; cbn [convert_step rank]; intros H; try discriminate;
    repeat match type of H with
    | Some _ = Some _ => injection H as <- <-
    | (let (_, _) := ?x in _) = _ => destruct x
    end; unfold unless; repeat match goal with |- context [if ?b then _ else _] => destruct b end; cbn; lia.
Qed.

Definition ranks (js : jobs) : nat := fold_right (fun j n => (rank (snd j) + n)%nat) 0%nat js.

Lemma ranks_app js js' : ranks (js ++ js') = (ranks js + ranks js')%nat.
Proof. unfold ranks. induction js as [|j t IH]; cbn; [reflexivity|]. rewrite IH. lia. Qed.

Theorem runs_end T js d : exists js' d', runs T js d js' d' /\ Forall ended js'.
Proof.
  remember (ranks js) as k eqn:E. revert js d E. induction k as [k IH] using lt_wf_ind. intros js d ->.
  assert (HC : Forall ended js \/ exists js1 p a js2, js = js1 ++ (p, a) :: js2 /\ exists x, convert_step T p a d = Some x).
  { clear. induction js as [|[p a] t IH]; [left; constructor|].
    destruct (convert_step T p a d) as [x|] eqn:E.
    - right. exists [], p, a, t. split; [reflexivity|eauto].
    - destruct IH as [IH|(js1 & q & b & js2 & -> & x & Hx)].
      + left. constructor; [|exact IH]. unfold ended. cbn [snd].
        destruct a; cbn [convert_step] in E; repeat match type of E with (let (_, _) := ?x in _) = _ => destruct x end; try discriminate. eauto.
      + right. exists ((p, a) :: js1), q, b, js2. split; [reflexivity|eauto]. }
  destruct HC as [HC|(js1 & p & a & js2 & -> & [a' d1] & Hx)].
  - exists js, d. split; [constructor|exact HC].
  - destruct (IH (ranks (js1 ++ (p, a') :: js2))) with (js := js1 ++ (p, a') :: js2) (d := d1) as (js' & d' & R & HE).
    + rewrite !ranks_app. unfold ranks at 2 4. cbn [fold_right snd]. apply step_rank in Hx. fold (ranks js2). lia.
    + reflexivity.
    + exists js', d'. split; [|exact HE]. eapply runs_step; eassumption.
Qed.
