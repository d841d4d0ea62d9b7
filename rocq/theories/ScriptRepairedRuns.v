(** Proofs about runs of [convert] side by side, whatever the names are made of. *)
From Coq Require Import String Ascii ZArith List Permutation Lia Bool.
From Verif Require Export ScriptRuns ScriptRepairedSpec.
Import ListNotations.
Open Scope list_scope.

Section Names.
Context (base : text -> text).

Lemma files_disjoint_as p q n : In n (files_as base p) -> In n (files_as base q) -> base p = base q.
Proof.
  unfold files_as. rewrite !in_map_iff. intros (e & <- & H) (e' & E & H'). symmetry. exact (proj1 (name_base _ _ _ _ H' H E)).
Qed.

(** ** One step *)

Definition agree_on_as (p : text) (d d' : dir) : Prop := forall n, In n (files_as base p) -> d n = d' n.

Lemma put_agree_as p n v d d' : agree_on_as p d d' -> agree_on_as p (put n v d) (put n v d').
Proof. intros H m Hm. unfold put. destruct (text_eqb m n); [reflexivity|apply H, Hm]. Qed.
Lemma put_outside_as p n v (d : dir) m : In n (files_as base p) -> ~ In m (files_as base p) -> put n v d m = d m.
Proof. intros H H'. apply put_other. intros ->. contradiction. Qed.

Lemma own_as p ext : In ext extensions -> In (name (base p) ext) (files_as base p).
Proof. intros H. apply in_map, H. Qed.

Ltac owned_as := apply own_as; cbn; auto 10.

Lemma step_agree_as T p a d e a' d' : step_as base T p a d = Some (a', d') -> agree_on_as p d e ->
  exists e', step_as base T p a e = Some (a', e') /\ agree_on_as p d' e'.
Proof.
  intros H HA. destruct a; cbn [step_as] in *.
  - injection H as <- <-. eexists. split; [reflexivity|apply put_agree_as, HA].
  - destruct (t_convert T p) as [[st log] obj]. injection H as <- <-. eexists. split; [reflexivity|]. apply put_agree_as. destruct obj; [apply put_agree_as|]; exact HA.
  - injection H as <- <-. eexists. split; [reflexivity|apply put_agree_as, HA].
  - destruct (t_dwarfdump T p) as [st out]. injection H as <- <-. eexists. split; [reflexivity|apply put_agree_as, HA].
  - injection H as <- <-. eexists. split; [reflexivity|apply put_agree_as, HA].
  - rewrite <- (HA (name (base p) ".o")) by owned_as. destruct (t_sframedump T (d (name (base p) ".o"))) as [st out]. injection H as <- <-.
    eexists. split; [reflexivity|apply put_agree_as, HA].
  - injection H as <- <-. eexists. split; [reflexivity|apply put_agree_as, HA].
  - destruct (t_objdump T p) as [st out]. injection H as <- <-. eexists. split; [reflexivity|apply put_agree_as, HA].
  - discriminate.
Qed.

Lemma step_outside_as T p a d a' d' n : step_as base T p a d = Some (a', d') -> ~ In n (files_as base p) -> d' n = d n.
Proof.
  intros H Hn. destruct a; cbn [step_as] in *.
  - injection H as <- <-. apply (put_outside_as p); [owned_as|exact Hn].
  - destruct (t_convert T p) as [[st log] obj]. injection H as <- <-. rewrite (put_outside_as p); [|owned_as|exact Hn].
    destruct obj; [apply (put_outside_as p); [owned_as|exact Hn]|reflexivity].
  - injection H as <- <-. apply (put_outside_as p); [owned_as|exact Hn].
  - destruct (t_dwarfdump T p) as [st out]. injection H as <- <-. apply (put_outside_as p); [owned_as|exact Hn].
  - injection H as <- <-. apply (put_outside_as p); [owned_as|exact Hn].
  - destruct (t_sframedump T (d (name (base p) ".o"))) as [st out]. injection H as <- <-. apply (put_outside_as p); [owned_as|exact Hn].
  - injection H as <- <-. apply (put_outside_as p); [owned_as|exact Hn].
  - destruct (t_objdump T p) as [st out]. injection H as <- <-. apply (put_outside_as p); [owned_as|exact Hn].
  - discriminate.
Qed.

(** ** A run by itself *)

Fixpoint go_as (T : tools) (p : text) (k : nat) (a : place) (d : dir) : place * dir :=
  match k with
  | O => (a, d)
  | S k => match step_as base T p a d with Some (a', d') => go_as T p k a' d' | None => (a, d) end
  end.

Lemma go_snoc_as T p k : forall a d a1 d1 a2 d2, go_as T p k a d = (a1, d1) -> step_as base T p a1 d1 = Some (a2, d2) -> go_as T p (S k) a d = (a2, d2).
Proof.
  induction k as [|k IH]; intros a d a1 d1 a2 d2 H HS.
  - cbn in H. injection H as -> ->. cbn. rewrite HS. reflexivity.
  - cbn [go_as] in H |- *. destruct (step_as base T p a d) as [[a' d']|] eqn:E.
    + cbn [go_as] in IH. eapply IH; eassumption.
    + injection H as -> ->. congruence.
Qed.

Lemma go_ended_as T p k m : forall a d st d', go_as T p k a d = (AtEnd st, d') -> go_as T p (k + m) a d = (AtEnd st, d').
Proof.
  induction k as [|k IH]; intros a d st d' H.
  - cbn in H. injection H as -> ->. destruct m; reflexivity.
  - cbn [go_as plus] in *. destruct (step_as base T p a d) as [[a' e]|] eqn:E; [apply IH, H|exact H].
Qed.

Ltac look_as :=
  repeat match goal with
  | |- context [put ?n _ _ ?n] => rewrite put_same
  | |- context [put (name ?b ?e') _ _ (name ?b ?e)] =>
      rewrite (put_other (name b e') (name b e)) by (intros X; apply name_same in X; [discriminate|cbn; auto 10|cbn; auto 10])
  end.

Lemma go_left_as T p d : exists st d', go_as T p 8 AtLog d = (AtEnd st, d') /\ left_as base T p d d' st.
Proof.
  unfold left_as. cbn [go_as step_as]. destruct (t_convert T p) as [[c log] obj] eqn:EC. unfold unless at 1. destruct (Z.eqb c 0) eqn:E1.
  - cbn [step_as]. destruct (t_dwarfdump T p) as [w dw] eqn:ED. cbn [fst snd]. unfold unless at 1. destruct (Z.eqb w 0) eqn:E2.
    + cbn [step_as].
      match goal with |- context [t_sframedump T (?f (name (base p) ".o"))] =>
        assert (EO : f (name (base p) ".o") = match obj with Some o => Some o | None => d (name (base p) ".o") end)
          by (destruct obj; look_as; reflexivity) end.
      rewrite EO. destruct (t_sframedump T _) as [z zs] eqn:ES. cbn [fst snd]. unfold unless at 1. destruct (Z.eqb z 0) eqn:E3.
      * cbn [step_as]. destruct (t_objdump T p) as [j js] eqn:EJ. eexists _, _. split; [reflexivity|]. cbn [fst snd].
        destruct obj; look_as; auto 10.
      * cbn [step_as]. unfold unless. rewrite E3. eexists _, _. split; [reflexivity|]. destruct obj; look_as; auto 10.
    + cbn [step_as]. unfold unless. rewrite E2. eexists _, _. split; [reflexivity|]. destruct obj; look_as; auto 10.
  - cbn [step_as]. unfold unless. rewrite E1. eexists _, _. split; [reflexivity|]. destruct obj; look_as; auto 10.
Qed.

Lemma go_any_left_as T p k d st d' : go_as T p k AtLog d = (AtEnd st, d') -> left_as base T p d d' st.
Proof.
  intros H. destruct (go_left_as T p d) as (st' & e & H' & HL).
  apply (go_ended_as _ _ _ 8) in H. apply (go_ended_as _ _ _ k) in H'. rewrite Nat.add_comm in H'. rewrite H in H'. injection H' as <- <-. exact HL.
Qed.

(** ** Runs side by side *)

(** Each job is where it would be by itself, and sees what it would see. *)
Definition on_course_as (T : tools) (d0 d : dir) (j : text * place) : Prop :=
  exists k e, go_as T (fst j) k AtLog d0 = (snd j, e) /\ agree_on_as (fst j) d e.

Definition bases_as (js : jobs) : list text := map (fun j => base (fst j)) js.

Lemma runs_names_as T js d js' d' : runs_as base T js d js' d' -> map fst js' = map fst js.
Proof.
  induction 1 as [|js1 p a js2 d a' d' js' d'' _ _ IH]; [reflexivity|]. rewrite IH, !map_app. reflexivity.
Qed.

Theorem runs_apart_as T d0 js d js' d' : NoDup (bases_as js) -> runs_as base T js d js' d' ->
  Forall (on_course_as T d0 d) js -> (forall n, (forall j, In j js -> ~ In n (files_as base (fst j))) -> d n = d0 n) ->
  Forall (on_course_as T d0 d') js' /\ forall n, (forall j, In j js' -> ~ In n (files_as base (fst j))) -> d' n = d0 n.
Proof.
  intros HN HR. revert HN. induction HR as [js d|js1 p a js2 d a' d' js' d'' HS HR IH]; intros HN HC HO; [auto|].
  assert (HB : bases_as (js1 ++ (p, a') :: js2) = bases_as (js1 ++ (p, a) :: js2)) by (unfold bases_as; rewrite !map_app; reflexivity).
  apply IH; [rewrite HB; exact HN| |].
  - assert (HD : forall j, In j js1 \/ In j js2 -> base (fst j) <> base p).
    { intros j Hj E. unfold bases_as in HN. rewrite map_app in HN. cbn [map fst] in HN. apply NoDup_remove_2 in HN. apply HN.
      rewrite in_app_iff, !in_map_iff. destruct Hj; [left|right]; exists j; auto. }
    assert (HK : forall j, In j js1 \/ In j js2 -> on_course_as T d0 d j -> on_course_as T d0 d' j).
    { intros j Hj (k & e & K1 & K2). exists k, e. split; [exact K1|]. intros n Hn. rewrite <- (K2 n Hn).
      eapply step_outside_as; [exact HS|]. intros X. apply (HD j Hj). eapply files_disjoint_as; eassumption. }
    apply Forall_app in HC. destruct HC as [C1 C2]. inversion C2 as [|? ? C3 C4]; subst. apply Forall_app. split; [|constructor].
    + rewrite Forall_forall in *. intros j Hj. apply HK; auto.
    + destruct C3 as (k & e & K1 & K2). cbn [fst snd] in *. destruct (step_agree_as _ _ _ _ e _ _ HS K2) as (e' & S1 & S2).
      exists (S k), e'. split; [eapply go_snoc_as; eassumption|exact S2].
    + rewrite Forall_forall in *. intros j Hj. apply HK; auto.
  - intros n Hn. rewrite <- HO.
    + eapply step_outside_as; [exact HS|]. apply (Hn (p, a')). apply in_or_app. right; left; reflexivity.
    + intros j Hj. apply in_app_or in Hj. destruct Hj as [Hj|[<-|Hj]].
      * apply Hn. apply in_or_app. auto.
      * apply (Hn (p, a')). apply in_or_app. right; left; reflexivity.
      * apply Hn. apply in_or_app. right; right; exact Hj.
Qed.

Lemma left_agree_as T p d e e' st : agree_on_as p e e' -> left_as base T p d e' st -> left_as base T p d e st.
Proof.
  intros H HL. unfold left_as in *. destruct (t_convert T p) as [[c log] obj].
  rewrite !H by owned_as. exact HL.
Qed.

(** Runs with different base names: each leaves what it leaves by itself, and other
    files stay as they are. *)
Theorem side_by_side_as T ps sts d d' : NoDup (map base ps) ->
  runs_as base T (map start_of ps) d (map (fun x => (fst x, AtEnd (snd x))) sts) d' ->
  map fst sts = ps /\ (forall p st, In (p, st) sts -> left_as base T p d d' st) /\
  forall n, (forall p, In p ps -> ~ In n (files_as base p)) -> d' n = d n.
Proof.
  intros HN HR. assert (HP : map fst sts = ps).
  { pose proof (runs_names_as _ _ _ _ _ HR) as E. rewrite !map_map in E. cbn [fst start_of] in E. rewrite map_id in E. exact E. }
  destruct (runs_apart_as T d (map start_of ps) d _ d' ltac:(unfold bases_as; rewrite map_map; exact HN) HR) as [H1 H2].
  - apply Forall_forall. intros j Hj. apply in_map_iff in Hj. destruct Hj as (p & <- & _). exists O, d. split; [reflexivity|intros n _; reflexivity].
  - reflexivity.
  - split; [exact HP|]. split.
    + intros p st Hin. rewrite Forall_forall in H1. destruct (H1 (p, AtEnd st)) as (k & e & K1 & K2).
      { apply in_map_iff. exists (p, st). auto. }
      cbn [fst snd] in *. eapply left_agree_as; [exact K2|]. eapply go_any_left_as, K1.
    + intros n Hn. apply H2. intros j Hj. apply in_map_iff in Hj. destruct Hj as ([p st] & <- & Hin). cbn [fst]. apply Hn.
      rewrite <- HP. apply in_map_iff. exists (p, st). auto.
Qed.

Fixpoint serial_as (T : tools) (ps : list text) (d : dir) : list (text * Z) * dir :=
  match ps with
  | [] => ([], d)
  | p :: t =>
      let (a, e) := go_as T p 8 AtLog d in
      let (l, e') := serial_as T t e in ((p, match a with AtEnd st => st | _ => 0%Z end) :: l, e')
  end.

Lemma runs_trans_as T js d js' d' js'' d'' : runs_as base T js d js' d' -> runs_as base T js' d' js'' d'' -> runs_as base T js d js'' d''.
Proof. induction 1; intros H'; [exact H'|]. eapply runs_as_step; eauto. Qed.

Lemma runs_go_as T p js1 js2 k : forall a d a' d', go_as T p k a d = (a', d') -> runs_as base T (js1 ++ (p, a) :: js2) d (js1 ++ (p, a') :: js2) d'.
Proof.
  induction k as [|k IH]; intros a d a' d' H; cbn [go_as] in H; [injection H as -> ->; constructor|].
  destruct (step_as base T p a d) as [[b e]|] eqn:E; [|injection H as -> ->; constructor]. eapply runs_as_step; [exact E|]. apply IH, H.
Qed.

Lemma runs_serial_as T ps : forall d js1, runs_as base T (js1 ++ map start_of ps) d (js1 ++ map (fun x => (fst x, AtEnd (snd x))) (fst (serial_as T ps d))) (snd (serial_as T ps d)).
Proof.
  induction ps as [|p t IH]; intros d js1; [constructor|]. cbn [serial_as map].
  destruct (go_left_as T p d) as (st & e & E & _). rewrite E. specialize (IH e (js1 ++ [(p, AtEnd st)])).
  destruct (serial_as T t e) as [l e'] eqn:ES. cbn [fst snd map] in *. eapply runs_trans_as; [apply (runs_go_as _ _ _ _ 8 _ _ _ _ E)|].
  rewrite <- !app_assoc in IH. exact IH.
Qed.


End Names.
