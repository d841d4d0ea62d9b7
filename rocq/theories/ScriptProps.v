(** Proofs about the whole of [dump-dirlibs.sh]. *)
From Coq Require Import String Ascii ZArith List Permutation Lia Bool.
From Verif Require Export ScriptRuns.
Import ListNotations.
Open Scope list_scope.

(** The runs of a script, all of them unless one returns 255. *)
Lemma script_inv T found d sts d' ok : script T found d sts d' ok ->
  exists input args bad args' rest, handed_on found input /\ xargs input = (args, bad) /\ args = args' ++ rest /\
    runs T (map start_of args') d (map (fun x => (fst x, AtEnd (snd x))) sts) d' /\
    (none_aborts sts -> rest = []) /\ map fst sts = args' /\ ok = (negb bad && forallb (fun x => Z.eqb (snd x) 0) sts)%bool.
Proof.
  intros [input args bad args' rest sts' d'' H1 H2 H3 H4 H5]. exists input, args, bad, args', rest.
  split; [exact H1|]. split; [exact H2|]. split; [exact H3|]. split; [exact H4|]. split; [|split; [|reflexivity]].
  - intros HN. destruct rest as [|x r]; [reflexivity|]. destruct H5 as (p & Hp); [discriminate|]. destruct (HN p Hp).
  - pose proof (runs_names _ _ _ _ _ H4) as E. rewrite !map_map in E. cbn [fst start_of] in E. rewrite map_id in E. exact E.
Qed.

Section Plain.
  Context (found : list (text * file_report)).
  Context (Hlisting : listing found).
  Context (Hplain : forall p, In p (map fst found) -> plain_path p).

  Theorem every_program_once T d sts d' ok : script T found d sts d' ok -> none_aborts sts -> programs found <> [] ->
    Permutation (programs found) (map fst sts).
  Proof.
    intros H HN HP. destruct (script_inv _ _ _ _ _ _ H) as (input & args & bad & args' & rest & I1 & I2 & I3 & I4 & I5 & I6 & _).
    destruct (arguments found input Hlisting Hplain I1) as (l & HL & E). rewrite E in I2. injection I2 as <- _.
    rewrite (I5 HN), app_nil_r in I3. rewrite I6, <- I3. destruct l; [|exact HL].
    apply Permutation_sym, Permutation_nil in HL. contradiction.
  Qed.

  (** Even if a run aborts the others, nothing else is run. *)
  Theorem only_programs T d sts d' ok : script T found d sts d' ok -> programs found <> [] ->
    (forall p, In p (map fst sts) -> In p (programs found)) /\ NoDup (map fst sts).
  Proof.
    intros H HP. destruct (script_inv _ _ _ _ _ _ H) as (input & args & bad & args' & rest & I1 & I2 & I3 & I4 & I5 & I6 & _).
    destruct (arguments found input Hlisting Hplain I1) as (l & HL & E). rewrite E in I2. injection I2 as <- _.
    destruct l as [|x l]; [apply Permutation_sym, Permutation_nil in HL; contradiction|]. split.
    - intros p Hp. rewrite I6 in Hp. apply (Permutation_in p (Permutation_sym HL)). rewrite I3. apply in_or_app. auto.
    - rewrite I6. assert (HD : NoDup (x :: l)) by (eapply Permutation_NoDup; [exact HL|apply programs_nodup, Hlisting]).
      rewrite I3 in HD. clear -HD. induction args' as [|a t IH]; [constructor|]. cbn [List.app] in HD. inversion HD as [|? ? H1 H2]; subst.
      constructor; [rewrite in_app_iff in H1; tauto|apply IH, H2].
  Qed.

  (** Without programs the conversion is run on nothing. *)
  Theorem no_programs T d sts d' ok : script T found d sts d' ok -> programs found = [] -> none_aborts sts -> map fst sts = [[]].
  Proof.
    intros H HP HN. destruct (script_inv _ _ _ _ _ _ H) as (input & args & bad & args' & rest & I1 & I2 & I3 & I4 & I5 & I6 & _).
    destruct (arguments found input Hlisting Hplain I1) as (l & HL & E). rewrite E in I2. injection I2 as <- _. rewrite HP in HL.
    apply Permutation_nil in HL. subst l. rewrite (I5 HN), app_nil_r in I3. congruence.
  Qed.

  Context (Hbases : NoDup (map basename (programs found))).

  Lemma bases_of_run ps : (forall p, In p ps -> In p (programs found)) -> NoDup ps -> NoDup (map basename ps).
  Proof.
    intros H HN. assert (HI : forall p q, In p ps -> In q ps -> basename p = basename q -> p = q).
    { intros p q Hp Hq. apply H in Hp, Hq. clear -Hbases Hp Hq. induction (programs found) as [|x t IH]; [destruct Hp|].
      cbn [map] in Hbases. inversion Hbases as [|? ? B1 B2]; subst. intros E. destruct Hp as [<-|Hp], Hq as [<-|Hq].
      - reflexivity.
      - exfalso. apply B1. rewrite E. apply in_map, Hq.
      - exfalso. apply B1. rewrite <- E. apply in_map, Hp.
      - apply IH; assumption. }
    clear H. induction HN as [|x t H _ IH]; [constructor|]. cbn [map]. constructor.
    - rewrite in_map_iff. intros (y & E & Hy). apply H. rewrite (HI x y); [exact Hy|left; reflexivity|right; exact Hy|symmetry; exact E].
    - apply IH. intros p q Hp Hq. apply HI; right; assumption.
  Qed.

  Theorem results_apart T d sts d' ok : script T found d sts d' ok -> programs found <> [] ->
    (forall p st, In (p, st) sts -> left_by T p d d' st) /\
    forall n, (forall p, In p (programs found) -> ~ In n (files_of p)) -> d' n = d n.
  Proof.
    intros H HP. destruct (only_programs _ _ _ _ _ H HP) as [O1 O2].
    destruct (script_inv _ _ _ _ _ _ H) as (input & args & bad & args' & rest & I1 & I2 & I3 & I4 & I5 & I6 & _). subst args'.
    destruct (side_by_side T _ sts d d' (bases_of_run _ O1 O2) I4) as (_ & S1 & S2). split; [exact S1|].
    intros n Hn. apply S2. intros p Hp. apply Hn, O1, Hp.
  Qed.

  Theorem success_means_complete T d sts d' : writes_object T -> script T found d sts d' true -> programs found <> [] ->
    forall p, In p (programs found) -> complete T p d'.
  Proof.
    intros HW H HP p Hp.
    destruct (script_inv _ _ _ _ _ _ H) as (input & args & bad & args' & rest & I1 & I2 & I3 & I4 & I5 & I6 & I7).
    symmetry in I7. apply andb_true_iff in I7. destruct I7 as [_ I7]. rewrite forallb_forall in I7.
    assert (HN : none_aborts sts) by (intros q Hq; specialize (I7 _ Hq); discriminate).
    pose proof (every_program_once _ _ _ _ _ H HN HP) as HQ. apply (Permutation_in p HQ) in Hp.
    apply in_map_iff in Hp. destruct Hp as ([p' st] & E & Hin). cbn [fst] in E. subst p'.
    pose proof (proj1 (results_apart _ _ _ _ _ H HP) p st Hin) as HL. specialize (I7 _ Hin). cbn [snd] in I7. apply Z.eqb_eq in I7. subst st.
    unfold left_by in HL. destruct (t_convert T p) as [[c log] obj] eqn:EC. destruct HL as (L1 & L2 & HL).
    destruct (Z.eqb_spec c 0) as [->|Hc]; [|destruct HL as (_ & _ & _ & <-); contradiction].
    destruct obj as [o|]; [|destruct (HW p log None EC eq_refl)]. destruct HL as (L3 & HL).
    destruct (t_dwarfdump T p) as [w dw] eqn:ED. cbn [fst snd] in *.
    destruct (Z.eqb_spec w 0) as [->|Hw]; [|destruct HL as (_ & _ & <-); contradiction]. destruct HL as (L4 & HL).
    destruct (t_sframedump T (Some o)) as [z dz] eqn:ES. cbn [fst snd] in *.
    destruct (Z.eqb_spec z 0) as [->|Hz]; [|destruct HL as (_ & <-); contradiction]. destruct HL as (L5 & HL).
    destruct (t_objdump T p) as [j dj] eqn:EJ. cbn [fst snd] in *. subst j.
    exists log, o, dw, dz, dj. auto 10.
  Qed.

  (** And a failure is some program's. *)
  Theorem failure_means_failed T d sts d' : script T found d sts d' false -> exists p st, In (p, st) sts /\ st <> 0%Z.
  Proof.
    intros H. destruct (script_inv _ _ _ _ _ _ H) as (input & args & bad & args' & rest & I1 & I2 & I3 & I4 & I5 & I6 & I7).
    destruct (arguments found input Hlisting Hplain I1) as (l & HL & E). rewrite E in I2. injection I2 as _ <-. cbn [negb andb] in I7.
    symmetry in I7. clear -I7. induction sts as [|[p st] t IH]; [discriminate|]. cbn [forallb snd] in I7.
    destruct (Z.eqb_spec st 0) as [->|Hs].
    - destruct IH as (q & s & H1 & H2); [exact I7|]. exists q, s. split; [right; exact H1|exact H2].
    - exists p, st. split; [left; reflexivity|exact Hs].
  Qed.

  (** In a fresh directory every file is of this run. *)
  Theorem fresh_results T sts d' ok : script T found (fun _ => None) sts d' ok -> programs found <> [] ->
    (forall p st ext v, In (p, st) sts -> In ext extensions -> d' (name (basename p) ext) = Some v -> from_run T p ext v) /\
    forall n v, d' n = Some v -> exists p, In p (programs found) /\ In n (files_of p).
  Proof.
    intros H HP. destruct (results_apart _ _ _ _ _ H HP) as [R1 R2]. split.
    - intros p st ext v Hin He Hv. specialize (R1 p st Hin). unfold left_by in R1. unfold from_run.
      destruct (t_convert T p) as [[c log] obj]. cbv beta zeta in R1. destruct R1 as (L1 & L2 & HL).
      assert (EO : match obj with Some o => Some o | None => None end = obj) by (destruct obj; reflexivity). rewrite EO in *.
      cbn in He. destruct He as [<-|[<-|[<-|[<-|[<-|[]]]]]].
      + left. split; [reflexivity|congruence].
      + right; left. split; [reflexivity|congruence].
      + right; right; left. split; [reflexivity|]. destruct (Z.eqb c 0); [destruct HL as (L3 & _)|destruct HL as (L3 & _)]; congruence.
      + right; right; right; left. split; [reflexivity|]. destruct (Z.eqb c 0).
        * destruct HL as (_ & HL). destruct (Z.eqb (fst (t_dwarfdump T p)) 0); destruct HL as (L4 & _); congruence.
        * destruct HL as (_ & L4 & _). congruence.
      + right; right; right; right. split; [reflexivity|]. destruct (Z.eqb c 0).
        * destruct HL as (_ & HL). destruct (Z.eqb (fst (t_dwarfdump T p)) 0).
          -- destruct HL as (_ & HL). destruct (Z.eqb (fst (t_sframedump T obj)) 0); destruct HL as (L5 & _); congruence.
          -- destruct HL as (_ & L5 & _). congruence.
        * destruct HL as (_ & _ & L5 & _). congruence.
    - intros n v Hv. destruct (in_dec (list_eq_dec ascii_dec) n (flat_map files_of (programs found))) as [Hi|Hn].
      + apply in_flat_map in Hi. exact Hi.
      + rewrite R2 in Hv; [discriminate|]. intros p Hp X. apply Hn. apply in_flat_map. eauto.
  Qed.
End Plain.

(** ** One run after the other *)

Fixpoint serial (T : tools) (ps : list text) (d : dir) : list (text * Z) * dir :=
  match ps with
  | [] => ([], d)
  | p :: t =>
      let (a, e) := go T p 8 AtLog d in
      let (l, e') := serial T t e in ((p, match a with AtEnd st => st | _ => 0%Z end) :: l, e')
  end.

Lemma runs_trans T js d js' d' js'' d'' : runs T js d js' d' -> runs T js' d' js'' d'' -> runs T js d js'' d''.
Proof. induction 1; intros H'; [exact H'|]. eapply runs_step; eauto. Qed.

Lemma runs_go T p js1 js2 k : forall a d a' d', go T p k a d = (a', d') -> runs T (js1 ++ (p, a) :: js2) d (js1 ++ (p, a') :: js2) d'.
Proof.
  induction k as [|k IH]; intros a d a' d' H; cbn [go] in H; [injection H as -> ->; constructor|].
  destruct (convert_step T p a d) as [[b e]|] eqn:E; [|injection H as -> ->; constructor]. eapply runs_step; [exact E|]. apply IH, H.
Qed.

Lemma runs_serial T ps : forall d js1, runs T (js1 ++ map start_of ps) d (js1 ++ map (fun x => (fst x, AtEnd (snd x))) (fst (serial T ps d))) (snd (serial T ps d)).
Proof.
  induction ps as [|p t IH]; intros d js1; [constructor|]. cbn [serial map].
  destruct (go_left T p d) as (st & e & E & _). rewrite E. specialize (IH e (js1 ++ [(p, AtEnd st)])).
  destruct (serial T t e) as [l e'] eqn:ES. cbn [fst snd map] in *. eapply runs_trans; [apply (runs_go _ _ _ _ 8 _ _ _ _ E)|].
  rewrite <- !app_assoc in IH. exact IH.
Qed.

Lemma script_serial T found d input args bad : handed_on found input -> xargs input = (args, bad) ->
  script T found d (fst (serial T args d)) (snd (serial T args d)) (negb bad && forallb (fun x => Z.eqb (snd x) 0) (fst (serial T args d)))%bool.
Proof.
  intros H E. eapply script_run with (rest := []); [exact H|exact E|symmetry; apply app_nil_r|apply (runs_serial T args d [])|contradiction].
Qed.

(** In particular the script always has an outcome. *)
Theorem script_total T found d : exists sts d' ok, script T found d sts d' ok.
Proof.
  destruct (xargs (uniq (concat (map (fun x => print_if_lib (fst x) (snd x)) found)))) as [args bad] eqn:E.
  eexists _, _, _. eapply script_serial; [|exact E]. exists (map (fun x => print_if_lib (fst x) (snd x)) found). split; [apply Permutation_refl|reflexivity].
Qed.
