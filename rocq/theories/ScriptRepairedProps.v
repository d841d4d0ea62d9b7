(** Proofs about the repaired [dump-dirlibs.sh]. *)
From Coq Require Import String Ascii ZArith List Permutation Lia Bool.
From Verif Require Export ScriptProps ScriptRepairedRuns.
Import ListNotations.
Open Scope list_scope.

(** ** With no repair it is the script *)

Lemma runs_as_basename T js d js' d' : runs_as basename T js d js' d' <-> runs T js d js' d'.
Proof. split; (induction 1; [constructor|econstructor; eassumption]). Qed.

Lemma print_none p r : print_asked sf_none p r = print_if_lib p r.
Proof. reflexivity. Qed.

Lemma handed_none found input : handed_asked sf_none found input <-> handed_on found input.
Proof. split; (intros (outs & H1 & H2); exists outs; split; [exact H1|exact H2]). Qed.

Lemma xargs_none s : xargs_asked sf_none s = xargs s.
Proof. unfold xargs_asked, xargs. cbn [sf_zero sf_skip sf_none]. destruct (scan XSpace [] s) as [[|x l] []]; reflexivity. Qed.

Theorem script_none T found d sts d' ok : script_asked sf_none T found d sts d' ok <-> script T found d sts d' ok.
Proof.
  split.
  - intros [input args bad args' rest sts' d'' H1 H2 H3 H4 H5].
    eapply (script_run T found d input args bad args' rest); [apply handed_none, H1|rewrite <- H2; first [apply xargs_none | symmetry; apply xargs_none]|exact H3|apply runs_as_basename, H4|].
    intros HR. destruct (H5 HR) as (p & st & Hin & E). exists p. change (status_asked sf_none st) with st in E. subst st. exact Hin.
  - intros [input args bad args' rest sts' d'' H1 H2 H3 H4 H5].
    eapply (script_asked_run sf_none T found d input args bad args' rest); [apply handed_none, H1|rewrite <- H2; first [apply xargs_none | symmetry; apply xargs_none]|exact H3|apply runs_as_basename, H4|].
    intros HR. destruct (H5 HR) as (p & Hin). exists p, 255%Z. split; [exact Hin|reflexivity].
Qed.

(** ** Names *)

Lemma escape_cases c : (c = percent /\ escape c = chars "%25") \/ (c = slash /\ escape c = chars "%2F") \/
  (c <> percent /\ c <> slash /\ escape c = [c]).
Proof.
  unfold escape. destruct (Ascii.eqb_spec c percent) as [->|H1]; [left; auto|].
  destruct (Ascii.eqb_spec c slash) as [->|H2]; [right; left; auto|right; right; auto].
Qed.

(** No two paths have the same name. *)
Theorem escaped_apart p q : escaped p = escaped q -> p = q.
Proof.
  revert q. induction p as [|c p IH]; intros [|d q] H; [reflexivity|..].
  - exfalso. unfold escaped in H. cbn [flat_map] in H. destruct (escape_cases d) as [[_ E]|[[_ E]|(_ & _ & E)]]; rewrite E in H; discriminate.
  - exfalso. unfold escaped in H. cbn [flat_map] in H. destruct (escape_cases c) as [[_ E]|[[_ E]|(_ & _ & E)]]; rewrite E in H; discriminate.
  - unfold escaped in H. cbn [flat_map] in H. fold (escaped p) (escaped q) in H.
    destruct (escape_cases c) as [[C1 C2]|[[C1 C2]|(C1 & C1' & C2)]], (escape_cases d) as [[D1 D2]|[[D1 D2]|(D1 & D1' & D2)]];
      rewrite C2, D2 in H; cbn in H; injection H as H; subst; try discriminate; try contradiction; f_equal; auto.
Qed.

(** And every name is one of the directory's own. *)
Theorem escaped_flat p : lacks slash (escaped p).
Proof.
  unfold lacks, escaped. intros H. apply in_flat_map in H. destruct H as (c & _ & H).
  destruct (escape_cases c) as [[_ E]|[[_ E]|(_ & N & E)]]; rewrite E in H; cbn in H; intuition discriminate.
Qed.

Lemma bases_nodup (base : text -> text) ps : (forall p q, base p = base q -> p = q) -> NoDup ps -> NoDup (map base ps).
Proof.
  intros HI. induction 1 as [|x t H _ IH]; [constructor|]. cbn [map]. constructor; [|exact IH].
  rewrite in_map_iff. intros (y & E & Hy). apply H. rewrite <- (HI _ _ E). exact Hy.
Qed.

(** ** Records *)

Lemma split_records c l : Forall (lacks c) l -> split_on c (unlines_by c l) = l ++ [[]].
Proof.
  induction 1 as [|x t H _ IH]; [reflexivity|]. cbn [unlines_by flat_map]. rewrite <- app_assoc. cbn [List.app].
  rewrite split_on_cut by exact H. f_equal. exact IH.
Qed.
Lemma lines_unlines_by c l : Forall (lacks c) l -> lines_by c (unlines_by c l) = l.
Proof. intros H. unfold lines_by. rewrite split_records by exact H. rewrite rev_app_distr. cbn. apply rev_involutive. Qed.

Lemma records_permuted c (found : list (text * file_report)) outs :
  Permutation (map (fun x => if is_program (snd x) then fst x ++ [c] else []) found) outs ->
  exists l, Permutation (programs found) l /\ concat outs = unlines_by c l.
Proof.
  intros H. apply Permutation_sym, Permutation_map_inv in H. destruct H as (found' & -> & HP). exists (programs found'). split.
  - unfold programs. apply Permutation_map, perm_filter, HP.
  - clear. unfold programs, unlines_by. induction found' as [|[p r] t IH]; [reflexivity|]. cbn [map concat filter fst snd].
    destruct (is_program r); [cbn [map flat_map fst]; rewrite IH; reflexivity|exact IH].
Qed.

Lemma accepted_typed fx p r : sf_type fx = true -> reports p r -> accepted_asked fx r = is_program r.
Proof.
  intros HT (_ & _ & E3 & _). unfold accepted_asked, mime_asked. rewrite HT, substituted_line by (apply E3; auto).
  unfold is_program, program_types, elf_types. cbn [map existsb].
  destruct (text_eqb _ (chars "application/x-object")); destruct (text_eqb _ (chars "application/x-pie-executable"));
    destruct (text_eqb _ (chars "application/x-executable")); destruct (text_eqb _ (chars "application/x-sharedlib")); reflexivity.
Qed.

Lemma status_zero fx st : status_asked fx st = 0%Z <-> st = 0%Z.
Proof. unfold status_asked. destruct (sf_status fx); [|tauto]. destruct (Z.eqb_spec st 0); split; intros; subst; try reflexivity; try discriminate; contradiction. Qed.

Section Repaired.
  Context (fx : sfixes) (found : list (text * file_report)).
  Context (Htype : sf_type fx = true) (Hzero : sf_zero fx = true).
  Context (Hlisting : listing_of_paths found).

  Theorem arguments_asked input : handed_asked fx found input ->
    exists l, Permutation (programs found) l /\
      xargs_asked fx input = (match l with [] => if sf_skip fx then [] else [[]] | _ => l end, false).
  Proof.
    destruct Hlisting as [HL HP]. intros (outs & HO & ->).
    assert (HE : map (fun x => print_asked fx (fst x) (snd x)) found = map (fun x => if is_program (snd x) then fst x ++ [nul] else []) found).
    { apply map_ext_in. intros x Hx. unfold print_asked. destruct HL as [_ HL]. rewrite Forall_forall in HL. specialize (HL _ Hx).
      rewrite (accepted_typed fx _ _ Htype (proj2 HL)), Hzero. reflexivity. }
    rewrite HE in HO. destruct (records_permuted nul found outs HO) as (l & Hl & ->). exists l. split; [exact Hl|].
    assert (HS : Forall (lacks nul) l).
    { apply Forall_forall. intros p Hp. apply (Permutation_in p (Permutation_sym Hl)) in Hp. apply programs_in in Hp. destruct Hp as (r & Hr & _).
      rewrite Forall_forall in HP. exact (HP _ Hr). }
    assert (HN : NoDup l) by (eapply Permutation_NoDup; [exact Hl|apply programs_nodup, HL]).
    unfold record_end, uniq_by. rewrite Hzero, lines_unlines_by by exact HS. rewrite uniq_distinct by exact HN.
    unfold xargs_asked. rewrite Hzero, lines_unlines_by by exact HS. destruct l; [destruct (sf_skip fx)|]; reflexivity.
  Qed.

  Lemma script_asked_inv T d sts d' ok : script_asked fx T found d sts d' ok ->
    exists l args' rest, Permutation (programs found) l /\
      match l with [] => if sf_skip fx then [] else [[]] | _ => l end = args' ++ rest /\
      runs_as (base_asked fx) T (map start_of args') (dir_asked fx d) (map (fun x => (fst x, AtEnd (snd x))) sts) d' /\
      (rest <> [] -> exists p st, In (p, st) sts /\ status_asked fx st = 255%Z) /\
      map fst sts = args' /\ ok = forallb (fun x => Z.eqb (status_asked fx (snd x)) 0) sts.
  Proof.
    intros [input args bad args' rest sts' d'' H1 H2 H3 H4 H5].
    destruct (arguments_asked input H1) as (l & HL & E). rewrite E in H2. injection H2 as H2 <-. exists l, args', rest.
    split; [exact HL|]. split; [rewrite H2; exact H3|]. split; [exact H4|]. split; [exact H5|]. split; [|reflexivity].
    pose proof (runs_names_as _ _ _ _ _ _ H4) as E'. rewrite !map_map in E'. cbn [fst start_of] in E'. rewrite map_id in E'. exact E'.
  Qed.

  Theorem every_program_asked T d sts d' ok : sf_skip fx = true -> sf_status fx = true ->
    script_asked fx T found d sts d' ok -> Permutation (programs found) (map fst sts).
  Proof.
    intros HK HS H. destruct (script_asked_inv _ _ _ _ _ H) as (l & args' & rest & HL & I1 & I2 & I3 & I4 & _).
    assert (rest = []) as ->.
    { destruct rest as [|x r]; [reflexivity|]. destruct I3 as (p & st & _ & E); [discriminate|]. unfold status_asked in E. rewrite HS in E.
      destruct (Z.eqb st 0); discriminate. }
    rewrite HK, app_nil_r in I1. rewrite I4, <- I1. destruct l; exact HL.
  Qed.

  Lemma runs_of_programs T d sts d' ok : script_asked fx T found d sts d' ok ->
    NoDup (map fst sts) /\ ((sf_skip fx = true \/ programs found <> []) -> forall p, In p (map fst sts) -> In p (programs found)).
  Proof.
    intros H. destruct (script_asked_inv _ _ _ _ _ H) as (l & args' & rest & HL & I1 & I2 & I3 & I4 & _).
    assert (HD : NoDup l) by (eapply Permutation_NoDup; [exact HL|apply programs_nodup, Hlisting]).
    assert (HD' : NoDup (args' ++ rest)).
    { rewrite <- I1. destruct l; [destruct (sf_skip fx); repeat constructor; intros []|exact HD]. }
    rewrite I4. split.
    - clear -HD'. induction args' as [|a t IH]; [constructor|]. cbn [List.app] in HD'. inversion HD' as [|? ? H1 H2]; subst.
      constructor; [rewrite in_app_iff in H1; tauto|apply IH, H2].
    - intros HK p Hp. assert (Hp' : In p (args' ++ rest)) by (apply in_or_app; auto). rewrite <- I1 in Hp'. destruct l as [|x l].
      + apply Permutation_sym, Permutation_nil in HL. destruct HK as [HK|HK]; [rewrite HK in Hp'; destruct Hp'|contradiction].
      + apply (Permutation_in p (Permutation_sym HL)). exact Hp'.
  Qed.

  Context (Hname : sf_name fx = true).

  Lemma base_escaped p : base_asked fx p = escaped p.
  Proof. unfold base_asked. rewrite Hname. reflexivity. Qed.

  Theorem results_asked T d sts d' ok : script_asked fx T found d sts d' ok ->
    forall p st, In (p, st) sts -> left_as escaped T p (dir_asked fx d) d' st.
  Proof.
    intros H. destruct (runs_of_programs _ _ _ _ _ H) as [HN _].
    destruct (script_asked_inv _ _ _ _ _ H) as (l & args' & rest & HL & I1 & I2 & I3 & I4 & _). subst args'.
    unfold base_asked in I2. rewrite Hname in I2.
    exact (proj1 (proj2 (side_by_side_as escaped T _ sts (dir_asked fx d) d' (bases_nodup escaped _ escaped_apart HN) I2))).
  Qed.

  Theorem others_kept T d sts d' ok : sf_skip fx = true -> script_asked fx T found d sts d' ok ->
    forall n, (forall p, In p (programs found) -> ~ In n (files_as escaped p)) -> d' n = dir_asked fx d n.
  Proof.
    intros HK H. destruct (runs_of_programs _ _ _ _ _ H) as [HN HI].
    destruct (script_asked_inv _ _ _ _ _ H) as (l & args' & rest & HL & I1 & I2 & I3 & I4 & _). subst args'.
    unfold base_asked in I2. rewrite Hname in I2.
    intros n Hn. apply (proj2 (proj2 (side_by_side_as escaped T _ sts (dir_asked fx d) d' (bases_nodup escaped _ escaped_apart HN) I2))).
    intros p Hp. apply Hn, HI; auto.
  Qed.

  Theorem success_asked T d sts d' : writes_object T -> script_asked fx T found d sts d' true ->
    forall p, In p (programs found) -> complete_as escaped T p d'.
  Proof.
    intros HW H p Hp. destruct (script_asked_inv _ _ _ _ _ H) as (l & args' & rest & HL & I1 & I2 & I3 & I4 & I5).
    symmetry in I5. rewrite forallb_forall in I5.
    assert (HA : forall q st, In (q, st) sts -> st = 0%Z).
    { intros q st Hq. specialize (I5 _ Hq). cbn [snd] in I5. apply Z.eqb_eq, status_zero in I5. exact I5. }
    assert (rest = []) as ->.
    { destruct rest as [|x r]; [reflexivity|]. destruct I3 as (q & st & Hq & E); [discriminate|]. rewrite (HA _ _ Hq) in E.
      rewrite (proj2 (status_zero fx 0) eq_refl) in E. discriminate. }
    rewrite app_nil_r in I1. assert (Hq : In p (map fst sts)).
    { rewrite I4, <- I1. apply (Permutation_in p HL) in Hp. destruct l; [destruct Hp|exact Hp]. }
    apply in_map_iff in Hq. destruct Hq as ([p' st] & E & Hin). cbn [fst] in E. subst p'.
    pose proof (results_asked _ _ _ _ _ H p st Hin) as HQ. rewrite (HA _ _ Hin) in HQ.
    unfold left_as in HQ. destruct (t_convert T p) as [[c log] obj] eqn:EC. destruct HQ as (L1 & L2 & HQ).
    destruct (Z.eqb_spec c 0) as [->|Hc]; [|destruct HQ as (_ & _ & _ & <-); contradiction].
    destruct obj as [o|]; [|destruct (HW p log None EC eq_refl)]. destruct HQ as (L3 & HQ).
    destruct (t_dwarfdump T p) as [w dw] eqn:ED. cbn [fst snd] in *.
    destruct (Z.eqb_spec w 0) as [->|Hw]; [|destruct HQ as (_ & _ & <-); contradiction]. destruct HQ as (L4 & HQ).
    destruct (t_sframedump T (Some o)) as [z dz] eqn:ES. cbn [fst snd] in *.
    destruct (Z.eqb_spec z 0) as [->|Hz]; [|destruct HQ as (_ & <-); contradiction]. destruct HQ as (L5 & HQ).
    destruct (t_objdump T p) as [j dj] eqn:EJ. cbn [fst snd] in *. subst j.
    exists log, o, dw, dz, dj. auto 10.
  Qed.

  Theorem failure_asked T d sts d' : script_asked fx T found d sts d' false -> exists p st, In (p, st) sts /\ st <> 0%Z.
  Proof.
    intros H. destruct (script_asked_inv _ _ _ _ _ H) as (l & args' & rest & _ & _ & _ & _ & _ & I5).
    symmetry in I5. clear -I5. induction sts as [|[p st] t IH]; [discriminate|]. cbn [forallb snd] in I5.
    destruct (Z.eqb_spec (status_asked fx st) 0) as [E|Hs].
    - destruct IH as (q & s & H1 & H2); [exact I5|]. exists q, s. split; [right; exact H1|exact H2].
    - exists p, st. split; [left; reflexivity|]. intros ->. apply Hs, status_zero. reflexivity.
  Qed.

  Theorem fresh_asked T d sts d' ok : sf_fresh fx = true -> script_asked fx T found d sts d' ok ->
    forall p st ext v, In (p, st) sts -> In ext extensions -> d' (name (escaped p) ext) = Some v -> from_run T p ext v.
  Proof.
    intros HF H p st ext v Hin He Hv. pose proof (results_asked _ _ _ _ _ H p st Hin) as R1. unfold left_as, dir_asked in R1. rewrite HF in R1.
    unfold from_run. destruct (t_convert T p) as [[c log] obj]. cbv beta zeta in R1. destruct R1 as (L1 & L2 & HL).
    assert (EO : match obj with Some o => Some o | None => None end = obj) by (destruct obj; reflexivity). rewrite EO in *.
    cbn in He. destruct He as [<-|[<-|[<-|[<-|[<-|[]]]]]].
    + left. split; [reflexivity|congruence].
    + right; left. split; [reflexivity|congruence].
    + right; right; left. split; [reflexivity|]. destruct (Z.eqb c 0); [destruct HL as (L3 & _)|destruct HL as (L3 & _)]; congruence.
    + right; right; right; left. split; [reflexivity|]. destruct (Z.eqb c 0).
      * destruct HL as (_ & HL). destruct (Z.eqb (fst (t_dwarfdump T p)) 0); destruct HL as (L4 & _); congruence.
      * destruct HL as (_ & L4 & _). congruence.
    + right; right; right; right. split; [reflexivity|]. destruct (Z.eqb c 0).
      * destruct HL as (_ & HL). destruct (Z.eqb (fst (t_dwarfdump T p)) 0).
        -- destruct HL as (_ & HL). destruct (Z.eqb (fst (t_sframedump T obj)) 0); destruct HL as (L5 & _); congruence.
        -- destruct HL as (_ & L5 & _). congruence.
      * destruct HL as (_ & _ & L5 & _). congruence.
  Qed.

  (** And there is nothing else. *)
  Theorem nothing_else T d sts d' ok : sf_skip fx = true -> sf_fresh fx = true -> script_asked fx T found d sts d' ok ->
    forall n v, d' n = Some v -> exists p, In p (programs found) /\ In n (files_as escaped p).
  Proof.
    intros HK HF H n v Hv. destruct (in_dec (list_eq_dec ascii_dec) n (flat_map (files_as escaped) (programs found))) as [Hi|Hn].
    - apply in_flat_map in Hi. exact Hi.
    - rewrite (others_kept _ _ _ _ _ HK H) in Hv; [unfold dir_asked in Hv; rewrite HF in Hv; discriminate|].
      intros p Hp X. apply Hn. apply in_flat_map. eauto.
  Qed.
End Repaired.

(** One run after the other; in particular there is always an outcome. *)
Definition in_order_asked (fx : sfixes) (found : list (text * file_report)) : text :=
  uniq_by (record_end fx) (concat (map (fun x => print_asked fx (fst x) (snd x)) found)).

Lemma script_asked_in_order fx T found d :
  let a := xargs_asked fx (in_order_asked fx found) in
  let r := serial_as (base_asked fx) T (fst a) (dir_asked fx d) in
  script_asked fx T found d (fst r) (snd r) (negb (snd a) && forallb (fun x => Z.eqb (status_asked fx (snd x)) 0) (fst r))%bool.
Proof.
  intros a r. eapply (script_asked_run fx T found d (in_order_asked fx found) (fst a) (snd a) (fst a) []).
  - eexists. split; [apply Permutation_refl|reflexivity].
  - unfold a. destruct (xargs_asked fx (in_order_asked fx found)); reflexivity.
  - symmetry. apply app_nil_r.
  - exact (runs_serial_as (base_asked fx) T (fst a) (dir_asked fx d) []).
  - contradiction.
Qed.

Theorem script_asked_total fx T found d : exists sts d' ok, script_asked fx T found d sts d' ok.
Proof. eexists _, _, _. apply script_asked_in_order. Qed.
