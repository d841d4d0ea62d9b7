(** Proofs about [dump-dirlibs.sh]. *)
From Coq Require Import String Ascii ZArith List Permutation Lia Bool.
From Verif Require Export ScriptSpec.
Import ListNotations.
Open Scope list_scope.

(** ** Text *)

Lemma text_eqb_spec a b : reflect (a = b) (text_eqb a b).
Proof. unfold text_eqb. destruct (list_eq_dec ascii_dec a b); constructor; assumption. Qed.

Lemma eqb_refl (c : ascii) : Ascii.eqb c c = true.
Proof. apply Ascii.eqb_eq. reflexivity. Qed.
Lemma eqb_ne (x c : ascii) : x <> c -> Ascii.eqb x c = false.
Proof. intros H. destruct (Ascii.eqb_spec x c); [contradiction|reflexivity]. Qed.

Lemma split_on_ne c s : split_on c s <> [].
Proof. destruct s as [|x t]; cbn; [discriminate|]. destruct (Ascii.eqb x c); [discriminate|]. destruct (split_on c t); discriminate. Qed.

Lemma split_on_cut c a b : lacks c a -> split_on c (a ++ c :: b) = a :: split_on c b.
Proof.
  induction a as [|x t IH]; intros H; cbn [List.app split_on].
  - rewrite eqb_refl. reflexivity.
  - rewrite eqb_ne by (intros ->; apply H; left; reflexivity). rewrite IH by (intros X; apply H; right; exact X). reflexivity.
Qed.
Lemma split_on_none c a : lacks c a -> split_on c a = [a].
Proof.
  induction a as [|x t IH]; intros H; cbn [split_on]; [reflexivity|].
  rewrite eqb_ne by (intros ->; apply H; left; reflexivity). rewrite IH by (intros X; apply H; right; exact X). reflexivity.
Qed.
(** The first piece begins with everything before the delimiter can occur. *)
Lemma split_on_front c a b : lacks c a -> exists u l, split_on c (a ++ b) = (a ++ u) :: l /\ split_on c b = u :: l.
Proof.
  induction a as [|x t IH]; intros H; cbn [List.app split_on].
  - destruct (split_on c b) as [|u l] eqn:E; [exfalso; exact (split_on_ne _ _ E)|]. eauto.
  - rewrite eqb_ne by (intros ->; apply H; left; reflexivity).
    destruct IH as (u & l & -> & E); [intros X; apply H; right; exact X|]. eauto.
Qed.

Lemma lacks_app c a b : lacks c a -> lacks c b -> lacks c (a ++ b).
Proof. unfold lacks. rewrite in_app_iff. tauto. Qed.

Lemma split_lines l : Forall (lacks nl) l -> split_on nl (unlines_of l) = l ++ [[]].
Proof.
  induction 1 as [|x t H _ IH]; [reflexivity|]. cbn [unlines_of flat_map]. rewrite <- app_assoc. cbn [List.app].
  rewrite split_on_cut by exact H. f_equal. exact IH.
Qed.
Lemma lines_unlines l : Forall (lacks nl) l -> lines_of (unlines_of l) = l.
Proof. intros H. unfold lines_of. rewrite split_lines by exact H. rewrite rev_app_distr. cbn. apply rev_involutive. Qed.

Lemma substituted_line s : lacks nl s -> substituted (s ++ [nl]) = s.
Proof.
  intros H. unfold substituted. rewrite rev_app_distr. cbn [rev List.app drop_newlines]. rewrite eqb_refl.
  assert (H' : lacks nl (rev s)) by (unfold lacks in *; rewrite <- in_rev; exact H).
  destruct (rev s) as [|x r] eqn:E.
  - cbn. rewrite <- (rev_involutive s), E. reflexivity.
  - cbn [drop_newlines]. rewrite eqb_ne by (intros ->; apply H'; left; reflexivity). rewrite <- E. apply rev_involutive.
Qed.

(** ** print_if_lib *)

Lemma cut_single n c l : lacks nl l -> lacks nl (cut_line n c l) -> cut n c (l ++ [nl]) = cut_line n c l ++ [nl].
Proof.
  intros H H'. unfold cut.
  replace (lines_of (l ++ [nl])) with [l]; [cbn; rewrite app_nil_r; reflexivity|].
  symmetry. replace (l ++ [nl]) with (unlines_of [l]) by (cbn; rewrite app_nil_r; reflexivity). apply lines_unlines. repeat constructor. exact H.
Qed.

Lemma words_kept s : forall cur, lacks nl s -> lacks (ascii_of_nat 9) s ->
  (forall a, s <> a ++ [" "%char]) -> (forall a b, s <> a ++ " "%char :: " "%char :: b) ->
  (cur = [] -> forall a, s <> " "%char :: a) -> joined (words_from cur s) = rev cur ++ s.
Proof.
  induction s as [|x t IH]; intros cur Hn Ht Hl Hd Hc; cbn [words_from].
  - destruct cur as [|y cur]; cbn [joined]; rewrite ?app_nil_r; reflexivity.
  - assert (Hn' : lacks nl t) by (intros H; apply Hn; right; exact H).
    assert (Ht' : lacks (ascii_of_nat 9) t) by (intros H; apply Ht; right; exact H).
    assert (Hl' : forall a, t <> a ++ [" "%char]) by (intros a E; apply (Hl (x :: a)); rewrite E; reflexivity).
    assert (Hd' : forall a b, t <> a ++ " "%char :: " "%char :: b) by (intros a b E; apply (Hd (x :: a) b); rewrite E; reflexivity).
    destruct (is_ifs x) eqn:Ex.
    + assert (x = " "%char) as ->.
      { unfold is_ifs in Ex. apply orb_prop in Ex. destruct Ex as [Ex|Ex]; [apply orb_prop in Ex; destruct Ex as [Ex|Ex]|]; apply Ascii.eqb_eq in Ex.
        - exact Ex.
        - destruct Ht. left. exact Ex.
        - destruct Hn. left. exact Ex. }
      destruct cur as [|y cur]; [destruct (Hc eq_refl t eq_refl)|].
      assert (E : joined (words_from [] t) = t).
      { rewrite IH; try assumption; [reflexivity|]. intros _ a ->. apply (Hd [] a). reflexivity. }
      destruct (words_from [] t) as [|w ws] eqn:Ew.
      { cbn [joined] in E. destruct (Hl []). rewrite <- E. reflexivity. }
      change (joined (rev (y :: cur) :: w :: ws)) with (rev (y :: cur) ++ " "%char :: joined (w :: ws)). rewrite E. reflexivity.
    + rewrite IH; try assumption; [cbn [rev]; rewrite <- app_assoc; reflexivity|discriminate].
Qed.
Lemma words_single s : single_spaced s -> lacks nl s -> joined (words_of s) = s.
Proof.
  intros [Ht H] Hn. unfold words_of. rewrite words_kept; try assumption; [reflexivity|..].
  - intros a. apply (H a []).
  - intros a b. apply (H a b).
  - intros _ a. apply (H a []).
Qed.

Lemma mime_seen_right p r : reports p r -> lacks nl p -> lacks colon p -> mime_seen r = fr_mime r.
Proof.
  intros (E1 & E2 & E3 & E4) Hn Hc. unfold mime_seen, file_text. rewrite E1.
  set (body := chars "; charset=" ++ fr_charset r).
  assert (B : lacks nl body) by (apply lacks_app; [intros X; cbn in X; repeat (destruct X as [X|X]; [discriminate|]); exact X|exact E4]).
  assert (M : forall c, c = nl \/ c = colon \/ c = semicolon -> lacks c (" "%char :: fr_mime r)).
  { intros c H [H'|H']; [|exact (E3 c H H')]. subst c. intuition discriminate. }
  replace (p ++ chars ": " ++ fr_mime r ++ chars "; charset=" ++ fr_charset r ++ [nl])
    with ((p ++ colon :: (" "%char :: fr_mime r) ++ body) ++ [nl]) by (unfold body; cbn [chars list_ascii_of_string List.app]; rewrite <- !app_assoc; cbn [List.app]; rewrite <- !app_assoc; reflexivity).
  assert (L : lacks nl (p ++ colon :: (" "%char :: fr_mime r) ++ body)).
  { apply lacks_app; [exact Hn|]. intros [X|X]; [discriminate|]. revert X. apply lacks_app; [apply M; auto|exact B]. }
  destruct (split_on_front colon (" "%char :: fr_mime r) body) as (u & l & U1 & U2); [apply M; auto|].
  assert (C1 : cut_line 1 colon (p ++ colon :: (" "%char :: fr_mime r) ++ body) = (" "%char :: fr_mime r) ++ u).
  { unfold cut_line. rewrite split_on_cut by exact Hc. rewrite U1. reflexivity. }
  assert (U3 : exists v, u = semicolon :: v).
  { unfold body in U2. cbn [chars list_ascii_of_string List.app split_on] in U2.
    change (Ascii.eqb ";" colon) with false in U2. cbn iota in U2.
    match type of U2 with match ?x with _ => _ end = _ => destruct x as [|y ys]; injection U2 as <- _; eauto end. }
  destruct U3 as (v & ->).
  assert (LU : lacks nl ((" "%char :: fr_mime r) ++ semicolon :: v)).
  { apply lacks_app; [apply M; auto|]. assert (HI : forall x, In x (semicolon :: v) -> In x body).
    { clear -U2. revert U2. generalize (semicolon :: v) as w. intros w.
      revert w l. induction body as [|y t IH]; intros w l H x Hx; cbn [split_on] in H; [injection H as <- _; exact Hx|].
      destruct (Ascii.eqb y colon); [injection H as <- _; destruct Hx|].
      destruct (split_on colon t) as [|w' l']; injection H as <- _; destruct Hx as [->|Hx]; try (left; reflexivity); try (destruct Hx; fail).
      right. eapply IH; [reflexivity|exact Hx]. }
    intros X. exact (B (HI _ X)). }
  rewrite cut_single; [rewrite C1|exact L|rewrite C1; exact LU].
  assert (C2 : cut_line 0 semicolon ((" "%char :: fr_mime r) ++ semicolon :: v) = " "%char :: fr_mime r).
  { unfold cut_line. rewrite split_on_cut by (apply M; auto). destruct (split_on semicolon v) eqn:E; [exfalso; exact (split_on_ne _ _ E)|]. reflexivity. }
  rewrite cut_single; [rewrite C2|exact LU|rewrite C2; apply M; auto].
  rewrite substituted_line by (apply M; auto). unfold echo.
  change (words_of (" "%char :: fr_mime r)) with (words_of (fr_mime r)). rewrite words_single by (try exact E2; apply E3; auto). apply substituted_line. apply E3; auto.
Qed.

Lemma special_is c : special c = (Ascii.eqb c nl || is_blank c || Ascii.eqb c backslash || is_quote c)%bool.
Proof. destruct c as [[] [] [] [] [] [] [] []]; reflexivity. Qed.
Lemma white_is c : white c = is_space c.
Proof. destruct c as [[] [] [] [] [] [] [] []]; reflexivity. Qed.

Lemma safe_no_nl p : safe p -> lacks nl p.
Proof. intros (_ & H & _) HI. rewrite Forall_forall in H. specialize (H _ HI). vm_compute in H. discriminate. Qed.

Lemma accepted_right p r : reports p r -> plain_path p -> accepted r = is_program r.
Proof. intros H [H1 H2]. unfold accepted. rewrite (mime_seen_right p r H (safe_no_nl _ H1) H2).
  unfold is_program, program_types, elf_types. cbn [map existsb].
  destruct (text_eqb _ (chars "application/x-object")); destruct (text_eqb _ (chars "application/x-pie-executable"));
    destruct (text_eqb _ (chars "application/x-executable")); destruct (text_eqb _ (chars "application/x-sharedlib")); reflexivity.
Qed.

(** ** [basename] *)

Lemma split_on_last c above b : lacks c b -> last (split_on c (above ++ c :: b)) [] = b.
Proof.
  intros H. induction above as [|x above IH].
  - cbn [List.app split_on]. rewrite eqb_refl, split_on_none by exact H. reflexivity.
  - cbn [List.app split_on]. destruct (Ascii.eqb x c).
    + destruct (split_on c (above ++ c :: b)) as [|q qs] eqn:E; [destruct (split_on_ne _ _ E)|]. exact IH.
    + destruct (split_on c (above ++ c :: b)) as [|q qs] eqn:E; [destruct (split_on_ne _ _ E)|].
      destruct qs as [|q' qs]; [|exact IH]. exfalso.
      assert (HS : forall a, exists u v w, split_on c (a ++ c :: b) = u :: v :: w).
      { clear. intros a. induction a as [|y a (u & v & w & IH)]; cbn [List.app split_on].
        - rewrite eqb_refl. destruct (split_on c b) as [|v w] eqn:E; [destruct (split_on_ne _ _ E)|]. eauto.
        - rewrite IH. destruct (Ascii.eqb y c); eauto. }
      destruct (HS above) as (u & v & w & E'). rewrite E in E'. discriminate.
Qed.

Lemma drop_slashes_id b : b <> [] -> lacks slash b -> forall above, rev (drop_slashes (rev (above ++ b))) = above ++ b.
Proof.
  intros H1 H2 above. rewrite rev_app_distr. destruct (rev b) as [|x r] eqn:E.
  - apply (f_equal (@rev ascii)) in E. rewrite rev_involutive in E. contradiction.
  - assert (HI : In x b) by (apply in_rev; rewrite E; left; reflexivity).
    cbn [List.app drop_slashes]. destruct (Ascii.eqb_spec x slash) as [->|_]; [contradiction|].
    replace (x :: r ++ rev above) with (rev (above ++ b)); [apply rev_involutive|]. rewrite rev_app_distr, E. reflexivity.
Qed.

Theorem basename_last p b : last_component p b -> basename p = b.
Proof.
  intros (H1 & H2 & [->|(above & ->)]); unfold basename.
  - rewrite (drop_slashes_id b H1 H2 [] : rev (drop_slashes (rev b)) = b). destruct b as [|x t]; [contradiction|]. rewrite split_on_none by exact H2. reflexivity.
  - replace (above ++ slash :: b) with ((above ++ [slash]) ++ b) by (rewrite <- app_assoc; reflexivity).
    rewrite (drop_slashes_id b H1 H2). rewrite <- app_assoc. cbn [List.app].
    destruct (above ++ slash :: b) as [|x t] eqn:E; [destruct above; discriminate|]. rewrite <- E. apply split_on_last, H2.
Qed.

Lemma last_component_ex p c : c <> slash -> exists b, last_component (p ++ [c]) b.
Proof.
  intros Hc. induction p as [|x p (b & B1 & B2 & B3)].
  - exists [c]. split; [discriminate|]. split; [intros [E|[]]; congruence|]. left. reflexivity.
  - destruct B3 as [<-|(above & E)].
    + destruct (Ascii.eqb_spec x slash) as [->|Hx].
      * exists (p ++ [c]). split; [exact B1|]. split; [exact B2|]. right. exists []. reflexivity.
      * exists (x :: p ++ [c]). split; [discriminate|]. split; [|left; reflexivity]. intros [E|E]; [congruence|contradiction].
    + exists b. split; [exact B1|]. split; [exact B2|]. right. exists (x :: above). cbn [List.app]. rewrite E. reflexivity.
Qed.

(** ** The second xargs *)

Lemma scan_plain p t cur : Forall (fun c => special c = false) p -> scan XNorm cur (p ++ t) = scan XNorm (rev p ++ cur) t.
Proof.
  revert cur. induction p as [|c p IH]; intros cur H; [reflexivity|]. inversion H as [|? ? H1 H2]; subst.
  rewrite special_is in H1. apply orb_false_iff in H1. destruct H1 as [H1 Hq]. apply orb_false_iff in H1. destruct H1 as [H1 Hb].
  apply orb_false_iff in H1. destruct H1 as [Hn Hbl].
  cbn [List.app scan]. rewrite Hn, Hbl, Hb, Hq, IH by exact H2. cbn [rev]. rewrite <- app_assoc. reflexivity.
Qed.

Lemma scan_line p t : safe p -> scan XSpace [] (p ++ nl :: t) = (p :: fst (scan XSpace [] t), snd (scan XSpace [] t)).
Proof.
  intros (H1 & H2 & H3). destruct p as [|c p]; [contradiction|]. inversion H2 as [|? ? S1 S2]; subst.
  assert (E : scan XSpace [] ((c :: p) ++ nl :: t) = scan XNorm [] ((c :: p) ++ nl :: t)).
  { cbn [List.app scan]. rewrite <- white_is, H3. reflexivity. }
  rewrite E, scan_plain by exact H2. rewrite app_nil_r. cbn [scan]. rewrite eqb_refl.
  destruct (scan XSpace [] t) as [l b]. rewrite rev_involutive. reflexivity.
Qed.

Lemma scan_lines l : Forall safe l -> scan XSpace [] (unlines_of l) = (l, false).
Proof.
  induction 1 as [|p t H _ IH]; [reflexivity|]. cbn [unlines_of flat_map]. rewrite <- app_assoc. cbn [List.app].
  rewrite scan_line by exact H. fold (unlines_of t). rewrite IH. reflexivity.
Qed.

Lemma xargs_lines l : Forall safe l -> xargs (unlines_of l) = (match l with [] => [[]] | _ => l end, false).
Proof. intros H. unfold xargs. rewrite scan_lines by exact H. destruct l; reflexivity. Qed.

(** How much xargs can hand on. *)
Lemma scan_short t : forall st cur, (length (concat (fst (scan st cur (t ++ [nl])))) <=
  length cur + length t + match st with XBackslash => 1 | _ => 0 end)%nat.
Proof.
  induction t as [|c t IH]; intros st cur.
  - destruct st; cbn [List.app scan].
    + change (is_space nl) with true. cbn iota. destruct cur; cbn; rewrite ?app_nil_r, ?app_length, ?rev_length; cbn; lia.
    + rewrite eqb_refl. cbn. rewrite app_nil_r, rev_length. lia.
    + rewrite eqb_refl. cbn. lia.
    + cbn. rewrite app_nil_r, app_length, rev_length. cbn. lia.
  - assert (N : (length (concat (fst (if Ascii.eqb c nl then let (l, b) := scan XSpace [] (t ++ [nl]) in (rev cur :: l, b)
        else if is_blank c then let (l, b) := scan XSpace [] (t ++ [nl]) in (rev cur :: l, b)
        else if Ascii.eqb c backslash then scan XBackslash cur (t ++ [nl])
        else if is_quote c then scan (XQuote c) cur (t ++ [nl])
        else scan XNorm (c :: cur) (t ++ [nl])))) <= length cur + S (length t))%nat).
    { assert (X : (length (concat (fst (let (l, b) := scan XSpace [] (t ++ [nl]) in (rev cur :: l, b)))) <= length cur + S (length t))%nat).
      { pose proof (IH XSpace []) as IH0. destruct (scan XSpace [] (t ++ [nl])) as [l b]. cbn [fst concat] in *. rewrite app_length, rev_length. cbn [length] in IH0; cbn iota in IH0; lia. }
      destruct (Ascii.eqb c nl); [exact X|]. destruct (is_blank c); [exact X|].
      destruct (Ascii.eqb c backslash); [specialize (IH XBackslash cur); cbn iota in IH; lia|].
      destruct (is_quote c); [specialize (IH (XQuote c) cur); cbn iota in IH; lia|]. specialize (IH XNorm (c :: cur)). cbn [length] in IH; cbn iota in IH; lia. }
    destruct st; cbn [List.app scan length].
    + destruct (is_space c); [specialize (IH XSpace cur); cbn iota in IH; lia|]. etransitivity; [exact N|lia].
    + etransitivity; [exact N|lia].
    + destruct (Ascii.eqb c nl); [cbn; lia|]. destruct (Ascii.eqb c q); [specialize (IH XNorm cur); cbn iota in IH; lia|].
      specialize (IH (XQuote q) (c :: cur)). cbn [length] in IH; cbn iota in IH; lia.
    + specialize (IH XNorm (c :: cur)). cbn [length] in IH; cbn iota in IH; lia.
Qed.

(** The first special character spoils the argument. *)
Lemma spoilt q c t cur : Forall (fun c => special c = false) q -> special c = true ->
  fst (scan XNorm cur (q ++ c :: t ++ [nl])) <> [rev cur ++ q ++ c :: t].
Proof.
  intros Hq Hc HE. rewrite scan_plain in HE by exact Hq.
  set (cur' := rev q ++ cur) in *. assert (EL : length cur' = (length q + length cur)%nat) by (unfold cur'; rewrite app_length, rev_length; lia).
  assert (ER : rev cur' = rev cur ++ q) by (unfold cur'; rewrite rev_app_distr, rev_involutive; reflexivity).
  assert (HL : length (concat [rev cur ++ q ++ c :: t]) = (length cur' + S (length t))%nat).
  { cbn [concat]. rewrite app_nil_r, !app_length, rev_length. cbn [length]. lia. }
  rewrite <- HE in HL. cbn [scan] in HL, HE.
  assert (X : forall r : list text * bool, r = (let (l, b) := scan XSpace [] (t ++ [nl]) in (rev cur' :: l, b)) ->
    fst r = [rev cur ++ q ++ c :: t] -> False).
  { intros r -> H. destruct (scan XSpace [] (t ++ [nl])) as [l b]. cbn [fst] in H. injection H as H _. rewrite ER in H.
    rewrite app_assoc in H. apply (f_equal (@length _)) in H. rewrite !app_length in H. cbn [length] in H. lia. }
  destruct (Ascii.eqb c nl) eqn:E1; [exact (X _ eq_refl HE)|]. destruct (is_blank c) eqn:E2; [exact (X _ eq_refl HE)|].
  destruct (Ascii.eqb c backslash) eqn:E3.
  - apply Ascii.eqb_eq in E3. subst c. destruct t as [|x t].
    + cbn [List.app scan fst] in HE. injection HE as HE. cbn [rev] in HE. rewrite ER, <- app_assoc in HE. apply app_inv_head in HE. apply app_inv_head in HE. discriminate.
    + cbn [List.app scan] in HL. pose proof (scan_short t XNorm (x :: cur')) as S. cbn [length] in *. cbn iota in S. lia.
  - destruct (is_quote c) eqn:E4.
    + pose proof (scan_short t (XQuote c) cur') as S. cbn iota in S. lia.
    + rewrite special_is in Hc. rewrite E1, E2, E3, E4 in Hc. discriminate.
Qed.

(** Exactly the safe paths are handed on as they are. *)
Theorem xargs_exact p : p <> [] -> (xargs (p ++ [nl]) = ([p], false) <-> safe p).
Proof.
  intros Hp. split.
  - intros H. assert (HS : fst (scan XSpace [] (p ++ [nl])) = [p]).
    { unfold xargs in H. destruct (scan XSpace [] (p ++ [nl])) as [[|x l] b]; [|injection H as -> ->; reflexivity].
      destruct b; [discriminate|]. injection H as <-. contradiction Hp; reflexivity. }
    split; [exact Hp|]. destruct p as [|c p]; [contradiction|].
    assert (H0 : is_space c = false).
    { destruct (is_space c) eqn:E; [|reflexivity]. exfalso. cbn [List.app scan] in HS. rewrite E in HS.
      pose proof (scan_short p XSpace []) as S. rewrite HS in S. cbn iota in S. cbn [concat] in S. rewrite app_nil_r in S. cbn [length] in S. lia. }
    split; [|rewrite white_is; exact H0].
    assert (HN : fst (scan XNorm [] ((c :: p) ++ [nl])) = [c :: p]).
    { rewrite <- HS. cbn [List.app scan]. rewrite H0. reflexivity. }
    apply Forall_forall. intros x Hx. destruct (special x) eqn:E; [|reflexivity]. exfalso.
    assert (HF : exists q y t, c :: p = q ++ y :: t /\ Forall (fun c => special c = false) q /\ special y = true).
    { clear -Hx E. revert Hx. generalize (c :: p) as s. induction s as [|a s IH]; intros Hx; [destruct Hx|].
      destruct (special a) eqn:Ea; [exists [], a, s; auto|].
      destruct Hx as [->|Hx]; [congruence|]. destruct (IH Hx) as (q & y & t & -> & Hq & Hy). exists (a :: q), y, t. repeat split; auto. }
    destruct HF as (q & y & t & HE & Hq & Hy). rewrite HE in HN. rewrite <- app_assoc in HN. cbn [List.app] in HN.
    exact (spoilt q y t [] Hq Hy HN).
  - intros H. replace (p ++ [nl]) with (unlines_of [p]) by (cbn; rewrite app_nil_r; reflexivity).
    rewrite xargs_lines by (repeat constructor; apply H). reflexivity.
Qed.

(** ** The pipeline up to the second xargs *)

Lemma printed found : listing found -> Forall (fun x => plain_path (fst x)) found ->
  Forall (fun x => print_if_lib (fst x) (snd x) = if is_program (snd x) then fst x ++ [nl] else []) found.
Proof.
  intros [_ HL] HP. rewrite Forall_forall in *. intros [p r] Hx. specialize (HL _ Hx). specialize (HP _ Hx). cbn [fst snd] in *.
  unfold print_if_lib. rewrite (accepted_right p r (proj2 HL) HP). reflexivity.
Qed.

Lemma uniq_distinct l : NoDup l -> uniq_lines l = l.
Proof.
  induction 1 as [|x t H _ IH]; [reflexivity|]. cbn [uniq_lines]. destruct t as [|y t]; [reflexivity|].
  destruct (text_eqb_spec x y) as [->|_]; [exfalso; apply H; left; reflexivity|]. rewrite IH. reflexivity.
Qed.

Lemma perm_filter {A} (f : A -> bool) l l' : Permutation l l' -> Permutation (filter f l) (filter f l').
Proof.
  induction 1 as [|x l l' _ IH|x y l|l l' l'' _ IH _ IH']; cbn [filter].
  - constructor.
  - destruct (f x); auto.
  - destruct (f x), (f y); auto using Permutation_refl. apply perm_swap.
  - eapply Permutation_trans; eassumption.
Qed.

(** A permutation of the printed lines is the lines of a permutation. *)
Lemma lines_permuted (found : list (text * file_report)) outs :
  Permutation (map (fun x => if is_program (snd x) then fst x ++ [nl] else []) found) outs ->
  exists l, Permutation (programs found) l /\ concat outs = unlines_of l.
Proof.
  intros H. apply Permutation_sym, Permutation_map_inv in H. destruct H as (found' & -> & HP). exists (programs found'). split.
  - unfold programs. apply Permutation_map, perm_filter, HP.
  - clear. unfold programs, unlines_of. induction found' as [|[p r] t IH]; [reflexivity|]. cbn [map concat filter fst snd].
    destruct (is_program r); [cbn [map flat_map fst]; rewrite IH; reflexivity|exact IH].
Qed.

Lemma programs_in p found : In p (programs found) -> exists r, In (p, r) found /\ is_program r = true.
Proof.
  unfold programs. rewrite in_map_iff. intros ([p' r] & <- & H). apply filter_In in H. destruct H as [H1 H2]. eauto.
Qed.
Lemma programs_nodup found : NoDup (map fst found) -> NoDup (programs found).
Proof.
  unfold programs. induction found as [|[p r] t IH]; cbn [map filter fst snd]; intros H; [constructor|].
  inversion H as [|? ? H1 H2]; subst. destruct (is_program r); [|apply IH, H2]. cbn [map fst]. constructor; [|apply IH, H2].
  intros X. apply H1. apply in_map_iff in X. destruct X as (y & E & Hy). apply filter_In in Hy. apply in_map_iff. exists y. tauto.
Qed.

Theorem arguments found input : listing found -> (forall p, In p (map fst found) -> plain_path p) -> handed_on found input ->
  exists l, Permutation (programs found) l /\ xargs input = (match l with [] => [[]] | _ => l end, false).
Proof.
  intros HL HP (outs & HO & ->).
  assert (HP' : Forall (fun x => plain_path (fst x)) found).
  { apply Forall_forall. intros x Hx. apply HP, in_map, Hx. }
  pose proof (printed found HL HP') as HQ.
  assert (HE : map (fun x => print_if_lib (fst x) (snd x)) found = map (fun x => if is_program (snd x) then fst x ++ [nl] else []) found).
  { apply map_ext_in. intros x Hx. rewrite Forall_forall in HQ. apply HQ, Hx. }
  rewrite HE in HO. destruct (lines_permuted found outs HO) as (l & Hl & ->). exists l. split; [exact Hl|].
  assert (HS : Forall safe l).
  { apply Forall_forall. intros p Hp. apply (Permutation_in p (Permutation_sym Hl)) in Hp. apply programs_in in Hp. destruct Hp as (r & Hr & _).
    apply (HP p). apply in_map_iff. exists (p, r). auto. }
  assert (HN : NoDup l) by (eapply Permutation_NoDup; [exact Hl|apply programs_nodup, HL]).
  unfold uniq. rewrite lines_unlines by (eapply Forall_impl; [|exact HS]; intros p; apply safe_no_nl).
  rewrite uniq_distinct by exact HN. apply xargs_lines, HS.
Qed.
