(** Debug output can be read back. *)
From Coq Require Import String Ascii.
From Verif Require Export DebugSpec SectionSpec TextWitness.
Local Open Scope string_scope.

(** ** Trees *)

Section TreeInd.
  Variable P : dbg -> Prop.
  Hypothesis HLeaf : forall s, P (DLeaf s).
  Hypothesis HStruct : forall n fs, Forall (fun kv => P (snd kv)) fs -> P (DStruct n fs).
  Hypothesis HTuple : forall n l, Forall P l -> P (DTuple n l).
  Hypothesis HList : forall l, Forall P l -> P (DList l).
  Hypothesis HMap : forall l, Forall (fun kv => P (snd kv)) l -> P (DMap l).
  Fixpoint dbg_tree_ind (t : dbg) : P t :=
    let all := fix all (l : list dbg) : Forall P l :=
      match l with [] => Forall_nil _ | x :: r => Forall_cons _ (dbg_tree_ind x) (all r) end in
    let vals := fix vals (l : list (string * dbg)) : Forall (fun kv => P (snd kv)) l :=
      match l with [] => Forall_nil _ | (k, x) :: r => @Forall_cons _ (fun kv => P (snd kv)) (k, x) _ (dbg_tree_ind x) (vals r) end in
    match t with
    | DLeaf s => HLeaf s
    | DStruct n fs => HStruct n fs (vals fs)
    | DTuple n l => HTuple n l (all l)
    | DList l => HList l (all l)
    | DMap l => HMap l (vals l)
    end.
End TreeInd.

(** ** Words *)

Lemma is_word_iff s : is_word s <-> s <> "" /\ all_chars word_char s = true.
Proof.
  unfold is_word. split; intros [H1 H2]; (split; [exact H1|]).
  - clear H1. induction s as [|c s IH]; [reflexivity|]. cbn.
    destruct (word_char c) eqn:E.
    + cbn. apply IH. intros d Hd. exact (proj2 (H2 d Hd)).
    + exfalso. exact (proj1 (H2 c E) eq_refl).
  - intros d Hd. apply without_all. eapply all_chars_impl; [|exact H2]. cbv beta. intros c Hc.
    destruct (Ascii.eqb_spec c d); [congruence|reflexivity].
Qed.

(** The word in front of [s] ends there. *)
Definition stops (s : string) : Prop := match s with "" => True | String c _ => word_char c = false end.

Lemma tokens_run w : forall cur s, all_chars word_char w = true -> tokens_from cur (w ++ s) = tokens_from (cur ++ w) s.
Proof.
  induction w as [|c w IH]; intros cur s H.
  - cbn. now rewrite app_nil_r_s.
  - cbn in H. apply andb_true_iff in H. destruct H as [Hc Hw]. cbn.
    unfold word_char in Hc. apply negb_true_iff, orb_false_iff in Hc. destruct Hc as [-> ->].
    rewrite IH by exact Hw. rewrite app_assoc_s. reflexivity.
Qed.
Lemma tokens_stop w s : w <> "" -> stops s -> tokens_from w s = TWord w :: tokens_from "" s.
Proof.
  intros Hw Hs. assert (HF : flush w = [TWord w]) by (unfold flush; destruct (String.eqb_spec w ""); [contradiction|reflexivity]).
  destruct s as [|c s]; cbn; [rewrite HF; reflexivity|]. cbn in Hs. unfold word_char in Hs. apply negb_false_iff in Hs.
  rewrite HF. destruct (blank_char c); [reflexivity|]. cbn in Hs. rewrite Hs. reflexivity.
Qed.
Lemma tokens_word w s : is_word w -> stops s -> tokens (w ++ s) = TWord w :: tokens s.
Proof.
  intros Hw Hs. apply is_word_iff in Hw. destruct Hw as [H1 H2]. unfold tokens. rewrite tokens_run by exact H2.
  cbn. apply tokens_stop; assumption.
Qed.
Lemma tokens_blank c s : blank_char c = true -> tokens (String c s) = tokens s.
Proof. intros H. unfold tokens. cbn. rewrite H. reflexivity. Qed.
Lemma bracket_not_blank c : bracket c = true -> blank_char c = false.
Proof. destruct c as [[] [] [] [] [] [] [] []]; vm_compute; congruence. Qed.
Lemma tokens_mark c s : bracket c = true -> tokens (String c s) = TMark c :: tokens s.
Proof. intros H. unfold tokens. cbn. rewrite (bracket_not_blank c H), H. reflexivity. Qed.

(** ** Printing and tokens *)

Fixpoint tree_tokens (t : dbg) : list token :=
  match t with
  | DLeaf s => [TWord s]
  | DStruct n fs => TWord n :: TMark "{" :: flat_map (fun kv => TWord (fst kv ++ ":") :: tree_tokens (snd kv)) fs ++ [TMark "}"%char]
  | DTuple n l => TWord n :: TMark "(" :: flat_map tree_tokens l ++ [TMark ")"%char]
  | DList l => TMark "[" :: flat_map tree_tokens l ++ [TMark "]"%char]
  | DMap l => TMark "{" :: flat_map (fun kv => TWord (fst kv ++ ":") :: tree_tokens (snd kv)) l ++ [TMark "}"%char]
  end%list.

Lemma key_word k : is_word k -> is_word (k ++ ":").
Proof.
  rewrite !is_word_iff. intros [H1 H2]. split; [destruct k; [contradiction|discriminate]|].
  rewrite all_chars_app, H2. reflexivity.
Qed.

Lemma key_tokens k s : is_word k -> tokens (k ++ ": " ++ s) = TWord (k ++ ":") :: tokens s.
Proof.
  intros H. change (k ++ ": " ++ s) with (k ++ ":" ++ String " " s). rewrite <- app_assoc_s.
  rewrite tokens_word by (try apply key_word, H; exact eq_refl). rewrite tokens_blank by reflexivity. reflexivity.
Qed.

Lemma comma_stops s : stops (", " ++ s). Proof. reflexivity. Qed.

(** The elements of a list, each with its separator. *)
Lemma join_tokens {A} (f : A -> string) (g : A -> list token) (l : list A) s :
  stops s -> Forall (fun x => forall s, stops s -> tokens (f x ++ s) = (g x ++ tokens s)%list) l ->
  tokens (join ", " (map f l) ++ s) = (flat_map g l ++ tokens s)%list.
Proof.
  intros Hs H. induction H as [|x l Hx Hl IH]; [reflexivity|].
  destruct l as [|y l].
  - cbn. rewrite app_nil_r. apply Hx, Hs.
  - change (join ", " (map f (x :: y :: l))) with (f x ++ ", " ++ join ", " (map f (y :: l))).
    rewrite !app_assoc_s. rewrite Hx by reflexivity. change (flat_map g (x :: y :: l)) with (g x ++ flat_map g (y :: l))%list. rewrite <- app_assoc. f_equal.
    cbn [append]. rewrite !tokens_blank by reflexivity. exact IH.
Qed.

Theorem compact_tokens t : wordy t -> forall s, stops s -> tokens (compact t ++ s) = (tree_tokens t ++ tokens s)%list.
Proof.
  induction t as [w|n fs IH|n l IH|l IH|l IH] using dbg_tree_ind; intros HW s Hs; inversion HW; subst.
  - cbn. apply tokens_word; assumption.
  - destruct fs as [|kv fs]; [contradiction|].
    change (compact (DStruct n (kv :: fs))) with
      (n ++ " { " ++ join ", " (map (fun kv => fst kv ++ ": " ++ compact (snd kv)) (kv :: fs)) ++ " }").
    rewrite !app_assoc_s. rewrite tokens_word by (try assumption; reflexivity).
    cbn [append]. rewrite tokens_blank by reflexivity. rewrite tokens_mark by reflexivity. rewrite tokens_blank by reflexivity.
    rewrite (join_tokens _ (fun kv => TWord (fst kv ++ ":") :: tree_tokens (snd kv))).
    + cbn [append]. rewrite tokens_blank by reflexivity. rewrite tokens_mark by reflexivity.
      cbn [tree_tokens]. cbn [app]. do 2 f_equal. rewrite <- app_assoc. reflexivity.
    + reflexivity.
    + rewrite Forall_forall in IH |- *. intros x Hx s' Hs'.
      match goal with H : Forall _ (kv :: fs) |- _ => rewrite Forall_forall in H; destruct (H x Hx) as [Hk Hv] end.
      cbv beta. rewrite !app_assoc_s. change (tokens (fst x ++ ": " ++ (compact (snd x) ++ s')) = ((TWord (fst x ++ ":") :: tree_tokens (snd x)) ++ tokens s')%list).
      rewrite key_tokens by exact Hk. cbn [app]. f_equal. apply IH; assumption.
  - destruct l as [|x l]; [contradiction|].
    change (compact (DTuple n (x :: l))) with (n ++ "(" ++ join ", " (map compact (x :: l)) ++ ")").
    rewrite !app_assoc_s. rewrite tokens_word by (try assumption; reflexivity).
    cbn [append]. rewrite tokens_mark by reflexivity. rewrite (join_tokens _ tree_tokens).
    + cbn [append]. rewrite tokens_mark by reflexivity. cbn [tree_tokens app]. do 2 f_equal. rewrite <- app_assoc. reflexivity.
    + reflexivity.
    + rewrite Forall_forall in IH |- *. intros y Hy s' Hs'.
      match goal with H : Forall _ (x :: l) |- _ => rewrite Forall_forall in H; specialize (H y Hy) end. apply IH; assumption.
  - change (compact (DList l)) with ("[" ++ join ", " (map compact l) ++ "]").
    rewrite !app_assoc_s. cbn [append]. rewrite tokens_mark by reflexivity. rewrite (join_tokens _ tree_tokens).
    + cbn [append]. rewrite tokens_mark by reflexivity. cbn [tree_tokens app]. f_equal. rewrite <- app_assoc. reflexivity.
    + reflexivity.
    + rewrite Forall_forall in IH |- *. intros y Hy s' Hs'.
      match goal with H : Forall _ l |- _ => rewrite Forall_forall in H; specialize (H y Hy) end. apply IH; assumption.
Qed.

(** Indentation changes no token. *)
Lemma newline_blank c : Ascii.eqb c (ascii_of_nat 10) = true -> blank_char c = true.
Proof. intros H. unfold blank_char. change newline_char with (ascii_of_nat 10). rewrite H. rewrite !orb_true_r. reflexivity. Qed.
Lemma indent_tokens x : forall cur s,
  tokens_from cur (indent_from false x ++ s) = tokens_from cur (x ++ s) /\
  tokens_from "" (indent_from true x ++ s) = tokens_from "" (x ++ s).
Proof.
  induction x as [|c x IH]; intros cur s; [split; reflexivity|].
  assert (H : forall cur, tokens_from cur (String c (indent_from (Ascii.eqb c (ascii_of_nat 10)) x ++ s)) = tokens_from cur (String c (x ++ s))).
  { intros cur'. destruct (Ascii.eqb c (ascii_of_nat 10)) eqn:EN; cbn [tokens_from].
    - rewrite (newline_blank c EN). f_equal. apply (IH "" s).
    - destruct (blank_char c); [f_equal; apply (IH "" s)|]. destruct (bracket c); [do 2 f_equal; apply (IH "" s)|]. apply IH. }
  split; [cbn [indent_from append]; apply H|]. exact (H "").
Qed.
Lemma indented x s : tokens (indent x ++ s) = tokens (x ++ s).
Proof. exact (proj2 (indent_tokens x "" s)). Qed.

Lemma lines_tokens {A} (f : A -> string) (g : A -> list token) (l : list A) s :
  Forall (fun x => forall s, stops s -> tokens (f x ++ s) = (g x ++ tokens s)%list) l ->
  tokens (concat_text (map (fun x => indent (f x ++ "," ++ newline)) l) ++ s) = (flat_map g l ++ tokens s)%list.
Proof.
  intros H. induction H as [|x l Hx Hl IH]; [reflexivity|].
  cbn [map concat_text List.fold_right flat_map]. rewrite app_assoc_s, indented, !app_assoc_s.
  rewrite Hx by reflexivity. rewrite <- app_assoc. f_equal. unfold newline. cbn [append]. rewrite !tokens_blank by reflexivity. exact IH.
Qed.

Theorem pretty_tokens t : wordy t -> forall s, stops s -> tokens (pretty t ++ s) = (tree_tokens t ++ tokens s)%list.
Proof.
  induction t as [w|n fs IH|n l IH|l IH|l IH] using dbg_tree_ind; intros HW s Hs; inversion HW; subst.
  - cbn. apply tokens_word; assumption.
  - destruct fs as [|kv fs]; [contradiction|].
    change (pretty (DStruct n (kv :: fs))) with
      (n ++ " {" ++ newline ++ concat_text (map (fun kv => indent (fst kv ++ ": " ++ pretty (snd kv) ++ "," ++ newline)) (kv :: fs)) ++ "}").
    rewrite (map_ext _ (fun kv => indent ((fst kv ++ ": " ++ pretty (snd kv)) ++ "," ++ newline)))
      by (intros a; now rewrite !app_assoc_s).
    rewrite !app_assoc_s. rewrite tokens_word by (try assumption; reflexivity).
    unfold newline at 1. cbn [append]. rewrite tokens_blank by reflexivity. rewrite tokens_mark by reflexivity. rewrite tokens_blank by reflexivity.
    rewrite (lines_tokens _ (fun kv => TWord (fst kv ++ ":") :: tree_tokens (snd kv))).
    + cbn [append]. rewrite tokens_mark by reflexivity. cbn [tree_tokens app]. do 2 f_equal. rewrite <- app_assoc. reflexivity.
    + rewrite Forall_forall in IH |- *. intros x Hx s' Hs'.
      match goal with H : Forall _ (kv :: fs) |- _ => rewrite Forall_forall in H; destruct (H x Hx) as [Hk Hv] end.
      cbv beta. rewrite !app_assoc_s. change (tokens (fst x ++ ": " ++ (pretty (snd x) ++ s')) = ((TWord (fst x ++ ":") :: tree_tokens (snd x)) ++ tokens s')%list).
      rewrite key_tokens by exact Hk. cbn [app]. f_equal. apply IH; assumption.
  - destruct l as [|x l]; [contradiction|].
    change (pretty (DTuple n (x :: l))) with
      (n ++ "(" ++ newline ++ concat_text (map (fun x => indent (pretty x ++ "," ++ newline)) (x :: l)) ++ ")").
    rewrite !app_assoc_s. rewrite tokens_word by (try assumption; reflexivity).
    unfold newline at 1. cbn [append]. rewrite tokens_mark by reflexivity. rewrite tokens_blank by reflexivity.
    rewrite (lines_tokens _ tree_tokens).
    + cbn [append]. rewrite tokens_mark by reflexivity. cbn [tree_tokens app]. do 2 f_equal. rewrite <- app_assoc. reflexivity.
    + rewrite Forall_forall in IH |- *. intros y Hy s' Hs'.
      match goal with H : Forall _ (x :: l) |- _ => rewrite Forall_forall in H; specialize (H y Hy) end. apply IH; assumption.
  - destruct l as [|x l].
    + cbn [pretty append]. rewrite !tokens_mark by reflexivity. reflexivity.
    + change (pretty (DList (x :: l))) with
        ("[" ++ newline ++ concat_text (map (fun x => indent (pretty x ++ "," ++ newline)) (x :: l)) ++ "]").
      rewrite !app_assoc_s. unfold newline at 1. cbn [append]. rewrite tokens_mark by reflexivity. rewrite tokens_blank by reflexivity.
      rewrite (lines_tokens _ tree_tokens).
      * cbn [append]. rewrite tokens_mark by reflexivity. cbn [tree_tokens app]. f_equal. rewrite <- app_assoc. reflexivity.
      * rewrite Forall_forall in IH |- *. intros y Hy s' Hs'.
        match goal with H : Forall _ (x :: l) |- _ => rewrite Forall_forall in H; specialize (H y Hy) end. apply IH; assumption.
Qed.

Lemma printed_tokens alt t : wordy t -> tokens (print_debug alt t) = tree_tokens t.
Proof.
  intros H. rewrite <- (app_nil_r_s (print_debug alt t)). unfold print_debug.
  destruct alt; [rewrite pretty_tokens by (try exact H; exact I)|rewrite compact_tokens by (try exact H; exact I)]; cbn; apply app_nil_r.
Qed.

(** ** Reading trees *)

Lemma key_of_colon k : key_of (k ++ ":") = Some k.
Proof.
  induction k as [|c k IH]; [reflexivity|]. cbn. destruct k as [|d k]; [reflexivity|]. cbn in *. now rewrite IH.
Qed.

(** What may follow a word that is a value. *)
Definition calm (l : list token) : Prop :=
  match l with TMark c :: _ => (Ascii.eqb c "{" = false /\ Ascii.eqb c "(" = false)%char | _ => True end.
Lemma tree_tokens_calm t rest : wordy t -> calm (tree_tokens t ++ rest).
Proof. intros H. destruct H; cbn; auto. Qed.

Definition reads_back (t : dbg) : Prop := forall n rest, (2 * length (tree_tokens t) <= n)%nat -> calm rest ->
  read_tree n (tree_tokens t ++ rest) = Some (t, rest).

Definition opener (c : ascii) : Prop := Ascii.eqb c "[" = true.
Lemma items_back close l : Forall reads_back l -> Forall wordy l -> (close = "]" \/ close = ")")%char ->
  forall n rest, (2 * length (flat_map tree_tokens l) + 1 <= n)%nat -> 
  read_items n close (flat_map tree_tokens l ++ TMark close :: rest) = Some (l, rest).
Proof.
  intros H HW HC. induction H as [|x l Hx Hl IH]; intros n rest Hn; (destruct n as [|n]; [lia|]).
  - cbn. rewrite Ascii.eqb_refl. reflexivity.
  - apply Forall_cons_iff in HW. destruct HW as [HWx HWl].
    cbn [flat_map] in *. rewrite app_length in Hn. rewrite <- app_assoc.
    assert (HT : (1 <= length (tree_tokens x))%nat) by (destruct x; cbn; lia).
    assert (HM : read_tree n (tree_tokens x ++ flat_map tree_tokens l ++ TMark close :: rest) =
                 Some (x, (flat_map tree_tokens l ++ TMark close :: rest)%list)).
    { apply Hx; [lia|]. destruct l as [|y l]; [destruct HC as [-> | ->]; cbn; auto|].
      cbn [flat_map]. rewrite <- app_assoc. apply tree_tokens_calm. now apply Forall_cons_iff in HWl. }
    assert (HI : read_items n close (flat_map tree_tokens l ++ TMark close :: rest) = Some (l, rest)) by (apply IH; [exact HWl|lia]).
    cbn [read_items]. rewrite HM, HI.
    destruct HWx; cbn [tree_tokens app]; try reflexivity.
    destruct HC as [-> | ->]; reflexivity.
Qed.
Lemma fields_back fs : Forall (fun kv => reads_back (snd kv)) fs ->
  forall n rest, (2 * length (flat_map (fun kv => TWord (fst kv ++ ":") :: tree_tokens (snd kv)) fs) + 1 <= n)%nat -> 
  read_fields n (flat_map (fun kv => TWord (fst kv ++ ":") :: tree_tokens (snd kv)) fs ++ TMark "}" :: rest) = Some (fs, rest).
Proof.
  intros H. induction H as [|[k x] l Hx Hl IH]; intros n rest Hn; (destruct n as [|n]; [lia|]).
  - reflexivity.
  - cbn [flat_map fst snd] in *. cbn [length app] in Hn. rewrite app_length in Hn. cbn [app]. rewrite <- app_assoc.
    cbn [read_fields]. rewrite key_of_colon.
    rewrite Hx; [|lia|].
    + rewrite IH by lia. reflexivity.
    + destruct l as [|[k' y] l]; cbn; auto.
Qed.

Theorem tree_back t : wordy t -> reads_back t.
Proof.
  induction t as [w|nm fs IH|nm l IH|l IH|l IH] using dbg_tree_ind; intros HW n rest Hn Hc; inversion HW; subst;
    (destruct n as [|n]; [cbn in Hn; lia|]).
  - cbn. destruct rest as [|[w'|c] rest]; try reflexivity. cbn in Hc. destruct Hc as [-> ->]. reflexivity.
  - cbn [tree_tokens app]. cbn [tree_tokens length] in Hn. rewrite app_length in Hn. cbn [length] in Hn.
    rewrite <- app_assoc. cbn [app read_tree Ascii.eqb Bool.eqb].
    rewrite fields_back; [reflexivity| |lia].
    rewrite Forall_forall in IH |- *. intros x Hx.
    match goal with H : Forall _ fs |- _ => rewrite Forall_forall in H; destruct (H x Hx) as [Hk Hv] end. apply IH; assumption.
  - cbn [tree_tokens app]. cbn [tree_tokens length] in Hn. rewrite app_length in Hn. cbn [length] in Hn.
    rewrite <- app_assoc. cbn [app read_tree Ascii.eqb Bool.eqb].
    rewrite items_back; [reflexivity| |assumption|auto|lia].
    rewrite Forall_forall in IH |- *. intros x Hx.
    match goal with H : Forall _ l |- _ => rewrite Forall_forall in H; specialize (H x Hx) end. apply IH; assumption.
  - cbn [tree_tokens app]. cbn [tree_tokens length] in Hn. rewrite app_length in Hn. cbn [length] in Hn.
    rewrite <- app_assoc. cbn [app read_tree Ascii.eqb Bool.eqb].
    rewrite items_back; [reflexivity| |assumption|auto|lia].
    rewrite Forall_forall in IH |- *. intros x Hx.
    match goal with H : Forall _ l |- _ => rewrite Forall_forall in H; specialize (H x Hx) end. apply IH; assumption.
Qed.

(** Both formats are read as the tree that was printed. *)
Theorem text_back alt t : wordy t -> read_text (print_debug alt t) = Some t.
Proof.
  intros H. unfold read_text. rewrite printed_tokens by exact H.
  rewrite <- (app_nil_r (tree_tokens t)) at 2. rewrite tree_back; [reflexivity|exact H|lia|exact I].
Qed.

(** ** Reading values *)

Lemma plain_word s : s <> "" -> all_chars plain s = true -> is_word s.
Proof.
  intros H1 H2. apply is_word_iff. split; [exact H1|]. eapply all_chars_impl; [|exact H2].
  intros c. unfold plain. destruct c as [[] [] [] [] [] [] [] []]; vm_compute; congruence.
Qed.
Lemma dec_word z : is_word (fmt_dec z).
Proof. apply plain_word; [apply dec_nonempty|apply dec_plain]. Qed.
Lemma int_wordy z : wordy (int_debug z). Proof. constructor. apply dec_word. Qed.
Lemma hex_wordy w z : wordy (DLeaf (fmt_hex_alt w z)).
Proof.
  constructor. apply is_word_iff. split; [discriminate|]. unfold fmt_hex_alt. rewrite all_chars_app.
  assert (H : is_word (fmt_hex w z)).
  { apply plain_word; [|apply hex_plain]. unfold fmt_hex. apply digits_nonempty. }
  apply is_word_iff in H. rewrite (proj2 H). reflexivity.
Qed.
Ltac a_word := apply is_word_iff; split; [discriminate|reflexivity].
Ltac wordy_leaf := constructor; a_word.

Lemma read_int_debug z : read_int (int_debug z) = Some z.
Proof. unfold read_int, int_debug, leaf. apply integer_dec. Qed.
Lemma read_hex_debug z : in_i32 z -> read_hex32 (DLeaf (fmt_hex_alt 32 z)) = Some z.
Proof.
  intros H. unfold read_hex32, leaf, hex_word, fmt_hex_alt. rewrite after_app, number_hex by lia.
  cbn [option_map]. rewrite signed32_as_u by exact H. reflexivity.
Qed.
Lemma read_opt_debug o : read_opt read_int (option_debug int_debug o) = Some o.
Proof. destruct o as [z|]; [|reflexivity]. cbn. rewrite integer_dec. reflexivity. Qed.
Lemma opt_wordy o : wordy (option_debug int_debug o).
Proof.
  destruct o as [z|]; cbn; [|wordy_leaf]. constructor; [a_word|discriminate|]. repeat constructor; apply dec_word.
Qed.
Lemma all_some_map {A B} (r : dbg -> option B) (d : A -> dbg) (v : A -> B) l :
  (forall x, In x l -> r (d x) = Some (v x)) -> read_list r (DList (map d l)) = Some (map v l).
Proof.
  unfold read_list. rewrite map_map. induction l as [|x l IH]; intros H; [reflexivity|].
  cbn. rewrite (H x) by now left. rewrite IH by (intros y Hy; apply H; now right). reflexivity.
Qed.
Lemma list_wordy {A} (d : A -> dbg) l : (forall x, In x l -> wordy (d x)) -> wordy (DList (map d l)).
Proof. intros H. constructor. apply Forall_forall. intros t Ht. apply in_map_iff in Ht. destruct Ht as (x & <- & Hx). auto. Qed.

Lemma read_error_back er : read_error_of (read_error_debug er) = Some er.
Proof.
  destruct er; try reflexivity; try (unfold read_error_of, read_error_debug; cbn; rewrite integer_dec; reflexivity).
  - now destruct t.
  - now destruct t.
  - now destruct o.
Qed.
Lemma read_error_wordy er : wordy (read_error_debug er).
Proof.
  destruct er; cbn; try wordy_leaf; (constructor; [a_word|discriminate|]); repeat constructor; try apply dec_word;
    try (match goal with t : fde_type |- _ => destruct t | t : fre_type |- _ => destruct t | t : fre_offset |- _ => destruct t end; discriminate);
    intros c Hc; apply without_all;
    (match goal with t : fde_type |- _ => destruct t | t : fre_type |- _ => destruct t | t : fre_offset |- _ => destruct t end);
    destruct c as [[] [] [] [] [] [] [] []]; vm_compute in Hc |- *; congruence.
Qed.

(** ** Rows *)

Lemma fre_load_three md e f bs fr rest : fre_load md e f bs = Ok (fr, rest) -> length (fr_offsets fr) = 3%nat.
Proof.
  unfold fre_load. intros H. destruct (match fretype (fde_info f) with Addr1 => _ | _ => _ end) as [[[st info] ob]| |]; cbn [bind] in H; try discriminate.
  destruct (negb _); [discriminate|].
  assert (HO : forall n c b r, fre_read_offsets md e n c b = Ok r -> length (fst r) = 3%nat).
  { intros n c b r. unfold fre_read_offsets. destruct (ok_or _ _) as [x| |]; cbn [bind]; try discriminate. intros [= <-]. reflexivity. }
  destruct (match offset_size info with Off1B => _ | _ => _ end) as [r| |] eqn:ER; cbn [bind] in H; try discriminate.
  destruct (st <? fde_size f)%Z; [|discriminate]. injection H as <- _. cbn [fr_offsets].
  destruct (offset_size info); try (eapply HO; exact ER). discriminate.
Qed.
Lemma collect_three md e : forall fuel it l, fri_collect fuel md e it = Ok l ->
  forall fr, In (inl fr) l -> length (fr_offsets fr) = 3%nat.
Proof.
  induction fuel as [|k IH]; intros it l H fr Hi; [discriminate|]. cbn [fri_collect] in H.
  destruct (fri_next md e it) as [[[x|] it']|er|] eqn:EN; [| |destruct er|discriminate].
  - destruct (fri_collect k md e it') as [l'| |] eqn:EC; try discriminate. injection H as <-.
    destruct Hi as [->|Hi]; [|eapply IH; eassumption].
    unfold fri_next in EN. destruct (_ <=? _)%Z; [discriminate|].
    destruct (fre_load md e (ri_fde it) (ri_fres it)) as [[fr' rest]| |] eqn:EL; try discriminate.
    injection EN as <- _. exact (fre_load_three _ _ _ _ _ _ EL).
  - injection H as <-. destruct Hi.
Qed.

Lemma shown_offsets fr : length (fr_offsets fr) = 3%nat ->
  firstn (Z.to_nat (Z.min (offset_count (fr_info fr)) 3)) (fr_offsets fr) = fre_offsets fr.
Proof.
  intros H. unfold fre_offsets, zlen. rewrite H. destruct (Z.leb_spec (offset_count (fr_info fr)) (Z.of_nat 3)) as [L|L].
  - rewrite Z.min_l by lia. reflexivity.
  - rewrite Z.min_r by lia. apply firstn_all2. rewrite H. lia.
Qed.
Lemma read_fre_debug fr : length (fr_offsets fr) = 3%nat -> read_row_of (fre_debug fr) = Some (view_fre fr).
Proof.
  intros H. unfold fre_debug. rewrite shown_offsets by exact H.
  unfold read_row_of, open_struct. cbn [map fst snd String.eqb Ascii.eqb Bool.eqb andb].
  destruct (list_eq_dec _ _ _) as [_|N]; [|contradiction N; reflexivity].
  rewrite read_int_debug. rewrite (all_some_map read_int int_debug (fun z => z)) by (intros; apply read_int_debug).
  rewrite map_id. unfold view_fre, fre_start_address_offset, fre_cfa_base_reg_id.
  destruct (cfa_base_reg_id (fr_info fr)), (fre_mangled_ra_p fr); reflexivity.
Qed.
Lemma bool_wordy b : wordy (bool_debug b). Proof. destruct b; wordy_leaf. Qed.
Lemma base_wordy b : wordy (base_reg_debug b). Proof. destruct b; wordy_leaf. Qed.
Lemma fre_wordy fr : wordy (fre_debug fr).
Proof.
  constructor; [a_word|discriminate|].
  repeat (apply Forall_cons; [split; cbn [fst snd]; [a_word|]|]); [apply int_wordy|apply base_wordy|apply bool_wordy| |apply Forall_nil].
  apply list_wordy. intros z _. apply int_wordy.
Qed.
Lemma read_item_debug x : (forall fr, x = inl fr -> length (fr_offsets fr) = 3%nat) ->
  read_item_of (result_debug fre_debug read_error_debug x) = Some (item_seen x).
Proof.
  intros H. destruct x as [fr|er].
  - unfold read_item_of, under, result_debug, open_tuple. cbn [String.eqb Ascii.eqb Bool.eqb].
    rewrite read_fre_debug by (apply H; reflexivity). reflexivity.
  - unfold read_item_of, under, result_debug, open_tuple. cbn [String.eqb Ascii.eqb Bool.eqb or_else].
    rewrite read_error_back. reflexivity.
Qed.
Lemma item_wordy x : wordy (result_debug fre_debug read_error_debug x).
Proof.
  destruct x; (constructor; [a_word|discriminate|]); (apply Forall_cons; [|apply Forall_nil]); [apply fre_wordy|apply read_error_wordy].
Qed.

(** ** Functions *)

Definition seen_of (en : entry) (l : list fre_item) : fde_seen :=
  FdeSeen (en_start_address en) (en_size en) (fdetype (fde_info (en_fde en))) (en_pauth_key en) (en_rep_block_size en)
    (fde_num_fres (en_fde en)) (fde_start_fre_off (en_fde en)) (map item_seen l).
Lemma seen_of_is md e en l : all_fres md e en = Ok l -> fde_is_seen md e en (seen_of en l).
Proof.
  intros H. unfold fde_is_seen, seen_of. cbn. repeat (split; [reflexivity|]). split.
  - unfold en_fdetype, fde_fdetype. destruct (en_fde en); cbn; destruct (fdetype _); split; congruence.
  - repeat (split; [reflexivity|]). now exists l.
Qed.
Lemma kind_wordy t : wordy (fde_type_debug t). Proof. destruct t; wordy_leaf. Qed.
Lemma key_wordy t : wordy (pauth_debug t). Proof. destruct t; wordy_leaf. Qed.
Lemma read_kind_debug t : read_kind (fde_type_debug t) = Some t. Proof. now destruct t. Qed.
Lemma read_key_debug t : read_key (pauth_debug t) = Some t. Proof. now destruct t. Qed.

Lemma entry_read md e en t : fde_ok (en_fde en) -> entry_debug md e en = Ok t ->
  wordy t /\ exists l, all_fres md e en = Ok l /\ read_fde_of t = Some (seen_of en l).
Proof.
  intros Hf H. unfold entry_debug in H. destruct (all_fres md e en) as [l| |] eqn:EA; try discriminate. cbn [bind] in H.
  injection H as <-.
  assert (HR : read_list read_item_of (DList (map (result_debug fre_debug read_error_debug) l)) = Some (map item_seen l)).
  { apply all_some_map. intros x Hx. apply read_item_debug. intros fr ->. eapply collect_three; eassumption. }
  split.
  - constructor; [a_word|destruct (en_fde en); discriminate|]. cbn [app].
    repeat (apply Forall_cons; [split; cbn [fst snd]; [a_word|]|]); [apply hex_wordy|apply int_wordy|apply kind_wordy|apply key_wordy|].
    apply Forall_app. split.
    + destruct (en_fde en); [apply Forall_nil|]. apply Forall_cons; [split; [a_word|apply int_wordy]|apply Forall_nil].
    + repeat (apply Forall_cons; [split; cbn [fst snd]; [a_word|]|]); [apply int_wordy|apply int_wordy| |apply Forall_nil].
      apply list_wordy. intros x _. apply item_wordy.
  - exists l. split; [reflexivity|]. destruct Hf as (Hs & _).
    unfold read_fde_of, open_struct, seen_of, en_start_address, en_size, en_pauth_key, en_rep_block_size.
    destruct (en_fde en) as [r|r] eqn:EF; cbn [app map fst snd String.eqb Ascii.eqb Bool.eqb andb].
    + destruct (list_eq_dec _ _ _) as [_|N]; [|contradiction N; reflexivity].
      rewrite read_hex_debug by exact Hs. rewrite !read_int_debug, read_kind_debug, read_key_debug, HR. reflexivity.
    + destruct (list_eq_dec _ _ _) as [Y|_]; [discriminate Y|].
      destruct (list_eq_dec _ _ _) as [_|N]; [|contradiction N; reflexivity].
      rewrite read_hex_debug by exact Hs. rewrite !read_int_debug, read_kind_debug, read_key_debug, HR. reflexivity.
Qed.

Lemma entries_read md e : forall ens l, Forall (fun en => fde_ok (en_fde en)) ens -> entries_debug md e ens = Ok l ->
  Forall wordy l /\ exists ss, all_some (map read_fde_of l) = Some ss /\ Forall2 (fde_is_seen md e) ens ss.
Proof.
  induction ens as [|en ens IH]; intros l HF H; cbn [entries_debug] in H.
  - injection H as <-. split; [constructor|]. exists []. split; [reflexivity|constructor].
  - destruct (entry_debug md e en) as [t| |] eqn:EE; try discriminate. cbn [bind] in H.
    destruct (entries_debug md e ens) as [l'| |] eqn:EL; try discriminate. cbn [bind] in H. injection H as <-.
    destruct (entry_read md e en t (Forall_inv HF) EE) as (HW & rows & HA & HR).
    destruct (IH l' (Forall_inv_tail HF) eq_refl) as (HW' & ss & HS & H2).
    split; [now constructor|]. exists (seen_of en rows :: ss). split; [cbn; rewrite HR, HS; reflexivity|].
    constructor; [now apply seen_of_is|exact H2].
Qed.

(** ** Sections *)

Lemma loaded_magic md e bs sf : wf_mode md -> rust_slice md bs -> load md e bs = Ok sf -> pre_magic (sf_preamble sf) = spec_magic.
Proof.
  intros Hm Hb H. assert (HG : good_magic e bs) by (apply (load_ok_iff md e bs Hm Hb); now exists sf).
  apply load_ok in H; try assumption. destruct H as (-> & _). unfold loaded. cbn [sf_preamble pre_magic].
  unfold good_magic in HG. rewrite u_at_rd in HG. exact HG.
Qed.
Lemma loaded_entries_ok md e bs sf : wf_mode md -> rust_slice md bs -> load md e bs = Ok sf ->
  Forall (fun en => fde_ok (en_fde en)) (all_fdes sf).
Proof.
  intros Hm Hs HL. rewrite all_fdes_map. pose proof (loaded_fdes_ok _ _ _ _ Hm Hs HL) as Hok.
  apply Forall_map. eapply Forall_impl; [|exact Hok]. intros f Hf. exact Hf.
Qed.

Theorem section_read alt dt md e bs sf text : plain_texts dt -> wf_mode md -> rust_slice md bs -> load md e bs = Ok sf ->
  section_text alt dt md e sf = Ok text -> exists s, read_debug text = Some s /\ is_seen dt md e sf s.
Proof.
  intros (P1 & P2 & P3) Hm Hs HL H. unfold section_text in H. destruct (section_debug dt md e sf) as [t| |] eqn:ED; try discriminate.
  cbn [bind] in H. injection H as <-. unfold section_debug in ED.
  destruct (entries_debug md e (all_fdes sf)) as [l| |] eqn:EE; try discriminate. cbn [bind] in ED. injection ED as <-.
  destruct (entries_read md e _ _ (loaded_entries_ok md e bs sf Hm Hs HL) EE) as (HW & ss & HS & H2).
  unfold read_debug. rewrite text_back.
  - exists (SectionSeen (dt_u16 dt (pre_magic (sf_preamble sf))) (dt_version dt (version sf)) (flags sf) (dt_abi dt (abi sf))
      (fixed_fp_offset sf) (fixed_ra_offset sf) (num_fdes sf) (num_fres sf) ss).
    split.
    + unfold read_section_of, open_struct, preamble_debug. cbn [map fst snd String.eqb Ascii.eqb Bool.eqb andb].
      destruct (list_eq_dec _ _ _) as [_|N]; [|contradiction N; reflexivity].
      destruct (list_eq_dec _ _ _) as [_|N]; [|contradiction N; reflexivity].
      unfold under, open_tuple. cbn [String.eqb Ascii.eqb Bool.eqb].
      cbn [andb map fst snd].
      rewrite !read_opt_debug, !read_int_debug. cbn [read_list option_map]. rewrite HS.
      rewrite String.eqb_refl, read_int_debug. reflexivity.
    + unfold is_seen. cbn. rewrite (loaded_magic md e bs sf Hm Hs HL). repeat (split; [reflexivity|]). exact H2.
  - constructor; [a_word|discriminate|].
    repeat (apply Forall_cons; [split; cbn [fst snd]; [a_word|]|]); try apply Forall_nil.
    + constructor; [a_word|discriminate|].
      repeat (apply Forall_cons; [split; cbn [fst snd]; [a_word|]|]); try apply Forall_nil; auto.
      constructor; [a_word|discriminate|]. apply Forall_cons; [apply int_wordy|apply Forall_nil].
    + apply P3.
    + apply opt_wordy.
    + apply opt_wordy.
    + apply int_wordy.
    + apply int_wordy.
    + constructor. exact HW.
Qed.

(** Printing fails exactly if the rows of some function cannot be iterated. *)
Lemma entries_debug_cases md e : forall ens, Forall (fun en => all_fres md e en <> Err OutOfFuel) ens ->
  (entries_debug md e ens = Panic <-> exists en, In en ens /\ all_fres md e en = Panic) /\
  (forall er, entries_debug md e ens <> Err er).
Proof.
  induction ens as [|en ens IH]; intros HF; cbn [entries_debug].
  - split; [|discriminate]. split; [discriminate|intros (en & [] & _)].
  - destruct (IH (Forall_inv_tail HF)) as [IH1 IH2]. apply Forall_inv in HF. unfold entry_debug.
    destruct (all_fres md e en) as [l|[]|] eqn:EA; cbn [bind].
    + destruct (entries_debug md e ens) as [l'|er|]; cbn [bind].
      * split; [|discriminate]. split; [discriminate|]. intros (x & [<-|Hx] & HP); [congruence|]. enough (@Ok fuel_error _ l' = Panic) by discriminate. apply IH1. now exists x.
      * exfalso. exact (IH2 er eq_refl).
      * split; [|discriminate]. split; [|reflexivity]. intros _. destruct (proj1 IH1 eq_refl) as (x & Hx & HP). exists x. split; [now right|exact HP].
    + contradiction HF. reflexivity.
    + split; [|discriminate]. split; [|reflexivity]. intros _. exists en. split; [now left|exact EA].
Qed.
Theorem section_text_panics alt dt md e bs sf : wf_mode md -> rust_slice md bs -> load md e bs = Ok sf ->
  (section_text alt dt md e sf = Panic <-> exists en, In en (all_fdes sf) /\ all_fres md e en = Panic) /\
  (forall er, section_text alt dt md e sf <> Err er).
Proof.
  intros Hm Hs HL. destruct (entries_debug_cases md e (all_fdes sf)) as [H1 H2].
  { eapply Forall_impl; [|exact (loaded_entries_ok md e bs sf Hm Hs HL)]. intros en Hen. apply all_fres_fuel; assumption. }
  unfold section_text, section_debug. destruct (entries_debug md e (all_fdes sf)) as [l|er|]; cbn [bind].
  - split; [|discriminate]. split; [discriminate|]. intros H. apply H1 in H. discriminate.
  - exfalso. exact (H2 er eq_refl).
  - split; [|discriminate]. split; [|reflexivity]. intros _. now apply H1.
Qed.

(** ** Looking up addresses in sections that print the same *)

Section Alike.
Context (md : mode) (e e' : endian).

Definition alike (en en' : entry) : Prop := exists s, fde_is_seen md e en s /\ fde_is_seen md e' en' s.

Definition find_items (p : fre -> bool) : list fre_item -> outcome (fuel_error + read_error) (option fre) :=
  fix go l := match l with
    | [] => Ok None
    | inr er :: _ => Err (inr er)
    | inl fr :: t => if p fr then Ok (Some fr) else go t
    end.
Lemma fri_find_items e0 p : forall fuel it l, fri_collect fuel md e0 it = Ok l -> fri_find fuel md e0 p it = find_items p l.
Proof.
  induction fuel as [|k IH]; intros it l H; [discriminate|]. cbn [fri_collect] in H. cbn [fri_find].
  destruct (fri_next md e0 it) as [[[x|] it']|er|]; [| |destruct er|discriminate].
  - destruct (fri_collect k md e0 it') as [l'| |] eqn:HC; try discriminate. injection H as <-.
    destruct x as [fr|er]; cbn [find_items]; [|reflexivity]. destruct (p fr); [reflexivity|]. now apply IH.
  - injection H as <-. reflexivity.
Qed.
Lemma find_items_seen p p' (q : spec_row -> bool) : (forall fr, p fr = q (view_fre fr)) -> (forall fr, p' fr = q (view_fre fr)) ->
  forall l l', map item_seen l = map item_seen l' -> row_found (find_items p l) = row_found (find_items p' l').
Proof.
  intros Hp Hp'. induction l as [|x l IH]; intros [|x' l'] H; try discriminate; [reflexivity|].
  cbn [map] in H. assert (Hx : item_seen x = item_seen x') by congruence. assert (Hl : map item_seen l = map item_seen l') by congruence.
  destruct x as [fr|er], x' as [fr'|er']; cbn [item_seen] in Hx; try discriminate; cbn [find_items].
  - injection Hx as Hx. rewrite Hp, Hp'. assert (HV : view_fre fr = view_fre fr') by (unfold view_fre; congruence). rewrite HV.
    destruct (q (view_fre fr')); [cbn; now rewrite HV|now apply IH].
  - injection Hx as ->. reflexivity.
Qed.

Lemma en_kind en : en_fdetype en = match en_rep_block_size en with
  | Some _ => if fdetype (fde_info (en_fde en)) then PPcInc else PPcMask
  | None => if fdetype (fde_info (en_fde en)) then PPcInc else PPcMaskV1 end.
Proof. unfold en_fdetype, fde_fdetype, en_rep_block_size. destruct (en_fde en); cbn; now destruct (fdetype _). Qed.
Lemma alike_kind en en' : alike en en' -> en_fdetype en = en_fdetype en'.
Proof.
  intros (s & (_ & _ & K & _ & R & _) & (_ & _ & K' & _ & R' & _)). rewrite (en_kind en), (en_kind en') in *. rewrite <- R, <- R' in *.
  destruct (fs_rep s), (fdetype (fde_info (en_fde en))), (fdetype (fde_info (en_fde en'))); try reflexivity;
    destruct (fs_kind s); intuition congruence.
Qed.

Theorem alike_row en en' a : alike en en' -> row_found (get_fre_for_address md e en a) = row_found (get_fre_for_address md e' en' a).
Proof.
  intros HA. pose proof (alike_kind _ _ HA) as HK.
  destruct HA as (s & (S1 & S2 & _ & _ & S3 & _ & _ & l & HL & S4) & (S1' & S2' & _ & _ & S3' & _ & _ & l' & HL' & S4')).
  unfold get_fre_for_address. rewrite <- HK, <- S1, <- S1', <- S2, <- S2', <- S3, <- S3'.
  destruct (a <? fs_start s)%Z; [reflexivity|]. destruct (sub_i32 md a (fs_start s)) as [d| |]; cbn [bind]; try reflexivity.
  destruct (fs_size s <? as_u 32 d)%Z; [reflexivity|].
  assert (HR : map item_seen l = map item_seen l') by congruence.
  assert (HF : forall q : spec_row -> bool,
    row_found (fri_find (fri_fuel (fres en)) md e (fun fr => q (view_fre fr)) (fres en)) =
    row_found (fri_find (fri_fuel (fres en')) md e' (fun fr => q (view_fre fr)) (fres en'))).
  { intros q. rewrite (fri_find_items _ _ _ _ _ HL), (fri_find_items _ _ _ _ _ HL').
    now apply find_items_seen with (q := q). }
  destruct (en_fdetype en).
  - exact (HF (fun r => sr_start r <=? as_u 32 d)%Z).
  - destruct (fs_rep s) as [r|]; [|reflexivity]. destruct (r =? 0)%Z; [reflexivity|].
    exact (HF (fun x => sr_start x <=? as_u 32 d mod r)%Z).
  - exact (HF (fun x => sr_start x <=? Z.land (as_u 32 d) (sr_start x))%Z).
Qed.
End Alike.

(** The search for a function sees only where functions start and end. *)
Definition same_span (f f' : fde) : Prop := fde_start_address f = fde_start_address f' /\ fde_size f = fde_size f'.

Lemma Forall2_at {A B} (R : A -> B -> Prop) : forall l l', Forall2 R l l' -> forall i,
  match nth_error l i, nth_error l' i with Some x, Some y => R x y | None, None => True | _, _ => False end.
Proof. induction 1 as [|x y l l' HR HF IH]; intros [|i]; cbn; [exact I|exact I|exact HR|apply IH]. Qed.
Lemma same_span_cmp md a f f' : same_span f f' -> @search_cmp fuel_error md a f = search_cmp md a f'.
Proof. intros [H1 H2]. unfold search_cmp. now rewrite H1, H2. Qed.
Lemma same_span_search md a l l' : Forall2 same_span l l' ->
  binary_search md (search_cmp md a) l = binary_search md (search_cmp md a) l'.
Proof.
  intros H. assert (HL : length l = length l') by (induction H; cbn; congruence). pose proof (Forall2_at _ _ _ H) as HN.
  unfold binary_search. rewrite HL. destruct (bsearch md).
  - assert (HB : forall k lo hi, bs_left_right k (search_cmp md a) l lo hi = bs_left_right k (search_cmp md a) l' lo hi).
    { induction k as [|k IH]; intros lo hi; [reflexivity|]. cbn [bs_left_right].
      destruct (lo <? hi)%nat; [|reflexivity]. specialize (HN (lo + (hi - lo) / 2)%nat).
      destruct (nth_error l _) as [f|], (nth_error l' _) as [f'|]; try contradiction; [|reflexivity].
      rewrite (same_span_cmp md a f f' HN). destruct (search_cmp md a f') as [[]| |]; cbn [bind]; auto. }
    apply HB.
  - assert (HB : forall k lo n, bs_base k (search_cmp md a) l lo n = bs_base k (search_cmp md a) l' lo n).
    { induction k as [|k IH]; intros lo n; [reflexivity|]. cbn [bs_base]. destruct (1 <? n)%nat.
      - specialize (HN (lo + n / 2)%nat). destruct (nth_error l _) as [f|], (nth_error l' _) as [f'|]; try contradiction; [|reflexivity].
        rewrite (same_span_cmp md a f f' HN). destruct (search_cmp md a f') as [[]| |]; cbn [bind]; auto.
      - specialize (HN lo). destruct (nth_error l _) as [f|], (nth_error l' _) as [f'|]; try contradiction; [|reflexivity].
        rewrite (same_span_cmp md a f f' HN). reflexivity. }
    destruct l, l'; try discriminate; [reflexivity|]. rewrite HB. reflexivity.
Qed.
Lemma span_contains md en en' a : same_span (en_fde en) (en_fde en') -> @contains fuel_error md en a = contains md en' a.
Proof. intros [H1 H2]. unfold contains, en_start_address, en_size. now rewrite H1, H2. Qed.
(** The linear search delivers a function of the list. *)
Lemma same_span_find md a fr fr' : forall l l', Forall2 same_span l l' -> forall k k', (length l < k)%nat -> (length l < k')%nat ->
  match fdi_find k md a (FdeIter l fr), fdi_find k' md a (FdeIter l' fr') with
  | Ok None, Ok None | Panic, Panic => True
  | Ok (Some en), Ok (Some en') => exists i, nth_error (map (entry_of fr) l) i = Some en /\ nth_error (map (entry_of fr') l') i = Some en'
  | _, _ => False
  end.
Proof.
  induction 1 as [|f f' l l' HS HF IH]; intros [|k] [|k'] Hk Hk'; cbn in Hk, Hk'; try lia; cbn [fdi_find fdi_next it_fdes it_fres].
  - exact I.
  - fold (entry_of fr f). fold (entry_of fr' f'). rewrite (span_contains md (entry_of fr f) (entry_of fr' f') a HS).
    destruct (contains md (entry_of fr' f') a) as [b|er|] eqn:EC; cbn [bind].
    + destruct b; [exists 0%nat; split; reflexivity|].
      specialize (IH k k' ltac:(lia) ltac:(lia)).
      destruct (fdi_find k md a (FdeIter l fr)) as [[en|]| |], (fdi_find k' md a (FdeIter l' fr')) as [[en'|]| |]; try contradiction; auto.
      destruct IH as (i & H1 & H2). exists (S i). split; assumption.
    + exfalso. unfold contains, sub_i32 in EC. destruct (a <? _)%Z; [discriminate EC|].
      destruct (in_i32b _); [|destruct (overflow_checks md)]; cbn [bind] in EC; discriminate EC.
    + exact I.
Qed.

Lemma alike_spans md e e' sf sf' : Forall2 (alike md e e') (all_fdes sf) (all_fdes sf') ->
  Forall2 same_span (it_fdes (fdes sf)) (it_fdes (fdes sf')).
Proof.
  rewrite !all_fdes_map. generalize (it_fdes (fdes sf')). induction (it_fdes (fdes sf)) as [|f l IH]; intros [|f' l'] H; inversion H; subst; constructor.
  - match goal with HA : alike _ _ _ _ _ |- _ => destruct HA as (s & (A1 & A2 & _) & (B1 & B2 & _)) end.
    unfold en_start_address, en_size, entry_of in *. cbn in *. split; congruence.
  - apply IH. assumption.
Qed.

Theorem spans_place md sf sf' a : flags sf = flags sf' -> Forall2 same_span (it_fdes (fdes sf)) (it_fdes (fdes sf')) ->
  same_place sf sf' (fde_for_address md sf a) (fde_for_address md sf' a).
Proof.
  intros HF HS. unfold fde_for_address. rewrite <- HF. destruct (negb _).
  - assert (HL : length (it_fdes (fdes sf)) = length (it_fdes (fdes sf'))) by (clear - HS; induction HS; cbn; congruence).
    pose proof (same_span_find md a (sf_fres sf) (sf_fres sf') _ _ HS (S (length (it_fdes (fdes sf)))) (S (length (it_fdes (fdes sf')))) ltac:(lia) ltac:(lia)) as H.
    change (FdeIter (it_fdes (fdes sf)) (sf_fres sf)) with (fdes sf) in H. change (FdeIter (it_fdes (fdes sf')) (sf_fres sf')) with (fdes sf') in H.
    unfold same_place. rewrite !all_fdes_map.
    destruct (fdi_find (S (length (it_fdes (fdes sf)))) md a (fdes sf)) as [[en|]| |],
      (fdi_find (S (length (it_fdes (fdes sf')))) md a (fdes sf')) as [[en'|]| |]; try contradiction; auto.
    destruct H as (i & H1 & H2). exists i, en, en'. auto.
  - rewrite (same_span_search md a _ _ HS). destruct (binary_search md (search_cmp md a) (it_fdes (fdes sf'))) as [[i|]|er|] eqn:EB; cbn [bind]; try exact I.
    + unfold fdi_nth. pose proof (Forall2_at _ _ _ HS i) as HN.
      assert (HK : forall (l : list fde), nth_error l i = match skipn i l with [] => None | x :: _ => Some x end).
      { clear. induction i as [|i IH]; intros [|x l]; cbn; try reflexivity; apply IH. }
      unfold same_place. rewrite !all_fdes_map.
      rewrite !HK in HN. destruct (skipn i (it_fdes (fdes sf))) as [|f l] eqn:E1, (skipn i (it_fdes (fdes sf'))) as [|f' l'] eqn:E2; try contradiction; [exact I|].
      cbn. exists i, (entry_of (sf_fres sf) f), (entry_of (sf_fres sf') f').
      rewrite !nth_error_map, !HK. cbn [it_fdes fdes] in E1, E2 |- *. rewrite E1, E2. cbn. auto.
    + pose proof (binary_search_sound md (search_cmp md a) (it_fdes (fdes sf'))) as HB. rewrite EB in HB. apply HB.
      intros f x _. unfold search_cmp, sub_i32. destruct (a <? _)%Z; [discriminate|].
      destruct (in_i32b _); [|destruct (overflow_checks md)]; cbn [bind]; try destruct (_ <=? _)%Z; discriminate.
Qed.

Theorem alike_place md e e' sf sf' a : flags sf = flags sf' -> Forall2 (alike md e e') (all_fdes sf) (all_fdes sf') ->
  same_place sf sf' (fde_for_address md sf a) (fde_for_address md sf' a).
Proof. intros HF HA. apply spans_place; [exact HF|]. exact (alike_spans _ _ _ _ _ HA). Qed.

Lemma observed_view sf sf' fr fr' : fixed_fp_offset sf = fixed_fp_offset sf' -> fixed_ra_offset sf = fixed_ra_offset sf' ->
  view_fre fr = view_fre fr' -> observed sf fr = observed sf' fr'.
Proof.
  intros H1 H2 HV.
  assert (HO : fre_offsets fr = fre_offsets fr') by exact (f_equal sr_offsets HV).
  assert (HM : fre_mangled_ra_p fr = fre_mangled_ra_p fr') by exact (f_equal sr_mangled HV).
  assert (HB : fre_cfa_base_reg_id fr = fre_cfa_base_reg_id fr').
  { pose proof (f_equal sr_base_is_sp HV) as HB. cbn in HB. now destruct (fre_cfa_base_reg_id fr), (fre_cfa_base_reg_id fr'). }
  unfold observed, fre_cfa_offset, fre_ra_offset, fre_fp_offset. rewrite H1, H2, HO, HM, HB. reflexivity.
Qed.
Lemma found_lookup sf sf' r r' : fixed_fp_offset sf = fixed_fp_offset sf' -> fixed_ra_offset sf = fixed_ra_offset sf' ->
  row_found r = row_found r' ->
  match r with Ok o => Ok (option_map (observed sf) o) | Err er => Err er | Panic => Panic end =
  match r' with Ok o => Ok (option_map (observed sf') o) | Err er => Err er | Panic => Panic end.
Proof.
  intros H1 H2 H. destruct r as [[fr|]|er|], r' as [[fr'|]|er'|]; cbn [row_found option_map] in H |- *; try discriminate H; try reflexivity.
  - apply ok_inj in H. apply some_inj in H. now rewrite (observed_view sf sf' fr fr' H1 H2 H).
  - injection H as ->. reflexivity.
Qed.
Lemma unsorted_flag sf : ~ sorted_flag sf -> negb (Z.land (flags sf) FLAG_FDE_SORTED =? FLAG_FDE_SORTED)%Z = true.
Proof.
  intros HU. destruct (Z.eqb_spec (Z.land (flags sf) FLAG_FDE_SORTED) FLAG_FDE_SORTED) as [E|]; [|reflexivity]. exfalso. apply HU. unfold sorted_flag.
  pose proof (f_equal (fun z => Z.testbit z 0) E) as HT. cbn beta in HT. rewrite Z.land_spec in HT. vm_compute (Z.testbit FLAG_FDE_SORTED 0) in HT.
  rewrite andb_true_r in HT. exact HT.
Qed.
Theorem alike_lookup md e e' sf sf' a : flags sf = flags sf' ->
  fixed_fp_offset sf = fixed_fp_offset sf' -> fixed_ra_offset sf = fixed_ra_offset sf' ->
  ~ sorted_flag sf -> Forall2 (alike md e e') (all_fdes sf) (all_fdes sf') ->
  lookup md e sf a = lookup md e' sf' a.
Proof.
  intros HF H1 H2 HU HA. pose proof (alike_spans _ _ _ _ _ HA) as HS.
  assert (HL : length (it_fdes (fdes sf)) = length (it_fdes (fdes sf'))) by (clear - HS; induction HS; cbn; congruence).
  pose proof (unsorted_flag sf HU) as HZ.
  pose proof (same_span_find md a (sf_fres sf) (sf_fres sf') _ _ HS (S (length (it_fdes (fdes sf)))) (S (length (it_fdes (fdes sf')))) ltac:(lia) ltac:(lia)) as H.
  change (FdeIter (it_fdes (fdes sf)) (sf_fres sf)) with (fdes sf) in H. change (FdeIter (it_fdes (fdes sf')) (sf_fres sf')) with (fdes sf') in H.
  unfold lookup, fde_for_address. rewrite <- HF, HZ.
  destruct (fdi_find (S (length (it_fdes (fdes sf)))) md a (fdes sf)) as [[en|]| |],
    (fdi_find (S (length (it_fdes (fdes sf')))) md a (fdes sf')) as [[en'|]| |]; try contradiction; try reflexivity.
  destruct H as (i & Hi & Hi'). rewrite <- all_fdes_map in Hi, Hi'. pose proof (Forall2_at _ _ _ HA i) as HE. rewrite Hi, Hi' in HE.
  apply found_lookup; [assumption..|]. now apply alike_row.
Qed.

(** ** Sections that print the same *)

Lemma seen_alike md e e' l l' s : Forall2 (fde_is_seen md e) l s -> Forall2 (fde_is_seen md e') l' s -> Forall2 (alike md e e') l l'.
Proof.
  intros H. revert l'. induction H as [|en x l s HR HF IH]; intros l' H'; inversion H'; subst; constructor; [|now apply IH].
  exists x. split; assumption.
Qed.

Section SameText.
Context (alt alt' : bool) (dt : debug_texts) (md : mode) (e e' : endian) (bs bs' : bytes) (sf sf' : sframe) (text : string).
Hypothesis Hdt : plain_texts dt.
Hypothesis Hm : wf_mode md.
Hypothesis Hs : rust_slice md bs.
Hypothesis Hs' : rust_slice md bs'.
Hypothesis HL : load md e bs = Ok sf.
Hypothesis HL' : load md e' bs' = Ok sf'.
Hypothesis HT : section_text alt dt md e sf = Ok text.
Hypothesis HT' : section_text alt' dt md e' sf' = Ok text.

Lemma same_text_seen : exists s, is_seen dt md e sf s /\ is_seen dt md e' sf' s.
Proof.
  destruct (section_read alt dt md e bs sf text Hdt Hm Hs HL HT) as (s & HR & HS).
  destruct (section_read alt' dt md e' bs' sf' text Hdt Hm Hs' HL' HT') as (s' & HR' & HS').
  exists s. split; [exact HS|]. rewrite HR in HR'. apply some_inj in HR'. now subst s'.
Qed.
Theorem same_text_rows : length (all_fdes sf) = length (all_fdes sf') /\
  forall i en en' a, nth_error (all_fdes sf) i = Some en -> nth_error (all_fdes sf') i = Some en' ->
    row_found (get_fre_for_address md e en a) = row_found (get_fre_for_address md e' en' a).
Proof.
  destruct same_text_seen as (s & S & S'). assert (HA : Forall2 (alike md e e') (all_fdes sf) (all_fdes sf')).
  { apply seen_alike with (s := ss_fdes s); [apply S|apply S']. }
  split; [clear - HA; induction HA; cbn; congruence|]. intros i en en' a Hi Hi'.
  pose proof (Forall2_at _ _ _ HA i) as HE. rewrite Hi, Hi' in HE. now apply alike_row.
Qed.
Theorem same_text_lookups a : same_place sf sf' (fde_for_address md sf a) (fde_for_address md sf' a) /\
  (~ sorted_flag sf -> lookup md e sf a = lookup md e' sf' a).
Proof.
  destruct same_text_seen as (s & S & S'). assert (HA : Forall2 (alike md e e') (all_fdes sf) (all_fdes sf')).
  { apply seen_alike with (s := ss_fdes s); [apply S|apply S']. }
  destruct S as (_ & _ & F & _ & P & R & _), S' as (_ & _ & F' & _ & P' & R' & _).
  split; [apply alike_place with (e := e) (e' := e'); congruence||assumption|]. intros HU. apply alike_lookup; congruence||assumption.
Qed.
End SameText.

(** ** What is seen determines the text *)

Definition show_row (r : spec_row) : dbg :=
  DStruct "FrameRowEntry" [("start_address", int_debug (sr_start r)); ("cfa_base_reg_id", base_reg_debug (if sr_base_is_sp r then Sp else Fp));
    ("mangled_ra_p", bool_debug (sr_mangled r)); ("offsets", DList (map int_debug (sr_offsets r)))].
Lemma show_view fr : length (fr_offsets fr) = 3%nat -> fre_debug fr = show_row (view_fre fr).
Proof.
  intros H. unfold fre_debug, show_row, view_fre. rewrite shown_offsets by exact H. cbn. unfold fre_start_address_offset, fre_cfa_base_reg_id.
  now destruct (cfa_base_reg_id (fr_info fr)).
Qed.
Definition show_fde (s : fde_seen) : dbg :=
  DStruct "FuncDescEntry"
   ([("start_address", DLeaf (fmt_hex_alt 32 (fs_start s))); ("size", int_debug (fs_size s)); ("fdetype", fde_type_debug (fs_kind s));
     ("pauth_key", pauth_debug (fs_key s))]
    ++ match fs_rep s with None => [] | Some r => [("rep_size", int_debug r)] end
    ++ [("num_fres", int_debug (fs_num_fres s)); ("start_fre_off", int_debug (fs_fre_off s));
        ("fres", DList (map (result_debug show_row read_error_debug) (fs_rows s)))])%list.
Lemma show_entry md e en s : fde_is_seen md e en s -> entry_debug md e en = Ok (show_fde s).
Proof.
  intros (S1 & S2 & S3 & S4 & S5 & S6 & S7 & l & HL & S8). unfold entry_debug, show_fde. rewrite HL. cbn [bind].
  assert (K : fs_kind s = fdetype (fde_info (en_fde en))).
  { rewrite en_kind in S3. destruct (en_rep_block_size en), (fdetype _), (fs_kind s); try reflexivity; destruct S3 as [A B];
      (specialize (A eq_refl); discriminate) || (specialize (B eq_refl); discriminate). }
  rewrite S1, S2, K, S4, S5, S6, S7, S8, map_map.
  assert (HM : map (result_debug fre_debug read_error_debug) l = map (fun x => result_debug show_row read_error_debug (item_seen x)) l).
  { apply map_ext_in. intros [fr|er] Hi; [|reflexivity]. cbn. rewrite show_view; [reflexivity|]. eapply collect_three; eassumption. }
  rewrite HM. unfold en_start_address, en_size, en_pauth_key, en_rep_block_size, fde_rep_size. destruct (en_fde en); reflexivity.
Qed.
Lemma show_entries md e : forall l s, Forall2 (fde_is_seen md e) l s -> entries_debug md e l = Ok (map show_fde s).
Proof.
  induction 1 as [|en x l s HR HF IH]; [reflexivity|]. cbn [entries_debug map]. rewrite (show_entry _ _ _ _ HR). cbn [bind]. rewrite IH. reflexivity.
Qed.
Theorem seen_same_text alt dt md e e' bs bs' sf sf' s : wf_mode md -> rust_slice md bs -> rust_slice md bs' ->
  load md e bs = Ok sf -> load md e' bs' = Ok sf' ->
  is_seen dt md e sf s -> is_seen dt md e' sf' s -> section_text alt dt md e sf = section_text alt dt md e' sf'.
Proof.
  intros Hm Hs Hs' HL HL' (A1 & A2 & A3 & A4 & A5 & A6 & A7 & A8 & A9) (B1 & B2 & B3 & B4 & B5 & B6 & B7 & B8 & B9).
  unfold section_text, section_debug, preamble_debug. rewrite (show_entries _ _ _ _ A9), (show_entries _ _ _ _ B9). cbn [bind].
  rewrite (loaded_magic md e bs sf), (loaded_magic md e' bs' sf') by assumption.
  unfold version, flags, abi, num_fdes, num_fres in *.
  rewrite <- A2, <- A3, <- A4, <- A5, <- A6, <- A7, <- A8, <- B2, <- B3, <- B4, <- B5, <- B6, <- B7, <- B8. reflexivity.
Qed.
Theorem same_text_iff alt dt md e e' bs bs' sf sf' text text' : plain_texts dt -> wf_mode md -> rust_slice md bs -> rust_slice md bs' ->
  load md e bs = Ok sf -> load md e' bs' = Ok sf' ->
  section_text alt dt md e sf = Ok text -> section_text alt dt md e' sf' = Ok text' ->
  (text = text' <-> exists s, is_seen dt md e sf s /\ is_seen dt md e' sf' s).
Proof.
  intros Hd Hm Hs Hs' HL HL' HT HT'. split.
  - intros <-. exact (same_text_seen alt alt dt md e e' bs bs' sf sf' text Hd Hm Hs Hs' HL HL' HT HT').
  - intros (s & S & S'). pose proof (seen_same_text alt dt md e e' bs bs' sf sf' s Hm Hs Hs' HL HL' S S') as H. rewrite HT, HT' in H.
    now apply ok_inj in H.
Qed.

(** ** Info bytes *)

Lemma info_wordy i : wordy (fre_info_debug i).
Proof.
  constructor; [a_word|discriminate|].
  repeat (apply Forall_cons; [split; cbn [fst snd]; [a_word|]|]); [apply base_wordy|apply int_wordy| |apply bool_wordy|apply Forall_nil].
  unfold fre_offset_debug. destruct (offset_size i); wordy_leaf.
Qed.
Lemma info_read i : read_info_of (fre_info_debug i) =
  Some (match cfa_base_reg_id i with Sp => true | Fp => false end, offset_count i, offset_size i, mangled_ra_p i).
Proof.
  unfold read_info_of, open_struct, fre_info_debug. cbn [map fst snd String.eqb Ascii.eqb Bool.eqb andb].
  destruct (list_eq_dec _ _ _) as [_|N]; [|contradiction N; reflexivity]. rewrite read_int_debug.
  destruct (cfa_base_reg_id i), (offset_size i), (mangled_ra_p i); reflexivity.
Qed.
