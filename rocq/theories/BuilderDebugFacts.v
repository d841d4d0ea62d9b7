(** The debug output of builders can be read back. *)
From Coq Require Import String Ascii.
From Verif Require Export BuilderDebugSpec BuilderDebug DebugFacts.
Local Open Scope string_scope.

(** ** Trees with maps *)

Lemma mapped_tree (P : dbg -> Prop)
  (HP : forall t, wordy t -> P t)
  (HS : forall n fs, is_word n -> fs <> [] -> Forall (fun kv => is_word (fst kv) /\ P (snd kv)) fs -> P (DStruct n fs))
  (HM : forall l, Forall (fun kv => is_word (fst kv) /\ P (snd kv)) l -> P (DMap l)) :
  forall t, mapped t -> P t.
Proof.
  intros t. induction t as [w|n fs IH|n l IH|l IH|l IH] using dbg_tree_ind; intros H; inversion H; subst; try (now apply HP).
  - apply HS; [assumption|assumption|]. match goal with X : Forall _ fs |- _ => rename X into HF end.
    match goal with X : Forall (fun kv => is_word _ /\ _) fs |- _ => rename X into HF2 end.
    rewrite Forall_forall in *. intros kv Hk. destruct (HF2 kv Hk) as [Hw Hm]. split; [exact Hw|]. apply IH || apply HF; assumption.
  - apply HM. match goal with X : Forall (fun kv => is_word _ /\ _) l |- _ => rename X into HF2 end.
    rewrite Forall_forall in *. intros kv Hk. destruct (HF2 kv Hk) as [Hw Hm]. split; [exact Hw|]. apply IH; assumption.
Qed.

Definition entry_tokens (kv : string * dbg) : list token := TWord (fst kv ++ ":") :: tree_tokens (snd kv).

Theorem mapped_compact t : mapped t -> forall s, stops s -> tokens (compact t ++ s) = (tree_tokens t ++ tokens s)%list.
Proof.
  intros H. pattern t. revert t H. apply mapped_tree.
  - exact compact_tokens.
  - intros n fs Hn Hne HF s Hs. destruct fs as [|kv fs]; [contradiction|].
    change (compact (DStruct n (kv :: fs))) with
      (n ++ " { " ++ join ", " (map (fun kv => fst kv ++ ": " ++ compact (snd kv)) (kv :: fs)) ++ " }").
    rewrite !app_assoc_s. rewrite tokens_word by (try assumption; reflexivity).
    cbn [append]. rewrite tokens_blank by reflexivity. rewrite tokens_mark by reflexivity. rewrite tokens_blank by reflexivity.
    rewrite (join_tokens _ entry_tokens).
    + cbn [append]. rewrite tokens_blank by reflexivity. rewrite tokens_mark by reflexivity.
      cbn [tree_tokens]. cbn [app]. do 2 f_equal. rewrite <- app_assoc. reflexivity.
    + reflexivity.
    + eapply Forall_impl; [|exact HF]. intros x [Hk Hv] s' Hs'. cbv beta. rewrite !app_assoc_s.
      change (tokens (fst x ++ ": " ++ (compact (snd x) ++ s')) = (entry_tokens x ++ tokens s')%list).
      rewrite key_tokens by exact Hk. cbn [entry_tokens app]. f_equal. apply Hv, Hs'.
  - intros l HF s Hs.
    change (compact (DMap l)) with ("{" ++ join ", " (map (fun kv => fst kv ++ ": " ++ compact (snd kv)) l) ++ "}").
    rewrite !app_assoc_s. cbn [append]. rewrite tokens_mark by reflexivity.
    rewrite (join_tokens _ entry_tokens).
    + cbn [append]. rewrite tokens_mark by reflexivity. cbn [tree_tokens app]. f_equal. rewrite <- app_assoc. reflexivity.
    + reflexivity.
    + eapply Forall_impl; [|exact HF]. intros x [Hk Hv] s' Hs'. cbv beta. rewrite !app_assoc_s.
      change (tokens (fst x ++ ": " ++ (compact (snd x) ++ s')) = (entry_tokens x ++ tokens s')%list).
      rewrite key_tokens by exact Hk. cbn [entry_tokens app]. f_equal. apply Hv, Hs'.
Qed.

Theorem mapped_pretty t : mapped t -> forall s, stops s -> tokens (pretty t ++ s) = (tree_tokens t ++ tokens s)%list.
Proof.
  intros H. pattern t. revert t H. apply mapped_tree.
  - exact pretty_tokens.
  - intros n fs Hn Hne HF s Hs. destruct fs as [|kv fs]; [contradiction|].
    change (pretty (DStruct n (kv :: fs))) with
      (n ++ " {" ++ newline ++ concat_text (map (fun kv => indent (fst kv ++ ": " ++ pretty (snd kv) ++ "," ++ newline)) (kv :: fs)) ++ "}").
    rewrite (map_ext _ (fun kv => indent ((fst kv ++ ": " ++ pretty (snd kv)) ++ "," ++ newline)))
      by (intros a; now rewrite !app_assoc_s).
    rewrite !app_assoc_s. rewrite tokens_word by (try assumption; reflexivity).
    unfold newline at 1. cbn [append]. rewrite tokens_blank by reflexivity. rewrite tokens_mark by reflexivity. rewrite tokens_blank by reflexivity.
    rewrite (lines_tokens _ entry_tokens).
    + cbn [append]. rewrite tokens_mark by reflexivity. cbn [tree_tokens app]. do 2 f_equal. rewrite <- app_assoc. reflexivity.
    + eapply Forall_impl; [|exact HF]. intros x [Hk Hv] s' Hs'. cbv beta. rewrite !app_assoc_s.
      change (tokens (fst x ++ ": " ++ (pretty (snd x) ++ s')) = (entry_tokens x ++ tokens s')%list).
      rewrite key_tokens by exact Hk. cbn [entry_tokens app]. f_equal. apply Hv, Hs'.
  - intros l HF s Hs. destruct l as [|kv l]; [cbn [pretty append]; rewrite !tokens_mark by reflexivity; reflexivity|].
    change (pretty (DMap (kv :: l))) with
      ("{" ++ newline ++ concat_text (map (fun kv => indent (fst kv ++ ": " ++ pretty (snd kv) ++ "," ++ newline)) (kv :: l)) ++ "}").
    rewrite (map_ext _ (fun kv => indent ((fst kv ++ ": " ++ pretty (snd kv)) ++ "," ++ newline)))
      by (intros a; now rewrite !app_assoc_s).
    rewrite !app_assoc_s. unfold newline at 1. cbn [append]. rewrite tokens_mark by reflexivity. rewrite tokens_blank by reflexivity.
    rewrite (lines_tokens _ entry_tokens).
    + cbn [append]. rewrite tokens_mark by reflexivity. cbn [tree_tokens app]. f_equal. rewrite <- app_assoc. reflexivity.
    + eapply Forall_impl; [|exact HF]. intros x [Hk Hv] s' Hs'. cbv beta. rewrite !app_assoc_s.
      change (tokens (fst x ++ ": " ++ (pretty (snd x) ++ s')) = (entry_tokens x ++ tokens s')%list).
      rewrite key_tokens by exact Hk. cbn [entry_tokens app]. f_equal. apply Hv, Hs'.
Qed.

Theorem mapped_back t : mapped t -> reads_back t.
Proof.
  intros H. pattern t. revert t H. apply mapped_tree.
  - exact tree_back.
  - intros nm fs Hn Hne HF n rest Hl Hc. destruct n as [|n]; [cbn in Hl; lia|].
    cbn [tree_tokens app]. cbn [tree_tokens length] in Hl. rewrite app_length in Hl. cbn [length] in Hl.
    rewrite <- app_assoc. cbn [app read_tree Ascii.eqb Bool.eqb].
    rewrite fields_back; [reflexivity| |lia]. eapply Forall_impl; [|exact HF]. intros x [_ Hx]. exact Hx.
  - intros fs HF n rest Hl Hc. destruct n as [|n]; [cbn in Hl; lia|].
    cbn [tree_tokens app]. cbn [tree_tokens length] in Hl. rewrite app_length in Hl. cbn [length] in Hl.
    rewrite <- app_assoc. cbn [app read_tree Ascii.eqb Bool.eqb].
    rewrite fields_back; [reflexivity| |lia]. eapply Forall_impl; [|exact HF]. intros x [_ Hx]. exact Hx.
Qed.

Theorem mapped_text_back alt t : mapped t -> read_text (print_debug alt t) = Some t.
Proof.
  intros H. assert (HT : tokens (print_debug alt t) = tree_tokens t).
  { rewrite <- (app_nil_r_s (print_debug alt t)). unfold print_debug.
    destruct alt; [rewrite mapped_pretty by (try exact H; exact I)|rewrite mapped_compact by (try exact H; exact I)]; cbn; apply app_nil_r. }
  unfold read_text. rewrite HT. rewrite <- (app_nil_r (tree_tokens t)) at 2.
  rewrite mapped_back; [reflexivity|exact H|lia|exact I].
Qed.
Lemma mapped_inj alt t t' : mapped t -> mapped t' -> print_debug alt t = print_debug alt t' -> t = t'.
Proof. intros H H' E. apply (f_equal read_text) in E. rewrite !mapped_text_back in E by assumption. now injection E. Qed.

(** ** Builders *)

Lemma read_opt_back {A} (d : A -> dbg) (r : dbg -> option A) o : (forall x, r (d x) = Some x) ->
  read_opt r (option_debug d o) = Some o.
Proof. intros H. destruct o as [x|]; [|reflexivity]. cbn. now rewrite H. Qed.
Lemma opt_wordy_of {A} (d : A -> dbg) o : (forall x, wordy (d x)) -> wordy (option_debug d o).
Proof.
  intros H. destruct o as [x|]; cbn; [|wordy_leaf]. constructor; [a_word|discriminate|]. constructor; [apply H|constructor].
Qed.
Ltac fields_wordy := constructor; [a_word|discriminate|]; repeat (apply Forall_cons; [split; cbn [fst snd]; [a_word|]|]); try apply Forall_nil.
Lemma flags_wordy z : wordy (DTuple "Flags" [int_debug z]).
Proof. constructor; [a_word|discriminate|]. apply Forall_cons; [apply int_wordy|apply Forall_nil]. Qed.
Lemma options_wordy dt o : plain_texts dt -> wordy (options_debug dt o).
Proof. intros (_ & _ & HA). fields_wordy; [apply flags_wordy|apply HA|apply opt_wordy|apply opt_wordy]. Qed.
Lemma offsets_wordy o : wordy (offsets_debug o).
Proof. fields_wordy; [apply int_wordy|apply opt_wordy|apply opt_wordy]. Qed.
Lemma row_wordy r : wordy (row_debug r).
Proof. fields_wordy; [apply int_wordy|apply opt_wordy_of, offsets_wordy|apply bool_wordy|apply base_wordy]. Qed.
Lemma btree_mapped {A} (d : A -> dbg) (m : btree A) : (forall x, mapped (d x)) -> mapped (btree_debug d m).
Proof.
  intros H. apply mp_map. apply Forall_forall. intros kv Hk. apply in_map_iff in Hk. destruct Hk as (x & <- & _).
  cbn. split; [apply dec_word|apply H].
Qed.
Lemma fdb_mapped dt b : plain_texts dt -> mapped (fdb_debug dt b).
Proof.
  intros HT. apply mp_struct; [a_word|discriminate|]. repeat (apply Forall_cons; [split; cbn [fst snd]; [a_word|]|]); try apply Forall_nil.
  - apply mp_plain, options_wordy, HT.
  - apply mp_plain, int_wordy.
  - apply mp_plain, int_wordy.
  - apply mp_plain, opt_wordy.
  - apply mp_plain, key_wordy.
  - apply btree_mapped. intros r. apply mp_plain, row_wordy.
Qed.
Lemma sfb_mapped dt s : plain_texts dt -> mapped (sfb_debug dt s).
Proof.
  intros HT. apply mp_struct; [a_word|discriminate|]. repeat (apply Forall_cons; [split; cbn [fst snd]; [a_word|]|]); try apply Forall_nil.
  - apply mp_plain, options_wordy, HT.
  - apply btree_mapped. intros b. apply fdb_mapped, HT.
Qed.

Definition seen_options (dt : debug_texts) (o : sframe_options) : options_seen :=
  OptionsSeen (so_flags o) (dt_abi dt (so_abi o)) (so_fixed_fp o) (so_fixed_ra o).
Definition seen_fdb (dt : debug_texts) (b : fdb) : fdb_seen :=
  FdbSeen (seen_options dt (fb_options b)) (fb_start b) (fb_size b) (fb_rep_size b) (fb_pauth b) (fb_fres b).
Definition seen_sfb (dt : debug_texts) (s : sfb) : sfb_seen :=
  SfbSeen (seen_options dt (sb_options s)) (map (fun kv => (fst kv, seen_fdb dt (snd kv))) (sb_fdes s)).

Lemma options_back dt o : read_options_of (options_debug dt o) = Some (seen_options dt o).
Proof.
  unfold read_options_of, options_debug, open_struct. cbn [map fst snd]. cbn -[read_opt option_debug read_int int_debug].
  rewrite read_int_debug. cbn [option_map]. rewrite !read_opt_debug. reflexivity.
Qed.
Lemma offsets_back o : read_offsets_of (offsets_debug o) = Some o.
Proof.
  unfold read_offsets_of, offsets_debug, open_struct. cbn -[read_opt option_debug read_int int_debug].
  rewrite read_int_debug, !read_opt_debug. now destruct o.
Qed.
Lemma row_back r : read_new_row_of (row_debug r) = Some r.
Proof.
  unfold read_new_row_of, row_debug, open_struct. cbn -[read_opt option_debug read_int int_debug read_bool read_base_reg bool_debug base_reg_debug].
  rewrite read_int_debug, (read_opt_back offsets_debug read_offsets_of _ offsets_back).
  destruct r as [a o m b]. cbn [r_start r_offsets r_mangled r_base]. destruct m, b; reflexivity.
Qed.
Lemma map_back {A B} (d : A -> dbg) (r : dbg -> option B) (v : A -> B) (m : btree A) : (forall x, r (d x) = Some (v x)) ->
  read_map r (btree_debug d m) = Some (map (fun kv => (fst kv, v (snd kv))) m).
Proof.
  intros H. unfold read_map, btree_debug. rewrite map_map. induction m as [|[k x] m IH]; [reflexivity|].
  cbn [fst snd] in IH. cbn [map fst snd all_some]. rewrite integer_dec, H. rewrite IH. reflexivity.
Qed.
Lemma fdb_back dt b : read_fdb_of (fdb_debug dt b) = Some (seen_fdb dt b).
Proof.
  unfold read_fdb_of, fdb_debug, open_struct.
  cbn -[read_opt option_debug read_int int_debug read_options_of options_debug read_key pauth_debug read_map btree_debug].
  rewrite options_back, !read_int_debug, read_opt_debug, (map_back row_debug read_new_row_of (fun r => r) _ row_back).
  rewrite (map_ext _ (fun kv => kv)) by (now intros []). rewrite map_id.
  unfold seen_fdb. destruct (fb_pauth b); reflexivity.
Qed.
Lemma sfb_back dt s : read_sfb_of (sfb_debug dt s) = Some (seen_sfb dt s).
Proof.
  unfold read_sfb_of, sfb_debug, open_struct.
  cbn -[read_options_of options_debug read_map btree_debug].
  rewrite options_back, (map_back (fdb_debug dt) read_fdb_of (seen_fdb dt) _ (fdb_back dt)). reflexivity.
Qed.

Lemma sfb_seen_is dt s : sfb_is_seen dt s (seen_sfb dt s).
Proof.
  split; [repeat split|]. cbn [seen_sfb ws_fdes]. induction (sb_fdes s) as [|[k b] l IH]; cbn; constructor; [|exact IH].
  cbn. repeat split.
Qed.
Theorem builder_read alt dt s : plain_texts dt ->
  exists v, read_builder (builder_text alt dt s) = Some v /\ sfb_is_seen dt s v.
Proof.
  intros HT. exists (seen_sfb dt s). split; [|apply sfb_seen_is].
  unfold read_builder, builder_text. rewrite mapped_text_back by (apply sfb_mapped, HT). apply sfb_back.
Qed.

Lemma seen_options_inj dt o o' : telling (dt_abi dt) -> seen_options dt o = seen_options dt o' -> o = o'.
Proof.
  intros HA H. destruct o, o'. unfold seen_options in H. cbn in H. injection H as -> HB -> ->. apply HA in HB. now subst.
Qed.
Lemma seen_fdb_inj dt b b' : telling (dt_abi dt) -> seen_fdb dt b = seen_fdb dt b' -> b = b'.
Proof.
  intros HA H. pose proof (seen_options_inj dt _ _ HA (f_equal bz_options H)) as HO.
  pose proof (f_equal bz_start H) as H1. pose proof (f_equal bz_size H) as H2. pose proof (f_equal bz_rep H) as H3.
  pose proof (f_equal bz_key H) as H4. pose proof (f_equal bz_rows H) as H5.
  destruct b, b'. cbn in *. now subst.
Qed.
Lemma seen_sfb_inj dt s s' : telling (dt_abi dt) -> seen_sfb dt s = seen_sfb dt s' -> s = s'.
Proof.
  intros HA H. assert (HO : seen_options dt (sb_options s) = seen_options dt (sb_options s')) by exact (f_equal ws_options H).
  apply (f_equal ws_fdes) in H. cbn [seen_sfb ws_fdes] in H. apply (seen_options_inj dt _ _ HA) in HO.
  destruct s as [o m], s' as [o' m']. cbn [sb_options sb_fdes] in *. subst o'. f_equal.
  revert m' H. induction m as [|[k b] m IH]; intros [|[k' b'] m'] H; try discriminate H; [reflexivity|].
  cbn [map fst snd] in H. pose proof (f_equal (@tl _) H) as HM. apply (f_equal (@hd_error _)) in H. cbn [hd_error tl] in H, HM.
  f_equal; [|exact (IH _ HM)]. assert (HK : Some k = Some k') by exact (f_equal (option_map fst) H).
  assert (HB : Some (seen_fdb dt b) = Some (seen_fdb dt b')) by exact (f_equal (option_map snd) H).
  injection HK as ->. f_equal. apply (seen_fdb_inj dt _ _ HA).
  exact (f_equal (fun o => match o with Some x => x | None => seen_fdb dt b end) HB).
Qed.
Theorem builder_same alt dt s s' : plain_texts dt -> telling (dt_abi dt) ->
  builder_text alt dt s = builder_text alt dt s' -> s = s'.
Proof.
  intros HT HA H. apply (seen_sfb_inj dt _ _ HA).
  apply (f_equal read_builder) in H. unfold read_builder, builder_text in H.
  rewrite !mapped_text_back in H by (apply sfb_mapped, HT). rewrite !sfb_back in H.
  exact (f_equal (fun o => match o with Some x => x | None => seen_sfb dt s end) H).
Qed.

(** ** Errors *)

Lemma row_error_read alt er :
  exists t, read_text (print_debug alt (row_error_debug er)) = Some t /\ read_row_error_of t = Some er.
Proof. exists (row_error_debug er). split; [apply text_back; destruct er; wordy_leaf|destruct er; reflexivity]. Qed.
Lemma emit_error_read alt er :
  exists t, read_text (print_debug alt (emit_error_debug er)) = Some t /\ read_emit_error_of t = Some er.
Proof. exists (emit_error_debug er). split; [apply text_back; destruct er; wordy_leaf|destruct er; reflexivity]. Qed.

(** ** Raw structures *)

Lemma int_telling : telling int_debug.
Proof. intros x y H. apply (f_equal read_int) in H. rewrite !read_int_debug in H. now injection H. Qed.
Lemma firstn_add_split {A} (n m : nat) (l : list A) : firstn (n + m) l = (firstn n l ++ firstn m (skipn n l))%list.
Proof.
  revert l. induction n as [|n IH]; intros l; [reflexivity|]. destruct l as [|x l]; cbn; [now rewrite firstn_nil|].
  f_equal. apply IH.
Qed.
Lemma piece_u e a w bs bs' : (a + w <= length bs)%nat -> (a + w <= length bs')%nat ->
  firstn a bs = firstn a bs' -> rd_u e a w bs = rd_u e a w bs' -> firstn (a + w) bs = firstn (a + w) bs'.
Proof.
  intros H H' HF HR. rewrite !firstn_add_split. f_equal; [exact HF|]. unfold rd_u, sub_bytes in HR.
  apply (BaseFacts.dec_inj e); [|exact HR]. rewrite !firstn_length, !skipn_length. lia.
Qed.
Lemma rd_s_inj e a w bs bs' : (0 < w)%nat -> rd_s e a w bs = rd_s e a w bs' -> rd_u e a w bs = rd_u e a w bs'.
Proof.
  intros Hw H. pose proof (rd_u_bound e a w bs) as B. pose proof (rd_u_bound e a w bs') as B'.
  assert (E : (256 ^ Z.of_nat w = 2 ^ (8 * Z.of_nat w))%Z).
  { change 256%Z with (2 ^ 8)%Z. rewrite <- Z.pow_mul_r by lia. reflexivity. }
  rewrite E in B, B'. unfold rd_s, as_s in H. rewrite !Z.mod_small in H by assumption.
  destruct (rd_u e a w bs <? _)%Z, (rd_u e a w bs' <? _)%Z; lia.
Qed.

Lemma header_wordy dt wt h : plain_texts dt -> plain_words wt -> wordy (header_debug dt wt h).
Proof.
  intros (H1 & H2 & H3) (H4 & H5). fields_wordy; try apply int_wordy; try apply H3; try apply H4.
  fields_wordy; [apply H1|apply H2|apply flags_wordy].
Qed.
Lemma fde1_wordy wt f : plain_words wt -> wordy (fde1_debug wt f).
Proof.
  intros (H4 & H5). fields_wordy; try apply H4; try apply H5.
  constructor; [a_word|discriminate|]. apply Forall_cons; [apply int_wordy|apply Forall_nil].
Qed.
Lemma fde2_wordy dt wt f : plain_texts dt -> plain_words wt -> wordy (fde2_debug dt wt f).
Proof.
  intros (H1 & H2 & H3) (H4 & H5). fields_wordy; try apply H4; try apply H5; try apply H1; try apply int_wordy.
  constructor; [a_word|discriminate|]. apply Forall_cons; [apply int_wordy|apply Forall_nil].
Qed.
Lemma printed_inj alt t t' : wordy t -> wordy t' -> print_debug alt t = print_debug alt t' -> t = t'.
Proof. intros H H'. apply mapped_inj; now apply mp_plain. Qed.

Lemma struct_values n fs fs' : DStruct n fs = DStruct n fs' -> map snd fs = map snd fs'.
Proof. intros H. now injection H as ->. Qed.
Lemma one_value n x y : DTuple n [x] = DTuple n [y] -> x = y.
Proof. intros H. now injection H. Qed.

Lemma pick i (l l' : list dbg) : l = l' -> nth i l (DLeaf "") = nth i l' (DLeaf "").
Proof. now intros ->. Qed.

Theorem preamble_shown dt p p' : telling_texts dt -> preamble_debug dt p = preamble_debug dt p' -> p = p'.
Proof.
  intros (T1 & T2 & T3) H. apply struct_values in H.
  pose proof (T1 _ _ (pick 0 _ _ H)) as H0. pose proof (T2 _ _ (pick 1 _ _ H)) as H1.
  pose proof (int_telling _ _ (one_value _ _ _ (pick 2 _ _ H))) as H2. destruct p, p'. cbn in *. now subst.
Qed.
Theorem header_shown alt dt wt h h' : plain_texts dt -> plain_words wt -> telling_texts dt -> telling (wt_u32 wt) ->
  print_debug alt (header_debug dt wt h) = print_debug alt (header_debug dt wt h') -> h = h'.
Proof.
  intros HT HW TT T4 H. pose proof TT as (T1 & T2 & T3).
  apply printed_inj in H; [|now apply header_wordy|now apply header_wordy]. apply struct_values in H.
  pose proof (preamble_shown dt _ _ TT (pick 0 _ _ H)) as H0. pose proof (T3 _ _ (pick 1 _ _ H)) as H1.
  pose proof (int_telling _ _ (pick 2 _ _ H)) as H2. pose proof (int_telling _ _ (pick 3 _ _ H)) as H3.
  pose proof (int_telling _ _ (pick 4 _ _ H)) as H4. pose proof (T4 _ _ (pick 5 _ _ H)) as H5.
  pose proof (T4 _ _ (pick 6 _ _ H)) as H6. pose proof (T4 _ _ (pick 7 _ _ H)) as H7.
  pose proof (T4 _ _ (pick 8 _ _ H)) as H8. pose proof (T4 _ _ (pick 9 _ _ H)) as H9.
  clear H. destruct h, h'. cbn in *. now subst.
Qed.
Theorem fde1_shown alt wt f f' : plain_words wt -> telling (wt_u32 wt) -> telling (wt_i32 wt) ->
  print_debug alt (fde1_debug wt f) = print_debug alt (fde1_debug wt f') -> f = f'.
Proof.
  intros HW T4 T5 H. apply printed_inj in H; [|now apply fde1_wordy|now apply fde1_wordy]. apply struct_values in H.
  pose proof (T5 _ _ (pick 0 _ _ H)) as H0. pose proof (T4 _ _ (pick 1 _ _ H)) as H1. pose proof (T4 _ _ (pick 2 _ _ H)) as H2.
  pose proof (T4 _ _ (pick 3 _ _ H)) as H3. pose proof (int_telling _ _ (one_value _ _ _ (pick 4 _ _ H))) as H4.
  clear H. destruct f, f'. cbn in *. now subst.
Qed.
Theorem fde2_shown alt dt wt f f' : plain_texts dt -> plain_words wt -> telling (dt_u16 dt) -> telling (wt_u32 wt) -> telling (wt_i32 wt) ->
  print_debug alt (fde2_debug dt wt f) = print_debug alt (fde2_debug dt wt f') -> f = f'.
Proof.
  intros HT HW T1 T4 T5 H. apply printed_inj in H; [|now apply fde2_wordy|now apply fde2_wordy]. apply struct_values in H.
  pose proof (T5 _ _ (pick 0 _ _ H)) as H0. pose proof (T4 _ _ (pick 1 _ _ H)) as H1. pose proof (T4 _ _ (pick 2 _ _ H)) as H2.
  pose proof (T4 _ _ (pick 3 _ _ H)) as H3. pose proof (int_telling _ _ (one_value _ _ _ (pick 4 _ _ H))) as H4.
  pose proof (int_telling _ _ (pick 5 _ _ H)) as H5. pose proof (T1 _ _ (pick 6 _ _ H)) as H6.
  clear H. destruct f, f'. cbn in *. now subst.
Qed.

(** No byte is left out. *)
Ltac pieces_from e bs bs' :=
  repeat match goal with
         | X : rd_s e ?a ?w bs = rd_s e ?a ?w bs' |- _ => apply (rd_s_inj e a w bs bs') in X; [|lia]
         end.
Lemma header_from_inj e bs bs' h : header_from_prefix e bs = Some h -> header_from_prefix e bs' = Some h ->
  firstn HEADER_SIZE bs = firstn HEADER_SIZE bs'.
Proof.
  unfold header_from_prefix. destruct (Nat.ltb_spec (length bs) HEADER_SIZE) as [|L]; [discriminate|].
  destruct (Nat.ltb_spec (length bs') HEADER_SIZE) as [|L']; [discriminate|].
  intros <- H. injection H as H0 H1 H2 H3 H4 H5 H6 H7 H8 H9 H10 H11. pieces_from e bs' bs.
  unfold HEADER_SIZE in *. symmetry.
  assert (P0 : firstn 0 bs' = firstn 0 bs) by reflexivity.
  apply (piece_u e 0 2) in P0; [|lia|lia|assumption].
  apply (piece_u e 2 1) in P0; [|lia|lia|assumption].
  apply (piece_u e 3 1) in P0; [|lia|lia|assumption].
  apply (piece_u e 4 1) in P0; [|lia|lia|assumption].
  apply (piece_u e 5 1) in P0; [|lia|lia|assumption].
  apply (piece_u e 6 1) in P0; [|lia|lia|assumption].
  apply (piece_u e 7 1) in P0; [|lia|lia|assumption].
  apply (piece_u e 8 4) in P0; [|lia|lia|assumption].
  apply (piece_u e 12 4) in P0; [|lia|lia|assumption].
  apply (piece_u e 16 4) in P0; [|lia|lia|assumption].
  apply (piece_u e 20 4) in P0; [|lia|lia|assumption].
  apply (piece_u e 24 4) in P0; [|lia|lia|assumption]. exact P0.
Qed.
Lemma fde1_decode_inj e bs bs' : length bs = FDE1_SIZE -> length bs' = FDE1_SIZE -> fde1_decode e bs = fde1_decode e bs' -> bs = bs'.
Proof.
  intros L L' H. unfold fde1_decode in H. injection H as H0 H1 H2 H3 H4. pieces_from e bs bs'. unfold FDE1_SIZE in *.
  assert (P0 : firstn 0 bs = firstn 0 bs') by reflexivity.
  apply (piece_u e 0 4) in P0; [|lia|lia|assumption].
  apply (piece_u e 4 4) in P0; [|lia|lia|assumption].
  apply (piece_u e 8 4) in P0; [|lia|lia|assumption].
  apply (piece_u e 12 4) in P0; [|lia|lia|assumption].
  apply (piece_u e 16 1) in P0; [|lia|lia|assumption].
  cbn [Nat.add] in P0. rewrite <- L in P0 at 1. rewrite <- L' in P0. now rewrite !firstn_all in P0.
Qed.
Lemma fde2_decode_inj e bs bs' : length bs = FDE2_SIZE -> length bs' = FDE2_SIZE -> fde2_decode e bs = fde2_decode e bs' -> bs = bs'.
Proof.
  intros L L' H. unfold fde2_decode in H. injection H as H0 H1 H2 H3 H4 H5 H6. pieces_from e bs bs'. unfold FDE2_SIZE in *.
  assert (P0 : firstn 0 bs = firstn 0 bs') by reflexivity.
  apply (piece_u e 0 4) in P0; [|lia|lia|assumption].
  apply (piece_u e 4 4) in P0; [|lia|lia|assumption].
  apply (piece_u e 8 4) in P0; [|lia|lia|assumption].
  apply (piece_u e 12 4) in P0; [|lia|lia|assumption].
  apply (piece_u e 16 1) in P0; [|lia|lia|assumption].
  apply (piece_u e 17 1) in P0; [|lia|lia|assumption].
  apply (piece_u e 18 2) in P0; [|lia|lia|assumption].
  cbn [Nat.add] in P0. rewrite <- L in P0 at 1. rewrite <- L' in P0. now rewrite !firstn_all in P0.
Qed.

Theorem header_bytes_shown alt dt wt e bs bs' h h' :
  plain_texts dt -> plain_words wt -> telling_texts dt -> telling (wt_u32 wt) ->
  header_from_prefix e bs = Some h -> header_from_prefix e bs' = Some h' ->
  print_debug alt (header_debug dt wt h) = print_debug alt (header_debug dt wt h') ->
  firstn HEADER_SIZE bs = firstn HEADER_SIZE bs'.
Proof.
  intros HT HW TT T4 HB HB' H. apply header_shown in H; try assumption. subst h'. exact (header_from_inj e bs bs' h HB HB').
Qed.
Theorem fde1_bytes_shown alt wt e bs bs' : plain_words wt -> telling (wt_u32 wt) -> telling (wt_i32 wt) ->
  length bs = FDE1_SIZE -> length bs' = FDE1_SIZE ->
  print_debug alt (fde1_debug wt (fde1_decode e bs)) = print_debug alt (fde1_debug wt (fde1_decode e bs')) -> bs = bs'.
Proof. intros HW T4 T5 L L' H. apply fde1_shown in H; try assumption. exact (fde1_decode_inj e bs bs' L L' H). Qed.
Theorem fde2_bytes_shown alt dt wt e bs bs' :
  plain_texts dt -> plain_words wt -> telling (dt_u16 dt) -> telling (wt_u32 wt) -> telling (wt_i32 wt) ->
  length bs = FDE2_SIZE -> length bs' = FDE2_SIZE ->
  print_debug alt (fde2_debug dt wt (fde2_decode e bs)) = print_debug alt (fde2_debug dt wt (fde2_decode e bs')) -> bs = bs'.
Proof. intros HT HW T1 T4 T5 L L' H. apply fde2_shown in H; try assumption. exact (fde2_decode_inj e bs bs' L L' H). Qed.
