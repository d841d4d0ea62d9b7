(** Proofs about [SeenRepaired.v]. *)
From Coq Require Import String Ascii ZArith List Lia.
From Verif Require Export ShownSpec SeenRepaired Repaired.
From Verif Require Import DebugFacts CfiTotal TextFacts DumpFacts LookupFacts PipeFacts RepairedFacts ShownFacts.
Import ListNotations.
Local Open Scope string_scope.

(** ** Debug output *)

Lemma section_text_unrepaired alt dt md e sf : section_text_with false alt dt md e sf = section_text alt dt md e sf.
Proof.
  unfold section_text_with, section_text, section_debug_with, section_debug. destruct (entries_debug md e (all_fdes sf)); reflexivity.
Qed.

Definition old_fields (dt : debug_texts) (sf : sframe) (l : list dbg) : list (string * dbg) :=
  [("preamble", preamble_debug dt (sf_preamble sf)); ("abi_arch", dt_abi dt (sf_abi_arch sf));
   ("fixed_fp_offset", option_debug int_debug (fixed_fp_offset sf)); ("fixed_ra_offset", option_debug int_debug (fixed_ra_offset sf));
   ("num_fdes", int_debug (sf_num_fdes sf)); ("num_fres", int_debug (sf_num_fres sf)); ("fdes", DList l)].

Lemma aux_wordy sf : wordy (aux_debug sf).
Proof. apply list_wordy. intros b _. apply int_wordy. Qed.

Lemma section_wordy dt md e bs sf l : plain_texts dt -> wf_mode md -> rust_slice md bs -> load md e bs = Ok sf ->
  entries_debug md e (all_fdes sf) = Ok l -> wordy (DStruct "SFrame" (old_fields dt sf l ++ [("aux", aux_debug sf)])%list).
Proof.
  intros (P1 & P2 & P3) Hm Hs HL EE.
  destruct (entries_read md e _ _ (DebugFacts.loaded_entries_ok md e bs sf Hm Hs HL) EE) as (HW & _).
  constructor; [a_word|discriminate|]. unfold old_fields. cbn [List.app].
  repeat (apply Forall_cons; [split; cbn [fst snd]; [a_word|]|]); try apply Forall_nil.
  - constructor; [a_word|discriminate|].
    repeat (apply Forall_cons; [split; cbn [fst snd]; [a_word|]|]); try apply Forall_nil; auto.
    constructor; [a_word|discriminate|]. apply Forall_cons; [apply int_wordy|apply Forall_nil].
  - apply P3.
  - apply opt_wordy.
  - apply opt_wordy.
  - apply int_wordy.
  - apply int_wordy.
  - constructor. exact HW.
  - apply aux_wordy.
Qed.

Lemma aux_apart sf sf' : aux_debug sf = aux_debug sf' -> raw_aux sf = raw_aux sf'.
Proof.
  unfold aux_debug. intros H. injection H as H. revert H. generalize (raw_aux sf'). induction (raw_aux sf) as [|b t IH]; intros [|b' t'] H; try discriminate H; [reflexivity|].
  cbn [map] in H. injection H as H1 H2. f_equal; [|apply IH, H2].
  assert (E : bZ b = bZ b') by (pose proof (f_equal integer H1) as E; rewrite !integer_dec in E; apply some_inj in E; exact E).
  apply (f_equal Zb) in E. rewrite !Zb_bZ in E. exact E.
Qed.

(** With the auxiliary header sections print the same exactly if they show the same. *)
Theorem same_text_aux_iff alt dt md e e' bs bs' sf sf' text text' : plain_texts dt -> wf_mode md -> rust_slice md bs -> rust_slice md bs' ->
  load md e bs = Ok sf -> load md e' bs' = Ok sf' ->
  section_text_with true alt dt md e sf = Ok text -> section_text_with true alt dt md e' sf' = Ok text' ->
  (text = text' <-> (exists s, is_seen dt md e sf s /\ is_seen dt md e' sf' s) /\ raw_aux sf = raw_aux sf').
Proof.
  intros Hd Hm Hs Hs' HL HL' HT HT'. unfold section_text_with, section_debug_with in HT, HT'.
  destruct (entries_debug md e (all_fdes sf)) as [l| |] eqn:EE; try discriminate. cbn [bind] in HT. injection HT as HT.
  destruct (entries_debug md e' (all_fdes sf')) as [l'| |] eqn:EE'; try discriminate. cbn [bind] in HT'. injection HT' as HT'.
  fold (old_fields dt sf l) in HT. fold (old_fields dt sf' l') in HT'.
  assert (HO : section_text alt dt md e sf = Ok (print_debug alt (DStruct "SFrame" (old_fields dt sf l)))).
  { unfold section_text, section_debug. rewrite EE. reflexivity. }
  assert (HO' : section_text alt dt md e' sf' = Ok (print_debug alt (DStruct "SFrame" (old_fields dt sf' l')))).
  { unfold section_text, section_debug. rewrite EE'. reflexivity. }
  pose proof (same_text_iff alt dt md e e' bs bs' sf sf' _ _ Hd Hm Hs Hs' HL HL' HO HO') as HI.
  pose proof (text_back alt _ (section_wordy dt md e bs sf l Hd Hm Hs HL EE)) as HB.
  pose proof (text_back alt _ (section_wordy dt md e' bs' sf' l' Hd Hm Hs' HL' EE')) as HB'.
  split.
  - intros E. subst text text'.
    assert (EB : Some (DStruct "SFrame" (old_fields dt sf l ++ [("aux", aux_debug sf)])%list) =
                 Some (DStruct "SFrame" (old_fields dt sf' l' ++ [("aux", aux_debug sf')])%list)).
    { rewrite <- HB, <- HB'. f_equal. exact E. }
    apply some_inj in EB.
    pose proof (f_equal (fun t => match t with DStruct _ fs => fs | _ => [] end) EB) as EF. cbv beta iota in EF.
    apply app_inj_tail in EF. destruct EF as [EF EA]. apply (f_equal snd) in EA. cbn [snd] in EA.
    split; [apply HI; rewrite EF; reflexivity|apply aux_apart, EA].
  - intros [HX HA]. apply HI in HX. subst text text'.
    assert (EO : old_fields dt sf l = old_fields dt sf' l').
    { pose proof (section_wordy dt md e bs sf l Hd Hm Hs HL EE) as W. pose proof (section_wordy dt md e' bs' sf' l' Hd Hm Hs' HL' EE') as W'.
      assert (V : wordy (DStruct "SFrame" (old_fields dt sf l))).
      { inversion W as [|? ? W1 W2 W3| |]; subst. constructor; [exact W1|discriminate|]. exact (proj1 (proj1 (Forall_app _ (old_fields dt sf l) _) W3)). }
      assert (V' : wordy (DStruct "SFrame" (old_fields dt sf' l'))).
      { inversion W' as [|? ? W1 W2 W3| |]; subst. constructor; [exact W1|discriminate|]. exact (proj1 (proj1 (Forall_app _ (old_fields dt sf' l') _) W3)). }
      pose proof (text_back alt _ V) as B. pose proof (text_back alt _ V') as B'. rewrite HX, B' in B. apply some_inj in B.
      apply (f_equal (fun t => match t with DStruct _ fs => fs | _ => [] end)) in B. symmetry. exact B. }
    change (print_debug alt (DStruct "SFrame" (old_fields dt sf l ++ [("aux", aux_debug sf)])%list) =
            print_debug alt (DStruct "SFrame" (old_fields dt sf' l' ++ [("aux", aux_debug sf')])%list)).
    rewrite EO. unfold aux_debug. rewrite HA. reflexivity.
Qed.

(** ** The block sizes *)

Lemma block_plain en : without space_char (block_text en) /\ without newline_char (block_text en) /\ block_text en <> "".
Proof.
  unfold block_text. destruct (en_rep_block_size en) as [n|].
  - split; [apply space_plain, dec_plain|]. split; [|apply dec_nonempty]. apply newline_plain, dec_plain.
  - split; [repeat (split; [discriminate|]); exact I|]. split; [repeat (split; [discriminate|]); exact I|discriminate].
Qed.
Lemma block_apart en en' : block_text en = block_text en' -> en_rep_block_size en = en_rep_block_size en'.
Proof.
  unfold block_text. intros H. pose proof (f_equal integer H) as E.
  destruct (en_rep_block_size en), (en_rep_block_size en'); rewrite ?integer_dec in E; try reflexivity; try discriminate E. exact E.
Qed.

Definition tail_text (l : list entry) : string := concat_text (map (fun en => " " ++ block_text en) l).
Lemma tail_pieces l : pieces (tail_text l) = map block_text l.
Proof.
  assert (HS : forall en t, tail_text (en :: t) = String space_char (block_text en ++ tail_text t)) by reflexivity.
  induction l as [|en t IH]; [reflexivity|]. rewrite HS, pieces_space. cbn [map].
  destruct (block_plain en) as (B1 & _ & B2). destruct t as [|en' t].
  - change (tail_text []) with "". rewrite app_nil_r_s. apply pieces_last; assumption.
  - rewrite HS, pieces_word by assumption. rewrite HS, pieces_space in IH. rewrite IH. reflexivity.
Qed.
Lemma tail_one_line l : without newline_char (tail_text l).
Proof.
  induction l as [|en t IH]; [exact I|]. change (tail_text (en :: t)) with (String space_char (block_text en ++ tail_text t)).
  split; [discriminate|]. apply without_app; [apply (block_plain en)|exact IH].
Qed.

Theorem stdout_with_apart abi_name sf sf' l l' :
  stdout_text_with true abi_name sf l = stdout_text_with true abi_name sf' l' ->
  map en_rep_block_size (all_fdes sf) = map en_rep_block_size (all_fdes sf') /\ stdout_text abi_name l = stdout_text abi_name l'.
Proof.
  unfold stdout_text_with. intros H.
  assert (HU : forall x s, upto newline_char ((blocks_text x ++ newline) ++ s) = Some (blocks_text x, s)).
  { intros x s. rewrite app_assoc_s. change (newline ++ s) with (String newline_char s). apply upto_app.
    unfold blocks_text. apply without_app; [repeat (split; [discriminate|]); exact I|apply tail_one_line]. }
  pose proof (f_equal (upto newline_char) H) as E. rewrite !HU in E. apply some_inj in E.
  pose proof (f_equal fst E) as E1. pose proof (f_equal snd E) as E2. cbn [fst snd] in E1, E2. split; [|exact E2]. clear E.
  assert (ET : tail_text (all_fdes sf) = tail_text (all_fdes sf')).
  { pose proof (f_equal (after "Block sizes:") E1) as X. unfold blocks_text in X. rewrite !after_app in X. apply some_inj in X. exact X. }
  pose proof (f_equal pieces ET) as E. rewrite !tail_pieces in E. clear - E. revert E. generalize (all_fdes sf').
  induction (all_fdes sf) as [|en t IH]; intros [|en' t'] E; try discriminate E; [reflexivity|]. cbn [map] in *. injection E as X Y. f_equal; [apply block_apart, X|apply IH, Y].
Qed.

(** ** Lookups *)

Lemma last_like sf sf' (q : Z -> bool) good good' : Forall2 (row_like sf sf') good good' -> forall best best',
  option_map (fun fr => looks (observed sf fr)) best = option_map (fun fr => looks (observed sf' fr)) best' ->
  option_map (fun fr => looks (observed sf fr)) (last_while (fun fr => q (fr_start fr)) best good) =
  option_map (fun fr => looks (observed sf' fr)) (last_while (fun fr => q (fr_start fr)) best' good').
Proof.
  induction 1 as [|fr fr' t t' [H1 H2] _ IH]; intros best best' HB; [exact HB|]. cbn [last_while]. rewrite <- H1.
  destruct (q (fr_start fr)); [|exact HB]. apply IH. cbn [option_map]. rewrite H2. reflexivity.
Qed.

Lemma shown_row_with rp md e e' sf sf' en en' a : en_rep_block_size en = en_rep_block_size en' -> shown_like md e e' sf sf' en en' ->
  reads_well md e en -> reads_well md e' en' ->
  row_shown sf (get_fre_with rp md e en a) = row_shown sf' (get_fre_with rp md e' en' a).
Proof.
  intros HB ([S1 S2] & HK & good & er & good' & er' & G & G' & HR) (g & W) (g' & W').
  unfold fre_results in G, G'. rewrite W in G. rewrite W' in G'. apply ok_inj in G, G'. apply no_error_item in G, G'.
  destruct G as [-> ->], G' as [-> ->]. unfold get_fre_with, en_start_address, en_size. rewrite <- S1, <- S2, <- HK, <- HB.
  destruct (a <? fde_start_address (en_fde en))%Z; [reflexivity|].
  destruct (@distance (fuel_error + read_error) rp md a (fde_start_address (en_fde en))) as [d| |]; cbn [bind]; try reflexivity.
  destruct (fde_size (en_fde en) <? as_u 32 d)%Z; [reflexivity|]. unfold all_fres in W, W'.
  assert (HX : forall q : Z -> bool,
    row_shown sf (fri_find (fri_fuel (fres en)) md e (fun fr => q (fr_start fr)) (fres en)) =
    row_shown sf' (fri_find (fri_fuel (fres en')) md e' (fun fr => q (fr_start fr)) (fres en'))).
  { intros q.
    assert (W0 : fri_collect (fri_fuel (fres en)) md e (fres en) = Ok (map inl g ++ map inr [])%list) by (cbn [map]; rewrite app_nil_r; exact W).
    assert (W0' : fri_collect (fri_fuel (fres en')) md e' (fres en') = Ok (map inl g' ++ map inr [])%list) by (cbn [map]; rewrite app_nil_r; exact W').
    rewrite (fri_find_collect _ _ _ _ _ _ _ W0), (fri_find_collect _ _ _ _ _ _ _ W0'). pose proof (find_like sf sf' q g g' HR) as HF.
    destruct (find _ g), (find _ g'); cbn [option_map] in HF; try discriminate HF; [|reflexivity].
    apply some_inj in HF. unfold row_shown, option_map. rewrite HF. reflexivity. }
  assert (HP : forall q : Z -> bool,
    row_shown sf (fri_pick rp md e (fun fr => q (fr_start fr)) (fres en)) =
    row_shown sf' (fri_pick rp md e' (fun fr => q (fr_start fr)) (fres en'))).
  { intros q. unfold fri_pick. destruct (fix_pick rp); [|apply HX].
    rewrite (fri_last_collect _ _ _ _ _ _ _ W), (fri_last_collect _ _ _ _ _ _ _ W'). cbn [row_shown]. f_equal.
    apply last_like; [exact HR|reflexivity]. }
  destruct (en_fdetype en); [exact (HP (fun s => s <=? as_u 32 d)%Z)| |exact (HX (fun s => s <=? Z.land (as_u 32 d) s)%Z)].
  destruct (en_rep_block_size en) as [n|]; [|reflexivity]. destruct (n =? 0)%Z; [reflexivity|]. exact (HP (fun s => s <=? as_u 32 d mod n)%Z).
Qed.

Lemma same_span_cmp_with rp md a f f' : same_span f f' -> @search_cmp_with fuel_error rp md a f = search_cmp_with rp md a f'.
Proof. intros [H1 H2]. unfold search_cmp_with. now rewrite H1, H2. Qed.
Lemma same_span_search_with rp md a l l' : Forall2 same_span l l' ->
  binary_search md (search_cmp_with rp md a) l = binary_search md (search_cmp_with rp md a) l'.
Proof.
  intros H. assert (HL : length l = length l') by (induction H; cbn; congruence). pose proof (Forall2_at _ _ _ H) as HN.
  unfold binary_search. rewrite HL. destruct (bsearch md).
  - assert (HB : forall k lo hi, bs_left_right k (search_cmp_with rp md a) l lo hi = bs_left_right k (search_cmp_with rp md a) l' lo hi).
    { induction k as [|k IH]; intros lo hi; [reflexivity|]. cbn [bs_left_right].
      destruct (lo <? hi)%nat; [|reflexivity]. specialize (HN (lo + (hi - lo) / 2)%nat).
      destruct (nth_error l _) as [f|], (nth_error l' _) as [f'|]; try contradiction; [|reflexivity].
      rewrite (same_span_cmp_with rp md a f f' HN). destruct (search_cmp_with rp md a f') as [[]| |]; cbn [bind]; auto. }
    apply HB.
  - assert (HB : forall k lo n, bs_base k (search_cmp_with rp md a) l lo n = bs_base k (search_cmp_with rp md a) l' lo n).
    { induction k as [|k IH]; intros lo n; [reflexivity|]. cbn [bs_base]. destruct (1 <? n)%nat.
      - specialize (HN (lo + n / 2)%nat). destruct (nth_error l _) as [f|], (nth_error l' _) as [f'|]; try contradiction; [|reflexivity].
        rewrite (same_span_cmp_with rp md a f f' HN). destruct (search_cmp_with rp md a f') as [[]| |]; cbn [bind]; auto.
      - specialize (HN lo). destruct (nth_error l _) as [f|], (nth_error l' _) as [f'|]; try contradiction; [|reflexivity].
        rewrite (same_span_cmp_with rp md a f f' HN). reflexivity. }
    destruct l, l'; try discriminate; [reflexivity|]. rewrite HB. reflexivity.
Qed.

(** With the rows taken from their own offset both searches deliver the function at one place. *)
Lemma same_span_place rp md sf sf' a : fix_rows rp = true -> flags sf = flags sf' ->
  Forall2 same_span (it_fdes (fdes sf)) (it_fdes (fdes sf')) ->
  match fde_for_address_with rp md sf a, fde_for_address_with rp md sf' a with
  | Ok None, Ok None | Panic, Panic => True
  | Ok (Some en), Ok (Some en') => exists i, nth_error (all_fdes sf) i = Some en /\ nth_error (all_fdes sf') i = Some en'
  | Err x, Err y => x = y
  | _, _ => False end.
Proof.
  intros HR HF HS. assert (HL : length (it_fdes (fdes sf)) = length (it_fdes (fdes sf'))) by (clear - HS; induction HS; cbn; congruence).
  rewrite !all_fdes_map. unfold fde_for_address_with. rewrite <- HF. destruct (negb _).
  - pose proof (same_span_find md a (sf_fres sf) (sf_fres sf') _ _ HS (S (length (it_fdes (fdes sf)))) (S (length (it_fdes (fdes sf')))) ltac:(lia) ltac:(lia)) as H.
    change (FdeIter (it_fdes (fdes sf)) (sf_fres sf)) with (fdes sf) in H. change (FdeIter (it_fdes (fdes sf')) (sf_fres sf')) with (fdes sf') in H.
    destruct (fdi_find (S (length (it_fdes (fdes sf)))) md a (fdes sf)) as [[en|]| |],
      (fdi_find (S (length (it_fdes (fdes sf')))) md a (fdes sf')) as [[en'|]| |]; try contradiction; auto.
  - rewrite (same_span_search_with rp md a _ _ HS).
    destruct (binary_search md (search_cmp_with rp md a) (it_fdes (fdes sf'))) as [[k|]|er|] eqn:EB; cbn [bind]; try reflexivity; try exact I.
    unfold fdi_nth_with. pose proof (Forall2_at _ _ _ HS k) as HK.
    destruct (nth_error (it_fdes (fdes sf)) k) as [f|] eqn:E1, (nth_error (it_fdes (fdes sf')) k) as [f'|] eqn:E2; try contradiction.
    + rewrite (nth_error_skipn _ _ _ E1), (nth_error_skipn _ _ _ E2), HR.
      exists k. rewrite !nth_error_map, E1, E2. split; reflexivity.
    + apply nth_error_None in E1, E2. rewrite !skipn_all2 by lia. exact I.
Qed.

(** Sections with the same repaired output of [sframedump] answer every look-up alike. *)
Theorem same_dump_lookups_with rp md e e' bs bs' sf sf' abi_name l l' a : fix_rows rp = true ->
  wf_mode md -> rust_slice md bs -> rust_slice md bs' -> load md e bs = Ok sf -> load md e' bs' = Ok sf' ->
  dump md e sf = Ok l -> dump md e' sf' = Ok l' -> (forall n, without newline_char (abi_name n)) ->
  stdout_text_with true abi_name sf l = stdout_text_with true abi_name sf' l' -> stderr_text l = "" -> stderr_text l' = "" ->
  shown_answer (lookup_with rp md e sf a) = shown_answer (lookup_with rp md e' sf' a).
Proof.
  intros HR Hm Hs Hs' HL HL' HD HD' Ha HT E E'. destruct (stdout_with_apart _ _ _ _ _ HT) as [HB HO].
  destruct (same_dump md e e' bs bs' sf sf' abi_name l l' Hm Hs Hs' HL HL' HD HD' Ha HO) as (r & r' & _ & R & R' & HF & _ & N & N').
  pose proof (same_dump_like md e e' bs bs' sf sf' abi_name l l' Hm Hs Hs' HL HL' HD HD' Ha HO) as HLK.
  pose proof (same_dump_spans md e e' bs bs' sf sf' abi_name l l' Hm Hs Hs' HL HL' HD HD' Ha HO) as HS.
  pose proof (same_span_place rp md sf sf' a HR HF HS) as HP. unfold lookup_with.
  destruct (fde_for_address_with rp md sf a) as [[en|]|x|], (fde_for_address_with rp md sf' a) as [[en'|]|y|]; try contradiction; try reflexivity; [|congruence].
  destruct HP as (i & Hi & Hi'). pose proof (Forall2_at _ _ _ HLK i) as HE. rewrite Hi, Hi' in HE.
  assert (HX : row_shown sf (get_fre_with rp md e en a) = row_shown sf' (get_fre_with rp md e' en' a)).
  { apply shown_row_with; try assumption.
    - pose proof (f_equal (fun x => nth_error x i) HB) as X. cbv beta in X. rewrite !nth_error_map, Hi, Hi' in X. apply some_inj in X. exact X.
    - pose proof (all_no_errors _ _ _ _ _ _ R (N E)) as HN. rewrite Forall_forall in HN. apply HN. eapply nth_error_In, Hi.
    - pose proof (all_no_errors _ _ _ _ _ _ R' (N' E')) as HN. rewrite Forall_forall in HN. apply HN. eapply nth_error_In, Hi'. }
  unfold shown_answer. destruct (get_fre_with rp md e en a) as [[fr|]| |], (get_fre_with rp md e' en' a) as [[fr'|]| |];
    cbn [row_shown option_map] in HX |- *; try discriminate HX; congruence.
Qed.

Lemma stdout_unrepaired abi_name sf l : stdout_text_with false abi_name sf l = stdout_text abi_name l.
Proof. reflexivity. Qed.
