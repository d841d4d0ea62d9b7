(** Proofs for C105 to C107. *)
From Verif Require Export SearchFacts Write Witness IterSpec RepoTests.

(** ** C105: the tests of the repository *)

Lemma tests_pass md e : wf_mode md ->
  passes (test_roundtrip md e) /\ passes (test_roundtrip_u16_offset md e) /\ passes (test_roundtrip_invalid_fre md e) /\
  passes test_info_base /\ passes test_info_count /\ passes test_info_size /\ passes (test_bpf_add md).
Proof.
  destruct md as [oc da bits bs]; intros [H|H]; cbn in H; subst bits; destruct oc, da, bs, e; vm_compute; repeat split.
Qed.

(** ** C106: mixed iteration *)

Lemma expected_step_bounds s lo hi r lo' hi' :
  (lo <= hi)%nat -> expected_step s lo hi = (r, (lo', hi')) ->
  (lo <= lo' /\ lo' <= hi' /\ hi' <= hi)%nat /\
  match r with
  | Some i => (lo <= i < hi /\ (i < lo' \/ hi' <= i))%nat
  | None => lo' = hi'
  end.
Proof.
  unfold expected_step. intros Hle.
  destruct (lo <? hi)%nat eqn:Hlt; [apply Nat.ltb_lt in Hlt|apply Nat.ltb_ge in Hlt].
  - destruct s as [| |n]; try (intros [= <- <- <-]; lia).
    destruct (lo + n <? hi)%nat eqn:Hn; [apply Nat.ltb_lt in Hn|apply Nat.ltb_ge in Hn]; intros [= <- <- <-]; lia.
  - intros [= <- <- <-]. lia.
Qed.

Lemma expected_bounds l : forall lo hi,
  (lo <= hi)%nat ->
  let w := snd (expected l lo hi) in
  (lo <= fst w /\ fst w <= snd w /\ snd w <= hi)%nat /\
  Forall (fun i => (lo <= i < hi)%nat /\ (i < fst w \/ snd w <= i)%nat) (delivered (fst (expected l lo hi))) /\
  NoDup (delivered (fst (expected l lo hi))).
Proof.
  induction l as [|s t IH]; intros lo hi Hle; cbn [expected].
  - cbn. repeat split; try lia; constructor.
  - destruct (expected_step s lo hi) as [r [lo' hi']] eqn:Hs.
    destruct (expected_step_bounds _ _ _ _ _ _ Hle Hs) as [Hb Hr]. cbn [fst snd].
    specialize (IH lo' hi'). destruct (expected t lo' hi') as [rs [lo'' hi'']]. cbn [fst snd] in *.
    destruct IH as [Hw [Hf Hnd]]; [lia|].
    split; [lia|].
    assert (Hf' : Forall (fun i => (lo <= i < hi)%nat /\ (i < lo'' \/ hi'' <= i)%nat) (delivered rs)).
    { eapply Forall_impl; [|exact Hf]. cbn. intros i Hi. lia. }
    destruct r as [i|]; cbn [delivered flat_map]; [|split; assumption]. split.
    + constructor; [lia|assumption].
    + constructor; [|assumption]. intros Hin. rewrite Forall_forall in Hf. specialize (Hf i Hin). cbn in Hf. lia.
Qed.

Lemma call_position (all : list fde) s it pre post :
  all = pre ++ it_fdes it ++ post ->
  let lo := length pre in
  let hi := (length pre + length (it_fdes it))%nat in
  let (r, it') := call s it in
  let (i, w) := expected_step s lo hi in
  match i, r with
  | None, None => True
  | Some i, Some en => nth_error all i = Some (en_fde en)
  | _, _ => False
  end /\
  it_fres it' = it_fres it /\
  exists pre' post', all = pre' ++ it_fdes it' ++ post' /\ fst w = length pre' /\
    snd w = (length pre' + length (it_fdes it'))%nat.
Proof.
  destruct it as [l fr]. cbn [it_fdes it_fres]. intros ->. cbn zeta. unfold expected_step.
  destruct s as [| |n]; cbn [call].
  - unfold fdi_next. cbn [it_fdes it_fres]. destruct l as [|f l].
    + replace (length pre <? length pre + length (@nil fde))%nat with false by (symmetry; apply Nat.ltb_ge; cbn; lia).
      split; [exact I|]. split; [reflexivity|]. exists pre, post. cbn. repeat split; lia.
    + replace (length pre <? length pre + length (f :: l))%nat with true by (symmetry; apply Nat.ltb_lt; cbn; lia).
      split; [|split; [reflexivity|]].
      * rewrite nth_error_app2 by lia. rewrite Nat.sub_diag. reflexivity.
      * exists (pre ++ [f]), post. cbn [it_fdes fst snd]. rewrite app_length, <- app_assoc. cbn. repeat split; lia.
  - unfold fdi_next_back. cbn [it_fdes it_fres]. destruct (rev l) as [|f rl] eqn:Hr.
    + assert (l = []) as -> by (rewrite <- (rev_involutive l), Hr; reflexivity).
      replace (length pre <? length pre + length (@nil fde))%nat with false by (symmetry; apply Nat.ltb_ge; cbn; lia).
      split; [exact I|]. split; [reflexivity|]. exists pre, post. cbn. repeat split; lia.
    + assert (l = rev rl ++ [f]) as Hl by (rewrite <- (rev_involutive l), Hr; reflexivity). clear Hr. subst l.
      rewrite app_length. cbn [length].
      replace (length pre <? length pre + (length (rev rl) + 1))%nat with true by (symmetry; apply Nat.ltb_lt; lia).
      split; [|split; [reflexivity|]].
      * rewrite nth_error_app2 by lia. rewrite <- app_assoc. rewrite nth_error_app2 by lia.
        replace (length pre + (length (rev rl) + 1) - 1 - length pre - length (rev rl))%nat with 0%nat by lia. reflexivity.
      * exists pre, (f :: post). cbn [it_fdes fst snd]. rewrite <- app_assoc. cbn. repeat split; lia.
  - unfold fdi_nth. cbn [it_fdes it_fres].
    destruct (length pre <? length pre + length l)%nat eqn:Hlt; [apply Nat.ltb_lt in Hlt|apply Nat.ltb_ge in Hlt].
    + destruct (length pre + n <? length pre + length l)%nat eqn:Hn; [apply Nat.ltb_lt in Hn|apply Nat.ltb_ge in Hn].
      * destruct (skipn n l) as [|f rest] eqn:Hs.
        { apply (f_equal (@length fde)) in Hs. rewrite skipn_length in Hs. cbn in Hs. lia. }
        assert (Hl : l = firstn n l ++ f :: rest) by (rewrite <- Hs; symmetry; apply firstn_skipn).
        assert (Hfn : length (firstn n l) = n) by (rewrite firstn_length; lia).
        split; [|split; [reflexivity|]].
        -- rewrite nth_error_app2 by lia. rewrite Hl at 1. rewrite <- app_assoc.
           rewrite nth_error_app2 by lia. rewrite Hfn.
           replace (length pre + n - length pre - n)%nat with 0%nat by lia. reflexivity.
        -- exists (pre ++ firstn n l ++ [f]), post. cbn [it_fdes fst snd].
           assert (length l = (n + S (length rest))%nat) by (rewrite Hl at 1; rewrite app_length, Hfn; reflexivity).
           rewrite !app_length, Hfn. cbn [length]. split; [|lia].
           rewrite Hl at 1. rewrite <- !app_assoc. reflexivity.
      * assert (Hs : skipn n l = []) by (apply skipn_all2; lia). rewrite Hs.
        split; [exact I|]. split; [reflexivity|]. exists (pre ++ l), post. cbn. rewrite app_length, <- app_assoc. repeat split; lia.
    + destruct l as [|f l]; [|cbn in Hlt; lia]. rewrite skipn_nil.
      split; [exact I|]. split; [reflexivity|]. exists pre, post. cbn. repeat split; lia.
Qed.

Lemma calls_positions (all : list fde) l : forall it pre post,
  all = pre ++ it_fdes it ++ post ->
  let (rs, it') := calls l it in
  let (is, w) := expected l (length pre) (length pre + length (it_fdes it)) in
  Forall2 (fun i r => match i, r with
                      | None, None => True
                      | Some i, Some en => nth_error all i = Some (en_fde en)
                      | _, _ => False
                      end) is rs /\
  (snd w - fst w)%nat = length (it_fdes it').
Proof.
  induction l as [|s t IH]; intros it pre post Hall; cbn [calls expected].
  - split; [constructor|cbn; lia].
  - pose proof (call_position all s it pre post Hall) as Hc. cbn zeta in Hc.
    destruct (call s it) as [r it']. destruct (expected_step s _ _) as [i w].
    destruct Hc as [Hr [_ [pre' [post' [Hall' [Hlo Hhi]]]]]].
    specialize (IH it' pre' post' Hall'). rewrite <- Hlo in IH. rewrite Hlo, <- Hhi, <- Hlo in IH.
    destruct (calls t it') as [rs it'']. destruct (expected t (fst w) (snd w)) as [is w'].
    destruct IH as [Hf Hlen]. split; [constructor; assumption|assumption].
Qed.

Lemma mixed_iteration sf l :
  let (rs, it) := calls l (fdes sf) in
  let (is, w) := expected l 0 (length (all_fdes sf)) in
  Forall2 (at_position sf) is rs /\ NoDup (delivered is) /\
  fdi_size_hint it = (Z.of_nat (snd w - fst w), Some (Z.of_nat (snd w - fst w))).
Proof.
  pose proof (calls_positions (it_fdes (fdes sf)) l (fdes sf) [] []) as H.
  pose proof (expected_bounds l 0 (length (all_fdes sf))) as Hb.
  assert (Hlen : length (all_fdes sf) = length (it_fdes (fdes sf))) by (rewrite all_fdes_map; apply map_length).
  rewrite app_nil_r in H. specialize (H eq_refl). cbn [length Nat.add] in H. rewrite <- Hlen in H.
  destruct (calls l (fdes sf)) as [rs it]. destruct (expected l 0 _) as [is w].
  destruct H as [Hf Hw]. destruct Hb as [_ [_ Hnd]]; [lia|]. cbn [fst] in Hnd. split; [|split; [exact Hnd|]].
  - clear Hw Hnd Hlen. induction Hf as [|i r is rs Hr Hf IH]; constructor; [|exact IH]. clear Hf IH. revert Hr.
    destruct i as [i|], r as [en|]; unfold at_position; try tauto. intros Hn.
    exists (entry_of (sf_fres sf) (en_fde en)). rewrite all_fdes_map, nth_error_map, Hn. split; reflexivity.
  - unfold fdi_size_hint, zlen. rewrite Hw. reflexivity.
Qed.

(** ** C107: how many descriptors a search looks at *)

Definition agree (l l' : list fde) (s : list nat) : Prop :=
  forall i, In i s -> nth_error l' i = nth_error l i.

Lemma bs_left_right_probes cmp l : forall fuel left right,
  exists s,
    (forall k, (right - left < 2 ^ k)%nat -> (length s <= k)%nat) /\
    (forall l', agree l l' s -> bs_left_right fuel cmp l' left right = bs_left_right fuel cmp l left right) /\
    (forall i, bs_left_right fuel cmp l left right = Ok (Some i) -> In i s).
Proof.
  induction fuel as [|fuel IH]; intros left right.
  { exists []. cbn. repeat split; intros; try lia; discriminate. }
  cbn [bs_left_right]. destruct (left <? right)%nat eqn:Hlt; [apply Nat.ltb_lt in Hlt|].
  2: { exists []. repeat split; intros; cbn; try lia; discriminate. }
  set (mid := (left + (right - left) / 2)%nat).
  assert (Hmid : ((right - left) / 2 < right - left)%nat) by (apply Nat.div_lt; lia).
  assert (Hhalf : forall k, (right - left < 2 ^ S k)%nat ->
            (right - S mid < 2 ^ k)%nat /\ (mid - left < 2 ^ k)%nat).
  { intros k Hk. rewrite Nat.pow_succ_r' in Hk.
    pose proof (Nat.div_mod (right - left) 2 ltac:(lia)). pose proof (Nat.mod_upper_bound (right - left) 2 ltac:(lia)).
    unfold mid. lia. }
  destruct (nth_error l mid) as [f|] eqn:Hf.
  2: { exists [mid]. split; [|split].
       - intros [|k] Hk; [cbn in Hk; lia|cbn; lia].
       - intros l' Ha. rewrite (Ha mid) by (left; reflexivity). rewrite Hf. reflexivity.
       - discriminate. }
  destruct (cmp f) as [c|er|] eqn:Hc; cbn [bind].
  2,3: exists [mid]; split; [|split]; [intros [|k] Hk; [cbn in Hk; lia|cbn; lia]|
        intros l' Ha; rewrite (Ha mid) by (left; reflexivity); rewrite Hf, Hc; reflexivity|discriminate].
  destruct c.
  - destruct (IH (S mid) right) as [s [H1 [H2 H3]]]. exists (mid :: s). split; [|split].
    + intros [|k] Hk; [cbn in Hk; lia|]. cbn. apply le_n_S, H1, Hhalf, Hk.
    + intros l' Ha. rewrite (Ha mid) by (left; reflexivity). rewrite Hf, Hc. cbn [bind]. apply H2.
      intros i Hi. apply Ha. right. exact Hi.
    + intros i Hi. right. apply H3, Hi.
  - exists [mid]. split; [|split].
    + intros [|k] Hk; [cbn in Hk; lia|cbn; lia].
    + intros l' Ha. rewrite (Ha mid) by (left; reflexivity). rewrite Hf, Hc. reflexivity.
    + intros i [= <-]. left. reflexivity.
  - destruct (IH left mid) as [s [H1 [H2 H3]]]. exists (mid :: s). split; [|split].
    + intros [|k] Hk; [cbn in Hk; lia|]. cbn. apply le_n_S, H1, Hhalf, Hk.
    + intros l' Ha. rewrite (Ha mid) by (left; reflexivity). rewrite Hf, Hc. cbn [bind]. apply H2.
      intros i Hi. apply Ha. right. exact Hi.
    + intros i Hi. right. apply H3, Hi.
Qed.

Lemma bs_base_probes cmp l : forall fuel base size,
  exists s,
    (forall k, (size <= 2 ^ k)%nat -> (length s <= S k)%nat) /\
    (forall l', agree l l' s -> bs_base fuel cmp l' base size = bs_base fuel cmp l base size) /\
    (forall i, bs_base fuel cmp l base size = Ok (Some i) -> In i s).
Proof.
  induction fuel as [|fuel IH]; intros base size.
  { exists []. cbn. repeat split; intros; try lia; discriminate. }
  cbn [bs_base]. destruct (1 <? size)%nat eqn:Hlt; [apply Nat.ltb_lt in Hlt|].
  - set (half := (size / 2)%nat). set (mid := (base + half)%nat).
    assert (Hhalf : forall k, (size <= 2 ^ S k)%nat -> (size - half <= 2 ^ k)%nat).
    { intros k Hk. rewrite Nat.pow_succ_r' in Hk.
      pose proof (Nat.div_mod size 2 ltac:(lia)). pose proof (Nat.mod_upper_bound size 2 ltac:(lia)). unfold half. lia. }
    destruct (nth_error l mid) as [f|] eqn:Hf.
    2: { exists [mid]. split; [|split].
         - intros k _. cbn. lia.
         - intros l' Ha. rewrite (Ha mid) by (left; reflexivity). rewrite Hf. reflexivity.
         - discriminate. }
    destruct (cmp f) as [c|er|] eqn:Hc; cbn [bind].
    2,3: exists [mid]; split; [|split]; [intros k _; cbn; lia|
          intros l' Ha; rewrite (Ha mid) by (left; reflexivity); rewrite Hf, Hc; reflexivity|discriminate].
    destruct (IH base (size - half)%nat) as [s1 [A1 [A2 A3]]].
    destruct (IH mid (size - half)%nat) as [s2 [B1 [B2 B3]]].
    exists (mid :: match c with Greater => s1 | _ => s2 end). split; [|split].
    + intros [|k] Hk; [cbn in Hk; lia|]. cbn. apply le_n_S. destruct c; [apply B1|apply B1|apply A1]; apply Hhalf, Hk.
    + intros l' Ha. rewrite (Ha mid) by (left; reflexivity). rewrite Hf, Hc. cbn [bind].
      destruct c; [apply B2|apply B2|apply A2]; intros i Hi; apply Ha; right; exact Hi.
    + intros i Hi. right. destruct c; [apply B3|apply B3|apply A3]; exact Hi.
  - exists [base]. split; [|split].
    + intros k _. cbn. lia.
    + intros l' Ha. rewrite (Ha base) by (left; reflexivity). reflexivity.
    + intros i. destruct (nth_error l base) as [f|]; [|discriminate].
      destruct (cmp f) as [[]|er|]; cbn [bind]; try discriminate. intros [= <-]. left. reflexivity.
Qed.

Lemma binary_search_probes md cmp l :
  exists s,
    (length s <= S (Nat.log2_up (length l)))%nat /\
    (forall l', length l' = length l -> agree l l' s -> binary_search md cmp l' = binary_search md cmp l) /\
    (forall i, binary_search md cmp l = Ok (Some i) -> In i s).
Proof.
  unfold binary_search. destruct (bsearch md).
  - destruct (bs_left_right_probes cmp l (S (length l)) 0 (length l)) as [s [H1 [H2 H3]]].
    exists s. split; [|split].
    + apply H1. rewrite Nat.sub_0_r. destruct (length l) as [|n] eqn:Hl; [cbn; lia|].
      rewrite Nat.pow_succ_r'. destruct (Nat.le_gt_cases (S n) 1).
      * assert (n = 0)%nat by lia. subst n. cbn. lia.
      * pose proof (Nat.log2_up_spec (S n) ltac:(lia)). lia.
    + intros l' Hlen Ha. rewrite Hlen. apply H2, Ha.
    + exact H3.
  - destruct l as [|f l]; [exists []; split; [cbn; lia|split; [|discriminate]]|].
    { intros l' Hlen _. destruct l'; [reflexivity|discriminate]. }
    destruct (bs_base_probes cmp (f :: l) (S (length (f :: l))) 0 (length (f :: l))) as [s [H1 [H2 H3]]].
    exists s. split; [|split].
    + apply H1. destruct (Nat.le_gt_cases (length (f :: l)) 1).
      * cbn [length] in *. assert (length l = 0)%nat by lia. rewrite H0. cbn. lia.
      * apply Nat.log2_up_spec. lia.
    + intros l' Hlen Ha. destruct l' as [|f' l']; [discriminate|]. rewrite Hlen. apply H2, Ha.
    + exact H3.
Qed.

Lemma search_looks md sf a :
  says_sorted sf ->
  exists s,
    (length s <= S (Nat.log2_up (length (all_fdes sf))))%nat /\
    forall sf', says_sorted sf' -> length (all_fdes sf') = length (all_fdes sf) ->
      Forall (same_descriptor sf sf') s ->
      found (fde_for_address md sf' a) = found (fde_for_address md sf a).
Proof.
  intros Hs. unfold says_sorted in *.
  assert (Hfd : forall x, option_map en_fde (nth_error (all_fdes x) 0) = nth_error (it_fdes (fdes x)) 0 /\
                forall i, option_map en_fde (nth_error (all_fdes x) i) = nth_error (it_fdes (fdes x)) i).
  { intros x. assert (forall i, option_map en_fde (nth_error (all_fdes x) i) = nth_error (it_fdes (fdes x)) i).
    { intros i. rewrite all_fdes_map, nth_error_map. destruct (nth_error (it_fdes (fdes x)) i); reflexivity. }
    split; auto. }
  assert (Hln : forall x, length (all_fdes x) = length (it_fdes (fdes x))) by (intros x; rewrite all_fdes_map; apply map_length).
  destruct (binary_search_probes md (search_cmp md a) (it_fdes (fdes sf))) as [s [H1 [H2 H3]]].
  exists s. rewrite Hln. split; [exact H1|].
  intros sf' Hs' Hlen Hsame. rewrite !Hln in Hlen. rewrite Forall_forall in Hsame.
  assert (Ha : agree (it_fdes (fdes sf)) (it_fdes (fdes sf')) s).
  { intros i Hi. specialize (Hsame i Hi). unfold same_descriptor in Hsame.
    rewrite (proj2 (Hfd sf)), (proj2 (Hfd sf')) in Hsame. symmetry. exact Hsame. }
  unfold fde_for_address. rewrite !sorted_flag_land, Hs, Hs'. cbn [negb].
  rewrite (H2 _ Hlen Ha). destruct (binary_search md (search_cmp md a) (it_fdes (fdes sf))) as [[i|]|er|] eqn:Hb; cbn [bind]; try reflexivity.
  cbn [found]. specialize (Ha i (H3 i eq_refl)).
  assert (Hn : forall x, option_map en_fde (fst (fdi_nth i (fdes x))) = nth_error (it_fdes (fdes x)) i).
  { intros x. unfold fdi_nth. generalize (it_fdes (fdes x)). intros l. revert l.
    clear. induction i as [|i IH]; intros [|f l]; cbn [skipn nth_error]; try reflexivity. apply IH. }
  rewrite !Hn, Ha. reflexivity.
Qed.

(** ** Concrete cases *)

Definition five_sfb : sfb :=
  fold_left (fun s k => match sfb_fde s (fdb_new options_new (0x1000 * k) 0x100) with Ok s' => s' | _ => s end)
    [1; 2; 3; 4; 5] (sfb_new options_new).
Definition five_bytes : bytes := Eval vm_compute in match build rel64 LE five_sfb with Ok bs => bs | _ => [] end.
Definition five_sf : sframe :=
  Eval vm_compute in match load rel64 LE five_bytes with
                     | Ok sf => sf
                     | _ => {| sf_preamble := {| pre_magic := 0; pre_version := 0; pre_flags := 0 |}; sf_abi_arch := 0;
                               sf_fixed_fp := 0; sf_fixed_ra := 0; sf_aux := []; sf_num_fdes := 0; sf_num_fres := 0;
                               sf_fdes := ListV2 []; sf_fres := [] |}
                     end.

Lemma iteration_case :
  load rel64 LE five_bytes = Ok five_sf /\ length (all_fdes five_sf) = 5%nat /\
  fst (expected [Nth 1; NextBack; Next; Next; NextBack; Next] 0 5) = [Some 1; Some 4; Some 2; Some 3; None; None]%nat /\
  map (option_map en_start_address) (fst (calls [Nth 1; NextBack; Next; Next; NextBack; Next] (fdes five_sf))) =
    [Some 0x2000; Some 0x5000; Some 0x3000; Some 0x4000; None; None].
Proof. vm_compute. repeat split. Qed.

Lemma search_case :
  load rel64 LE five_bytes = Ok five_sf /\ says_sorted five_sf /\
  S (Nat.log2_up (length (all_fdes five_sf))) = 4%nat /\
  exists f, found (fde_for_address rel64old five_sf 0x3010) = Ok (Some f) /\ fde_start_address f = 0x3000.
Proof. vm_compute. repeat split. eexists. split; reflexivity. Qed.
