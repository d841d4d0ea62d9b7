(** Proofs about output through [BufWriter]. *)
From Coq Require Import String Ascii Lia.
From Verif Require Export IoSpec TextFacts LoudFacts.
Local Open Scope string_scope.

(** ** Strings *)

Lemma app_empty_s s : s ++ "" = s.
Proof. induction s; cbn [append]; congruence. Qed.
Lemma slen_app a b : slen (a ++ b) = (slen a + slen b)%Z.
Proof. unfold slen. rewrite <- Nat2Z.inj_add. f_equal. induction a; cbn [append String.length]; lia. Qed.
Lemma slen_nonneg s : (0 <= slen s)%Z.
Proof. unfold slen. lia. Qed.
Lemma slen_zero s : (slen s <= 0)%Z -> s = "".
Proof. unfold slen. destruct s; [reflexivity|cbn [String.length]; lia]. Qed.
Lemma take_drop : forall n s, stake n s ++ sdrop n s = s.
Proof. induction n; intros [|c t]; cbn [stake sdrop append]; try reflexivity. rewrite IHn. reflexivity. Qed.
Lemma sdrop_length : forall n s, (String.length (sdrop (S n) s) <= String.length s - 1)%nat.
Proof.
  assert (H : forall n s, (String.length (sdrop n s) <= String.length s)%nat).
  { induction n; intros [|c t]; cbn [sdrop String.length]; try lia. specialize (IHn t). lia. }
  intros n [|c t]; cbn [sdrop String.length]; [lia|]. specialize (H n t). lia.
Qed.
Lemma app_empty_inv a b : a ++ b = "" -> a = "" /\ b = "".
Proof. destruct a; [auto|discriminate]. Qed.

Lemma scat_cons s l : String.concat "" (s :: l) = s ++ String.concat "" l.
Proof. destruct l; [|reflexivity]. cbn [String.concat]. rewrite app_empty_s. reflexivity. Qed.
Lemma scat_app l l' : String.concat "" (l ++ l') = String.concat "" l ++ String.concat "" l'.
Proof. induction l as [|a l IH]; [reflexivity|]. cbn [List.app]. rewrite !scat_cons, IH, app_assoc_s. reflexivity. Qed.
Lemma unlines_cons' s l : unlines (s :: l) = (s ++ newline) ++ unlines l.
Proof. unfold unlines. cbn [map]. apply scat_cons. Qed.
Lemma unlines_app l l' : unlines (l ++ l') = unlines l ++ unlines l'.
Proof. unfold unlines. rewrite map_app. apply scat_app. Qed.

Lemma received_app l l' : received (l ++ l') = received l ++ received l'.
Proof. induction l as [|[s| |s] l IH]; cbn [received List.app]; rewrite ?IH, ?app_assoc_s; reflexivity. Qed.
Lemma complaints_app l l' : complaints (l ++ l') = (complaints l ++ complaints l')%list.
Proof. induction l as [|[s| |s] l IH]; cbn [complaints List.app]; rewrite ?IH; reflexivity. Qed.
Lemma willing_not_refuses sk : willing sk -> ~ refuses sk.
Proof.
  intros [H1 H2] [(n & s & Hs & H)|(n & H)].
  - destruct (H1 n s Hs) as (k & E). rewrite E in H. destruct H; discriminate.
  - rewrite H2 in H. discriminate.
Qed.

(** ** The buffer *)

(** From [w] to [w'] the text [t] was written: standard output took [sent], and
    [lost] was never put into the buffer. *)
Record wrote (sk : sink) (w w' : bufwriter) (t : string) (ok : bool) : Prop := Wrote {
  wr_text : exists new lost, bw_log w' = (bw_log w ++ map Took new)%list /\
      bw_buf w ++ t = (String.concat "" new ++ bw_buf w') ++ lost /\ (ok = true -> lost = "");
  wr_fail : ok = false -> refuses sk;
  wr_room : (slen (bw_buf w) <= bw_capacity)%Z -> (slen (bw_buf w') <= bw_capacity)%Z }.

Lemma flush_loop_wrote sk : forall fuel w, (String.length (bw_buf w) < fuel)%nat ->
  wrote sk w (fst (flush_loop fuel sk w)) "" (snd (flush_loop fuel sk w)) /\
  (snd (flush_loop fuel sk w) = true -> bw_buf (fst (flush_loop fuel sk w)) = "") /\
  (bw_buf w = "" -> flush_loop fuel sk w = (w, true)).
Proof.
  induction fuel as [|k IH]; intros w Hf; [lia|]. cbn [flush_loop]. remember (bw_buf w) as b eqn:Eb. destruct b as [|c t].
  - cbn [fst snd]. split; [|auto]. constructor; [|discriminate|auto]. exists [], "".
    rewrite app_nil_r. cbn [String.concat append]. rewrite !app_empty_s. auto.
  - set (s := String c t) in *. assert (Hs : s <> "") by discriminate.
    assert (Hl : (slen s <= bw_capacity -> slen s <= bw_capacity)%Z) by auto.
    unfold sink_write. destruct (sk_write sk (bw_calls w) s) as [n|] eqn:Ew.
    2:{ cbn [fst snd]. split; [|split; [discriminate|congruence]]. constructor.
        - exists [], "". cbn [map bw_buf bw_log String.concat append]. rewrite app_nil_r, <- Eb. rewrite !app_empty_s. auto.
        - intros _. left. exists (bw_calls w), s. auto.
        - cbn [bw_buf]. rewrite <- Eb. exact Hl. }
    destruct (Nat.min n (String.length s)) as [|m] eqn:Em.
    + cbn [fst snd]. split; [|split; [discriminate|congruence]]. constructor.
      * exists [], "". cbn [map bw_buf bw_log String.concat append]. rewrite app_nil_r, <- Eb. rewrite !app_empty_s. auto.
      * intros _. left. exists (bw_calls w), s. split; [exact Hs|]. right. rewrite Ew. f_equal. unfold s in Em. cbn [String.length] in Em. lia.
      * cbn [bw_buf]. rewrite <- Eb. exact Hl.
    + set (w1 := {| bw_buf := sdrop (S m) s; bw_calls := _; bw_log := _ |}).
      assert (Hf1 : (String.length (bw_buf w1) < k)%nat).
      { unfold w1. cbn [bw_buf]. pose proof (sdrop_length m s). unfold s in *. cbn [String.length] in *. lia. }
      destruct (IH w1 Hf1) as ([(new & lost & EL & ET & Hk) HF HR] & HE & _). split; [|split; [exact HE|congruence]].
      constructor; [|exact HF|].
      * exists (stake (S m) s :: new), lost. split; [|split; [|exact Hk]].
        -- rewrite EL. unfold w1. cbn [bw_log map]. rewrite <- app_assoc. reflexivity.
        -- rewrite <- Eb. rewrite scat_cons. rewrite !app_empty_s in *. rewrite <- (take_drop (S m) s) at 1.
           unfold w1 in ET. cbn [bw_buf] in ET. rewrite ET, !app_assoc_s. reflexivity.
      * intros Hc. apply HR. unfold w1. cbn [bw_buf]. rewrite <- Eb in Hc. unfold slen in *.
        pose proof (sdrop_length m s). lia.
Qed.
Lemma flush_buf_wrote sk w :
  wrote sk w (fst (flush_buf sk w)) "" (snd (flush_buf sk w)) /\
  (snd (flush_buf sk w) = true -> bw_buf (fst (flush_buf sk w)) = "") /\
  (bw_buf w = "" -> flush_buf sk w = (w, true)).
Proof. apply flush_loop_wrote. lia. Qed.

Lemma wrote_trans sk w w1 w2 t1 t2 ok : wrote sk w w1 t1 true -> wrote sk w1 w2 t2 ok -> wrote sk w w2 (t1 ++ t2) ok.
Proof.
  intros [(n1 & l1 & E1 & T1 & K1) F1 R1] [(n2 & l2 & E2 & T2 & K2) F2 R2]. rewrite (K1 eq_refl) in T1. constructor; [|exact F2|auto].
  exists (n1 ++ n2)%list, l2. split; [|split; [|exact K2]].
  - rewrite E2, E1, map_app, app_assoc. reflexivity.
  - rewrite app_empty_s in T1. rewrite <- app_assoc_s, T1, app_assoc_s, T2, scat_app, !app_assoc_s. reflexivity.
Qed.
Lemma wrote_fail sk w w' t1 t2 : wrote sk w w' t1 false -> wrote sk w w' (t1 ++ t2) false.
Proof.
  intros [(n & l & E & T & _) F R]. constructor; [|auto|auto]. exists n, (l ++ t2). split; [exact E|]. split; [|discriminate].
  rewrite <- app_assoc_s, T, !app_assoc_s. reflexivity.
Qed.
Lemma wrote_refl sk w : wrote sk w w "" true.
Proof. constructor; [|discriminate|auto]. exists [], "". cbn [map String.concat append]. rewrite app_nil_r, !app_empty_s. auto. Qed.

Lemma append_wrote sk w s : (slen (bw_buf w) + slen s <= bw_capacity)%Z -> wrote sk w (bw_append s w) s true.
Proof.
  intros H. constructor; [|discriminate|].
  - exists [], "". cbn [bw_append bw_log bw_buf map String.concat append]. rewrite app_nil_r, app_empty_s. auto.
  - intros _. cbn [bw_append bw_buf]. rewrite slen_app. exact H.
Qed.
Lemma inner_wrote sk w s : bw_buf w = "" -> wrote sk w (fst (inner_write_all sk s w)) s (snd (inner_write_all sk s w)).
Proof.
  intros Hb. unfold inner_write_all. cbn zeta. set (w1 := {| bw_buf := s; bw_calls := bw_calls w; bw_log := bw_log w |}).
  assert (Hf : (String.length (bw_buf w1) < S (String.length s))%nat) by (cbn; lia).
  destruct (flush_loop_wrote sk (S (String.length s)) w1 Hf) as ([(n & l & E & T & K) F R] & HE & _).
  cbn [fst snd]. constructor; [|exact F|].
  - exists n, (bw_buf (fst (flush_loop (S (String.length s)) sk w1)) ++ l). cbn [bw_log bw_buf]. split; [exact E|]. split.
    + rewrite Hb, app_empty_s. cbn [append]. cbn [bw_buf w1] in T. rewrite app_empty_s, app_assoc_s in T. exact T.
    + intros Hok. rewrite (HE Hok), (K Hok). reflexivity.
  - cbn [bw_buf]. auto.
Qed.
Lemma write_all_wrote sk s w : (slen (bw_buf w) <= bw_capacity)%Z ->
  wrote sk w (fst (bw_write_all sk s w)) s (snd (bw_write_all sk s w)).
Proof.
  intros Hc. unfold bw_write_all. cbn zeta. destruct (Z.ltb_spec (slen s) (bw_capacity - slen (bw_buf w))) as [H1|H1].
  { cbn [fst snd]. apply append_wrote. lia. }
  destruct (Z.ltb_spec (bw_capacity - slen (bw_buf w)) (slen s)) as [H2|H2].
  - destruct (flush_buf_wrote sk w) as (HW & HE & _). destruct (flush_buf sk w) as [w1 [|]]; cbn [fst snd] in *.
    + specialize (HE eq_refl). destruct (Z.leb_spec bw_capacity (slen s)) as [H3|H3].
      * apply (wrote_trans sk w w1 _ "" s _ HW). apply inner_wrote. exact HE.
      * cbn [fst snd]. apply (wrote_trans sk w w1 _ "" s _ HW). apply append_wrote. rewrite HE. change (slen "") with 0%Z. lia.
    + apply (wrote_fail sk w w1 "" s). exact HW.
  - cbn [fst snd]. destruct (Z.leb_spec bw_capacity (slen s)) as [H3|H3].
    + apply inner_wrote. apply slen_zero. lia.
    + cbn [fst snd]. apply append_wrote. lia.
Qed.

Lemma write_pieces_wrote sk : forall l w, (slen (bw_buf w) <= bw_capacity)%Z ->
  wrote sk w (fst (write_pieces sk l w)) (String.concat "" l) (snd (write_pieces sk l w)).
Proof.
  induction l as [|p t IH]; intros w Hc; [apply wrote_refl|]. rewrite scat_cons. cbn [write_pieces]. cbn zeta.
  pose proof (write_all_wrote sk p w Hc) as HW. destruct (bw_write_all sk p w) as [w1 [|]]; cbn [fst snd] in *.
  - eapply wrote_trans; [exact HW|]. apply IH. apply (wr_room _ _ _ _ _ HW Hc).
  - apply wrote_fail. exact HW.
Qed.
Lemma write_lines_wrote pieces sk : cuts pieces -> forall l w, (slen (bw_buf w) <= bw_capacity)%Z ->
  wrote sk w (fst (write_lines pieces sk l w)) (unlines l) (snd (write_lines pieces sk l w)).
Proof.
  intros Hp. induction l as [|p t IH]; intros w Hc; [apply wrote_refl|]. rewrite unlines_cons'. cbn [write_lines]. cbn zeta.
  pose proof (write_pieces_wrote sk (pieces (p ++ newline)) w Hc) as HW. rewrite Hp in HW.
  destruct (write_pieces sk (pieces (p ++ newline)) w) as [w1 [|]]; cbn [fst snd] in *.
  - eapply wrote_trans; [exact HW|]. apply IH. apply (wr_room _ _ _ _ _ HW Hc).
  - apply wrote_fail. exact HW.
Qed.

(** ** Lines of sframedump, with error messages in between *)

(** [new] is what happened when [l] was written, starting with [before] in the
    buffer and ending with [after] in it; [lost] is what never came into it. *)
Record told (abi_name : Z -> string) (before : string) (l : list dump_line) (new : list seen) (after lost : string) : Prop := Told {
  td_text : before ++ stdout_text abi_name l = (received new ++ after) ++ lost;
  td_order : forall pre s post, new = (pre ++ ErrLine s :: post)%list ->
    exists l1 er l2, l = (l1 ++ LineErr er :: l2)%list /\ s = "  error decoding FRE: " ++ read_error_text er /\
      received pre = before ++ stdout_text abi_name l1 /\ complaints pre = flat_map line_stderr l1 /\ just_flushed pre }.

Lemma took_no_err : forall l pre s post, map Took l <> (pre ++ ErrLine s :: post)%list.
Proof. induction l; intros [|x pre] s post H; try discriminate; injection H as H1 H2; try discriminate. eapply IHl. exact H2. Qed.
Lemma received_took l : received (map Took l) = String.concat "" l.
Proof. induction l; [reflexivity|]. rewrite scat_cons. cbn [map received]. congruence. Qed.
Lemma complaints_took l : complaints (map Took l) = [].
Proof. induction l; auto. Qed.

Lemma text_cons abi_name ln l : stdout_text abi_name (ln :: l) = unlines (line_text abi_name ln) ++ stdout_text abi_name l.
Proof. unfold stdout_text. cbn [flat_map]. apply unlines_app. Qed.
Lemma text_app abi_name l l' : stdout_text abi_name (l ++ l') = stdout_text abi_name l ++ stdout_text abi_name l'.
Proof. unfold stdout_text. rewrite flat_map_app. apply unlines_app. Qed.

(** Finding an error line in [map Took new1 ++ mid ++ rest]. *)
Lemma err_in_rest (new1 : list string) (rest pre : list seen) s post :
  (map Took new1 ++ rest)%list = (pre ++ ErrLine s :: post)%list ->
  exists pre', pre = (map Took new1 ++ pre')%list /\ rest = (pre' ++ ErrLine s :: post)%list.
Proof.
  revert pre. induction new1 as [|a t IH]; intros pre H; [exists pre; auto|].
  destruct pre as [|x pre]; [discriminate|]. cbn [map List.app] in H. injection H as <- H.
  destruct (IH _ H) as (pre' & -> & E). exists pre'. auto.
Qed.

Lemma write_dump_told abi_name pieces sk : cuts pieces -> forall l w, (slen (bw_buf w) <= bw_capacity)%Z ->
  let r := write_dump abi_name pieces sk l w in
  (exists new lost, bw_log (fst r) = (bw_log w ++ new)%list /\ told abi_name (bw_buf w) l new (bw_buf (fst r)) lost /\
     (snd r = true -> lost = "" /\ complaints new = flat_map line_stderr l)) /\
  (snd r = false -> refuses sk) /\ (slen (bw_buf (fst r)) <= bw_capacity)%Z.
Proof.
  intros Hp. induction l as [|ln t IH]; intros w Hc.
  { cbn zeta. cbn [write_dump fst snd]. split; [|split; [discriminate|exact Hc]]. exists [], "". rewrite app_nil_r. split; [reflexivity|].
    split; [|auto]. constructor; [cbn [received]; change (stdout_text abi_name []) with ""; rewrite !app_empty_s; reflexivity|].
    intros [|x pre] s post H; discriminate. }
  assert (Hdec : (exists er, ln = LineErr er) \/
    write_dump abi_name pieces sk (ln :: t) w =
      (let r := write_lines pieces sk (line_text abi_name ln) w in if snd r then write_dump abi_name pieces sk t (fst r) else r) /\
    line_stderr ln = []).
  { destruct ln; try (right; split; reflexivity). left. eexists. reflexivity. }
  destruct Hdec as [(er & ->)|(Hstep & Hsil)].
  - cbn zeta. cbn [write_dump]. cbn zeta. unfold bw_flush. cbn zeta.
    destruct (flush_buf_wrote sk w) as ([(n1 & l1 & E1 & T1 & K1) F1 R1] & HE & _).
    destruct (flush_buf sk w) as [w1 [|]]; cbn [fst snd] in *.
    + specialize (HE eq_refl). rewrite (K1 eq_refl), HE, !app_empty_s in T1.
      destruct (sk_flush sk (bw_calls w1)) eqn:Ef.
      * set (w2 := err_line _ _). assert (Hc2 : (slen (bw_buf w2) <= bw_capacity)%Z) by (unfold w2; cbn [err_line bw_buf]; rewrite HE; cbv; discriminate).
        destruct (IH w2 Hc2) as ((new & lost & EL & [HT HO] & HS) & HF & HR). cbn [fst snd] in *.
        assert (Eb2 : bw_buf w2 = "") by exact HE. rewrite Eb2 in HT. cbn [append] in HT.
        split; [|auto]. exists (map Took n1 ++ Flushed :: ErrLine ("  error decoding FRE: " ++ read_error_text er) :: new)%list, lost.
        split; [|split; [constructor|]].
        -- rewrite EL. unfold w2. cbn [err_line bw_log]. rewrite E1, <- !app_assoc. reflexivity.
        -- rewrite text_cons. cbn [line_text]. change (unlines []) with "". cbn [append]. rewrite HT, received_app, received_took, T1.
           cbn [received]. rewrite !app_assoc_s. reflexivity.
        -- intros pre s post H. apply err_in_rest in H. destruct H as (pre' & -> & H). destruct pre' as [|x pre']; [discriminate|].
           cbn [List.app] in H. injection H as <- H. destruct pre' as [|x pre'].
           ++ cbn [List.app] in H. injection H as <- <-. exists [], er, t. cbn [flat_map]. split; [reflexivity|]. split; [reflexivity|].
              rewrite received_app, received_took, complaints_app, complaints_took. cbn [received complaints List.app]. change (stdout_text abi_name []) with "".
              rewrite !app_empty_s. split; [auto|]. split; [reflexivity|]. exists (map Took n1). reflexivity.
           ++ cbn [List.app] in H. injection H as <- H. destruct (HO _ _ _ H) as (l1' & er' & l2 & -> & -> & ETk & ECm & (q & ->)).
              exists (LineErr er :: l1'), er', l2. split; [reflexivity|]. split; [reflexivity|].
              rewrite received_app, received_took, complaints_app, complaints_took, text_cons. cbn [received complaints List.app flat_map line_stderr line_text].
              rewrite ETk, ECm, Eb2. change (unlines []) with "". cbn [append]. rewrite T1. split; [reflexivity|]. split; [reflexivity|].
              exists (map Took n1 ++ Flushed :: ErrLine ("  error decoding FRE: " ++ read_error_text er) :: q)%list. rewrite <- app_assoc. reflexivity.
        -- intros Hok. destruct (HS Hok) as [Hl HC]. split; [exact Hl|]. rewrite complaints_app, complaints_took. cbn [complaints List.app flat_map line_stderr]. rewrite HC. reflexivity.
      * cbn [fst snd bw_log bw_buf]. rewrite app_nil_r. split; [|split; [intros _; right; eexists; exact Ef|auto]].
        exists (map Took n1), (stdout_text abi_name (LineErr er :: t)). split; [exact E1|]. split; [|discriminate].
        constructor; [rewrite received_took, HE, T1, app_empty_s; reflexivity|]. intros pre s post H. exfalso. eapply took_no_err. exact H.
    + split; [|split; [exact F1|auto]]. exists (map Took n1), (l1 ++ stdout_text abi_name (LineErr er :: t)). split; [exact E1|].
      split; [|discriminate]. constructor.
      * rewrite app_empty_s in T1. rewrite received_took, T1, !app_assoc_s. reflexivity.
      * intros pre s post H. exfalso. eapply took_no_err. exact H.
  - rewrite Hstep. cbn zeta. pose proof (write_lines_wrote pieces sk Hp (line_text abi_name ln) w Hc) as [(n1 & l1 & E1 & T1 & K1) F1 R1].
    destruct (write_lines pieces sk (line_text abi_name ln) w) as [w1 [|]]; cbn [fst snd] in *.
    + rewrite (K1 eq_refl), app_empty_s in T1. destruct (IH w1 (R1 Hc)) as ((new & lost & EL & [HT HO] & HS) & HF & HR). cbn [fst snd] in *.
      split; [|auto]. exists (map Took n1 ++ new)%list, lost. split; [rewrite EL, E1, app_assoc; reflexivity|]. split; [constructor|].
      * rewrite text_cons, <- app_assoc_s, T1, app_assoc_s, HT, received_app, received_took, !app_assoc_s. reflexivity.
      * intros pre s post H. apply err_in_rest in H. destruct H as (pre' & -> & H). destruct (HO _ _ _ H) as (l1' & er' & l2 & -> & -> & ETk & ECm & (q & ->)).
        exists (ln :: l1'), er', l2. split; [reflexivity|]. split; [reflexivity|]. rewrite received_app, received_took, ETk, complaints_app, complaints_took, ECm, text_cons.
        cbn [flat_map]. rewrite Hsil. cbn [List.app]. split; [rewrite <- !app_assoc_s, T1; reflexivity|]. split; [reflexivity|].
        exists (map Took n1 ++ q)%list. rewrite app_assoc. reflexivity.
      * intros Hok. destruct (HS Hok) as [Hl HC]. split; [exact Hl|]. rewrite complaints_app, complaints_took. cbn [flat_map]. rewrite Hsil. exact HC.
    + split; [|split; [exact F1|auto]]. exists (map Took n1), (l1 ++ stdout_text abi_name t). split; [exact E1|]. split; [|discriminate].
      constructor; [rewrite received_took, text_cons, <- app_assoc_s, T1, !app_assoc_s; reflexivity|]. intros pre s post H. exfalso. eapply took_no_err. exact H.
Qed.

(** ** sframedump *)

Lemma dump_rows_run_ok md e sf : forall k it,
  dump_rows k md e sf it =
    match snd (dump_rows_run k md e sf it) with Ok _ => Ok (fst (dump_rows_run k md e sf it)) | Err er => Err er | Panic => Panic end.
Proof.
  induction k as [|k IH]; intros it; [reflexivity|]. cbn [dump_rows dump_rows_run].
  destruct (fri_next md e it) as [[[[fr|er]|] it']|[]|]; try reflexivity.
  destruct (@dump_row fuel_error md sf fr) as [ln| |]; try reflexivity. cbn [bind]. rewrite IH. cbn [fst snd].
  destruct (snd (dump_rows_run k md e sf it')); reflexivity.
Qed.
Lemma dump_fde_run_ok md e sf idx en :
  dump_fde md e sf idx en =
    match snd (dump_fde_run md e sf idx en) with Ok _ => Ok (fst (dump_fde_run md e sf idx en)) | Err er => Err er | Panic => Panic end.
Proof.
  unfold dump_fde, dump_fde_run. cbn zeta. cbn [fst snd]. rewrite dump_rows_run_ok.
  destruct (snd (dump_rows_run (fri_fuel (fres en)) md e sf (fres en))); reflexivity.
Qed.
Lemma dump_fdes_run_ok md e sf : forall k idx it,
  dump_fdes k md e sf idx it =
    match snd (dump_fdes_run k md e sf idx it) with Ok _ => Ok (fst (dump_fdes_run k md e sf idx it)) | Err er => Err er | Panic => Panic end.
Proof.
  induction k as [|k IH]; intros idx it; [reflexivity|]. cbn [dump_fdes dump_fdes_run].
  destruct (fdi_next it) as [[en|] it']; [|reflexivity]. cbn zeta. rewrite dump_fde_run_ok.
  destruct (dump_fde_run md e sf idx en) as [l1 [u| |]]; cbn [fst snd bind]; try reflexivity. rewrite IH.
  destruct (snd (dump_fdes_run k md e sf (idx + 1) it')); reflexivity.
Qed.
Lemma dump_run_ok md e sf :
  dump md e sf = match snd (dump_run md e sf) with Ok _ => Ok (fst (dump_run md e sf)) | Err er => Err er | Panic => Panic end.
Proof.
  unfold dump, dump_run. cbn zeta. cbn [fst snd]. rewrite dump_fdes_run_ok.
  destruct (snd (dump_fdes_run _ md e sf 0 (fdes sf))); reflexivity.
Qed.

(** What standard output gets, for any lines [l] that the run prints. *)
Definition delivery (abi_name : Z -> string) (sk : sink) (l : list dump_line) (log : list seen) (x : exit) : Prop :=
  (exists lost, stdout_text abi_name l = received log ++ lost /\
     (x <> Failed -> (slen lost <= 8192)%Z /\ complaints log = flat_map line_stderr l) /\
     (lost <> "" \/ x = Failed -> refuses sk)) /\
  (forall pre s post, log = (pre ++ ErrLine s :: post)%list ->
    exists l1 er l2, l = (l1 ++ LineErr er :: l2)%list /\ s = "  error decoding FRE: " ++ read_error_text er /\
      received pre = stdout_text abi_name l1 /\ complaints pre = flat_map line_stderr l1 /\ just_flushed pre).

Lemma err_before_took (l : list string) : forall (a pre : list seen) s post,
  (a ++ map Took l)%list = (pre ++ ErrLine s :: post)%list ->
  exists post', a = (pre ++ ErrLine s :: post')%list.
Proof.
  induction a as [|y a IH]; intros pre s post H.
  - cbn [List.app] in H. exfalso. eapply took_no_err. exact H.
  - destruct pre as [|z pre]; cbn [List.app] in H.
    + injection H as -> H. exists a. reflexivity.
    + injection H as -> H. destruct (IH _ _ _ H) as (post' & ->). exists post'. reflexivity.
Qed.

Theorem sframedump_delivers abi_name pieces sk md native sf log x : cuts pieces ->
  snd (dump_run md native sf) <> Err OutOfFuel ->
  sframedump_io abi_name pieces sk md native sf = (log, x) ->
  delivery abi_name sk (fst (dump_run md native sf)) log x /\
  (x = Panicked -> dump md native sf = Panic) /\ (x = Succeeded -> dump md native sf = Ok (fst (dump_run md native sf))).
Proof.
  intros Hp Hfuel H. unfold sframedump_io in H. cbn zeta in H.
  assert (Hc : (slen (bw_buf bw_new) <= bw_capacity)%Z) by (cbv; discriminate).
  pose proof (write_dump_told abi_name pieces sk Hp (fst (dump_run md native sf)) bw_new Hc) as HW. cbn zeta in HW.
  rewrite dump_run_ok. set (l := fst (dump_run md native sf)) in *.
  destruct (write_dump abi_name pieces sk l bw_new) as [w ok]. cbn [fst snd] in *.
  destruct HW as ((new & lost & EL & [HT HO] & HS) & HF & HR). cbn [bw_new bw_log bw_buf List.app append] in EL, HT, HO.
  unfold bw_drop in H. destruct (flush_buf_wrote sk w) as ([(n2 & l2 & E2 & T2 & K2) F2 R2] & HE2 & _).
  destruct (flush_buf sk w) as [w2 ok2]. cbn [fst snd] in *.
  assert (Elog : log = (new ++ map Took n2)%list) by congruence.
  assert (Ex : x = if ok then match snd (dump_run md native sf) with Ok _ => Succeeded | Err _ => Failed | Panic => Panicked end else Failed) by congruence.
  clear H. rewrite app_empty_s in T2. split; [split|].
  - exists (bw_buf w2 ++ l2 ++ lost). split; [|split].
    + rewrite HT, T2, Elog, received_app, received_took, !app_assoc_s. reflexivity.
    + intros Hx. destruct ok; [|congruence]. destruct (HS eq_refl) as [-> HC]. rewrite app_empty_s. split.
      * assert (slen (bw_buf w) = slen (String.concat "" n2) + slen (bw_buf w2 ++ l2))%Z as HL by (rewrite T2, !slen_app; lia).
        pose proof (slen_nonneg (String.concat "" n2)). unfold bw_capacity in HR. lia.
      * rewrite Elog, complaints_app, complaints_took, app_nil_r. exact HC.
    + intros Hx. destruct ok; [|auto]. destruct ok2; [|auto]. exfalso.
      rewrite (HE2 eq_refl), (K2 eq_refl) in Hx. destruct (HS eq_refl) as [-> _]. cbn [append] in Hx.
      destruct Hx as [Hx|Hx]; [congruence|]. rewrite Ex in Hx. destruct (snd (dump_run md native sf)) as [|[]|]; congruence.
  - intros pre s post Hpre. rewrite Elog in Hpre. destruct (err_before_took _ _ _ _ _ Hpre) as (post' & Hnew).
    apply (HO pre s post' Hnew).
  - rewrite Ex. destruct ok; [|split; discriminate]. destruct (snd (dump_run md native sf)); split; congruence.
Qed.

Theorem loaded_fuel md e bs sf : wf_mode md -> rust_slice md bs -> load md e bs = Ok sf -> snd (dump_run md e sf) <> Err OutOfFuel.
Proof.
  intros Hm Hs HL H. pose proof (dump_run_ok md e sf) as HD. rewrite H in HD.
  destruct (dump_exact md e bs sf Hm Hs HL) as (_ & HX). destruct HX as (out & HX & _); congruence.
Qed.

(** Output that fits into the buffer. *)
Lemma write_all_fits sk s w : (slen (bw_buf w) + slen s < bw_capacity)%Z -> bw_write_all sk s w = (bw_append s w, true).
Proof. intros H. unfold bw_write_all. cbn zeta. destruct (Z.ltb_spec (slen s) (bw_capacity - slen (bw_buf w))); [reflexivity|lia]. Qed.
Lemma append_append a b w : bw_append b (bw_append a w) = bw_append (a ++ b) w.
Proof. unfold bw_append. cbn [bw_buf bw_calls bw_log]. rewrite app_assoc_s. reflexivity. Qed.
Lemma append_nothing w : bw_append "" w = w.
Proof. destruct w as [b c lg]. unfold bw_append. cbn [bw_buf bw_calls bw_log]. rewrite app_empty_s. reflexivity. Qed.
Lemma buf_append s w : bw_buf (bw_append s w) = bw_buf w ++ s.
Proof. reflexivity. Qed.
Lemma write_pieces_fits sk : forall l w, (slen (bw_buf w) + slen (String.concat "" l) < bw_capacity)%Z ->
  write_pieces sk l w = (bw_append (String.concat "" l) w, true).
Proof.
  induction l as [|p t IH]; intros w H; [cbn; rewrite append_nothing; reflexivity|]. rewrite scat_cons in H |- *. rewrite slen_app in H.
  pose proof (slen_nonneg (String.concat "" t)). cbn [write_pieces]. cbn zeta. rewrite write_all_fits by lia. cbn [fst snd].
  rewrite IH by (rewrite buf_append, slen_app; lia). rewrite append_append. reflexivity.
Qed.
Lemma write_lines_fits pieces sk : cuts pieces -> forall l w, (slen (bw_buf w) + slen (unlines l) < bw_capacity)%Z ->
  write_lines pieces sk l w = (bw_append (unlines l) w, true).
Proof.
  intros Hp. induction l as [|p t IH]; intros w H; [change (unlines []) with ""; rewrite append_nothing; reflexivity|].
  rewrite unlines_cons' in H |- *. rewrite slen_app in H. pose proof (slen_nonneg (unlines t)). cbn [write_lines]. cbn zeta.
  rewrite write_pieces_fits by (rewrite Hp; lia). rewrite Hp. cbn [fst snd].
  rewrite IH by (rewrite buf_append, slen_app; lia). rewrite append_append. reflexivity.
Qed.
Lemma write_dump_fits abi_name pieces sk : cuts pieces -> forall l w, Forall (fun ln => ~ undecodable ln) l ->
  (slen (bw_buf w) + slen (stdout_text abi_name l) < bw_capacity)%Z ->
  write_dump abi_name pieces sk l w = (bw_append (stdout_text abi_name l) w, true).
Proof.
  intros Hp. induction l as [|ln t IH]; intros w HF H; [change (stdout_text abi_name []) with ""; rewrite append_nothing; reflexivity|].
  inversion HF as [|? ? Hn Ht]; subst. rewrite text_cons, slen_app in H. pose proof (slen_nonneg (stdout_text abi_name t)).
  assert (Hs : write_dump abi_name pieces sk (ln :: t) w =
      (let r := write_lines pieces sk (line_text abi_name ln) w in if snd r then write_dump abi_name pieces sk t (fst r) else r)).
  { destruct ln; try reflexivity. exfalso. apply Hn. eexists. reflexivity. }
  rewrite Hs, text_cons. cbn zeta. rewrite write_lines_fits by (auto; lia). cbn [fst snd].
  rewrite IH; [|exact Ht|rewrite buf_append, slen_app; lia]. rewrite append_append. reflexivity.
Qed.

(** A program whose output is small and which meets no undecodable row succeeds,
    whatever becomes of its output. *)
Theorem small_dump_succeeds abi_name pieces sk md native sf l : cuts pieces -> dump md native sf = Ok l ->
  Forall (fun ln => ~ undecodable ln) l -> (slen (stdout_text abi_name l) < 8192)%Z ->
  exists log, sframedump_io abi_name pieces sk md native sf = (log, Succeeded) /\
    ((forall n s, sk_write sk n s = None) -> log = []).
Proof.
  intros Hp HD HF Hs. rewrite dump_run_ok in HD. unfold sframedump_io. cbn zeta.
  destruct (dump_run md native sf) as [l' [u| |]]; cbn [fst snd] in *; try discriminate. injection HD as ->.
  rewrite write_dump_fits; [|exact Hp|exact HF|exact Hs]. cbn [fst snd]. eexists. split; [reflexivity|].
  intros Hn. unfold bw_drop, flush_buf. cbn [flush_loop].
  set (w := bw_append (stdout_text abi_name l) bw_new). destruct (bw_buf w) eqn:Eb; [reflexivity|].
  unfold sink_write. rewrite Hn. reflexivity.
Qed.

(** ** The lines before a panic *)

Lemma dump_rows_run_panic md e sf : forall k it, snd (dump_rows_run k md e sf it) = Panic ->
  exists good it', fri_calls (List.length good) md e it = Ok (map (fun fr => Some (inl fr)) good, it') /\
    Forall2 (row_line md sf) good (fst (dump_rows_run k md e sf it)) /\
    (fri_next md e it' = Panic \/ exists fr it'', fri_next md e it' = Ok (Some (inl fr), it'') /\ @fre_start_address never md fr = Panic).
Proof.
  induction k as [|k IH]; intros it H; cbn [dump_rows_run] in *; [discriminate|].
  destruct (fri_next md e it) as [[[[fr|er]|] it']|er|] eqn:E; try discriminate; try contradiction.
  - destruct (@dump_row_cases md sf fuel_error fr) as [(ln & H1 & H2)|[H1 H2]]; rewrite H1 in *.
    + destruct (IH it' H) as (good & it2 & G1 & G2 & G3). exists (fr :: good), it2. split; [|split; [|exact G3]].
      * cbn [List.length fri_calls map]. rewrite E. cbn [bind fst snd]. rewrite G1. reflexivity.
      * constructor; assumption.
    + exists [], it. split; [reflexivity|]. split; [constructor|]. right. exists fr, it'. auto.
  - exists [], it. split; [reflexivity|]. split; [constructor|]. left. exact E.
Qed.

Lemma dump_fde_run_panic md e sf idx en : snd (dump_fde_run md e sf idx en) = Panic ->
  lines_till_panic md e sf en (tl (fst (dump_fde_run md e sf idx en))).
Proof.
  unfold dump_fde_run. cbn [fst snd tl]. intros H. rewrite H, app_nil_r.
  destruct (dump_rows_run_panic _ _ _ _ _ H) as (good & it & G1 & G2 & G3). eexists good, _, it. eauto.
Qed.

Lemma dump_fdes_run_panic md e sf fb : forall l fuel idx, wf_mode md -> Forall fde_ok l -> (List.length l < fuel)%nat ->
  snd (dump_fdes_run fuel md e sf idx (FdeIter l fb)) = Panic ->
  exists done f rest out start more, l = (done ++ f :: rest)%list /\ panics_in md e (entry_of fb f) /\
    all_func_lines md e sf idx (map (entry_of fb) done) out /\
    fst (dump_fdes_run fuel md e sf idx (FdeIter l fb)) = (out ++ LineFunc start (en_start_address (entry_of fb f)) (en_size (entry_of fb f)) :: more)%list /\
    start = (idx + Z.of_nat (List.length done))%Z /\ lines_till_panic md e sf (entry_of fb f) more.
Proof.
  induction l as [|f t IH]; intros fuel idx Hm Hok Hl; destruct fuel as [|k]; cbn [List.length] in Hl; try lia; cbn [dump_fdes_run].
  - discriminate.
  - unfold fdi_next. cbn [it_fdes it_fres]. inversion Hok as [|? ? Hf Ht]; subst. fold (entry_of fb f). cbn zeta.
    pose proof (dump_fde_run_ok md e sf idx (entry_of fb f)) as HR.
    destruct (dump_fde_cases md e sf idx (entry_of fb f) Hm Hf) as [(l1 & H1 & H2 & H3)|[H1 H2]]; rewrite H1 in HR.
    + destruct (dump_fde_run md e sf idx (entry_of fb f)) as [l1' [u| |]]; cbn [fst snd] in *; try discriminate. injection HR as <-.
      intros HP. destruct (IH k (idx + 1)%Z Hm Ht ltac:(lia) HP) as (done & g & rest & out & start & more & -> & HG & HA & HE & HS).
      exists (f :: done), g, rest, (l1 ++ out)%list, start, more. split; [reflexivity|]. split; [exact HG|]. split; [|split].
      * cbn [map]. exists l1, out. auto.
      * rewrite HE, <- app_assoc. reflexivity.
      * destruct HS as [HS HM]. split; [|exact HM]. rewrite HS. cbn [List.length]. lia.
    + intros _. exists [], f, t, [], idx, (tl (fst (dump_fde_run md e sf idx (entry_of fb f)))). split; [reflexivity|]. split; [exact H2|].
      split; [reflexivity|]. destruct (snd (dump_fde_run md e sf idx (entry_of fb f))) eqn:ES; [discriminate|discriminate|].
      split; [reflexivity|]. split; [cbn [List.length]; lia|]. apply dump_fde_run_panic, ES.
Qed.
