(** Proofs about dwarfdump's output, [println!] and the output file. *)
From Coq Require Import String Ascii Lia.
From Verif Require Export IoFacts V1Facts DdFacts LoudDump.
Local Open Scope string_scope.

(** ** dwarfdump *)

Lemma mute_dd_insns p m i is : mute (dd_dump_insns p m i is).
Proof.
  unfold dd_dump_insns. apply mute_bind; [destruct i; reflexivity|]. intros _. apply mute_insns. destruct i; reflexivity.
Qed.
Lemma mute_cie p m c : mute (cie_print p m c).
Proof.
  unfold cie_print. apply mute_bind.
  - apply mute_say. rewrite !stderr_app. destruct (ci_lsda c), (ci_personality c) as [[? ?]|], (ci_fde c); reflexivity.
  - intros _. apply mute_bind; [apply mute_dd_insns|reflexivity].
Qed.
Lemma mute_fde p md m o n ci f : mute (fde_print p md m o n ci f).
Proof.
  unfold fde_print. apply mute_bind; [reflexivity|]. intros _. destruct f as [f|g]; [|reflexivity].
  apply mute_bind; [reflexivity|]. intros _. apply mute_bind; [apply mute_quiet|]. intros e. apply mute_bind.
  - apply mute_say. destruct (dd_lsda f); reflexivity.
  - intros _. apply mute_bind; [apply mute_dd_insns|reflexivity].
Qed.
Lemma mute_dump_file p md file : mute (dump_file p md file).
Proof.
  unfold dump_file. cbn zeta. destruct (section_by_name _ _); [|reflexivity]. destruct (dd_parse file) as [p0|]; [|reflexivity].
  apply mute_bind; [reflexivity|]. intros _. set (en := dde_end _). generalize (dde_list (p0 (dwarfdump_setup md (elf_architecture (dd_elf file)) (elf_sections (dd_elf file))))).
  induction l as [|[c|o n ci f] t IH]; cbn [dd_entries_print].
  - destruct en; reflexivity.
  - apply mute_bind; [apply mute_cie|auto].
  - apply mute_bind; [apply mute_fde|auto].
Qed.

Theorem dwarfdump_delivers p pieces sk md path file log x : cuts pieces ->
  dwarfdump_io p pieces sk md path file = (log, x) ->
  let text := unlines (stdout_of (fst (dump_file p md file))) in
  let res := snd (dump_file p md file) in
  x <> Failed /\
  (exists lost, text = received log ++ lost /\ (lost <> "" -> refuses sk)) /\
  (x = Panicked -> res = Panic /\ complaints log = []) /\
  (x = Succeeded -> complaints log = [] -> res = Ok tt /\ received log = text /\ just_flushed log) /\
  (complaints log <> [] -> exists pre s, log = (pre ++ [ErrLine s])%list /\ complaints pre = [] /\
     ((s = io_message path /\ refuses sk) \/ (exists g, res = Err g /\ s = dd_message p path g))).
Proof.
  intros Hp H. cbn zeta. unfold dwarfdump_io in H. cbn zeta in H.
  assert (Hc : (slen (bw_buf bw_new) <= bw_capacity)%Z) by (cbv; discriminate).
  destruct (write_lines_wrote pieces sk Hp (stdout_of (fst (dump_file p md file))) bw_new Hc) as [(n1 & l1 & E1 & T1 & K1) F1 R1].
  destruct (write_lines pieces sk _ bw_new) as [w ok]. cbn [fst snd] in *. cbn [bw_new bw_log bw_buf List.app append] in E1, T1.
  set (text := unlines (stdout_of (fst (dump_file p md file)))) in *.
  (* the end of a run that is dropped *)
  assert (HD : forall w0 n0 l0 ok0, bw_log w0 = n0 -> complaints n0 = [] -> text = (received n0 ++ bw_buf w0) ++ l0 ->
    (ok0 = false -> refuses sk) -> (ok0 = true -> l0 = "") ->
    complaints (bw_log (bw_drop sk w0)) = [] /\ exists lost, text = received (bw_log (bw_drop sk w0)) ++ lost /\ (lost <> "" -> refuses sk)).
  { intros w0 n0 l0 ok0 En Cn Ht Hf Hk. unfold bw_drop.
    destruct (flush_buf_wrote sk w0) as ([(n2 & l2 & E2 & T2 & K2) F2 _] & HE & _).
    destruct (flush_buf sk w0) as [w2 ok2]. cbn [fst snd] in *. rewrite app_empty_s in T2. rewrite E2, En. split.
    - rewrite complaints_app, complaints_took, Cn. reflexivity.
    - exists (bw_buf w2 ++ l2 ++ l0). split; [rewrite Ht, T2, received_app, received_took, !app_assoc_s; reflexivity|].
      intros Hl. destruct ok2; [|auto]. destruct ok0; [|auto]. rewrite (HE eq_refl), (K2 eq_refl), (Hk eq_refl) in Hl. exfalso. apply Hl. reflexivity. }
  assert (HM : forall w0 n0 l0 ok0 msg, bw_log w0 = n0 -> complaints n0 = [] -> text = (received n0 ++ bw_buf w0) ++ l0 ->
    (ok0 = false -> refuses sk) -> (ok0 = true -> l0 = "") ->
    (bw_log (err_line ("Failed to dump '" ++ path ++ "': " ++ msg) (bw_drop sk w0)), Succeeded) = (log, x) ->
    ((msg = "IoError" /\ refuses sk) \/ (exists g, snd (dump_file p md file) = Err g /\ msg = "GimliError(" ++ pr_gimli_debug p g ++ ")")) ->
    x <> Failed /\ (exists lost, text = received log ++ lost /\ (lost <> "" -> refuses sk)) /\
    (x = Panicked -> snd (dump_file p md file) = Panic /\ complaints log = []) /\
    (x = Succeeded -> complaints log = [] -> snd (dump_file p md file) = Ok tt /\ received log = text /\ just_flushed log) /\
    (complaints log <> [] -> exists pre s, log = (pre ++ [ErrLine s])%list /\ complaints pre = [] /\
      ((s = io_message path /\ refuses sk) \/ (exists g, snd (dump_file p md file) = Err g /\ s = dd_message p path g)))).
  { intros w0 n0 l0 ok0 msg En Cn Ht Hf Hk HH Hmsg. destruct (HD w0 n0 l0 ok0 En Cn Ht Hf Hk) as (HC & lost & HL & HR).
    injection HH as <- <-. split; [discriminate|]. split; [|split; [discriminate|split]].
    - exists lost. cbn [err_line bw_log]. rewrite received_app. cbn [received]. rewrite app_empty_s. auto.
    - intros _. cbn [err_line bw_log]. rewrite complaints_app. cbn [complaints]. intros HX. apply app_eq_nil in HX. destruct HX; discriminate.
    - intros _. eexists. eexists. split; [reflexivity|]. split; [exact HC|]. destruct Hmsg as [(-> & Hr)|(g & Hg & ->)]; [left|right]; auto.
      exists g. auto. }
  assert (HB1 : complaints (bw_log w) = []) by (rewrite E1; apply complaints_took).
  assert (HB2 : text = (received (bw_log w) ++ bw_buf w) ++ l1) by (rewrite E1, received_took; exact T1).
  destruct ok.
  - destruct (snd (dump_file p md file)) as [u|g|] eqn:Er.
    + unfold bw_flush in H. cbn zeta in H. destruct (flush_buf_wrote sk w) as ([(n2 & l2 & E2 & T2 & K2) F2 _] & HE & _).
      destruct (flush_buf sk w) as [w2 ok2]. cbn [fst snd] in *. rewrite app_empty_s in T2. rewrite (K1 eq_refl), app_empty_s in HB2.
      assert (HB3 : complaints (bw_log w2) = []) by (rewrite E2, complaints_app, complaints_took, HB1; reflexivity).
      assert (HB4 : text = (received (bw_log w2) ++ bw_buf w2) ++ l2) by (rewrite HB2, T2, E2, received_app, received_took, !app_assoc_s; reflexivity).
      destruct ok2; cbn [fst snd] in *.
      * destruct (sk_flush sk (bw_calls w2)) eqn:Ef; cbn [fst snd] in *.
        -- unfold bw_drop in H. destruct (flush_buf_wrote sk {| bw_buf := bw_buf w2; bw_calls := S (bw_calls w2); bw_log := (bw_log w2 ++ [Flushed])%list |}) as (_ & _ & HN).
           rewrite HN in H by exact (HE eq_refl). cbn [fst bw_log] in H. injection H as <- <-. rewrite (HE eq_refl), (K2 eq_refl), !app_empty_s in HB4.
           assert (HR : received (bw_log w2 ++ [Flushed]) = text) by (rewrite received_app; cbn [received]; rewrite app_empty_s; auto).
           split; [discriminate|]. split; [exists ""; rewrite app_empty_s; split; [auto|congruence]|]. split; [discriminate|]. split.
           ++ intros _ _. destruct u. split; [reflexivity|]. split; [exact HR|]. eexists. reflexivity.
           ++ intros HX. exfalso. apply HX. rewrite complaints_app, HB3. reflexivity.
        -- eapply (HM _ _ l2 false "IoError"); [reflexivity| | | |discriminate|exact H|].
           ++ cbn [bw_log]. rewrite app_nil_r. exact HB3.
           ++ cbn [bw_log bw_buf]. rewrite app_nil_r. exact HB4.
           ++ intros _. right. eexists. exact Ef.
           ++ left. split; [reflexivity|]. right. eexists. exact Ef.
      * eapply (HM w2 _ l2 false "IoError"); [reflexivity|exact HB3|exact HB4|auto|discriminate|exact H|]. left. auto.
    + eapply (HM w _ l1 true); [reflexivity|exact HB1|exact HB2|discriminate|exact K1|exact H|]. right. exists g. auto.
    + destruct (HD w _ l1 true eq_refl HB1 HB2 ltac:(discriminate) K1) as (HC & HL). injection H as <- <-.
      split; [discriminate|]. split; [exact HL|]. split; [auto|]. split; [discriminate|]. intros HX. congruence.
  - eapply (HM w _ l1 false "IoError"); [reflexivity|exact HB1|exact HB2|exact F1|discriminate|exact H|]. left. auto.
Qed.

(** ** [println!] *)

(** [m] is [m0] with lines that may be refused. *)
Definition follows {E A} (P Q : string -> Prop) (er : E) (m : wired E A) (m0 : loud E A) : Prop :=
  forall sk n l n' o, m sk n = (l, n', o) -> outcome_of P Q er sk n (fst m0) (snd m0) l n' o.

Lemma follows_ret {E A} P Q (er : E) (o : outcome E A) : follows P Q er (wired_ret o) (quiet o).
Proof.
  intros sk n l n' r H. injection H as <- <- <-. cbn [fst snd quiet].
  replace n with (n + List.length (stdout_of []))%nat at 2 by (cbn; lia). apply all_lines. cbn. lia.
Qed.
Lemma follows_bind {E A B} P Q (er : E) (m : wired E A) m0 (k : A -> wired E B) k0 : follows P Q er m m0 ->
  (forall a, follows P Q er (k a) (k0 a)) -> follows P Q er (wired_bind m k) (lbind m0 k0).
Proof.
  intros Hm Hk sk n l n' o H. unfold wired_bind in H. destruct (m sk n) as [[l1 n1] o1] eqn:Em.
  specialize (Hm sk n l1 n1 o1 Em). inversion Hm as [Ht El En Eo|l' s rest r Ee Ht Hf Hr El En Eo]; subst.
  - unfold lbind. destruct (snd m0) as [a|e1|] eqn:Es.
    + destruct (k a sk (n + List.length (stdout_of (fst m0)))%nat) as [[l2 n2] o2] eqn:Ek. injection H as <- <- <-.
      cbn zeta. cbn [fst snd]. specialize (Hk a sk _ l2 n2 o2 Ek).
      inversion Hk as [Ht2 El En Eo|l' s rest r Ee2 Ht2 Hf2 Hr2 El En Eo]; subst.
      * replace (n + List.length (stdout_of (fst m0)) + List.length (stdout_of (fst (k0 a))))%nat with
          (n + List.length (stdout_of (fst m0 ++ fst (k0 a))))%nat by (rewrite stdout_app, app_length; lia).
        apply all_lines. intros j Hj. rewrite stdout_app, app_length in Hj.
        destruct (Nat.lt_ge_cases j (List.length (stdout_of (fst m0)))) as [Hlt|Hge]; [apply Ht, Hlt|].
        replace (n + j)%nat with (n + List.length (stdout_of (fst m0)) + (j - List.length (stdout_of (fst m0))))%nat by lia.
        apply Ht2. lia.
      * replace (n + List.length (stdout_of (fst m0)) + List.length (stdout_of l2))%nat with
          (n + List.length (stdout_of (fst m0 ++ l2)))%nat by (rewrite stdout_app, app_length; lia).
        apply cut_short with (s := s) (rest := rest).
        -- rewrite Ee2, <- app_assoc. reflexivity.
        -- intros j Hj. rewrite stdout_app, app_length in Hj.
           destruct (Nat.lt_ge_cases j (List.length (stdout_of (fst m0)))) as [Hlt|Hge]; [apply Ht, Hlt|].
           replace (n + j)%nat with (n + List.length (stdout_of (fst m0)) + (j - List.length (stdout_of (fst m0))))%nat by lia.
           apply Ht2. lia.
        -- rewrite stdout_app, app_length. rewrite Nat.add_assoc. exact Hf2.
        -- exact Hr2.
    + injection H as <- <- <-. cbn [fst snd]. apply all_lines. exact Ht.
    + injection H as <- <- <-. cbn [fst snd]. apply all_lines. exact Ht.
  - assert (HX : l = l1 /\ n' = S (n + List.length (stdout_of l1)) /\ ((o = Panic /\ P s) \/ (o = Err er /\ Q s))).
    { destruct Hr as [(-> & Hs)|(-> & Hs)]; injection H as <- <- <-; auto 6. }
    destruct HX as (-> & -> & Ho).
    assert (HE : exists rest', fst (lbind m0 k0) = (l1 ++ Out s :: rest')%list).
    { unfold lbind. destruct (snd m0); cbn [fst]; rewrite Ee; [|eexists; reflexivity|eexists; reflexivity].
      rewrite <- app_assoc. eexists. reflexivity. }
    destruct HE as (rest' & HE). apply cut_short with (s := s) (rest := rest'); assumption.
Qed.

Lemma emit_lines_spec sk : forall ev n l n' ok, emit_lines sk ev n = (l, n', ok) ->
  (ok = true /\ l = ev /\ n' = (n + List.length (stdout_of ev))%nat /\
     forall k, (k < List.length (stdout_of ev))%nat -> sk (n + k)%nat = true) \/
  (ok = false /\ exists s rest, ev = (l ++ Out s :: rest)%list /\ n' = S (n + List.length (stdout_of l)) /\
     (forall k, (k < List.length (stdout_of l))%nat -> sk (n + k)%nat = true) /\ sk (n + List.length (stdout_of l))%nat = false).
Proof.
  induction ev as [|[s|s] t IH]; intros n l n' ok H; cbn [emit_lines] in H.
  - injection H as <- <- <-. left. cbn. split; [reflexivity|]. split; [reflexivity|]. split; [lia|]. lia.
  - destruct (sk n) eqn:Es.
    + destruct (emit_lines sk t (S n)) as [[l1 n1] ok1] eqn:Ee. injection H as <- <- <-.
      assert (Hshift : forall m, (forall k, (k < m)%nat -> sk (S n + k)%nat = true) -> forall k, (k < S m)%nat -> sk (n + k)%nat = true).
      { intros m Hm [|k] Hk; [rewrite Nat.add_0_r; exact Es|]. replace (n + S k)%nat with (S n + k)%nat by lia. apply Hm. lia. }
      destruct (IH _ _ _ _ Ee) as [(-> & -> & -> & Ht)|(-> & s' & rest & -> & -> & Ht & Hf)]; [left|right]; split; try reflexivity.
      * cbn [stdout_of flat_map List.app List.length]. fold (stdout_of t). split; [reflexivity|]. split; [lia|]. apply Hshift, Ht.
      * exists s', rest. split; [reflexivity|]. cbn [stdout_of flat_map List.app List.length]. fold (stdout_of l1). split; [lia|].
        split; [apply Hshift, Ht|]. replace (n + S (List.length (stdout_of l1)))%nat with (S n + List.length (stdout_of l1))%nat by lia. exact Hf.
    + injection H as <- <- <-. right. split; [reflexivity|]. exists s, t. cbn. split; [reflexivity|]. split; [lia|]. split; [lia|].
      rewrite Nat.add_0_r. exact Es.
  - destruct (emit_lines sk t n) as [[l1 n1] ok1] eqn:Ee. injection H as <- <- <-.
    destruct (IH _ _ _ _ Ee) as [(-> & -> & -> & Ht)|(-> & s' & rest & -> & -> & Ht & Hf)]; [left|right]; split; try reflexivity.
    + split; [reflexivity|]. auto.
    + exists s', rest. auto.
Qed.
Lemma follows_wire {E A} P Q (er : E) failure (m : loud E A) :
  (forall s, In s (stdout_of (fst m)) -> (failure = Panic /\ P s) \/ (failure = Err er /\ Q s)) -> follows P Q er (wire failure m) m.
Proof.
  intros HF sk n l n' o H. unfold wire in H. destruct (emit_lines sk (fst m) n) as [[l1 n1] ok] eqn:Ee.
  destruct (emit_lines_spec sk _ _ _ _ _ Ee) as [(-> & -> & -> & Ht)|(-> & s & rest & He & -> & Ht & Hf)]; injection H as <- <- <-.
  - apply all_lines. exact Ht.
  - apply cut_short with (s := s) (rest := rest); try assumption. apply HF. rewrite He, stdout_app. apply in_or_app. right. left. reflexivity.
Qed.
Definition prints {E A} (P : string -> Prop) (m : loud E A) : Prop := forall s, In s (stdout_of (fst m)) -> P s.
Lemma follows_println {E A} P Q (er : E) (m : loud E A) : prints P m -> follows P Q er (by_println m) m.
Proof. intros H. apply follows_wire. auto. Qed.
Lemma follows_writeln {E A} P Q (er : E) (m : loud E A) : prints Q m -> follows P Q er (by_writeln er m) m.
Proof. intros H. apply follows_wire. auto. Qed.
Lemma follows_eq {E A} P Q (er : E) (m : wired E A) m0 m1 : follows P Q er m m0 -> m0 = m1 -> follows P Q er m m1.
Proof. intros H <-. exact H. Qed.
Lemma follows_weaken {E A} (P Q P' Q' : string -> Prop) (er : E) (m : wired E A) m0 : (forall s, P s -> P' s) -> (forall s, Q s -> Q' s) ->
  follows P Q er m m0 -> follows P' Q' er m m0.
Proof.
  intros HP HQ H sk n l n' o Hm. specialize (H sk n l n' o Hm). inversion H as [Ht El En Eo|l' s rest r Ee Ht Hf Hr El En Eo]; subst.
  - apply all_lines. exact Ht.
  - apply cut_short with (s := s) (rest := rest); try assumption. destruct Hr as [(-> & Hr)|(-> & Hr)]; auto.
Qed.

Lemma prints_quiet {E A} P (o : outcome E A) : prints P (quiet o).
Proof. intros s []. Qed.
Lemma prints_say {E} P l : Forall P (stdout_of l) -> prints P (@say E l).
Proof. intros H s Hs. rewrite Forall_forall in H. exact (H s Hs). Qed.
Lemma prints_bind {E A B} P (m : loud E A) (k : A -> loud E B) : prints P m -> (forall a, prints P (k a)) -> prints P (lbind m k).
Proof.
  intros H1 H2 s Hs. unfold lbind in Hs. destruct (snd m) as [a| |]; cbn zeta in Hs; cbn [fst] in Hs; [|auto|auto].
  rewrite stdout_app in Hs. apply in_app_or in Hs. destruct Hs; [auto|]. eapply H2. eassumption.
Qed.

Ltac frame_case := first
  [ left; reflexivity | right; left; reflexivity | right; right; left; reflexivity
  | right; right; right; left; eexists; reflexivity
  | right; right; right; right; left; eexists; reflexivity
  | right; right; right; right; right; left; eexists; reflexivity
  | right; right; right; right; right; right; left; eexists; reflexivity
  | right; right; right; right; right; right; right; eexists; reflexivity ].
Lemma prints_opening {E} md start len : prints (E := E) frame_line (
    let! _ := say [ Out "FDE:"; Out (" start_address: " ++ fmt_hex_alt_pad 64 10 start) ] in
    let! e := quiet (add_u64 md start len) in
    say [ Out ("    range_size: " ++ fmt_hex_alt_pad 64 10 len ++ " (end_addr = " ++ fmt_hex_alt_pad 64 10 e ++ ")") ]).
Proof.
  apply prints_bind; [apply prints_say|]; [|intros _; apply prints_bind; [apply prints_quiet|]; intros e; apply prints_say].
  - constructor; [frame_case|]. constructor; [frame_case|constructor].
  - constructor; [frame_case|constructor].
Qed.
Lemma prints_rows pr md op f : forall l b, prints frame_line (convert_rows_loud pr md op f l b).
Proof.
  induction l as [|r t IH]; intros b; cbn [convert_rows_loud]; [apply prints_quiet|]. apply prints_bind.
  - destruct (op_debugdump op); [|apply prints_say; constructor]. apply prints_say. unfold row_dump. cbn [stdout_of flat_map List.app].
    constructor; [frame_case|]. constructor; [frame_case|]. fold (stdout_of (map (fun p => Out ("    reg:    " ++ display_register pr (op_arch op) (fst p) ++ " = " ++ display_rule pr (op_arch op) (snd p))) (dr_regs r))).
    induction (dr_regs r) as [|q u IHu]; [constructor|]. cbn [map stdout_of flat_map List.app]. constructor; [frame_case|exact IHu].
  - intros _. destruct (dr_start r =? dr_end r)%Z; [apply IH|]. apply prints_bind; [apply prints_quiet|]. intros d.
    destruct (negb (row_start_ok d)); [apply prints_quiet|]. apply prints_bind; [apply prints_quiet|]. intros res. apply prints_bind.
    + destruct res; [apply prints_quiet| |apply prints_quiet]. apply prints_bind; [destruct (op_warnings op); apply prints_say; constructor|]. intros _. apply prints_quiet.
    + intros nr. destruct (fdb_row b nr); [apply IH|apply prints_quiet|apply prints_quiet].
Qed.

Lemma lbind_assoc {E A B C} (m : loud E A) (k : A -> loud E B) (h : B -> loud E C) :
  lbind (lbind m k) h = lbind m (fun a => lbind (k a) h).
Proof.
  unfold lbind. destruct (snd m) as [a| |]; try reflexivity. cbn zeta. cbn [fst snd].
  destruct (snd (k a)) as [b| |]; cbn [fst snd]; try reflexivity. rewrite app_assoc. reflexivity.
Qed.

Lemma convert_fde_follows gio pr md op s f :
  follows frame_line (fun s => In s (lines2 pr (op_arch op) (df_insns f))) (InvalidDwarfFde gio)
    (convert_fde_wired gio pr md op s f) (convert_fde_loud pr md op s f).
Proof.
  unfold convert_fde_wired, convert_fde_loud. apply follows_bind.
  - destruct (op_debugdump op); [|apply (follows_ret _ _ _ (Ok tt))].
    eapply follows_eq.
    + apply follows_bind; [apply follows_println, prints_opening|]. intros ?.
      apply follows_bind; [apply follows_writeln; intros x Hx; exact Hx|]. intros ?. apply follows_println.
      apply prints_say. constructor; [frame_case|]. constructor; [frame_case|constructor].
    + cbv beta. rewrite !lbind_assoc. f_equal.
  - intros ?. destruct (i32_max <? df_start f)%Z; [apply follows_ret|]. destruct (i32_max <? df_len f)%Z; [apply follows_ret|].
    cbn zeta. destruct (df_rows f) as [rows|g]; [|apply follows_ret]. apply follows_bind; [apply follows_println, prints_rows|]. intros b.
    destruct (rows_end rows); [apply follows_ret|]. apply follows_bind; [apply follows_ret|]. intros b'.
    apply follows_bind; [apply follows_ret|]. intros s'. apply follows_bind; [|intros ?; apply follows_ret].
    apply follows_println. destruct (op_debugdump op); apply prints_say; constructor; [frame_case|constructor].
Qed.
Lemma convert_entries_follows gio pr md op : forall l s,
  follows frame_line (insn_line (lines2 pr (op_arch op)) l) (InvalidDwarfFde gio)
    (convert_entries_wired gio pr md op l s) (convert_entries_loud pr md op l s).
Proof.
  induction l as [|[|g|f] t IH]; intros s; cbn [convert_entries_wired convert_entries_loud]; [apply follows_ret| |apply follows_ret|].
  - eapply follows_weaken; [| |apply IH]; auto.
  - apply follows_bind; [eapply follows_weaken; [| |apply convert_fde_follows]; auto|].
    + intros x Hx. exists f. split; [left; reflexivity|exact Hx].
    + intros s'. eapply follows_weaken; [| |apply IH]; auto. intros x (g & Hg & Hx). exists g. split; [right; exact Hg|exact Hx].
Qed.
Lemma dwarf2sframe_follows gio pr md op eh :
  follows frame_line (insn_line (lines2 pr (op_arch op)) (ents_list (eh_entries eh))) (InvalidDwarfFde gio)
    (dwarf2sframe_wired gio pr md op eh) (dwarf2sframe_loud pr md op eh).
Proof.
  unfold dwarf2sframe_wired, dwarf2sframe_loud. apply follows_bind; [apply convert_entries_follows|]. intros s.
  destruct (ents_end (eh_entries eh)); apply follows_ret.
Qed.
Lemma follows_err {E F A} P Q (g : E -> F) er (m : wired E A) m0 : follows P Q er m m0 -> follows P Q (g er) (wired_err g m) (loud_err g m0).
Proof.
  intros H sk n l n' o Hm. unfold wired_err in Hm. destruct (m sk n) as [[l1 n1] o1] eqn:Em. injection Hm as <- <- <-.
  specialize (H sk n l1 n1 o1 Em). inversion H as [Ht El En Eo|l' s rest r Ee Ht Hf Hr El En Eo]; subst.
  - apply (all_lines P Q (g er) sk n (fst (loud_err g m0)) (snd (loud_err g m0))). exact Ht.
  - apply cut_short with (s := s) (rest := rest); try assumption. destruct Hr as [(-> & Hr)|(-> & Hr)]; [left|right]; auto.
Qed.
Theorem main2_follows gio pr md args input :
  follows frame_line (main2_line pr md input) (ToolConvert (InvalidDwarfFde gio))
    (dwarf2sframe2_main_wired gio pr md args input) (dwarf2sframe2_main_loud pr md args input).
Proof.
  unfold dwarf2sframe2_main_wired, dwarf2sframe2_main_loud. destruct input as [file|]; [|apply follows_ret]. cbn zeta.
  apply follows_bind; [apply follows_ret|]. intros a. destruct (section_by_name _ _); [|apply follows_ret].
  destruct (elf_eh_frame file) as [parse|] eqn:Ep; [|apply follows_ret]. apply follows_bind.
  - eapply follows_weaken; [| |apply follows_err, dwarf2sframe_follows]; [auto|]. intros s H. exists (op_arch (cli_options args a (elf_endian file))).
    unfold entries_in. rewrite Ep. exact H.
  - intros s. apply follows_bind; [apply follows_ret|]. intros bs. apply follows_ret.
Qed.
Theorem main2_loud_result pr md args input : snd (dwarf2sframe2_main_loud pr md args input) = dwarf2sframe2_main md args input.
Proof.
  unfold dwarf2sframe2_main_loud, dwarf2sframe2_main. destruct input as [file|]; [|reflexivity]. cbn zeta. rewrite snd_lbind. cbn [snd quiet].
  destruct (match elf_architecture file with ElfX86_64 => Ok Amd64 | ElfAarch64 => Ok Aarch64 | _ => Err ToolUnsupportedArch end) as [a| |]; cbn [bind]; try reflexivity.
  destruct (section_by_name _ _); [|reflexivity]. destruct (elf_eh_frame file); [|reflexivity]. rewrite snd_lbind.
  cbn [loud_err snd]. rewrite loud_result.
  destruct (map_err ToolConvert _) as [s| |]; cbn [bind]; try reflexivity. rewrite snd_lbind. cbn [snd quiet].
  destruct (map_err ToolBuild _) as [bs| |]; reflexivity.
Qed.
Theorem main2_silent pr md args input : ca_debug_dump args = false -> stdout_of (fst (dwarf2sframe2_main_loud pr md args input)) = [].
Proof.
  intros Hd. assert (HB : forall E A B (m : loud E A) (k : A -> loud E B), stdout_of (fst m) = [] -> (forall a, stdout_of (fst (k a)) = []) -> stdout_of (fst (lbind m k)) = []).
  { intros E A B m k H1 H2. unfold lbind. destruct (snd m); cbn zeta; cbn [fst]; [rewrite stdout_app, H1, H2; reflexivity|exact H1|exact H1]. }
  unfold dwarf2sframe2_main_loud. destruct input as [file|]; [|reflexivity]. cbn zeta. apply HB; [reflexivity|]. intros a.
  destruct (section_by_name _ _); [|reflexivity]. destruct (elf_eh_frame file); [|reflexivity]. apply HB.
  - cbn [loud_err fst]. destruct (dwarf2sframe_loud pr md (cli_options args a (elf_endian file)) _) as [ev o] eqn:Ed. eapply dump_off; [|exact Ed].
    destruct args. exact Hd.
  - intros s. apply HB; reflexivity.
Qed.

Ltac frame1_case := first [ left; frame_case | right; left; eexists; reflexivity | right; right; eexists; reflexivity ].
Lemma prints_impl {E A} (P P' : string -> Prop) (m : loud E A) : (forall s, P s -> P' s) -> prints P m -> prints P' m.
Proof. intros H HP s Hs. auto. Qed.
Lemma prints_or_panic {E A} P (o : option A) : prints P (@or_panic E A o).
Proof. apply prints_quiet. Qed.
Lemma prints_row1 {E} p m r : prints frame_line1 (@v1_row_print E p m r).
Proof.
  unfold v1_row_print. apply prints_bind; [apply prints_say; constructor; [frame1_case|constructor]|]. intros _.
  apply prints_bind; [apply prints_or_panic|]. intros c. apply prints_bind; [apply prints_say; constructor; [frame1_case|constructor]|]. intros _.
  induction (dr_regs r) as [|[reg rule] t IH]; cbn [v1_regs_print]; [apply prints_say; constructor|]. apply prints_bind; [apply prints_or_panic|].
  intros s. apply prints_bind; [apply prints_say; constructor; [frame1_case|constructor]|]. auto.
Qed.
Lemma prints_translate p m b start r : prints frame_line1 (v1_translate_loud p m b start r).
Proof.
  unfold v1_translate_loud. apply prints_bind; [apply prints_quiet|]. intros cfa. apply prints_bind; [apply prints_quiet|]. intros _. apply prints_bind.
  - destruct (dr_register r 6); try apply prints_quiet;
      (apply prints_bind; [apply prints_or_panic|]; intros s; apply prints_bind; [apply prints_say; constructor|]; intros _; apply prints_quiet).
  - intros fp. apply prints_bind.
    + destruct (dr_register r 16); try apply prints_quiet; (apply prints_bind; [apply prints_or_panic|]; intros s; apply prints_quiet).
    + intros ra. cbn zeta. apply prints_bind; [apply prints_say; constructor; [frame1_case|constructor]|]. intros _. apply prints_quiet.
Qed.
Lemma prints_rows1 p m md f : forall l b, prints frame_line1 (v1_rows_loud p m md f l b).
Proof.
  induction l as [|r t IH]; intros b; cbn [v1_rows_loud]; [apply prints_quiet|]. apply prints_bind; [apply prints_quiet|]. intros d.
  destruct (negb (row_start_ok d)); [apply prints_quiet|]. apply prints_bind; [apply prints_row1|]. intros _. apply prints_bind; [|auto].
  unfold v1_add_row_loud. cbn zeta. pose proof (prints_translate p m b d r) as HT. destruct (v1_translate_loud p m b d r) as [ev [b'|ch|]]; cbn [fst snd]; try exact HT.
  intros s Hs. cbn [fst] in Hs. rewrite stdout_app in Hs. apply in_app_or in Hs. destruct Hs as [Hs|[]]. exact (HT s Hs).
Qed.
Lemma v1_fde_follows gio p m md s f : follows frame_line1 (fun s => In s (lines1 p (df_insns f))) (V1Dump gio) (v1_fde_wired gio p m md s f) (v1_fde_loud p m md s f).
Proof.
  unfold v1_fde_wired, v1_fde_loud. destruct (i32_max <? df_start f)%Z; [apply follows_ret|]. destruct (i32_max <? df_len f)%Z; [apply follows_ret|].
  cbn zeta. destruct (df_rows f) as [rows|g]; [|apply follows_ret]. eapply follows_eq.
  - apply follows_bind; [apply follows_println; eapply prints_impl; [|apply prints_opening]; intros x Hx; left; exact Hx|]. intros ?.
    apply follows_bind; [apply follows_writeln; intros x Hx; exact Hx|]. intros ?.
    apply follows_bind; [apply follows_println; apply prints_say; constructor; [frame1_case|]; constructor; [frame1_case|constructor]|]. intros ?.
    apply follows_bind; [apply follows_println, prints_rows1|]. intros b.
    instantiate (1 := fun b => match rows_end rows with
        | Some g => quiet (Err (V1NextRow g))
        | None => let! b := quiet (map_err (fun _ => V1OutOfFuel) (merge_adjacent_fres b)) in
            let! s' := quiet (lift (sfb_fde s b)) in let! _ := say [ Out "" ] in quiet (Ok s') end). cbv beta.
    destruct (rows_end rows); [apply follows_ret|]. apply follows_bind; [apply follows_ret|]. intros b'.
    apply follows_bind; [apply follows_ret|]. intros s'.
    apply follows_bind; [apply follows_println, prints_say; constructor; [frame1_case|constructor]|]. intros ?. apply follows_ret.
  - cbv beta. rewrite !lbind_assoc. reflexivity.
Qed.
Lemma v1_entries_follows gio p m md : forall l s,
  follows frame_line1 (insn_line (lines1 p) l) (V1Dump gio) (v1_entries_wired gio p m md l s) (v1_entries_loud p m md l s).
Proof.
  induction l as [|[|g|f] t IH]; intros s; cbn [v1_entries_wired v1_entries_loud]; [apply follows_ret| |apply follows_ret|].
  - eapply follows_weaken; [| |apply IH]; auto.
  - apply follows_bind; [eapply follows_weaken; [| |apply v1_fde_follows]; auto|].
    + intros x Hx. exists f. split; [left; reflexivity|exact Hx].
    + intros s'. eapply follows_weaken; [| |apply IH]; auto. intros x (g & Hg & Hx). exists g. split; [right; exact Hg|exact Hx].
Qed.
Lemma prints_sections {E} l : prints frame_line1 (@say E (sections_print l)).
Proof.
  apply prints_say. unfold sections_print, section_line. rewrite !stdout_app.
  repeat (apply Forall_app; split); destruct (section_by_name _ l); constructor; try frame1_case; constructor.
Qed.
Theorem main1_follows gio p md native input :
  follows frame_line1 (insn_line (lines1 p) (entries_in md input)) (V1Dump gio) (v1_main_wired gio p md native input) (v1_main_loud p md native input).
Proof.
  unfold v1_main_wired, v1_main_loud. destruct input as [file|]; [|apply follows_ret]. destruct (section_by_name _ _); [|apply follows_ret].
  destruct (elf_eh_frame file) as [parse|] eqn:Ep; [|apply follows_ret]. apply follows_bind; [apply follows_println, prints_sections|]. intros ?. apply follows_bind.
  - unfold v1_convert_wired, v1_convert_loud. apply follows_bind.
    + unfold entries_in. rewrite Ep. apply v1_entries_follows.
    + intros s. destruct (ents_end _); apply follows_ret.
  - intros s. apply follows_bind; [apply follows_ret|]. intros bs. apply follows_ret.
Qed.

(** ** The output file *)

Theorem finish_file {E} emit fw before (r : outcome E out_file) after x : finish emit fw before r = (after, x) ->
  (x = Succeeded -> exists o data, r = Ok o /\ emit o = Some data /\ after = Some data) /\
  (x <> Succeeded -> after = before \/
     exists o data part, r = Ok o /\ emit o = Some data /\ after = Some part /\ starts part data /\ part <> data /\
       fw_open fw = true /\ exists n, fw_room fw = Some n /\ (n < List.length data)%nat) /\
  ((forall o, r <> Ok o) -> after = before /\ x <> Succeeded).
Proof.
  unfold finish. destruct r as [o|e|].
  2,3: intros [= <- <-]; split; [discriminate|]; split; [auto|]; intros _; split; [reflexivity|discriminate].
  destruct (emit o) as [data|] eqn:Ee.
  2:{ intros [= <- <-]. split; [discriminate|]. split; [auto|]. intros H. exfalso. exact (H o eq_refl). }
  cbn zeta. unfold fs_write. intros H. assert (HN : (forall o0, Ok o <> @Ok E out_file o0) -> after = before /\ x <> Succeeded)
    by (intros HH; exfalso; exact (HH o eq_refl)).
  destruct (fw_open fw) eqn:Eo; cbn [fst snd] in H.
  2:{ injection H as <- <-. split; [discriminate|]. split; [auto|exact HN]. }
  destruct (fw_room fw) as [n|] eqn:Er; [destruct (Nat.ltb_spec n (List.length data)) as [Hlt|Hge]|]; cbn [fst snd] in H; injection H as <- <-.
  - split; [discriminate|]. split; [|exact HN]. intros _. right. exists o, data, (firstn n data). split; [reflexivity|]. split; [exact Ee|].
    split; [reflexivity|]. split; [exists (skipn n data); symmetry; apply firstn_skipn|]. split; [|split; [reflexivity|exists n; auto]].
    intros HX. apply (f_equal (@List.length byte)) in HX. rewrite firstn_length in HX. lia.
  - split; [|split; [congruence|exact HN]]. intros _. exists o, data. auto.
  - split; [|split; [congruence|exact HN]]. intros _. exists o, data. auto.
Qed.

(** ** As stated *)

Theorem main2_exact gio pr md args input sk l n o :
  dwarf2sframe2_main_wired gio pr md args input sk 0%nat = (l, n, o) ->
  outcome_of frame_line (main2_line pr md input) (ToolConvert (InvalidDwarfFde gio)) sk 0
    (fst (dwarf2sframe2_main_loud pr md args input)) (dwarf2sframe2_main md args input) l n o.
Proof. intros H. rewrite <- (main2_loud_result pr). apply main2_follows. exact H. Qed.
Theorem main1_exact gio p md native input sk l n o :
  v1_main_wired gio p md native input sk 0%nat = (l, n, o) ->
  outcome_of frame_line1 (insn_line (lines1 p) (entries_in md input)) (V1Dump gio) sk 0
    (fst (v1_main_loud p md native input)) (snd (v1_main_loud p md native input)) l n o.
Proof. intros H. apply main1_follows. exact H. Qed.
Theorem main2_unaffected gio pr md args input sk : ca_debug_dump args = false ->
  snd (dwarf2sframe2_main_wired gio pr md args input sk 0%nat) = dwarf2sframe2_main md args input.
Proof.
  intros Hd. destruct (dwarf2sframe2_main_wired gio pr md args input sk 0%nat) as [[l n] o] eqn:Em.
  pose proof (main2_exact gio pr md args input sk l n o Em) as H. inversion H as [Ht El En Eo|l' s rest r Ee Ht Hf Hr El En Eo]; subst; [reflexivity|].
  pose proof (main2_silent pr md args input Hd) as HS. rewrite Ee, stdout_app in HS. apply app_eq_nil in HS. destruct HS; discriminate.
Qed.
