(** Proofs about output with repairs. *)
From Coq Require Import String Ascii Lia.
From Verif Require Export IoRepaired IoWitness.
Local Open Scope string_scope.

(** ** sframedump *)

Theorem as_is_sframedump abi_name pieces sk md native sf :
  sframedump_io_with false abi_name pieces sk md native sf = sframedump_io abi_name pieces sk md native sf.
Proof.
  unfold sframedump_io_with, sframedump_io. cbn zeta.
  destruct (snd (write_dump abi_name pieces sk (fst (dump_run md native sf)) bw_new)), (snd (dump_run md native sf)); reflexivity.
Qed.

Lemma received_flush l : received (l ++ [Flushed]) = received l.
Proof. rewrite received_app. cbn [received]. apply app_empty_s. Qed.

Theorem flushed_dump abi_name pieces sk md native bs sf l log x :
  wf_mode md -> rust_slice md bs -> load md native bs = Ok sf -> cuts pieces ->
  dump md native sf = Ok l -> sframedump_io_with true abi_name pieces sk md native sf = (log, x) ->
  (x = Succeeded -> received log = stdout_text abi_name l /\ complaints log = flat_map line_stderr l /\ just_flushed log) /\
  (x <> Succeeded -> x = Failed /\ refuses sk) /\
  exists lost, stdout_text abi_name l = received log ++ lost.
Proof.
  intros Hm Hs HL Hp HD H. unfold sframedump_io_with in H. cbn zeta in H.
  rewrite dump_run_ok in HD. destruct (dump_run md native sf) as [l' [u| |]] eqn:Er; cbn [fst snd] in *; try discriminate. injection HD as ->.
  assert (Hc : (slen (bw_buf bw_new) <= bw_capacity)%Z) by (cbv; discriminate).
  pose proof (write_dump_told abi_name pieces sk Hp l bw_new Hc) as HW. cbn zeta in HW.
  destruct (write_dump abi_name pieces sk l bw_new) as [w ok]. cbn [fst snd] in *.
  destruct HW as ((new & lost & EL & [HT _] & HS) & HF & _). cbn [bw_new bw_log bw_buf List.app append] in EL, HT.
  (* dropping a buffer loses at most its end *)
  assert (HDrop : forall w0 rest, stdout_text abi_name l = (received (bw_log w0) ++ bw_buf w0) ++ rest ->
    exists lost', stdout_text abi_name l = received (bw_log (bw_drop sk w0)) ++ lost').
  { intros w0 rest Ht. unfold bw_drop. destruct (flush_buf_wrote sk w0) as ([(n2 & l2 & E2 & T2 & _) _ _] & _).
    destruct (flush_buf sk w0) as [w2 ok2]. cbn [fst snd] in *. rewrite app_empty_s in T2.
    exists (bw_buf w2 ++ l2 ++ rest). rewrite Ht, T2, E2, received_app, received_took, !app_assoc_s. reflexivity. }
  assert (HT0 : stdout_text abi_name l = (received (bw_log w) ++ bw_buf w) ++ lost) by (rewrite EL, HT, !app_assoc_s; reflexivity).
  destruct ok; cbn [fst snd] in *.
  2:{ injection H as <- <-. split; [discriminate|]. split; [auto|]. eapply HDrop. exact HT0. }
  destruct (HS eq_refl) as [-> HC]. rewrite app_empty_s in HT0. unfold bw_flush in H. cbn zeta in H.
  destruct (flush_buf_wrote sk w) as ([(n2 & l2 & E2 & T2 & K2) F2 _] & HE & _).
  destruct (flush_buf sk w) as [w2 ok2]. cbn [fst snd] in *. rewrite app_empty_s in T2.
  assert (HT1 : stdout_text abi_name l = (received (bw_log w2) ++ bw_buf w2) ++ l2) by (rewrite HT0, T2, E2, received_app, received_took, !app_assoc_s; reflexivity).
  destruct ok2; cbn [fst snd] in *.
  2:{ injection H as <- <-. split; [discriminate|]. split; [auto|]. eapply HDrop. exact HT1. }
  rewrite (HE eq_refl), (K2 eq_refl), !app_empty_s in HT1.
  destruct (sk_flush sk (bw_calls w2)) eqn:Ef; cbn [fst snd] in *.
  - unfold bw_drop in H. match type of H with context [flush_buf sk ?x] => destruct (flush_buf_wrote sk x) as (_ & _ & HN); rewrite HN in H by exact (HE eq_refl) end.
    cbn [fst bw_log] in H. injection H as <- <-. split; [|split; [congruence|]].
    + intros _. split; [rewrite received_flush; auto|]. split; [|eexists; reflexivity].
      rewrite E2, !complaints_app, complaints_took, EL. cbn [complaints]. rewrite !app_nil_r. exact HC.
    + exists "". rewrite app_empty_s, received_flush. exact HT1.
  - injection H as <- <-. split; [discriminate|]. split; [intros _; split; [reflexivity|]; right; eexists; exact Ef|].
    eapply HDrop. cbn [bw_log bw_buf]. rewrite app_nil_r, (HE eq_refl), app_empty_s. rewrite <- app_empty_s at 1. rewrite HT1. reflexivity.
Qed.

(** ** dwarfdump *)

Theorem as_is_dwarfdump p pieces sk md path file :
  dwarfdump_io_with false p pieces sk md path file = dwarfdump_io p pieces sk md path file.
Proof. unfold dwarfdump_io_with. destruct (dwarfdump_io p pieces sk md path file) as [log []]; reflexivity. Qed.

Lemma complains_iff l : existsb (fun e => match e with ErrLine _ => true | _ => false end) l = true <-> complaints l <> [].
Proof.
  induction l as [|[s| |s] t IH]; cbn [existsb complaints orb]; [|exact IH|exact IH|].
  - split; congruence.
  - split; [discriminate|reflexivity].
Qed.
Theorem status_dwarfdump p pieces sk md path file log x :
  cuts pieces -> dwarfdump_io_with true p pieces sk md path file = (log, x) ->
  let text := unlines (stdout_of (fst (dump_file p md file))) in
  let res := snd (dump_file p md file) in
  (x = Succeeded <-> res = Ok tt /\ received log = text /\ complaints log = []) /\
  (x = Succeeded -> just_flushed log) /\
  (x = Panicked -> res = Panic) /\
  (x = Failed -> refuses sk \/ exists g, res = Err g).
Proof.
  intros Hp H. cbn zeta. unfold dwarfdump_io_with in H. destruct (dwarfdump_io p pieces sk md path file) as [log0 x0] eqn:Ed. cbn [fst snd] in H.
  pose proof (dwarfdump_delivers p pieces sk md path file log0 x0 Hp Ed) as HD. cbn zeta in HD. destruct HD as (Hx & _ & HP & HS & HC).
  injection H as <- <-. destruct x0; [|congruence|].
  2:{ destruct (HP eq_refl) as [HP1 _]. rewrite HP1. split; [split; [discriminate|intros (HX & _); discriminate]|]. repeat split; discriminate || auto. }
  destruct (existsb _ log0) eqn:Ee; cbn [andb].
  - assert (Hc : complaints log0 <> []) by (apply complains_iff; exact Ee). destruct (HC Hc) as (pre & s & _ & _ & HR).
    split; [split; [discriminate|intros (_ & _ & HX); congruence]|]. split; [discriminate|]. split; [discriminate|]. intros _.
    destruct HR as [(_ & HR)|(g & Hg & _)]; [left; exact HR|right; exists g; exact Hg].
  - assert (Hc : complaints log0 = []).
    { destruct (complaints log0) eqn:E0; [reflexivity|]. assert (HX : complaints log0 <> []) by (rewrite E0; discriminate). apply complains_iff in HX. congruence. }
    destruct (HS eq_refl Hc) as (HR & HT & HF). split; [split; auto|]. split; [auto|]. split; discriminate.
Qed.

(** ** Lines *)

Lemma lerr_bind {E F A B} (g : E -> F) (m : loud E A) (k : A -> loud E B) :
  loud_err g (lbind m k) = lbind (loud_err g m) (fun a => loud_err g (k a)).
Proof. unfold loud_err, lbind. destruct m as [l [a|er|]]; reflexivity. Qed.

(** The run [m0] with every refusal reported as such. *)
Definition told_apart {E A} (m : wired (io_error E) A) (m0 : loud E A) : Prop :=
  follows (fun _ => False) (fun _ => True) IoFailed m (loud_err NotIo m0).
Lemma apart_ret {E A} (o : outcome E A) : told_apart (ret_with o) (quiet o).
Proof. apply (follows_ret _ _ IoFailed (map_err NotIo o)). Qed.
Lemma apart_bind {E A B} (m : wired (io_error E) A) m0 (k : A -> wired (io_error E) B) k0 : told_apart m m0 ->
  (forall a, told_apart (k a) (k0 a)) -> told_apart (wired_bind m k) (lbind m0 k0).
Proof. intros Hm Hk. unfold told_apart. rewrite lerr_bind. apply follows_bind; [exact Hm|exact Hk]. Qed.
Lemma apart_println {E A} (m : loud E A) : told_apart (println_with io_all_repairs m) m.
Proof. apply follows_wire. intros s _. right. auto. Qed.
Lemma apart_writeln {E A} (er : E) (m : loud E A) : told_apart (writeln_with io_all_repairs er m) m.
Proof. apply follows_wire. intros s _. right. auto. Qed.
Lemma apart_eq {E A} (m : wired (io_error E) A) m0 m1 : told_apart m m0 -> m0 = m1 -> told_apart m m1.
Proof. intros H <-. exact H. Qed.
Lemma apart_err {E F A} (g : E -> F) (m : wired (io_error E) A) m0 : told_apart m m0 -> told_apart (wired_err (in_io g) m) (loud_err g m0).
Proof.
  intros H. pose proof (follows_err _ _ (in_io g) _ _ _ H) as HF. cbn [in_io] in HF. unfold told_apart.
  replace (loud_err NotIo (loud_err g m0)) with (loud_err (in_io g) (loud_err NotIo m0)); [exact HF|].
  destruct m0 as [l [a|er|]]; reflexivity.
Qed.

Lemma convert_fde_apart gio pr md op s f : told_apart (convert_fde_wired_with io_all_repairs gio pr md op s f) (convert_fde_loud pr md op s f).
Proof.
  unfold convert_fde_wired_with, convert_fde_loud. apply apart_bind.
  - destruct (op_debugdump op); [|apply (apart_ret (Ok tt))].
    eapply apart_eq.
    + apply apart_bind; [apply apart_println|]. intros ?. apply apart_bind; [apply apart_writeln|]. intros ?. apply apart_println.
    + cbv beta. rewrite !lbind_assoc. f_equal.
  - intros ?. destruct (i32_max <? df_start f)%Z; [apply apart_ret|]. destruct (i32_max <? df_len f)%Z; [apply apart_ret|].
    cbn zeta. destruct (df_rows f) as [rows|g]; [|apply apart_ret]. apply apart_bind; [apply apart_println|]. intros b.
    destruct (rows_end rows); [apply apart_ret|]. apply apart_bind; [apply apart_ret|]. intros b'.
    apply apart_bind; [apply apart_ret|]. intros s'. apply apart_bind; [apply apart_println|]. intros ?; apply apart_ret.
Qed.
Lemma convert_entries_apart gio pr md op : forall l s,
  told_apart (convert_entries_wired_with io_all_repairs gio pr md op l s) (convert_entries_loud pr md op l s).
Proof.
  induction l as [|[|g|f] t IH]; intros s; cbn [convert_entries_wired_with convert_entries_loud]; [apply apart_ret|apply IH|apply apart_ret|].
  apply apart_bind; [apply convert_fde_apart|exact IH].
Qed.
Lemma main2_apart gio pr md args input :
  told_apart (dwarf2sframe2_main_wired_with io_all_repairs gio pr md args input) (dwarf2sframe2_main_loud pr md args input).
Proof.
  unfold dwarf2sframe2_main_wired_with, dwarf2sframe2_main_loud. destruct input as [file|]; [|apply apart_ret]. cbn zeta.
  apply apart_bind; [apply apart_ret|]. intros a. destruct (section_by_name _ _); [|apply apart_ret].
  destruct (elf_eh_frame file) as [parse|] eqn:Ep; [|apply apart_ret]. apply apart_bind.
  - apply apart_err. unfold dwarf2sframe_wired_with, dwarf2sframe_loud. apply apart_bind; [apply convert_entries_apart|]. intros s.
    destruct (ents_end _); apply apart_ret.
  - intros s. apply apart_bind; [apply apart_ret|]. intros bs. apply apart_ret.
Qed.
Lemma v1_fde_apart gio p m md s f : told_apart (v1_fde_wired_with io_all_repairs gio p m md s f) (v1_fde_loud p m md s f).
Proof.
  unfold v1_fde_wired_with, v1_fde_loud. destruct (i32_max <? df_start f)%Z; [apply apart_ret|]. destruct (i32_max <? df_len f)%Z; [apply apart_ret|].
  cbn zeta. destruct (df_rows f) as [rows|g]; [|apply apart_ret]. eapply apart_eq.
  - apply apart_bind; [apply apart_println|]. intros ?.
    apply apart_bind; [apply apart_writeln|]. intros ?.
    apply apart_bind; [apply apart_println|]. intros ?.
    apply apart_bind; [apply apart_println|]. intros b.
    instantiate (1 := fun b => match rows_end rows with
        | Some g => quiet (Err (V1NextRow g))
        | None => let! b := quiet (map_err (fun _ => V1OutOfFuel) (merge_adjacent_fres b)) in
            let! s' := quiet (lift (sfb_fde s b)) in let! _ := say [ Out "" ] in quiet (Ok s') end). cbv beta.
    destruct (rows_end rows); [apply apart_ret|]. apply apart_bind; [apply apart_ret|]. intros b'.
    apply apart_bind; [apply apart_ret|]. intros s'. apply apart_bind; [apply apart_println|]. intros ?. apply apart_ret.
  - cbv beta. rewrite !lbind_assoc. reflexivity.
Qed.
Lemma v1_entries_apart gio p m md : forall l s,
  told_apart (v1_entries_wired_with io_all_repairs gio p m md l s) (v1_entries_loud p m md l s).
Proof.
  induction l as [|[|g|f] t IH]; intros s; cbn [v1_entries_wired_with v1_entries_loud]; [apply apart_ret|apply IH|apply apart_ret|].
  apply apart_bind; [apply v1_fde_apart|exact IH].
Qed.
Lemma main1_apart gio p md native input :
  told_apart (v1_main_wired_with io_all_repairs gio p md native input) (v1_main_loud p md native input).
Proof.
  unfold v1_main_wired_with, v1_main_loud. destruct input as [file|]; [|apply apart_ret]. destruct (section_by_name _ _); [|apply apart_ret].
  destruct (elf_eh_frame file) as [parse|] eqn:Ep; [|apply apart_ret]. apply apart_bind; [apply apart_println|]. intros ?. apply apart_bind.
  - unfold v1_convert_wired_with, v1_convert_loud. apply apart_bind; [apply v1_entries_apart|]. intros s. destruct (ents_end _); apply apart_ret.
  - intros s. apply apart_bind; [apply apart_ret|]. intros bs. apply apart_ret.
Qed.

(** ** Without repairs *)

Definition is_as {E A} (m : wired (io_error E) A) (m' : wired E A) : Prop := forall sk n, m sk n = wired_err NotIo m' sk n.
Lemma as_ret {E A} (o : outcome E A) : is_as (ret_with o) (wired_ret o).
Proof. intros sk n. reflexivity. Qed.
Lemma as_println {E A} (m : loud E A) : is_as (println_with io_as_is m) (by_println m).
Proof.
  intros sk n. unfold println_with, by_println, wired_err, wire. cbn [io_as_is ri_println loud_err fst snd].
  destruct (emit_lines sk (fst m) n) as [[l n'] []]; reflexivity.
Qed.
Lemma as_writeln {E A} (er : E) (m : loud E A) : is_as (writeln_with io_as_is er m) (by_writeln er m).
Proof.
  intros sk n. unfold writeln_with, by_writeln, wired_err, wire. cbn [io_as_is ri_writeln loud_err fst snd].
  destruct (emit_lines sk (fst m) n) as [[l n'] []]; reflexivity.
Qed.
Lemma as_bind {E A B} (m : wired (io_error E) A) m' (k : A -> wired (io_error E) B) k' : is_as m m' ->
  (forall a, is_as (k a) (k' a)) -> is_as (wired_bind m k) (wired_bind m' k').
Proof.
  intros Hm Hk sk n. unfold wired_bind, wired_err. rewrite Hm. unfold wired_err. destruct (m' sk n) as [[l n'] [a|er|]]; try reflexivity.
  cbn [map_err]. rewrite Hk. unfold wired_err. destruct (k' a sk n') as [[l2 n2] o2]. reflexivity.
Qed.
Lemma as_err {E F A} (g : E -> F) (m : wired (io_error E) A) m' : is_as m m' -> is_as (wired_err (in_io g) m) (wired_err g m').
Proof.
  intros H sk n. unfold wired_err. rewrite H. unfold wired_err. destruct (m' sk n) as [[l n'] [a|er|]]; reflexivity.
Qed.

Lemma as_convert_entries gio pr md op : forall l s, is_as (convert_entries_wired_with io_as_is gio pr md op l s) (convert_entries_wired gio pr md op l s).
Proof.
  induction l as [|[|g|f] t IH]; intros s; cbn [convert_entries_wired_with convert_entries_wired]; [apply as_ret|apply IH|apply as_ret|].
  apply as_bind; [|exact IH]. unfold convert_fde_wired_with, convert_fde_wired. apply as_bind.
  - destruct (op_debugdump op); [|apply as_ret]. apply as_bind; [apply as_println|]. intros _. apply as_bind; [apply as_writeln|]. intros _. apply as_println.
  - intros _. destruct (i32_max <? df_start f)%Z; [apply as_ret|]. destruct (i32_max <? df_len f)%Z; [apply as_ret|]. cbn zeta.
    destruct (df_rows f) as [rows|g]; [|apply as_ret]. apply as_bind; [apply as_println|]. intros b. destruct (rows_end rows); [apply as_ret|].
    apply as_bind; [apply as_ret|]. intros b'. apply as_bind; [apply as_ret|]. intros s'. apply as_bind; [apply as_println|]. intros _. apply as_ret.
Qed.
Theorem as_is_main2 gio pr md args input sk n :
  dwarf2sframe2_main_wired_with io_as_is gio pr md args input sk n = wired_err NotIo (dwarf2sframe2_main_wired gio pr md args input) sk n.
Proof.
  revert sk n. change (is_as (dwarf2sframe2_main_wired_with io_as_is gio pr md args input) (dwarf2sframe2_main_wired gio pr md args input)).
  unfold dwarf2sframe2_main_wired_with, dwarf2sframe2_main_wired. destruct input as [file|]; [|apply as_ret]. cbn zeta. apply as_bind; [apply as_ret|]. intros a.
  destruct (section_by_name _ _); [|apply as_ret]. destruct (elf_eh_frame file) as [parse|]; [|apply as_ret]. apply as_bind.
  - apply as_err. unfold dwarf2sframe_wired_with, dwarf2sframe_wired. apply as_bind; [apply as_convert_entries|]. intros s. destruct (ents_end _); apply as_ret.
  - intros s. apply as_bind; [apply as_ret|]. intros bs. apply as_ret.
Qed.
Lemma as_v1_entries gio p m md : forall l s, is_as (v1_entries_wired_with io_as_is gio p m md l s) (v1_entries_wired gio p m md l s).
Proof.
  induction l as [|[|g|f] t IH]; intros s; cbn [v1_entries_wired_with v1_entries_wired]; [apply as_ret|apply IH|apply as_ret|].
  apply as_bind; [|exact IH]. unfold v1_fde_wired_with, v1_fde_wired.
  destruct (i32_max <? df_start f)%Z; [apply as_ret|]. destruct (i32_max <? df_len f)%Z; [apply as_ret|]. cbn zeta.
  destruct (df_rows f) as [rows|g]; [|apply as_ret]. apply as_bind; [apply as_println|]. intros _. apply as_bind; [apply as_writeln|]. intros _.
  apply as_bind; [apply as_println|]. intros _. apply as_bind; [apply as_println|]. intros b. destruct (rows_end rows); [apply as_ret|].
  apply as_bind; [apply as_ret|]. intros b'. apply as_bind; [apply as_ret|]. intros s'. apply as_bind; [apply as_println|]. intros _. apply as_ret.
Qed.
Theorem as_is_main1 gio p md native input sk n :
  v1_main_wired_with io_as_is gio p md native input sk n = wired_err NotIo (v1_main_wired gio p md native input) sk n.
Proof.
  revert sk n. change (is_as (v1_main_wired_with io_as_is gio p md native input) (v1_main_wired gio p md native input)).
  unfold v1_main_wired_with, v1_main_wired. destruct input as [file|]; [|apply as_ret]. destruct (section_by_name _ _); [|apply as_ret].
  destruct (elf_eh_frame file) as [parse|]; [|apply as_ret]. apply as_bind; [apply as_println|]. intros _. apply as_bind.
  - unfold v1_convert_wired_with, v1_convert_wired. apply as_bind; [apply as_v1_entries|]. intros s. destruct (ents_end _); apply as_ret.
  - intros s. apply as_bind; [apply as_ret|]. intros bs. apply as_ret.
Qed.

(** ** As stated *)

(** A failure to print is reported as one, by either version, whatever the input and
    whichever line is refused. *)
Theorem refusals_reported gio pr p md args native input sk :
  (forall l n o, dwarf2sframe2_main_wired_with io_all_repairs gio pr md args input sk 0%nat = (l, n, o) ->
     outcome_of (fun _ => False) (fun _ => True) IoFailed sk 0 (fst (dwarf2sframe2_main_loud pr md args input))
       (map_err NotIo (dwarf2sframe2_main md args input)) l n o) /\
  (forall l n o, v1_main_wired_with io_all_repairs gio p md native input sk 0%nat = (l, n, o) ->
     outcome_of (fun _ => False) (fun _ => True) IoFailed sk 0 (fst (v1_main_loud p md native input))
       (map_err NotIo (snd (v1_main_loud p md native input))) l n o).
Proof.
  split; intros l n o H.
  - apply main2_apart in H. cbn [loud_err fst snd] in H. rewrite main2_loud_result in H. exact H.
  - apply main1_apart in H. exact H.
Qed.

Definition print_left : io_repairs := IoRepairs false true.
Definition dump_left : io_repairs := IoRepairs true false.
Theorem refusals_needed :
  (* [println!] left as it is: a panic *)
  snd (dwarf2sframe2_main_wired_with print_left gimli_io some_texts rel64 talking (Some sample_file) (fun _ => false) 0%nat) = Panic /\
  snd (v1_main_wired_with print_left gimli_io some_texts1 rel64 LE (Some v1_file) (fun _ => false) 0%nat) = Panic /\
  (* the errors of the dump left as they are: the input is blamed *)
  snd (dwarf2sframe2_main_wired_with dump_left gimli_io some_texts rel64 talking (Some sample_file) three 0%nat) =
    Err (NotIo (ToolConvert (InvalidDwarfFde gimli_io))) /\
  snd (v1_main_wired_with dump_left gimli_io some_texts1 rel64 LE (Some v1_file) (fun k => (k <? 6)%nat) 0%nat) = Err (NotIo (V1Dump gimli_io)).
Proof. repeat split; vm_compute; reflexivity. Qed.
Theorem refusals_case :
  snd (dwarf2sframe2_main_wired_with io_all_repairs gimli_io some_texts rel64 talking (Some sample_file) three 0%nat) = Err IoFailed /\
  snd (v1_main_wired_with io_all_repairs gimli_io some_texts1 rel64 LE (Some v1_file) (fun k => (k <? 6)%nat) 0%nat) = Err IoFailed /\
  snd (dwarf2sframe2_main_wired_with io_all_repairs gimli_io some_texts rel64 talking (Some sample_file) (fun _ => true) 0%nat) =
    Ok (OutFile ElfX86_64 RtLittle (sample_bytes LE)).
Proof. repeat split; vm_compute; reflexivity. Qed.

Theorem flush_needed :
  load rel64 LE (sample_bytes LE) = Ok sample_sf /\
  sframedump_io_with false some_abi whole full_disk rel64 LE sample_sf = ([], Succeeded) /\
  sframedump_io_with true some_abi whole full_disk rel64 LE sample_sf = ([], Failed) /\
  exists log, sframedump_io_with true some_abi letters byte_sink rel64 LE sample_sf = (log, Succeeded) /\ (slen (received log) = 694)%Z.
Proof.
  split; [exact (proj1 ToolsWitness.sample_dump)|]. split; [vm_compute; reflexivity|]. split; [vm_compute; reflexivity|].
  eexists. split; [vm_compute; reflexivity|]. vm_compute. reflexivity.
Qed.
Theorem status_needed :
  dwarfdump_io_with false some_dd whole full_disk rel64 "a.out" (dd_of ElfX86_64 dd_full None) = ([ErrLine "Failed to dump 'a.out': IoError"], Succeeded) /\
  dwarfdump_io_with true some_dd whole full_disk rel64 "a.out" (dd_of ElfX86_64 dd_full None) = ([ErrLine "Failed to dump 'a.out': IoError"], Failed) /\
  exists log, dwarfdump_io_with true some_dd letters any_sink rel64 "a.out" (dd_of ElfX86_64 dd_full None) = (log, Succeeded).
Proof. split; [vm_compute; reflexivity|]. split; [vm_compute; reflexivity|]. eexists. vm_compute. reflexivity. Qed.

(** ** The output file *)

Theorem as_is_finish {E} emit fw renamed before (r : outcome E out_file) : finish_with false emit fw renamed before r = finish emit fw before r.
Proof. reflexivity. Qed.

(** The output file is complete or as it was. *)
Theorem atomic_file {E} emit fw renamed before (r : outcome E out_file) after x : finish_with true emit fw renamed before r = (after, x) ->
  (x = Succeeded -> exists o data, r = Ok o /\ emit o = Some data /\ after = Some data) /\
  (x <> Succeeded -> after = before).
Proof.
  unfold finish_with. destruct r as [o|e|]; [|intros [= <- <-]; split; [discriminate|reflexivity]|intros [= <- <-]; split; [discriminate|reflexivity]].
  destruct (emit o) as [data|] eqn:Ee; [|intros [= <- <-]; split; [discriminate|reflexivity]]. cbn zeta. intros H.
  destruct (fs_write fw data None) as [f ok] eqn:Ew. cbn [fst snd] in H. destruct ok; cbn [andb] in H; [|injection H as <- <-; split; [discriminate|reflexivity]].
  destruct renamed; injection H as <- <-; [|split; [discriminate|reflexivity]]. split; [|congruence]. intros _. exists o, data. split; [reflexivity|]. split; [exact Ee|].
  revert Ew. unfold fs_write. destruct (fw_open fw); [|discriminate]. destruct (fw_room fw) as [n|]; [destruct (n <? List.length data)%nat; [discriminate|]|]; intros [= <-]; reflexivity.
Qed.
Theorem atomic_needed :
  let result := run2 (GimliError 0) (fun _ => true) no_flags in
  finish_with false plain_emit (FileWrite true (Some 40%nat)) true (Some damaged) result = (Some (firstn 40 (sample_bytes LE)), Failed) /\
  finish_with true plain_emit (FileWrite true (Some 40%nat)) true (Some damaged) result = (Some damaged, Failed) /\
  finish_with true plain_emit (FileWrite true None) true (Some damaged) result = (Some (sample_bytes LE), Succeeded).
Proof. cbn zeta. repeat split; vm_compute; reflexivity. Qed.
