(** Proofs about sections with the same output of [sframedump] (C138). *)
From Coq Require Import String ZArith List Lia.
From Verif Require Export ShownSpec.
From Verif Require Import DebugFacts CfiTotal TextFacts DumpFacts LookupFacts PipeFacts.
Import ListNotations.
Open Scope Z_scope.
Open Scope list_scope.

Definition row_like (sf sf' : sframe) (fr fr' : fre) : Prop :=
  fr_start fr = fr_start fr' /\ looks (observed sf fr) = looks (observed sf' fr').

Lemma as_s_cancel a x y : 0 <= x < 2 ^ 32 -> 0 <= y < 2 ^ 32 -> as_s 32 (a + x) = as_s 32 (a + y) -> x = y.
Proof.
  intros Hx Hy H. assert (E : (a + x) mod 2 ^ 32 = (a + y) mod 2 ^ 32).
  { unfold as_s in H. change (as_u 32 (a + x)) with ((a + x) mod 2 ^ 32) in H.
    change (as_u 32 (a + y)) with ((a + y) mod 2 ^ 32) in H.
    pose proof (Z.mod_pos_bound (a + x) (2 ^ 32) ltac:(lia)). pose proof (Z.mod_pos_bound (a + y) (2 ^ 32) ltac:(lia)).
    revert H. destruct (Z.ltb_spec ((a + x) mod 2 ^ 32) (2 ^ (32 - 1))), (Z.ltb_spec ((a + y) mod 2 ^ 32) (2 ^ (32 - 1))); lia. }
  pose proof (Z.div_mod (a + x) (2 ^ 32) ltac:(lia)). pose proof (Z.div_mod (a + y) (2 ^ 32) ltac:(lia)).
  assert ((a + x) / 2 ^ 32 = (a + y) / 2 ^ 32 \/ (a + x) / 2 ^ 32 <= (a + y) / 2 ^ 32 - 1 \/ (a + y) / 2 ^ 32 + 1 <= (a + x) / 2 ^ 32) by lia.
  lia.
Qed.

(** Rows read from a function belong to it and start in it. *)
Lemma results_in md e en good er : wf_mode md -> fde_ok (en_fde en) -> fre_results md e en good er ->
  Forall (fun fr => fr_fde fr = en_fde en /\ 0 <= fr_start fr < 2 ^ 32) good.
Proof.
  intros Hm Hok Hg. unfold fre_results, all_fres in Hg.
  assert (Hst : Forall (fun fr => 0 <= fre_start_address_offset fr) good).
  { apply (collect_starts md e (fri_fuel (fres en)) (fres en) good (match er with Some x => [x] | None => [] end)).
    rewrite Hg. destruct er; reflexivity. }
  destruct (fri_collect_shape md e _ (fres en) _ Hm Hok Hg) as (good' & bad & aw & rest & HE & HB & HF & _).
  assert (good' = good) as ->.
  { clear - HE. revert good' HE. induction good as [|x l IH]; intros [|y l'] HE; [reflexivity| | |].
    - destruct er; discriminate HE.
    - destruct bad; discriminate HE.
    - cbn [map List.app] in HE. injection HE as -> HE. f_equal. apply IH, HE. }
  rewrite Forall_forall in *. intros fr Hfr. destruct (HF fr Hfr) as [F1 F2]. specialize (Hst fr Hfr). cbn [fres ri_fde] in F1, F2.
  split; [exact F1|]. unfold fre_start_address_offset in *. destruct Hok as (_ & [_ S] & _). rewrite ?F1 in F2. unfold u32_max in *. lia.
Qed.

Lemma shown_rows_like md sf sf' f f' : fde_start_address f = fde_start_address f' -> forall good good' rows,
  Forall (fun fr => fr_fde fr = f /\ 0 <= fr_start fr < 2 ^ 32) good ->
  Forall (fun fr => fr_fde fr = f' /\ 0 <= fr_start fr < 2 ^ 32) good' ->
  Forall2 (row_line md sf) good rows -> Forall2 (row_line md sf') good' rows -> Forall2 (row_like sf sf') good good'.
Proof.
  intros HF. induction good as [|fr t IH]; intros [|fr' t'] rows H H' HR HR'; inversion HR; subst; inversion HR'; subst; constructor.
  - pose proof (Forall_inv H) as [F1 F2]. pose proof (Forall_inv H') as [G1 G2].
    match goal with A : row_line md sf fr _, B : row_line md sf' fr' _ |- _ =>
      destruct A as (s & c & p & r & A0 & A1 & A2 & A3 & A4); destruct B as (s' & c' & p' & r' & B0 & B1 & B2 & B3 & B4) end.
    rewrite A0 in B0. injection B0 as <- <- <- <- HM. apply shows_looks in A2, A3, A4, B2, B3, B4. split.
    + unfold fre_start_address in A1, B1. rewrite F1 in A1. rewrite G1, <- HF in B1. destruct (debug_asserts md).
      * destruct (in_i32b _) in A1; [|discriminate]. destruct (in_i32b _) in B1; [|discriminate].
        injection A1 as A1. injection B1 as B1. lia.
      * injection A1 as A1. injection B1 as B1. apply (as_s_cancel (fde_start_address f)); [lia..|congruence].
    + unfold looks, observed. cbn [uw_cfa uw_base uw_fp uw_ra uw_mangled]. rewrite <- A2, <- A3, <- A4, <- B2, <- B3, <- B4, HM. reflexivity.
  - eapply IH; [exact (Forall_inv_tail H)|exact (Forall_inv_tail H')|eassumption|assumption].
Qed.

Definition shown_like (md : mode) (e e' : endian) (sf sf' : sframe) (en en' : entry) : Prop :=
  same_span (en_fde en) (en_fde en') /\ en_fdetype en = en_fdetype en' /\
  exists good er good' er', fre_results md e en good er /\ fre_results md e' en' good' er' /\ Forall2 (row_like sf sf') good good'.

Lemma rows_filtered md sf good rows : Forall2 (row_line md sf) good rows -> filter on_stdout rows = rows /\ Forall is_row rows.
Proof.
  induction 1 as [|fr ln t t' HL _ [IH IH']]; [split; [reflexivity|constructor]|]. destruct HL as (s & c & p & r & -> & _).
  cbn [filter on_stdout]. rewrite IH. split; [reflexivity|]. constructor; [exact I|exact IH'].
Qed.

Lemma func_filtered md e sf idx en l : func_lines md e sf idx en l ->
  exists good er rows, fre_results md e en good er /\ Forall2 (row_line md sf) good rows /\ Forall is_row rows /\
    filter on_stdout l = LineFunc idx (en_start_address en) (en_size en) :: LineColumns (en_fdetype en) :: rows ++ [LineBlank] /\
    (errors_in l = [] -> er = None).
Proof.
  intros (good & er & rows & H1 & H2 & ->). destruct (rows_filtered _ _ _ _ H2) as [H3 H4].
  exists good, er, rows. split; [exact H1|]. split; [exact H2|]. split; [exact H4|]. split.
  - cbn [filter on_stdout]. rewrite !filter_app, H3. destruct er; reflexivity.
  - unfold errors_in. cbn [flat_map List.app]. rewrite !flat_map_app. intros HE. apply app_eq_nil in HE. destruct HE as [_ HE].
    destruct er; [discriminate HE|reflexivity].
Qed.

Lemma all_shown_like md e e' sf sf' : wf_mode md -> forall ens ens' idx out out',
  Forall (fun en => fde_ok (en_fde en)) ens -> Forall (fun en => fde_ok (en_fde en)) ens' ->
  all_func_lines md e sf idx ens out -> all_func_lines md e' sf' idx ens' out' ->
  filter on_stdout out = filter on_stdout out' -> Forall2 (shown_like md e e' sf sf') ens ens'.
Proof.
  intros Hm. induction ens as [|en t IH]; intros [|en' t'] idx out out' Hok Hok' HA HA' HE.
  - constructor.
  - exfalso. cbn in HA. subst out. destruct HA' as (l1 & l2 & -> & H1 & _). destruct (func_filtered _ _ _ _ _ _ H1) as (? & ? & ? & _ & _ & _ & HX & _).
    rewrite filter_app, HX in HE. discriminate HE.
  - exfalso. cbn in HA'. subst out'. destruct HA as (l1 & l2 & -> & H1 & _). destruct (func_filtered _ _ _ _ _ _ H1) as (? & ? & ? & _ & _ & _ & HX & _).
    rewrite filter_app, HX in HE. discriminate HE.
  - destruct HA as (l1 & l2 & -> & H1 & H2), HA' as (l1' & l2' & -> & H1' & H2').
    destruct (func_filtered _ _ _ _ _ _ H1) as (good & er & rows & G1 & G2 & G3 & G4 & _).
    destruct (func_filtered _ _ _ _ _ _ H1') as (good' & er' & rows' & G1' & G2' & G3' & G4' & _).
    rewrite !filter_app, G4, G4' in HE. cbn [List.app] in HE. injection HE as E1 E2 E3 HE. rewrite <- !app_assoc in HE. cbn [List.app] in HE.
    destruct (rows_until_blank _ _ _ _ G3 G3' HE) as [<- HT].
    constructor; [|apply (IH t' (idx + 1) l2 l2' (Forall_inv_tail Hok) (Forall_inv_tail Hok') H2 H2' HT)].
    split; [split; assumption|]. split; [exact E3|]. exists good, er, good', er'. split; [exact G1|]. split; [exact G1'|].
    apply (shown_rows_like md sf sf' (en_fde en) (en_fde en') E1 good good' rows); try assumption.
    + apply (results_in md e en good er Hm (Forall_inv Hok) G1).
    + apply (results_in md e' en' good' er' Hm (Forall_inv Hok') G1').
Qed.

Lemma all_no_errors md e sf : forall ens idx out, all_func_lines md e sf idx ens out -> errors_in out = [] ->
  Forall (fun en => exists good, all_fres md e en = Ok (map inl good)) ens.
Proof.
  induction ens as [|en t IH]; intros idx out HA HE; [constructor|]. destruct HA as (l1 & l2 & -> & H1 & H2).
  unfold errors_in in HE. rewrite flat_map_app in HE. apply app_eq_nil in HE. destruct HE as [HE1 HE2].
  constructor; [|apply (IH _ _ H2 HE2)]. destruct (func_filtered _ _ _ _ _ _ H1) as (good & er & rows & G1 & _ & _ & _ & G5).
  rewrite (G5 HE1) in G1. exists good. unfold fre_results in G1. rewrite app_nil_r in G1. exact G1.
Qed.
Lemma all_headings md e sf : forall ens idx out, all_func_lines md e sf idx ens out ->
  forall en, In en ens -> In (LineColumns (en_fdetype en)) out.
Proof.
  induction ens as [|en t IH]; intros idx out HA en' []; destruct HA as (l1 & l2 & -> & H1 & H2); apply in_or_app.
  - subst en'. left. destruct H1 as (good & er & rows & _ & _ & ->). right. left. reflexivity.
  - right. apply (IH _ _ H2). assumption.
Qed.

(** ** Lookups *)

Lemma find_like sf sf' (q : Z -> bool) good good' : Forall2 (row_like sf sf') good good' ->
  option_map (fun fr => looks (observed sf fr)) (find (fun fr => q (fr_start fr)) good) =
  option_map (fun fr => looks (observed sf' fr)) (find (fun fr => q (fr_start fr)) good').
Proof.
  induction 1 as [|fr fr' t t' [H1 H2] _ IH]; [reflexivity|]. cbn [find]. rewrite <- H1.
  destruct (q (fr_start fr)); [cbn [option_map]; rewrite H2; reflexivity|exact IH].
Qed.
Definition row_shown (sf : sframe) (r : outcome (fuel_error + read_error) (option fre)) :=
  match r with Ok o => Ok (option_map (fun fr => looks (observed sf fr)) o) | Err er => Err er | Panic => Panic end.
Lemma shown_row md e e' sf sf' en en' a : en_fdetype en <> PPcMask -> shown_like md e e' sf sf' en en' ->
  reads_well md e en -> reads_well md e' en' ->
  row_shown sf (get_fre_for_address md e en a) = row_shown sf' (get_fre_for_address md e' en' a).
Proof.
  intros HM ([S1 S2] & HK & good & er & good' & er' & G & G' & HR) (g & W) (g' & W').
  unfold fre_results in G, G'. rewrite W in G. rewrite W' in G'. apply ok_inj in G, G'. apply no_error_item in G, G'.
  destruct G as [-> ->], G' as [-> ->]. unfold get_fre_for_address, en_start_address, en_size. rewrite <- S1, <- S2, <- HK.
  destruct (a <? fde_start_address (en_fde en)); [reflexivity|].
  destruct (@sub_i32 (fuel_error + read_error) md a (fde_start_address (en_fde en))) as [d| |]; cbn [bind]; try reflexivity.
  destruct (fde_size (en_fde en) <? as_u 32 d); [reflexivity|].
  assert (HX : forall q : Z -> bool,
    row_shown sf (fri_find (fri_fuel (fres en)) md e (fun fr => q (fr_start fr)) (fres en)) =
    row_shown sf' (fri_find (fri_fuel (fres en')) md e' (fun fr => q (fr_start fr)) (fres en'))).
  { intros q. unfold all_fres in W, W'.
    assert (W0 : fri_collect (fri_fuel (fres en)) md e (fres en) = Ok (map inl g ++ map inr [])) by (cbn [map]; rewrite app_nil_r; exact W).
    assert (W0' : fri_collect (fri_fuel (fres en')) md e' (fres en') = Ok (map inl g' ++ map inr [])) by (cbn [map]; rewrite app_nil_r; exact W').
    rewrite (fri_find_collect _ _ _ _ _ _ _ W0), (fri_find_collect _ _ _ _ _ _ _ W0'). pose proof (find_like sf sf' q g g' HR) as HF.
    destruct (find _ g), (find _ g'); cbn [option_map] in HF; try discriminate HF; [|reflexivity].
    apply some_inj in HF. unfold row_shown, option_map. rewrite HF. reflexivity. }
  destruct (en_fdetype en); [exact (HX (fun s => s <=? as_u 32 d))|destruct (HM eq_refl)|exact (HX (fun s => s <=? Z.land (as_u 32 d) s))].
Qed.

Section SameDump.
  Context (md : mode) (e e' : endian) (bs bs' : bytes) (sf sf' : sframe) (abi_name : Z -> string) (l l' : list dump_line).
  Hypotheses (Hm : wf_mode md) (Hs : rust_slice md bs) (Hs' : rust_slice md bs')
    (HL : load md e bs = Ok sf) (HL' : load md e' bs' = Ok sf') (HD : dump md e sf = Ok l) (HD' : dump md e' sf' = Ok l')
    (Ha : forall n, without newline_char (abi_name n)) (HT : stdout_text abi_name l = stdout_text abi_name l').

  Lemma loaded_entries_ok e0 bs0 sf0 : rust_slice md bs0 -> load md e0 bs0 = Ok sf0 -> Forall (fun en => fde_ok (en_fde en)) (all_fdes sf0).
  Proof.
    intros H1 H2. rewrite all_fdes_map. pose proof (loaded_fdes_ok _ _ _ _ Hm H1 H2) as Hok. apply Forall_map.
    eapply Forall_impl; [|exact Hok]. intros f Hf. exact Hf.
  Qed.
  Lemma same_dump : exists rest rest',
    l = LineHeader (version sf) (flags sf) (num_fdes sf) (num_fres sf) (abi sf) (fixed_fp_offset sf) (fixed_ra_offset sf)
          :: LineBlank :: LineIndex :: rest /\
    all_func_lines md e sf 0 (all_fdes sf) rest /\ all_func_lines md e' sf' 0 (all_fdes sf') rest' /\
    flags sf = flags sf' /\ filter on_stdout rest = filter on_stdout rest' /\
    (stderr_text l = ""%string -> errors_in rest = []) /\ (stderr_text l' = ""%string -> errors_in rest' = []).
  Proof.
    destruct (dump_text_read md e bs sf abi_name l Hm Hs HL HD (Ha _)) as (r & EL & HR & H1 & H2).
    destruct (dump_text_read md e' bs' sf' abi_name l' Hm Hs' HL' HD' (Ha _)) as (r' & EL' & HR' & H1' & H2').
    rewrite HT, H1' in H1. injection H1 as E1 E2 E3 E4 E5 E6 E7 E8.
    exists r, r'. split; [exact EL|]. split; [exact HR|]. split; [exact HR'|]. split; [congruence|]. split; [congruence|]. split.
    - intros E. rewrite E in H2. cbn in H2. apply some_inj in H2. destruct (errors_in r); [reflexivity|discriminate H2].
    - intros E. rewrite E in H2'. cbn in H2'. apply some_inj in H2'. destruct (errors_in r'); [reflexivity|discriminate H2'].
  Qed.
  Lemma same_dump_like : Forall2 (shown_like md e e' sf sf') (all_fdes sf) (all_fdes sf').
  Proof.
    destruct same_dump as (r & r' & _ & HR & HR' & _ & HF & _).
    apply (all_shown_like md e e' sf sf' Hm _ _ 0 r r'); try assumption; [exact (loaded_entries_ok e bs sf Hs HL)|exact (loaded_entries_ok e' bs' sf' Hs' HL')].
  Qed.
  Lemma same_dump_spans : Forall2 same_span (it_fdes (fdes sf)) (it_fdes (fdes sf')).
  Proof.
    pose proof same_dump_like as H. rewrite !all_fdes_map in H. clear - H. revert H. generalize (it_fdes (fdes sf')).
    induction (it_fdes (fdes sf)) as [|f t IH]; intros [|f' t'] H; inversion H; subst; constructor; [|apply IH; assumption].
    match goal with X : shown_like _ _ _ _ _ _ _ |- _ => exact (proj1 X) end.
  Qed.
  Theorem same_dump_place a : same_place sf sf' (fde_for_address md sf a) (fde_for_address md sf' a).
  Proof. apply spans_place; [|apply same_dump_spans]. destruct same_dump as (r & r' & _ & _ & _ & HF & _). exact HF. Qed.

  Theorem same_dump_rows a i en en' : stderr_text l = ""%string -> stderr_text l' = ""%string ->
    nth_error (all_fdes sf) i = Some en -> nth_error (all_fdes sf') i = Some en' -> en_fdetype en <> PPcMask ->
    row_shown sf (get_fre_for_address md e en a) = row_shown sf' (get_fre_for_address md e' en' a).
  Proof.
    intros E E' Hi Hi' HM. destruct same_dump as (r & r' & _ & HR & HR' & _ & _ & N & N').
    pose proof (Forall2_at _ _ _ same_dump_like i) as HE. rewrite Hi, Hi' in HE.
    apply shown_row; try assumption.
    - pose proof (all_no_errors _ _ _ _ _ _ HR (N E)) as HN. rewrite Forall_forall in HN. apply HN. eapply nth_error_In, Hi.
    - pose proof (all_no_errors _ _ _ _ _ _ HR' (N' E')) as HN. rewrite Forall_forall in HN. apply HN. eapply nth_error_In, Hi'.
  Qed.

  Theorem same_dump_lookups a : ~ sorted_flag sf -> unmasked l -> stderr_text l = ""%string -> stderr_text l' = ""%string ->
    shown_answer (lookup md e sf a) = shown_answer (lookup md e' sf' a).
  Proof.
    intros HU HM E E'. destruct same_dump as (r & r' & EL & HR & _ & HF & _).
    pose proof same_dump_spans as HS. pose proof (unsorted_flag sf HU) as HZ.
    assert (HN : length (it_fdes (fdes sf)) = length (it_fdes (fdes sf'))) by (clear - HS; induction HS; cbn; congruence).
    pose proof (same_span_find md a (sf_fres sf) (sf_fres sf') _ _ HS (S (length (it_fdes (fdes sf)))) (S (length (it_fdes (fdes sf')))) ltac:(lia) ltac:(lia)) as H.
    change (FdeIter (it_fdes (fdes sf)) (sf_fres sf)) with (fdes sf) in H. change (FdeIter (it_fdes (fdes sf')) (sf_fres sf')) with (fdes sf') in H.
    unfold lookup, fde_for_address. rewrite <- HF, HZ.
    destruct (fdi_find (S (length (it_fdes (fdes sf)))) md a (fdes sf)) as [[en|]| |],
      (fdi_find (S (length (it_fdes (fdes sf')))) md a (fdes sf')) as [[en'|]| |]; try contradiction; try reflexivity.
    destruct H as (i & Hi & Hi'). rewrite <- all_fdes_map in Hi, Hi'.
    assert (HK : en_fdetype en <> PPcMask).
    { apply HM. rewrite EL. do 3 right. apply (all_headings _ _ _ _ _ _ HR). eapply nth_error_In, Hi. }
    pose proof (same_dump_rows a i en en' E E' Hi Hi' HK) as HX. unfold shown_answer.
    destruct (get_fre_for_address md e en a) as [[fr|]| |], (get_fre_for_address md e' en' a) as [[fr'|]| |];
      cbn [row_shown option_map] in HX |- *; try discriminate HX; congruence.
  Qed.
End SameDump.
