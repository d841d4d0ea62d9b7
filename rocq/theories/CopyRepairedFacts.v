(** Proofs about [CopyRepaired.v] (C139). *)
From Verif Require Export CopyWitness WriteRepaired CopyRepaired.
From Verif Require Import StdFacts LookupFacts.
From Coq Require Import Bool.

(** ** Without refusals *)

Lemma fdb_read_unrepaired md e sf en : fdb_read_with no_kfixes md e sf en = fdb_read md e sf en.
Proof.
  unfold fdb_read_with. cbn [no_kfixes kf_mask andb].
  destruct (all_fres md e en) as [items|er|] eqn:EA; cbn [res]; [|unfold fdb_read; rewrite EA; reflexivity..].
  destruct (SectionSpec.good_rows items) as [rows|] eqn:EG; [|unfold fdb_read; rewrite EA; cbn [res]; rewrite EG; reflexivity].
  replace (existsb _ rows) with false; [reflexivity|]. clear. induction rows as [|fr t IH]; [reflexivity|]. exact IH.
Qed.
Theorem section_read_unrepaired md e sf : section_read_with no_kfixes md e sf = section_read md e sf.
Proof.
  unfold section_read_with, section_read. generalize (sfb_new (options_read sf)). induction (all_fdes sf) as [|en t IH]; intros s; [reflexivity|].
  cbn [fdes_read_with fdes_read]. rewrite fdb_read_unrepaired. destruct (fdb_read md e sf en) as [b|]; [|reflexivity].
  unfold sfb_fde_with. cbn [no_kfixes kf_same andb]. destruct (sfb_fde s b) as [s'|[]|]; [apply IH|reflexivity].
Qed.

(** ** With all of them *)

Lemma too_narrow_iff sf fr : Forall in_i32 (fre_offsets fr) -> (length (fre_offsets fr) <= 3)%nat ->
  (too_narrow (made sf fr) = true <-> tied_offsets (kept_offsets sf fr)).
Proof.
  intros HI HL. pose proof (made_stored sf fr HL) as HS. unfold too_narrow. rewrite <- offset_width_type, row_values_stored.
  assert (HT : Forall in_i32 (stored_values (made sf fr))).
  { rewrite HS. unfold kept_offsets. assert (HF : forall n, Forall in_i32 (firstn n (fre_offsets fr))).
    { intros n. rewrite Forall_forall in *. intros v Hv. apply HI. rewrite <- (firstn_skipn n). apply in_or_app. left. exact Hv. }
    destruct (fixed_ra_offset sf), (fixed_fp_offset sf); apply HF. }
  pose proof (untruncated_iff (made sf fr) HT) as HU. unfold untruncated, tied in HU. rewrite HS in HU |- *. fold (tied_offsets (kept_offsets sf fr)) in HU.
  set (w := offset_width _) in *.
  assert (HB : forallb (within (2 ^ (8 * w - 1))) (kept_offsets sf fr) = true <-> Forall (storable w) (kept_offsets sf fr)).
  { rewrite forallb_forall, Forall_forall. split; intros H v Hv; specialize (H v Hv); unfold within, storable in *; lia. }
  destruct (forallb _ _) eqn:E; cbn [negb]; split; intros H; try discriminate; [exfalso; apply (proj1 HU); [apply HB; reflexivity|exact H]| |reflexivity].
  assert (HN : ~ ~ tied_offsets (kept_offsets sf fr)) by (intros N; apply HU, HB in N; discriminate N).
  destruct (dominant (kept_offsets sf fr)) as [m|] eqn:ED; [|exfalso; apply HN; intros (m & Hm & _); congruence].
  destruct (in_dec Z.eq_dec (- m) (kept_offsets sf fr)) as [Hi|Hi];
    [|exfalso; apply HN; intros (m' & Hm & _ & Hin); rewrite ED in Hm; injection Hm as <-; contradiction].
  destruct (Z.eq_dec m (-128)) as [E1|E1]; [exists m; auto|]. destruct (Z.eq_dec m (-32768)) as [E2|E2]; [exists m; auto|].
  exfalso. apply HN. intros (m' & Hm & [Hx|Hx] & _); rewrite ED in Hm; injection Hm as <-; contradiction.
Qed.

Lemma base_refused sf fr : (length (fre_offsets fr) <= 3)%nat ->
  (match r_offsets (row_read sf fr) with None => negb (base_reg_eqb (fre_cfa_base_reg_id fr) (r_base (row_read sf fr))) | Some _ => false end = false
   <-> (fre_offsets fr = [] -> fre_cfa_base_reg_id fr = Fp)).
Proof.
  intros HL. unfold row_read, fre_cfa_offset. destruct (fre_offsets fr) as [|v t]; cbn [nth_error ok_or res].
  - cbn [row_invalid row_mangled_ra_p r_offsets r_base]. destruct (fre_cfa_base_reg_id fr); cbn [base_reg_eqb negb]; split; intros H; try discriminate H; auto; discriminate (H eq_refl).
  - cbn [row_new row_mangled_ra_p r_offsets]. split; [discriminate|reflexivity].
Qed.

Section Loaded.
  Variables (md : mode) (e : endian) (bs : bytes) (sf : sframe).
  Hypothesis Hm : wf_mode md.
  Hypothesis Hs : rust_slice md bs.
  Hypothesis HL : load md e bs = Ok sf.

  Lemma fdb_read_checked en b : In en (all_fdes sf) ->
    (fdb_read_with all_kfixes md e sf en = Some b <-> fdb_read md e sf en = Some b /\ rows_kept md e sf en).
  Proof using Hm Hs HL.
    intros Hin. pose proof (entry_ok md e bs sf Hm Hs HL en Hin) as Hok. unfold fdb_read_with, rows_kept.
    destruct (all_fres md e en) as [items|er|] eqn:EA; cbn [res];
      [|unfold fdb_read; rewrite EA; cbn [res]; split; [discriminate|intros [H _]; exact H]..].
    destruct (SectionSpec.good_rows items) as [rows|] eqn:EG;
      [|unfold fdb_read; rewrite EA; cbn [res]; rewrite EG; split; [discriminate|intros [H _]; exact H]].
    apply good_rows_some in EG. subst items. pose proof (rows_read_shown md e en rows Hm Hok EA) as HF. cbn [all_kfixes kf_mask andb].
    assert (HX : existsb (fun fr => row_refused all_kfixes (options_read sf) fr (row_read sf fr)) rows = false <->
      Forall (fun fr => (fre_offsets fr = [] -> fre_cfa_base_reg_id fr = Fp) /\ ~ tied_offsets (kept_offsets sf fr)) rows).
    { clear EA. induction HF as [|fr t (_ & H1 & H2) _ IH]; [split; [constructor|reflexivity]|]. cbn [existsb].
      unfold row_refused at 1. cbn [all_kfixes kf_tied kf_base andb]. change (kept_row (options_read sf) (row_read sf fr)) with (made sf fr).
      rewrite !orb_false_iff, IH, (base_refused sf fr H2), <- not_true_iff_false, (too_narrow_iff sf fr H1 H2). split.
      - intros [[A B] C]. constructor; [split; assumption|exact C].
      - intros H. inversion H as [|? ? [A B] C]; subst. auto. }
    assert (HK : (forall good, Ok (map (@inl fre read_error) rows) = Ok (E := fuel_error) (map inl good) ->
       Forall (fun fr => (fre_offsets fr = [] -> fre_cfa_base_reg_id fr = Fp) /\ ~ tied_offsets (kept_offsets sf fr)) good) <->
      Forall (fun fr => (fre_offsets fr = [] -> fre_cfa_base_reg_id fr = Fp) /\ ~ tied_offsets (kept_offsets sf fr)) rows).
    { split; [intros H; apply H; reflexivity|]. intros H good E. apply ok_inj, map_inl_inj in E. subst good. exact H. }
    rewrite HK, <- HX. destruct (en_fdetype en) eqn:ET.
    - destruct (existsb _ rows); split; [discriminate|intros (_ & _ & [=])|intros H; repeat split; [exact H|discriminate]|intros (H & _); exact H].
    - destruct (existsb _ rows); split; [discriminate|intros (_ & _ & [=])|intros H; repeat split; [exact H|discriminate]|intros (H & _); exact H].
    - split; [discriminate|]. intros (_ & H & _). contradiction.
  Qed.

  Lemma fdes_read_checked : forall l s s', (forall en, In en l -> In en (all_fdes sf)) -> sfb_reach md s ->
    (fdes_read_with all_kfixes md e sf l s = Some s' <->
     fdes_read md e sf l s = Some s' /\ NoDup (map en_start_address l) /\
     (forall en, In en l -> bt_get (en_start_address en) (sb_fdes s) = None) /\ Forall (rows_kept md e sf) l).
  Proof using Hm Hs HL.
    induction l as [|en l IH]; intros s s' HI HR; cbn [fdes_read_with fdes_read map].
    - split; [intros H; repeat split; [exact H|constructor|intros ? []|constructor]|intros (H & _); exact H].
    - pose proof (fdb_read_checked en) as HC. destruct (fdb_read_with all_kfixes md e sf en) as [b|] eqn:EW.
      + destruct (proj1 (HC b (HI en (or_introl eq_refl))) eq_refl) as [Eb HK]. rewrite Eb.
        destruct (fdb_read_copy md e bs sf Hm Hs HL en b (HI en (or_introl eq_refl)) Eb) as ((_ & Hst & _) & Hb & _).
        unfold sfb_fde_with. cbn [all_kfixes kf_same andb]. rewrite Hst.
        destruct (bt_get (en_start_address en) (sb_fdes s)) as [x|] eqn:EG.
        { split; [discriminate|]. intros (_ & _ & H & _). specialize (H en (or_introl eq_refl)). congruence. }
        destruct (sfb_fde s b) as [s1|[]|] eqn:E1; [|split; [discriminate|intros ([=] & _)]].
        pose proof (sfb_reach_wf md s HR) as W.
        assert (HG : forall a, bt_get a (sb_fdes s1) = if a =? en_start_address en then Some b else bt_get a (sb_fdes s)).
        { intros a. unfold sfb_fde in E1. destruct (options_eqb _ _); [|discriminate]. injection E1 as <-. cbn [sb_fdes]. rewrite Hst.
          apply bt_get_insert, W. }
        rewrite (IH s1 s' (fun x Hx => HI x (or_intror Hx)) (sr_fde md s b s1 HR Hb E1)). split.
        * intros (H1 & H2 & H3 & H4). split; [exact H1|]. split; [|split; [|constructor; assumption]].
          -- constructor; [|exact H2]. intros Hin. apply in_map_iff in Hin. destruct Hin as (en' & Heq & Hin').
             specialize (H3 en' Hin'). rewrite HG, Heq, Z.eqb_refl in H3. discriminate.
          -- intros en' [<-|Hin']; [exact EG|]. specialize (H3 en' Hin'). rewrite HG in H3.
             destruct (Z.eqb_spec (en_start_address en') (en_start_address en)); [discriminate|exact H3].
        * intros (H1 & H2 & H3 & H4). apply NoDup_cons_iff in H2. destruct H2 as [N1 N2]. inversion H4; subst.
          split; [exact H1|]. split; [exact N2|]. split; [|assumption]. intros en' Hin'. rewrite HG.
          destruct (Z.eqb_spec (en_start_address en') (en_start_address en)) as [Heq|Hne]; [|apply H3; right; exact Hin'].
          exfalso. apply N1. rewrite <- Heq. apply in_map, Hin'.
      + split; [discriminate|]. intros (H & _ & _ & HK). destruct (fdb_read md e sf en) as [b|]; [|discriminate].
        exfalso. pose proof (proj2 (HC b (HI en (or_introl eq_refl)))) as HX. discriminate HX. split; [reflexivity|exact (Forall_inv HK)].
  Qed.

  (** Copying is refused for these reasons only. *)
  Theorem section_read_checked s : section_read_with all_kfixes md e sf = Some s <->
    section_read md e sf = Some s /\ NoDup (map en_start_address (all_fdes sf)) /\ Forall (rows_kept md e sf) (all_fdes sf).
  Proof using Hm Hs HL.
    unfold section_read_with, section_read.
    rewrite (fdes_read_checked _ _ s (fun _ H => H) (sr_new md _ (loaded_options md e bs sf Hm Hs HL))).
    split; [intros (H1 & H2 & _ & H4); auto|]. intros (H1 & H2 & H4). repeat split; auto.
  Qed.

  (** A copy that is not refused says the same at every address. *)
  Theorem checked_copy_same md1 md2 e' s bs' : section_read_with all_kfixes md e sf = Some s -> build md1 e' s = Ok bs' ->
    wf_mode md2 -> rust_slice md2 bs' ->
    exists sf', load md2 e' bs' = Ok sf' /\ forall a k u, lib_says md e sf a k u <-> lib_says md2 e' sf' a k u.
  Proof using Hm Hs HL.
    intros HR HB Hm2 Hs2. apply section_read_checked in HR. destruct HR as (HR & HN & HK).
    destruct (copy_same md e bs sf Hm Hs HL md1 md2 e' s bs' HR HB Hm2 Hs2 HN) as (sf' & HL' & HS).
    exists sf'. split; [exact HL'|]. intros a. apply HS. intros en Hin _. rewrite Forall_forall in HK. apply HK, Hin.
  Qed.
End Loaded.

(** ** Cases *)

Theorem swapped_checked e :
  rust_slice rel64 (swapped e) /\ load rel64 e (swapped e) = Ok (sf_of e (swapped e)) /\
  section_read_with all_kfixes rel64 e (sf_of e (swapped e)) = Some (copy_sfb e (sf_of e (swapped e))) /\
  build rel64 e (copy_sfb e (sf_of e (swapped e))) = Ok (single e) /\ rust_slice rel64 (single e) /\ single e <> swapped e /\
  lib_says rel64 e (sf_of e (swapped e)) 0x104 KeyA second_row.
Proof.
  destruct (swapped_copy e) as (H1 & H2 & H3 & H4 & H5 & _ & H6 & H7 & H8 & _). split; [exact H1|]. split; [exact H2|].
  split; [apply (section_read_checked rel64 e (swapped e) _ wf_rel64 H1 H2); auto|].
  split; [exact H4|]. split; [destruct e; vm_compute; reflexivity|]. split; [exact H5|exact H8].
Qed.
Theorem others_refused e :
  section_read_with all_kfixes rel64 e (sf_of e (doubled e)) = None /\ section_read_with all_kfixes rel64 e (sf_of e (wide e)) = None /\
  section_read_with all_kfixes rel64 e (sf_of e (empty_sp e)) = None /\
  section_read_with all_kfixes rel64 e (sf_of e (in_v1 e (LocalWitness.masked e))) = None.
Proof. destruct e; vm_compute; repeat split. Qed.

(** Each refusal is needed, all others being there. *)
Definition refusing_hides (k : kfixes) (e : endian) (bs : bytes) (a : Z) (u u' : option unwind) : Prop :=
  section_read_with k rel64 e (sf_of e bs) = section_read rel64 e (sf_of e bs) /\ copy_differs e bs a u u'.
Theorem same_needed e : refusing_hides (KFixes false true true true) e (doubled e) 0x101 (Some first_row) None.
Proof. split; [destruct e; vm_compute; reflexivity|apply doubled_copy]. Qed.
Theorem tied_needed e : refusing_hides (KFixes true false true true) e (wide e) 0x100
  (Some (Unwind Sp false (Some (-128)) (Some 128) None)) (Some (Unwind Sp false (Some (-128)) (Some (-128)) None)).
Proof. split; [destruct e; vm_compute; reflexivity|apply wide_copy]. Qed.
Theorem base_needed e : refusing_hides (KFixes true true false true) e (empty_sp e) 0x100
  (Some (Unwind Sp false None None None)) (Some (Unwind Fp false None None None)).
Proof. split; [destruct e; vm_compute; reflexivity|apply empty_copy]. Qed.
Theorem mask_needed e : refusing_hides (KFixes true true true false) e (in_v1 e (LocalWitness.masked e)) 0x204
  None (Some (Unwind Sp false (Some 24) (Some (-8)) (Some (-16)))).
Proof. split; [destruct e; vm_compute; reflexivity|apply mask_copy]. Qed.
