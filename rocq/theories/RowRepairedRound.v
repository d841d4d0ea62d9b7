(** Facts about [RowRepaired.v]: reading built sections with the repaired iterators. *)
From Coq Require Import Lia.
From Verif Require Import BaseFacts LoadFacts BTreeFacts MergeRowFacts WriteFacts ReachFacts EmitFacts SectionFacts RoundFacts TripFacts TripWitness StdFacts CopyFacts IterLook DebugFacts
  ReadRepairedFacts ReadRepairedBuilt WriteRepairedFacts IterRepairedFacts.
From Verif Require Export RowRepaired.
Open Scope Z_scope.
Open Scope list_scope.

(** The offset width read off an info byte. *)
Definition reads_width (fx : rfixes) (i aw : Z) : Prop :=
  (fretype_with fx i = Addr1 /\ aw = 1) \/ (fretype_with fx i = Addr2 /\ aw = 2) \/ (fretype_with fx i = Addr4 /\ aw = 4).

Lemma load_any fx md e f bs aw r rest : wf_mode md -> reads_width fx (fde_info f) aw ->
  spec_row_at e aw bs r rest -> (fix_tail fx = true \/ sr_start r < fde_size f) ->
  exists fr, fre_load_with fx md e f bs = Ok (fr, rest) /\ view_fre fr = r.
Proof.
  intros Hmd HW H HT. assert (Haw' : aw = 1 \/ aw = 2 \/ aw = 4) by (destruct HW as [[_ ->]|[[_ ->]|[_ ->]]]; auto).
  destruct (spec_row_facts e aw bs r rest Haw' H) as (ow & How & Hc & Hl & Hr & Hst). cbv zeta in *.
  pose proof (fre_of_view e f aw ow bs Haw' (width_cases _ _ How) How Hc Hl) as HV.
  destruct (spec_row_fun e aw bs _ _ _ _ Haw' H HV) as [HE _].
  exists (fre_of e f (Z.to_nat aw) (Z.to_nat ow) bs). split; [|symmetry; exact HE].
  unfold fre_load_with.
  assert (HH : match fretype_with fx (fde_info f) with
    | Addr1 => fre_header e 1 bs
    | Addr2 => fre_header e 2 bs
    | Addr4 => fre_header e 4 bs
    | ty => Err (UnsupportedFreType ty)
    end = fre_header e (Z.to_nat aw) bs)
    by (destruct HW as [[-> ->]|[[-> ->]|[-> ->]]]; reflexivity).
  rewrite HH. clear HH. unfold fre_header.
  set (info := rd_u e (Z.to_nat aw) 1 bs) in *.
  assert (Hinfo : in_u8 info) by apply rd_u1.
  pose proof (width_cases _ _ How) as How'.
  assert (Hc0 : 0 <= bits 1 4 info) by (unfold bits; lia).
  assert (Hco : 0 <= bits 1 4 info * ow) by (destruct How' as [->|[->| ->]]; lia).
  destruct (Nat.ltb_spec (length bs) (Z.to_nat aw + 1)) as [Hx|_]; [unfold zlen in *; lia|].
  cbn [bind]. fold info. rewrite (offset_count_num info Hinfo).
  replace ((0 <=? bits 1 4 info) && (bits 1 4 info <=? 3)) with true by lia. cbn [negb].
  assert (HH : match offset_size info with
      | Off1B => fre_read_offsets md e 1 (bits 1 4 info) (skipn (Z.to_nat aw + 1) bs)
      | Off2B => fre_read_offsets md e 2 (bits 1 4 info) (skipn (Z.to_nat aw + 1) bs)
      | Off4B => fre_read_offsets md e 4 (bits 1 4 info) (skipn (Z.to_nat aw + 1) bs)
      | ty => Err (UnsupportedFreOffset ty)
      end = fre_read_offsets md e (Z.to_nat ow) (bits 1 4 info) (skipn (Z.to_nat aw + 1) bs)).
  { rewrite <- (offset_size_num info Hinfo) in How. apply width_of_offset in How.
    destruct How as [[-> ->]|[[-> ->]|[-> ->]]]; reflexivity. }
  rewrite HH. clear HH. unfold fre_read_offsets, slice_from_prefix.
  assert (Hbits : 12 < 2 ^ usize_bits md) by (destruct Hmd as [-> | ->]; reflexivity).
  replace (Z.of_nat (Z.to_nat ow)) with ow by lia. rewrite (Z.mul_comm (bits 1 4 info) ow) in *.
  replace (2 ^ usize_bits md <=? ow * bits 1 4 info) with false
    by (symmetry; apply Z.leb_gt; destruct How' as [->|[->| ->]]; lia).
  assert (Hsk : zlen (skipn (Z.to_nat aw + 1) bs) = zlen bs - aw - 1) by (unfold zlen in *; rewrite skipn_length; lia).
  rewrite Hsk. replace (zlen bs - aw - 1 <? ow * bits 1 4 info) with false by lia.
  cbn [ok_or bind fst snd].
  match goal with |- context [fix_tail fx || ?c] => replace (fix_tail fx || c) with true end.
  2:{ symmetry. apply orb_true_iff. destruct HT as [->|HT]; [left; reflexivity|right]. apply Z.ltb_lt. rewrite HE in HT. exact HT. }
  unfold fre_of. fold info. rewrite (offset_count_num info Hinfo), Hr, skipn_skipn.
  do 3 f_equal. lia.
Qed.

Lemma collect_any fx md e f aw : wf_mode md -> reads_width fx (fde_info f) aw ->
  forall l bs rest fuel idx, spec_rows_at e aw bs l rest -> fde_num_fres f = idx + zlen l -> (length l < fuel)%nat ->
  (fix_tail fx = true \/ Forall (fun r => sr_start r < fde_size f) l) ->
  exists good, fri_collect_with fuel fx md e (FreIter f bs idx) = Ok (map inl good) /\ map view_fre good = l.
Proof.
  intros Hmd HW. induction l as [|r t IH]; intros bs rest fuel idx H Hn Hfu HT;
    (destruct fuel as [|k]; [cbn in Hfu; lia|]); cbn [fri_collect_with]; unfold fri_next_with; cbn [ri_fde ri_fres ri_index].
  - rewrite zlen_nil in Hn. replace (fde_num_fres f <=? idx) with true by lia. exists []. split; reflexivity.
  - cbn [spec_rows_at] in H. destruct H as (mid & H1 & H2).
    rewrite zlen_cons in Hn. pose proof (zlen_nonneg t). replace (fde_num_fres f <=? idx) with false by lia.
    destruct (load_any fx md e f bs aw r mid Hmd HW H1) as (fr & -> & HV).
    { destruct HT as [HT|HT]; [left; exact HT|right; inversion HT; assumption]. }
    destruct (IH mid rest k (idx + 1) H2) as (good & -> & HG); [lia|cbn in Hfu; lia| |].
    { destruct HT as [HT|HT]; [left; exact HT|right; inversion HT; assumption]. }
    exists (fr :: good). split; [reflexivity|]. cbn [map]. congruence.
Qed.

(** ** C39: what [build] writes can be read if the iterator allows rows behind the end *)

Theorem tail_readable md md' e s bs : sfb_reach md s -> build md e s = Ok bs -> wf_mode md' -> rust_slice md' bs ->
  exists sf, load md' e bs = Ok sf /\
    Forall2 (fun b en => exists good, all_fres_with tail_only md' e en = Ok (map inl good) /\ map view_fre good = map written (rows_of b))
      (fdes_of s) (all_fdes sf).
Proof.
  intros H B Hm Hs. destruct (built md e s bs H B) as (W & -> & T & _).
  exists (built_sf e s). split; [exact (image_loads md' e s Hm W T Hs)|].
  destruct (built_entries e s W T) as [HLen HE].
  apply Forall2_nth; [exact HLen|]. intros i b Hb. exists (built_entry e s i b). split; [apply HE, Hb|].
  destruct (in_fdes_wf s i b W Hb) as [Wb _].
  pose proof (rows_enc_spec e (addr_bytes (start_size b)) (rows_of b) (rows_enc e (skipn (S i) (fdes_of s))) (starts_fit b Wb)) as HS.
  fold (fde_enc e b) in HS. pose proof (built_fde_ok s i b W T Hb) as (_ & _ & _ & _ & Hi8).
  pose proof (built_width s i b) as Haw. rewrite <- (fretype_num _ Hi8) in Haw. apply width_of_fretype in Haw.
  unfold all_fres_with. apply (collect_any tail_only md' e (built_fde s i b) _ Hm Haw _ _ _ _ 0 HS).
  - unfold built_fde. cbn [fde_num_fres fde_raw f2_num_fres]. rewrite rows_of_len, zlen_map. reflexivity.
  - rewrite map_length. unfold fri_fuel, fres, built_entry. cbn [ri_fres en_fres]. rewrite app_length.
    pose proof (rows_le_size b). rewrite <- (fde_enc_zlen e b Wb) in *. unfold zlen in *. lia.
  - left. reflexivity.
Qed.

(** ** C37 and C141: the repaired writer *)

Lemma std_info_width fx b : reads_width fx (std_info_of b) (start_width (rows_of b)).
Proof.
  unfold reads_width, fretype_with, std_info_of, start_width. set (m := fold_right _ _ _).
  destruct (fix_bits fx), (m <=? 127); try destruct (m <=? 32767); destruct (fb_pauth b), (fb_rep_size b); cbn; auto.
Qed.

Section Written.
  Context (fx : rfixes) (md md' : mode) (e : endian) (s : sfb) (bs : bytes).
  Context (HR : sfb_reach md s) (HB : build_repaired md e s = Ok bs) (Hm : wf_mode md') (Hs : rust_slice md' bs).
  Context (HT : fix_tail fx = true \/ Forall rows_inside (fdes_of s)).

  Lemma written_loads : load md' e bs = Ok (x_sf e s).
  Proof. destruct (repaired_built md e s bs HR HB) as (W & E & T & _). subst bs. apply ximage_loads; assumption. Qed.

  Lemma x_rows i b : nth_error (fdes_of s) i = Some b ->
    exists good, all_fres_with fx md' e (x_entry e s i b) = Ok (map inl good) /\ map view_fre good = map exact_row (rows_of b).
  Proof.
    intros Hb. destruct (repaired_built md e s bs HR HB) as (W & E & T & _). destruct (in_fdes_wf s i b W Hb) as [Wb _].
    pose proof (xrows_enc_spec e (addr_bytes (start_size b)) (rows_of b) (xrows_enc e (skipn (S i) (fdes_of s))) (rows_typed b Wb) (starts_fit b Wb)) as HS.
    fold (xfde_enc e b) in HS. unfold all_fres_with. rewrite <- start_width_size in HS by exact Wb.
    assert (HW : reads_width fx (fde_info (en_fde (x_entry e s i b))) (start_width (rows_of b))).
    { cbn [x_entry en_fde fde_info]. rewrite xraw_info by exact Wb. apply std_info_width. }
    apply (collect_any fx md' e (en_fde (x_entry e s i b)) _ Hm HW _ _ _ _ 0 HS).
    - cbn [x_entry en_fde fde_num_fres fde_raw_with f2_num_fres]. rewrite rows_of_len, zlen_map. reflexivity.
    - rewrite map_length. unfold fri_fuel, fres, x_entry. cbn [ri_fres en_fres]. rewrite app_length.
      pose proof (rows_le_exact b). rewrite <- (xfde_enc_zlen e b Wb) in *. unfold zlen in *. lia.
    - destruct HT as [X|X]; [left; exact X|right]. rewrite Forall_forall in X. specialize (X b (nth_error_In _ _ Hb)).
      apply Forall_map. exact X.
  Qed.

  Lemma x_good b good : In b (fdes_of s) -> map view_fre good = map exact_row (rows_of b) ->
    Forall2 (fun r fr => fre_start_address_offset fr = r_start r /\ observed (x_sf e s) fr = intended (sb_options s) r) (rows_of b) good.
  Proof.
    intros Hb. pose proof (x_meaning md e s bs HR HB b) as HX. specialize (fun r => HX r Hb).
    generalize dependent (rows_of b). clear Hb. induction good as [|fr good IH]; intros [|r l] HX Hg; try discriminate; constructor.
    - cbn [map] in Hg. pose proof (f_equal (hd (view_fre fr)) Hg) as Hv. cbn [hd] in Hv. split.
      + apply (f_equal sr_start) in Hv. exact Hv.
      + rewrite (observed_std md' e bs _ fr Hm Hs written_loads), Hv. apply HX. left. reflexivity.
    - apply IH; [intros r' Hr'; apply HX; right; exact Hr'|]. exact (f_equal (@tl _) Hg).
  Qed.

  Theorem repaired_round : exists sf, load md' e bs = Ok sf /\
    Forall2 (fun b en => exists good, all_fres_with fx md' e en = Ok (map inl good) /\
      Forall2 (fun r fr => fre_start_address_offset fr = r_start r /\ observed sf fr = intended (sb_options s) r) (rows_of b) good)
      (fdes_of s) (all_fdes sf).
  Proof.
    exists (x_sf e s). split; [exact written_loads|]. destruct (repaired_built md e s bs HR HB) as (W & _).
    destruct (x_entries e s W) as [HLen HE]. apply Forall2_nth; [exact HLen|]. intros i b Hb.
    exists (x_entry e s i b). split; [apply HE, Hb|]. destruct (x_rows i b Hb) as (good & HA & HG). exists good. split; [exact HA|].
    apply x_good; [apply (nth_error_In _ _ Hb)|exact HG].
  Qed.

  Lemma x_same i b : nth_error (fdes_of s) i = Some b -> fix_bits fx = true ->
    en_start_address (x_entry e s i b) = fb_start b /\ en_size (x_entry e s i b) = fb_size b /\
    pauth_key_with fx (fde_info (en_fde (x_entry e s i b))) = fb_pauth b /\
    forall a, lib_offset_with fx (x_entry e s i b) a = Some (offset_in b a).
  Proof.
    intros Hb HX. destruct (repaired_built md e s bs HR HB) as (W & _ & _ & _ & U). destruct (in_fdes_wf s i b W Hb) as [Wb _].
    split; [reflexivity|]. split; [reflexivity|].
    assert (EI : fde_info (en_fde (x_entry e s i b)) = std_info_of b) by (apply xraw_info, Wb).
    rewrite EI. destruct (std_info_bits b) as (_ & B4 & B5). split.
    - unfold pauth_key_with. rewrite HX, bit_whole by lia. destruct (bits1_cases 5 (std_info_of b)) as [E5|E5]; rewrite E5 in *; exact B5.
    - intros a. unfold lib_offset_with, offset_in. change (en_start_address (x_entry e s i b)) with (fb_start b).
      assert (ET : fde_fdetype_with fx (en_fde (x_entry e s i b)) = match fb_rep_size b with Some _ => PPcMask | None => PPcInc end).
      { cbn [x_entry en_fde fde_info] in EI |- *. unfold fde_fdetype_with, fdetype_with. rewrite EI, HX, bit_whole by lia.
        destruct (bits1_cases 4 (std_info_of b)) as [E4|E4]; rewrite E4 in *; destruct (fb_rep_size b); try discriminate; reflexivity. }
      rewrite ET. destruct (fb_rep_size b) as [rep|] eqn:Er; [|reflexivity].
      assert (ER : en_rep_block_size (x_entry e s i b) = Some rep) by (unfold en_rep_block_size, x_entry; cbn; rewrite Er; reflexivity).
      rewrite ER. destruct (Z.eqb_spec rep 0) as [->|_]; [|reflexivity].
      exfalso. apply U. exists b. split; [apply (nth_error_In _ _ Hb)|]. left. exact Er.
  Qed.

  Theorem repaired_iter_says sf : fix_bits fx = true -> load md' e bs = Ok sf ->
    forall a k u, lib_says_with fx md' e sf a k u <-> asked_with_key s a k u.
  Proof.
    intros HX HL a k u. rewrite written_loads in HL. injection HL as <-. destruct (repaired_built md e s bs HR HB) as (W & _).
    destruct (x_entries e s W) as [HLen HE]. split.
    - intros (en & good & x & fr & Hen & Hrng & HA & HO & Hfr & Hle & Hmax & Hk & Hu).
      apply In_nth_error in Hen. destruct Hen as [i Hen]. destruct (nth_error (fdes_of s) i) as [b|] eqn:Hb.
      2:{ apply nth_error_None in Hb. assert (i < length (all_fdes (x_sf e s)))%nat by (apply nth_error_Some; congruence). lia. }
      rewrite (HE i b Hb) in Hen. injection Hen as <-. destruct (x_same i b Hb HX) as (E1 & E2 & E3 & E4).
      rewrite E1, E2 in Hrng. rewrite E3 in Hk. rewrite E4 in HO. injection HO as <-.
      destruct (x_rows i b Hb) as (good' & HA' & HG). rewrite HA' in HA. injection HA as HA. apply (@map_inl_inj _ read_error) in HA. subst good'.
      pose proof (x_good b good (nth_error_In _ _ Hb) HG) as HF.
      destruct (CopyFacts.Forall2_in_r _ _ _ HF fr Hfr) as (r & Hr & Es & Eu).
      exists b, r. split; [apply (nth_error_In _ _ Hb)|]. split; [exact Hrng|]. split; [|split; [exact Hk|congruence]].
      split; [exact Hr|]. split; [lia|]. intros r' Hr' Hle'. destruct (CopyFacts.Forall2_in_l _ _ _ HF r' Hr') as (fr' & Hfr' & Es' & _).
      specialize (Hmax fr' Hfr'). lia.
    - intros (b & r & Hb & Hrng & (Hr & Hle & Hmax) & Hk & Hu). apply In_nth_error in Hb. destruct Hb as [i Hb].
      destruct (x_same i b Hb HX) as (E1 & E2 & E3 & E4). destruct (x_rows i b Hb) as (good & HA & HG).
      pose proof (x_good b good (nth_error_In _ _ Hb) HG) as HF. destruct (CopyFacts.Forall2_in_l _ _ _ HF r Hr) as (fr & Hfr & Es & Eu).
      exists (x_entry e s i b), good, (offset_in b a), fr. split; [apply (nth_error_In _ _ (HE i b Hb))|]. rewrite E1, E2, E3, E4.
      split; [exact Hrng|]. split; [exact HA|]. split; [reflexivity|]. split; [exact Hfr|]. split; [lia|]. split; [|split; congruence].
      intros fr' Hfr' Hle'. destruct (CopyFacts.Forall2_in_r _ _ _ HF fr' Hfr') as (r' & Hr' & Es' & _). rewrite Es, Es' in *. auto.
  Qed.
End Written.

(** The reader of /repo, where no row lies behind the end. *)
Lemma collect_unrepaired md e : forall fuel it, fri_collect_with fuel no_rfixes md e it = fri_collect fuel md e it.
Proof.
  induction fuel as [|k IH]; intros it; [reflexivity|]. cbn [fri_collect_with fri_collect]. unfold fri_next_with, fri_next.
  destruct (_ <=? _); [reflexivity|]. rewrite load_unrepaired. destruct (fre_load md e (ri_fde it) (ri_fres it)) as [[fr rest]| |]; try reflexivity; rewrite IH; reflexivity.
Qed.
Theorem all_fres_unrepaired md e en : all_fres_with no_rfixes md e en = all_fres md e en.
Proof. apply collect_unrepaired. Qed.

Theorem repaired_round_reader md md' e s bs : sfb_reach md s -> Forall rows_inside (fdes_of s) -> build_repaired md e s = Ok bs ->
  wf_mode md' -> rust_slice md' bs -> exists sf, load md' e bs = Ok sf /\
    Forall2 (fun b en => exists good, all_fres md' e en = Ok (map inl good) /\
      Forall2 (fun r fr => fre_start_address_offset fr = r_start r /\ observed sf fr = intended (sb_options s) r) (rows_of b) good)
      (fdes_of s) (all_fdes sf).
Proof.
  intros H HI B Hm Hs. destruct (repaired_round no_rfixes md md' e s bs H B Hm Hs (or_intror HI)) as (sf & HL & HF).
  exists sf. split; [exact HL|]. clear HL. revert HI HF. generalize (fdes_of s) (all_fdes sf). intros l l' HI HF. clear B. induction HF as [|b en t t' (good & HA & HG) _ IH]; constructor; [|apply IH; inversion HI; assumption].
  exists good. rewrite all_fres_unrepaired in HA. auto.
Qed.

(** ** C100 *)

Theorem text_total fx alt dt md e bs sf : fix_tail fx = true -> wf_mode md -> rust_slice md bs -> load md e bs = Ok sf ->
  exists text, section_text_with fx alt dt md e sf = Ok text.
Proof.
  intros HT Hm Hs HL. pose proof (DebugFacts.loaded_entries_ok md e bs sf Hm Hs HL) as HO. unfold section_text_with.
  assert (HE : exists l, entries_debug_with fx md e (all_fdes sf) = Ok l).
  { induction HO as [|en t Hen _ (l & IH)]; [exists []; reflexivity|]. cbn [entries_debug_with].
    destruct (rows_total fx md e en HT Hen) as (good & bad & HR & _). unfold entry_debug_with. rewrite HR. cbn [bind]. rewrite IH. eexists. reflexivity. }
  destruct HE as (l & ->). eexists. reflexivity.
Qed.

Theorem text_same alt dt md e sf text : section_text alt dt md e sf = Ok text -> section_text_with tail_only alt dt md e sf = Ok text.
Proof.
  unfold section_text, section_debug, section_text_with.
  assert (HE : forall l x, entries_debug md e l = Ok x -> entries_debug_with tail_only md e l = Ok x).
  { induction l as [|en t IH]; intros x Hx; [exact Hx|]. cbn [entries_debug entries_debug_with] in *.
    apply bind_ok in Hx. destruct Hx as (d & H1 & H2). apply bind_ok in H2. destruct H2 as (y & H2 & H3).
    rewrite (IH y H2). unfold entry_debug in H1. apply bind_ok in H1. destruct H1 as (rows & H1 & H4).
    unfold entry_debug_with. rewrite (rows_same md e en rows H1). cbn [bind] in *. rewrite <- H3. injection H4 as <-. reflexivity. }
  destruct (entries_debug md e (all_fdes sf)) as [l| |] eqn:E; cbn [bind]; try discriminate. rewrite (HE _ _ E). cbn [bind]. auto.
Qed.

(** ** Without repairs it is what /repo does *)

Theorem says_unrepaired md e sf a k u : lib_says_with no_rfixes md e sf a k u <-> lib_says md e sf a k u.
Proof.
  unfold lib_says_with, lib_says. split; intros (en & good & x & fr & H1 & H2 & H3 & H4); exists en, good, x, fr;
    (split; [exact H1|split; [exact H2|split; [|exact H4]]]); [rewrite <- all_fres_unrepaired|rewrite all_fres_unrepaired]; exact H3.
Qed.
Theorem text_unrepaired alt dt md e sf : section_text_with no_rfixes alt dt md e sf = section_text alt dt md e sf.
Proof.
  unfold section_text_with, section_text, section_debug.
  assert (HE : forall l, entries_debug_with no_rfixes md e l = entries_debug md e l).
  { induction l as [|en t IH]; [reflexivity|]. cbn [entries_debug_with entries_debug]. rewrite IH.
    unfold entry_debug_with, entry_debug. rewrite all_fres_unrepaired. reflexivity. }
  rewrite HE. destruct (entries_debug md e (all_fdes sf)); reflexivity.
Qed.
