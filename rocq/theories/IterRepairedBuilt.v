(** Look-ups with the repaired reader in sections that the writer of /repo built (C135). *)
From Coq Require Import Lia Sorted.
From Verif Require Import BaseFacts LoadFacts RowFacts SearchFacts LookupFacts SectionFacts RoundFacts TripFacts MergeRowFacts StdSpec StdFacts RepairedFacts
  IterLook ReadRepairedSpec ReadRepairedFacts ConvProps.
From Verif Require Export IterRepairedLook.
Open Scope Z_scope.
Open Scope list_scope.

(** At [a] the row [r] of the function [b] is in effect. *)
Definition in_effect_at (s : sfb) (a : Z) (b : fdb) (r : row) : Prop :=
  In b (fdes_of s) /\ in_range (fb_start b) (fb_size b) a /\ in_effect (rows_of b) (offset_in b a) r.

Lemma load_lib md e f bs aw r rest : wf_mode md -> in_u8 (fde_info f) -> width_of (fre_type_num (fde_info f)) = Some aw ->
  spec_row_at e aw bs r rest -> exists fr, fre_load_with lib_rfixes md e f bs = Ok (fr, rest) /\ view_fre fr = r.
Proof.
  intros Hmd Hi Haw H. pose proof (width_cases _ _ Haw) as Haw'.
  destruct (spec_row_facts e aw bs r rest Haw' H) as (ow & How & Hc & Hl & Hr & Hst). cbv zeta in *.
  pose proof (fre_of_view e f aw ow bs Haw' (width_cases _ _ How) How Hc Hl) as HV.
  destruct (spec_row_fun e aw bs _ _ _ _ Haw' H HV) as [HE _].
  exists (fre_of e f (Z.to_nat aw) (Z.to_nat ow) bs). split; [|symmetry; exact HE].
  unfold fre_load_with. change (fretype_with lib_rfixes (fde_info f)) with (fretype (fde_info f)).
  rewrite <- (fretype_num _ Hi) in Haw. apply width_of_fretype in Haw.
  assert (HH : match fretype (fde_info f) with
    | Addr1 => fre_header e 1 bs
    | Addr2 => fre_header e 2 bs
    | Addr4 => fre_header e 4 bs
    | ty => Err (UnsupportedFreType ty)
    end = fre_header e (Z.to_nat aw) bs)
    by (destruct Haw as [[-> ->]|[[-> ->]|[-> ->]]]; reflexivity).
  rewrite HH. clear HH. unfold fre_header.
  set (info := rd_u e (Z.to_nat aw) 1 bs) in *.
  assert (Hinfo : in_u8 info) by apply rd_u1.
  pose proof (width_cases _ _ How) as How'.
  assert (Hc0 : 0 <= bits 1 4 info) by (unfold bits; lia).
  assert (Hco : 0 <= bits 1 4 info * ow) by (destruct How' as [->|[->| ->]]; lia).
  destruct (Nat.ltb_spec (length bs) (Z.to_nat aw + 1)) as [Hx|_]; [unfold zlen in *; lia|].
  cbn [bind]. fold info. rewrite (offset_count_num info Hinfo).
  replace ((0 <=? bits 1 4 info) && (bits 1 4 info <=? 3)) with true by lia. cbn [negb].
  assert (HH : match offset_size info with
      | Off1B => fre_read_offsets md e 1 (bits 1 4 info) (skipn (Z.to_nat aw + 1) bs)
      | Off2B => fre_read_offsets md e 2 (bits 1 4 info) (skipn (Z.to_nat aw + 1) bs)
      | Off4B => fre_read_offsets md e 4 (bits 1 4 info) (skipn (Z.to_nat aw + 1) bs)
      | ty => Err (UnsupportedFreOffset ty)
      end = fre_read_offsets md e (Z.to_nat ow) (bits 1 4 info) (skipn (Z.to_nat aw + 1) bs)).
  { rewrite <- (offset_size_num info Hinfo) in How. apply width_of_offset in How.
    destruct How as [[-> ->]|[[-> ->]|[-> ->]]]; reflexivity. }
  rewrite HH. clear HH. unfold fre_read_offsets, slice_from_prefix.
  assert (Hbits : 12 < 2 ^ usize_bits md) by (destruct Hmd as [-> | ->]; reflexivity).
  replace (Z.of_nat (Z.to_nat ow)) with ow by lia. rewrite (Z.mul_comm (bits 1 4 info) ow) in *.
  replace (2 ^ usize_bits md <=? ow * bits 1 4 info) with false
    by (symmetry; apply Z.leb_gt; destruct How' as [->|[->| ->]]; lia).
  assert (Hsk : zlen (skipn (Z.to_nat aw + 1) bs) = zlen bs - aw - 1) by (unfold zlen in *; rewrite skipn_length; lia).
  rewrite Hsk. replace (zlen bs - aw - 1 <? ow * bits 1 4 info) with false by lia.
  cbn [ok_or bind fst snd lib_rfixes fix_tail orb]. unfold fre_of. fold info. rewrite (offset_count_num info Hinfo), Hr, skipn_skipn.
  do 3 f_equal. lia.
Qed.

Lemma last_lib md e f aw off : wf_mode md -> in_u8 (fde_info f) -> width_of (fre_type_num (fde_info f)) = Some aw ->
  forall rows bs rest idx fuel best, spec_rows_at e aw bs rows rest -> fde_num_fres f = idx + zlen rows -> (length rows < fuel)%nat ->
  exists o, fri_last_with fuel lib_rfixes md e (fun fr => fr_start fr <=? off) best (FreIter f bs idx) = Ok o /\
    option_map view_fre o = spec_last off (option_map view_fre best) rows.
Proof.
  intros Hmd Hi Haw. induction rows as [|r t IH]; intros bs rest idx fuel best HS HN HF; (destruct fuel as [|k]; [cbn in HF; lia|]);
    cbn [fri_last_with spec_last]; unfold fri_next_with; cbn [ri_fde ri_fres ri_index]; rewrite HN.
  - change (zlen (@nil spec_row)) with 0. replace (idx + 0 <=? idx) with true by lia. eauto.
  - rewrite zlen_cons. pose proof (zlen_nonneg t). replace (idx + _ <=? idx) with false by lia.
    destruct HS as (mid & HR & HS). destruct (load_lib md e f bs aw r mid Hmd Hi Haw HR) as (fr & -> & HV).
    rewrite <- HV. change (sr_start (view_fre fr)) with (fr_start fr).
    destruct (fr_start fr <=? off); [|eauto].
    rewrite zlen_cons in HN. apply (IH mid rest (idx + 1) k (Some fr) HS); [lia|cbn in HF; lia].
Qed.

Section Built.
  Context (md md' : mode) (e : endian) (s : sfb) (bs : bytes) (sf : sframe).
  Context (Hr : sfb_reach md s) (B : build md e s = Ok bs) (Hmd : wf_mode md') (Hsl : rust_slice md' bs) (HL : load md' e bs = Ok sf).

  Lemma row_lib i b a : nth_error (fdes_of s) i = Some b -> in_i32 a -> in_range (fb_start b) (fb_size b) a ->
    if match fb_rep_size b with Some 0 => true | _ => false end
    then get_fre_whole lib_rfixes md' e (built_entry e s i b) a = Err (inr InvalidFdeRepBlockSize)
    else exists o, get_fre_whole lib_rfixes md' e (built_entry e s i b) a = Ok o /\
      option_map view_fre o = spec_last (offset_in b a) None (map written (rows_of b)).
  Proof.
    intros Hb Ha Hin. destruct (built_is md md' e s bs sf Hr B Hmd Hsl HL) as (W & T & _). destruct (in_fdes_wf s i b W Hb) as [Wb _].
    pose proof (built_fde_ok s i b W T Hb) as Hok. pose proof Hok as (H1 & _ & _ & _ & Hi8).
    destruct (built_same e s i b) as (E1 & E2 & E3 & E4 & _).
    pose proof (rows_enc_spec e (addr_bytes (start_size b)) (rows_of b) (rows_enc e (skipn (S i) (fdes_of s))) (starts_fit b Wb)) as HS.
    fold (fde_enc e b) in HS.
    assert (HC : forall x, exists o, fri_pick_with lib_rfixes md' e (fun fr => fr_start fr <=? x) (fres (built_entry e s i b)) = Ok o /\
      option_map view_fre o = spec_last x None (map written (rows_of b))).
    { intros x. unfold fri_pick_with. cbn [lib_rfixes fix_look all_repairs fix_pick].
      apply (last_lib md' e (built_fde s i b) _ x Hmd Hi8 (built_width s i b)) with (best := None) (1 := HS).
      - unfold built_fde. cbn [fde_num_fres fde_raw f2_num_fres]. rewrite rows_of_len, zlen_map. reflexivity.
      - rewrite map_length. unfold fri_fuel, fres, built_entry. cbn [ri_fres en_fres]. rewrite app_length.
        pose proof (rows_le_size b). rewrite <- (fde_enc_zlen e b Wb) in *. unfold zlen in *. lia. }
    unfold get_fre_whole. rewrite E1, E2, E4.
    change (fde_fdetype_with lib_rfixes (en_fde (built_entry e s i b))) with (en_fdetype (built_entry e s i b)). rewrite E3.
    unfold in_range in Hin. replace (a <? fb_start b) with false by lia. change (fix_look lib_rfixes) with all_repairs.
    assert (Hs32 : in_i32 (fb_start b)) by (rewrite <- E1; exact H1).
    destruct (@distance_fixed (fuel_error + read_error)%type all_repairs md' a _ eq_refl Ha Hs32 ltac:(lia)) as (d & -> & Hu). cbn [bind].
    rewrite Hu. replace (fb_size b <? a - fb_start b) with false by lia. unfold pub_type, offset_in.
    destruct (fb_rep_size b) as [[|p|p]|]; cbn [Z.eqb]; try reflexivity; apply HC.
  Qed.

  Lemma rows_ascend b : fdb_wf b -> starts_ascend (map written (rows_of b)).
  Proof.
    intros Wb. assert (HA : ascends (rows_of b)).
    { destruct Wb. unfold rows_of. apply sorted_ascends; assumption. }
    clear Wb. unfold starts_ascend, ascends in *. induction HA as [|x l HA IH HF]; cbn [map]; constructor; [exact IH|].
    rewrite Forall_map. exact HF.
  Qed.

  Theorem built_answers a : in_i32 a ->
    match lookup_key lib_rfixes md' e sf a with
    | Ok (Some (k, u)) => exists b r, in_effect_at s a b r /\ k = fb_pauth b /\ u = std_unwind bs (written r)
    | Ok None => forall b r, ~ in_effect_at s a b r
    | Err (inr InvalidFdeRepBlockSize) => exists b, In b (fdes_of s) /\ in_range (fb_start b) (fb_size b) a /\ fb_rep_size b = Some 0
    | _ => False
    end.
  Proof.
    intros Ha. destruct (built_sorted md e s bs Hr B) as (Hf & HD & HN).
    assert (HLO : laid_out e bs) by (unfold laid_out; rewrite Hf; exact HD).
    destruct (built_is md md' e s bs sf Hr B Hmd Hsl HL) as (W & T & Hsf).
    destruct (built_entries e s W T) as [N1 X1].
    pose proof (function_whole md' e bs sf Hmd Hsl HL a Ha HLO) as HFN.
    rewrite <- (function_same lib_rfixes md' sf a eq_refl eq_refl eq_refl) in HFN.
    unfold lookup_key. destruct (fde_for_address_whole lib_rfixes md' sf a) as [[en|]|er|]; try contradiction.
    - destruct HFN as [Hen Hin]. rewrite Hsf in Hen. apply In_nth_error in Hen. destruct Hen as [i Hen].
      destruct (nth_error (fdes_of s) i) as [b|] eqn:Hb.
      2:{ apply nth_error_None in Hb. assert (i < length (all_fdes (built_sf e s)))%nat by (apply nth_error_Some; congruence). lia. }
      rewrite (X1 i b Hb) in Hen. injection Hen as <-. destruct (built_same e s i b) as (E1 & E2 & _ & _ & E5 & _).
      rewrite E1, E2 in Hin. pose proof (nth_error_In _ _ Hb) as HbI.
      pose proof (row_lib i b a Hb Ha Hin) as HR. destruct (in_fdes_wf s i b W Hb) as [Wb _].
      assert (HB : if match fb_rep_size b with Some 0 => true | _ => false end then fb_rep_size b = Some 0 else True)
        by (destruct (fb_rep_size b) as [[|p|p]|]; auto).
      destruct (match fb_rep_size b with Some 0 => true | _ => false end).
      + rewrite HR. exists b. auto.
      + destruct HR as (o & -> & Ho).
        pose proof (spec_last_best (offset_in b a) _ None (rows_ascend b Wb) ltac:(discriminate)) as HX. rewrite <- Ho in HX.
        destruct o as [fr|]; cbn [option_map] in HX |- *.
        * destruct HX as ([HX|HX] & Hle & Hmax); [discriminate|]. apply in_map_iff in HX. destruct HX as (r & HV & Hr').
          exists b, r. split; [|split].
          { split; [exact HbI|]. split; [exact Hin|]. split; [exact Hr'|].
            rewrite <- HV in Hle, Hmax. cbn [written sr_start] in Hle, Hmax. split; [exact Hle|].
            intros r' Hr2 Hle2. apply (Hmax (written r') (in_map written _ _ Hr2) Hle2). }
          { exact E5. }
          { rewrite (observed_std md' e bs sf fr Hmd Hsl HL), HV. reflexivity. }
        * destruct HX as [_ HX]. intros c r (Hc & Hcin & (Hrc & Hle & _)).
          apply In_nth_error in Hc. destruct Hc as [j Hc].
          assert (i = j) by exact (disjoint_starts md e s bs Hr B i j b c a Hb Hc Hin Hcin). subst j.
          assert (c = b) by congruence. subst c. specialize (HX (written r) (in_map written _ _ Hrc)). cbn [written sr_start] in HX. lia.
    - intros b r (Hb & Hin & _). apply In_nth_error in Hb. destruct Hb as [i Hb]. apply (HFN (built_entry e s i b)).
      + rewrite Hsf. apply (nth_error_In _ i), X1, Hb.
      + destruct (built_same e s i b) as (E1 & E2 & _). rewrite E1, E2. exact Hin.
  Qed.
End Built.

Theorem converted_answers md md' md'' op eh s e bs : eh_typed eh -> dwarf2sframe md op eh = Ok s -> build md' e s = Ok bs ->
  wf_mode md'' -> rust_slice md'' bs -> exists sf, load md'' e bs = Ok sf /\
    forall a, in_i32 a -> exists o, lookup_key lib_rfixes md'' e sf a = Ok o.
Proof.
  intros Ht H B Hm Hsl. pose proof (dwarf2sframe_converted _ _ _ _ Ht H) as [_ Ho Ha].
  assert (HR : sfb_reach md' s).
  { apply sfb_sized_reach. destruct s as [o m]; cbn in *; subst o. eapply assembled_sized; [apply opts_reached|apply options_eq|exact Ha]. }
  pose proof (sfb_reach_wf _ _ HR) as W. destruct (built_image _ _ _ _ W B) as [T E].
  assert (HL : load md'' e bs = Ok (built_sf e s)) by (subst bs; apply image_loads; assumption).
  exists (built_sf e s). split; [exact HL|]. intros a Hia.
  pose proof (built_answers md' md'' e s bs _ HR B Hm Hsl HL a Hia) as HX.
  destruct (lookup_key lib_rfixes md'' e (built_sf e s) a) as [o|[z|er]|]; [eauto|contradiction| |contradiction].
  destruct er; try contradiction. destruct HX as (b & Hb & _ & Hz). exfalso.
  destruct (conv_functions md op eh s Ht H) as (_ & HF & _). destruct (HF b Hb) as (f & _ & _ & _ & Hn & _). congruence.
Qed.
