(** The repaired look-ups on sections that are not legible. *)
From Verif Require Export ReadRepairedFacts.
From Verif Require Import Repaired RepairedFacts SearchFacts StdFacts.

Lemma offsets_shorter md e n c bs : match fre_read_offsets md e n c bs with
  | Ok (_, rest) => (length rest <= length bs)%nat | Err _ => True | Panic => False end.
Proof.
  unfold fre_read_offsets, slice_from_prefix, ok_or. cbv zeta. destruct (_ <=? _); [exact I|]. destruct (_ <? _); [exact I|].
  cbn [bind fst snd]. rewrite skipn_length. lia.
Qed.

Lemma load_shorter md e f bs : match fre_load_with all_rfixes md e f bs with
  | Ok (_, rest) => (length rest < length bs)%nat | Err _ => True | Panic => False end.
Proof.
  unfold fre_load_with. change (fix_tail all_rfixes) with true. cbn [orb].
  assert (HH : forall n, (1 <= n)%nat -> match fre_header e n bs with
    | Ok (_, _, rest) => (length rest < length bs)%nat | Err _ => True | Panic => False end).
  { intros n Hn. unfold fre_header. destruct (Nat.ltb_spec (length bs) (n + 1)); [exact I|]. rewrite skipn_length. lia. }
  assert (HB : forall start info obytes, (length obytes < length bs)%nat ->
    match (if negb ((0 <=? offset_count info) && (offset_count info <=? 3)) then Err (InvalidFreOffsetCount (offset_count info))
      else let* r := match offset_size info with
             | Off1B => fre_read_offsets md e 1 (offset_count info) obytes
             | Off2B => fre_read_offsets md e 2 (offset_count info) obytes
             | Off4B => fre_read_offsets md e 4 (offset_count info) obytes
             | ty => Err (UnsupportedFreOffset ty) end in
           Ok ({| fr_fde := f; fr_start := start; fr_info := info; fr_offsets := fst r |}, snd r)) with
    | Ok (_, rest) => (length rest < length bs)%nat | Err _ => True | Panic => False end).
  { intros start info obytes Hs. destruct (negb _); [exact I|].
    destruct (offset_size info); try exact I;
      match goal with |- context [fre_read_offsets md e ?n ?c obytes] => pose proof (offsets_shorter md e n c obytes) as HO;
        destruct (fre_read_offsets md e n c obytes) as [[l rest]|er|]; cbn [bind fst snd]; [lia|exact I|exact HO] end. }
  destruct (fretype_with all_rfixes (fde_info f)); cbn [bind]; try exact I;
    match goal with |- context [fre_header e ?n bs] => specialize (HH n ltac:(lia));
      destruct (fre_header e n bs) as [[[start info] obytes]|er|]; cbn [bind]; [apply HB, HH|exact I|exact HH] end.
Qed.

Lemma last_answers md e p : forall fuel best it, (length (ri_fres it) < fuel)%nat -> answered (fri_last_with fuel all_rfixes md e p best it).
Proof.
  induction fuel as [|k IH]; intros best it Hl; [lia|]. cbn [fri_last_with]. unfold fri_next_with.
  destruct (_ <=? _); [exact I|]. pose proof (load_shorter md e (ri_fde it) (ri_fres it)) as HS.
  destruct (fre_load_with all_rfixes md e (ri_fde it) (ri_fres it)) as [[fr rest]|er|]; [|exact I|contradiction].
  destruct (p fr); [|exact I]. apply IH. cbn [ri_fres]. lia.
Qed.
Lemma find_answers md e p : forall fuel it, (length (ri_fres it) < fuel)%nat -> answered (fri_find_with fuel all_rfixes md e p it).
Proof.
  induction fuel as [|k IH]; intros it Hl; [lia|]. cbn [fri_find_with]. unfold fri_next_with.
  destruct (_ <=? _); [exact I|]. pose proof (load_shorter md e (ri_fde it) (ri_fres it)) as HS.
  destruct (fre_load_with all_rfixes md e (ri_fde it) (ri_fres it)) as [[fr rest]|er|]; [|exact I|contradiction].
  destruct (p fr); [exact I|]. apply IH. cbn [ri_fres]. lia.
Qed.

Lemma rows_answer md e en a : fde_ok (en_fde en) -> in_i32 a -> answered (get_fre_whole all_rfixes md e en a).
Proof.
  intros (H1 & _) Ha. unfold get_fre_whole, en_start_address. destruct (Z.ltb_spec a (fde_start_address (en_fde en))) as [H|H]; [exact I|].
  change (fix_look all_rfixes) with all_repairs.
  destruct (@distance_fixed (fuel_error + read_error)%type all_repairs md a _ eq_refl Ha H1 H) as (d0 & -> & _). cbn [bind].
  destruct (_ <? _); [exact I|]. unfold fri_pick_with. cbn [all_rfixes fix_look all_repairs fix_pick].
  destruct (fde_fdetype_with _ (en_fde en)) eqn:E.
  - apply last_answers. unfold fri_fuel. lia.
  - destruct (en_rep_block_size en) as [rep|] eqn:Er.
    + destruct (rep =? 0); [exact I|]. apply last_answers. unfold fri_fuel. lia.
    + exfalso. unfold en_rep_block_size in Er. unfold fde_fdetype_with in E. destruct (en_fde en) as [f1|f2]; [|discriminate Er].
      destruct (fdetype_with _ _); discriminate.
  - apply find_answers. unfold fri_fuel. lia.
Qed.

Section Loaded.
  Context (md : mode) (e : endian) (bs : bytes) (sf : sframe).
  Context (Hmd : wf_mode md) (Hlen : rust_slice md bs) (Hl : load md e bs = Ok sf).

  Lemma function_answers a : in_i32 a -> exists o, fde_for_address_whole all_rfixes md sf a = Ok o /\
    forall en, o = Some en -> fde_ok (en_fde en).
  Proof.
    intros Ha. pose proof (loaded_fdes_ok _ _ _ _ Hmd Hlen Hl) as Hok.
    unfold fde_for_address_whole. destruct (negb _).
    - pose proof (find_whole md a (sf_fres sf) (it_fdes (fdes sf)) (S (length (it_fdes (fdes sf)))) Hok Ha ltac:(lia)) as HS.
      change (FdeIter (it_fdes (fdes sf)) (sf_fres sf)) with (fdes sf) in HS.
      destruct (fdi_find_with _ all_rfixes md a (fdes sf)) as [[en|]|er|]; try contradiction.
      + exists (Some en). split; [reflexivity|]. intros en' [= <-]. destruct HS as [Hi _]. apply in_map_iff in Hi.
        destruct Hi as (f & <- & Hf). rewrite Forall_forall in Hok. apply Hok, Hf.
      + exists None. split; [reflexivity|discriminate].
    - change (fix_look all_rfixes) with all_repairs. rewrite Forall_forall in Hok.
      pose proof (binary_search_sound md (search_cmp_with all_repairs md a) (it_fdes (fdes sf))) as HS.
      assert (Hc : forall f, In f (it_fdes (fdes sf)) -> exists c, @search_cmp_with fuel_error all_repairs md a f = Ok c).
      { intros f Hf. rewrite cmp_fixed by (try assumption; apply Hok, Hf). eauto. }
      specialize (HS ltac:(intros f er Hf; destruct (Hc f Hf) as [c ->]; discriminate)).
      destruct (binary_search md (search_cmp_with all_repairs md a) (it_fdes (fdes sf))) as [[k|]|er|]; cbn [bind].
      + destruct HS as (f & Hk & _). unfold fdi_nth_with. rewrite (nth_error_skipn _ _ _ Hk). cbn [all_repairs fix_rows].
        change (fst (fdi_next _)) with (Some (entry_of (sf_fres sf) f)). eexists. split; [reflexivity|].
        intros en [= <-]. apply Hok, (nth_error_In _ _ Hk).
      + exists None. split; [reflexivity|discriminate].
      + contradiction.
      + destruct HS as (f & Hf & HP). destruct (Hc f Hf) as [c Hc']. rewrite Hc' in HP. discriminate.
  Qed.

  (** Every look-up is answered, in every section that is accepted. *)
  Theorem whole_answers a : in_i32 a -> answered (lookup_key all_rfixes md e sf a).
  Proof.
    intros Ha. unfold lookup_key. destruct (function_answers a Ha) as (o & -> & Ho). destruct o as [en|]; [|exact I].
    pose proof (rows_answer md e en a (Ho en eq_refl) Ha) as HR.
    destruct (get_fre_whole all_rfixes md e en a) as [x|[er|er]|]; exact HR.
  Qed.

  (** A function whose rows have an unknown format is not answered with one of them. *)
  Theorem whole_unknown a i : in_i32 a -> spec_version bs = 2 -> laid_out e bs -> 0 <= i < spec_num_fdes e bs ->
    in_range (sd_start (spec_entry e bs i)) (sd_size (spec_entry e bs i)) a ->
    width_of (std_fre_type (spec_entry e bs i)) = None -> 0 < sd_num_fres (spec_entry e bs i) ->
    std_offset (spec_entry e bs i) a <> None ->
    exists ty, lookup_key all_rfixes md e sf a = Err (inr (UnsupportedFreType ty)) /\
      fre_type_u8 ty = Z.min 7 (std_fre_type (spec_entry e bs i)).
  Proof.
    intros Ha HV2 HLO Hi Hr HW HN HO. pose proof (function_whole md e bs sf Hmd Hlen Hl a Ha HLO) as HFN. unfold lookup_key.
    destruct (fde_for_address_whole all_rfixes md sf a) as [[en|]|er|]; try contradiction.
    2:{ exfalso. destruct (entry_of_index md e bs sf Hmd Hlen Hl i Hi) as (en & Hen & _ & Hv & _).
        apply (HFN en Hen). rewrite <- Hv in Hr. exact Hr. }
    destruct HFN as [Hen Hin]. destruct (entry_at md e bs sf Hmd Hlen Hl en Hen) as (j & Hj & Hok & Hv & Hf).
    assert (j = i).
    { apply (only_function e bs a); try assumption. rewrite <- Hv. exact Hin. }
    subst j. set (d := spec_entry e bs i) in *. pose proof Hok as (H1 & _ & _ & _ & Hu8).
    assert (EI : fde_info (en_fde en) = sd_info d) by (rewrite <- Hv; reflexivity).
    assert (EN : fde_num_fres (en_fde en) = sd_num_fres d) by (rewrite <- Hv; reflexivity).
    assert (EP : en_rep_block_size en = sd_rep d) by (rewrite <- Hv; reflexivity).
    assert (HP : exists rep, sd_rep d = Some rep).
    { unfold d, spec_entry. cbv zeta. rewrite HV2. change (2 =? 1) with false. cbv iota. eexists. reflexivity. }
    assert (EF : fde_fdetype_with all_rfixes (en_fde en) = if std_repeats d then PPcMask else PPcInc).
    { destruct HP as (rep & HP). rewrite <- EP in HP. unfold en_rep_block_size in HP. unfold fde_fdetype_with.
      destruct (en_fde en) as [f1|f2]; [discriminate HP|]. cbn [fde_info] in EI. rewrite EI, repeats_whole.
      destruct (std_repeats d); reflexivity. }
    assert (HT : exists ty, fre_load_with all_rfixes md e (en_fde en) (en_fres en) = Err (UnsupportedFreType ty) /\
      fre_type_u8 ty = Z.min 7 (std_fre_type d)).
    { unfold fre_load_with. rewrite EI. unfold std_fre_type in HW |- *.
      assert (Hb : 0 <= bits 0 4 (sd_info d) < 16) by (unfold bits; change (2 ^ 4) with 16; lia).
      unfold fretype_with. cbn [all_rfixes fix_bits]. change 0xF with (Z.ones 4). rewrite Z.land_ones by lia.
      replace (sd_info d mod 2 ^ 4) with (bits 0 4 (sd_info d)) by (unfold bits; change (2 ^ 0) with 1; rewrite Z.div_1_r; reflexivity).
      set (x := bits 0 4 (sd_info d)) in *. clearbody x.
      assert (HX : x = 0 \/ x = 1 \/ x = 2 \/ x = 3 \/ x = 4 \/ x = 5 \/ x = 6 \/ x = 7 \/ x = 8 \/ x = 9 \/ x = 10 \/ x = 11 \/
        x = 12 \/ x = 13 \/ x = 14 \/ x = 15) by lia.
      repeat (destruct HX as [->|HX]; [try discriminate HW; eexists; split; reflexivity|]). subst x. eexists. split; reflexivity. }
    destruct HT as (ty & HT & Hty). exists ty. split; [|exact Hty].
    assert (HC : forall p, fri_pick_with all_rfixes md e p (fres en) = Err (inr (UnsupportedFreType ty))).
    { intros p. unfold fri_pick_with, fri_fuel. cbn [all_rfixes fix_look all_repairs fix_pick fri_last_with].
      unfold fri_next_with. unfold fres. cbn [ri_fde ri_index ri_fres]. rewrite EN.
      destruct (Z.leb_spec (sd_num_fres d) 0); [lia|].
      change {| fix_look := all_repairs; fix_bits := true; fix_tail := true |} with all_rfixes. rewrite HT. reflexivity. }
    unfold in_range, en_start_address, en_size in Hin. unfold get_fre_whole, en_start_address, en_size.
    replace (a <? fde_start_address (en_fde en)) with false by lia. change (fix_look all_rfixes) with all_repairs.
    destruct (@distance_fixed (fuel_error + read_error)%type all_repairs md a _ eq_refl Ha H1 ltac:(lia)) as (d0 & -> & Hu). cbn [bind].
    rewrite Hu. replace (fde_size (en_fde en) <? a - fde_start_address (en_fde en)) with false by lia.
    rewrite EF, EP. unfold std_offset in HO. destruct (std_repeats d); [|rewrite HC; reflexivity].
    destruct (sd_rep d) as [rep|]; [|congruence]. destruct (rep =? 0); [congruence|]. rewrite HC. reflexivity.
  Qed.
End Loaded.
