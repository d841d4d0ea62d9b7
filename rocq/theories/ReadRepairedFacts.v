(** The look-ups with all repairs made say what the specification says. *)
From Verif Require Export ReadRepairedSpec.
From Verif Require Import BaseFacts LoadFacts RowFacts SearchFacts LookupFacts SectionFacts RoundFacts LocalFacts StdFacts RepairedFacts.

Local Notation AR := all_rfixes.

(** ** The info byte *)

Lemma fretype_whole i aw : in_u8 i -> width_of (bits 0 4 i) = Some aw ->
  (fretype_with AR i = Addr1 /\ aw = 1) \/ (fretype_with AR i = Addr2 /\ aw = 2) \/ (fretype_with AR i = Addr4 /\ aw = 4).
Proof.
  intros Hi. unfold fretype_with, all_rfixes, fix_bits, bits. change 15 with (Z.ones 4). rewrite Z.land_ones by lia.
  change (2 ^ 0) with 1. rewrite Z.div_1_r. set (x := i mod 2 ^ 4). unfold width_of.
  destruct (Z.eqb_spec x 0) as [E|_]; [intros [= <-]; rewrite E; auto|].
  destruct (Z.eqb_spec x 1) as [E|_]; [intros [= <-]; rewrite E; auto|].
  destruct (Z.eqb_spec x 2) as [E|_]; [intros [= <-]; rewrite E; auto|]. discriminate.
Qed.

Lemma bit_whole n i : 0 <= n -> Z.land (Z.shiftr i n) 1 = bits n 1 i.
Proof. intros H. change 1 with (Z.ones 1). rewrite Z.land_ones, Z.shiftr_div_pow2 by lia. reflexivity. Qed.

Lemma bits1_cases n i : bits n 1 i = 0 \/ bits n 1 i = 1.
Proof. unfold bits. change (2 ^ 1) with 2. lia. Qed.

Lemma repeats_whole d : fdetype_with AR (sd_info d) = if std_repeats d then PcMask else PcInc.
Proof.
  unfold fdetype_with, std_repeats, all_rfixes, fix_bits. rewrite bit_whole by lia.
  destruct (bits1_cases 4 (sd_info d)) as [-> | ->]; reflexivity.
Qed.
Lemma key_whole d : pauth_key_with AR (sd_info d) = std_key d.
Proof.
  unfold pauth_key_with, std_key, all_rfixes, fix_bits. rewrite bit_whole by lia.
  destruct (bits1_cases 5 (sd_info d)) as [-> | ->]; reflexivity.
Qed.

(** ** One row *)

Lemma load_whole md e f bs aw r rest : wf_mode md -> in_u8 (fde_info f) -> width_of (bits 0 4 (fde_info f)) = Some aw ->
  spec_row_at e aw bs r rest -> exists fr, fre_load_with AR md e f bs = Ok (fr, rest) /\ view_fre fr = r.
Proof.
  intros Hmd Hi Haw H. pose proof (width_cases _ _ Haw) as Haw'.
  destruct (spec_row_facts e aw bs r rest Haw' H) as (ow & How & Hc & Hl & Hr & Hst). cbv zeta in *.
  pose proof (fre_of_view e f aw ow bs Haw' (width_cases _ _ How) How Hc Hl) as HV.
  destruct (spec_row_fun e aw bs _ _ _ _ Haw' H HV) as [HE _].
  exists (fre_of e f (Z.to_nat aw) (Z.to_nat ow) bs). split; [|symmetry; exact HE].
  unfold fre_load_with.
  assert (HH : match fretype_with AR (fde_info f) with
    | Addr1 => fre_header e 1 bs
    | Addr2 => fre_header e 2 bs
    | Addr4 => fre_header e 4 bs
    | ty => Err (UnsupportedFreType ty)
    end = fre_header e (Z.to_nat aw) bs)
    by (destruct (fretype_whole _ _ Hi Haw) as [[-> ->]|[[-> ->]|[-> ->]]]; reflexivity).
  rewrite HH. clear HH. unfold fre_header.
  set (info := rd_u e (Z.to_nat aw) 1 bs) in *.
  assert (Hinfo : in_u8 info) by apply rd_u1.
  pose proof (width_cases _ _ How) as How'.
  assert (Hc0 : 0 <= bits 1 4 info) by (unfold bits; lia).
  assert (Hco : 0 <= bits 1 4 info * ow) by (destruct How' as [->|[->| ->]]; lia).
  destruct (Nat.ltb_spec (length bs) (Z.to_nat aw + 1)) as [Hx|_]; [unfold zlen in *; lia|].
  cbn [bind]. fold info. rewrite (offset_count_num info Hinfo).
  replace ((0 <=? bits 1 4 info) && (bits 1 4 info <=? 3)) with true by lia. cbn [negb].
  assert (HH : match offset_size info with
      | Off1B => fre_read_offsets md e 1 (bits 1 4 info) (skipn (Z.to_nat aw + 1) bs)
      | Off2B => fre_read_offsets md e 2 (bits 1 4 info) (skipn (Z.to_nat aw + 1) bs)
      | Off4B => fre_read_offsets md e 4 (bits 1 4 info) (skipn (Z.to_nat aw + 1) bs)
      | ty => Err (UnsupportedFreOffset ty)
      end = fre_read_offsets md e (Z.to_nat ow) (bits 1 4 info) (skipn (Z.to_nat aw + 1) bs)).
  { rewrite <- (offset_size_num info Hinfo) in How. apply width_of_offset in How.
    destruct How as [[-> ->]|[[-> ->]|[-> ->]]]; reflexivity. }
  rewrite HH. clear HH. unfold fre_read_offsets, slice_from_prefix.
  assert (Hbits : 12 < 2 ^ usize_bits md) by (destruct Hmd as [-> | ->]; reflexivity).
  replace (Z.of_nat (Z.to_nat ow)) with ow by lia. rewrite (Z.mul_comm (bits 1 4 info) ow) in *.
  replace (2 ^ usize_bits md <=? ow * bits 1 4 info) with false
    by (symmetry; apply Z.leb_gt; destruct How' as [->|[->| ->]]; lia).
  assert (Hsk : zlen (skipn (Z.to_nat aw + 1) bs) = zlen bs - aw - 1) by (unfold zlen in *; rewrite skipn_length; lia).
  rewrite Hsk. replace (zlen bs - aw - 1 <? ow * bits 1 4 info) with false by lia.
  cbn [ok_or bind fst snd all_rfixes fix_tail orb]. unfold fre_of. fold info. rewrite (offset_count_num info Hinfo), Hr, skipn_skipn.
  do 3 f_equal. lia.
Qed.

(** ** The rows of a function *)

Fixpoint spec_last (off : Z) (best : option spec_row) (l : list spec_row) : option spec_row :=
  match l with
  | [] => best
  | x :: t => if sr_start x <=? off then spec_last off (Some x) t else best
  end.

Lemma last_whole md e f aw off : wf_mode md -> in_u8 (fde_info f) -> width_of (bits 0 4 (fde_info f)) = Some aw ->
  forall rows bs rest idx fuel best, spec_rows_at e aw bs rows rest -> fde_num_fres f = idx + zlen rows -> (length rows < fuel)%nat ->
  exists o, fri_last_with fuel AR md e (fun fr => fr_start fr <=? off) best (FreIter f bs idx) = Ok o /\
    option_map view_fre o = spec_last off (option_map view_fre best) rows.
Proof.
  intros Hmd Hi Haw. induction rows as [|r t IH]; intros bs rest idx fuel best HS HN HF; (destruct fuel as [|k]; [cbn in HF; lia|]);
    cbn [fri_last_with spec_last]; unfold fri_next_with; cbn [ri_fde ri_fres ri_index]; rewrite HN.
  - change (zlen (@nil spec_row)) with 0. replace (idx + 0 <=? idx) with true by lia. eauto.
  - rewrite zlen_cons. pose proof (zlen_nonneg t). replace (idx + _ <=? idx) with false by lia.
    destruct HS as (mid & HR & HS). destruct (load_whole md e f bs aw r mid Hmd Hi Haw HR) as (fr & -> & HV).
    rewrite <- HV. change (sr_start (view_fre fr)) with (fr_start fr).
    destruct (fr_start fr <=? off); [|eauto].
    rewrite zlen_cons in HN. apply (IH mid rest (idx + 1) k (Some fr) HS); [lia|cbn in HF; lia].
Qed.

Lemma spec_last_best off : forall rows best, starts_ascend rows ->
  (forall b, best = Some b -> sr_start b <= off /\ Forall (fun g => sr_start b < sr_start g) rows) ->
  match spec_last off best rows with
  | Some r => (best = Some r \/ In r rows) /\ sr_start r <= off /\
      forall g, In g rows -> sr_start g <= off -> sr_start g <= sr_start r
  | None => best = None /\ forall g, In g rows -> off < sr_start g
  end.
Proof.
  induction rows as [|x t IH]; intros best Hs Hb; cbn [spec_last].
  - destruct best as [b|]; [|split; [reflexivity|intros ? []]]. destruct (Hb b eq_refl) as [H _]. split; [left; reflexivity|]. split; [exact H|intros ? []].
  - apply StronglySorted_inv in Hs. destruct Hs as [Hs HF]. destruct (Z.leb_spec (sr_start x) off) as [Hle|Hgt].
    + specialize (IH (Some x) Hs ltac:(intros b E; injection E as <-; split; [exact Hle|exact HF])).
      destruct (spec_last _ (Some x) t) as [fr|]; [|destruct IH as [E _]; discriminate].
      destruct IH as (Hor & Hle' & Hmax). split; [|split; [exact Hle'|]].
      * right. destruct Hor as [E|Hin]; [left; congruence|right; exact Hin].
      * intros g [<-|Hg] Hg'; [|apply Hmax; assumption]. destruct Hor as [E|Hin]; [injection E as <-; lia|].
        rewrite Forall_forall in HF. specialize (HF fr Hin). lia.
    + rewrite Forall_forall in HF. destruct best as [b|].
      * destruct (Hb b eq_refl) as [H HX]. split; [left; reflexivity|]. split; [exact H|]. intros g [<-|Hg] Hg'; [lia|]. specialize (HF g Hg). lia.
      * split; [reflexivity|]. intros g [<-|Hg]; [lia|]. specialize (HF g Hg). lia.
Qed.

Lemma row_at_unique rows off r r' : starts_ascend rows -> std_row_at rows off r -> std_row_at rows off r' -> r = r'.
Proof.
  intros Hs (Hin & Hle & Hmax) (Hin' & Hle' & Hmax').
  assert (Heq : sr_start r = sr_start r') by (specialize (Hmax r' Hin' Hle'); specialize (Hmax' r Hin Hle); lia).
  clear - Hs Hin Hin' Heq. induction rows as [|g t IH]; [destruct Hin|]. apply StronglySorted_inv in Hs. destruct Hs as [Hs HF].
  rewrite Forall_forall in HF. destruct Hin as [->|Hin], Hin' as [->|Hin']; [reflexivity| | |apply IH; assumption].
  - specialize (HF r' Hin'). lia.
  - specialize (HF r Hin). lia.
Qed.

(** ** Functions *)

Lemma contains_whole {E} md en a : fde_ok (en_fde en) -> in_i32 a ->
  exists b, @contains_with E AR md en a = Ok b /\ (b = true <-> in_range (en_start_address en) (en_size en) a).
Proof.
  intros (H1 & _) Ha. unfold contains_with, in_range, en_start_address. destruct (Z.ltb_spec a (fde_start_address (en_fde en))) as [H|H].
  - exists false. split; [reflexivity|]. split; [discriminate|lia].
  - destruct (@distance_fixed E all_repairs md a _ eq_refl Ha H1 H) as (d & Hd & Hu).
    change (fix_look AR) with all_repairs. rewrite Hd. cbn [bind]. rewrite Hu. eexists. split; [reflexivity|]. rewrite Z.ltb_lt. lia.
Qed.

Lemma find_whole md a fr : forall l fuel, Forall fde_ok l -> in_i32 a -> (length l < fuel)%nat ->
  match fdi_find_with fuel AR md a (FdeIter l fr) with
  | Ok (Some en) => In en (map (entry_of fr) l) /\ in_range (en_start_address en) (en_size en) a
  | Ok None => forall f, In f l -> ~ in_range (fde_start_address f) (fde_size f) a
  | _ => False
  end.
Proof.
  induction l as [|f l IH]; intros fuel Hok Ha Hf.
  - destruct fuel; [lia|]. cbn. auto.
  - destruct fuel as [|k]; [cbn in Hf; lia|]. cbn [fdi_find_with].
    change (fdi_next (FdeIter (f :: l) fr)) with (Some (entry_of fr f), FdeIter l fr). cbv beta iota.
    inversion Hok as [|? ? Hf1 Hfl]; subst.
    destruct (@contains_whole fuel_error md (entry_of fr f) a Hf1 Ha) as (b & -> & HC). cbn [bind]. destruct b.
    + split; [left; reflexivity|]. apply HC. reflexivity.
    + specialize (IH k Hfl Ha ltac:(cbn in Hf; lia)).
      destruct (fdi_find_with k AR md a {| it_fdes := l; it_fres := fr |}) as [[en|]|er|]; try exact IH.
      * destruct IH as [H1 H2]. split; [right; exact H1|exact H2].
      * intros g [<-|Hg]; [|apply IH, Hg]. intros X. assert (HX : false = true) by (apply HC; exact X). discriminate HX.
Qed.

Lemma search_whole md a (l : list fde) : Forall fde_ok l -> in_i32 a ->
  (forall i j f g, nth_error l i = Some f -> nth_error l j = Some g -> (i < j)%nat -> fde_start_address f + fde_size f <= fde_start_address g) ->
  match binary_search md (search_cmp_with all_repairs md a) l with
  | Ok (Some k) => exists f, nth_error l k = Some f /\ in_range (fde_start_address f) (fde_size f) a
  | Ok None => forall f, In f l -> ~ in_range (fde_start_address f) (fde_size f) a
  | _ => False
  end.
Proof.
  intros Hok Ha HD. rewrite Forall_forall in Hok.
  destruct (Exists_dec (fun f => in_range (fde_start_address f) (fde_size f) a) l) as [HE|HE].
  - intros f. unfold in_range. destruct (Z_le_dec (fde_start_address f) a), (Z_lt_dec a (fde_start_address f + fde_size f)); [left; lia|right; lia..].
  - apply Exists_exists in HE. destruct HE as (f & Hf & Hin). destruct (In_nth_error _ _ Hf) as (k & Hk).
    assert (HB : binary_search md (search_cmp_with all_repairs md a) l = Ok (Some k)).
    { apply search_finds; [|apply nth_error_Some; congruence]. intros j g Hj.
      rewrite cmp_fixed by (try assumption; apply Hok, (nth_error_In _ _ Hj)). f_equal. unfold in_range in Hin.
      assert (0 <= fde_size g) by (destruct (Hok g (nth_error_In _ _ Hj)) as (_ & [? _] & _); assumption).
      destruct (Nat.ltb_spec j k) as [Hjk|Hjk].
      - specialize (HD j k g f Hj Hk Hjk). replace (a <? fde_start_address g) with false by lia.
        replace (fde_start_address g + fde_size g <=? a) with true by lia. reflexivity.
      - destruct (Nat.eqb_spec j k) as [E|E].
        + subst j. assert (g = f) by congruence. subst g. replace (a <? fde_start_address f) with false by lia.
          replace (fde_start_address f + fde_size f <=? a) with false by lia. reflexivity.
        + specialize (HD k j f g Hk Hj ltac:(lia)). replace (a <? fde_start_address g) with true by lia. reflexivity. }
    rewrite HB. eauto.
  - assert (Hout : forall f, In f l -> ~ in_range (fde_start_address f) (fde_size f) a).
    { intros f Hf Hin. apply HE, Exists_exists. eauto. }
    pose proof (binary_search_sound md (search_cmp_with all_repairs md a) l) as HS.
    assert (Hne : forall f er, In f l -> @search_cmp_with fuel_error all_repairs md a f <> Err er).
    { intros f er Hf. rewrite cmp_fixed by (try assumption; apply Hok, Hf). discriminate. }
    specialize (HS Hne). destruct (binary_search md (search_cmp_with all_repairs md a) l) as [[i|]|er|].
    + exfalso. destruct HS as (f & Hi & Hc). pose proof (nth_error_In _ _ Hi) as Hf. rewrite cmp_fixed in Hc by (try assumption; apply Hok, Hf).
      apply (Hout f Hf). unfold in_range. destruct (Z.ltb_spec a (fde_start_address f)); [discriminate|].
      destruct (Z.leb_spec (fde_start_address f + fde_size f) a); [discriminate|]. lia.
    + exact Hout.
    + exact HS.
    + destruct HS as (f & Hf & Hc). rewrite cmp_fixed in Hc by (try assumption; apply Hok, Hf). discriminate.
Qed.

(** ** Sections *)

Section Loaded.
  Context (md : mode) (e : endian) (bs : bytes) (sf : sframe).
  Context (Hmd : wf_mode md) (Hlen : rust_slice md bs) (Hl : load md e bs = Ok sf).

  Lemma function_whole a : in_i32 a -> laid_out e bs ->
    match fde_for_address_whole AR md sf a with
    | Ok (Some en) => In en (all_fdes sf) /\ in_range (en_start_address en) (en_size en) a
    | Ok None => forall en, In en (all_fdes sf) -> ~ in_range (en_start_address en) (en_size en) a
    | _ => False
    end.
  Proof.
    intros Ha HLO. destruct (load_accessors md e bs sf Hmd Hlen Hl) as (_ & HFl & _).
    pose proof (loaded_fdes_length md e bs sf Hmd Hlen Hl) as HL.
    pose proof (loaded_fdes_ok _ _ _ _ Hmd Hlen Hl) as Hok.
    unfold fde_for_address_whole. rewrite sorted_flag_land, HFl. unfold laid_out, is_sorted_flag in HLO.
    rewrite all_fdes_map. destruct (Z.odd (spec_flags bs)); cbn [negb].
    - change (fix_look AR) with all_repairs.
      assert (HD : forall i j f g, nth_error (it_fdes (fdes sf)) i = Some f -> nth_error (it_fdes (fdes sf)) j = Some g -> (i < j)%nat ->
        fde_start_address f + fde_size f <= fde_start_address g).
      { intros i j f g Hi Hj Hij. destruct (nth_error_entry _ _ _ _ _ _ Hmd Hlen Hl Hi) as [HR Hv].
        destruct (nth_error_entry _ _ _ _ _ _ Hmd Hlen Hl Hj) as [HR' Hv'].
        specialize (HLO (Z.of_nat i) (Z.of_nat j) ltac:(lia) ltac:(lia)). rewrite <- Hv, <- Hv' in HLO. exact HLO. }
      pose proof (search_whole md a _ Hok Ha HD) as HS.
      destruct (binary_search md (search_cmp_with all_repairs md a) (it_fdes (fdes sf))) as [[k|]|er|]; cbn [bind]; try contradiction.
      + destruct HS as (f & Hk & Hin). unfold fdi_nth_with. rewrite (nth_error_skipn _ _ _ Hk). cbn [all_repairs fix_rows].
        change (fst (fdi_next _)) with (Some (entry_of (sf_fres sf) f)). cbv beta iota.
        split; [apply in_map, (nth_error_In _ _ Hk)|exact Hin].
      + intros en Hen. apply in_map_iff in Hen. destruct Hen as (f & <- & Hf). apply HS, Hf.
    - pose proof (find_whole md a (sf_fres sf) (it_fdes (fdes sf)) (S (length (it_fdes (fdes sf)))) Hok Ha ltac:(lia)) as HS.
      change (FdeIter (it_fdes (fdes sf)) (sf_fres sf)) with (fdes sf) in HS.
      destruct (fdi_find_with _ AR md a (fdes sf)) as [[en|]|er|]; try exact HS.
      intros en Hen. apply in_map_iff in Hen. destruct Hen as (f & <- & Hf). apply HS, Hf.
  Qed.

  Lemma only_function a i j : laid_out e bs -> 0 <= i < spec_num_fdes e bs -> 0 <= j < spec_num_fdes e bs ->
    in_range (sd_start (spec_entry e bs i)) (sd_size (spec_entry e bs i)) a ->
    in_range (sd_start (spec_entry e bs j)) (sd_size (spec_entry e bs j)) a -> i = j.
  Proof.
    unfold laid_out. destruct (is_sorted_flag bs); intros HLO Hi Hj Ri Rj; [|apply (HLO i j a); assumption].
    unfold in_range in *. destruct (Z.lt_trichotomy i j) as [L|[L|L]]; [|exact L|].
    - specialize (HLO i j ltac:(lia) ltac:(lia)). lia.
    - specialize (HLO j i ltac:(lia) ltac:(lia)). lia.
  Qed.

  Lemma row_whole a en i rows off : in_i32 a -> fde_ok (en_fde en) -> view_fde (en_fde en) = spec_entry e bs i ->
    en_fres en = spec_rows_of e bs (spec_entry e bs i) -> spec_version bs = 2 ->
    in_range (en_start_address en) (en_size en) a -> std_rows e bs (spec_entry e bs i) rows ->
    std_offset (spec_entry e bs i) a = Some off ->
    exists o, get_fre_whole AR md e en a = Ok o /\ option_map view_fre o = spec_last off None rows.
  Proof.
    intros Ha Hok Hv Hf HV2 Hr HS HO. destruct HS as (aw & rest & W & HN & HR).
    set (d := spec_entry e bs i) in *. pose proof Hok as (H1 & _ & _ & _ & Hi).
    assert (EI : fde_info (en_fde en) = sd_info d) by (rewrite <- Hv; reflexivity).
    assert (EN : fde_num_fres (en_fde en) = sd_num_fres d) by (rewrite <- Hv; reflexivity).
    assert (ES : en_start_address en = sd_start d) by (rewrite <- Hv; reflexivity).
    assert (EP : en_rep_block_size en = sd_rep d) by (rewrite <- Hv; reflexivity).
    assert (HP : exists rep, sd_rep d = Some rep).
    { unfold d, spec_entry. cbv zeta. rewrite HV2. change (2 =? 1) with false. cbv iota. eexists. reflexivity. }
    assert (EF : fde_fdetype_with AR (en_fde en) = if std_repeats d then PPcMask else PPcInc).
    { destruct HP as (rep & HP). rewrite <- EP in HP. unfold en_rep_block_size in HP. unfold fde_fdetype_with.
      destruct (en_fde en) as [f1|f2]; [discriminate HP|]. cbn [fde_info] in EI. rewrite EI, repeats_whole.
      destruct (std_repeats d); reflexivity. }
    assert (HC : forall x, exists o, fri_pick_with AR md e (fun fr => fr_start fr <=? x) (fres en) = Ok o /\
      option_map view_fre o = spec_last x None rows).
    { intros x. unfold fri_pick_with. cbn [all_rfixes fix_look all_repairs fix_pick].
      apply (last_whole md e (en_fde en) aw x Hmd Hi) with (rest := rest) (best := None).
      - rewrite EI. exact W.
      - rewrite Hf. exact HR.
      - rewrite EN. lia.
      - pose proof (rows_count e aw rows (width_cases _ _ W) _ _ HR) as L. unfold fri_fuel, fres. cbn [ri_fres]. rewrite Hf. lia. }
    unfold in_range, en_start_address, en_size in Hr. unfold get_fre_whole, en_start_address, en_size.
    replace (a <? fde_start_address (en_fde en)) with false by lia. change (fix_look AR) with all_repairs.
    destruct (@distance_fixed (fuel_error + read_error)%type all_repairs md a _ eq_refl Ha H1 ltac:(lia)) as (d0 & -> & Hu). cbn [bind]. rewrite Hu.
    replace (fde_size (en_fde en) <? a - fde_start_address (en_fde en)) with false by lia.
    rewrite EF, EP. unfold en_start_address in ES. rewrite ES. unfold std_offset in HO.
    destruct (std_repeats d).
    - destruct (sd_rep d) as [rep|]; [|discriminate]. destruct (rep =? 0); [discriminate|]. injection HO as <-. apply HC.
    - injection HO as <-. apply HC.
  Qed.

  Theorem whole_says a : in_i32 a -> spec_version bs = 2 -> laid_out e bs -> legible e bs a ->
    (forall k u, lookup_key AR md e sf a = Ok (Some (k, u)) <-> std_says e bs a k u) /\
    (lookup_key AR md e sf a = Ok None <-> forall k u, ~ std_says e bs a k u).
  Proof.
    intros Ha HV2 HLO HG.
    assert (HM : good_magic e bs /\ layout_fits e bs).
    { destruct (proj1 (load_ok_iff md e bs Hmd Hlen) (ex_intro _ sf Hl)) as (HM & _ & HF). auto. }
    pose proof (function_whole a Ha HLO) as HFN. unfold lookup_key.
    destruct (fde_for_address_whole AR md sf a) as [[en|]|er|]; try contradiction.
    - destruct HFN as [Hen Hin]. destruct (entry_at md e bs sf Hmd Hlen Hl en Hen) as (i & Hi & Hok & Hv & Hf).
      assert (Hin' : in_range (sd_start (spec_entry e bs i)) (sd_size (spec_entry e bs i)) a) by (rewrite <- Hv; exact Hin).
      destruct (HG i Hi Hin') as ((rows & HS & Hasc) & HO).
      destruct (std_offset (spec_entry e bs i) a) as [off|] eqn:Eo; [|congruence].
      destruct (row_whole a en i rows off Ha Hok Hv Hf HV2 Hin HS Eo) as (o & -> & Ho).
      assert (EK : pauth_key_with AR (fde_info (en_fde en)) = std_key (spec_entry e bs i)) by (rewrite <- key_whole, <- Hv; reflexivity).
      assert (Hall : forall k u, std_says e bs a k u <-> exists r, std_row_at rows off r /\ k = std_key (spec_entry e bs i) /\ u = std_unwind bs r).
      { intros k u. split.
        - intros (_ & _ & _ & j & rows' & x & r & Hj & Hjr & HS' & Hx & Hr & Hk & Hu).
          assert (j = i) by (apply (only_function a); assumption). subst j.
          rewrite (std_rows_fun _ _ _ _ _ HS' HS) in Hr. rewrite Eo in Hx. injection Hx as <-. exists r. auto.
        - intros (r & Hr & -> & ->). destruct HM as [M L]. split; [exact M|]. split; [exact HV2|]. split; [exact L|].
          exists i, rows, off, r. auto 10. }
      pose proof (spec_last_best off rows None Hasc ltac:(discriminate)) as HB. rewrite <- Ho in HB.
      destruct o as [fr|]; cbn [option_map] in HB |- *.
      + destruct HB as ([HB|HB] & Hle & Hmax); [discriminate|].
        assert (HR : std_row_at rows off (view_fre fr)) by (split; [exact HB|]; split; assumption).
        rewrite EK, (observed_std md e bs sf fr Hmd Hlen Hl). split.
        * intros k u. rewrite Hall. split; [intros [= <- <-]; eauto|]. intros (r & Hr & -> & ->).
          rewrite (row_at_unique rows off r _ Hasc Hr HR). reflexivity.
        * split; [discriminate|]. intros HN. exfalso. apply (HN (std_key (spec_entry e bs i)) (std_unwind bs (view_fre fr))), Hall. eauto.
      + destruct HB as [_ HB]. split.
        * intros k u. rewrite Hall. split; [discriminate|]. intros (r & (Hr & Hle & _) & _). specialize (HB r Hr). lia.
        * split; [|reflexivity]. intros _ k u HX. apply Hall in HX. destruct HX as (r & (Hr & Hle & _) & _). specialize (HB r Hr). lia.
    - assert (HN : forall k u, ~ std_says e bs a k u).
      { intros k u (_ & _ & _ & i & rows & x & r & Hi & Hr & _).
        destruct (entry_of_index md e bs sf Hmd Hlen Hl i Hi) as (en & Hen & _ & Hv & _). apply (HFN en Hen).
        rewrite <- Hv in Hr. exact Hr. }
      split; [|split; [intros _; exact HN|reflexivity]]. intros k u. split; [discriminate|]. intros H. destruct (HN k u H).
  Qed.
End Loaded.

(** ** Without repairs it is the reader as it is *)

Lemma find_unrepaired md a : forall fuel it, fdi_find_with fuel no_rfixes md a it = fdi_find fuel md a it.
Proof.
  induction fuel as [|k IH]; intros it; [reflexivity|]. cbn [fdi_find_with fdi_find]. destruct (fdi_next it) as [[en|] it']; [|reflexivity].
  change (contains_with no_rfixes md en a) with (@contains fuel_error md en a). destruct (contains md en a) as [[|]|er|]; cbn [bind]; auto.
Qed.
Lemma load_unrepaired md e f bs : fre_load_with no_rfixes md e f bs = fre_load md e f bs.
Proof. reflexivity. Qed.
Lemma rows_unrepaired md e p : forall fuel it, fri_find_with fuel no_rfixes md e p it = fri_find fuel md e p it.
Proof.
  induction fuel as [|k IH]; intros it; [reflexivity|]. cbn [fri_find_with fri_find].
  change (fri_next_with no_rfixes md e it) with (fri_next md e it).
  destruct (fri_next md e it) as [[[[fr|er]|] it']|er|]; try reflexivity. destruct (p fr); [reflexivity|apply IH].
Qed.
Theorem whole_unrepaired md e sf a : without_key (lookup_key no_rfixes md e sf a) = lookup md e sf a.
Proof.
  assert (HF : fde_for_address_whole no_rfixes md sf a = fde_for_address md sf a).
  { unfold fde_for_address_whole, fde_for_address. rewrite find_unrepaired. reflexivity. }
  assert (HR : forall en, get_fre_whole no_rfixes md e en a = get_fre_for_address md e en a).
  { intros en. unfold get_fre_whole, get_fre_for_address, fri_pick_with. cbn [no_rfixes fix_look no_repairs fix_pick].
    change (distance no_repairs md a (en_start_address en)) with (@sub_i32 (fuel_error + read_error)%type md a (en_start_address en)).
    destruct (a <? en_start_address en); [reflexivity|]. destruct (sub_i32 md a (en_start_address en)) as [d|er|]; cbn [bind]; try reflexivity.
    destruct (en_size en <? as_u 32 d); [reflexivity|].
    change (fde_fdetype_with no_rfixes (en_fde en)) with (en_fdetype en).
    destruct (en_fdetype en); [apply rows_unrepaired| |apply rows_unrepaired].
    destruct (en_rep_block_size en) as [rep|]; [|reflexivity]. destruct (rep =? 0); [reflexivity|apply rows_unrepaired]. }
  unfold lookup_key, lookup. rewrite HF. destruct (fde_for_address md sf a) as [[en|]|er|]; try reflexivity.
  rewrite HR. destruct (get_fre_for_address md e en a) as [[fr|]|er|]; reflexivity.
Qed.
