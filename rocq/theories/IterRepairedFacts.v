(** Facts about [IterRepaired.v]. *)
From Coq Require Import Lia.
From Verif Require Import LoadFacts SearchFacts StdFacts RepairedFacts ReadRepairedSpec ReadRepairedFacts ReadRepairedTotal.
From Verif Require Export IterRepaired.
Open Scope Z_scope.
Open Scope list_scope.

(** ** C08 *)

(** The entry of index [i] with its own rows. *)
Definition whole_index (l : list fde) (fr : bytes) (o : option entry) (i : option Z) : Prop :=
  match o, i with
  | None, None => True
  | Some en, Some i => 0 <= i < zlen l /\ nth_error (map (entry_of fr) l) (Z.to_nat i) = Some en
  | _, _ => False
  end.

Lemma step_whole rp l fr w op : fix_rows rp = true -> win_ok l w ->
  whole_index l fr (fst (fdi_step_with rp (FdeIter (window l w) fr) op)) (fst (window_step w op)) /\
  win_ok l (snd (window_step w op)) /\
  snd (fdi_step_with rp (FdeIter (window l w) fr) op) = FdeIter (window l (snd (window_step w op))) fr.
Proof.
  intros HR HW. destruct w as [lo hi]. assert (HW' := HW). unfold win_ok in HW'. cbn [fst snd] in HW'.
  assert (HN : forall k x, nth_error l k = Some x -> nth_error (map (entry_of fr) l) k = Some (entry_of fr x)).
  { intros k x Hx. rewrite nth_error_map, Hx. reflexivity. }
  destruct op as [| |n]; cbn [fdi_step_with window_step].
  - destruct (Z.ltb_spec lo hi) as [Hlt|Hge]; unfold fdi_next; cbn [it_fdes it_fres].
    + destruct (window_cons l lo hi HW Hlt) as (x & Hx & ->). cbn [fst snd whole_index].
      repeat split; cbn; try (apply HN; assumption); try lia.
    + rewrite window_empty by lia. cbn. repeat split; cbn; try lia. rewrite window_empty by lia. reflexivity.
  - destruct (Z.ltb_spec lo hi) as [Hlt|Hge]; unfold fdi_next_back_with; cbn [it_fdes it_fres].
    + destruct (window_snoc l lo hi HW Hlt) as (x & Hx & ->). rewrite rev_app_distr. cbn [rev app fst snd whole_index]. rewrite HR.
      rewrite rev_involutive. repeat split; cbn; try (apply HN; assumption); try lia.
    + rewrite window_empty by lia. cbn. repeat split; cbn; try lia. rewrite window_empty by lia. reflexivity.
  - unfold fdi_nth_with; cbn [it_fdes it_fres].
    destruct (Z.ltb_spec (lo + Z.of_nat n) hi) as [Hlt|Hge].
    + rewrite window_skipn by (cbn; try assumption; lia). cbn [fst snd].
      destruct (window_cons l (lo + Z.of_nat n) hi) as (x & Hx & ->); [unfold win_ok; cbn; lia|lia|]. rewrite HR.
      unfold fdi_next. cbn [it_fdes it_fres fst snd whole_index]. repeat split; cbn; try (apply HN; assumption); try lia.
    + rewrite skipn_all2.
      2:{ pose proof (window_length l (lo, hi) HW) as HL. unfold zlen in HL. cbn in HL. lia. }
      cbn [fst snd whole_index]. repeat split; cbn; try lia. rewrite window_empty by lia. reflexivity.
Qed.

Lemma run_whole rp l fr ops : fix_rows rp = true -> forall w, win_ok l w ->
  Forall2 (whole_index l fr) (fst (fdi_run_with rp (FdeIter (window l w) fr) ops)) (fst (window_run w ops)) /\
  win_ok l (snd (window_run w ops)) /\
  snd (fdi_run_with rp (FdeIter (window l w) fr) ops) = FdeIter (window l (snd (window_run w ops))) fr.
Proof.
  intros HR. induction ops as [|op t IH]; intros w HW; cbn [fdi_run_with window_run].
  - repeat split; cbn; try constructor; apply HW.
  - destruct (step_whole rp l fr w op HR HW) as (H1 & H2 & H3).
    destruct (fdi_step_with rp (FdeIter (window l w) fr) op) as [o it'].
    destruct (window_step w op) as [i w']. cbn [fst snd] in *. subst it'.
    destruct (IH w' H2) as (H4 & H5 & H6).
    destruct (fdi_run_with rp (FdeIter (window l w') fr) t) as [os it''].
    destruct (window_run w' t) as [is w'']. cbn [fst snd] in *.
    repeat split; try assumption; try apply H5. constructor; assumption.
Qed.

Theorem every_path rp md e bs sf ops : fix_rows rp = true ->
  wf_mode md -> rust_slice md bs -> load md e bs = Ok sf ->
  let run := fdi_run_with rp (fdes sf) ops in
  let spec := window_run (0, spec_num_fdes e bs) ops in
  map (option_map (fun en => (view_fde (en_fde en), en_fres en))) (fst run)
    = map (option_map (fun i => (spec_entry e bs i, spec_rows_of e bs (spec_entry e bs i)))) (fst spec) /\
  fdi_size_hint (snd run) = (snd (snd spec) - fst (snd spec), Some (snd (snd spec) - fst (snd spec))).
Proof.
  intros HR Hmd Hlen H. cbv zeta.
  pose proof (loaded_fdes_length md e bs sf Hmd Hlen H) as HN.
  assert (HW : win_ok (it_fdes (fdes sf)) (0, spec_num_fdes e bs)).
  { unfold win_ok. cbn [fst snd]. rewrite <- HN. pose proof (zlen_nonneg (it_fdes (fdes sf))). lia. }
  assert (HE : fdes sf = FdeIter (window (it_fdes (fdes sf)) (0, spec_num_fdes e bs)) (sf_fres sf)).
  { assert (HW0 : window (it_fdes (fdes sf)) (0, spec_num_fdes e bs) = it_fdes (fdes sf)).
    { unfold window. cbn [fst snd]. change (Z.to_nat 0) with 0%nat. cbn [skipn].
      apply firstn_all2. unfold zlen in HN. lia. }
    rewrite HW0. reflexivity. }
  rewrite HE.
  destruct (run_whole rp (it_fdes (fdes sf)) (sf_fres sf) ops HR _ HW) as (H1 & H2 & H3).
  destruct (all_fdes_spec md e bs sf Hmd Hlen H) as [_ HS]. rewrite all_fdes_map in HS.
  split.
  - clear H2 H3. induction H1 as [|o i os is Hoi _ IH]; cbn [map]; [reflexivity|]. f_equal; [|exact IH].
    destruct o as [en|], i as [i|]; cbn [whole_index option_map] in *; try contradiction; [|reflexivity].
    destruct Hoi as [Hi Hn]. destruct (HS _ _ Hn) as (_ & HV & HF). rewrite Z2Nat.id in HV, HF by lia. rewrite HV, HF. reflexivity.
  - rewrite H3. unfold fdi_size_hint. cbn [it_fdes]. rewrite window_length by exact H2. reflexivity.
Qed.

Lemma run_unrepaired ops : forall it, fdi_run_with no_repairs it ops = fdi_run it ops.
Proof.
  induction ops as [|op t IH]; intros it; [reflexivity|]. cbn [fdi_run_with fdi_run].
  assert (HS : fdi_step_with no_repairs it op = fdi_step it op).
  { destruct op; reflexivity. }
  rewrite HS. destruct (fdi_step it op) as [o it']. rewrite IH. reflexivity.
Qed.

(** ** C12 *)

Lemma load_total fx md e f bs : fix_tail fx = true ->
  match fre_load_with fx md e f bs with
  | Ok (_, rest) => (length rest < length bs)%nat | Err _ => True | Panic => False end.
Proof.
  intros HT. unfold fre_load_with. rewrite HT. cbn [orb].
  assert (HH : forall n, (1 <= n)%nat -> match fre_header e n bs with
    | Ok (_, _, rest) => (length rest < length bs)%nat | Err _ => True | Panic => False end).
  { intros n Hn. unfold fre_header. destruct (Nat.ltb_spec (length bs) (n + 1)); [exact I|]. rewrite skipn_length. lia. }
  assert (HB : forall start info obytes, (length obytes < length bs)%nat ->
    match (if negb ((0 <=? offset_count info) && (offset_count info <=? 3))
           then Err (InvalidFreOffsetCount (offset_count info))
           else let* r := match offset_size info with
                  | Off1B => fre_read_offsets md e 1 (offset_count info) obytes
                  | Off2B => fre_read_offsets md e 2 (offset_count info) obytes
                  | Off4B => fre_read_offsets md e 4 (offset_count info) obytes
                  | ty => Err (UnsupportedFreOffset ty)
                  end in
                Ok ({| fr_fde := f; fr_start := start; fr_info := info; fr_offsets := fst r |}, snd r)) with
    | Ok (_, rest) => (length rest < length bs)%nat | Err _ => True | Panic => False end).
  { intros start info obytes Ho. destruct (negb _); [exact I|].
    assert (HO : forall n, match (let* r := fre_read_offsets md e n (offset_count info) obytes in
                  Ok ({| fr_fde := f; fr_start := start; fr_info := info; fr_offsets := fst r |}, snd r)) with
      | Ok (_, rest) => (length rest < length bs)%nat | Err _ => True | Panic => False end).
    { intros n. pose proof (offsets_shorter md e n (offset_count info) obytes) as HS.
      destruct (fre_read_offsets md e n (offset_count info) obytes) as [[x rest]|er|]; cbn [bind fst snd]; [lia|exact I|exact HS]. }
    destruct (offset_size info); try apply HO; exact I. }
  assert (HF : forall n, (1 <= n)%nat -> match fre_header e n bs with
    | Ok (start, info, obytes) => (length obytes < length bs)%nat | Err _ => True | Panic => False end) by exact HH.
  destruct (fretype_with fx (fde_info f)); try exact I.
  - specialize (HF 1%nat ltac:(lia)). destruct (fre_header e 1 bs) as [[[start info] obytes]|er|]; cbn [bind]; [|exact I|exact HF].
    apply (HB start info obytes HF).
  - specialize (HF 2%nat ltac:(lia)). destruct (fre_header e 2 bs) as [[[start info] obytes]|er|]; cbn [bind]; [|exact I|exact HF].
    apply (HB start info obytes HF).
  - specialize (HF 4%nat ltac:(lia)). destruct (fre_header e 4 bs) as [[[start info] obytes]|er|]; cbn [bind]; [|exact I|exact HF].
    apply (HB start info obytes HF).
Qed.

Theorem next_no_panic fx md e it : fix_tail fx = true -> fri_next_with fx md e it <> Panic.
Proof.
  intros HT. unfold fri_next_with. destruct (_ <=? _); [discriminate|]. pose proof (load_total fx md e (ri_fde it) (ri_fres it) HT) as HL.
  destruct (fre_load_with fx md e (ri_fde it) (ri_fres it)) as [[fr rest]|er|]; [discriminate..|contradiction].
Qed.

Lemma collect_total fx md e : fix_tail fx = true -> forall fuel it, fde_num_fres (ri_fde it) <= u32_max ->
  (S (length (ri_fres it)) < fuel)%nat ->
  exists good bad, fri_collect_with fuel fx md e it = Ok (map inl good ++ map inr bad) /\ (length bad <= 1)%nat /\
    (ri_index it <= fde_num_fres (ri_fde it) -> zlen good + zlen bad <= fde_num_fres (ri_fde it) - ri_index it).
Proof.
  intros HT. induction fuel as [|k IH]; intros it Hn Hf; [lia|]. cbn [fri_collect_with]. unfold fri_next_with.
  destruct (Z.leb_spec (fde_num_fres (ri_fde it)) (ri_index it)) as [HI|HI].
  { exists [], []. split; [reflexivity|]. split; [cbn; lia|]. intros H. unfold zlen. cbn [length]. lia. }
  pose proof (load_total fx md e (ri_fde it) (ri_fres it) HT) as HL.
  destruct (fre_load_with fx md e (ri_fde it) (ri_fres it)) as [[fr rest]|er|]; [| |contradiction].
  - destruct (IH (FreIter (ri_fde it) rest (ri_index it + 1)) Hn ltac:(cbn [ri_fres]; lia)) as (good & bad & HC & HB & HS).
    cbn [ri_fde ri_index] in HS. rewrite HC. cbn [bind]. exists (fr :: good), bad. split; [reflexivity|]. split; [exact HB|].
    intros _. specialize (HS ltac:(lia)). rewrite zlen_cons. lia.
  - destruct k as [|k]; [lia|]. cbn [fri_collect_with]. unfold fri_next_with. cbn [ri_fde ri_index].
    destruct (Z.leb_spec (fde_num_fres (ri_fde it)) u32_max) as [_|]; [|lia]. cbn [bind].
    exists [], [er]. split; [reflexivity|]. split; [cbn; lia|]. intros _. unfold zlen. cbn [length]. lia.
Qed.

Theorem rows_total fx md e en : fix_tail fx = true -> fde_ok (en_fde en) ->
  exists good bad, all_fres_with fx md e en = Ok (map inl good ++ map inr bad) /\ (length bad <= 1)%nat /\
    zlen good + zlen bad <= fde_num_fres (en_fde en).
Proof.
  intros HT (_ & _ & _ & HN & _).
  destruct (collect_total fx md e HT (fri_fuel (fres en)) (fres en)) as (good & bad & HC & HB & HS).
  - unfold fres. cbn [ri_fde]. unfold in_u32 in HN. lia.
  - unfold fri_fuel. lia.
  - exists good, bad. split; [exact HC|]. split; [exact HB|]. unfold fres in HS. cbn [ri_fde ri_index] in HS.
    unfold in_u32 in HN. specialize (HS ltac:(lia)). lia.
Qed.

Lemma load_same md e f bs : fre_load md e f bs <> Panic -> fre_load_with tail_only md e f bs = fre_load md e f bs.
Proof.
  rewrite <- load_unrepaired. unfold fre_load_with. cbn [tail_only no_rfixes fix_tail orb].
  change (fretype_with tail_only) with (fretype_with no_rfixes).
  destruct (match fretype_with no_rfixes (fde_info f) with Addr1 => fre_header e 1 bs | Addr2 => fre_header e 2 bs | Addr4 => fre_header e 4 bs | ty => Err (UnsupportedFreType ty) end)
    as [[[start info] obytes]|er|]; cbn [bind]; try reflexivity.
  destruct (negb _); [reflexivity|]. destruct (match offset_size info with Off1B => _ | Off2B => _ | Off4B => _ | OffReserved3 => _ end) as [r|er|]; cbn [bind]; try reflexivity.
  destruct (start <? fde_size f); [reflexivity|]. intros H. contradiction H. reflexivity.
Qed.

Lemma next_same md e it : fri_next md e it <> Panic -> fri_next_with tail_only md e it = fri_next md e it.
Proof.
  unfold fri_next_with, fri_next. destruct (_ <=? _); [reflexivity|]. intros H. rewrite load_same; [reflexivity|].
  intros HP. rewrite HP in H. contradiction H. reflexivity.
Qed.

Lemma collect_same md e : forall fuel it l, fri_collect fuel md e it = Ok l -> fri_collect_with fuel tail_only md e it = Ok l.
Proof.
  induction fuel as [|k IH]; intros it l H; [discriminate H|]. cbn [fri_collect] in H. cbn [fri_collect_with].
  rewrite next_same by (intros HP; rewrite HP in H; discriminate H).
  destruct (fri_next md e it) as [[[x|] it']|er|]; [|exact H|destruct er|discriminate H].
  destruct (fri_collect k md e it') as [l'|er|] eqn:E; try discriminate H. rewrite (IH _ _ E). exact H.
Qed.
Theorem rows_same md e en l : all_fres md e en = Ok l -> all_fres_with tail_only md e en = Ok l.
Proof. apply collect_same. Qed.

(** ** C17, C18, C137 *)

Lemma contains_same {E} fx md en a : fix_sub (fix_look fx) = true -> @contains_with E fx md en a = contains_with all_rfixes md en a.
Proof. intros H. unfold contains_with, distance. rewrite H. reflexivity. Qed.
Lemma find_same fx md a : fix_sub (fix_look fx) = true -> forall fuel it, fdi_find_with fuel fx md a it = fdi_find_with fuel all_rfixes md a it.
Proof.
  intros H. induction fuel as [|k IH]; intros it; [reflexivity|]. cbn [fdi_find_with]. destruct (fdi_next it) as [[en|] it']; [|reflexivity].
  rewrite (contains_same fx md en a H). destruct (contains_with all_rfixes md en a) as [[|]|er|]; cbn [bind]; auto.
Qed.
Lemma function_same fx md sf a : fix_order (fix_look fx) = true -> fix_rows (fix_look fx) = true -> fix_sub (fix_look fx) = true ->
  fde_for_address_whole fx md sf a = fde_for_address_whole all_rfixes md sf a.
Proof.
  intros HO HR HS. unfold fde_for_address_whole. rewrite (find_same fx md a HS). destruct (negb _); [reflexivity|].
  destruct fx as [[o r p s] b t]. cbn [fix_look fix_order fix_rows fix_sub] in *. subst o r s. reflexivity.
Qed.

Lemma cmp_equal {E} rp md a f : fde_ok f -> in_i32 a -> @search_cmp_with E rp md a f = Ok Equal ->
  in_range (fde_start_address f) (fde_size f) a.
Proof.
  intros (H1 & _) Ha. unfold search_cmp_with, in_range. destruct (Z.ltb_spec a (fde_start_address f)) as [H|H].
  { destruct (fix_order rp); discriminate. }
  assert (HD : forall d, @distance E rp md a (fde_start_address f) = Ok d -> as_u 32 d = a - fde_start_address f).
  { intros d. destruct (fix_sub rp) eqn:EF.
    - destruct (@distance_fixed E rp md a _ EF Ha H1 H) as (d' & -> & Hd). intros [= <-]. exact Hd.
    - unfold distance. rewrite EF. destruct (@sub_i32_fwd E md a _ Ha H1 H) as [(-> & _)|(d' & -> & Hd & _)]; [discriminate|].
      intros [= <-]. exact Hd. }
  destruct (distance rp md a (fde_start_address f)) as [d|er|]; cbn [bind]; try discriminate. rewrite (HD d eq_refl).
  destruct (Z.leb_spec (fde_size f) (a - fde_start_address f)); [destruct (fix_order rp); discriminate|]. lia.
Qed.
Lemma cmp_no_error {E} rp md a f er : @search_cmp_with E rp md a f <> Err er.
Proof.
  unfold search_cmp_with. destruct (a <? _); [discriminate|]. unfold distance, sub_i32.
  destruct (fix_sub rp); [|destruct (in_i32b _); [|destruct (overflow_checks md)]]; cbn [bind]; try discriminate;
    destruct (_ <=? _); discriminate.
Qed.
Lemma contains_true {E} fx md en a : fde_ok (en_fde en) -> in_i32 a -> @contains_with E fx md en a = Ok true ->
  in_range (en_start_address en) (en_size en) a.
Proof.
  intros (H1 & _) Ha. unfold contains_with, in_range, en_start_address. destruct (Z.ltb_spec a (fde_start_address (en_fde en))) as [H|H]; [discriminate|].
  assert (HD : forall d, @distance E (fix_look fx) md a (fde_start_address (en_fde en)) = Ok d -> as_u 32 d = a - fde_start_address (en_fde en)).
  { intros d. destruct (fix_sub (fix_look fx)) eqn:EF.
    - destruct (@distance_fixed E (fix_look fx) md a _ EF Ha H1 H) as (d' & -> & Hd). intros [= <-]. exact Hd.
    - unfold distance. rewrite EF. destruct (@sub_i32_fwd E md a _ Ha H1 H) as [(-> & _)|(d' & -> & Hd & _)]; [discriminate|].
      intros [= <-]. exact Hd. }
  destruct (distance (fix_look fx) md a (fde_start_address (en_fde en))) as [d|er|]; cbn [bind]; try discriminate.
  rewrite (HD d eq_refl). intros [= HX]. apply Z.ltb_lt in HX. lia.
Qed.
Lemma find_sound fx md a fr en : forall l fuel, Forall fde_ok l -> in_i32 a -> fdi_find_with fuel fx md a (FdeIter l fr) = Ok (Some en) ->
  (exists i, nth_error (map (entry_of fr) l) i = Some en) /\ in_range (en_start_address en) (en_size en) a.
Proof.
  induction l as [|f l IH]; intros [|k] Hok Ha; cbn [fdi_find_with fdi_next it_fdes it_fres]; try discriminate.
  fold (entry_of fr f). inversion Hok; subst. destruct (contains_with fx md (entry_of fr f) a) as [[|]|er|] eqn:EC; cbn [bind]; try discriminate.
  - intros [= <-]. split; [exists 0%nat; reflexivity|]. apply (@contains_true fuel_error fx md (entry_of fr f) a); assumption.
  - intros H. destruct (IH k ltac:(assumption) Ha H) as [[i Hi] Hr]. split; [exists (S i); exact Hi|exact Hr].
Qed.

Section Loaded.
  Context (md : mode) (e : endian) (bs : bytes) (sf : sframe).
  Context (Hmd : wf_mode md) (Hlen : rust_slice md bs) (Hl : load md e bs = Ok sf).

  (** The function found contains the address and has its own rows. *)
  Theorem own_rows fx a en : fix_rows (fix_look fx) = true -> in_i32 a -> fde_for_address_whole fx md sf a = Ok (Some en) ->
    exists i, 0 <= i < spec_num_fdes e bs /\ view_fde (en_fde en) = spec_entry e bs i /\
      in_range (sd_start (spec_entry e bs i)) (sd_size (spec_entry e bs i)) a /\
      en_fres en = spec_rows_of e bs (spec_entry e bs i).
  Proof.
    intros HR Ha H. pose proof (loaded_fdes_ok _ _ _ _ Hmd Hlen Hl) as Hok.
    assert (HX : (exists i, nth_error (all_fdes sf) i = Some en) /\ in_range (en_start_address en) (en_size en) a).
    { rewrite all_fdes_map. unfold fde_for_address_whole in H. destruct (negb _).
      - change (fdes sf) with (FdeIter (it_fdes (fdes sf)) (sf_fres sf)) in H at 2.
        exact (find_sound fx md a (sf_fres sf) en _ _ Hok Ha H).
      - pose proof (binary_search_sound md (search_cmp_with (fix_look fx) md a) (it_fdes (fdes sf)) ltac:(intros; apply cmp_no_error)) as HB.
        destruct (binary_search md (search_cmp_with (fix_look fx) md a) (it_fdes (fdes sf))) as [[k|]|er|]; cbn [bind] in H; try discriminate.
        destruct HB as (f & Hk & HE). unfold fdi_nth_with in H. rewrite (nth_error_skipn _ _ _ Hk), HR in H.
        change (fst (fdi_next _)) with (Some (entry_of (sf_fres sf) f)) in H. injection H as <-. split.
        + exists k. rewrite nth_error_map, Hk. reflexivity.
        + rewrite Forall_forall in Hok. exact (cmp_equal _ md a f (Hok f (nth_error_In _ _ Hk)) Ha HE). }
    destruct HX as [[i Hi] Hr]. destruct (all_fdes_spec md e bs sf Hmd Hlen Hl) as [HN HS]. destruct (HS i en Hi) as (_ & HV & HF).
    exists (Z.of_nat i). assert (i < length (all_fdes sf))%nat by (apply nth_error_Some; congruence).
    split; [unfold zlen in HN; lia|]. split; [exact HV|]. split; [rewrite <- HV; exact Hr|exact HF].
  Qed.

  (** In a section laid out as it says, it is found. *)
  Theorem function_found fx a : fix_order (fix_look fx) = true -> fix_rows (fix_look fx) = true -> fix_sub (fix_look fx) = true ->
    in_i32 a -> laid_out e bs ->
    match fde_for_address_whole fx md sf a with
    | Ok (Some en) => exists i, 0 <= i < spec_num_fdes e bs /\ view_fde (en_fde en) = spec_entry e bs i /\
        in_range (sd_start (spec_entry e bs i)) (sd_size (spec_entry e bs i)) a /\
        en_fres en = spec_rows_of e bs (spec_entry e bs i)
    | Ok None => forall i, 0 <= i < spec_num_fdes e bs ->
        ~ in_range (sd_start (spec_entry e bs i)) (sd_size (spec_entry e bs i)) a
    | _ => False
    end.
  Proof.
    intros HO HR HS Ha HLO. destruct (fde_for_address_whole fx md sf a) as [[en|]|er|] eqn:E;
      pose proof (function_whole md e bs sf Hmd Hlen Hl a Ha HLO) as HF; rewrite <- (function_same fx md sf a HO HR HS), E in HF; try exact HF.
    - exact (own_rows fx a en HR Ha E).
    - intros i Hi Hin. destruct (entry_of_index md e bs sf Hmd Hlen Hl i Hi) as (en & Hen & _ & Hv & _). apply (HF en Hen).
      rewrite <- Hv in Hin. exact Hin.
  Qed.
End Loaded.

