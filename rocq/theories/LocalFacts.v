(** Locality of reading. *)
From Verif Require Import LocalSpec.
From Verif Require Export BaseFacts RawFacts LoadFacts RowFacts SearchFacts RoundFacts SectionFacts.

(** ** One row *)

Lemma row_local md e f aw bs r rest :
  wf_mode md -> fde_ok f -> width_of (fre_type_num (fde_info f)) = Some aw -> spec_row_at e aw bs r rest ->
  exists u, bs = u ++ rest /\ spec_row_at e aw u r [] /\ (2 <= length u)%nat /\
    ((forall x, fre_load md e f (u ++ x) = Panic) \/
     exists fr, row_len fr = zlen u /\ fr_fde fr = f /\ forall x, fre_load md e f (u ++ x) = Ok (fr, x)).
Proof.
  intros Hmd Hf Haw H. pose proof (width_cases _ _ Haw) as Hawc.
  destruct H as (start & b & ow & chunks & Hbs & Hst & Hs & Hb & Hm & Hw & Hch & Hn & Hn3 & Ho).
  assert (Hchunk : forall y, spec_row_at e aw ((start ++ [b] ++ concat chunks) ++ y) r y).
  { intros y. exists start, b, ow, chunks. rewrite <- !app_assoc. repeat apply conj; auto. }
  set (u := start ++ [b] ++ concat chunks) in *.
  assert (Hu0 : spec_row_at e aw u r []) by (rewrite <- (app_nil_r u) at 1; apply Hchunk).
  pose proof (spec_row_facts e aw u r [] Hawc Hu0) as (ow' & K1 & K2 & K3 & K4 & K5).
  set (info := rd_u e (Z.to_nat aw) 1 u) in *.
  assert (Hc0 : 0 <= bits 1 4 info) by (unfold bits; lia).
  pose proof (width_cases _ _ K1) as Howc.
  assert (Hco : 0 <= bits 1 4 info * ow') by (destruct Howc as [->|[->| ->]]; lia).
  assert (Hul : zlen u = aw + 1 + bits 1 4 info * ow').
  { apply (f_equal (@length byte)) in K4. rewrite skipn_length in K4. cbn in K4. unfold zlen in *. lia. }
  exists u. split; [rewrite Hbs; unfold u; rewrite <- !app_assoc; reflexivity|].
  split; [exact Hu0|]. split; [unfold zlen in *; lia|].
  assert (Hinfo : forall x, rd_u e (Z.to_nat aw) 1 (u ++ x) = info).
  { intros x. apply rd_u_app. unfold zlen in *. lia. }
  assert (Hstart : forall x, rd_u e 0 (Z.to_nat aw) (u ++ x) = rd_u e 0 (Z.to_nat aw) u).
  { intros x. apply rd_u_app. unfold zlen in *. lia. }
  assert (HX : forall x, if rd_u e 0 (Z.to_nat aw) u <? fde_size f
    then fre_load md e f (u ++ x) = Ok (fre_of e f (Z.to_nat aw) (Z.to_nat ow') u, x)
    else fre_load md e f (u ++ x) = Panic).
  { intros x. pose proof (fre_load_table md e f (u ++ x) Hmd Hf) as HT. rewrite Haw in HT.
    pose proof (zlen_nonneg x).
    replace (zlen (u ++ x) <? aw + 1) with false in HT by (rewrite zlen_app; lia).
    cbv zeta in HT. rewrite Hinfo, Hstart in HT. replace (3 <? bits 1 4 info) with false in HT by lia.
    rewrite K1 in HT. replace (zlen (u ++ x) <? aw + 1 + bits 1 4 info * ow') with false in HT by (rewrite zlen_app; lia).
    destruct (rd_u e 0 (Z.to_nat aw) u <? fde_size f); [|exact HT].
    rewrite HT. do 2 f_equal.
    - unfold fre_of. rewrite Hinfo, Hstart. fold info. do 2 f_equal.
      rewrite skipn_app. rewrite decode_entries_app; [reflexivity|].
      rewrite skipn_length. rewrite offset_count_num by apply rd_u1. unfold zlen in *.
      destruct Howc as [->|[->| ->]]; lia.
    - apply skipn_app_exact. unfold zlen in *. lia. }
  destruct (rd_u e 0 (Z.to_nat aw) u <? fde_size f); [right|left; exact HX].
  exists (fre_of e f (Z.to_nat aw) (Z.to_nat ow') u). split; [|split; [reflexivity|exact HX]].
  unfold row_len, fre_of. cbn [fr_fde fr_info]. fold info. fold (fre_type_num (fde_info f)).
  rewrite Haw, K1. lia.
Qed.

Lemma loaded_row md e f bs fr rest : wf_mode md -> fde_ok f -> fre_load md e f bs = Ok (fr, rest) ->
  exists u, bs = u ++ rest /\ zlen u = row_len fr /\ (2 <= length u)%nat /\ forall x, fre_load md e f (u ++ x) = Ok (fr, x).
Proof.
  intros Hmd Hf H. destruct (row_decode_sound _ _ _ _ _ _ Hmd Hf H) as (aw & Haw & Hr & _).
  destruct (row_local md e f aw bs _ _ Hmd Hf Haw Hr) as (u & -> & _ & H2 & [HP|(fr' & HL & _ & HX)]).
  - rewrite HP in H. discriminate.
  - rewrite HX in H. injection H as <-. exists u. repeat split; auto.
Qed.

(** ** All rows of a function *)

Lemma rows_split e aw l : forall bs rest, spec_rows_at e aw bs l rest ->
  exists u, bs = u ++ rest /\ spec_rows_at e aw u l [].
Proof.
  induction l as [|r t IH]; intros bs rest H; cbn [spec_rows_at] in *.
  - exists []. split; [exact H|reflexivity].
  - destruct H as (mid & H1 & H2). destruct (IH _ _ H2) as (u & -> & Hu).
    destruct H1 as (start & b & ow & chunks & Hbs & Hrest).
    exists (start ++ [b] ++ concat chunks ++ u). split; [rewrite Hbs, <- !app_assoc; reflexivity|].
    exists u. split; [|exact Hu]. exists start, b, ow, chunks. auto.
Qed.

Lemma rows_local md e f aw : wf_mode md -> fde_ok f -> width_of (fre_type_num (fde_info f)) = Some aw ->
  forall l u x y idx fuel fuel', spec_rows_at e aw u l [] -> fde_num_fres f = idx + zlen l ->
  (length l < fuel)%nat -> (length l < fuel')%nat ->
  fri_collect fuel md e (FreIter f (u ++ x) idx) = fri_collect fuel' md e (FreIter f (u ++ y) idx) /\
  forall p, fri_find fuel md e p (FreIter f (u ++ x) idx) = fri_find fuel' md e p (FreIter f (u ++ y) idx).
Proof.
  intros Hmd Hf Haw. induction l as [|r t IH]; intros u x y idx fuel fuel' H Hn Hk Hk';
    (destruct fuel as [|k]; [cbn in Hk; lia|]); (destruct fuel' as [|k']; [cbn in Hk'; lia|]);
    cbn [fri_collect fri_find]; unfold fri_next; cbn [ri_fde ri_fres ri_index].
  - rewrite zlen_nil in Hn. replace (fde_num_fres f <=? idx) with true by lia. split; reflexivity.
  - cbn [spec_rows_at] in H. destruct H as (mid & H1 & H2). rewrite zlen_cons in Hn. pose proof (zlen_nonneg t).
    replace (fde_num_fres f <=? idx) with false by lia.
    destruct (row_local md e f aw u r mid Hmd Hf Haw H1) as (v & -> & _ & _ & [HP|(fr & _ & _ & HX)]);
      rewrite <- !app_assoc.
    + rewrite !HP. split; reflexivity.
    + rewrite !HX. cbn [length] in *. destruct (IH mid x y (idx + 1) k k' H2 ltac:(lia) ltac:(lia) ltac:(lia)) as [I1 I2].
      rewrite I1. split; [reflexivity|]. intros p. rewrite I2. reflexivity.
Qed.

Lemma rows_count e aw l : aw = 1 \/ aw = 2 \/ aw = 4 -> forall bs rest, spec_rows_at e aw bs l rest -> (length l + length rest <= length bs)%nat.
Proof.
  intros Ha. induction l as [|r t IH]; intros bs rest H; cbn [spec_rows_at] in H; [subst; cbn; lia|].
  destruct H as (mid & (start & b & ow & chunks & Hbs & _) & H2). specialize (IH _ _ H2).
  rewrite Hbs, !app_length. cbn [length]. lia.
Qed.

Lemma search_find md e f u v a : (forall p, fri_find (fri_fuel (fres (Entry f u))) md e p (fres (Entry f u)) =
    fri_find (fri_fuel (fres (Entry f v))) md e p (fres (Entry f v))) ->
  get_fre_for_address md e (Entry f u) a = get_fre_for_address md e (Entry f v) a.
Proof.
  intros H. unfold get_fre_for_address.
  change (en_start_address (Entry f u)) with (en_start_address (Entry f v)).
  change (en_size (Entry f u)) with (en_size (Entry f v)).
  change (en_fdetype (Entry f u)) with (en_fdetype (Entry f v)).
  change (en_rep_block_size (Entry f u)) with (en_rep_block_size (Entry f v)).
  destruct (a <? _); [reflexivity|]. destruct (sub_i32 _ _ _); cbn [bind]; try reflexivity.
  destruct (_ <? _); [reflexivity|]. destruct (en_fdetype _); try apply H.
  destruct (en_rep_block_size _); [|reflexivity]. destruct (_ =? 0); [reflexivity|apply H].
Qed.

Lemma entry_local md e f aw l u x y :
  wf_mode md -> fde_ok f -> width_of (fre_type_num (fde_info f)) = Some aw ->
  spec_rows_at e aw u l [] -> fde_num_fres f = zlen l ->
  all_fres md e (Entry f (u ++ x)) = all_fres md e (Entry f (u ++ y)) /\
  forall a, get_fre_for_address md e (Entry f (u ++ x)) a = get_fre_for_address md e (Entry f (u ++ y)) a.
Proof.
  intros Hmd Hf Haw Hu Hn. pose proof (rows_count e aw l (width_cases _ _ Haw) _ _ Hu) as Hc. cbn in Hc.
  assert (HF : forall z, (length l < fri_fuel (fres (Entry f (u ++ z))))%nat).
  { intros z. unfold fri_fuel, fres. cbn [ri_fres en_fres]. rewrite app_length. lia. }
  pose proof (rows_local md e f aw Hmd Hf Haw l u x y 0 _ _ Hu ltac:(lia) (HF x) (HF y)) as [I1 I2].
  split; [exact I1|]. intros a. apply search_find. exact I2.
Qed.

(** ** The rows a search looks at *)

Lemma find_local md e f : wf_mode md -> fde_ok f ->
  forall fuel bs idx p fr, fri_find fuel md e p (FreIter f bs idx) = Ok (Some fr) ->
  exists pre u x it, bs = u ++ x /\ zlen u = rows_len (pre ++ [fr]) /\
    fri_calls (length (pre ++ [fr])) md e (FreIter f bs idx) = Ok (map (fun g => Some (inl g)) (pre ++ [fr]), it) /\
    forall y fuel', (length u < fuel')%nat -> fri_find fuel' md e p (FreIter f (u ++ y) idx) = Ok (Some fr).
Proof.
  intros Hmd Hf. induction fuel as [|k IH]; intros bs idx p fr H; [discriminate|].
  cbn [fri_find] in H. unfold fri_next in H. cbn [ri_fde ri_fres ri_index] in H.
  destruct (fde_num_fres f <=? idx) eqn:Hi; [discriminate|].
  destruct (fre_load md e f bs) as [[g rest]|er|] eqn:HL; try discriminate.
  destruct (loaded_row md e f bs g rest Hmd Hf HL) as (u & -> & Hu & Hu2 & HX).
  destruct (p g) eqn:Hp.
  - injection H as ->. exists [], u, rest, (FreIter f rest (idx + 1)). split; [reflexivity|].
    split; [cbn; lia|]. split.
    + cbn [app length fri_calls map]. unfold fri_next. cbn [ri_fde ri_fres ri_index]. rewrite Hi, HL. reflexivity.
    + intros y fuel' Hf'. destruct fuel' as [|k']; [lia|]. cbn [fri_find]. unfold fri_next. cbn [ri_fde ri_fres ri_index].
      rewrite Hi, HX, Hp. reflexivity.
  - destruct (IH _ _ _ _ H) as (pre & v & x & it & -> & Hv & Hcalls & HF).
    exists (g :: pre), (u ++ v), x, it. split; [rewrite <- app_assoc; reflexivity|].
    split; [rewrite zlen_app; cbn [app rows_len fold_right]; fold (rows_len (pre ++ [fr])); lia|]. split.
    + cbn [app length fri_calls map]. unfold fri_next at 1. cbn [ri_fde ri_fres ri_index]. rewrite Hi, HL. cbn [bind fst snd].
      rewrite Hcalls. reflexivity.
    + intros y fuel' Hf'. rewrite app_length in Hf'. destruct fuel' as [|k']; [lia|]. cbn [fri_find]. unfold fri_next. cbn [ri_fde ri_fres ri_index].
      rewrite Hi, <- app_assoc, HX, Hp. apply HF. lia.
Qed.

Lemma search_local md e f bs a fr : wf_mode md -> fde_ok f ->
  get_fre_for_address md e (Entry f bs) a = Ok (Some fr) ->
  exists pre u x, bs = u ++ x /\ zlen u = rows_len (pre ++ [fr]) /\ delivers md e (Entry f bs) (pre ++ [fr]) /\
    forall y, get_fre_for_address md e (Entry f (u ++ y)) a = Ok (Some fr).
Proof.
  intros Hmd Hf H. unfold get_fre_for_address in *.
  assert (HS : forall z, en_start_address (Entry f z) = fde_start_address f) by reflexivity.
  assert (HZ : forall z, en_size (Entry f z) = fde_size f) by reflexivity.
  assert (HT : forall z, en_fdetype (Entry f z) = fde_fdetype f) by reflexivity.
  assert (HR : forall z, en_rep_block_size (Entry f z) = fde_rep_size f) by reflexivity.
  rewrite HS, HZ, HT, HR in H.
  destruct (a <? fde_start_address f) eqn:E1; [discriminate|].
  destruct (sub_i32 md a (fde_start_address f)) as [d|er|] eqn:E2; cbn [bind] in H; try discriminate.
  destruct (fde_size f <? as_u 32 d) eqn:E3; [discriminate|].
  assert (HG : forall p, fri_find (fri_fuel (fres (Entry f bs))) md e p (fres (Entry f bs)) = Ok (Some fr) ->
    exists pre u x, bs = u ++ x /\ zlen u = rows_len (pre ++ [fr]) /\ delivers md e (Entry f bs) (pre ++ [fr]) /\
      forall y, fri_find (fri_fuel (fres (Entry f (u ++ y)))) md e p (fres (Entry f (u ++ y))) = Ok (Some fr)).
  { intros p Hp. unfold fres in Hp at 2. cbn [en_fde en_fres] in Hp.
    destruct (find_local md e f Hmd Hf _ _ _ _ _ Hp) as (pre & u & x & it & -> & Hu & Hc & HF).
    exists pre, u, x. split; [reflexivity|]. split; [exact Hu|]. split; [exists it; exact Hc|].
    intros y. unfold fres at 2. cbn [en_fde en_fres]. apply HF. unfold fri_fuel, fres. cbn [ri_fres en_fres]. rewrite app_length. lia. }
  destruct (fde_fdetype f) eqn:E4.
  - destruct (HG _ H) as (pre & u & x & Hb & Hu & Hc & HF). exists pre, u, x. repeat (split; [assumption|]).
    intros y. rewrite HS, HZ, HT, E1, E2. cbn [bind]. rewrite E3. apply HF.
  - destruct (fde_rep_size f) as [rep|] eqn:E5; [|discriminate]. destruct (rep =? 0) eqn:E6; [discriminate|].
    destruct (HG _ H) as (pre & u & x & Hb & Hu & Hc & HF). exists pre, u, x. repeat (split; [assumption|]).
    intros y. rewrite HS, HZ, HT, HR, E1, E2. cbn [bind]. rewrite E3, E6. apply HF.
  - destruct (HG _ H) as (pre & u & x & Hb & Hu & Hc & HF). exists pre, u, x. repeat (split; [assumption|]).
    intros y. rewrite HS, HZ, HT, E1, E2. cbn [bind]. rewrite E3. apply HF.
Qed.

(** ** Sections that agree in places *)

Lemma firstn_prefix {A} (a b : list A) n m : (m <= n)%nat -> firstn n a = firstn n b -> firstn m a = firstn m b.
Proof.
  intros Hm H. rewrite <- (Nat.min_l m n Hm), <- !firstn_firstn, H. reflexivity.
Qed.

Lemma same_sub lo n lo' n' (a b : bytes) : same_at lo n a b -> 0 <= lo -> lo <= lo' -> 0 <= n' -> lo' + n' <= lo + n ->
  same_at lo' n' a b.
Proof.
  unfold same_at, slice. intros H H0 H1 H2 H3.
  apply (f_equal (skipn (Z.to_nat (lo' - lo)))) in H. rewrite !skipn_firstn_comm, !skipn_skipn in H.
  replace (Z.to_nat lo' ) with (Z.to_nat lo + Z.to_nat (lo' - lo))%nat by lia.
  revert H. apply firstn_prefix. lia.
Qed.

Lemma list_eq_nth {A} (a b : list A) : (forall k, nth_error a k = nth_error b k) -> a = b.
Proof.
  revert b. induction a as [|x a IH]; intros [|y b] H; [reflexivity| | |]; try (specialize (H 0%nat); discriminate).
  f_equal; [specialize (H 0%nat); cbn in H; congruence|]. apply IH. intros k. exact (H (S k)).
Qed.
Lemma nth_error_firstn' {A} (l : list A) n k : (k < n)%nat -> nth_error (firstn n l) k = nth_error l k.
Proof.
  revert l k. induction n as [|n IH]; intros l k Hk; [lia|]. destruct l as [|x l]; [destruct k; reflexivity|].
  destruct k; [reflexivity|]. cbn. apply IH. lia.
Qed.
Lemma nth_error_skipn' {A} (l : list A) n k : nth_error (skipn n l) k = nth_error l (n + k).
Proof.
  revert l. induction n as [|n IH]; intros l; [reflexivity|]. destruct l as [|x l]; [destruct k; reflexivity|]. apply IH.
Qed.

Lemma nth_ext_slice lo n (a b : bytes) :
  (forall p, lo <= p < lo + n -> nth_error a (Z.to_nat p) = nth_error b (Z.to_nat p)) -> 0 <= lo -> 0 <= n -> same_at lo n a b.
Proof.
  unfold same_at, slice. intros H H0 Hn. rewrite <- (Z2Nat.id n Hn) in H. generalize dependent (Z.to_nat n). clear Hn n.
  intros n H. apply list_eq_nth. intros k.
  destruct (Nat.lt_ge_cases k n) as [Hk|Hk].
  - rewrite !nth_error_firstn', !nth_error_skipn'; try exact Hk.
    specialize (H (lo + Z.of_nat k) ltac:(lia)). replace (Z.to_nat (lo + Z.of_nat k)) with (Z.to_nat lo + k)%nat in H by lia. exact H.
  - rewrite !(proj2 (nth_error_None _ _)); [reflexivity| |]; rewrite firstn_length; lia.
Qed.

Section Pair.
  Variables (md : mode) (e : endian) (bs bs' : bytes) (sf sf' : sframe).
  Hypothesis Hmd : wf_mode md.
  Hypothesis Hlen : rust_slice md bs.
  Hypothesis Hlen' : rust_slice md bs'.
  Hypothesis Hload : load md e bs = Ok sf.
  Hypothesis Hload' : load md e bs' = Ok sf'.
  Hypothesis Hhead : same_at 0 28 bs bs'.

  Lemma head_slice lo n : 0 <= lo -> 0 <= n -> lo + n <= 28 -> slice lo n bs = slice lo n bs'.
  Proof. intros H0 Hn H. apply (same_sub 0 28); try lia. exact Hhead. Qed.

  Lemma head_fields :
    spec_version bs = spec_version bs' /\ spec_base bs = spec_base bs' /\ spec_num_fdes e bs = spec_num_fdes e bs' /\
    spec_fdeoff e bs = spec_fdeoff e bs' /\ spec_freoff e bs = spec_freoff e bs' /\ spec_fre_len e bs = spec_fre_len e bs'.
  Proof.
    destruct (load_ok _ _ _ _ Hmd Hlen Hload) as (_ & L & _).
    destruct (load_ok _ _ _ _ Hmd Hlen' Hload') as (_ & L' & _).
    destruct (spec_fields e bs ltac:(lia)) as (_ & V & _). destruct (spec_fields e bs' ltac:(lia)) as (_ & V' & _).
    destruct (spec_fields2 e bs L) as (_ & _ & _ & X & _). destruct (spec_fields2 e bs' L') as (_ & _ & _ & X' & _).
    unfold spec_base. rewrite V, V', X, X'.
    unfold spec_num_fdes, spec_fdeoff, spec_freoff, spec_fre_len, u_at.
    rewrite !(head_slice _ 4) by lia.
    assert (R : forall k, (k + 1 <= 28)%nat -> rd_u e k 1 bs = rd_u e k 1 bs').
    { intros k Hk. unfold rd_u. f_equal. pose proof (head_slice (Z.of_nat k) 1 ltac:(lia) ltac:(lia) ltac:(lia)) as R.
      unfold slice in R. rewrite Nat2Z.id in R. exact R. }
    rewrite !R by lia. repeat split; reflexivity.
  Qed.
End Pair.

(** The descriptor at index [i], decoded from its own bytes. *)
Lemma loaded_record md e bs sf i : wf_mode md -> rust_slice md bs -> load md e bs = Ok sf -> 0 <= i < spec_num_fdes e bs ->
  let rec := slice (spec_entry_pos e bs i) (spec_entry_size bs) bs in
  nth_error (it_fdes (fdes sf)) (Z.to_nat i) =
    Some (if spec_version bs =? 1 then FdeV1 (fde1_decode e rec) else FdeV2 (fde2_decode e rec)).
Proof.
  intros Hmd Hlen H Hi. apply load_ok in H; try assumption. destruct H as (-> & H28 & HM & HV & HF).
  destruct (spec_fields e bs ltac:(lia)) as (_ & E1 & _).
  destruct (spec_fields2 e bs H28) as (_ & _ & _ & E6 & E7 & _ & _ & E10 & _).
  rewrite E7 in Hi. pose proof (rd_u1 e 7 bs) as B1. pose proof (rd_u4 e 20 bs) as B2. pose proof (rd_u4 e 8 bs) as B4.
  unfold fdes, loaded. cbn [sf_fdes it_fdes]. cbv zeta.
  unfold spec_entry_pos, spec_base, spec_entry_size, spec_header_size. rewrite E1, E6, E10.
  destruct (Z.eqb_spec (rd_u e 2 1 bs) 1) as [H1|H1]; cbn [it_fdes];
    rewrite nth_error_map, decode_entries_nth by lia; cbn [option_map]; do 3 f_equal;
    unfold slice, sub_bytes; rewrite skipn_skipn; unfold FDE1_SIZE, FDE2_SIZE, HEADER_SIZE;
    f_equal; try lia; f_equal; lia.
Qed.

Lemma spec_rows_cut e bs d n : 0 <= n -> n <= zlen (spec_rows_of e bs d) -> 0 <= spec_base bs + spec_freoff e bs -> 0 <= sd_fre_off d ->
  firstn (Z.to_nat n) (spec_rows_of e bs d) = slice (spec_rows_pos e bs d) n bs.
Proof.
  intros Hn Hle H0 H1. unfold spec_rows_pos, spec_rows_of, spec_fre_bytes, slice, zlen in *.
  rewrite skipn_firstn_comm, skipn_skipn in *. rewrite firstn_length in Hle. rewrite firstn_firstn.
  rewrite Nat.min_l by lia. do 2 f_equal. lia.
Qed.

Lemma fde_view_widths f d : view_fde f = d -> fde_info f = sd_info d /\ fde_num_fres f = sd_num_fres d /\ fde_start_fre_off f = sd_fre_off d.
Proof. intros <-. destruct f; repeat split; reflexivity. Qed.

(** ** C113 *)

Lemma twin_entry md e bs bs' sf sf' i en u x :
  wf_mode md -> rust_slice md bs -> rust_slice md bs' -> load md e bs = Ok sf -> load md e bs' = Ok sf' ->
  same_at 0 28 bs bs' -> same_at (spec_entry_pos e bs (Z.of_nat i)) (spec_entry_size bs) bs bs' ->
  nth_error (all_fdes sf) i = Some en -> en_fres en = u ++ x ->
  same_at (spec_rows_pos e bs (spec_entry e bs (Z.of_nat i))) (zlen u) bs bs' ->
  exists y, nth_error (all_fdes sf') i = Some (Entry (en_fde en) (u ++ y)).
Proof.
  intros Hmd Hlen Hlen' Hl Hl' Hh Hrec Hen Hu Hsame.
  pose proof (head_fields md e bs bs' sf sf' Hmd Hlen Hlen' Hl Hl' Hh) as (HV & HB & HN & HO & HP & HQ).
  destruct (all_fdes_spec md e bs sf Hmd Hlen Hl) as [Hz HA]. destruct (HA _ _ Hen) as (Hok & Hview & Hrows).
  destruct (all_fdes_spec md e bs' sf' Hmd Hlen' Hl') as [Hz' HA'].
  assert (Hi : 0 <= Z.of_nat i < spec_num_fdes e bs).
  { rewrite <- Hz. assert (i < length (all_fdes sf))%nat by (apply nth_error_Some; congruence). unfold zlen. lia. }
  destruct (nth_error (all_fdes sf') i) as [en'|] eqn:Hen'.
  2:{ apply nth_error_None in Hen'. unfold zlen in *. lia. }
  destruct (HA' _ _ Hen') as (Hok' & Hview' & Hrows').
  assert (Hf : en_fde en' = en_fde en).
  { pose proof (loaded_record md e bs sf _ Hmd Hlen Hl Hi) as R. cbv zeta in R. rewrite Nat2Z.id in R.
    assert (Hi' : 0 <= Z.of_nat i < spec_num_fdes e bs') by lia.
    pose proof (loaded_record md e bs' sf' _ Hmd Hlen' Hl' Hi') as R'. cbv zeta in R'. rewrite Nat2Z.id in R'.
    rewrite all_fdes_map, nth_error_map in Hen, Hen'. rewrite R in Hen. rewrite R' in Hen'.
    cbn [option_map] in Hen, Hen'. injection Hen as <-. injection Hen' as <-. cbn [entry_of en_fde].
    unfold same_at in Hrec. unfold spec_entry_pos, spec_entry_size in *. rewrite <- HV, <- HB, <- HO, Hrec. reflexivity. }
  exists (skipn (length u) (en_fres en')). f_equal. destruct en' as [f' r']. cbn [en_fde en_fres] in *. subst f'. f_equal.
  rewrite <- (firstn_skipn (length u) r') at 1. f_equal.
  set (d := spec_entry e bs (Z.of_nat i)) in *. rewrite Hview in Hview'. rewrite <- Hview' in Hrows'. fold d in Hrows'.
  assert (HB0 : 0 <= spec_base bs + spec_freoff e bs).
  { unfold spec_base, spec_header_size. destruct (load_ok _ _ _ _ Hmd Hlen Hl) as (_ & L & _).
    destruct (spec_fields2 e bs L) as (_ & _ & _ & -> & _ & _ & _ & _ & ->). pose proof (rd_u1 e 7 bs). pose proof (rd_u4 e 24 bs). lia. }
  assert (HO0 : 0 <= sd_fre_off d).
  { rewrite <- Hview. destruct (fde_view_widths (en_fde en) _ eq_refl) as (_ & _ & <-). destruct Hok as (_ & _ & K & _). unfold in_u32 in K. lia. }
  pose proof (zlen_nonneg u) as Hu0. unfold same_at in Hsame.
  rewrite <- spec_rows_cut in Hsame; try assumption.
  2:{ rewrite <- Hrows, Hu, zlen_app. pose proof (zlen_nonneg x). lia. }
  rewrite <- Hrows, Hu in Hsame. replace (Z.to_nat (zlen u)) with (length u) in Hsame by (unfold zlen; lia).
  rewrite firstn_app_exact in Hsame by reflexivity.
  rewrite Hrows'. symmetry. etransitivity; [exact Hsame|]. unfold slice, spec_rows_pos, spec_rows_of, spec_fre_bytes, slice.
  rewrite <- HB, <- HP, <- HQ, skipn_firstn_comm, skipn_skipn, firstn_firstn, Nat.min_l.
  - f_equal; [unfold zlen; lia|]. f_equal. lia.
  - apply (f_equal zlen) in Hu. rewrite Hrows, zlen_app in Hu. pose proof (zlen_nonneg x).
    unfold spec_rows_of, spec_fre_bytes, slice, zlen in Hu. rewrite skipn_length, firstn_length in Hu. unfold zlen in *. lia.
Qed.

Theorem own_bytes md e bs bs' sf sf' i aw l rest :
  wf_mode md -> rust_slice md bs -> rust_slice md bs' -> load md e bs = Ok sf -> load md e bs' = Ok sf' ->
  0 <= i < spec_num_fdes e bs ->
  let d := spec_entry e bs i in
  same_at 0 28 bs bs' -> same_at (spec_entry_pos e bs i) (spec_entry_size bs) bs bs' ->
  width_of (bits 0 3 (sd_info d)) = Some aw -> spec_rows_at e aw (spec_rows_of e bs d) l rest -> zlen l = sd_num_fres d ->
  same_at (spec_rows_pos e bs d) (zlen (spec_rows_of e bs d) - zlen rest) bs bs' ->
  exists en en', nth_error (all_fdes sf) (Z.to_nat i) = Some en /\ nth_error (all_fdes sf') (Z.to_nat i) = Some en' /\
    reads_alike md e en en'.
Proof.
  intros Hmd Hlen Hlen' Hl Hl' Hi d Hh Hrec Haw Hr Hn Hsame.
  destruct (all_fdes_spec md e bs sf Hmd Hlen Hl) as [Hz HA].
  destruct (nth_error (all_fdes sf) (Z.to_nat i)) as [en|] eqn:Hen.
  2:{ apply nth_error_None in Hen. unfold zlen in *. lia. }
  destruct (HA _ _ Hen) as (Hok & Hview & Hrows). rewrite Z2Nat.id in Hview, Hrows by lia. fold d in Hview, Hrows.
  destruct (rows_split _ _ _ _ _ Hr) as (u & Hu & Hr0).
  destruct (twin_entry md e bs bs' sf sf' (Z.to_nat i) en u rest Hmd Hlen Hlen' Hl Hl' Hh) as (y & Hy); try rewrite Z2Nat.id by lia; try assumption.
  - congruence.
  - fold d. replace (zlen u) with (zlen (spec_rows_of e bs d) - zlen rest); [exact Hsame|]. rewrite Hu, zlen_app. lia.
  - exists en, (Entry (en_fde en) (u ++ y)). split; [reflexivity|]. split; [exact Hy|]. split; [reflexivity|].
    destruct en as [f r]. cbn [en_fde en_fres] in *. rewrite Hrows, Hu.
    destruct (fde_view_widths f d Hview) as (I1 & I2 & _).
    apply (entry_local md e f aw l); try assumption; [|lia].
    unfold fre_type_num. rewrite I1. exact Haw.
Qed.

Theorem search_reads_no_further md e bs sf i en a fr :
  wf_mode md -> rust_slice md bs -> load md e bs = Ok sf -> nth_error (all_fdes sf) i = Some en ->
  get_fre_for_address md e en a = Ok (Some fr) ->
  exists before, delivers md e en (before ++ [fr]) /\
    forall bs' sf', rust_slice md bs' -> load md e bs' = Ok sf' ->
      same_at 0 28 bs bs' -> same_at (spec_entry_pos e bs (Z.of_nat i)) (spec_entry_size bs) bs bs' ->
      same_at (spec_rows_pos e bs (spec_entry e bs (Z.of_nat i))) (rows_len (before ++ [fr])) bs bs' ->
      exists en', nth_error (all_fdes sf') i = Some en' /\ en_fde en = en_fde en' /\ get_fre_for_address md e en' a = Ok (Some fr).
Proof.
  intros Hmd Hlen Hl Hen H. destruct (all_fdes_spec md e bs sf Hmd Hlen Hl) as [_ HA]. destruct (HA _ _ Hen) as (Hok & _ & _).
  destruct en as [f r]. cbn [en_fde] in *.
  destruct (search_local md e f r a fr Hmd Hok H) as (pre & u & x & -> & Hu & Hd & HG).
  exists pre. split; [exact Hd|]. intros bs' sf' Hlen' Hl' Hh Hrec Hsame. rewrite <- Hu in Hsame.
  destruct (twin_entry md e bs bs' sf sf' i _ u x Hmd Hlen Hlen' Hl Hl' Hh Hrec Hen eq_refl Hsame) as (y & Hy).
  exists (Entry f (u ++ y)). split; [exact Hy|]. split; [reflexivity|]. apply HG.
Qed.

(** ** C114 and C115 *)

Lemma rows_off_mono l i j b : nth_error l i = Some b -> (i < j)%nat -> rows_off l i + fde_fre_size b <= rows_off l j.
Proof.
  intros H Hij. unfold rows_off. revert j i H Hij. induction l as [|x t IH]; intros j i H Hij; [destruct i; discriminate|].
  destruct j as [|j]; [lia|]. destruct i as [|i]; cbn [nth_error firstn map] in *.
  - injection H as ->. pose proof (sumz_nonneg (firstn j t)). unfold sumz in *. cbn [fold_right] in *. lia.
  - specialize (IH j i H ltac:(lia)). unfold sumz in *. cbn [fold_right]. lia.
Qed.

Lemma rust_slice_len md (a b : bytes) : length a = length b -> rust_slice md b -> rust_slice md a.
Proof. unfold rust_slice, zlen. intros ->. auto. Qed.

Lemma nth_eq_dec (a b : bytes) k : {nth_error a k = nth_error b k} + {nth_error a k <> nth_error b k}.
Proof. repeat decide equality. Qed.

Lemma damaged_same l i bs bs' lo n : damaged_in l i bs bs' -> 0 <= lo -> 0 <= n ->
  (forall b, nth_error l i = Some b ->
     (lo + n <= 28 + 20 * Z.of_nat i \/ 28 + 20 * Z.of_nat i + 20 <= lo) /\
     (lo + n <= 28 + 20 * zlen l + rows_off l i \/ 28 + 20 * zlen l + rows_off l i + fde_fre_size b <= lo)) ->
  same_at lo n bs bs'.
Proof.
  intros [HL H] H0 Hn HD. apply nth_ext_slice; try assumption. intros p Hp.
  destruct (nth_eq_dec bs' bs (Z.to_nat p)) as [E|E]; [symmetry; exact E|].
  exfalso. destruct (H p E ltac:(lia)) as (b & Hb & HR). destruct (HD b Hb). lia.
Qed.

Lemma damaged_rows_in l i bs bs' : damaged_rows l i bs bs' -> damaged_in l i bs bs'.
Proof. intros [HL H]. split; [exact HL|]. intros p Hp H0. destruct (H p Hp H0) as (b & Hb & HR). exists b. auto. Qed.

Lemma head_loads md e bs bs' sf : wf_mode md -> rust_slice md bs -> load md e bs = Ok sf -> length bs' = length bs ->
  same_at 0 28 bs bs' -> exists sf', load md e bs' = Ok sf'.
Proof.
  intros Hmd Hlen H HL Hh. pose proof (rust_slice_len md bs' bs HL Hlen) as Hlen'.
  destruct (load_ok _ _ _ _ Hmd Hlen H) as (_ & L & HM & HV & HF).
  assert (HZ : zlen bs' = zlen bs) by (unfold zlen; congruence).
  apply load_ok_iff; try assumption. rewrite good_magic_rd, (good_version_rd e), layout_fits_fits by lia.
  assert (R : forall k n, (k + n <= 28)%nat -> rd_u e k n bs' = rd_u e k n bs).
  { intros k n Hk. unfold rd_u. f_equal.
    assert (S : same_at (Z.of_nat k) (Z.of_nat n) bs bs') by (apply (same_sub 0 28); try lia; exact Hh).
    unfold same_at, slice in S. rewrite !Nat2Z.id in S. symmetry. exact S. }
  unfold fits in *. rewrite !R, HZ by lia. auto.
Qed.

Section Damage.
  Variables (md md' : mode) (e : endian) (s : sfb) (bs bs' : bytes) (i : nat).
  Hypothesis Hmd : wf_mode md'.
  Hypothesis Hreach : sfb_reach md s.
  Hypothesis Hbuild : build md e s = Ok bs.
  Hypothesis Hlen : rust_slice md' bs.

  Lemma damage_entries : damaged_in (fdes_of s) i bs bs' ->
    exists sf', load md' e bs = Ok (built_sf e s) /\ load md' e bs' = Ok sf' /\ rust_slice md' bs' /\ bs = image e s /\
    same_at 0 28 bs bs' /\ length (all_fdes sf') = length (all_fdes (built_sf e s)) /\
    forall j b, nth_error (fdes_of s) j = Some b -> j <> i ->
      exists y, nth_error (all_fdes (built_sf e s)) j = Some (built_entry e s j b) /\
        nth_error (all_fdes sf') j = Some (Entry (built_fde s j b) (fde_enc e b ++ y)).
  Proof.
    intros HD. pose proof (sfb_reach_wf _ _ Hreach) as W. destruct (built_image _ _ _ _ W Hbuild) as [T E].
    assert (Hl : load md' e bs = Ok (built_sf e s)) by (rewrite E in *; apply image_loads; assumption).
    assert (Hh : same_at 0 28 bs bs').
    { apply (damaged_same _ _ _ _ _ _ HD); try lia. intros b Hb. destruct (rows_off_le _ _ _ Hb). pose proof (zlen_nonneg (fdes_of s)). lia. }
    destruct HD as [HL HD0]. pose proof (conj HL HD0 : damaged_in (fdes_of s) i bs bs') as HD.
    destruct (head_loads md' e bs bs' _ Hmd Hlen Hl HL Hh) as [sf' Hl'].
    pose proof (rust_slice_len _ _ _ HL Hlen) as Hlen'.
    exists sf'. repeat (split; [assumption|]).
    destruct (built_entries e s W T) as [HE1 HE2].
    pose proof (head_fields _ _ _ _ _ _ Hmd Hlen Hlen' Hl Hl' Hh) as (_ & _ & HN & _).
    split.
    { destruct (all_fdes_spec md' e bs _ Hmd Hlen Hl) as [Z1 _]. destruct (all_fdes_spec md' e bs' _ Hmd Hlen' Hl') as [Z2 _]. unfold zlen in *. lia. }
    intros j b Hj Hji. destruct (in_fdes_wf s j b W Hj) as [Wb _].
    assert (Hjl : (j < length (fdes_of s))%nat) by (apply nth_error_Some; congruence).
    pose proof (image_fields e s W T) as F. cbv zeta in F. rewrite <- E in F. destruct F as (_ & F1 & _ & _ & _ & _ & F2 & _ & _ & _ & F3 & F4).
    destruct (load_ok _ _ _ _ Hmd Hlen Hl) as (_ & L & _).
    destruct (spec_fields e bs ltac:(lia)) as (_ & E1 & _).
    destruct (spec_fields2 e bs L) as (_ & _ & _ & E6 & _ & _ & _ & E10 & E11).
    destruct (rows_off_le _ _ _ Hj) as [R0 R1].
    destruct (all_fdes_spec md' e bs _ Hmd Hlen Hl) as [_ HA]. destruct (HA j _ (HE2 j b Hj)) as (_ & Hv & _).
    destruct (twin_entry md' e bs bs' _ sf' j (built_entry e s j b) (fde_enc e b) (rows_enc e (skipn (S j) (fdes_of s)))
      Hmd Hlen Hlen' Hl Hl' Hh) as (y & Hy).
    - unfold spec_entry_pos, spec_entry_size, spec_base, spec_header_size. rewrite E1, E6, E10, F1, F2, F3. change (if 2 =? 1 then 17 else 20) with 20.
      apply (damaged_same _ _ _ _ _ _ HD); try lia. intros c Hc.
      assert (i < length (fdes_of s))%nat by (apply nth_error_Some; congruence).
      destruct (rows_off_le _ _ _ Hc). unfold zlen. lia.
    - apply HE2, Hj.
    - reflexivity.
    - unfold spec_rows_pos, spec_base, spec_header_size. rewrite E6, E11, F2, F4, <- Hv.
      cbn [built_entry en_fde built_fde view_fde sd_fre_off fde_start_fre_off fde_raw f2_start_fre_off].
      rewrite fde_enc_zlen by exact Wb. pose proof (zlen_nonneg (fdes_of s)). pose proof (fde_fre_size_nonneg b).
      apply (damaged_same _ _ _ _ _ _ HD); try lia. intros c Hc.
      assert (i < length (fdes_of s))%nat by (apply nth_error_Some; congruence).
      destruct (Nat.lt_ge_cases i j) as [Hij|Hij].
      + pose proof (rows_off_mono _ _ _ _ Hc Hij). unfold zlen in *. lia.
      + pose proof (rows_off_mono _ _ i _ Hj ltac:(lia)). destruct (rows_off_le _ _ _ Hc). unfold zlen in *. lia.
    - exists y. split; [apply HE2, Hj|exact Hy].
  Qed.

  Lemma built_alike j b y : nth_error (fdes_of s) j = Some b ->
    reads_alike md' e (built_entry e s j b) (Entry (built_fde s j b) (fde_enc e b ++ y)).
  Proof.
    intros Hj. pose proof (sfb_reach_wf _ _ Hreach) as W. destruct (built_image _ _ _ _ W Hbuild) as [T _].
    destruct (in_fdes_wf s j b W Hj) as [Wb _]. split; [reflexivity|].
    apply (entry_local md' e (built_fde s j b) _ (map written (rows_of b)) (fde_enc e b) _ y Hmd (built_fde_ok s j b W T Hj) (built_width s j b)).
    - pose proof (rows_enc_spec e (addr_bytes (start_size b)) (rows_of b) [] (starts_fit b Wb)) as Hs. rewrite app_nil_r in Hs. exact Hs.
    - unfold built_fde. cbn [fde_num_fres fde_raw f2_num_fres]. rewrite rows_of_len, zlen_map. reflexivity.
  Qed.

  Theorem damage_stays : damaged_in (fdes_of s) i bs bs' ->
    exists sf sf', load md' e bs = Ok sf /\ load md' e bs' = Ok sf' /\
      length (all_fdes sf) = length (fdes_of s) /\ length (all_fdes sf') = length (fdes_of s) /\
      forall j, (j < length (fdes_of s))%nat -> j <> i ->
        exists en en', nth_error (all_fdes sf) j = Some en /\ nth_error (all_fdes sf') j = Some en' /\ reads_alike md' e en en'.
  Proof.
    intros HD. destruct (damage_entries HD) as (sf' & Hl & Hl' & _ & _ & _ & HL & HE).
    pose proof (sfb_reach_wf _ _ Hreach) as W. destruct (built_image _ _ _ _ W Hbuild) as [T _].
    destruct (built_entries e s W T) as [HE1 _].
    exists (built_sf e s), sf'. repeat (split; [assumption||congruence|]). intros j Hj Hji.
    destruct (nth_error (fdes_of s) j) as [b|] eqn:Hb; [|apply nth_error_None in Hb; lia].
    destruct (HE j b Hb Hji) as (y & H1 & H2). eexists _, _. split; [exact H1|]. split; [exact H2|]. apply built_alike, Hb.
  Qed.

  Lemma rows_damage_fdes sf' : damaged_rows (fdes_of s) i bs bs' -> load md' e bs' = Ok sf' ->
    flags sf' = flags (built_sf e s) /\ it_fdes (fdes sf') = it_fdes (fdes (built_sf e s)).
  Proof.
    intros HR Hl'. pose proof (damaged_rows_in _ _ _ _ HR) as HD.
    destruct (damage_entries HD) as (sf2 & Hl & Hl2 & Hlen' & E & Hh & HL & _). rewrite Hl' in Hl2. injection Hl2 as <-.
    split.
    - destruct (load_ok _ _ _ _ Hmd Hlen Hl) as (-> & _). destruct (load_ok _ _ _ _ Hmd Hlen' Hl') as (-> & _).
      unfold flags, loaded. cbn [sf_preamble pre_flags].
      assert (S : same_at 3 1 bs bs') by (apply (same_sub 0 28); try lia; exact Hh). unfold same_at, slice in S.
      unfold rd_u, sub_bytes. change (Z.to_nat 3) with 3%nat in S. change (Z.to_nat 1) with 1%nat in S. rewrite S. reflexivity.
    - pose proof (head_fields _ _ _ _ _ _ Hmd Hlen Hlen' Hl Hl' Hh) as (HV & HB & HN & HO & _).
      pose proof (loaded_fdes_length _ _ _ _ Hmd Hlen Hl) as N1. pose proof (loaded_fdes_length _ _ _ _ Hmd Hlen' Hl') as N2.
      apply list_eq_nth. intros k. destruct (Z.lt_ge_cases (Z.of_nat k) (spec_num_fdes e bs)) as [Hk|Hk].
      + pose proof (loaded_record md' e bs _ (Z.of_nat k) Hmd Hlen Hl ltac:(lia)) as R1.
        pose proof (loaded_record md' e bs' _ (Z.of_nat k) Hmd Hlen' Hl' ltac:(lia)) as R2.
        cbv zeta in R1, R2. rewrite Nat2Z.id in R1, R2. rewrite R1, R2.
        assert (S : same_at (spec_entry_pos e bs (Z.of_nat k)) (spec_entry_size bs) bs bs').
        { pose proof (sfb_reach_wf _ _ Hreach) as W. destruct (built_image _ _ _ _ W Hbuild) as [T _].
          pose proof (image_fields e s W T) as F. cbv zeta in F. rewrite <- E in F. destruct F as (_ & F1 & _ & _ & _ & _ & F2 & F5 & _ & _ & F3 & F4).
          destruct (load_ok _ _ _ _ Hmd Hlen Hl) as (_ & L & _).
          destruct (spec_fields e bs ltac:(lia)) as (_ & E1 & _).
          destruct (spec_fields2 e bs L) as (_ & _ & _ & E6 & E7 & _ & _ & E10 & E11).
          unfold spec_entry_pos, spec_entry_size, spec_base, spec_header_size. rewrite E1, E6, E10, F1, F2, F3. change (if 2 =? 1 then 17 else 20) with 20.
          rewrite E7, F5 in Hk.
          destruct HR as [HLn HR]. apply nth_ext_slice; try lia. intros p Hp.
          destruct (nth_eq_dec bs' bs (Z.to_nat p)) as [Q|Q]; [symmetry; exact Q|].
          exfalso. destruct (HR p Q ltac:(lia)) as (c & Hc & HRg). destruct (rows_off_le _ _ _ Hc). lia. }
        unfold same_at in S. unfold spec_entry_pos, spec_entry_size in *. rewrite <- HV, <- HB, <- HO, S. reflexivity.
      + rewrite !(proj2 (nth_error_None _ _)); [reflexivity| |]; unfold zlen in *; lia.
  Qed.
End Damage.
