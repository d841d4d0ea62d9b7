(** Facts about address and row search (C08, C14-C20). *)
From Verif Require Export RowFacts.

(** ** Comparison with a range *)

Definition no_ovf (md : mode) (a : Z) (f : fde) : Prop :=
  overflow_checks md = false \/ a - fde_start_address f <= i32_max.

Lemma sub_i32_fwd {E} md a s :
  in_i32 a -> in_i32 s -> s <= a ->
  (@sub_i32 E md a s = Panic /\ overflow_checks md = true /\ i32_max < a - s) \/
  (exists d, @sub_i32 E md a s = Ok d /\ as_u 32 d = a - s /\ (overflow_checks md = false \/ a - s <= i32_max)).
Proof.
  unfold in_i32, i32_min, i32_max, sub_i32. intros Ha Hs Hle.
  destruct (in_i32b (a - s)) eqn:HI.
  - right. apply in_i32b_spec in HI. unfold in_i32, i32_min, i32_max in HI.
    exists (a - s). split; [reflexivity|]. split; [apply as_u_id; lia|right; lia].
  - assert (~ in_i32 (a - s)) by (rewrite <- in_i32b_spec; congruence).
    unfold in_i32, i32_min, i32_max in *.
    destruct (overflow_checks md) eqn:HO; [left; repeat split; lia|].
    right. exists (as_s 32 (a - s)). split; [reflexivity|]. split; [apply as_u_as_s_32; lia|left; reflexivity].
Qed.

Lemma contains_spec {E} md en a :
  fde_ok (en_fde en) -> in_i32 a ->
  match @contains E md en a with
  | Ok b => (b = true <-> in_range (en_start_address en) (en_size en) a) /\
            (overflow_checks md = true -> a - en_start_address en <= i32_max)
  | Err _ => False
  | Panic => overflow_checks md = true /\ i32_max < a - en_start_address en
  end.
Proof.
  intros (H1 & H2 & _) Ha. unfold contains, en_start_address, en_size, in_range in *.
  destruct (Z.ltb_spec a (fde_start_address (en_fde en))) as [Hlt|Hge].
  - split; [split; [discriminate|lia]|]. unfold i32_max; lia.
  - destruct (@sub_i32_fwd E md a _ Ha H1 Hge) as [(-> & HO & Hd)|(d & -> & Hu & HO)]; cbn [bind].
    + auto.
    + rewrite Hu. split; [|intros Ht; destruct HO; [congruence|assumption]].
      destruct (Z.ltb_spec (a - fde_start_address (en_fde en)) (fde_size (en_fde en))); split; intros; try lia; congruence.
Qed.

Lemma search_cmp_spec {E} md a f :
  fde_ok f -> in_i32 a ->
  match @search_cmp E md a f with
  | Ok Less => a < fde_start_address f
  | Ok Equal => in_range (fde_start_address f) (fde_size f) a
  | Ok Greater => fde_start_address f + fde_size f <= a
  | Err _ => False
  | Panic => overflow_checks md = true /\ i32_max < a - fde_start_address f
  end.
Proof.
  intros (H1 & H2 & _) Ha. unfold search_cmp, in_range in *. unfold in_u32 in H2.
  destruct (Z.ltb_spec a (fde_start_address f)) as [Hlt|Hge]; [lia|].
  destruct (@sub_i32_fwd E md a _ Ha H1 Hge) as [(-> & HO & Hd)|(d & -> & Hu & HO)]; cbn [bind]; [auto|].
  rewrite Hu. destruct (Z.leb_spec (fde_size f) (a - fde_start_address f)); lia.
Qed.

(** ** Linear search *)

Lemma fdi_find_spec md a fr l : forall fuel,
  Forall fde_ok l -> in_i32 a -> (length l < fuel)%nat ->
  match fdi_find fuel md a (FdeIter l fr) with
  | Ok (Some en) =>
      exists i, nth_error l i = Some (en_fde en) /\
        in_range (fde_start_address (en_fde en)) (fde_size (en_fde en)) a /\
        (forall j f, (j < i)%nat -> nth_error l j = Some f ->
           ~ in_range (fde_start_address f) (fde_size f) a) /\
        en_fres en = match get_from (fde_start_fre_off (en_fde en)) fr with Some r => r | None => [] end
  | Ok None => forall f, In f l -> ~ in_range (fde_start_address f) (fde_size f) a
  | Err _ => False
  | Panic => overflow_checks md = true /\ exists f, In f l /\ i32_max < a - fde_start_address f
  end.
Proof.
  induction l as [|f l IH]; intros fuel Hok Ha Hf.
  - destruct fuel; [lia|]. cbn. auto.
  - destruct fuel as [|k]; [cbn in Hf; lia|]. cbn [fdi_find]. unfold fdi_next. cbn [it_fdes it_fres].
    inversion Hok as [|? ? Hf1 Hfl]; subst.
    set (en := {| en_fde := f; en_fres := _ |}).
    pose proof (@contains_spec fuel_error md en a Hf1 Ha) as HC.
    destruct (contains md en a) as [b|er|]; cbn [bind]; [|contradiction|].
    + destruct HC as [HC _]. destruct b.
      * exists 0%nat. repeat split; try apply HC; try reflexivity. intros j g Hj. lia.
      * specialize (IH k Hfl Ha ltac:(cbn in Hf; lia)).
        assert (Hn : ~ in_range (fde_start_address f) (fde_size f) a)
          by (intros Hc; apply HC in Hc; discriminate).
        destruct (fdi_find k md a {| it_fdes := l; it_fres := fr |}) as [[e'|]|er|]; [| |contradiction|].
        -- destruct IH as (i & Hi & Hr & Hb & Hfr). exists (S i). repeat split; try assumption; try apply Hr.
           intros [|j] g Hj Hg; cbn in Hg; [injection Hg as <-; exact Hn|]. eapply Hb; [|exact Hg]. lia.
        -- intros g [<-|Hg]; [exact Hn|]. apply IH; exact Hg.
        -- destruct IH as (HO & g & Hg & Hlt). split; [exact HO|]. exists g. split; [right; exact Hg|exact Hlt].
    + destruct HC as [HO Hlt]. split; [exact HO|]. exists f. split; [left; reflexivity|exact Hlt].
Qed.

(** ** Binary search: soundness *)

Section Bs.
Variable cmp : fde -> outcome fuel_error ordering.
Variable l : list fde.
Hypothesis cmp_no_err : forall f er, In f l -> cmp f <> Err er.

Lemma bs_left_right_sound : forall fuel left right,
  (right <= length l)%nat -> (right - left < fuel)%nat ->
  match bs_left_right fuel cmp l left right with
  | Ok (Some i) => exists f, nth_error l i = Some f /\ cmp f = Ok Equal /\ (left <= i < right)%nat
  | Ok None => True
  | Err _ => False
  | Panic => exists f, In f l /\ cmp f = Panic
  end.
Proof.
  induction fuel as [|k IH]; intros left right Hr Hf; [lia|]. cbn [bs_left_right].
  destruct (Nat.ltb_spec left right) as [Hlt|Hge]; [|exact I].
  assert (Hd : ((right - left) / 2 < right - left)%nat) by (apply Nat.div_lt; lia).
  set (mid := (left + (right - left) / 2)%nat) in *.
  destruct (nth_error l mid) as [f|] eqn:Hn.
  2:{ apply nth_error_None in Hn. lia. }
  destruct (cmp f) as [c|er|] eqn:Hc; cbn [bind].
  - destruct c.
    + specialize (IH (S mid) right Hr ltac:(lia)).
      destruct (bs_left_right k cmp l (S mid) right) as [[i|]|er|]; auto.
      destruct IH as (g & ? & ? & ?). exists g. repeat split; try assumption; lia.
    + exists f. repeat split; try assumption; lia.
    + specialize (IH left mid ltac:(lia) ltac:(lia)).
      destruct (bs_left_right k cmp l left mid) as [[i|]|er|]; auto.
      destruct IH as (g & ? & ? & ?). exists g. repeat split; try assumption; lia.
  - exact (cmp_no_err f er (nth_error_In _ _ Hn) Hc).
  - exists f. split; [eapply nth_error_In; exact Hn|exact Hc].
Qed.

Lemma bs_base_sound : forall fuel base size,
  (base + size <= length l)%nat -> (0 < size)%nat -> (size < fuel)%nat ->
  match bs_base fuel cmp l base size with
  | Ok (Some i) => exists f, nth_error l i = Some f /\ cmp f = Ok Equal /\ (base <= i < base + size)%nat
  | Ok None => True
  | Err _ => False
  | Panic => exists f, In f l /\ cmp f = Panic
  end.
Proof.
  induction fuel as [|k IH]; intros base size Hr Hs Hf; [lia|]. cbn [bs_base].
  destruct (Nat.ltb_spec 1 size) as [Hlt|Hge].
  - assert (Hd : (size / 2 < size)%nat) by (apply Nat.div_lt; lia).
    assert (Hp : (0 < size / 2)%nat) by (apply Nat.div_str_pos; lia).
    set (half := (size / 2)%nat) in *.
    destruct (nth_error l (base + half)) as [f|] eqn:Hn.
    2:{ apply nth_error_None in Hn. lia. }
    destruct (cmp f) as [c|er|] eqn:Hc; cbn [bind].
    + assert (HA := IH base (size - half)%nat ltac:(lia) ltac:(lia) ltac:(lia)).
      assert (HB := IH (base + half)%nat (size - half)%nat ltac:(lia) ltac:(lia) ltac:(lia)).
      destruct c.
      * destruct (bs_base k cmp l (base + half) (size - half)) as [[i|]|er|]; auto.
        destruct HB as (g & ? & ? & ?). exists g. repeat split; try assumption; lia.
      * destruct (bs_base k cmp l (base + half) (size - half)) as [[i|]|er|]; auto.
        destruct HB as (g & ? & ? & ?). exists g. repeat split; try assumption; lia.
      * destruct (bs_base k cmp l base (size - half)) as [[i|]|er|]; auto.
        destruct HA as (g & ? & ? & ?). exists g. repeat split; try assumption; lia.
    + exact (cmp_no_err f er (nth_error_In _ _ Hn) Hc).
    + exists f. split; [eapply nth_error_In; exact Hn|exact Hc].
  - destruct (nth_error l base) as [f|] eqn:Hn.
    2:{ apply nth_error_None in Hn. lia. }
    destruct (cmp f) as [c|er|] eqn:Hc; cbn [bind].
    + destruct c; try exact I. exists f. repeat split; try assumption; lia.
    + exact (cmp_no_err f er (nth_error_In _ _ Hn) Hc).
    + exists f. split; [eapply nth_error_In; exact Hn|exact Hc].
Qed.

(** ** Binary search: what it finds in a sorted table *)

(** Entry [k] is the target; entries before it answer [Greater], entries after it
    [Less]. *)
Variable k : nat.
Hypothesis cmp_exact : forall j f, nth_error l j = Some f ->
  cmp f = Ok (if (j <? k)%nat then Greater else if (j =? k)%nat then Equal else Less).
Hypothesis k_in : (k < length l)%nat.

Lemma bs_left_right_missed : forall fuel left right,
  (right <= length l)%nat -> (right - left < fuel)%nat -> ~ (left <= k < right)%nat ->
  bs_left_right fuel cmp l left right = Ok None.
Proof.
  intros fuel left right Hr Hf Hk.
  pose proof (bs_left_right_sound fuel left right Hr Hf) as HS.
  destruct (bs_left_right fuel cmp l left right) as [[i|]|er|]; [|reflexivity|contradiction|].
  - destruct HS as (f & Hn & Hc & Hi). rewrite (cmp_exact i f Hn) in Hc.
    destruct (Nat.ltb_spec i k); [discriminate|]. destruct (Nat.eqb_spec i k); [|discriminate]. lia.
  - destruct HS as (f & Hin & Hc). apply In_nth_error in Hin. destruct Hin as [j Hj].
    rewrite (cmp_exact j f Hj) in Hc. discriminate.
Qed.

Lemma bs_left_right_exact :
  bs_left_right (S (length l)) cmp l 0 (length l)
    = Ok (if (k =? length l / 2)%nat then Some k else None).
Proof.
  cbn [bs_left_right].
  destruct (Nat.ltb_spec 0 (length l)) as [_|Hc]; [|lia].
  rewrite Nat.sub_0_r, Nat.add_0_l.
  assert (Hd : (length l / 2 < length l)%nat) by (apply Nat.div_lt; lia).
  set (mid := (length l / 2)%nat) in *.
  destruct (nth_error l mid) as [f|] eqn:Hn.
  2:{ apply nth_error_None in Hn. lia. }
  rewrite (cmp_exact mid f Hn). cbn [bind].
  destruct (Nat.ltb_spec mid k) as [H1|H1].
  - destruct (Nat.eqb_spec k mid) as [H2|H2]; [lia|].
    apply bs_left_right_missed; lia.
  - destruct (Nat.eqb_spec mid k) as [H2|H2].
    + subst k. rewrite Nat.eqb_refl. reflexivity.
    + destruct (Nat.eqb_spec k mid) as [H3|H3]; [lia|]. apply bs_left_right_missed; lia.
Qed.

Lemma bs_base_missed : forall fuel base size,
  (base + size <= length l)%nat -> (0 < size)%nat -> (size < fuel)%nat ->
  ~ (base <= k < base + size)%nat ->
  bs_base fuel cmp l base size = Ok None.
Proof.
  intros fuel base size Hr Hs Hf Hk.
  pose proof (bs_base_sound fuel base size Hr Hs Hf) as HS.
  destruct (bs_base fuel cmp l base size) as [[i|]|er|]; [|reflexivity|contradiction|].
  - destruct HS as (f & Hn & Hc & Hi). rewrite (cmp_exact i f Hn) in Hc.
    destruct (Nat.ltb_spec i k); [discriminate|]. destruct (Nat.eqb_spec i k); [|discriminate]. lia.
  - destruct HS as (f & Hin & Hc). apply In_nth_error in Hin. destruct Hin as [j Hj].
    rewrite (cmp_exact j f Hj) in Hc. discriminate.
Qed.

Lemma bs_base_step fuel base size :
  (base + size <= length l)%nat -> (0 < size)%nat -> (size < fuel)%nat ->
  bs_base fuel cmp l base size =
  if (size =? 1)%nat then Ok (if (base =? k)%nat then Some k else None)
  else if (base + size / 2 =? k)%nat then bs_base (fuel - 1) cmp l k (size - size / 2)
  else Ok None.
Proof.
  intros Hr Hs Hf. destruct fuel as [|n]; [lia|]. cbn [bs_base]. replace (S n - 1)%nat with n by lia.
  destruct (Nat.eqb_spec size 1) as [H1|H1].
  - subst size. cbn [Nat.ltb Nat.leb].
    destruct (nth_error l base) as [f|] eqn:Hn.
    2:{ apply nth_error_None in Hn. lia. }
    rewrite (cmp_exact base f Hn). cbn [bind].
    destruct (Nat.ltb_spec base k) as [Hlt|Hge].
    + destruct (Nat.eqb_spec base k); [lia|reflexivity].
    + destruct (Nat.eqb_spec base k) as [Heq|Hne]; [subst base; reflexivity|reflexivity].
  - destruct (Nat.ltb_spec 1 size) as [_|Hc]; [|lia].
    assert (Hd : (size / 2 < size)%nat) by (apply Nat.div_lt; lia).
    assert (Hp : (0 < size / 2)%nat) by (apply Nat.div_str_pos; lia).
    assert (Hodd : (size - size / 2 <= size / 2 + 1)%nat).
    { pose proof (Nat.div_mod size 2 ltac:(lia)). pose proof (Nat.mod_upper_bound size 2 ltac:(lia)). lia. }
    destruct (nth_error l (base + size / 2)) as [f|] eqn:Hn.
    2:{ apply nth_error_None in Hn. lia. }
    rewrite (cmp_exact _ f Hn). cbn [bind].
    destruct (Nat.ltb_spec (base + size / 2) k) as [Hlt|Hge].
    + destruct (Nat.eqb_spec (base + size / 2) k); [lia|].
      apply bs_base_missed; lia.
    + destruct (Nat.eqb_spec (base + size / 2) k) as [Heq|Hne].
      * rewrite Heq. reflexivity.
      * apply bs_base_missed; lia.
Qed.

Lemma bs_base_exact :
  bs_base (S (length l)) cmp l 0 (length l)
    = Ok (if (length l =? 1)%nat || ((length l =? 2)%nat && (k =? 1)%nat) then Some k else None).
Proof.
  rewrite bs_base_step by lia. rewrite Nat.add_0_l.
  destruct (Nat.eqb_spec (length l) 1) as [H1|H1].
  { destruct (Nat.eqb_spec 0 k) as [H2|H2]; [reflexivity|lia]. }
  cbn [orb].
  assert (Hd : (length l / 2 < length l)%nat) by (apply Nat.div_lt; lia).
  assert (Hp : (0 < length l / 2)%nat) by (apply Nat.div_str_pos; lia).
  destruct (Nat.eqb_spec (length l / 2) k) as [H2|H2].
  - rewrite bs_base_step by lia.
    destruct (Nat.eqb_spec (length l) 2) as [H3|H3].
    + rewrite H3 in *. change (2 / 2)%nat with 1%nat in *. subst k. cbn. reflexivity.
    + cbn [andb].
      assert (Hh : (2 * (length l / 2) <= length l)%nat)
        by (pose proof (Nat.div_mod (length l) 2 ltac:(lia)); lia).
      destruct (Nat.eqb_spec (length l - length l / 2) 1) as [H4|H4]; [lia|].
      destruct (Nat.eqb_spec (k + (length l - length l / 2) / 2) k) as [H5|H5]; [|reflexivity].
      assert (0 < (length l - length l / 2) / 2)%nat by (apply Nat.div_str_pos; lia). lia.
  - destruct (Nat.eqb_spec (length l) 2) as [H3|H3]; [|reflexivity].
    rewrite H3 in *. change (2 / 2)%nat with 1%nat in *. destruct (Nat.eqb_spec k 1); [lia|reflexivity].
Qed.
End Bs.

Lemma binary_search_sound md cmp l :
  (forall f er, In f l -> cmp f <> Err er) ->
  match binary_search md cmp l with
  | Ok (Some i) => exists f, nth_error l i = Some f /\ cmp f = Ok Equal
  | Ok None => True
  | Err _ => False
  | Panic => exists f, In f l /\ cmp f = Panic
  end.
Proof.
  intros He. unfold binary_search. destruct (bsearch md).
  - pose proof (bs_left_right_sound cmp l He (S (length l)) 0 (length l) ltac:(lia) ltac:(lia)) as H.
    destruct (bs_left_right (S (length l)) cmp l 0 (length l)) as [[i|]|er|]; auto.
    destruct H as (f & ? & ? & _). eauto.
  - destruct l as [|x t]; [exact I|].
    pose proof (bs_base_sound cmp (x :: t) He (S (length (x :: t))) 0 (length (x :: t)) ltac:(lia) ltac:(cbn; lia) ltac:(lia)) as H.
    destruct (bs_base (S (length (x :: t))) cmp (x :: t) 0 (length (x :: t))) as [[i|]|er|]; auto.
    destruct H as (f & ? & ? & _). eauto.
Qed.

Lemma binary_search_exact md cmp l k :
  (forall j f, nth_error l j = Some f ->
     cmp f = Ok (if (j <? k)%nat then Greater else if (j =? k)%nat then Equal else Less)) ->
  (k < length l)%nat ->
  binary_search md cmp l = Ok (if reached (bsearch md) (zlen l) (Z.of_nat k) then Some k else None).
Proof.
  intros Hc Hk.
  assert (He : forall f er, In f l -> cmp f <> Err er).
  { intros f er Hf. apply In_nth_error in Hf. destruct Hf as [j Hj]. rewrite (Hc j f Hj). discriminate. }
  unfold binary_search, reached, zlen. destruct (bsearch md).
  - rewrite (bs_left_right_exact cmp l He k Hc Hk). f_equal.
    destruct (Nat.eqb_spec k (length l / 2)) as [H|H],
             (Z.eqb_spec (Z.of_nat k) (Z.of_nat (length l) / 2)) as [HZ|HZ]; try reflexivity; exfalso.
    + apply HZ. rewrite H, Nat2Z.inj_div. reflexivity.
    + apply H. apply Nat2Z.inj. rewrite Nat2Z.inj_div. exact HZ.
  - destruct l as [|x t]; [cbn in Hk; lia|].
    rewrite (bs_base_exact cmp (x :: t) He k Hc Hk). f_equal.
    set (n := length (x :: t)) in *.
    destruct (Nat.eqb_spec n 1) as [H1|H1], (Nat.eqb_spec n 2) as [H2|H2], (Nat.eqb_spec k 1) as [H3|H3];
      destruct (Z.eqb_spec (Z.of_nat n) 1), (Z.eqb_spec (Z.of_nat n) 2), (Z.eqb_spec (Z.of_nat k) 1);
      cbn [andb orb]; try lia; reflexivity.
Qed.

(** ** [fde_for_address] *)

Lemma sorted_flag_land f : (Z.land f FLAG_FDE_SORTED =? FLAG_FDE_SORTED) = Z.odd f.
Proof.
  unfold FLAG_FDE_SORTED. change 1 with (Z.ones 1). rewrite Z.land_ones by lia.
  change (2 ^ 1) with 2. change (Z.ones 1) with 1. rewrite Zmod_odd. destruct (Z.odd f); reflexivity.
Qed.

Lemma nth_error_entry md e bs sf i f :
  wf_mode md -> rust_slice md bs -> load md e bs = Ok sf ->
  nth_error (it_fdes (fdes sf)) i = Some f ->
  0 <= Z.of_nat i < spec_num_fdes e bs /\ view_fde f = spec_entry e bs (Z.of_nat i).
Proof.
  intros Hmd Hlen H Hn.
  pose proof (loaded_fdes_length md e bs sf Hmd Hlen H) as HL.
  assert (Hi : (i < length (it_fdes (fdes sf)))%nat) by (apply nth_error_Some; congruence).
  assert (HR : 0 <= Z.of_nat i < spec_num_fdes e bs) by (unfold zlen in HL; lia).
  split; [exact HR|].
  destruct (loaded_fdes_nth md e bs sf _ Hmd Hlen H HR) as (g & Hg & Hv).
  rewrite Nat2Z.id in Hg. congruence.
Qed.

(** The rows [next] attaches. *)
Lemma next_rows md e bs sf i f :
  wf_mode md -> rust_slice md bs -> load md e bs = Ok sf ->
  nth_error (it_fdes (fdes sf)) i = Some f ->
  match get_from (fde_start_fre_off f) (sf_fres sf) with Some r => r | None => [] end
    = spec_rows_of e bs (spec_entry e bs (Z.of_nat i)).
Proof.
  intros Hmd Hlen H Hn.
  destruct (nth_error_entry _ _ _ _ _ _ Hmd Hlen H Hn) as [_ Hv].
  destruct (load_accessors md e bs sf Hmd Hlen H) as (_ & _ & _ & _ & _ & _ & _ & _ & HF).
  unfold spec_rows_of. rewrite <- Hv, <- HF. cbn [view_fde sd_fre_off].
  unfold get_from. destruct (Z.leb_spec (fde_start_fre_off f) (zlen (sf_fres sf))) as [Hle|Hgt]; [reflexivity|].
  symmetry. apply skipn_all2. unfold zlen in Hgt. lia.
Qed.

Lemma unsorted_search md e bs sf a :
  wf_mode md -> rust_slice md bs -> load md e bs = Ok sf -> in_i32 a ->
  is_sorted_flag bs = false ->
  match fde_for_address md sf a with
  | Ok (Some en) =>
      exists i, 0 <= i < spec_num_fdes e bs /\ view_fde (en_fde en) = spec_entry e bs i /\
        in_range (sd_start (spec_entry e bs i)) (sd_size (spec_entry e bs i)) a /\
        (forall j, 0 <= j < i -> ~ in_range (sd_start (spec_entry e bs j)) (sd_size (spec_entry e bs j)) a) /\
        en_fres en = spec_rows_of e bs (spec_entry e bs i)
  | Ok None =>
      forall i, 0 <= i < spec_num_fdes e bs ->
        ~ in_range (sd_start (spec_entry e bs i)) (sd_size (spec_entry e bs i)) a
  | Err _ => False
  | Panic =>
      overflow_checks md = true /\
      exists i, 0 <= i < spec_num_fdes e bs /\ i32_max < a - sd_start (spec_entry e bs i)
  end.
Proof.
  intros Hmd Hlen H Ha Hfl. unfold fde_for_address.
  destruct (load_accessors md e bs sf Hmd Hlen H) as (_ & HFl & _).
  rewrite sorted_flag_land, HFl. unfold is_sorted_flag in Hfl. rewrite Hfl. cbn [negb].
  pose proof (fdi_find_spec md a (it_fres (fdes sf)) (it_fdes (fdes sf)) (S (length (it_fdes (fdes sf))))
    (loaded_fdes_ok _ _ _ _ Hmd Hlen H) Ha ltac:(lia)) as HS.
  replace (FdeIter (it_fdes (fdes sf)) (it_fres (fdes sf))) with (fdes sf) in HS by (destruct (fdes sf); reflexivity).
  destruct (fdi_find (S (length (it_fdes (fdes sf)))) md a (fdes sf)) as [[en|]|er|].
  - destruct HS as (i & Hi & Hr & Hb & Hfr).
    destruct (nth_error_entry _ _ _ _ _ _ Hmd Hlen H Hi) as [HR Hv].
    exists (Z.of_nat i). rewrite <- Hv. cbn [view_fde sd_start sd_size].
    repeat split; try apply HR; try apply Hr.
    + intros j Hj.
      destruct (loaded_fdes_nth md e bs sf j Hmd Hlen H ltac:(lia)) as (g & Hg & Hgv).
      rewrite <- Hgv. cbn. eapply Hb; [|exact Hg]. lia.
    + rewrite Hfr. rewrite Hv. apply (next_rows md e bs sf i); assumption.
  - intros i Hi. destruct (loaded_fdes_nth md e bs sf i Hmd Hlen H Hi) as (g & Hg & Hgv).
    rewrite <- Hgv. cbn. apply HS. eapply nth_error_In; exact Hg.
  - exact HS.
  - destruct HS as (HO & f & Hf & Hlt). split; [exact HO|].
    apply In_nth_error in Hf. destruct Hf as [i Hi].
    destruct (nth_error_entry _ _ _ _ _ _ Hmd Hlen H Hi) as [HR Hv].
    exists (Z.of_nat i). rewrite <- Hv. cbn. auto.
Qed.

Lemma search_cmp_no_err md a f er : in_i32 a -> fde_ok f -> @search_cmp fuel_error md a f <> Err er.
Proof. intros Ha Hf H. pose proof (@search_cmp_spec fuel_error md a f Hf Ha) as HS. rewrite H in HS. exact HS. Qed.

Lemma sorted_search md e bs sf a :
  wf_mode md -> rust_slice md bs -> load md e bs = Ok sf -> in_i32 a ->
  is_sorted_flag bs = true ->
  match fde_for_address md sf a with
  | Ok (Some en) =>
      exists i, 0 <= i < spec_num_fdes e bs /\ view_fde (en_fde en) = spec_entry e bs i /\
        in_range (sd_start (spec_entry e bs i)) (sd_size (spec_entry e bs i)) a /\
        en_fres en = spec_fre_bytes e bs
  | Ok None => True
  | Err _ => False
  | Panic =>
      overflow_checks md = true /\
      exists i, 0 <= i < spec_num_fdes e bs /\ i32_max < a - sd_start (spec_entry e bs i)
  end.
Proof.
  intros Hmd Hlen H Ha Hfl. unfold fde_for_address.
  destruct (load_accessors md e bs sf Hmd Hlen H) as (_ & HFl & _ & _ & _ & _ & _ & _ & HFr).
  rewrite sorted_flag_land, HFl. unfold is_sorted_flag in Hfl. rewrite Hfl. cbn [negb].
  pose proof (loaded_fdes_ok _ _ _ _ Hmd Hlen H) as Hok. rewrite Forall_forall in Hok.
  pose proof (binary_search_sound md (search_cmp md a) (it_fdes (fdes sf))) as HS.
  assert (Hne : forall f er, In f (it_fdes (fdes sf)) -> @search_cmp fuel_error md a f <> Err er)
    by (intros; apply search_cmp_no_err; auto).
  specialize (HS Hne).
  destruct (binary_search md (search_cmp md a) (it_fdes (fdes sf))) as [[i|]|er|]; cbn [bind].
  - destruct HS as (f & Hi & Hc).
    destruct (nth_error_entry _ _ _ _ _ _ Hmd Hlen H Hi) as [HR Hv].
    unfold fdi_nth. rewrite (nth_error_skipn _ _ _ Hi). cbn [fst].
    exists (Z.of_nat i). rewrite <- Hv. cbn [en_fde en_fres view_fde sd_start sd_size].
    pose proof (@search_cmp_spec fuel_error md a f (Hok f (nth_error_In _ _ Hi)) Ha) as HC.
    rewrite Hc in HC.
    repeat split; try apply HR; try apply HC. exact HFr.
  - exact I.
  - exact HS.
  - destruct HS as (f & Hf & Hc).
    pose proof (@search_cmp_spec fuel_error md a f (Hok f Hf) Ha) as HC. rewrite Hc in HC.
    destruct HC as [HO Hlt]. split; [exact HO|].
    apply In_nth_error in Hf. destruct Hf as [i Hi].
    destruct (nth_error_entry _ _ _ _ _ _ Hmd Hlen H Hi) as [HR Hv].
    exists (Z.of_nat i). rewrite <- Hv. cbn. auto.
Qed.

Lemma search_sound md e bs sf a en :
  wf_mode md -> rust_slice md bs -> load md e bs = Ok sf -> in_i32 a ->
  fde_for_address md sf a = Ok (Some en) ->
  exists i, 0 <= i < spec_num_fdes e bs /\ view_fde (en_fde en) = spec_entry e bs i /\
    in_range (sd_start (spec_entry e bs i)) (sd_size (spec_entry e bs i)) a.
Proof.
  intros Hmd Hlen H Ha HE. destruct (is_sorted_flag bs) eqn:Hfl.
  - pose proof (sorted_search md e bs sf a Hmd Hlen H Ha Hfl) as HS. rewrite HE in HS.
    destruct HS as (i & ? & ? & ? & _). eauto.
  - pose proof (unsorted_search md e bs sf a Hmd Hlen H Ha Hfl) as HS. rewrite HE in HS.
    destruct HS as (i & ? & ? & ? & _). eauto.
Qed.

Lemma sorted_search_exact md e bs sf a k :
  wf_mode md -> rust_slice md bs -> load md e bs = Ok sf -> in_i32 a ->
  is_sorted_flag bs = true -> sorted_disjoint e bs ->
  0 <= k < spec_num_fdes e bs ->
  in_range (sd_start (spec_entry e bs k)) (sd_size (spec_entry e bs k)) a ->
  (overflow_checks md = false \/
   forall i, 0 <= i < spec_num_fdes e bs -> a - sd_start (spec_entry e bs i) <= i32_max) ->
  (reached (bsearch md) (spec_num_fdes e bs) k = true ->
     exists en, fde_for_address md sf a = Ok (Some en) /\ view_fde (en_fde en) = spec_entry e bs k) /\
  (reached (bsearch md) (spec_num_fdes e bs) k = false -> fde_for_address md sf a = Ok None).
Proof.
  intros Hmd Hlen H Ha Hfl Hsd Hk Hin Hov.
  destruct (load_accessors md e bs sf Hmd Hlen H) as (_ & HFl & _).
  pose proof (loaded_fdes_length md e bs sf Hmd Hlen H) as HL.
  pose proof (loaded_fdes_ok _ _ _ _ Hmd Hlen H) as Hok. rewrite Forall_forall in Hok.
  assert (HB : binary_search md (search_cmp md a) (it_fdes (fdes sf)) =
    Ok (if reached (bsearch md) (spec_num_fdes e bs) k then Some (Z.to_nat k) else None)).
  { rewrite <- HL. replace k with (Z.of_nat (Z.to_nat k)) at 1 by lia.
    apply binary_search_exact; [|unfold zlen in HL; lia].
    intros j f Hj. destruct (nth_error_entry _ _ _ _ _ _ Hmd Hlen H Hj) as [HR Hv].
    assert (Hs : fde_start_address f = sd_start (spec_entry e bs (Z.of_nat j))) by (rewrite <- Hv; reflexivity).
    assert (Hz : fde_size f = sd_size (spec_entry e bs (Z.of_nat j))) by (rewrite <- Hv; reflexivity).
    pose proof (@search_cmp_spec fuel_error md a f (Hok f (nth_error_In _ _ Hj)) Ha) as HC.
    assert (HPos : 0 <= fde_size f) by (destruct (Hok f (nth_error_In _ _ Hj)) as (_ & [? _] & _); assumption).
    unfold in_range in *. rewrite Hs, Hz in HC. rewrite Hz in HPos.
    destruct (Nat.ltb_spec j (Z.to_nat k)) as [H1|H1].
    - specialize (Hsd (Z.of_nat j) k ltac:(lia) ltac:(lia)).
      destruct (search_cmp md a f) as [[]|er|]; [lia|lia|reflexivity|contradiction|].
      exfalso. destruct HC as [HO Hlt]. destruct Hov as [Hov|Hov]; [congruence|]. specialize (Hov (Z.of_nat j) ltac:(lia)). lia.
    - destruct (Nat.eqb_spec j (Z.to_nat k)) as [H2|H2].
      + subst j. rewrite Z2Nat.id in HC by lia.
        destruct (search_cmp md a f) as [[]|er|]; [lia|reflexivity|lia|contradiction|].
        exfalso. destruct HC as [HO Hlt]. destruct Hov as [Hov|Hov]; [congruence|]. specialize (Hov k ltac:(lia)). lia.
      + specialize (Hsd k (Z.of_nat j) ltac:(lia) ltac:(lia)).
        destruct (search_cmp md a f) as [[]|er|]; [reflexivity|lia|lia|contradiction|].
        exfalso. destruct HC as [HO Hlt]. destruct Hov as [Hov|Hov]; [congruence|]. specialize (Hov (Z.of_nat j) ltac:(lia)). lia. }
  unfold fde_for_address. rewrite sorted_flag_land, HFl. unfold is_sorted_flag in Hfl. rewrite Hfl. cbn [negb].
  rewrite HB. split; intros HR; rewrite HR; cbn [bind]; [|reflexivity].
  destruct (loaded_fdes_nth md e bs sf k Hmd Hlen H Hk) as (f & Hf & Hv).
  unfold fdi_nth. rewrite (nth_error_skipn _ _ _ Hf). cbn [fst]. eexists. split; [reflexivity|]. exact Hv.
Qed.

(** ** C08: rows attached by the other access paths *)

Lemma access_rows md e bs sf i :
  wf_mode md -> rust_slice md bs -> load md e bs = Ok sf -> 0 <= i < spec_num_fdes e bs ->
  (* calling next i+1 times *)
  (exists en, last (fst (fdi_run (fdes sf) (repeat OpNext (S (Z.to_nat i))))) None = Some en /\
     view_fde (en_fde en) = spec_entry e bs i /\
     en_fres en = spec_rows_of e bs (spec_entry e bs i)) /\
  (* nth(i) *)
  (exists en, fst (fdi_nth (Z.to_nat i) (fdes sf)) = Some en /\
     view_fde (en_fde en) = spec_entry e bs i /\ en_fres en = spec_fre_bytes e bs) /\
  (* next_back, num_fdes - i times *)
  (exists en, last (fst (fdi_run (fdes sf) (repeat OpNextBack (Z.to_nat (spec_num_fdes e bs - i))))) None = Some en /\
     view_fde (en_fde en) = spec_entry e bs i /\ en_fres en = spec_fre_bytes e bs).
Proof.
  intros Hmd Hlen H Hi.
  destruct (loaded_fdes_nth md e bs sf i Hmd Hlen H Hi) as (f & Hf & Hv).
  destruct (load_accessors md e bs sf Hmd Hlen H) as (_ & _ & _ & _ & _ & _ & _ & _ & HFr).
  pose proof (loaded_fdes_length md e bs sf Hmd Hlen H) as HL.
  repeat split.
  - assert (HG : forall n l, nth_error l n = Some f ->
      last (fst (fdi_run (FdeIter l (sf_fres sf)) (repeat OpNext (S n)))) None
      = Some (Entry f (match get_from (fde_start_fre_off f) (sf_fres sf) with Some r => r | None => [] end))).
    { induction n as [|n IH]; intros l Hl; destruct l as [|g l]; try discriminate.
      - cbn in Hl. injection Hl as ->. cbn. reflexivity.
      - cbn in Hl. specialize (IH l Hl). change (repeat OpNext (S (S n))) with (OpNext :: repeat OpNext (S n)).
        cbn [fdi_run fdi_step]. unfold fdi_next. cbn [it_fdes it_fres].
        destruct (fdi_run {| it_fdes := l; it_fres := sf_fres sf |} (repeat OpNext (S n))) as [os it''] eqn:E.
        cbn [fst] in *. destruct os as [|o os]; [discriminate IH|]. exact IH. }
    specialize (HG (Z.to_nat i) _ Hf).
    replace (FdeIter (it_fdes (fdes sf)) (sf_fres sf)) with (fdes sf) in HG by reflexivity.
    eexists. split; [exact HG|]. cbn [en_fde en_fres]. split; [exact Hv|].
    rewrite (next_rows md e bs sf (Z.to_nat i) f Hmd Hlen H Hf). rewrite Z2Nat.id by lia. reflexivity.
  - unfold fdi_nth. rewrite (nth_error_skipn _ _ _ Hf). cbn [fst]. eexists. split; [reflexivity|]. auto.
  - assert (HG : forall n l, (n < length l)%nat -> nth_error (rev l) n = Some f ->
      last (fst (fdi_run (FdeIter l (sf_fres sf)) (repeat OpNextBack (S n)))) None = Some (Entry f (sf_fres sf))).
    { induction n as [|n IH]; intros l Hn Hl.
      - cbn [repeat fdi_run fdi_step]. unfold fdi_next_back. cbn [it_fdes it_fres].
        destruct (rev l) as [|g r]; [discriminate|]. cbn in Hl. injection Hl as ->. reflexivity.
      - change (repeat OpNextBack (S (S n))) with (OpNextBack :: repeat OpNextBack (S n)).
        cbn [fdi_run fdi_step]. unfold fdi_next_back. cbn [it_fdes it_fres].
        pose proof (rev_length l) as HRL.
        destruct (rev l) as [|g r]; [discriminate|]. cbn in Hl.
        specialize (IH (rev r)). rewrite rev_involutive, rev_length in IH. cbn in HRL.
        specialize (IH ltac:(lia) Hl).
        destruct (fdi_run {| it_fdes := rev r; it_fres := sf_fres sf |} (repeat OpNextBack (S n))) as [os it''].
        cbn [fst] in *. destruct os as [|o os]; [discriminate IH|]. exact IH. }
    specialize (HG (Z.to_nat (spec_num_fdes e bs - i) - 1)%nat (it_fdes (fdes sf))).
    replace (S (Z.to_nat (spec_num_fdes e bs - i) - 1)) with (Z.to_nat (spec_num_fdes e bs - i)) in HG by lia.
    unfold zlen in HL.
    replace (FdeIter (it_fdes (fdes sf)) (sf_fres sf)) with (fdes sf) in HG by reflexivity.
    rewrite HG; [eexists; split; [reflexivity|]; auto|lia|].
    assert (HN : nth_error (rev (it_fdes (fdes sf))) (Z.to_nat (spec_num_fdes e bs - i) - 1)
               = nth_error (it_fdes (fdes sf)) (Z.to_nat i)).
    { rewrite <- (rev_involutive (it_fdes (fdes sf))) at 2.
      set (m := rev (it_fdes (fdes sf))).
      assert (HM : length m = length (it_fdes (fdes sf))) by apply rev_length.
      destruct (nth_error m (Z.to_nat (spec_num_fdes e bs - i) - 1)) as [g|] eqn:E.
      2:{ apply nth_error_None in E. lia. }
      symmetry. rewrite (nth_error_nth' (rev m) g) by (rewrite rev_length; lia).
      rewrite rev_nth by lia. f_equal.
      apply (nth_error_nth _ _ g) in E. etransitivity; [|exact E]. f_equal. lia. }
    rewrite HN. exact Hf.
Qed.

(** ** Row search *)

Lemma fri_find_collect md e p : forall fuel it good bad,
  fri_collect fuel md e it = Ok (map inl good ++ map inr bad) ->
  fri_find fuel md e p it =
  match find p good with
  | Some fr => Ok (Some fr)
  | None => match bad with [] => Ok None | er :: _ => Err (inr er) end
  end.
Proof.
  induction fuel as [|k IH]; intros it good bad H; [discriminate|].
  cbn [fri_collect] in H. cbn [fri_find].
  destruct (fri_next md e it) as [[[x|] it']|er|]; [| |destruct er|discriminate].
  - destruct (fri_collect k md e it') as [l|er|] eqn:HC; try discriminate. injection H as H.
    destruct good as [|g good].
    + destruct bad as [|b bad]; [discriminate|]. cbn in H. injection H as -> ->. cbn. reflexivity.
    + cbn in H. injection H as -> ->. cbn [find]. destruct (p g); [reflexivity|]. apply IH. exact HC.
  - injection H as H. destruct good; [|discriminate]. destruct bad; [|discriminate]. reflexivity.
Qed.

Lemma get_fre_char md e en a good bad off :
  fde_ok (en_fde en) -> in_i32 a ->
  (overflow_checks md = false \/ a - en_start_address en <= i32_max) ->
  en_start_address en <= a <= en_start_address en + en_size en ->
  all_fres md e en = Ok (map inl good ++ map inr bad) ->
  lookup_offset en (a - en_start_address en) = Some off ->
  get_fre_for_address md e en a =
  match find (fun fr => fre_start_address_offset fr <=? off) good with
  | Some fr => Ok (Some fr)
  | None => match bad with [] => Ok None | er :: _ => Err (inr er) end
  end.
Proof.
  intros (H1 & H2 & _) Ha Hov Hr HA Hoff. unfold get_fre_for_address.
  unfold en_start_address, en_size in *.
  replace (a <? fde_start_address (en_fde en)) with false by lia.
  destruct (@sub_i32_fwd (fuel_error + read_error)%type md a _ Ha H1 ltac:(lia)) as [(_ & HO & Hd)|(d & -> & Hu & _)].
  { destruct Hov; [congruence|lia]. }
  cbn [bind]. rewrite Hu.
  replace (fde_size (en_fde en) <? a - fde_start_address (en_fde en)) with false by lia.
  unfold lookup_offset in Hoff. unfold all_fres in HA.
  destruct (en_fdetype en).
  - injection Hoff as <-. rewrite (fri_find_collect md e _ _ _ _ _ HA). reflexivity.
  - destruct (en_rep_block_size en) as [r|]; [|discriminate].
    destruct (r =? 0); [discriminate|]. injection Hoff as <-.
    rewrite (fri_find_collect md e _ _ _ _ _ HA). reflexivity.
  - discriminate.
Qed.

(** The search looks at no row behind the one it returns. *)
Lemma fri_find_prefix md e p : wf_mode md -> forall pre fuel it it',
  fde_ok (ri_fde it) -> fri_calls (length pre) md e it = Ok (map (fun x => Some (inl x)) pre, it') ->
  Forall (fun x => p x = false) pre -> (length (ri_fres it) + 2 <= fuel)%nat ->
  exists fuel', (0 < fuel')%nat /\ fri_find fuel md e p it = fri_find fuel' md e p it'.
Proof.
  intros Hmd. induction pre as [|x pre IH]; intros fuel it it' Hf HC HP Hfu.
  - cbn in HC. injection HC as <-. exists fuel. split; [lia|reflexivity].
  - cbn [length fri_calls map] in HC. destruct (fri_next md e it) as [[o it1]|er|] eqn:EN; [|destruct er|discriminate].
    cbn [bind fst snd] in HC. destruct (fri_calls (length pre) md e it1) as [[os it2]|er|] eqn:EC; [|destruct er|discriminate].
    cbn [bind fst snd] in HC. injection HC as -> -> ->.
    destruct fuel as [|fuel]; [lia|]. cbn [fri_find]. rewrite EN, (Forall_inv HP).
    assert (HN : ri_fde it1 = ri_fde it /\ (length (ri_fres it1) + 2 <= length (ri_fres it))%nat).
    { unfold fri_next in EN. destruct (fde_num_fres (ri_fde it) <=? ri_index it); [discriminate|].
      destruct (fre_load md e (ri_fde it) (ri_fres it)) as [[fr rest]|er|] eqn:HL; [|discriminate|discriminate].
      injection EN as <- <-. cbn [ri_fde ri_fres]. split; [reflexivity|].
      pose proof (fre_load_consumes _ _ _ _ _ _ Hmd Hf HL) as HC. unfold zlen in HC. lia. }
    destruct HN as [HN1 HN2]. apply (IH fuel it1 it'); [now rewrite HN1|exact EC|exact (Forall_inv_tail HP)|lia].
Qed.

Lemma get_fre_stops md e en a off pre it' :
  wf_mode md -> fde_ok (en_fde en) -> in_i32 a ->
  (overflow_checks md = false \/ a - en_start_address en <= i32_max) ->
  en_start_address en <= a <= en_start_address en + en_size en ->
  lookup_offset en (a - en_start_address en) = Some off ->
  fri_calls (length pre) md e (fres en) = Ok (map (fun x => Some (inl x)) pre, it') ->
  Forall (fun x => off < fre_start_address_offset x) pre ->
  match fri_next md e it' with
  | Ok (Some (inl fr), _) => fre_start_address_offset fr <= off -> get_fre_for_address md e en a = Ok (Some fr)
  | Ok (Some (inr er), _) => get_fre_for_address md e en a = Err (inr er)
  | Ok (None, _) => get_fre_for_address md e en a = Ok None
  | Panic => get_fre_for_address md e en a = Panic
  | Err _ => False
  end.
Proof.
  intros Hmd Hok Ha Hov Hr Hoff HC HP.
  assert (HG : get_fre_for_address md e en a = fri_find (fri_fuel (fres en)) md e (fun fr => fr_start fr <=? off) (fres en)).
  { destruct Hok as (H1 & H2 & _). unfold get_fre_for_address. unfold en_start_address, en_size in *.
    replace (a <? fde_start_address (en_fde en)) with false by lia.
    destruct (@sub_i32_fwd (fuel_error + read_error)%type md a _ Ha H1 ltac:(lia)) as [(_ & HO & Hd)|(d & -> & Hu & _)].
    { destruct Hov; [congruence|lia]. }
    cbn [bind]. rewrite Hu.
    replace (fde_size (en_fde en) <? a - fde_start_address (en_fde en)) with false by lia.
    unfold lookup_offset in Hoff. destruct (en_fdetype en).
    - injection Hoff as <-. reflexivity.
    - destruct (en_rep_block_size en) as [r|]; [|discriminate].
      destruct (r =? 0); [discriminate|]. injection Hoff as <-. reflexivity.
    - discriminate. }
  destruct (fri_find_prefix md e (fun fr => fr_start fr <=? off) Hmd pre (fri_fuel (fres en)) (fres en) it' Hok HC) as (fuel & Hf & HF).
  - eapply Forall_impl; [|exact HP]. intros x Hx. cbn beta. unfold fre_start_address_offset in Hx. lia.
  - unfold fri_fuel. lia.
  - rewrite HG, HF. destruct fuel as [|fuel]; [lia|]. cbn [fri_find].
    destruct (fri_next md e it') as [[[[fr|er]|] it2]|er|]; try reflexivity; [|destruct er].
    intros H. unfold fre_start_address_offset in H. replace (fr_start fr <=? off) with true by lia. reflexivity.
Qed.

Lemma get_fre_zero_block md e en a :
  fde_ok (en_fde en) -> in_i32 a ->
  (overflow_checks md = false \/ a - en_start_address en <= i32_max) ->
  en_start_address en <= a <= en_start_address en + en_size en ->
  en_fdetype en = PPcMask -> en_rep_block_size en = Some 0 ->
  get_fre_for_address md e en a = Err (inr InvalidFdeRepBlockSize).
Proof.
  intros (H1 & H2 & _) Ha Hov Hr HT HB. unfold get_fre_for_address.
  unfold en_start_address, en_size in *.
  replace (a <? fde_start_address (en_fde en)) with false by lia.
  destruct (@sub_i32_fwd (fuel_error + read_error)%type md a _ Ha H1 ltac:(lia)) as [(_ & HO & Hd)|(d & -> & Hu & _)].
  { destruct Hov; [congruence|lia]. }
  cbn [bind]. rewrite Hu.
  replace (fde_size (en_fde en) <? a - fde_start_address (en_fde en)) with false by lia.
  rewrite HT, HB. reflexivity.
Qed.

Lemma get_fre_outside md e en a :
  fde_ok (en_fde en) -> in_i32 a ->
  ~ in_range (en_start_address en) (en_size en) a ->
  a <> en_start_address en + en_size en ->
  (overflow_checks md = false \/ a - en_start_address en <= i32_max) ->
  get_fre_for_address md e en a = Ok None.
Proof.
  intros (H1 & H2 & _) Ha Hr Hne Hov. unfold get_fre_for_address.
  unfold en_start_address, en_size, in_range in *.
  destruct (Z.ltb_spec a (fde_start_address (en_fde en))) as [Hlt|Hge]; [reflexivity|].
  destruct (@sub_i32_fwd (fuel_error + read_error)%type md a _ Ha H1 ltac:(lia)) as [(_ & HO & Hd)|(d & -> & Hu & _)].
  { destruct Hov; [congruence|lia]. }
  cbn [bind]. rewrite Hu.
  replace (fde_size (en_fde en) <? a - fde_start_address (en_fde en)) with true by lia. reflexivity.
Qed.

(** With ascending rows the answer is the first row, so it is the row in effect
    exactly when no later row starts at or before the offset. *)
Lemma get_fre_first md e en a first rest off :
  fde_ok (en_fde en) -> in_i32 a ->
  (overflow_checks md = false \/ a - en_start_address en <= i32_max) ->
  en_start_address en <= a <= en_start_address en + en_size en ->
  all_fres md e en = Ok (map inl (first :: rest)) ->
  ascending (first :: rest) ->
  lookup_offset en (a - en_start_address en) = Some off ->
  fre_start_address_offset first <= off ->
  get_fre_for_address md e en a = Ok (Some first) /\
  (row_in_effect (first :: rest) off first <->
   forall g, In g rest -> off < fre_start_address_offset g).
Proof.
  intros Hf Ha Hov Hr HA Hasc Hoff Hfirst.
  rewrite (get_fre_char md e en a (first :: rest) [] off); try assumption.
  2:{ rewrite HA. rewrite app_nil_r. reflexivity. }
  cbn [find]. replace (fre_start_address_offset first <=? off) with true by lia.
  split; [reflexivity|]. inversion Hasc as [|? ? _ HF]; subst. rewrite Forall_forall in HF.
  split.
  - intros (_ & _ & HM) g Hg. specialize (HF g Hg).
    destruct (Z.le_gt_cases (fre_start_address_offset g) off) as [Hle|Hgt]; [|exact Hgt].
    specialize (HM g (or_intror Hg) Hle). lia.
  - intros HG. repeat split; [left; reflexivity|exact Hfirst|].
    intros g [<-|Hg] Hle; [lia|]. specialize (HG g Hg). lia.
Qed.

(** ** All entries of a section *)

Definition entry_of (fr : bytes) (f : fde) : entry :=
  {| en_fde := f;
     en_fres := match get_from (fde_start_fre_off f) fr with Some r => r | None => [] end |}.

Lemma fdi_collect_map l fr : forall fuel,
  (length l < fuel)%nat -> fdi_collect fuel (FdeIter l fr) = map (entry_of fr) l.
Proof.
  induction l as [|f l IH]; intros fuel Hf; destruct fuel as [|k]; cbn in Hf; try lia; cbn [fdi_collect].
  - reflexivity.
  - unfold fdi_next. cbn [it_fdes it_fres map]. rewrite IH by lia. reflexivity.
Qed.

Lemma all_fdes_map sf : all_fdes sf = map (entry_of (sf_fres sf)) (it_fdes (fdes sf)).
Proof.
  unfold all_fdes. replace (fdes sf) with (FdeIter (it_fdes (fdes sf)) (sf_fres sf)) at 2 by reflexivity.
  apply fdi_collect_map. lia.
Qed.

Lemma all_fdes_spec md e bs sf :
  wf_mode md -> rust_slice md bs -> load md e bs = Ok sf ->
  zlen (all_fdes sf) = spec_num_fdes e bs /\
  forall i en, nth_error (all_fdes sf) i = Some en ->
    fde_ok (en_fde en) /\
    view_fde (en_fde en) = spec_entry e bs (Z.of_nat i) /\
    en_fres en = spec_rows_of e bs (spec_entry e bs (Z.of_nat i)).
Proof.
  intros Hmd Hlen H. rewrite all_fdes_map. split.
  - rewrite zlen_map. apply (loaded_fdes_length md e bs sf); assumption.
  - intros i en Hn. rewrite nth_error_map in Hn.
    destruct (nth_error (it_fdes (fdes sf)) i) as [f|] eqn:Hf; [|discriminate]. injection Hn as <-.
    cbn [entry_of en_fde en_fres].
    pose proof (loaded_fdes_ok _ _ _ _ Hmd Hlen H) as Hok. rewrite Forall_forall in Hok.
    repeat split; try (apply Hok; eapply nth_error_In; exact Hf).
    + eapply nth_error_entry; eassumption.
    + apply (next_rows md e bs sf i f); assumption.
Qed.

(** C11: the rows come from the FRE sub-section. *)
Lemma row_bytes_inside md e bs sf en :
  wf_mode md -> rust_slice md bs -> load md e bs = Ok sf -> In en (all_fdes sf) ->
  exists before, spec_fre_bytes e bs = before ++ en_fres en.
Proof.
  intros Hmd Hlen H Hin. apply In_nth_error in Hin. destruct Hin as [i Hi].
  destruct (all_fdes_spec md e bs sf Hmd Hlen H) as [_ HA].
  destruct (HA i en Hi) as (_ & _ & ->). unfold spec_rows_of.
  exists (firstn (Z.to_nat (sd_fre_off (spec_entry e bs (Z.of_nat i)))) (spec_fre_bytes e bs)).
  symmetry. apply firstn_skipn.
Qed.
