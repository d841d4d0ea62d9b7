(** [merge_adjacent_fdes]: C42, C43. *)
From Verif Require Export ReachFacts Witness.

(** Not mergeable and close enough: not merged. *)
Lemma should_merge_false {E} md cur next :
  in_i32 (fb_start cur) -> in_i32 (fb_start next) -> fb_start cur < fb_start next -> in_u32 (fb_size cur) ->
  fb_options cur = fb_options next ->
  fb_start next - fb_start cur + fb_size cur <> 2 ^ 32 ->
  (overflow_checks md = false \/ fb_start next - fb_start cur <= 2 ^ 31) ->
  @should_merge E md cur next = Ok false.
Proof.
  intros Hc Hn Hlt Hsz Ho Hne Hov.
  destruct (@should_merge E md cur next) as [[|]|er|] eqn:Em.
  - apply should_merge_true in Em; try assumption. destruct Em as (_ & H & _). contradiction.
  - reflexivity.
  - exfalso. eapply should_merge_not_err, Em.
  - apply should_merge_panic in Em; [|assumption]. destruct Em as [H1 H2].
    destruct Hov as [H|H]; [congruence|]. exfalso. apply H2.
    unfold in_i32, i32_min, i32_max in *. lia.
Qed.

Lemma neighbours_tail {A} (x : A) l a b : neighbours l a b -> neighbours (x :: l) a b.
Proof. intros (pre & post & ->). exists (x :: pre), post. reflexivity. Qed.

Lemma fsquash_id {E} md o k cur t :
  sorted ((k, cur) :: t) -> fkeyed ((k, cur) :: t) ->
  Forall (fun b => fdb_wf b /\ fb_options b = o) (cur :: map snd t) ->
  (forall a b, neighbours (cur :: map snd t) a b ->
     fb_start b - fb_start a + fb_size a <> 2 ^ 32 /\
     (overflow_checks md = false \/ fb_start b - fb_start a <= 2 ^ 31)) ->
  @fsquash E md k cur t = Ok ((k, cur) :: t).
Proof.
  revert k cur. induction t as [|[k' n] t IH]; intros k cur Hs Hk HF Hn; cbn [fsquash]; [reflexivity|].
  cbn [map snd] in *.
  inversion HF as [|? ? [Hc Hco] HF1]; subst. inversion HF1 as [|? ? [Hw Hno] HF2]; subst.
  destruct (Hn cur n) as [H1 H2]; [exists [], (map snd t); reflexivity|].
  apply sorted_cons_iff in Hs. destruct Hs as [Hs Hlt].
  pose proof (Hlt k' n (or_introl eq_refl)) as Hkk.
  pose proof (Hk k cur (or_introl eq_refl)). pose proof (Hk k' n (or_intror (or_introl eq_refl))).
  rewrite should_merge_false; try assumption; try (apply Hc); try (apply Hw); try congruence; try lia.
  cbn [bind]. rewrite IH; [reflexivity|exact Hs| |exact HF1|].
  - intros k1 b1 Hin. apply Hk. right; exact Hin.
  - intros a b Hab. apply Hn. apply neighbours_tail, Hab.
Qed.

(** Merging changes nothing unless two neighbours' distance and size add up to
    2^32. *)
Theorem merge_fdes_noop md s : sfb_reach md s ->
  (forall a b, neighbours (fdes_of s) a b ->
     fb_start b - fb_start a + fb_size a <> 2 ^ 32 /\
     (overflow_checks md = false \/ fb_start b - fb_start a <= 2 ^ 31)) ->
  merge_adjacent_fdes md s = Ok s.
Proof.
  intros H Hn. pose proof (sfb_reach_wf _ _ H) as [O S K W].
  rewrite merge_fdes_eq by assumption. unfold fdes_of in *.
  destruct s as [o m]. cbn in *. destruct m as [|[k c] t]; cbn [fsquashed]; [reflexivity|].
  rewrite (fsquash_id md o) by assumption. reflexivity.
Qed.

Lemma neighbours_in {A} (l : list A) a b : neighbours l a b -> In a l /\ In b l.
Proof.
  intros (pre & post & ->). split; apply in_or_app; right; [left|right; left]; reflexivity.
Qed.

Lemma neighbours_lt m a b : sorted m -> fkeyed m -> neighbours (map snd m) a b -> fb_start a < fb_start b.
Proof.
  intros Hs Hk (pre & post & E). revert m Hs Hk E. induction pre as [|p pre IH]; intros m Hs Hk E.
  - destruct m as [|[k1 v1] [|[k2 v2] m]]; cbn in E; try discriminate.
    injection E as -> -> _. apply sorted_cons_iff in Hs. destruct Hs as [_ HF].
    specialize (HF _ _ (or_introl eq_refl)).
    pose proof (Hk k1 a (or_introl eq_refl)). pose proof (Hk k2 b (or_intror (or_introl eq_refl))). lia.
  - destruct m as [|[k1 v1] m]; cbn in E; [discriminate|]. injection E as _ E.
    apply (IH m); [apply sorted_tail in Hs; exact Hs| |exact E].
    intros k r Hin. apply Hk. right; exact Hin.
Qed.

(** C43 and C42: for functions at non-negative addresses that do not overlap. *)
Theorem merge_fdes_nonneg md s : sfb_reach md s -> ~ overlapping s ->
  (forall b, In b (fdes_of s) -> 0 <= fb_start b) ->
  merge_adjacent_fdes md s = Ok s.
Proof.
  intros H Hov Hpos. pose proof (sfb_reach_wf _ _ H) as [O S K W].
  apply merge_fdes_noop; [exact H|]. intros a b Hab.
  pose proof (neighbours_lt _ _ _ S K Hab) as Hlt.
  apply neighbours_in in Hab. destruct Hab as [Ha Hb].
  unfold fdes_of in *. rewrite Forall_forall in W.
  destruct (W a Ha) as [[Oa Sa Za _ _ _ _] _]. destruct (W b Hb) as [[Ob Sb Zb _ _ _ _] _].
  pose proof (Hpos a Ha). pose proof (Hpos b Hb). unfold in_i32, in_u32, i32_max, i32_min, u32_max in *.
  assert (Hd : fb_start a + fb_size a <= fb_start b).
  { destruct (Z.le_gt_cases (fb_start a + fb_size a) (fb_start b)) as [Hle|Hgt]; [exact Hle|].
    exfalso. apply Hov. exists a, b. unfold in_range, fdes_of. repeat apply conj; try assumption; lia. }
  split; lia.
Qed.

(** ** Witnesses *)

Definition plt_fde (start : Z) : fdb :=
  get_ok (fdb_new options_new 0 0) (add_rows (fdb_new options_new start 16) [row3 0 8 (-8) (-16); row3 6 16 (-8) (-16)]).

Lemma plt_rows start : add_rows (fdb_new options_new start 16) [row3 0 8 (-8) (-16); row3 6 16 (-8) (-16)] = Ok (plt_fde start).
Proof. reflexivity. Qed.

Lemma row3_typed st c r f : in_u32 st -> in_i32 c -> in_i32 r -> in_i32 f -> row_typed (row3 st c r f).
Proof. intros. unfold row_typed, row3, offsets_typed. cbn. auto. Qed.

Lemma plt_reach start : in_i32 start -> fdb_reach (plt_fde start).
Proof.
  intros H.
  assert (R0 : fdb_reach (fdb_new options_new start 16)).
  { apply br_new; [constructor|exact H|unfold in_u32, u32_max; lia]. }
  assert (T : forall st c, in_u32 st -> in_i32 c -> row_typed (row3 st c (-8) (-16))).
  { intros st c H1 H2. apply row3_typed; auto; unfold in_i32, i32_min, i32_max; lia. }
  apply (br_row (row3 0 8 (-8) (-16))) in R0; [|apply T; unfold in_u32, u32_max, in_i32, i32_min, i32_max; lia].
  apply (br_row (row3 6 16 (-8) (-16))) in R0; [|apply T; unfold in_u32, u32_max, in_i32, i32_min, i32_max; lia].
  exact R0.
Qed.

Definition plt_pair (a b : Z) : sfb :=
  {| sb_options := options_new; sb_fdes := bt_insert b (plt_fde b) [(a, plt_fde a)] |}.

Lemma plt_pair_reach md a b : in_i32 a -> in_i32 b -> sfb_reach md (plt_pair a b).
Proof.
  intros Ha Hb. eapply sr_fde; [eapply sr_fde; [apply (sr_new md options_new); constructor| |]| |].
  - apply (plt_reach a Ha).
  - reflexivity.
  - apply (plt_reach b Hb).
  - reflexivity.
Qed.

(** C42: two adjacent, identical 16-byte functions stay two. *)
Theorem adjacent_not_merged : forall md,
  exists s a b,
    sfb_reach md s /\ fdes_of s = [a; b] /\
    fb_pauth a = fb_pauth b /\ fb_size a = fb_size b /\ fb_size a <= 255 /\ rows_of a = rows_of b /\
    fb_rep_size a = None /\ fb_rep_size b = None /\
    fb_start b = fb_start a + fb_size a /\
    merge_adjacent_fdes md s = Ok s.
Proof.
  intros md. exists (plt_pair 0x100 0x110), (plt_fde 0x100), (plt_fde 0x110).
  assert (R : sfb_reach md (plt_pair 0x100 0x110))
    by (apply plt_pair_reach; unfold in_i32, i32_min, i32_max; lia).
  split; [exact R|]. repeat (split; [first [reflexivity|vm_compute; discriminate]|]).
  apply merge_fdes_noop; [exact R|].
  intros a b Hab. destruct Hab as (pre & post & E).
  assert (Ef : fdes_of (plt_pair 0x100 0x110) = [plt_fde 0x100; plt_fde 0x110]) by reflexivity.
  rewrite Ef in E. destruct pre as [|p [|q pre]]; cbn in E; try discriminate.
  2:{ injection E as _ _ E. destruct pre; discriminate. }
  injection E as <- <- _. split; [vm_compute; discriminate|right; vm_compute; discriminate].
Qed.

(** C43: in a release build, functions at both ends of the address space merge. *)
Theorem merge_changes_unwinding :
  exists s s' a k p,
    sfb_reach rel64 s /\ ~ overlapping s /\ merge_adjacent_fdes rel64 s = Ok s' /\
    unwind_at s a k p /\ forall k' p', ~ unwind_at s' a k' p'.
Proof.
  pose (s := plt_pair (-2147483648) 2147483632).
  exists s, (get_ok s (merge_adjacent_fdes rel64 s)), 2147483632, KeyA, (Some (RowOffsets 8 (Some (-8)) (Some (-16))), false, Sp).
  split; [apply plt_pair_reach; unfold in_i32, i32_min, i32_max; lia|].
  split; [|split; [vm_compute; reflexivity|split]].
  - intros (a & b & Ha & Hb & Hne & H).
    assert (Ef : fdes_of s = [plt_fde (-2147483648); plt_fde 2147483632]) by reflexivity.
    rewrite Ef in *. unfold in_range in H.
    assert (fb_size (plt_fde (-2147483648)) = 16 /\ fb_size (plt_fde 2147483632) = 16 /\
            fb_start (plt_fde (-2147483648)) = -2147483648 /\ fb_start (plt_fde 2147483632) = 2147483632)
      as (E1 & E2 & E3 & E4) by (repeat split; reflexivity).
    destruct Ha as [<-|[<-|[]]], Hb as [<-|[<-|[]]]; lia.
  - exists (plt_fde 2147483632). split; [right; left; reflexivity|].
    split; [vm_compute; split; [discriminate|reflexivity]|]. split; [reflexivity|].
    exists (row3 0 8 (-8) (-16)). split; [|reflexivity]. split; [left; reflexivity|].
    split; [vm_compute; discriminate|]. intros r [<-|[<-|[]]]; vm_compute; intros; congruence.
  - intros k' p' (b & Hb & Hr & _).
    assert (Ef : fdes_of (get_ok s (merge_adjacent_fdes rel64 s)) =
                 [merged_fde (plt_fde (-2147483648)) (plt_fde 2147483632)]) by (vm_compute; reflexivity).
    rewrite Ef in Hb. destruct Hb as [<-|[]]. vm_compute in Hr. destruct Hr as [_ Hr]. discriminate.
Qed.

(** C42: exactly when two neighbours are merged. *)
Theorem merge_condition E md a b :
  in_i32 (fb_start a) -> in_i32 (fb_start b) -> fb_start a < fb_start b -> in_u32 (fb_size a) ->
  fb_options a = fb_options b ->
  (@should_merge E md a b = Ok true <-> mergeable md a b).
Proof. apply should_merge_true. Qed.

(** The same, observed on a builder with two functions. *)
Theorem merge_two md s a b : sfb_reach md s -> fdes_of s = [a; b] ->
  (mergeable md a b <-> exists s', merge_adjacent_fdes md s = Ok s' /\ length (fdes_of s') = 1%nat).
Proof.
  intros H Ef. pose proof (sfb_reach_wf _ _ H) as [O S K W].
  rewrite merge_fdes_eq by assumption. unfold fdes_of in *.
  destruct (sb_fdes s) as [|[k1 a'] [|[k2 b'] [|x t]]] eqn:Em; cbn in Ef; try discriminate.
  injection Ef as -> ->. cbn [fsquashed fsquash]. cbn [map snd] in W.
  inversion W as [|? ? [Wa Oa] W1]; subst. inversion W1 as [|? ? [Wb Ob] _]; subst.
  assert (Hlt : fb_start a < fb_start b).
  { apply (neighbours_lt _ _ _ S K). exists [], []. reflexivity. }
  assert (Hm := merge_condition fuel_error md a b (bw_start _ Wa) (bw_start _ Wb) Hlt (bw_size _ Wa) ltac:(congruence)).
  rewrite <- Hm. destruct (@should_merge fuel_error md a b) as [[|]|er|]; cbn [bind].
  - split; [intros _; eexists; split; reflexivity|reflexivity].
  - split; [discriminate|]. intros (s' & [= <-] & Hl). discriminate.
  - split; [discriminate|]. intros (s' & [=] & _).
  - split; [discriminate|]. intros (s' & [=] & _).
Qed.

(** Functions laid out back to back, each at most 255 bytes, are never merged. *)
Theorem back_to_back_never_merged md s : sfb_reach md s ->
  (forall a b, neighbours (fdes_of s) a b -> fb_start b = fb_start a + fb_size a /\ fb_size a <= 255) ->
  merge_adjacent_fdes md s = Ok s.
Proof.
  intros H Hn. apply merge_fdes_noop; [exact H|]. intros a b Hab. destruct (Hn a b Hab). lia.
Qed.

Lemma fsquash_id_or_panic {E} md o k cur t :
  sorted ((k, cur) :: t) -> fkeyed ((k, cur) :: t) ->
  Forall (fun b => fdb_wf b /\ fb_options b = o) (cur :: map snd t) ->
  (forall a b, neighbours (cur :: map snd t) a b -> ~ mergeable md a b) ->
  @fsquash E md k cur t = Ok ((k, cur) :: t) \/ @fsquash E md k cur t = Panic.
Proof.
  revert k cur. induction t as [|[k' n] t IH]; intros k cur Hs Hk HF Hn; cbn [fsquash]; [left; reflexivity|].
  cbn [map snd] in *.
  inversion HF as [|? ? [Hc Hco] HF1]; subst. inversion HF1 as [|? ? [Hw Hno] HF2]; subst.
  assert (H1 : ~ mergeable md cur n) by (apply Hn; exists [], (map snd t); reflexivity).
  apply sorted_cons_iff in Hs. destruct Hs as [Hs Hlt].
  pose proof (Hlt k' n (or_introl eq_refl)) as Hkk.
  pose proof (Hk k cur (or_introl eq_refl)). pose proof (Hk k' n (or_intror (or_introl eq_refl))).
  destruct (@should_merge E md cur n) as [[|]|er|] eqn:Em; cbn [bind].
  - exfalso. apply H1. apply (merge_condition E); try assumption; try (apply Hc); try (apply Hw); try congruence; lia.
  - destruct (IH k' n) as [->| ->]; cbn [bind]; [exact Hs| |exact HF1| |left; reflexivity|right; reflexivity].
    + intros k1 b1 Hin. apply Hk. right; exact Hin.
    + intros a b Hab. apply Hn. apply neighbours_tail, Hab.
  - exfalso. eapply should_merge_not_err, Em.
  - right. reflexivity.
Qed.

(** Nothing but mergeable neighbours is ever merged. *)
Theorem merge_fdes_only_mergeable md s : sfb_reach md s ->
  (forall a b, neighbours (fdes_of s) a b -> ~ mergeable md a b) ->
  merge_adjacent_fdes md s = Ok s \/ merge_adjacent_fdes md s = Panic.
Proof.
  intros H Hn. pose proof (sfb_reach_wf _ _ H) as [O S K W].
  rewrite merge_fdes_eq by assumption. unfold fdes_of in *.
  destruct s as [o m]. cbn in *. destruct m as [|[k c] t]; cbn [fsquashed]; [left; reflexivity|].
  destruct (fsquash_id_or_panic (E := fuel_error) md o k c t) as [-> | ->]; try assumption; [left|right]; reflexivity.
Qed.

(** In checked builds, for functions smaller than 2^31. *)
Theorem merge_fdes_checked md s s' : sfb_reach md s -> overflow_checks md = true ->
  (forall b, In b (fdes_of s) -> fb_size b < 2 ^ 31) ->
  merge_adjacent_fdes md s = Ok s' -> s' = s.
Proof.
  intros H Hoc Hsz Hm. pose proof (sfb_reach_wf _ _ H) as [O S K W].
  destruct (merge_fdes_only_mergeable md s H) as [E|E]; [|congruence|congruence].
  intros a b Hab (_ & Hsum & [Hc|Hd] & _); [congruence|].
  pose proof (neighbours_lt _ _ _ S K Hab) as Hlt.
  apply neighbours_in in Hab. destruct Hab as [Ha Hb]. pose proof (Hsz a Ha). lia.
Qed.
