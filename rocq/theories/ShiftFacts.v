(** Everything moved by the same distance: proofs (C119, C120). *)
From Verif Require Export RelateFacts LocalFacts.
Open Scope Z_scope.
Open Scope list_scope.

(** ** C120: looking up in a moved section *)

Definition omap {E A B} (g : A -> B) (o : outcome E A) : outcome E B :=
  match o with Ok a => Ok (g a) | Err er => Err er | Panic => Panic end.

Lemma sub_i32_move {E} md a b k : @sub_i32 E md (a + k) (b + k) = sub_i32 md a b.
Proof. unfold sub_i32. replace (a + k - (b + k)) with (a - b) by lia. reflexivity. Qed.

Lemma move_start k f : fde_start_address (move_desc k f) = fde_start_address f + k.
Proof. destruct f; reflexivity. Qed.
Lemma move_size k f : fde_size (move_desc k f) = fde_size f.
Proof. destruct f; reflexivity. Qed.
Lemma move_info k f : fde_info (move_desc k f) = fde_info f.
Proof. destruct f; reflexivity. Qed.
Lemma move_num k f : fde_num_fres (move_desc k f) = fde_num_fres f.
Proof. destruct f; reflexivity. Qed.
Lemma move_off k f : fde_start_fre_off (move_desc k f) = fde_start_fre_off f.
Proof. destruct f; reflexivity. Qed.
Lemma move_rep k f : fde_rep_size (move_desc k f) = fde_rep_size f.
Proof. destruct f; reflexivity. Qed.
Lemma move_type k f : fde_fdetype (move_desc k f) = fde_fdetype f.
Proof. destruct f; reflexivity. Qed.

Lemma move_contains {E} md k en a : @contains E md (move_en k en) (a + k) = contains md en a.
Proof.
  unfold contains, en_start_address, en_size. cbn [move_en en_fde]. rewrite move_start, move_size.
  replace (a + k <? fde_start_address (en_fde en) + k) with (a <? fde_start_address (en_fde en)).
  - rewrite sub_i32_move. reflexivity.
  - destruct (Z.ltb_spec a (fde_start_address (en_fde en))), (Z.ltb_spec (a + k) (fde_start_address (en_fde en) + k)); lia.
Qed.

Lemma move_cmp {E} md k a f : @search_cmp E md (a + k) (move_desc k f) = search_cmp md a f.
Proof.
  unfold search_cmp. rewrite move_start, move_size.
  replace (a + k <? fde_start_address f + k) with (a <? fde_start_address f).
  - rewrite sub_i32_move. reflexivity.
  - destruct (Z.ltb_spec a (fde_start_address f)), (Z.ltb_spec (a + k) (fde_start_address f + k)); lia.
Qed.

Definition move_it (k : Z) (it : fde_iter) : fde_iter := FdeIter (map (move_desc k) (it_fdes it)) (it_fres it).

Lemma move_fdes k sf : fdes (move_sf k sf) = move_it k (fdes sf).
Proof. unfold fdes, move_it, move_sf. cbn. destruct (sf_fdes sf); cbn; rewrite !map_map; reflexivity. Qed.

Lemma move_next k it : fdi_next (move_it k it) =
  (option_map (move_en k) (fst (fdi_next it)), move_it k (snd (fdi_next it))).
Proof.
  destruct it as [[|f t] rows]; [reflexivity|]. unfold fdi_next, move_it. cbn. rewrite move_off. reflexivity.
Qed.

Lemma move_nth k n it : fst (fdi_nth n (move_it k it)) = option_map (move_en k) (fst (fdi_nth n it)).
Proof.
  unfold fdi_nth, move_it. cbn. rewrite skipn_map. destruct (skipn n (it_fdes it)); reflexivity.
Qed.

Lemma move_collect k fuel : forall it, fdi_collect fuel (move_it k it) = map (move_en k) (fdi_collect fuel it).
Proof.
  induction fuel as [|fuel IH]; intros it; [reflexivity|]. cbn [fdi_collect]. rewrite move_next.
  destruct (fdi_next it) as [[en|] it']; cbn; [rewrite IH|]; reflexivity.
Qed.

Lemma move_all_fdes k sf : all_fdes (move_sf k sf) = map (move_en k) (all_fdes sf).
Proof.
  unfold all_fdes. rewrite move_fdes, move_collect. unfold move_it at 1. cbn [it_fdes]. rewrite map_length. reflexivity.
Qed.

Lemma move_find k md a fuel : forall it,
  fdi_find fuel md (a + k) (move_it k it) = omap (option_map (move_en k)) (fdi_find fuel md a it).
Proof.
  induction fuel as [|fuel IH]; intros it; [reflexivity|]. cbn [fdi_find]. rewrite move_next.
  destruct (fdi_next it) as [[en|] it']; cbn [fst snd option_map]; [|reflexivity]. rewrite move_contains.
  destruct (contains md en a) as [[]| |]; cbn [bind omap]; [reflexivity|apply IH|reflexivity|reflexivity].
Qed.

Lemma move_left_right (cmp cmp' : fde -> outcome fuel_error ordering) g l : (forall f, cmp' (g f) = cmp f) ->
  forall fuel a b, bs_left_right fuel cmp' (map g l) a b = bs_left_right fuel cmp l a b.
Proof.
  intros H. induction fuel as [|fuel IH]; intros a b; [reflexivity|]. cbn [bs_left_right]. rewrite nth_error_map.
  destruct (nth_error l _) as [f|]; cbn [option_map]; [|reflexivity]. rewrite H.
  destruct (cmp f) as [[]| |]; cbn [bind]; rewrite ?IH; reflexivity.
Qed.
Lemma move_base (cmp cmp' : fde -> outcome fuel_error ordering) g l : (forall f, cmp' (g f) = cmp f) ->
  forall fuel a b, bs_base fuel cmp' (map g l) a b = bs_base fuel cmp l a b.
Proof.
  intros H. induction fuel as [|fuel IH]; intros a b; [reflexivity|]. cbn [bs_base]. rewrite !nth_error_map.
  destruct (1 <? b)%nat.
  - destruct (nth_error l _) as [f|]; cbn [option_map]; [|reflexivity]. rewrite H.
    destruct (cmp f) as [[]| |]; cbn [bind]; rewrite ?IH; reflexivity.
  - destruct (nth_error l a) as [f|]; cbn [option_map]; [|reflexivity]. rewrite H. reflexivity.
Qed.

Lemma move_search md k a l :
  binary_search md (search_cmp md (a + k)) (map (move_desc k) l) = binary_search md (search_cmp md a) l.
Proof.
  unfold binary_search. rewrite map_length. destruct (bsearch md).
  - apply move_left_right. intros f. apply move_cmp.
  - destruct l as [|f t]; [reflexivity|]. cbn [map]. change (move_desc k f :: map (move_desc k) t) with (map (move_desc k) (f :: t)).
    apply move_base. intros g. apply move_cmp.
Qed.

Theorem moved_function md k sf a :
  fde_for_address md (move_sf k sf) (a + k) = omap (option_map (move_en k)) (fde_for_address md sf a).
Proof.
  unfold fde_for_address. rewrite move_fdes. change (flags (move_sf k sf)) with (flags sf).
  destruct (negb _).
  - rewrite move_find. unfold move_it. cbn [it_fdes]. rewrite map_length. reflexivity.
  - cbn [move_it it_fdes]. rewrite move_search.
    destruct (binary_search _ _ _) as [[i|]| |]; cbn [bind omap option_map]; try reflexivity.
    rewrite <- move_nth. reflexivity.
Qed.

Lemma move_load md e k f bs : fre_load md e (move_desc k f) bs =
  omap (fun p => (move_fre k (fst p), snd p)) (fre_load md e f bs).
Proof.
  unfold fre_load. rewrite move_info, move_size.
  destruct (match fretype (fde_info f) with Addr1 => _ | _ => _ end) as [[[st info] ob]| |]; cbn [bind omap]; try reflexivity.
  destruct (negb _); [reflexivity|].
  destruct (match offset_size info with Off1B => _ | _ => _ end) as [[ofs rest]| |]; cbn [bind omap fst snd]; try reflexivity.
  destruct (st <? fde_size f); reflexivity.
Qed.

Definition move_ri (k : Z) (it : fre_iter) : fre_iter := FreIter (move_desc k (ri_fde it)) (ri_fres it) (ri_index it).
Definition move_item (k : Z) (x : fre_item) : fre_item := match x with inl fr => inl (move_fre k fr) | inr er => inr er end.

Lemma move_row_next md e k it : fri_next md e (move_ri k it) =
  omap (fun p => (option_map (move_item k) (fst p), move_ri k (snd p))) (fri_next md e it).
Proof.
  unfold fri_next. cbn [move_ri ri_fde ri_fres ri_index]. rewrite move_num, move_load.
  destruct (_ <=? _); [reflexivity|].
  destruct (fre_load md e (ri_fde it) (ri_fres it)) as [[fr rest]| |]; reflexivity.
Qed.

Lemma move_row_find md e k (p p' : fre -> bool) : (forall fr, p' (move_fre k fr) = p fr) ->
  forall fuel it, fri_find fuel md e p' (move_ri k it) = omap (option_map (move_fre k)) (fri_find fuel md e p it).
Proof.
  intros Hp. induction fuel as [|fuel IH]; intros it; [reflexivity|]. cbn [fri_find]. rewrite move_row_next.
  destruct (fri_next md e it) as [[[[fr|er]|] it']| |]; cbn [omap fst snd option_map move_item]; try reflexivity; [|destruct e0].
  rewrite Hp. destruct (p fr); [reflexivity|apply IH].
Qed.

Lemma move_row_collect md e k fuel : forall it,
  fri_collect fuel md e (move_ri k it) = omap (map (move_item k)) (fri_collect fuel md e it).
Proof.
  induction fuel as [|fuel IH]; intros it; [reflexivity|]. cbn [fri_collect]. rewrite move_row_next.
  destruct (fri_next md e it) as [[[x|] it']| |]; cbn [omap fst snd option_map]; try reflexivity; [|destruct e0].
  rewrite IH. destruct (fri_collect fuel md e it'); reflexivity.
Qed.

Lemma move_fres_it k en : fres (move_en k en) = move_ri k (fres en).
Proof. reflexivity. Qed.

Theorem moved_rows md e k en : all_fres md e (move_en k en) = omap (map (move_item k)) (all_fres md e en).
Proof. unfold all_fres. rewrite move_fres_it, move_row_collect. reflexivity. Qed.

Theorem moved_row md e k en a :
  get_fre_for_address md e (move_en k en) (a + k) = omap (option_map (move_fre k)) (get_fre_for_address md e en a).
Proof.
  unfold get_fre_for_address, en_start_address, en_size, en_fdetype, en_rep_block_size. cbn [move_en en_fde].
  rewrite move_start, move_size, move_type, move_rep. fold (move_en k en).
  replace (a + k <? fde_start_address (en_fde en) + k) with (a <? fde_start_address (en_fde en)).
  2:{ destruct (Z.ltb_spec a (fde_start_address (en_fde en))), (Z.ltb_spec (a + k) (fde_start_address (en_fde en) + k)); lia. }
  destruct (_ <? _); [reflexivity|]. rewrite sub_i32_move.
  destruct (sub_i32 md a (fde_start_address (en_fde en))) as [d| |]; cbn [bind]; try reflexivity.
  destruct (_ <? _); [reflexivity|]. rewrite move_fres_it.
  change (fri_fuel (move_ri k (fres en))) with (fri_fuel (fres en)).
  destruct (fde_fdetype (en_fde en)).
  - apply move_row_find. reflexivity.
  - destruct (fde_rep_size (en_fde en)) as [rep|]; [|reflexivity]. destruct (rep =? 0); [reflexivity|].
    apply move_row_find. reflexivity.
  - apply move_row_find. reflexivity.
Qed.

Lemma moved_row_start {E} md k fr : in_i32 (fde_start_address (fr_fde fr) + fr_start fr) ->
  in_i32 (fde_start_address (fr_fde fr) + fr_start fr + k) ->
  @fre_start_address E md (move_fre k fr) = omap (fun x => x + k) (fre_start_address md fr).
Proof.
  intros H1 H2. unfold fre_start_address. cbn [move_fre fr_fde fr_start]. rewrite move_start.
  replace (fde_start_address (fr_fde fr) + k + fr_start fr) with (fde_start_address (fr_fde fr) + fr_start fr + k) by lia.
  destruct (debug_asserts md).
  - rewrite !(proj2 (in_i32b_spec _)) by assumption. reflexivity.
  - rewrite !as_s_32_id by assumption. reflexivity.
Qed.

(** ** C119: building and converting what was moved *)

Lemma move_set k m b : move_fdb k (fdb_set_fres m b) = fdb_set_fres m (move_fdb k b).
Proof. reflexivity. Qed.

Lemma move_add_row k b r : fdb_row (move_fdb k b) r = omap (move_fdb k) (fdb_row b r).
Proof.
  unfold fdb_row, fdb_row_st. cbn [move_fdb fb_rep_size fb_size fb_options fb_fres].
  destruct (0x10000000 <=? r_start r); [reflexivity|].
  destruct (match fb_rep_size b with Some rep => _ | None => _ end); [reflexivity|].
  destruct (fb_size b <=? r_start r); [reflexivity|].
  destruct (normalise_offsets (fb_options b) r) as [r'| |]; try reflexivity.
  destruct (bt_get (r_start r') (fb_fres b)); reflexivity.
Qed.

Lemma move_add_rows k l : forall b, add_rows (move_fdb k b) l = omap (move_fdb k) (add_rows b l).
Proof.
  induction l as [|r t IH]; intros b; [reflexivity|]. cbn [add_rows]. rewrite move_add_row.
  destruct (fdb_row b r) as [b'| |]; cbn [omap bind]; [apply IH|reflexivity|reflexivity].
Qed.

Lemma move_merge k b : merge_adjacent_fres (move_fdb k b) = omap (move_fdb k) (merge_adjacent_fres b).
Proof.
  unfold merge_adjacent_fres. cbn [move_fdb fb_fres]. destruct (bt_first (fb_fres b)) as [[a r]|]; [|reflexivity].
  destruct (merge_fres_loop _ _ _); reflexivity.
Qed.

Lemma move_off_row k f r : off (move_fde k f) (move_row k r) = off f r.
Proof. unfold off. cbn. lia. Qed.

Lemma move_img a k f r : img a (move_fde k f) (move_row k r) = img a f r.
Proof. unfold img. rewrite move_off_row. reflexivity. Qed.

Lemma move_wideb k r : wideb (move_row k r) = wideb r.
Proof.
  unfold wideb. cbn. f_equal. destruct (Z.eqb_spec (dr_start r) (dr_end r)), (Z.eqb_spec (dr_start r + k) (dr_end r + k)); lia.
Qed.

Lemma move_rows_of k f : dw_rows_of (move_fde k f) = map (move_row k) (dw_rows_of f).
Proof. unfold dw_rows_of, move_fde. cbn. destruct (df_rows f); reflexivity. Qed.

Lemma filter_wide_move k l : filter wideb (map (move_row k) l) = map (move_row k) (filter wideb l).
Proof.
  induction l as [|r t IH]; [reflexivity|]. cbn [map filter]. rewrite move_wideb, IH. destruct (wideb r); reflexivity.
Qed.

Lemma move_representable a k r base cfa ra fp : representable a (move_row k r) base cfa ra fp <-> representable a r base cfa ra fp.
Proof. reflexivity. Qed.

Lemma move_fine a fixed k f pre r : row_fine a fixed f pre r -> row_fine a fixed (move_fde k f) (map (move_row k) pre) (move_row k r).
Proof.
  intros [H0 (H1 & H2 & H3 & H4)]. split; [rewrite move_off_row; exact H0|].
  unfold row_fits. rewrite move_off_row. split; [exact H1|]. split; [exact H2|]. split; [exact H3|].
  intros r' Hr' Hw E. apply in_map_iff in Hr'. destruct Hr' as (r0 & <- & Hr0). cbn in E.
  apply (H4 r0 Hr0); [|lia]. apply wideb_spec. rewrite <- (move_wideb k). apply wideb_spec, Hw.
Qed.

Lemma move_rows_fine a fixed k f l : rows_fine a fixed f l -> rows_fine a fixed (move_fde k f) (map (move_row k) l).
Proof.
  intros H pre r post E Hw. apply map_eq_app in E. destruct E as (p & q & -> & <- & E).
  apply map_eq_cons in E. destruct E as (r0 & q' & -> & <- & _). apply move_fine, (H p r0 q' eq_refl).
  apply wideb_spec. rewrite <- (move_wideb k). apply wideb_spec, Hw.
Qed.

Lemma move_built op o k f b : df_start f + k <= i32_max -> fde_built op o f b -> fde_built op o (move_fde k f) (move_fdb k b).
Proof.
  intros Hk [B1 B2 (l & L1 & L2) (b0 & [P] & M)]. constructor; [exact Hk|exact B2| |].
  - exists (map (move_row k) l). split; [unfold move_fde; cbn; rewrite L1; reflexivity|apply move_rows_fine, L2].
  - exists (move_fdb k b0). split.
    + constructor. rewrite move_rows_of, filter_wide_move, map_map.
      rewrite (map_ext _ _ (move_img (op_arch op) k f)).
      change (fdb_new o (df_start (move_fde k f)) (df_len (move_fde k f))) with (move_fdb k (fdb_new o (df_start f) (df_len f))).
      rewrite move_add_rows, P. reflexivity.
    + destruct (op_merge_fres op); [|congruence]. rewrite move_merge, M. reflexivity.
Qed.

Definition move_map (k : Z) (m : btree fdb) : btree fdb := map (fun kb => (fst kb + k, move_fdb k (snd kb))) m.

Lemma move_insert k x b m : bt_insert (x + k) (move_fdb k b) (move_map k m) = move_map k (bt_insert x b m).
Proof.
  induction m as [|[y v] t IH]; [reflexivity|]. cbn [move_map map bt_insert fst snd] in *.
  replace (x + k <? y + k) with (x <? y) by (destruct (Z.ltb_spec x y), (Z.ltb_spec (x + k) (y + k)); lia).
  replace (x + k =? y + k) with (x =? y) by (destruct (Z.eqb_spec x y), (Z.eqb_spec (x + k) (y + k)); lia).
  destruct (x <? y); [reflexivity|]. destruct (x =? y); [reflexivity|]. cbn [map fst snd]. f_equal. exact IH.
Qed.

Lemma move_assembled op o k l m : (forall f, In f l -> df_start f + k <= i32_max /\ dw_fde_typed (move_fde k f)) ->
  assembled op o l m -> assembled op o (map (move_fde k) l) (move_map k m).
Proof.
  intros Hk HA. induction HA as [|l m f b HA IH Ht Hb]; [constructor|].
  rewrite map_app. cbn [map]. rewrite <- move_insert. change (df_start f + k) with (df_start (move_fde k f)).
  destruct (Hk f) as [K1 K2]; [apply in_or_app; right; left; reflexivity|].
  apply as_snoc; [|exact K2|apply move_built; assumption].
  apply IH. intros g Hg. apply Hk, in_or_app. left. exact Hg.
Qed.

Lemma move_functions k l : functions (map (move_entry k) l) = map (move_fde k) (functions l).
Proof. induction l as [|[] t IH]; cbn; rewrite ?IH; reflexivity. Qed.

Theorem moved_conversion md op eh k s : eh_typed eh -> eh_typed (move_eh k eh) ->
  (forall f, In f (functions (entries_of eh)) -> df_start f + k <= i32_max) ->
  dwarf2sframe md op eh = Ok s -> dwarf2sframe md op (move_eh k eh) = Ok (move_sfb k s).
Proof.
  intros Ht Ht' Hk H. pose proof (dwarf2sframe_converted _ _ _ _ Ht H) as HC.
  assert (HF : section_fine md op (move_eh k eh)).
  { destruct (cv_fine _ _ _ _ HC) as [F1 F2]. split; [|exact F2].
    change (fixed_ra_of op (move_eh k eh)) with (fixed_ra_of op eh).
    unfold move_eh, entries_of at 1. cbn [eh_entries ents_list]. rewrite Forall_forall in *.
    intros x Hx. apply in_map_iff in Hx. destruct Hx as (y & <- & Hy). specialize (F1 y Hy).
    destruct y as [|g|f]; [exact F1|exact F1|]. cbn [move_entry entry_fine] in *.
    destruct F1 as [([D1 D2] & S1 & S2) (l & L1 & L2)].
    assert (Hin : In f (functions (entries_of eh))).
    { clear - Hy. induction (entries_of eh) as [|[|g|h] t IH]; cbn in *; [destruct Hy| | |].
      - destruct Hy as [E|Hy]; [discriminate|auto].
      - destruct Hy as [E|Hy]; [discriminate|auto].
      - destruct Hy as [E|Hy]; [injection E as ->; left; reflexivity|right; auto]. }
    pose proof (Hk f Hin) as Hkf. split; [split; [|split; [exact Hkf|exact S2]]|].
    - split; [|exact D2]. intros (_ & _ & O). cbn in O. unfold i32_max in *. lia.
    - exists (map (move_row k) l). split; [unfold move_fde; cbn; rewrite L1; reflexivity|apply move_rows_fine, L2]. }
  destruct (fine_converts md op (move_eh k eh) Ht' HF) as (s' & H' & HC').
  rewrite H'. f_equal. rewrite (converted_sfb _ _ _ _ HC').
  unfold move_sfb. rewrite (cv_options _ _ _ _ HC).
  change (conv_sfoptions op (move_eh k eh)) with (conv_sfoptions op eh). f_equal.
  eapply (assembled_fun op op); [reflexivity|reflexivity| |exact (cv_fdes _ _ _ _ HC')].
  change (conv_sfoptions op (move_eh k eh)) with (conv_sfoptions op eh).
  unfold move_eh, entries_of. cbn [eh_entries ents_list]. rewrite move_functions.
  apply move_assembled; [|exact (cv_fdes _ _ _ _ HC)].
  intros f Hf. split; [apply Hk, Hf|]. clear - Ht' Hf. unfold eh_typed, move_eh, entries_of in Ht'. cbn in Ht'.
  rewrite Forall_forall in Ht'. apply (Ht' (move_entry k (DwGoodFde f))), in_map.
  unfold entries_of in Hf. induction (ents_list (eh_entries eh)) as [|[|g|h] t IH]; cbn in *; [destruct Hf| | |].
  - right. apply IH; [intros x Hx; apply Ht'; right; exact Hx|exact Hf].
  - right. apply IH; [intros x Hx; apply Ht'; right; exact Hx|exact Hf].
  - destruct Hf as [->|Hf]; [left; reflexivity|right]. apply IH; [intros x Hx; apply Ht'; right; exact Hx|exact Hf].
Qed.

(** Building. *)
Lemma move_fdes_of k s : fdes_of (move_sfb k s) = map (move_fdb k) (fdes_of s).
Proof. unfold fdes_of, move_sfb, bt_values. cbn. rewrite !map_map. reflexivity. Qed.

Lemma move_sorted k m : sorted m -> sorted (move_map k m).
Proof.
  induction m as [|[x v] t IH]; [intros _; apply sorted_nil|]. intros H. apply sorted_cons_iff in H. destruct H as [H1 H2].
  cbn. apply sorted_cons_iff. split; [apply IH, H1|]. intros y w Hy.
  apply in_map_iff in Hy. destruct Hy as ([z u] & E & Hz). cbn in E. injection E as <- _. specialize (H2 z u Hz). lia.
Qed.

Lemma move_wf k s : sfb_wf s -> (forall b, In b (fdes_of s) -> in_i32 (fb_start b + k)) -> sfb_wf (move_sfb k s).
Proof.
  intros [W1 W2 W3 W4] Hk. constructor; [exact W1|apply move_sorted, W2| |].
  - unfold fkeyed in *. cbn. intros x b Hb. apply in_map_iff in Hb. destruct Hb as ([y v] & E & Hy).
    cbn in E. injection E as <- <-. cbn. f_equal. apply W3, Hy.
  - rewrite move_fdes_of. rewrite Forall_forall in *. intros b Hb. apply in_map_iff in Hb. destruct Hb as (c & <- & Hc).
    destruct (W4 c Hc) as [[C1 C2 C3 C4 C5 C6 C7] C8]. split; [|exact C8].
    constructor; try assumption. cbn. apply Hk, Hc.
Qed.

Lemma move_overlap {E} md k l : @has_overlap E md (map (move_fdb k) l) = has_overlap md l.
Proof.
  induction l as [|a [|b t] IH]; [reflexivity|reflexivity|]. cbn [map has_overlap move_fdb fb_start fb_size] in *.
  rewrite sub_i32_move, IH.
  replace (fb_start a + k <=? fb_start b + k) with (fb_start a <=? fb_start b); [reflexivity|].
  destruct (Z.leb_spec (fb_start a) (fb_start b)), (Z.leb_spec (fb_start a + k) (fb_start b + k)); lia.
Qed.

Lemma move_raws k l : forall off, raws off (map (move_fdb k) l) = map (move_raw2 k) (raws off l).
Proof. induction l as [|b t IH]; intros off; [reflexivity|]. cbn [map raws]. rewrite IH. reflexivity. Qed.

Lemma move_rows_enc e k l : rows_enc e (map (move_fdb k) l) = rows_enc e l.
Proof. unfold rows_enc. rewrite map_map. reflexivity. Qed.

Lemma move_row_count k l : row_count (map (move_fdb k) l) = row_count l.
Proof. unfold row_count. rewrite map_map. reflexivity. Qed.

Lemma move_sizes k l : map fde_fre_size (map (move_fdb k) l) = map fde_fre_size l.
Proof. rewrite map_map. reflexivity. Qed.

Lemma move_fre_size k s : fre_size (move_sfb k s) = fre_size s.
Proof. unfold fre_size. rewrite move_fdes_of, move_sizes. reflexivity. Qed.

Lemma move_too_large k s : too_large (move_sfb k s) <-> too_large s.
Proof. unfold too_large. rewrite move_fre_size, move_fdes_of. unfold zlen. rewrite map_length. reflexivity. Qed.

Lemma move_built_sf e k s : built_sf e (move_sfb k s) = move_sf k (built_sf e s).
Proof.
  unfold built_sf, move_sf. cbn [sf_preamble sf_abi_arch sf_fixed_fp sf_fixed_ra sf_num_fdes sf_num_fres sf_aux sf_fdes sf_fres].
  rewrite move_fdes_of, move_raws, move_rows_enc, move_row_count. unfold zlen. rewrite map_length. reflexivity.
Qed.

Lemma move_fde2_bytes e k f p : (4 <= p)%nat -> nth_error (fde2_bytes e (move_raw2 k f)) p = nth_error (fde2_bytes e f) p.
Proof.
  intros Hp. unfold fde2_bytes. rewrite (nth_error_app2 (enc e 4 (f2_start_address (move_raw2 k f)))), (nth_error_app2 (enc e 4 (f2_start_address f)))
    by (rewrite enc_length; lia).
  rewrite !enc_length. reflexivity.
Qed.

Lemma fde2_len e f : length (fde2_bytes e f) = 20%nat.
Proof. unfold fde2_bytes. rewrite !app_length, !enc_length. reflexivity. Qed.

Lemma move_table e k l : forall rest p, (20 * length l <= p \/ 4 <= p mod 20)%nat ->
  nth_error (concat (map (fde2_bytes e) (map (move_raw2 k) l)) ++ rest) p = nth_error (concat (map (fde2_bytes e) l) ++ rest) p.
Proof.
  induction l as [|f t IH]; intros rest p Hp; [reflexivity|]. cbn [map concat]. rewrite <- !app_assoc.
  destruct (Nat.lt_ge_cases p 20) as [L|L].
  - rewrite !nth_error_app1 by (rewrite fde2_len; exact L). apply move_fde2_bytes.
    destruct Hp as [Hp|Hp]; [cbn [length] in Hp; lia|]. rewrite Nat.mod_small in Hp by exact L. exact Hp.
  - rewrite (nth_error_app2 (fde2_bytes e (move_raw2 k f))), (nth_error_app2 (fde2_bytes e f)) by (rewrite fde2_len; exact L). rewrite !fde2_len. apply IH.
    destruct Hp as [Hp|Hp]; [left; cbn [length] in Hp; lia|right].
    replace p with (p - 20 + 1 * 20)%nat in Hp by lia. rewrite Nat.mod_add in Hp by lia. exact Hp.
Qed.

Lemma move_image e k s p : ~ start_field (length (fdes_of s)) p ->
  nth_error (image e (move_sfb k s)) p = nth_error (image e s) p.
Proof.
  intros Hp. unfold image.
  replace (built_header (move_sfb k s)) with (built_header s).
  2:{ unfold built_header. rewrite move_fre_size, move_fdes_of, move_row_count. unfold zlen. rewrite map_length. reflexivity. }
  destruct (Nat.lt_ge_cases p HEADER_SIZE) as [L|L].
  - rewrite !nth_error_app1 by (rewrite header_bytes_length; exact L). reflexivity.
  - rewrite !(nth_error_app2 (header_bytes e (built_header s))) by (rewrite header_bytes_length; exact L). rewrite !header_bytes_length.
    rewrite move_fdes_of, move_rows_enc. unfold table_enc. rewrite move_raws.
    apply move_table. rewrite raws_length. change HEADER_SIZE with 28%nat in *. unfold start_field in Hp.
    destruct (Nat.le_gt_cases (20 * length (fdes_of s)) (p - 28)); [left; lia|right].
    destruct (Nat.le_gt_cases 4 ((p - 28) mod 20)); [assumption|]. exfalso. apply Hp. lia.
Qed.

Theorem moved_build md e s k : sfb_wf s -> (forall b, In b (fdes_of s) -> in_i32 (fb_start b + k)) ->
  match build md e s with
  | Ok bs => exists bs', build md e (move_sfb k s) = Ok bs' /\ length bs' = length bs /\
      (forall p, ~ start_field (length (fdes_of s)) p -> nth_error bs' p = nth_error bs p) /\
      (forall mdr, wf_mode mdr -> rust_slice mdr bs -> exists sf, load mdr e bs = Ok sf /\ load mdr e bs' = Ok (move_sf k sf))
  | Err er => build md e (move_sfb k s) = Err er
  | Panic => build md e (move_sfb k s) = Panic
  end.
Proof.
  intros W Hk. pose proof (move_wf k s W Hk) as W'.
  assert (HO : @has_overlap emit_error md (fdes_of (move_sfb k s)) = has_overlap md (fdes_of s))
    by (rewrite move_fdes_of; apply move_overlap).
  destruct (@has_overlap emit_error md (fdes_of s)) as [[|]|er|] eqn:Eo.
  - unfold build. change (bt_values (sb_fdes (move_sfb k s))) with (fdes_of (move_sfb k s)).
    change (bt_values (sb_fdes s)) with (fdes_of s). rewrite HO, Eo. reflexivity.
  - destruct (build_emit md e s W Eo) as [H1 H2]. destruct (build_emit md e _ W' HO) as [H1' H2'].
    assert (Hd : too_large s \/ ~ too_large s) by (unfold too_large; lia). destruct Hd as [Hd|Hd].
    + rewrite H2, H2' by (try apply move_too_large; exact Hd). reflexivity.
    + assert (Hd' : ~ too_large (move_sfb k s)) by (rewrite move_too_large; exact Hd).
      rewrite H1, H1' by assumption. exists (image e (move_sfb k s)).
      assert (HL : zlen (image e (move_sfb k s)) = zlen (image e s)).
      { rewrite !image_zlen by assumption. rewrite move_fre_size, move_fdes_of. unfold zlen. rewrite map_length. reflexivity. }
      split; [reflexivity|]. split; [unfold zlen in HL; lia|]. split; [intros p; apply move_image|].
      intros mdr Hm Hs. exists (built_sf e s). split; [apply image_loads; assumption|].
      rewrite <- move_built_sf. apply image_loads; try assumption. unfold rust_slice in *. rewrite HL. exact Hs.
  - unfold build. change (bt_values (sb_fdes (move_sfb k s))) with (fdes_of (move_sfb k s)).
    change (bt_values (sb_fdes s)) with (fdes_of s). rewrite HO, Eo. reflexivity.
  - unfold build. change (bt_values (sb_fdes (move_sfb k s))) with (fdes_of (move_sfb k s)).
    change (bt_values (sb_fdes s)) with (fdes_of s). rewrite HO, Eo. reflexivity.
Qed.

(** ** What a reader sees of a moved section *)

Lemma moved_shown k sf fr en :
  en_start_address (move_en k en) = en_start_address en + k /\ en_size (move_en k en) = en_size en /\
  en_fdetype (move_en k en) = en_fdetype en /\
  en_pauth_key (move_en k en) = en_pauth_key en /\ en_rep_block_size (move_en k en) = en_rep_block_size en /\
  view_fre (move_fre k fr) = view_fre fr /\ observed (move_sf k sf) (move_fre k fr) = observed sf fr /\
  fre_start_address_offset (move_fre k fr) = fre_start_address_offset fr.
Proof. destruct en as [[] ?], fr as [[] ? ? ?]; repeat split; reflexivity. Qed.

Theorem moved_lookup md e k sf a : lookup md e (move_sf k sf) (a + k) = lookup md e sf a.
Proof.
  unfold lookup. rewrite moved_function. destruct (fde_for_address md sf a) as [[en|]|er|]; cbn [omap option_map]; try reflexivity.
  rewrite moved_row. destruct (get_fre_for_address md e en a) as [[fr|]|er|]; cbn [omap option_map]; try reflexivity.
Qed.

Lemma moved_section md md' e s k bs sf : wf_mode md' -> sfb_reach md s -> (forall b, In b (fdes_of s) -> in_i32 (fb_start b + k)) ->
  build md e s = Ok bs -> rust_slice md' bs -> load md' e bs = Ok sf ->
  exists bs', build md e (move_sfb k s) = Ok bs' /\ length bs' = length bs /\
    (forall p, ~ start_field (length (fdes_of s)) p -> nth_error bs' p = nth_error bs p) /\
    load md' e bs' = Ok (move_sf k sf).
Proof.
  intros Hm Hr Hk Hb Hs Hl. pose proof (moved_build md e s k (sfb_reach_wf _ _ Hr) Hk) as H. rewrite Hb in H.
  destruct H as (bs' & H1 & H2 & H3 & H4). exists bs'. split; [exact H1|]. split; [exact H2|]. split; [exact H3|].
  destruct (H4 md' Hm Hs) as (sf' & L1 & L2). congruence.
Qed.

Lemma moved_build_fails md e s k : sfb_reach md s -> (forall b, In b (fdes_of s) -> in_i32 (fb_start b + k)) ->
  (forall er, build md e s = Err er -> build md e (move_sfb k s) = Err er) /\
  (build md e s = Panic -> build md e (move_sfb k s) = Panic).
Proof.
  intros Hr Hk. pose proof (moved_build md e s k (sfb_reach_wf _ _ Hr) Hk) as H.
  split; [intros er E|intros E]; rewrite E in H; exact H.
Qed.
