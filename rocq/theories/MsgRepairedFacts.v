(** The repaired messages are true, and tell errors apart. *)
From Coq Require Import String Ascii.
From Verif Require Export MsgRepairedSpec MessageFacts.
From Verif Require Import EmitFacts CopyFacts ConvRepairedSection.
Local Open Scope string_scope.

(** ** Without repairs *)

Lemma overlap_at_step {E} md a b t : @overlap_at E md (a :: b :: t) =
  if debug_asserts md && negb (fb_start a <=? fb_start b)%Z then Panic
  else let* d := sub_i32 md (fb_start b) (fb_start a) in
       if (as_u 32 d <? fb_size a)%Z then Ok (Some b) else overlap_at md (b :: t).
Proof. reflexivity. Qed.
Lemma sub_i32_cases md x y :
  (exists d, forall E, @sub_i32 E md x y = Ok d) \/ (forall E, @sub_i32 E md x y = Panic).
Proof. unfold sub_i32. destruct (in_i32b (x - y)), (overflow_checks md); try (left; eexists; reflexivity); right; reflexivity. Qed.
Lemma overlap_at_has {E} md l : @has_overlap E md l =
  match overlap_at md l with Ok o => Ok (match o with Some _ => true | None => false end) | Err er => Err er | Panic => Panic end.
Proof.
  induction l as [|a [|b t] IH]; try reflexivity. cbn [has_overlap overlap_at] in *.
  destruct (debug_asserts md && negb (fb_start a <=? fb_start b)%Z); [reflexivity|].
  destruct (sub_i32 md (fb_start b) (fb_start a)) as [d|er|]; cbn [bind]; [|reflexivity|reflexivity].
  destruct (as_u 32 d <? fb_size a)%Z; [reflexivity|exact IH].
Qed.
Lemma build_at md e s : build md e s =
  match overlap_at md (bt_values (sb_fdes s)) with
  | Ok (Some _) => Err OverlappingFdes
  | Ok None => build md e s
  | Err er => Err er
  | Panic => Panic
  end.
Proof.
  unfold build. rewrite overlap_at_has. destruct (overlap_at md (bt_values (sb_fdes s))) as [[b|]|er|]; reflexivity.
Qed.
Lemma overlap_at_never {E} md l (er : E) : overlap_at md l <> Err er.
Proof.
  induction l as [|a [|b t] IH]; try discriminate. rewrite overlap_at_step.
  destruct (debug_asserts md && negb (fb_start a <=? fb_start b)%Z); [discriminate|].
  destruct (sub_i32_cases md (fb_start b) (fb_start a)) as [[d ->]| ->]; cbn [bind]; [|discriminate].
  destruct (_ <? _)%Z; [discriminate|exact IH].
Qed.
Lemma overlap_at_change {E F} md l : @overlap_at E md l =
  match @overlap_at F md l with Ok o => Ok o | Err _ => Panic | Panic => Panic end.
Proof.
  induction l as [|a [|b t] IH]; try reflexivity. rewrite !overlap_at_step.
  destruct (debug_asserts md && negb (fb_start a <=? fb_start b)%Z); [reflexivity|].
  destruct (sub_i32_cases md (fb_start b) (fb_start a)) as [[d HS]|HS]; rewrite !HS; cbn [bind]; [|reflexivity].
  destruct (_ <? _)%Z; [reflexivity|exact IH].
Qed.
Lemma build_told_eq fx md e s : build_told fx md e s =
  match @overlap_at emit_error md (bt_values (sb_fdes s)) with
  | Ok (Some b) => Err (if say_empty fx && (fb_size b =? 0)%Z then EmptyInside else Told OverlappingFdes)
  | _ => map_err Told (build md e s)
  end.
Proof.
  unfold build_told. rewrite (@overlap_at_change told_error emit_error).
  destruct (@overlap_at emit_error md (bt_values (sb_fdes s))) as [[b|]|er|] eqn:E; cbn [bind]; try reflexivity.
  - now apply overlap_at_never in E.
  - rewrite build_at, E. reflexivity.
Qed.

Theorem texts_unrepaired :
  (forall er, row_error_text_with no_mfixes er = row_error_text er) /\
  (forall er, read_error_text_with no_mfixes er = read_error_text er) /\
  (forall g er, conv_error_text_with no_mfixes g (AsBefore er) = conv_error_text g er) /\
  (forall abi_name ln, line_text_with no_mfixes abi_name ln = line_text abi_name ln) /\
  (forall md e s, build_told no_mfixes md e s = map_err Told (build md e s)) /\
  (forall md e bs, load_told no_mfixes md e bs = map_err Loading (load md e bs)).
Proof.
  split; [intros []; reflexivity|]. split; [intros []; reflexivity|]. split; [intros g []; reflexivity|].
  split; [intros abi_name []; try reflexivity; destruct ty; reflexivity|]. split.
  - intros md e s. rewrite build_told_eq. rewrite (build_at md e s).
    destruct (overlap_at md (bt_values (sb_fdes s))) as [[b|]|er|]; reflexivity.
  - intros md e bs. unfold load_told, load. destruct (preamble_from_prefix e bs); reflexivity.
Qed.

(** ** Rows that the writer refuses *)

Theorem row_texts_true b r er : fdb_reach b -> snd (fdb_row_st b r) = Err er ->
  exists claim, row_text_claims (row_error_text_with all_mfixes er) claim /\ claim b r.
Proof.
  intros HR H.
  assert (HK : forall v, message_true b r (row_error_text v) -> v <> StartAddressTooLarge -> v <> StartAddressLargerThanRepSize ->
    exists claim, row_text_claims (row_error_text_with all_mfixes v) claim /\ claim b r).
  { intros v (claim & HC & HT) N1 N2. exists claim. split; [|exact HT]. destruct v; try congruence; exact HC. }
  destruct (Z.eq_dec (r_start r) 0x10000000) as [H1|H1].
  { unfold fdb_row_st in H. replace (0x10000000 <=? r_start r)%Z with true in H by lia. cbn [snd] in H. injection H as <-.
    eexists. split; [reflexivity|]. cbn. lia. }
  destruct (fb_rep_size b) as [rep|] eqn:ER.
  - destruct (Z.eq_dec rep (r_start r)) as [->|H2].
    + unfold fdb_row_st in H. rewrite ER, Z.leb_refl in H. destruct (Z.leb_spec 0x10000000 (r_start r)); cbn [snd] in H; injection H as <-;
        (eexists; split; [reflexivity|]); cbn; [lia|exists (r_start r); split; [exact ER|lia]].
    + destruct er; try (apply HK; [|discriminate|discriminate]; eapply message_holds; try eassumption; congruence).
      * eexists. split; [reflexivity|]. cbn.
        destruct (message_holds b r _ HR H H1 ltac:(congruence)) as (claim & HC & HT). cbn in HC. injection HC as <-. cbv beta in HT. lia.
      * eexists. split; [reflexivity|]. cbn.
        destruct (message_holds b r _ HR H H1 ltac:(congruence)) as (claim & HC & HT). cbn in HC. injection HC as <-.
        destruct HT as (q & HQ & HT). exists q. split; [exact HQ|lia].
  - destruct er; try (apply HK; [|discriminate|discriminate]; eapply message_holds; try eassumption; congruence).
    + eexists. split; [reflexivity|]. cbn.
      destruct (message_holds b r _ HR H H1 ltac:(congruence)) as (claim & HC & HT). cbn in HC. injection HC as <-. cbv beta in HT. lia.
    + destruct (message_holds b r _ HR H H1 ltac:(congruence)) as (claim & HC & HT). cbn in HC. injection HC as <-.
      destruct HT as (q & HQ & _). congruence.
Qed.

(** Two messages are never used. *)
Definition row_error_used (er : row_error) : bool :=
  match er with MissingRaOffset | MissingFpOffset => false | _ => true end.
Theorem row_texts_meant b r er claim : fdb_reach b -> row_typed r -> row_error_used er = true ->
  row_text_claims (row_error_text_with all_mfixes er) claim -> claim b r ->
  exists er', snd (fdb_row_st b r) = Err er'.
Proof.
  intros HR HT HU HC H. apply fdb_reach_wf in HR. unfold fdb_row_st.
  destruct (Z.leb_spec 0x10000000 (r_start r)) as [|L1]; [eexists; reflexivity|].
  destruct (match fb_rep_size b with Some rep => (rep <=? r_start r)%Z | None => false end) eqn:ER; [eexists; reflexivity|].
  destruct (Z.leb_spec (fb_size b) (r_start r)) as [|L2]; [eexists; reflexivity|].
  assert (HN : forall x, normalise_offsets (fb_options b) r = Ok x -> r_start x = r_start r).
  { intros x. unfold normalise_offsets. destruct (r_offsets r) as [o|]; [|intros [= <-]; reflexivity].
    destruct (check_fixed _ _ _) as [ra| |]; cbn [bind]; try discriminate.
    destruct (check_fixed _ _ _) as [fp| |]; cbn [bind]; try discriminate. intros [= <-]. reflexivity. }
  assert (HP : normalise_offsets (fb_options b) r <> Panic).
  { unfold normalise_offsets, check_fixed. destruct (r_offsets r) as [o|]; [|discriminate].
    destruct (so_fixed_ra _), (ro_ra o), (so_fixed_fp _), (ro_fp o); cbn [bind]; try discriminate;
      repeat (destruct (_ =? _)%Z; cbn [bind]; try discriminate). }
  destruct er; try discriminate HU; cbn in HC; injection HC as <-; cbv beta in H.
  - lia.
  - destruct H as (rep & E & H). rewrite E in ER. lia.
  - destruct HT as [HT _]. unfold in_u32 in HT. lia.
  - destruct H as (o & x & y & E1 & E2 & E3 & HD).
    assert (HE : normalise_offsets (fb_options b) r = Err UnexpectedRaOffset).
    { unfold normalise_offsets, check_fixed. rewrite E1, E3, E2. destruct (Z.eqb_spec x y); [contradiction|reflexivity]. }
    rewrite HE. eexists; reflexivity.
  - destruct H as (o & x & y & E1 & E2 & E3 & HD).
    assert (HE : exists v, normalise_offsets (fb_options b) r = Err v).
    { unfold normalise_offsets. rewrite E1. destruct (check_fixed (so_fixed_ra _) _ _) as [ra|v|] eqn:EC; cbn [bind].
      - unfold check_fixed. rewrite E3, E2. destruct (Z.eqb_spec x y); [contradiction|]. eexists; reflexivity.
      - eexists; reflexivity.
      - exfalso. unfold check_fixed in EC. destruct (so_fixed_ra _), (ro_ra o); try discriminate. destruct (_ =? _)%Z in EC; discriminate. }
    destruct HE as [v ->]. eexists; reflexivity.
  - destruct H as (r' & Hi & Hs). destruct (normalise_offsets (fb_options b) r) as [x|v|] eqn:EN; [|eexists; reflexivity|congruence].
    rewrite (HN x eq_refl). unfold rows_of in Hi. apply in_map_iff in Hi. destruct Hi as ([k v] & E & Hi). cbn in E. subst v.
    pose proof (bw_keyed _ HR _ _ Hi) as HKy. cbn in HKy. destruct (bt_get (r_start r) (fb_fres b)) as [w|] eqn:EG; [eexists; reflexivity|].
    exfalso. rewrite bt_get_none in EG. apply (EG r'). replace (r_start r) with k by congruence. exact Hi.
Qed.

(** ** Building *)

Lemma overlap_at_found {E} md l b : starts_ok l -> @overlap_at E md l = Ok (Some b) ->
  exists a, neighbours l a b /\ fb_start b < fb_start a + fb_size a.
Proof.
  induction l as [|a [|x t] IH]; intros Hs H; try discriminate H. rewrite overlap_at_step in H.
  destruct (debug_asserts md && negb (fb_start a <=? fb_start x)%Z); [discriminate H|].
  destruct Hs as [Hs HF]. inversion HF as [|? ? [Sa Za] HF1]; subst. inversion HF1 as [|? ? [Sb Zb] _]; subst.
  cbn [map] in Hs. inversion Hs as [|? ? Hs1 Hlt]; subst. rewrite Forall_forall in Hlt.
  specialize (Hlt (fb_start x) (or_introl eq_refl)).
  assert (HD : forall d, @sub_i32 E md (fb_start x) (fb_start a) = Ok d -> as_u 32 d = fb_start x - fb_start a).
  { intros d. rewrite sub_i32_diff by assumption. unfold in_i32, i32_min, i32_max, as_u in *. change (2 ^ 32) with 4294967296.
    destruct (fb_start x - fb_start a <=? 2147483647)%Z; [|destruct (overflow_checks md)]; intros [= <-].
    - apply Z.mod_small; lia.
    - rewrite <- (Z.mod_add _ 1) by lia. rewrite Z.mod_small; lia. }
  destruct (sub_i32 md (fb_start x) (fb_start a)) as [d|er|]; cbn [bind] in H; try discriminate H.
  specialize (HD d eq_refl). rewrite HD in H. destruct (Z.ltb_spec (fb_start x - fb_start a) (fb_size a)) as [Ho|Ho].
  - injection H as <-. exists a. split; [exists [], t; reflexivity|lia].
  - destruct (IH (conj Hs1 HF1) H) as (y & Hn & Hy). exists y. split; [apply neighbours_tail, Hn|exact Hy].
Qed.

Theorem build_texts_true md e s er : sfb_reach md s -> build_told all_mfixes md e s = Err er -> told_true s (told_text er).
Proof.
  intros HR H. rewrite build_told_eq in H. pose proof HR as HW. apply sfb_reach_wf in HW.
  change (bt_values (sb_fdes s)) with (fdes_of s) in H.
  destruct (@overlap_at emit_error md (fdes_of s)) as [[b|]|x|] eqn:EO.
  - injection H as <-. destruct (overlap_at_found md _ b (wf_starts s HW) EO) as (a & Hn & Ho).
    pose proof (neighbours_in _ _ _ Hn) as [Ha Hb]. pose proof HW as [_ S K _]. pose proof (neighbours_lt _ _ _ S K Hn) as Hlt.
    assert (Hne : a <> b) by (intros ->; lia).
    cbn [say_empty all_mfixes andb]. destruct (Z.eqb_spec (fb_size b) 0) as [E0|E0].
    + right. split; [reflexivity|]. exists a, b. unfold in_range. repeat (split; [assumption|]). lia.
    + left. left. split; [reflexivity|]. exists a, b, (fb_start b). unfold in_range.
      assert (0 <= fb_size b). { destruct (wf_starts s HW) as [_ HF]. rewrite Forall_forall in HF. destruct (HF b Hb) as [_ HZ]. unfold in_u32 in HZ. lia. }
      repeat (split; [assumption|]). lia.
  - destruct (build md e s) as [bs|x|] eqn:EB; try discriminate H. injection H as <-. left.
    destruct x; [|exact (emit_too_large_message md e s HR EB)].
    exfalso. apply (proj1 (overlap_sound md e s HR)), (overlapping_pairs s HW) in EB.
    pose proof (has_overlap_cases (E := emit_error) md (fdes_of s) (wf_starts s HW)) as HC.
    rewrite overlap_at_has, EO in HC. exact (proj1 HC EB).
  - now apply overlap_at_never in EO.
  - rewrite build_at in H. change (bt_values (sb_fdes s)) with (fdes_of s) in H. rewrite EO in H. discriminate H.
Qed.

Theorem build_told_same fx md e s bs : build_told fx md e s = Ok bs <-> build md e s = Ok bs.
Proof.
  rewrite build_told_eq, (build_at md e s). destruct (overlap_at md (bt_values (sb_fdes s))) as [[b|]|er|]; cbn [map_err].
  - split; discriminate.
  - destruct (build md e s); cbn [map_err]; split; congruence.
  - split; discriminate.
  - split; discriminate.
Qed.

(** ** Loading *)

Lemma swapped_magic e bs : 2 <= zlen bs -> (u_at e 0 2 bs = MAGIC_SWAPPED <-> other_order e bs).
Proof.
  intros H. destruct bs as [|x [|y t]]; try (unfold zlen in H; cbn [length] in H; lia).
  unfold other_order, good_magic, u_at, slice. change (Z.to_nat 0) with 0%nat. change (Z.to_nat 2) with 2%nat. cbn [skipn firstn].
  pose proof (bZ_range x). pose proof (bZ_range y).
  unfold MAGIC_SWAPPED, spec_magic. destruct e; cbn [swap uint fold_left fold_right]; lia.
Qed.
Theorem load_texts_true md e bs er : wf_mode md -> rust_slice md bs -> load_told all_mfixes md e bs = Err er ->
  load_told_true e bs (load_error_text all_mfixes er).
Proof.
  intros Hm Hb H. unfold load_told in H.
  destruct (preamble_from_prefix e bs) as [pre|] eqn:EP; cbn [ok_or bind] in H.
  - assert (HP : pre_magic pre = u_at e 0 2 bs /\ 4 <= zlen bs).
    { unfold preamble_from_prefix in EP. destruct (Nat.ltb_spec (length bs) PREAMBLE_SIZE) as [|HL]; [discriminate EP|].
      injection EP as <-. cbn [pre_magic]. rewrite u_at_rd. unfold PREAMBLE_SIZE in HL. unfold zlen. split; [reflexivity|lia]. }
    destruct HP as [HP HL]. cbn [say_magic all_mfixes andb] in H.
    destruct (negb (pre_magic pre =? MAGIC)%Z && negb (pre_magic pre =? MAGIC_SWAPPED)%Z) eqn:EM.
    + injection H as <-. right. split; [reflexivity|]. rewrite <- (swapped_magic e bs) by lia. unfold good_magic.
      rewrite <- HP. change spec_magic with MAGIC. split; lia.
    + destruct (load md e bs) as [sf|x|] eqn:EL; try discriminate H. injection H as <-. left.
      destruct (load_messages md e bs x Hm Hb EL) as [HT|(-> & HG & HO)].
      * destruct x; exact HT || (destruct HT as [(HT & _)|[(v & (w & HT & _) & _)|(HT & _)]]; discriminate HT).
      * exfalso. rewrite <- (swapped_magic e bs) in HO by lia. unfold good_magic in HG. rewrite <- HP in HG, HO. change spec_magic with MAGIC in HG. lia.
  - injection H as <-. left. right. right. split; [reflexivity|]. left.
    unfold preamble_from_prefix in EP. destruct (Nat.ltb_spec (length bs) PREAMBLE_SIZE) as [HL|]; [|discriminate EP].
    unfold PREAMBLE_SIZE in HL. unfold zlen. lia.
Qed.
Theorem load_told_same fx md e bs sf : load_told fx md e bs = Ok sf <-> load md e bs = Ok sf.
Proof.
  unfold load_told, load. destruct (preamble_from_prefix e bs) as [pre|]; cbn [ok_or bind]; [|split; discriminate].
  destruct (pre_magic pre =? MAGIC)%Z; cbn [negb]; rewrite ?Bool.andb_false_r; cbn [andb].
  - match goal with |- map_err _ ?x = _ <-> _ => destruct x end; cbn [map_err]; split; congruence.
  - destruct (say_magic fx && true && negb (pre_magic pre =? MAGIC_SWAPPED)%Z); split; discriminate.
Qed.

(** ** Reading rows *)

Lemma counts_exact md e : wf_mode md -> counts_read md e 0 3.
Proof.
  intros Hm f bs c w Hf (aw & Haw & Hl & -> & ->) Hw Hc. pose proof (fre_load_table md e f bs Hm Hf) as HT. rewrite Haw in HT.
  destruct (Z.ltb_spec (zlen bs) (aw + 1)); [lia|]. cbv zeta in HT.
  assert (HU : u_at e aw 1 bs = rd_u e (Z.to_nat aw) 1 bs) by apply u_at_rd. rewrite HU in *.
  set (info := rd_u e (Z.to_nat aw) 1 bs) in *.
  assert (HB : 0 <= bits 1 4 info) by (unfold bits; apply Z.mod_pos_bound; lia).
  destruct (Z.ltb_spec 3 (bits 1 4 info)) as [H3|H3].
  - split; [lia|]. intros _. eexists. exact HT.
  - destruct (width_of (bits 5 2 info)) as [ow|] eqn:How; [|congruence].
    destruct (Z.ltb_spec (zlen bs) (aw + 1 + bits 1 4 info * ow)) as [Hx|Hx].
    { exfalso. apply Hc. exists aw. split; [exact Haw|]. right. exists ow. rewrite HU. auto. }
    destruct (rd_u e 0 (Z.to_nat aw) bs <? fde_size f)%Z; rewrite HT; (split; [intros (er & [=])|lia]).
Qed.
Theorem row_read_texts_true md e f bs er : wf_mode md -> fde_ok f -> fre_load md e f bs = Err er ->
  row_told_true md e f bs (read_error_text_with all_mfixes er).
Proof.
  intros Hm Hf H. pose proof (row_read_messages md e f bs er Hm Hf H) as [HT|[HT|[HT|HT]]].
  - left. destruct er; exact HT || (destruct HT as (n & (w & HT & _) & _); discriminate HT).
  - right. left. destruct er; exact HT || (destruct HT as (n & k & (w & HT & _) & _); discriminate HT).
  - do 2 right. left. exists 0, 3. split; [|apply counts_exact, Hm]. destruct HT as (n & w & (ns & HT & HN) & HO & HL).
    destruct er; try discriminate HT. cbn [read_error_text] in HT.
    apply app_inj_l, app_inj_r in HT. exists "0", "3", ns, n, w. rewrite <- HT. split; [reflexivity|].
    split; [reflexivity|]. split; [reflexivity|]. rewrite HT. auto.
  - do 3 right. destruct er; exact HT || (destruct HT as [HT _]; discriminate HT).
Qed.

Lemma find_text md e p er : wf_mode md -> forall fuel it, fde_ok (ri_fde it) -> fri_find fuel md e p it = Err (inr er) ->
  exists before rest, ri_fres it = (before ++ rest)%list /\ row_told_true md e (ri_fde it) rest (read_error_text_with all_mfixes er).
Proof.
  intros Hm. induction fuel as [|k IH]; intros it Hf H; cbn [fri_find] in H; [discriminate|].
  unfold fri_next in H. destruct (fde_num_fres (ri_fde it) <=? ri_index it)%Z; [discriminate|].
  destruct (fre_load md e (ri_fde it) (ri_fres it)) as [[fr rest]|er'|] eqn:E; [| |discriminate].
  - destruct (p fr); [discriminate|]. destruct (IH (FreIter (ri_fde it) rest (ri_index it + 1)) Hf H) as (b & r & Hb & Hr). cbn [ri_fres ri_fde] in Hb, Hr.
    destruct (row_decode_sound _ _ _ _ _ _ Hm Hf E) as (aw & _ & (st & info & ow & ch & HB & _) & _).
    exists (st ++ [info] ++ concat ch ++ b)%list, r. split; [|exact Hr]. rewrite HB, Hb, <- !app_assoc. reflexivity.
  - injection H as <-. exists [], (ri_fres it). split; [reflexivity|]. exact (row_read_texts_true md e _ _ _ Hm Hf E).
Qed.
Theorem lookup_texts_true md e en a er : wf_mode md -> fde_ok (en_fde en) -> get_fre_for_address md e en a = Err (inr er) ->
  lookup_told_true md e en (read_error_text_with all_mfixes er).
Proof.
  intros Hm Hf H. unfold get_fre_for_address in H. destruct (a <? en_start_address en)%Z; [discriminate|].
  destruct (sub_i32 md a (en_start_address en)) as [d|x|] eqn:ES; cbn [bind] in H; [| |discriminate].
  2:{ unfold sub_i32 in ES. destruct (in_i32b _), (overflow_checks md); discriminate ES. }
  destruct (en_size en <? as_u 32 d)%Z; [discriminate|].
  destruct (en_fdetype en) eqn:ET; try (right; exact (find_text _ _ _ _ Hm _ (fres en) Hf H)).
  destruct (en_rep_block_size en) as [rep|] eqn:ER; [|discriminate].
  destruct (rep =? 0)%Z eqn:E0; [|right; exact (find_text _ _ _ _ Hm _ (fres en) Hf H)].
  injection H as <-. left. split; [reflexivity|]. split; [exact ET|].
  cbn [view_fde sd_rep]. change (fde_rep_size (en_fde en)) with (en_rep_block_size en). rewrite ER. f_equal. lia.
Qed.
Theorem offset_texts_true fr sf er :
  (fre_cfa_offset fr = Err er -> offset_message_true fr 0 (read_error_text_with all_mfixes er)) /\
  (fre_ra_offset fr sf = Err er -> fixed_ra_offset sf = None /\ offset_message_true fr 1 (read_error_text_with all_mfixes er)) /\
  (fre_fp_offset fr sf = Err er -> fixed_fp_offset sf = None /\
     offset_message_true fr (match fixed_ra_offset sf with Some _ => 1 | None => 2 end) (read_error_text_with all_mfixes er)).
Proof.
  destruct (offset_messages fr sf er) as (H1 & H2 & H3).
  assert (HX : forall i, offset_message_true fr i (read_error_text er) -> offset_message_true fr i (read_error_text_with all_mfixes er)).
  { intros i [HE HL]. split; [|exact HL]. destruct er; try exact HE. discriminate HE. }
  split; [auto|]. split; intros H; [destruct (H2 H)|destruct (H3 H)]; auto.
Qed.
