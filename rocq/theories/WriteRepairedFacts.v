(** The repaired [build] over all call histories. *)
From Verif Require Export StdFacts WriteRepairedSpec.

Local Notation AF := all_fixes.

(** ** Widths *)

Lemma needed_type r : needed r = Z.of_nat (addr_bytes (row_type_with AF r)).
Proof.
  unfold needed, row_type_with. cbn [fix_width all_fixes]. change (row_values r) with (stored_values r).
  change (forallb (within 128)) with (forallb (storableb 1)). change (forallb (within 32768)) with (forallb (storableb 2)).
  destruct (forallb (storableb 1) (stored_values r)); [reflexivity|]. destruct (forallb (storableb 2) (stored_values r)); reflexivity.
Qed.

Lemma storableb_iff w v : storableb w v = true <-> storable w v.
Proof. unfold storableb, storable. lia. Qed.
Lemma forallb_storable w l : forallb (storableb w) l = true <-> Forall (storable w) l.
Proof.
  rewrite forallb_forall, Forall_forall. split; intros H v Hv; apply storableb_iff; auto.
Qed.

Lemma needed_cases r : needed r = 1 \/ needed r = 2 \/ needed r = 4.
Proof. unfold needed. destruct (forallb _ _); [auto|]. destruct (forallb _ _); auto. Qed.
Lemma needed_holds r : row_typed r -> all_storable (needed r) r.
Proof.
  intros H. apply stored_typed in H. unfold needed, all_storable.
  destruct (forallb (storableb 1) (stored_values r)) eqn:E1; [apply forallb_storable, E1|].
  destruct (forallb (storableb 2) (stored_values r)) eqn:E2; [apply forallb_storable, E2|].
  eapply Forall_impl; [|exact H]. intros v Hv. unfold in_i32, i32_min, i32_max in Hv. unfold storable. change (- 2 ^ (8 * 4 - 1) <= v < 2 ^ (8 * 4 - 1)) with (-2147483648 <= v < 2147483648). lia.
Qed.
Lemma needed_smallest r : row_typed r -> smallest_width r (needed r).
Proof.
  intros H. split; [destruct (needed_cases r) as [-> | [-> | ->]]; cbn; auto|]. split; [apply needed_holds, H|].
  intros w' Hw' Hs. apply forallb_storable in Hs. unfold needed.
  destruct Hw' as [<- | [<- | [<- | []]]]; rewrite ?Hs; try reflexivity;
    destruct (forallb (storableb 1) (stored_values r)); try lia; destruct (forallb (storableb 2) (stored_values r)); lia.
Qed.
Lemma exact_wrap r v : row_typed r -> In v (stored_values r) -> wrap (needed r) v = v.
Proof.
  intros H Hv. apply wrap_id; [apply needed_cases|]. pose proof (needed_holds r H) as HF. unfold all_storable in HF.
  rewrite Forall_forall in HF. apply HF, Hv.
Qed.

(** Where no row is tied the width is the same. *)
Lemma untied_width r : row_typed r -> ~ tied r -> needed r = offset_width r.
Proof.
  intros Ht H. apply (width_untied r Ht) in H. unfold untruncated in H.
  destruct (needed_smallest r Ht) as (_ & _ & HM).
  assert (L : needed r <= offset_width r).
  { apply HM; [|exact H]. destruct (offset_width_cases r) as [-> | [-> | ->]]; cbn; auto. }
  assert (G : offset_width r <= needed r).
  { pose proof (needed_holds r Ht) as HN. unfold all_storable in HN. rewrite Forall_forall in HN. unfold offset_width.
    pose proof (dominant_max (stored_values r)) as HD. destruct (dominant (stored_values r)) as [m|]; [|destruct (needed_cases r) as [-> | [-> | ->]]; lia].
    assert (Hm : storable (needed r) m) by (apply HN, HD). apply storableb_iff in Hm.
    destruct (needed_cases r) as [E | [E | E]]; rewrite E in *; rewrite ?Hm; [lia| |]; destruct (storableb 1 m); try lia; destruct (storableb 2 m); lia. }
  lia.
Qed.

(** ** Rows *)

Definition xinfo_byte (r : row) : Z :=
  (if r_mangled r then 128 else 0) + 32 * size_code (row_type_with AF r) +
  2 * zlen (stored_values r) + base_reg_u8 (r_base r).

Lemma xrow_info_eq {E} r : @row_info_with E AF r = Ok (xinfo_byte r).
Proof.
  unfold row_info_with. pose proof (stored_count r) as Hc. pose proof (zlen_nonneg (stored_values r)) as H0.
  rewrite row_values_stored. set (ty := row_type_with AF r).
  rewrite set_offset_size_arith by (unfold in_u8; lia).
  assert (B : 0 <= fre_offset_u8 (addr_fre_offset ty) <= 2) by (destruct ty; cbn; lia).
  assert (Eo : fre_offset_u8 (addr_fre_offset ty) = size_code ty) by (destruct ty; reflexivity).
  rewrite Eo in *.
  rewrite set_offset_count_arith by (unfold in_u8; lia). cbn [bind]. f_equal.
  rewrite set_cfa_base_reg_id_arith by (unfold in_u8; lia).
  assert (Bb : 0 <= base_reg_u8 (r_base r) <= 1) by (destruct (r_base r); cbn; lia).
  rewrite set_mangled_ra_p_arith by (unfold in_u8; lia). unfold xinfo_byte. fold ty.
  destruct (r_mangled r); lia.
Qed.

Lemma xinfo_byte_range r : in_u8 (xinfo_byte r).
Proof.
  unfold xinfo_byte, in_u8. pose proof (stored_count r). pose proof (zlen_nonneg (stored_values r)).
  destruct (r_mangled r), (row_type_with AF r), (r_base r); cbn; lia.
Qed.

Definition xrow_enc (e : endian) (aw : nat) (r : row) : bytes :=
  enc e aw (r_start r) ++ enc e 1 (xinfo_byte r) ++
  concat (map (enc e (addr_bytes (row_type_with AF r))) (stored_values r)).

Lemma xrows_bytes_eq {E} e ty l : @rows_bytes_with E AF e ty l = Ok (concat (map (xrow_enc e (addr_bytes ty)) l)).
Proof.
  induction l as [|r t IH]; cbn [rows_bytes_with map concat]; [reflexivity|].
  unfold row_bytes_with. rewrite xrow_info_eq. cbn [bind]. rewrite IH. cbn [bind]. reflexivity.
Qed.

Lemma xrow_enc_zlen e aw r : zlen (xrow_enc e aw r) = exact_row_size (Z.of_nat aw) r.
Proof.
  unfold xrow_enc, exact_row_size. rewrite !zlen_app, !enc_zlen, concat_enc_zlen, needed_type. lia.
Qed.

Definition xfde_enc (e : endian) (b : fdb) : bytes :=
  concat (map (xrow_enc e (addr_bytes (start_size b))) (rows_of b)).

Lemma xfde_enc_zlen e b : fdb_wf b -> zlen (xfde_enc e b) = exact_fde_size b.
Proof.
  intros H. unfold xfde_enc, exact_fde_size. rewrite zlen_concat_map, start_width_size by exact H.
  f_equal. apply map_ext. intros r. apply xrow_enc_zlen.
Qed.

Lemma exact_row_size_min aw r : 0 <= aw -> 1 <= exact_row_size aw r.
Proof.
  intros H. unfold exact_row_size. rewrite needed_type. pose proof (zlen_nonneg (stored_values r)). nia.
Qed.

Lemma rows_le_exact b : zlen (rows_of b) <= exact_fde_size b.
Proof.
  unfold exact_fde_size. pose proof (start_width_pos (rows_of b)) as Hw. generalize dependent (start_width (rows_of b)).
  intros w Hw. induction (rows_of b) as [|r t IH]; cbn [map sumz fold_right]; [reflexivity|].
  rewrite zlen_cons. pose proof (exact_row_size_min w r ltac:(lia)). unfold sumz in IH. lia.
Qed.

(** ** The emission loop *)

Fixpoint xraws (off : Z) (l : list fdb) : list raw_fde2 :=
  match l with
  | [] => []
  | b :: t => fde_raw_with AF b (start_size b) off :: xraws (off + exact_fde_size b) t
  end.
Definition xtable_enc (e : endian) (off : Z) (l : list fdb) : bytes := concat (map (fde2_bytes e) (xraws off l)).
Definition xrows_enc (e : endian) (l : list fdb) : bytes := concat (map (xfde_enc e) l).
Lemma xraws_length off l : length (xraws off l) = length l.
Proof. revert off. induction l as [|b t IH]; intros off; cbn [xraws length]; [reflexivity|]. rewrite IH. reflexivity. Qed.

Lemma xtable_enc_zlen e off l : zlen (xtable_enc e off l) = 20 * zlen l.
Proof.
  unfold xtable_enc. rewrite zlen_concat_map.
  replace (map (fun a => zlen (fde2_bytes e a)) (xraws off l)) with (map (fun _ : raw_fde2 => 20) (xraws off l)).
  2:{ apply map_ext. intros r. unfold zlen. rewrite fde2_bytes_length. reflexivity. }
  assert (H : forall r : list raw_fde2, sumz (map (fun _ => 20) r) = 20 * zlen r).
  { induction r as [|x r IH]; [reflexivity|]. rewrite zlen_cons. cbn [map sumz fold_right]. unfold sumz in IH. lia. }
  rewrite H. unfold zlen. rewrite xraws_length. lia.
Qed.

Lemma xrows_enc_zlen e l : Forall fdb_wf l -> zlen (xrows_enc e l) = sumz (map exact_fde_size l).
Proof.
  intros H. unfold xrows_enc. rewrite zlen_concat_map. f_equal. apply map_ext_in. intros b Hb.
  apply xfde_enc_zlen. rewrite Forall_forall in H. apply H, Hb.
Qed.

Lemma exact_fde_nonneg b : 0 <= exact_fde_size b.
Proof. pose proof (rows_le_exact b). pose proof (zlen_nonneg (rows_of b)). lia. Qed.

Lemma exact_sum_nonneg l : 0 <= sumz (map exact_fde_size l).
Proof.
  induction l as [|b t IH]; cbn [map sumz fold_right]; [lia|]. pose proof (exact_fde_nonneg b). unfold sumz in IH. lia.
Qed.

Lemma row_count_exact l : 0 <= row_count l <= sumz (map exact_fde_size l).
Proof.
  unfold row_count. induction l as [|b t IH]; cbn [map sumz fold_right]; [lia|].
  pose proof (rows_le_exact b). pose proof (zlen_nonneg (rows_of b)). unfold sumz in IH. lia.
Qed.

Lemma xemit_fdes_spec e l : Forall fdb_wf l -> forall st,
  let result := EmitState (es_table st ++ xtable_enc e (zlen (es_fres st)) l) (es_fres st ++ xrows_enc e l)
                          (es_count st + row_count l) in
  (zlen (es_fres st) + sumz (map exact_fde_size l) <= u32_max -> emit_fdes_with AF e st l = Ok result) /\
  (u32_max < zlen (es_fres st) + sumz (map exact_fde_size l) ->
   emit_fdes_with AF e st l = Ok result \/ emit_fdes_with AF e st l = Err SectionTooLarge).
Proof.
  induction 1 as [|b t Hb Ht IH]; intros st; cbv zeta.
  - unfold xtable_enc, xrows_enc, row_count. cbn [emit_fdes_with xraws map concat sumz fold_right].
    rewrite !app_nil_r, !Z.add_0_r. destruct st. split; intros _; [|left]; reflexivity.
  - cbn [emit_fdes_with]. unfold emit_fde_with.
    pose proof (zlen_nonneg (es_fres st)) as H0. pose proof (exact_fde_nonneg b) as H1.
    pose proof (exact_sum_nonneg t) as H2. cbn [map sumz fold_right]. fold (sumz (map exact_fde_size t)).
    unfold fits_u32.
    destruct (Z.leb_spec (zlen (es_fres st)) u32_max) as [Hf|Hf].
    2:{ replace (0 <=? zlen (es_fres st)) with true by lia. cbn [andb negb bind]. split; [intros; lia|auto]. }
    replace (0 <=? zlen (es_fres st)) with true by lia. cbn [andb negb].
    rewrite addr_type_eq by exact Hb. cbn [bind].
    pose proof (rows_le_exact b) as H3. rewrite rows_of_len. pose proof (zlen_nonneg (rows_of b)) as H4.
    replace (0 <=? zlen (rows_of b)) with true by lia. cbn [andb].
    destruct (Z.leb_spec (zlen (rows_of b)) u32_max) as [Hn|Hn]; cbn [negb bind].
    2:{ split; [intros; lia|auto]. }
    change (bt_values (fb_fres b)) with (rows_of b).
    rewrite xrows_bytes_eq. cbn [bind]. fold (xfde_enc e b).
    match goal with |- context[emit_fdes_with AF e ?s t] => set (st' := s) end.
    specialize (IH st'). cbv zeta in IH.
    assert (Hz : zlen (es_fres st') = zlen (es_fres st) + exact_fde_size b)
      by (unfold st'; cbn [es_fres]; rewrite zlen_app, xfde_enc_zlen by exact Hb; reflexivity).
    rewrite Hz in IH.
    assert (Hres : EmitState (es_table st' ++ xtable_enc e (zlen (es_fres st) + exact_fde_size b) t)
                             (es_fres st' ++ xrows_enc e t) (es_count st' + row_count t) =
                   EmitState (es_table st ++ xtable_enc e (zlen (es_fres st)) (b :: t))
                             (es_fres st ++ xrows_enc e (b :: t)) (es_count st + row_count (b :: t))).
    { unfold st', xtable_enc, xrows_enc, row_count. cbn [es_table es_fres es_count xraws map concat sumz fold_right].
      rewrite <- !app_assoc. f_equal. unfold sumz. lia. }
    rewrite Hres in IH. destruct IH as [IH1 IH2]. split; intros H.
    + apply IH1. lia.
    + apply IH2. lia.
Qed.

(** ** [build] *)

Definition xheader (s : sfb) : header :=
  {| h_preamble := Preamble MAGIC VERSION_V2 (so_flags (sb_options s));
     h_abi_arch := so_abi (sb_options s);
     h_fixed_fp_offset := opt_or_zero (so_fixed_fp (sb_options s));
     h_fixed_ra_offset := opt_or_zero (so_fixed_ra (sb_options s));
     h_auxhdr_len := 0;
     h_num_fdes := zlen (fdes_of s);
     h_num_fres := row_count (fdes_of s);
     h_fre_len := exact_fre_size s;
     h_fdeoff := 0;
     h_freoff := 20 * zlen (fdes_of s) |}.
Definition ximage (e : endian) (s : sfb) : bytes :=
  header_bytes e (xheader s) ++ xtable_enc e 0 (fdes_of s) ++ xrows_enc e (fdes_of s).

Lemma xoverlap_step {E} md a b t : @has_overlap_with E AF md (a :: b :: t) =
  if debug_asserts md && negb (fb_start a <=? fb_start b) then Panic
  else if fb_start b - fb_start a <? fb_size a then Ok true else has_overlap_with AF md (b :: t).
Proof. reflexivity. Qed.

Lemma xoverlap_cases {E} md l : StronglySorted Z.lt (map fb_start l) ->
  (@has_overlap_with E AF md l = Ok true /\ pair_overlaps l) \/ (@has_overlap_with E AF md l = Ok false /\ ~ pair_overlaps l).
Proof.
  induction l as [|a [|b t] IH]; intros S.
  - right. split; [reflexivity|]. intros (x & y & (pre & post & E0) & _). destruct pre; discriminate.
  - right. split; [reflexivity|]. intros (x & y & (pre & post & E0) & _). destruct pre as [|? [|? ?]]; discriminate.
  - rewrite xoverlap_step. inversion S as [|? ? S1 F1]; subst. rewrite Forall_forall in F1.
    assert (Hab : fb_start a < fb_start b) by (apply F1; left; reflexivity).
    replace (fb_start a <=? fb_start b) with true by lia. cbn [negb]. rewrite andb_false_r.
    destruct (Z.ltb_spec (fb_start b - fb_start a) (fb_size a)) as [H|H].
    + left. split; [reflexivity|]. exists a, b. split; [exists [], t; reflexivity|lia].
    + destruct (IH S1) as [[E0 P]|[E0 P]]; rewrite E0; [left|right]; (split; [reflexivity|]).
      * destruct P as (x & y & (pre & post & EP) & Hx). exists x, y. split; [|exact Hx]. exists (a :: pre), post. rewrite EP. reflexivity.
      * intros (x & y & (pre & post & EP) & Hx). destruct pre as [|p pre].
        -- cbn in EP. injection EP as -> -> _. lia.
        -- cbn in EP. injection EP as -> EP. apply P. exists x, y. split; [exists pre, post; exact EP|exact Hx].
Qed.

Lemma xemit_cases md e s : sfb_wf s ->
  (overlapping s /\ emit_with AF md e s = Err OverlappingFdes) \/
  (~ overlapping s /\ exact_too_large s /\ emit_with AF md e s = Err SectionTooLarge) \/
  (~ overlapping s /\ ~ exact_too_large s /\ emit_with AF md e s = Ok (ximage e s)).
Proof.
  intros W. rewrite (overlapping_pairs s W). unfold emit_with. change (bt_values (sb_fdes s)) with (fdes_of s).
  destruct (@xoverlap_cases emit_error md (fdes_of s) (proj1 (wf_starts s W))) as [[-> P]|[-> P]]; cbn [bind]; [left; auto|right].
  pose proof (wf_fdes s W) as WF.
  destruct (xemit_fdes_spec e (fdes_of s) WF (EmitState [] [] 0)) as [H1 H2].
  cbn [es_table es_fres es_count app] in H1, H2. change (zlen (@nil byte)) with 0 in *.
  rewrite Z.add_0_l in H1, H2. fold (exact_fre_size s) in H1, H2. rewrite Z.add_0_l in H1, H2.
  assert (Hlen : zlen (sb_fdes s) = zlen (fdes_of s)) by (unfold fdes_of; rewrite zlen_map; reflexivity).
  pose proof (row_count_exact (fdes_of s)) as Hrc. fold (exact_fre_size s) in Hrc.
  pose proof (zlen_nonneg (fdes_of s)) as Hn.
  set (tl := emit_fdes_with AF e (EmitState [] [] 0) (fdes_of s)) in *. clearbody tl.
  assert (T : exact_too_large s \/ ~ exact_too_large s) by (unfold exact_too_large; lia).
  assert (Q : tl = Err SectionTooLarge /\ exact_too_large s \/
    tl = Ok (EmitState (xtable_enc e 0 (fdes_of s)) (xrows_enc e (fdes_of s)) (row_count (fdes_of s)))).
  { destruct (Z.le_gt_cases (exact_fre_size s) u32_max) as [Hle|Hgt]; [right; apply H1, Hle|].
    destruct (H2 ltac:(lia)) as [E0|E0]; [right; exact E0|left; split; [exact E0|left; lia]]. }
  destruct Q as [[-> Q]| ->]; cbn [bind]; [left; auto|].
  cbn [es_table es_fres es_count]. rewrite Hlen, xtable_enc_zlen, xrows_enc_zlen by exact WF. fold (exact_fre_size s).
  unfold fits_u32.
  replace (0 <=? row_count (fdes_of s)) with true by lia. replace (0 <=? zlen (fdes_of s)) with true by lia.
  replace (0 <=? exact_fre_size s) with true by lia. replace (0 <=? 20 * zlen (fdes_of s)) with true by lia. cbn [andb].
  destruct T as [T|T]; [left; split; [exact P|]; split; [exact T|]|right; split; [exact P|]; split; [exact T|]]; unfold exact_too_large in T.
  - destruct (Z.leb_spec (row_count (fdes_of s)) u32_max); cbn [negb]; [|reflexivity].
    destruct (Z.leb_spec (zlen (fdes_of s)) u32_max); cbn [negb]; [|reflexivity].
    destruct (Z.leb_spec (exact_fre_size s) u32_max); cbn [negb]; [|reflexivity].
    destruct (Z.leb_spec (20 * zlen (fdes_of s)) u32_max); cbn [negb]; [lia|reflexivity].
  - replace (row_count (fdes_of s) <=? u32_max) with true by lia. replace (zlen (fdes_of s) <=? u32_max) with true by lia.
    replace (exact_fre_size s <=? u32_max) with true by lia. replace (20 * zlen (fdes_of s) <=? u32_max) with true by lia.
    reflexivity.
Qed.

(** What is refused. *)
Lemma row_sayable_iff o r : row_sayable o r = false <-> ambiguous o r.
Proof.
  unfold row_sayable, ambiguous. destruct (so_fixed_ra o); [split; [discriminate|intros [H _]; discriminate]|].
  destruct (r_offsets r) as [x|]; [|split; [discriminate|intros (_ & x & H & _); discriminate]].
  destruct (ro_ra x) eqn:E1, (ro_fp x) eqn:E2; (split; [intros H; try discriminate|intros (_ & y & [= <-] & H1 & H2); congruence]).
  split; [reflexivity|]. exists x. split; [reflexivity|]. split; congruence.
Qed.
Lemma sayable_iff s : forallb (fde_sayable (sb_options s)) (bt_values (sb_fdes s)) = false <-> unsayable s.
Proof.
  unfold unsayable. change (bt_values (sb_fdes s)) with (fdes_of s). rewrite <- not_true_iff_false, forallb_forall. split.
  - intros H. assert (X : existsb (fun b => negb (fde_sayable (sb_options s) b)) (fdes_of s) = true).
    { apply not_false_iff_true. intros E. apply H. intros b Hb. apply not_false_iff_true. intros E2.
      apply not_true_iff_false in E. apply E, existsb_exists. exists b. rewrite E2. auto. }
    apply existsb_exists in X. destruct X as (b & Hb & X). exists b. split; [exact Hb|]. apply negb_true_iff in X.
    unfold fde_sayable in X. apply andb_false_iff in X. destruct X as [X|X].
    + left. destruct (fb_rep_size b) as [rep|]; [|discriminate]. apply negb_false_iff in X. f_equal. lia.
    + right. change (bt_values (fb_fres b)) with (rows_of b) in X.
      assert (Y : existsb (fun r => negb (row_sayable (sb_options s) r)) (rows_of b) = true).
      { apply not_false_iff_true. intros E. apply not_true_iff_false in X. apply X, forallb_forall. intros r Hr. apply not_false_iff_true.
        intros E2. apply not_true_iff_false in E. apply E, existsb_exists. exists r. rewrite E2. auto. }
      apply existsb_exists in Y. destruct Y as (r & Hr & Y). exists r. split; [exact Hr|]. apply row_sayable_iff, negb_true_iff, Y.
  - intros (b & Hb & H) HF. specialize (HF b Hb). unfold fde_sayable in HF. apply andb_true_iff in HF. destruct HF as [H1 H2].
    destruct H as [H|(r & Hr & H)]; [rewrite H in H1; discriminate|].
    rewrite forallb_forall in H2. specialize (H2 r Hr). apply row_sayable_iff in H. congruence.
Qed.

Lemma repaired_cases md e s : sfb_wf s ->
  (unsayable s /\ build_repaired md e s = Err CannotBeSaid) \/
  (~ unsayable s /\ overlapping s /\ build_repaired md e s = Err (Emitting OverlappingFdes)) \/
  (~ unsayable s /\ ~ overlapping s /\ exact_too_large s /\ build_repaired md e s = Err (Emitting SectionTooLarge)) \/
  (~ unsayable s /\ ~ overlapping s /\ ~ exact_too_large s /\ build_repaired md e s = Ok (ximage e s)).
Proof.
  intros W. unfold build_repaired, build_with. cbn [fix_refuse all_fixes andb]. rewrite <- sayable_iff.
  destruct (forallb _ _); cbn [negb]; [right|left; auto].
  assert (N : ~ true = false) by discriminate.
  destruct (xemit_cases md e s W) as [(H & ->)|[(H & H1 & ->)|(H & H1 & ->)]]; cbn [emitted]; auto 10.
Qed.

Lemma repaired_built md e s bs : sfb_reach md s -> build_repaired md e s = Ok bs ->
  sfb_wf s /\ bs = ximage e s /\ ~ exact_too_large s /\ ~ overlapping s /\ ~ unsayable s.
Proof.
  intros H B. apply sfb_reach_wf in H.
  destruct (repaired_cases md e s H) as [(_ & E)|[(_ & _ & E)|[(_ & _ & _ & E)|(U & O & T & E)]]]; rewrite E in B; try discriminate.
  injection B as <-. auto.
Qed.

(** ** Reading it *)

Lemma xheader_ok s : sfb_wf s -> ~ exact_too_large s -> header_ok (xheader s).
Proof.
  intros [[F A P R] _ _ _] T. unfold exact_too_large in T.
  pose proof (row_count_exact (fdes_of s)) as Hrc. fold (exact_fre_size s) in Hrc. pose proof (zlen_nonneg (fdes_of s)).
  unfold header_ok, xheader, MAGIC, VERSION_V2, in_u8, in_u32 in *.
  cbn [h_preamble pre_magic pre_version pre_flags h_abi_arch h_fixed_fp_offset h_fixed_ra_offset h_auxhdr_len
       h_num_fdes h_num_fres h_fre_len h_fdeoff h_freoff].
  change (2 ^ 16) with 65536. unfold u32_max in *.
  repeat apply conj; try apply fixed_in_i8; try assumption; try lia.
Qed.

Lemma xraw_info b off : fdb_wf b -> f2_info (fde_raw_with AF b (start_size b) off) = std_info_of b.
Proof.
  intros W. unfold fde_raw_with, std_info_of, fdb_fdetype. rewrite start_width_size by exact W. cbn [f2_info].
  destruct (fb_pauth b), (fb_rep_size b), (start_size b); reflexivity.
Qed.

Lemma std_info_range b : in_u8 (std_info_of b).
Proof.
  unfold std_info_of, in_u8. set (w := start_width _). destruct (fb_pauth b), (fb_rep_size b), (w =? 1), (w =? 2); lia.
Qed.

Lemma xraw_ok b off : fdb_wf b -> 0 <= off -> off + exact_fde_size b <= u32_max ->
  fde2_ok (fde_raw_with AF b (start_size b) off).
Proof.
  intros W H0 Hle. unfold fde2_ok. rewrite xraw_info by exact W. destruct W as [_ Hs Hz Hr _ _ _].
  pose proof (rows_le_exact b). pose proof (zlen_nonneg (rows_of b)). pose proof (exact_fde_nonneg b).
  cbn [fde_raw_with f2_start_address f2_size f2_start_fre_off f2_num_fres f2_rep_size f2_padding].
  rewrite rows_of_len. unfold in_u32, u32_max in *.
  repeat apply conj; try apply Hs; try apply Hz; try lia; try apply std_info_range.
  - destruct (fb_rep_size b); cbn in *; [apply Hr|lia].
  - destruct (fb_rep_size b); cbn in *; [apply Hr|lia].
Qed.

Lemma xraws_ok off l : Forall fdb_wf l -> 0 <= off -> off + sumz (map exact_fde_size l) <= u32_max ->
  Forall fde2_ok (xraws off l).
Proof.
  intros H. revert off. induction H as [|b t Hb _ IH]; intros off H0 Hle; cbn [xraws]; constructor.
  - cbn [map sumz fold_right] in Hle. pose proof (exact_sum_nonneg t). apply xraw_ok; try assumption.
    unfold sumz in *. lia.
  - cbn [map sumz fold_right] in Hle. pose proof (exact_fde_nonneg b). apply IH; unfold sumz in *; lia.
Qed.

Definition x_sf (e : endian) (s : sfb) : sframe :=
  {| sf_preamble := Preamble MAGIC VERSION_V2 (so_flags (sb_options s));
     sf_abi_arch := so_abi (sb_options s);
     sf_fixed_fp := opt_or_zero (so_fixed_fp (sb_options s));
     sf_fixed_ra := opt_or_zero (so_fixed_ra (sb_options s));
     sf_num_fdes := zlen (fdes_of s);
     sf_num_fres := row_count (fdes_of s);
     sf_aux := [];
     sf_fdes := ListV2 (xraws 0 (fdes_of s));
     sf_fres := xrows_enc e (fdes_of s) |}.

Lemma ximage_zlen e s : sfb_wf s -> zlen (ximage e s) = 28 + 20 * zlen (fdes_of s) + exact_fre_size s.
Proof.
  intros W. unfold ximage. rewrite !zlen_app, xtable_enc_zlen, xrows_enc_zlen by apply wf_fdes, W.
  unfold zlen at 1. rewrite header_bytes_length. fold (exact_fre_size s). change (Z.of_nat HEADER_SIZE) with 28. lia.
Qed.

Lemma ximage_fields e s : sfb_wf s -> ~ exact_too_large s ->
  let bs := ximage e s in
  rd_u e 0 2 bs = MAGIC /\ rd_u e 2 1 bs = 2 /\ rd_u e 3 1 bs = so_flags (sb_options s) /\
  rd_u e 4 1 bs = so_abi (sb_options s) /\ rd_s e 5 1 bs = opt_or_zero (so_fixed_fp (sb_options s)) /\
  rd_s e 6 1 bs = opt_or_zero (so_fixed_ra (sb_options s)) /\ rd_u e 7 1 bs = 0 /\
  rd_u e 8 4 bs = zlen (fdes_of s) /\ rd_u e 12 4 bs = row_count (fdes_of s) /\
  rd_u e 16 4 bs = exact_fre_size s /\ rd_u e 20 4 bs = 0 /\ rd_u e 24 4 bs = 20 * zlen (fdes_of s).
Proof.
  intros W T. cbv zeta.
  pose proof (header_decode e (xheader s) (xtable_enc e 0 (fdes_of s) ++ xrows_enc e (fdes_of s))
                (xheader_ok s W T)) as H.
  fold (ximage e s) in H. unfold header_from_prefix in H.
  destruct (length (ximage e s) <? HEADER_SIZE)%nat; [discriminate|].
  unfold xheader in H. injection H as H1 H2 H3 H4 H5 H6 H7 H8 H9 H10 H11 H12.
  repeat apply conj; assumption.
Qed.

Lemma ximage_loads md e s : wf_mode md -> sfb_wf s -> ~ exact_too_large s -> rust_slice md (ximage e s) ->
  load md e (ximage e s) = Ok (x_sf e s).
Proof.
  intros Hmd W T Hsl.
  destruct (ximage_fields e s W T) as (E0 & E2 & E3 & E4 & E5 & E6 & E7 & E8 & E12 & E16 & E20 & E24).
  pose proof (ximage_zlen e s W) as HZ. pose proof (zlen_nonneg (fdes_of s)) as HN.
  assert (HF0 : 0 <= exact_fre_size s) by (pose proof (row_count_exact (fdes_of s)) as Hrc; fold (exact_fre_size s) in Hrc; lia).
  assert (HL : exists sf, load md e (ximage e s) = Ok sf).
  { apply load_ok_iff; [exact Hmd|exact Hsl|].
    rewrite good_magic_rd, (good_version_rd e), layout_fits_fits by lia.
    split; [exact E0|]. split; [right; exact E2|].
    unfold fits. cbv zeta. rewrite E2, E7, E8, E16, E20, E24. change (2 =? 1) with false. cbv iota. lia. }
  destruct HL as (sf & HL). rewrite HL. f_equal. apply load_ok in HL; [|exact Hmd|exact Hsl].
  destruct HL as (-> & _). unfold loaded. rewrite E0, E2, E3, E4, E5, E6, E7, E8, E12, E16, E20, E24.
  change (2 =? 1) with false. cbv iota. unfold x_sf. change (Z.to_nat 0) with 0%nat. rewrite !Nat.add_0_r.
  f_equal.
  - f_equal. unfold ximage. rewrite skipn_app_exact by apply header_bytes_length.
    unfold xtable_enc. replace (Z.to_nat (zlen (fdes_of s))) with (length (xraws 0 (fdes_of s)))
      by (rewrite xraws_length; unfold zlen; lia).
    apply decode_entries_concat. assert (Hr := xraws_ok 0 (fdes_of s) (wf_fdes s W)).
    fold (exact_fre_size s) in Hr. unfold exact_too_large in T.
    eapply Forall_impl; [|apply Hr; lia]. intros r Hok. split; [apply fde2_bytes_length|apply fde2_decode_bytes, Hok].
  - unfold ximage. rewrite app_assoc, <- (app_nil_r (xrows_enc e (fdes_of s))) at 1.
    apply sub_bytes_mid.
    + rewrite app_length, header_bytes_length.
      pose proof (xtable_enc_zlen e 0 (fdes_of s)) as Ht. unfold zlen in *. lia.
    + pose proof (xrows_enc_zlen e (fdes_of s) (wf_fdes s W)) as Ht. fold (exact_fre_size s) in Ht. unfold zlen in *. lia.
Qed.

Lemma ximage_rel64 e s : sfb_wf s -> ~ exact_too_large s -> rust_slice rel64 (ximage e s).
Proof.
  intros W T. unfold rust_slice. rewrite ximage_zlen by exact W. unfold exact_too_large, u32_max in T.
  change (2 ^ (usize_bits rel64 - 1)) with 9223372036854775808. lia.
Qed.

Lemma xrow_enc_spec e aw r rest : row_typed r -> fits_start aw r ->
  spec_row_at e (Z.of_nat aw) (xrow_enc e aw r ++ rest) (exact_row r) rest.
Proof.
  intros Ht Hst. unfold xrow_enc. set (ty := row_type_with AF r) in *.
  exists (enc e aw (r_start r)), (Zb (xinfo_byte r)), (needed r), (map (enc e (addr_bytes ty)) (stored_values r)).
  pose proof (xinfo_byte_range r) as Hi. pose proof (stored_count r) as Hc. pose proof (zlen_nonneg (stored_values r)) as Hc0.
  assert (Hb : bZ (Zb (xinfo_byte r)) = xinfo_byte r) by (rewrite bZ_Zb; apply Z.mod_small; unfold in_u8 in Hi; lia).
  rewrite Hb. pose proof (needed_type r) as HT. fold ty in HT.
  assert (Bb : 0 <= base_reg_u8 (r_base r) <= 1) by (destruct (r_base r); cbn; lia).
  assert (Bs : 0 <= size_code ty <= 2) by (destruct ty; cbn; lia).
  split; [rewrite enc_single; rewrite <- !app_assoc; reflexivity|].
  split; [apply enc_zlen|].
  split; [cbn [exact_row sr_start]; rewrite uint_dec, dec_enc; symmetry; apply Z.mod_small, Hst|].
  unfold bits, xinfo_byte. fold ty. change (2 ^ 0) with 1. change (2 ^ 1) with 2. change (2 ^ 7) with 128.
  change (2 ^ 5) with 32. change (2 ^ 2) with 4. change (2 ^ 4) with 16.
  set (mg := if r_mangled r then 128 else 0). assert (Bm : mg = 0 \/ mg = 128) by (unfold mg; destruct (r_mangled r); auto).
  split. { cbn [exact_row sr_base_is_sp]. rewrite Z.div_1_r.
    replace ((mg + 32 * size_code ty + 2 * zlen (stored_values r) + base_reg_u8 (r_base r)) mod 2)
      with (base_reg_u8 (r_base r)) by lia. destruct (r_base r); reflexivity. }
  split. { cbn [exact_row sr_mangled].
    replace ((mg + 32 * size_code ty + 2 * zlen (stored_values r) + base_reg_u8 (r_base r)) / 128 mod 2)
      with (mg / 128) by lia. unfold mg. destruct (r_mangled r); reflexivity. }
  split. { replace ((mg + 32 * size_code ty + 2 * zlen (stored_values r) + base_reg_u8 (r_base r)) / 32 mod 4)
      with (size_code ty) by lia.
    rewrite HT. destruct ty; reflexivity. }
  split. { apply Forall_forall. intros c Hin. apply in_map_iff in Hin. destruct Hin as (v & <- & _).
    rewrite enc_zlen, HT. reflexivity. }
  rewrite zlen_map.
  split; [lia|]. split; [lia|].
  cbn [exact_row sr_offsets]. rewrite map_map. rewrite <- (map_id (stored_values r)) at 1. apply map_ext_in. intros v Hv.
  rewrite sint_enc by (destruct ty; cbn; lia). rewrite <- HT. symmetry. apply exact_wrap; assumption.
Qed.

Lemma xrows_enc_spec e aw l rest : Forall row_typed l -> Forall (fits_start aw) l ->
  spec_rows_at e (Z.of_nat aw) (concat (map (xrow_enc e aw) l) ++ rest) (map exact_row l) rest.
Proof.
  intros Ht. induction 1 as [|r t Hr _ IH]; cbn [map concat spec_rows_at]; [reflexivity|].
  inversion Ht; subst. exists (concat (map (xrow_enc e aw) t) ++ rest). rewrite <- app_assoc. split; [|apply IH; assumption].
  apply xrow_enc_spec; assumption.
Qed.

Lemma rows_typed b : fdb_wf b -> Forall row_typed (rows_of b).
Proof. intros [_ _ _ _ _ _ W]. eapply Forall_impl; [|exact W]. intros r H. apply (rw_typed _ _ H). Qed.

Lemma xraws_nth l : forall off i b, nth_error l i = Some b ->
  nth_error (xraws off l) i = Some (fde_raw_with AF b (start_size b) (off + exact_off l i)).
Proof.
  unfold exact_off. induction l as [|x t IH]; intros off [|i] b H; cbn in H; try discriminate; cbn [xraws nth_error firstn map].
  - injection H as ->. unfold sumz. cbn [map fold_right]. rewrite Z.add_0_r. reflexivity.
  - rewrite (IH _ _ _ H). unfold sumz. cbn [fold_right]. do 2 f_equal. lia.
Qed.

Lemma exact_off_le l i b : nth_error l i = Some b -> 0 <= exact_off l i /\ exact_off l i + exact_fde_size b <= sumz (map exact_fde_size l).
Proof.
  intros H. unfold exact_off. rewrite (nth_error_firstn_skipn l i b H) at 3.
  rewrite map_app, sumz_app. cbn [map]. change (sumz (exact_fde_size b :: ?t)) with (exact_fde_size b + sumz t).
  pose proof (exact_sum_nonneg (firstn i l)). pose proof (exact_sum_nonneg (skipn (S i) l)).
  unfold sumz in *. cbn [fold_right]. lia.
Qed.

Lemma xrows_enc_skip e l i b : Forall fdb_wf l -> nth_error l i = Some b ->
  skipn (Z.to_nat (exact_off l i)) (xrows_enc e l) = xfde_enc e b ++ xrows_enc e (skipn (S i) l).
Proof.
  intros W H. unfold exact_off. rewrite (nth_error_firstn_skipn l i b H) at 2.
  unfold xrows_enc at 1. rewrite map_app, concat_app. fold (xrows_enc e (firstn i l)).
  rewrite skipn_app_exact.
  - reflexivity.
  - assert (Hw : Forall fdb_wf (firstn i l)) by (apply Forall_forall; intros x Hx; rewrite Forall_forall in W; apply W; rewrite <- (firstn_skipn i l); apply in_or_app; left; exact Hx).
    pose proof (xrows_enc_zlen e (firstn i l) Hw) as Hz. unfold zlen in Hz. lia.
Qed.

Definition x_entry (e : endian) (s : sfb) (i : nat) (b : fdb) : entry :=
  Entry (FdeV2 (fde_raw_with AF b (start_size b) (exact_off (fdes_of s) i))) (xfde_enc e b ++ xrows_enc e (skipn (S i) (fdes_of s))).

Lemma x_entries e s : sfb_wf s -> 
  length (all_fdes (x_sf e s)) = length (fdes_of s) /\
  forall i b, nth_error (fdes_of s) i = Some b -> nth_error (all_fdes (x_sf e s)) i = Some (x_entry e s i b).
Proof.
  intros W. rewrite all_fdes_map. unfold x_sf, fdes. cbn [sf_fdes sf_fres it_fdes]. split.
  - rewrite !map_length, xraws_length. reflexivity.
  - intros i b H. rewrite !nth_error_map, (xraws_nth _ _ _ _ H). cbn [option_map]. rewrite Z.add_0_l.
    unfold entry_of, x_entry. f_equal. f_equal.
    cbn [fde_start_fre_off fde_raw_with f2_start_fre_off].
    unfold get_from. destruct (exact_off_le _ _ _ H) as [H0 H1].
    rewrite xrows_enc_zlen by apply wf_fdes, W. pose proof (exact_fde_nonneg b).
    replace (exact_off (fdes_of s) i <=? sumz (map exact_fde_size (fdes_of s))) with true by lia.
    apply xrows_enc_skip; [apply wf_fdes, W|exact H].
Qed.

Section Repaired.
  Context (md : mode) (e : endian) (s : sfb) (bs : bytes).
  Context (HR : sfb_reach md s) (HB : build_repaired md e s = Ok bs).

  Theorem x_header :
    zlen bs = 28 + 20 * zlen (fdes_of s) + exact_fre_size s /\
    good_magic e bs /\ spec_version bs = 2 /\
    spec_flags bs = so_flags (sb_options s) /\ bits 0 1 (spec_flags bs) = 1 /\
    spec_abi bs = so_abi (sb_options s) /\
    spec_fixed_fp bs = opt_or_zero (so_fixed_fp (sb_options s)) /\
    spec_fixed_ra bs = opt_or_zero (so_fixed_ra (sb_options s)) /\
    spec_aux_len bs = 0 /\
    spec_num_fdes e bs = zlen (fdes_of s) /\ spec_num_fres e bs = row_count (fdes_of s) /\
    spec_fre_len e bs = exact_fre_size s /\ spec_fdeoff e bs = 0 /\ spec_freoff e bs = 20 * zlen (fdes_of s).
  Proof.
    destruct (repaired_built md e s bs HR HB) as (W & -> & T & _).
    assert (HZ := ximage_zlen e s W).
    assert (H28 : 28 <= zlen (ximage e s)).
    { pose proof (zlen_nonneg (fdes_of s)). pose proof (exact_sum_nonneg (fdes_of s)). fold (exact_fre_size s) in *. lia. }
    destruct (ximage_fields e s W T) as (E0 & E2 & E3 & E4 & E5 & E6 & E7 & E8 & E12 & E16 & E20 & E24).
    destruct (spec_fields e (ximage e s) ltac:(lia)) as (_ & F1 & F2).
    destruct (spec_fields2 e (ximage e s) H28) as (F3 & F4 & F5 & F6 & F7 & F8 & F9 & F10 & F11).
    rewrite F1, F2, F3, F4, F5, F6, F7, F8, F9, F10, F11.
    split; [exact HZ|]. split; [apply good_magic_rd, E0|]. split; [exact E2|]. split; [exact E3|].
    split; [rewrite E3; destruct (ow_flags _ (sw_opts _ W)) as [-> | ->]; reflexivity|].
    repeat (split; [assumption|]). assumption.
  Qed.

  Theorem x_table i b : nth_error (fdes_of s) i = Some b ->
    spec_entry e bs (Z.of_nat i) = exact_descriptor (fdes_of s) i b /\
    spec_rows_at e (start_width (rows_of b)) (slice (exact_off (fdes_of s) i) (exact_fde_size b) (spec_fre_bytes e bs))
      (map exact_row (rows_of b)) [].
  Proof.
    intros Hi. destruct (repaired_built md e s bs HR HB) as (W & E & T & _). rewrite E in *.
    pose proof (ximage_loads rel64 e s wf_rel64 W T (ximage_rel64 e s W T)) as HL.
    destruct (all_fdes_spec rel64 e _ _ wf_rel64 (ximage_rel64 e s W T) HL) as [_ HE].
    destruct (x_entries e s W) as [_ HX]. specialize (HX i b Hi). specialize (HE _ _ HX).
    destruct HE as (_ & HE & _). destruct (in_fdes_wf s i b W Hi) as [Wb _]. split.
    - rewrite <- HE. unfold view_fde, exact_descriptor, x_entry.
      cbn [en_fde fde_start_address fde_size fde_start_fre_off fde_num_fres fde_info fde_rep_size].
      rewrite xraw_info by exact Wb.
      cbn [fde_raw_with f2_start_address f2_size f2_start_fre_off f2_num_fres f2_rep_size]. rewrite rows_of_len.
      reflexivity.
    - destruct (load_accessors rel64 e _ _ wf_rel64 (ximage_rel64 e s W T) HL) as (_ & _ & _ & _ & _ & _ & _ & _ & Hfr).
      rewrite <- Hfr. unfold slice, x_sf. cbn [sf_fres].
      rewrite xrows_enc_skip with (b := b); [|apply wf_fdes, W|exact Hi].
      rewrite firstn_app_exact.
      2:{ pose proof (xfde_enc_zlen e b Wb) as Hz. unfold zlen in Hz. lia. }
      rewrite start_width_size by exact Wb.
      rewrite <- (app_nil_r (xfde_enc e b)). unfold xfde_enc. apply xrows_enc_spec; [apply rows_typed, Wb|apply starts_fit, Wb].
  Qed.

  Lemma x_layout : good_magic e bs /\ spec_version bs = 2 /\ layout_fits e bs.
  Proof.
    destruct x_header as (L & M & V & _ & _ & _ & _ & _ & A & N & _ & F & O & P).
    split; [exact M|]. split; [exact V|]. unfold layout_fits, spec_base, spec_entry_size, spec_header_size.
    rewrite A, N, F, O, P, V, L. change (2 =? 1) with false. cbv iota.
    pose proof (zlen_nonneg (fdes_of s)).
    pose proof (exact_sum_nonneg (fdes_of s)). fold (exact_fre_size s) in *. lia.
  Qed.

  Lemma std_info_bits b : let i := std_info_of b in
    width_of (bits 0 4 i) = Some (start_width (rows_of b)) /\
    (bits 4 1 i =? 1) = (match fb_rep_size b with Some _ => true | None => false end) /\
    (if bits 5 1 i =? 1 then KeyB else KeyA) = fb_pauth b.
  Proof.
    unfold std_info_of, start_width. set (m := fold_right _ _ _).
    destruct (m <=? 127); [|destruct (m <=? 32767)]; destruct (fb_pauth b), (fb_rep_size b) as [rep|]; repeat split; reflexivity.
  Qed.

  Lemma x_std_rows i b : nth_error (fdes_of s) i = Some b ->
    std_rows e bs (spec_entry e bs (Z.of_nat i)) (map exact_row (rows_of b)).
  Proof.
    intros Hi. destruct (x_table i b Hi) as (D & H). rewrite D. destruct (std_info_bits b) as (W & _).
    exists (start_width (rows_of b)), ([] ++ skipn (Z.to_nat (exact_fde_size b)) (skipn (Z.to_nat (exact_off (fdes_of s) i)) (spec_fre_bytes e bs))).
    split; [exact W|]. split; [unfold exact_descriptor; cbn [sd_num_fres]; apply zlen_map|].
    unfold spec_rows_of, exact_descriptor. cbn [sd_fre_off]. set (o := exact_off _ i) in *.
    apply (rows_at_more _ _ _ _ _ (skipn (Z.to_nat (exact_fde_size b)) (skipn (Z.to_nat o) (spec_fre_bytes e bs)))) in H.
    unfold slice in H. rewrite firstn_skipn in H. exact H.
  Qed.

  Lemma x_fixed : nonzero (spec_fixed_ra bs) = so_fixed_ra (sb_options s) /\ nonzero (spec_fixed_fp bs) = so_fixed_fp (sb_options s).
  Proof.
    destruct x_header as (_ & _ & _ & _ & _ & _ & P & R & _). rewrite P, R.
    destruct (repaired_built md e s bs HR HB) as ([[_ _ Q T] _ _ _] & _). split; apply fixed_back; assumption.
  Qed.

  Lemma x_meaning b r : In b (fdes_of s) -> In r (rows_of b) -> std_unwind bs (exact_row r) = intended (sb_options s) r.
  Proof.
    intros Hb Hr. destruct x_fixed as [F1 F2]. destruct (repaired_built md e s bs HR HB) as (W & _ & _ & _ & U).
    assert (A : ~ ambiguous (sb_options s) r) by (intros A; apply U; exists b; eauto).
    apply In_nth_error in Hb. destruct Hb as [i Hi]. destruct (in_fdes_wf s i b W Hi) as [Wb Ob].
    pose proof (bw_rows _ Wb) as Wr. rewrite Forall_forall in Wr. destruct (Wr r Hr) as [Ht _ Hn]. rewrite Ob in Hn.
    unfold std_unwind, intended, exact_row. rewrite F1, F2. cbn [sr_offsets sr_base_is_sp sr_mangled]. unfold stored_values.
    replace (if match r_base r with Sp => true | Fp => false end then Sp else Fp) with (r_base r) by (destruct (r_base r); reflexivity).
    unfold ambiguous in A. clear -A Hn. set (o := sb_options s) in *. clearbody o.
    destruct (r_offsets r) as [[c ra fp]|] eqn:Eo.
    - destruct (Hn _ Eo) as [Nr Nf]. cbn [ro_ra ro_fp option_map ro_cfa] in *.
      destruct (so_fixed_ra o) as [fr0|]; [assert (ra = None) by (apply Nr; discriminate); subst ra|destruct ra as [ra|]];
      (destruct (so_fixed_fp o) as [ff0|]; [assert (fp = None) by (apply Nf; discriminate); subst fp|destruct fp as [fp|]]);
      try reflexivity.
      exfalso. apply A. split; [reflexivity|]. eexists. split; [reflexivity|]. split; [reflexivity|discriminate].
    - cbn [app map option_map nth_error or_fixed]. destruct (so_fixed_ra o), (so_fixed_fp o); reflexivity.
  Qed.

  Lemma x_offset b i a : In b (fdes_of s) -> spec_entry e bs i = exact_descriptor (fdes_of s) (Z.to_nat i) b ->
    std_offset (spec_entry e bs i) a = Some (offset_in b a).
  Proof.
    intros Hb D. rewrite D. destruct (repaired_built md e s bs HR HB) as (_ & _ & _ & _ & U).
    destruct (std_info_bits b) as (_ & B4 & _). unfold std_offset, std_repeats, exact_descriptor. cbn [sd_info sd_rep sd_start].
    rewrite B4. unfold offset_in. destruct (fb_rep_size b) as [rep|] eqn:ER; [|reflexivity].
    replace (rep =? 0) with false; [reflexivity|]. symmetry. apply Z.eqb_neq. intros ->. apply U. exists b. auto.
  Qed.

  Lemma x_one a b b' : In b (fdes_of s) -> In b' (fdes_of s) -> in_range (fb_start b) (fb_size b) a ->
    in_range (fb_start b') (fb_size b') a -> b = b'.
  Proof.
    intros H H' R R'. destruct (repaired_built md e s bs HR HB) as (W & _ & _ & Ho & _).
    assert (E : fb_start b = fb_start b').
    { destruct (Z.eq_dec (fb_start b) (fb_start b')) as [E|N]; [exact E|]. exfalso. apply Ho. unfold in_range in *.
      destruct (Z.lt_ge_cases (fb_start b) (fb_start b')); [exists b, b'|exists b', b]; unfold in_range; repeat split; auto; lia. }
    assert (G1 : bt_get (fb_start b) (sb_fdes s) = Some b) by (apply (wf_get s); auto).
    assert (G2 : bt_get (fb_start b) (sb_fdes s) = Some b') by (apply (wf_get s); auto).
    congruence.
  Qed.

  (** An unwinder that follows the specification finds what was asked for. *)
  Theorem repaired_says a k u : std_says e bs a k u <-> asked_with_key s a k u.
  Proof.
    destruct x_layout as (M & V & L). assert (NF : spec_num_fdes e bs = zlen (fdes_of s)) by apply x_header.
    split.
    - intros (_ & _ & _ & i & rows & x & r & Hi & Hr & HS & Hx & He & Hk & Hu).
      assert (Hn : exists b, nth_error (fdes_of s) (Z.to_nat i) = Some b).
      { destruct (nth_error (fdes_of s) (Z.to_nat i)) eqn:E; [eauto|]. apply nth_error_None in E. unfold zlen in NF. lia. }
      destruct Hn as [b Hn]. assert (Hb : In b (fdes_of s)) by (apply nth_error_In in Hn; exact Hn).
      destruct (x_table _ b Hn) as (D & _). rewrite Z2Nat.id in D by lia.
      pose proof (x_std_rows _ b Hn) as HS'. rewrite Z2Nat.id in HS' by lia.
      rewrite (std_rows_fun _ _ _ _ _ HS HS') in He. rewrite (x_offset b i a Hb D) in Hx. injection Hx as <-.
      destruct He as (H1 & H2 & H3). apply in_map_iff in H1. destruct H1 as (r0 & <- & H1).
      exists b, r0. split; [exact Hb|]. split; [rewrite D in Hr; exact Hr|]. split; [|split].
      + split; [exact H1|]. split; [exact H2|]. intros r' Hr'. apply (H3 (exact_row r')), in_map, Hr'.
      + rewrite <- Hk, D. symmetry. apply std_info_bits.
      + rewrite <- Hu. symmetry. apply (x_meaning b r0 Hb H1).
    - intros (b & r & Hb & Ha & (H1 & H2 & H3) & <- & <-). split; [exact M|]. split; [exact V|]. split; [exact L|].
      pose proof Hb as Hi. apply In_nth_error in Hi. destruct Hi as [i Hi]. destruct (x_table i b Hi) as (D & _).
      assert (i < length (fdes_of s))%nat by (apply nth_error_Some; congruence).
      exists (Z.of_nat i), (map exact_row (rows_of b)), (offset_in b a), (exact_row r).
      split; [rewrite NF; unfold zlen; lia|]. split; [rewrite D; exact Ha|]. split; [apply x_std_rows, Hi|].
      split; [apply (x_offset b); [exact Hb|rewrite Nat2Z.id; exact D]|]. split; [|split].
      + split; [apply in_map, H1|]. split; [exact H2|]. intros r' Hr'. apply in_map_iff in Hr'. destruct Hr' as (r0 & <- & Hr'). apply H3, Hr'.
      + rewrite D. apply std_info_bits.
      + apply (x_meaning b r Hb H1).
  Qed.
End Repaired.

(** ** Without repairs it is [build] *)

Lemma unrepaired_overlap {E} md l : @has_overlap_with E no_fixes md l = has_overlap md l.
Proof. induction l as [|a [|b t] IH]; try reflexivity. cbn [has_overlap_with has_overlap no_fixes fix_gap]. cbn [has_overlap_with has_overlap no_fixes fix_gap] in IH. rewrite IH. reflexivity. Qed.
Lemma unrepaired_rows {E} e ty l : @rows_bytes_with E no_fixes e ty l = rows_bytes e ty l.
Proof. induction l as [|r t IH]; [reflexivity|]. cbn [rows_bytes_with rows_bytes]. rewrite IH. reflexivity. Qed.
Lemma unrepaired_fdes e l : forall st, emit_fdes_with no_fixes e st l = emit_fdes e st l.
Proof.
  induction l as [|b t IH]; intros st; [reflexivity|]. cbn [emit_fdes_with emit_fdes].
  assert (E0 : emit_fde_with no_fixes e st b = emit_fde e st b).
  { unfold emit_fde_with, emit_fde. destruct (negb _); [reflexivity|]. destruct (addr_type _) as [ty| |]; try reflexivity. cbn [bind].
    destruct (negb _); [reflexivity|]. rewrite unrepaired_rows. reflexivity. }
  rewrite E0. destruct (emit_fde e st b) as [st'| |]; cbn [bind]; [apply IH|reflexivity|reflexivity].
Qed.
Theorem unrepaired md e s : build_with no_fixes md e s = emitted (build md e s).
Proof. unfold build_with. cbn [no_fixes fix_refuse andb]. unfold emit_with, build. rewrite unrepaired_overlap, unrepaired_fdes. reflexivity. Qed.

(** ** What comes out *)

Theorem repaired_outcomes md e s : sfb_reach md s ->
  (build_repaired md e s = Err CannotBeSaid <-> unsayable s) /\
  (build_repaired md e s = Err (Emitting OverlappingFdes) <-> ~ unsayable s /\ overlapping s) /\
  (build_repaired md e s = Err (Emitting SectionTooLarge) <-> ~ unsayable s /\ ~ overlapping s /\ exact_too_large s) /\
  ((exists bs, build_repaired md e s = Ok bs) <-> ~ unsayable s /\ ~ overlapping s /\ ~ exact_too_large s) /\
  build_repaired md e s <> Panic.
Proof.
  intros H. apply sfb_reach_wf in H.
  destruct (repaired_cases md e s H) as [(U & E)|[(U & O & E)|[(U & O & T & E)|(U & O & T & E)]]]; rewrite E;
    (split; [split; [discriminate || auto|tauto || auto]|]);
    (split; [split; [discriminate || auto|tauto || auto]|]);
    (split; [split; [discriminate || auto|tauto || auto]|]);
    (split; [split; [intros [bs X]; discriminate || auto|try tauto]|discriminate]).
  intros _. eexists. reflexivity.
Qed.

Theorem repaired_no_panic md e s : sfb_reach md s -> build_repaired md e s <> Panic.
Proof. intros H. apply (repaired_outcomes md e s H). Qed.

Theorem repaired_gap md e s : sfb_reach md s -> ~ unsayable s ->
  (build_repaired md e s = Err (Emitting OverlappingFdes) <-> overlapping s).
Proof. intros H U. destruct (repaired_outcomes md e s H) as (_ & O & _). rewrite O. tauto. Qed.

(** ** Where [build] is right it is left alone *)

Lemma untouched_type r : row_typed r -> ~ tied r -> row_type_with AF r = row_offset_type r.
Proof.
  intros H1 H2. pose proof (untied_width r H1 H2) as E. rewrite needed_type, offset_width_type in E.
  destruct (row_type_with AF r), (row_offset_type r); cbn in E; try reflexivity; lia.
Qed.
Lemma untouched_raw b off : ordinary_function b -> fde_raw_with AF b (start_size b) off = fde_raw b (start_size b) off.
Proof.
  intros [O K]. unfold fde_raw_with, fde_raw, fdb_fdetype. rewrite O, K. f_equal. destruct (start_size b); reflexivity.
Qed.
Lemma untouched_row e aw r : row_typed r -> ~ tied r -> xrow_enc e aw r = row_enc e aw r.
Proof. intros H1 H2. unfold xrow_enc, row_enc, xinfo_byte, info_byte. rewrite untouched_type by assumption. reflexivity. Qed.

Section Same.
  Context (l : list fdb).
  Context (HW : Forall fdb_wf l) (HO : forall b, In b l -> ordinary_function b) (HT : forall b r, In b l -> In r (rows_of b) -> ~ tied r).
  Lemma same_fde e b : In b l -> xfde_enc e b = fde_enc e b.
  Proof.
    intros Hb. unfold xfde_enc, fde_enc. f_equal. apply map_ext_in. intros r Hr. apply untouched_row; [|apply (HT b r Hb Hr)].
    rewrite Forall_forall in HW. pose proof (rows_typed b (HW b Hb)) as HF. rewrite Forall_forall in HF. apply HF, Hr.
  Qed.
  Lemma same_size b : In b l -> exact_fde_size b = fde_fre_size b.
  Proof.
    intros Hb. assert (W : fdb_wf b) by (rewrite Forall_forall in HW; apply HW, Hb).
    rewrite <- (xfde_enc_zlen LE b W), <- (fde_enc_zlen LE b W), same_fde by exact Hb. reflexivity.
  Qed.
End Same.
Lemma same_raws l : Forall fdb_wf l -> (forall b, In b l -> ordinary_function b) -> (forall b r, In b l -> In r (rows_of b) -> ~ tied r) ->
  forall off, xraws off l = raws off l.
Proof.
  intros HW HO HT. induction l as [|b t IH]; intros off; [reflexivity|]. cbn [xraws raws].
  rewrite untouched_raw by (apply HO; left; reflexivity).
  rewrite (same_size (b :: t) HW HT b) by (left; reflexivity). f_equal. apply IH; [inversion HW; assumption|intros; apply HO; right; assumption|].
  intros b' r Hb. apply HT. right. exact Hb.
Qed.

Lemma same_image e s : sfb_wf s -> untouched s -> ximage e s = image e s /\ exact_fre_size s = fre_size s.
Proof.
  intros W (_ & HO & HT). pose proof (wf_fdes s W) as HW.
  assert (Z0 : exact_fre_size s = fre_size s).
  { unfold exact_fre_size, fre_size. f_equal. apply map_ext_in. intros b Hb. apply (same_size (fdes_of s)); assumption. }
  split; [|exact Z0]. unfold ximage, image, xheader, built_header. rewrite Z0.
  f_equal. f_equal; [unfold xtable_enc, table_enc; rewrite same_raws by assumption; reflexivity|].
  unfold xrows_enc, rows_enc. f_equal. apply map_ext_in. intros b Hb. apply (same_fde (fdes_of s)); assumption.
Qed.

Theorem repaired_same md e s : sfb_reach md s -> untouched s -> build md e s <> Panic -> build_repaired md e s = emitted (build md e s).
Proof.
  intros H U NP. apply sfb_reach_wf in H. destruct (same_image e s H U) as [EI EZ].
  assert (ET : exact_too_large s <-> too_large s) by (unfold exact_too_large, too_large; rewrite EZ; reflexivity).
  destruct (repaired_cases md e s H) as [(V & E)|[(V & O & E)|[(V & O & T & E)|(V & O & T & E)]]]; rewrite E;
  [exfalso; apply U, V|..];
  (destruct (build_cases md e s H) as [(B & _)|[(B & O2)|(O2 & _ & [[T2 B]|[T2 B]])]]; [contradiction|..]); rewrite B; try reflexivity; try tauto.
  cbn [emitted]. rewrite EI. reflexivity.
Qed.

(** ** C63 *)

Theorem repaired_injective md md' e s s' bs : sfb_reach md s -> sfb_reach md' s' ->
  build_repaired md e s = Ok bs -> build_repaired md' e s' = Ok bs ->
  forall a k u, asked_with_key s a k u <-> asked_with_key s' a k u.
Proof.
  intros H H' B B' a k u. rewrite <- (repaired_says md e s bs H B), <- (repaired_says md' e s' bs H' B'). reflexivity.
Qed.

(** ** C38 *)

Theorem repaired_width r : row_typed r -> smallest_width r (Z.of_nat (addr_bytes (row_type_with all_fixes r))).
Proof. intros H. rewrite <- needed_type. apply needed_smallest, H. Qed.

(** ** C25 *)

Theorem repaired_info t f k i : in_u8 i -> 
  (bits 0 4 (set_fretype_with all_fixes t i) = fre_type_u8 t /\ bits 4 4 (set_fretype_with all_fixes t i) = bits 4 4 i) /\
  (bits 4 1 (set_fdetype_with all_fixes f i) = fde_type_u8 f /\ bits 0 4 (set_fdetype_with all_fixes f i) = bits 0 4 i /\
     bits 5 3 (set_fdetype_with all_fixes f i) = bits 5 3 i) /\
  (bits 5 1 (set_pauth_key_with all_fixes k i) = pauth_u8 k /\ bits 0 5 (set_pauth_key_with all_fixes k i) = bits 0 5 i /\
     bits 6 2 (set_pauth_key_with all_fixes k i) = bits 6 2 i).
Proof.
  intros H. assert (E : existsb (Z.eqb i) (map Z.of_nat (seq 0 256)) = true).
  { apply existsb_exists. exists i. split; [|apply Z.eqb_refl]. apply in_map_iff. exists (Z.to_nat i). unfold in_u8 in H. split; [lia|]. apply in_seq. lia. }
  assert (G : forallb (fun i => 
    (bits 0 4 (set_fretype_with all_fixes t i) =? fre_type_u8 t) && (bits 4 4 (set_fretype_with all_fixes t i) =? bits 4 4 i) &&
    ((bits 4 1 (set_fdetype_with all_fixes f i) =? fde_type_u8 f) && (bits 0 4 (set_fdetype_with all_fixes f i) =? bits 0 4 i) &&
     (bits 5 3 (set_fdetype_with all_fixes f i) =? bits 5 3 i)) &&
    ((bits 5 1 (set_pauth_key_with all_fixes k i) =? pauth_u8 k) && (bits 0 5 (set_pauth_key_with all_fixes k i) =? bits 0 5 i) &&
     (bits 6 2 (set_pauth_key_with all_fixes k i) =? bits 6 2 i))) (map Z.of_nat (seq 0 256)) = true).
  { clear. destruct t, f, k; vm_compute; reflexivity. }
  apply existsb_exists in E. destruct E as (j & Hj & E). apply Z.eqb_eq in E. subst j.
  rewrite forallb_forall in G. specialize (G i Hj). rewrite !andb_true_iff, !Z.eqb_eq in G. tauto.
Qed.
