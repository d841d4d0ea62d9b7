(** [SFrameBuilder::build]: overlap detection, sizes and the bytes produced
    (C32-C34). *)
From Verif Require Export MergeFdeFacts WriteWitness.

(** ** Overlap *)

Lemma sub_i32_diff {E} md a b : in_i32 a -> in_i32 b -> a < b ->
  @sub_i32 E md b a =
  if (b - a <=? i32_max) then Ok (b - a)
  else if overflow_checks md then Panic else Ok (b - a - 2 ^ 32).
Proof.
  intros Ha Hb Hlt. unfold sub_i32, in_i32b, in_i32, i32_min, i32_max in *.
  destruct (Z.leb_spec (b - a) 2147483647) as [H|H].
  - replace (-2147483648 <=? b - a) with true by lia. reflexivity.
  - replace (-2147483648 <=? b - a) with true by lia. cbn [andb].
    destruct (overflow_checks md); [reflexivity|]. unfold as_s. f_equal.
    change (2 ^ (32 - 1)) with 2147483648. change (2 ^ 32) with 4294967296.
    rewrite Z.mod_small by lia. destruct (Z.ltb_spec (b - a) 2147483648); lia.
Qed.

Definition starts_ok (l : list fdb) : Prop :=
  StronglySorted Z.lt (map fb_start l) /\
  Forall (fun b => in_i32 (fb_start b) /\ in_u32 (fb_size b)) l.

Lemma neighbours_cons {A} (x y : A) t a b :
  neighbours (x :: y :: t) a b <-> (a = x /\ b = y) \/ neighbours (y :: t) a b.
Proof.
  split.
  - intros ([|p pre] & post & E); cbn in E.
    + injection E as -> -> _. left. auto.
    + injection E as _ E. right. exists pre, post. exact E.
  - intros [[-> ->]|H]; [exists [], t; reflexivity|apply neighbours_tail, H].
Qed.
Lemma neighbours_one {A} (x : A) a b : ~ neighbours [x] a b.
Proof. intros (pre & post & E). destruct pre as [|? [|]]; discriminate. Qed.

Definition pair_overlaps (l : list fdb) : Prop :=
  exists a b, neighbours l a b /\ fb_start b < fb_start a + fb_size a.

Lemma has_overlap_cases {E} md l : starts_ok l ->
  match @has_overlap E md l with
  | Ok true => pair_overlaps l
  | Ok false => ~ pair_overlaps l /\ (overflow_checks md = true -> ~ wide_gap l)
  | Err _ => False
  | Panic => overflow_checks md = true /\ wide_gap l
  end.
Proof.
  unfold starts_ok. induction l as [|a t IH]; intros [Hs HF]; cbn [has_overlap].
  { split; [|intros _]; intros (a & b & H & _); destruct H as (pre & post & E'); destruct pre; discriminate. }
  destruct t as [|b t].
  { split; [|intros _]; intros (x & y & H & _); exact (neighbours_one _ _ _ H). }
  cbn [map] in Hs. inversion Hs as [|? ? Hs1 Hlt]; subst. rewrite Forall_forall in Hlt.
  specialize (Hlt (fb_start b) (or_introl eq_refl)).
  inversion HF as [|? ? [Sa Za] HF1]; subst. inversion HF1 as [|? ? [Sb Zb] _]; subst.
  replace (fb_start a <=? fb_start b) with true by lia. rewrite andb_false_r.
  rewrite sub_i32_diff by assumption. specialize (IH (conj Hs1 HF1)).
  assert (Hrest : forall d, as_u 32 d = fb_start b - fb_start a ->
    (overflow_checks md = true -> fb_start b - fb_start a <= i32_max) ->
    match (if as_u 32 d <? fb_size a then Ok true else @has_overlap E md (b :: t)) with
    | Ok true => pair_overlaps (a :: b :: t)
    | Ok false => ~ pair_overlaps (a :: b :: t) /\ (overflow_checks md = true -> ~ wide_gap (a :: b :: t))
    | Err _ => False
    | Panic => overflow_checks md = true /\ wide_gap (a :: b :: t)
    end).
  { intros d -> Hg. destruct (Z.ltb_spec (fb_start b - fb_start a) (fb_size a)) as [Ho|Ho].
    - exists a, b. split; [exists [], t; reflexivity|lia].
    - destruct (has_overlap md (b :: t)) as [[|]|er|].
      + destruct IH as (x & y & H1 & H2). exists x, y. split; [apply neighbours_tail, H1|exact H2].
      + destruct IH as [H1 H2]. split.
        * intros (x & y & Hn & Hxy). apply neighbours_cons in Hn. destruct Hn as [[-> ->]|Hn]; [lia|].
          apply H1. exists x, y. auto.
        * intros Hoc (x & y & Hn & Hxy). apply neighbours_cons in Hn. destruct Hn as [[-> ->]|Hn].
          { specialize (Hg Hoc). lia. }
          apply (H2 Hoc). exists x, y. auto.
      + exact IH.
      + destruct IH as [H1 (x & y & Hn & Hxy)]. split; [exact H1|]. exists x, y. split; [apply neighbours_tail, Hn|exact Hxy]. }
  unfold in_i32, in_u32, i32_min, i32_max, u32_max in *.
  destruct (Z.leb_spec (fb_start b - fb_start a) 2147483647) as [Hg|Hg].
  - cbn [bind]. apply Hrest; [unfold as_u; rewrite Z.mod_small; lia|lia].
  - destruct (overflow_checks md) eqn:Hoc; cbn [bind].
    + split; [reflexivity|]. exists a, b. split; [exists [], t; reflexivity|unfold i32_max; lia].
    + apply Hrest; [|discriminate]. unfold as_u.
      replace (fb_start b - fb_start a - 2 ^ 32) with (fb_start b - fb_start a + (-1) * 2 ^ 32) by lia.
      rewrite Z.mod_add by lia. apply Z.mod_small. lia.
Qed.

Lemma wf_starts s : sfb_wf s -> starts_ok (fdes_of s).
Proof.
  intros [_ S K W]. unfold starts_ok, fdes_of. split.
  - rewrite map_map. unfold sorted, bt_keys in S. erewrite map_ext_in; [exact S|].
    intros [k v] Hi. cbn. symmetry. apply (K _ _ Hi).
  - eapply Forall_impl; [|exact W]. intros b [[]]. auto.
Qed.

(** Successor of an element in a sorted list. *)
Lemma successor l : StronglySorted Z.lt (map fb_start l) -> forall a b,
  In a l -> In b l -> fb_start a < fb_start b ->
  exists n, neighbours l a n /\ fb_start n <= fb_start b.
Proof.
  induction l as [|x t IH]; intros Hs a b Ha Hb Hlt; [contradiction|].
  cbn [map] in Hs. inversion Hs as [|? ? Hs1 HF]; subst. rewrite Forall_forall in HF.
  assert (Hx : forall y, In y t -> fb_start x < fb_start y) by (intros y Hy; apply HF, in_map, Hy).
  destruct Ha as [->|Ha].
  - destruct Hb as [->|Hb]; [lia|]. destruct t as [|y t]; [contradiction|].
    exists y. split; [exists [], t; reflexivity|]. destruct Hb as [->|Hb]; [lia|].
    cbn [map] in Hs1. inversion Hs1 as [|? ? _ HF1]; subst. rewrite Forall_forall in HF1.
    specialize (HF1 (fb_start b) (in_map _ _ _ Hb)). lia.
  - destruct Hb as [->|Hb]; [pose proof (Hx a Ha); lia|].
    destruct (IH Hs1 a b Ha Hb Hlt) as (n & Hn & Hle). exists n. split; [apply neighbours_tail, Hn|exact Hle].
Qed.

Lemma overlapping_pairs s : sfb_wf s -> (overlapping s <-> pair_overlaps (fdes_of s)).
Proof.
  intros W. destruct (wf_starts s W) as [Hs HF]. split.
  - intros (a & b & Ha & Hb & Hne & [H1 H2]).
    destruct (successor _ Hs a b Ha Hb ltac:(lia)) as (n & Hn & Hle). exists a, n. split; [exact Hn|lia].
  - intros (a & b & Hn & H). pose proof (neighbours_in _ _ _ Hn) as [Ha Hb].
    exists a, b. destruct W as [_ S K _]. pose proof (neighbours_lt _ _ _ S K Hn).
    unfold in_range. repeat apply conj; try assumption; lia.
Qed.

(** Two functions sharing an address overlap. *)
Lemma shared_overlapping s a b x : In a (fdes_of s) -> In b (fdes_of s) -> fb_start a <> fb_start b ->
  in_range (fb_start a) (fb_size a) x -> in_range (fb_start b) (fb_size b) x -> overlapping s.
Proof.
  unfold in_range. intros Ha Hb Hne [H1 H2] [H3 H4].
  destruct (Z.lt_ge_cases (fb_start a) (fb_start b)).
  - exists a, b. unfold in_range. repeat apply conj; try assumption; lia.
  - exists b, a. unfold in_range. repeat apply conj; try assumption; lia.
Qed.

(** ** Rows *)

Lemma row_values_stored r : row_values r = stored_values r.
Proof. reflexivity. Qed.

Lemma stored_count r : zlen (stored_values r) <= 3.
Proof.
  unfold stored_values. destruct (r_offsets r) as [[c [ra|] [fp|]]|]; vm_compute; congruence.
Qed.

Definition big2 (m x : Z) : Z := if Z.abs m <? Z.abs x then x else m.
Lemma dominant_big c ra fp :
  dominant (c :: (match ra with Some x => [x] | None => [] end) ++ (match fp with Some x => [x] | None => [] end))
  = Some (let m1 := match ra with Some x => big2 c x | None => c end in
          match fp with Some x => big2 m1 x | None => m1 end).
Proof.
  unfold big2. destruct ra as [ra|], fp as [fp|]; cbn [app dominant]; cbv zeta; try reflexivity.
  - destruct (Z.ltb_spec (Z.abs ra) (Z.abs fp)), (Z.ltb_spec (Z.abs c) (Z.abs ra));
      repeat match goal with |- context[?a <? ?b] => destruct (Z.ltb_spec a b) end; try reflexivity; lia.
  - destruct (Z.abs c <? Z.abs ra); reflexivity.
  - destruct (Z.abs c <? Z.abs fp); reflexivity.
Qed.

Lemma offset_width_type r : offset_width r = Z.of_nat (addr_bytes (row_offset_type r)).
Proof.
  unfold offset_width, row_offset_type, stored_values.
  destruct (r_offsets r) as [[c ra fp]|]; [|reflexivity]. unfold offset_type. cbn [ro_cfa ro_ra ro_fp].
  rewrite dominant_big. cbv zeta. fold (big2 c). 
  set (m := match fp with Some x => big2 _ x | None => _ end).
  change (match fp with Some fp0 => if _ <? Z.abs fp0 then fp0 else _ | None => _ end) with m.
  unfold storableb.
  change (8 * 1 - 1) with 7. change (8 * 2 - 1) with 15. change (2 ^ 7) with 128. change (2 ^ 15) with 32768.
  replace (m <? 128) with (m <=? 127) by lia. replace (m <? 32768) with (m <=? 32767) by lia.
  change (-(128)) with (-128). change (-(32768)) with (-32768).
  destruct ((-128 <=? m) && (m <=? 127)); [reflexivity|].
  destruct ((-32768 <=? m) && (m <=? 32767)); reflexivity.
Qed.

Definition size_code (a : addr_size) : Z := match a with SzU8 => 0 | SzU16 => 1 | SzU32 => 2 end.

(** The info byte of a row. *)
Definition info_byte (r : row) : Z :=
  (if r_mangled r then 128 else 0) + 32 * size_code (row_offset_type r) +
  2 * zlen (stored_values r) + base_reg_u8 (r_base r).

Lemma row_info_eq {E} r : @row_info E r = Ok (info_byte r).
Proof.
  unfold row_info. pose proof (stored_count r) as Hc. pose proof (zlen_nonneg (stored_values r)) as H0.
  rewrite row_values_stored.
  rewrite set_offset_size_arith by (unfold in_u8; lia).
  assert (B : 0 <= fre_offset_u8 (addr_fre_offset (row_offset_type r)) <= 2)
    by (destruct (row_offset_type r); cbn; lia).
  assert (Eo : fre_offset_u8 (addr_fre_offset (row_offset_type r)) = size_code (row_offset_type r))
    by (destruct (row_offset_type r); reflexivity).
  rewrite Eo in *.
  rewrite set_offset_count_arith by (unfold in_u8; lia). cbn [bind]. f_equal.
  rewrite set_cfa_base_reg_id_arith by (unfold in_u8; lia).
  assert (Bb : 0 <= base_reg_u8 (r_base r) <= 1) by (destruct (r_base r); cbn; lia).
  rewrite set_mangled_ra_p_arith by (unfold in_u8; lia). unfold info_byte.
  destruct (r_mangled r); lia.
Qed.

Lemma info_byte_range r : in_u8 (info_byte r).
Proof.
  unfold info_byte, in_u8. pose proof (stored_count r). pose proof (zlen_nonneg (stored_values r)).
  destruct (r_mangled r), (row_offset_type r), (r_base r); cbn; lia.
Qed.

(** The bytes of a row, and of a function's rows. *)
Definition row_enc (e : endian) (aw : nat) (r : row) : bytes :=
  enc e aw (r_start r) ++ enc e 1 (info_byte r) ++
  concat (map (enc e (addr_bytes (row_offset_type r))) (stored_values r)).

Lemma rows_bytes_eq {E} e ty l : @rows_bytes E e ty l = Ok (concat (map (row_enc e (addr_bytes ty)) l)).
Proof.
  induction l as [|r t IH]; cbn [rows_bytes map concat]; [reflexivity|].
  unfold row_bytes. rewrite row_info_eq. cbn [bind]. rewrite IH. cbn [bind]. reflexivity.
Qed.

Lemma enc_zlen e n z : zlen (enc e n z) = Z.of_nat n.
Proof. unfold zlen. rewrite enc_length. reflexivity. Qed.

Lemma concat_enc_zlen e n l : zlen (concat (map (enc e n) l)) = zlen l * Z.of_nat n.
Proof.
  induction l as [|z t IH]; cbn [map concat]; [reflexivity|].
  rewrite zlen_app, enc_zlen, zlen_cons, IH. lia.
Qed.

Lemma row_enc_zlen e aw r : zlen (row_enc e aw r) = row_size (Z.of_nat aw) r.
Proof.
  unfold row_enc, row_size. rewrite !zlen_app, !enc_zlen, concat_enc_zlen, offset_width_type. lia.
Qed.

(** Width of the start fields of a function. *)
Definition start_size (b : fdb) : addr_size :=
  let m := max_offset b in
  if m <=? 0x7F then SzU8 else if m <=? 0x7FFF then SzU16 else SzU32.

Lemma max_offset_max b : fdb_wf b -> fold_right Z.max 0 (map r_start (rows_of b)) = max_offset b.
Proof.
  intros [_ _ _ _ S K W]. unfold max_offset, rows_of. rewrite Forall_forall in W.
  assert (Hb : forall l m, (forall x, In x l -> 0 <= x <= m) -> (l = [] -> m = 0) -> (l <> [] -> In m l) ->
    fold_right Z.max 0 l = m).
  { clear. intros l m H1 H2 H3. 
    assert (Hle : fold_right Z.max 0 l <= m).
    { destruct l as [|y l]; [rewrite (H2 eq_refl); cbn; lia|].
      assert (0 <= m) by (apply (H1 m), H3; discriminate).
      clear H2 H3. revert H1. generalize (y :: l). intros l0 H1.
      induction l0 as [|x t IH]; cbn; [lia|]. pose proof (H1 x (or_introl eq_refl)).
      assert (fold_right Z.max 0 t <= m) by (apply IH; intros; apply H1; right; assumption). lia. }
    assert (Hge : m <= fold_right Z.max 0 l).
    { destruct l as [|y l]; [rewrite (H2 eq_refl); cbn; lia|]. specialize (H3 ltac:(discriminate)).
      clear H2 Hle H1. revert H3. generalize (y :: l). intros l0.
      induction l0 as [|x t IH]; [intros []|]. intros [->|Hin]; cbn; [lia|]. specialize (IH Hin). lia. }
    lia. }
  apply Hb.
  - intros x Hx. rewrite map_map in Hx. apply in_map_iff in Hx. destruct Hx as ([k r] & <- & Hin).
    cbn [snd]. assert (Hr : In r (rows_of b)) by (apply in_map_iff; exists (k, r); auto).
    destruct (rw_typed _ _ (W r Hr)) as [[B _] _]. pose proof (K _ _ Hin) as Ek.
    destruct (bt_last (fb_fres b)) as [[k' r']|] eqn:E.
    + destruct (bt_last_max _ _ S E) as [Hin' Hmax]. specialize (Hmax _ _ Hin). cbn in Hmax.
      rewrite (K _ _ Hin') in Hmax. lia.
    + apply bt_last_none in E. rewrite E in Hin. contradiction.
  - intros H. apply map_eq_nil in H. apply map_eq_nil in H. rewrite H. reflexivity.
  - intros H. destruct (bt_last (fb_fres b)) as [[k' r']|] eqn:E.
    + destruct (bt_last_max _ _ S E) as [Hin' _]. rewrite map_map. apply in_map_iff. exists (k', r'). auto.
    + apply bt_last_none in E. rewrite E in H. cbn in H. congruence.
Qed.

Lemma max_offset_range b : fdb_wf b -> 0 <= max_offset b < 0x10000000.
Proof.
  intros [_ _ _ _ S K W]. unfold max_offset. rewrite Forall_forall in W.
  destruct (bt_last (fb_fres b)) as [[k' r']|] eqn:E; [|lia].
  destruct (bt_last_max _ _ S E) as [Hin' _].
  assert (Hr : In r' (rows_of b)) by (apply in_map_iff; exists (k', r'); auto).
  destruct (rw_typed _ _ (W r' Hr)) as [[B _] _]. pose proof (rw_start _ _ (W r' Hr)). lia.
Qed.

Lemma addr_type_eq {E} b : fdb_wf b -> @addr_type E (max_offset b) = Ok (start_size b).
Proof.
  intros H. apply max_offset_range in H. unfold addr_type, start_size.
  replace (0 <=? max_offset b) with true by lia. cbn [andb].
  destruct (max_offset b <=? 0x7F); [reflexivity|]. destruct (max_offset b <=? 0x7FFF); [reflexivity|].
  replace (max_offset b <=? 0x7FFFFFFF) with true by lia. reflexivity.
Qed.

Lemma start_width_size b : fdb_wf b -> start_width (rows_of b) = Z.of_nat (addr_bytes (start_size b)).
Proof.
  intros H. unfold start_width, start_size. rewrite max_offset_max by exact H. cbv zeta.
  destruct (max_offset b <=? 0x7F); [reflexivity|]. destruct (max_offset b <=? 0x7FFF); reflexivity.
Qed.

Definition fde_enc (e : endian) (b : fdb) : bytes :=
  concat (map (row_enc e (addr_bytes (start_size b))) (rows_of b)).

Lemma zlen_concat_map {A} (f : A -> bytes) l : zlen (concat (map f l)) = sumz (map (fun a => zlen (f a)) l).
Proof. induction l as [|a t IH]; cbn [map concat sumz fold_right]; [reflexivity|]. rewrite zlen_app, IH. reflexivity. Qed.

Lemma fde_enc_zlen e b : fdb_wf b -> zlen (fde_enc e b) = fde_fre_size b.
Proof.
  intros H. unfold fde_enc, fde_fre_size. rewrite zlen_concat_map, start_width_size by exact H.
  f_equal. apply map_ext. intros r. apply row_enc_zlen.
Qed.

Lemma row_size_min aw r : 0 <= aw -> 1 <= row_size aw r.
Proof.
  intros H. unfold row_size. rewrite offset_width_type. pose proof (zlen_nonneg (stored_values r)).
  nia.
Qed.

Lemma start_width_pos l : 1 <= start_width l.
Proof. unfold start_width. destruct (_ <=? _); [lia|]. destruct (_ <=? _); lia. Qed.

Lemma rows_le_size b : zlen (rows_of b) <= fde_fre_size b.
Proof.
  unfold fde_fre_size. pose proof (start_width_pos (rows_of b)) as Hw. generalize dependent (start_width (rows_of b)).
  intros w Hw. induction (rows_of b) as [|r t IH]; cbn [map sumz fold_right]; [reflexivity|].
  rewrite zlen_cons. pose proof (row_size_min w r ltac:(lia)). unfold sumz in IH. lia.
Qed.

(** ** The emission loop *)

(** Descriptors written for [l], the first one's rows being at [off]. *)
Fixpoint raws (off : Z) (l : list fdb) : list raw_fde2 :=
  match l with
  | [] => []
  | b :: t => fde_raw b (start_size b) off :: raws (off + fde_fre_size b) t
  end.

Definition table_enc (e : endian) (off : Z) (l : list fdb) : bytes := concat (map (fde2_bytes e) (raws off l)).
Definition rows_enc (e : endian) (l : list fdb) : bytes := concat (map (fde_enc e) l).
Lemma raws_length off l : length (raws off l) = length l.
Proof. revert off. induction l as [|b t IH]; intros off; cbn; [reflexivity|]. rewrite IH. reflexivity. Qed.

Lemma table_enc_zlen e off l : zlen (table_enc e off l) = 20 * zlen l.
Proof.
  unfold table_enc. rewrite zlen_concat_map.
  replace (map (fun a => zlen (fde2_bytes e a)) (raws off l)) with (map (fun _ : raw_fde2 => 20) (raws off l)).
  2:{ apply map_ext. intros r. unfold zlen. rewrite fde2_bytes_length. reflexivity. }
  assert (H : forall r : list raw_fde2, sumz (map (fun _ => 20) r) = 20 * zlen r).
  { induction r as [|x r IH]; [reflexivity|]. rewrite zlen_cons. cbn [map sumz fold_right]. unfold sumz in IH. lia. }
  rewrite H. unfold zlen. rewrite raws_length. lia.
Qed.

Lemma rows_enc_zlen e l : Forall fdb_wf l -> zlen (rows_enc e l) = sumz (map fde_fre_size l).
Proof.
  intros H. unfold rows_enc. rewrite zlen_concat_map. f_equal. apply map_ext_in. intros b Hb.
  apply fde_enc_zlen. rewrite Forall_forall in H. apply H, Hb.
Qed.

Lemma fde_fre_size_nonneg b : 0 <= fde_fre_size b.
Proof. pose proof (rows_le_size b). pose proof (zlen_nonneg (rows_of b)). lia. Qed.

Lemma sumz_nonneg l : 0 <= sumz (map fde_fre_size l).
Proof.
  induction l as [|b t IH]; cbn [map sumz fold_right]; [lia|]. pose proof (fde_fre_size_nonneg b). unfold sumz in IH. lia.
Qed.

Lemma row_count_le l : 0 <= row_count l <= sumz (map fde_fre_size l).
Proof.
  unfold row_count. induction l as [|b t IH]; cbn [map sumz fold_right]; [lia|].
  pose proof (rows_le_size b). pose proof (zlen_nonneg (rows_of b)). unfold sumz in IH. lia.
Qed.

Lemma rows_of_len b : zlen (fb_fres b) = zlen (rows_of b).
Proof. unfold rows_of. rewrite zlen_map. reflexivity. Qed.

Lemma emit_fdes_spec e l : Forall fdb_wf l -> forall st,
  let result := EmitState (es_table st ++ table_enc e (zlen (es_fres st)) l) (es_fres st ++ rows_enc e l)
                          (es_count st + row_count l) in
  (zlen (es_fres st) + sumz (map fde_fre_size l) <= u32_max -> emit_fdes e st l = Ok result) /\
  (u32_max < zlen (es_fres st) + sumz (map fde_fre_size l) ->
   emit_fdes e st l = Ok result \/ emit_fdes e st l = Err SectionTooLarge).
Proof.
  induction 1 as [|b t Hb Ht IH]; intros st; cbv zeta.
  - unfold table_enc, rows_enc, row_count. cbn [emit_fdes raws map concat sumz fold_right].
    rewrite !app_nil_r, !Z.add_0_r. destruct st. split; intros _; [|left]; reflexivity.
  - cbn [emit_fdes]. unfold emit_fde.
    pose proof (zlen_nonneg (es_fres st)) as H0. pose proof (fde_fre_size_nonneg b) as H1.
    pose proof (sumz_nonneg t) as H2. cbn [map sumz fold_right]. fold (sumz (map fde_fre_size t)).
    unfold fits_u32.
    destruct (Z.leb_spec (zlen (es_fres st)) u32_max) as [Hf|Hf].
    2:{ replace (0 <=? zlen (es_fres st)) with true by lia. cbn [andb negb bind]. split; [intros; lia|auto]. }
    replace (0 <=? zlen (es_fres st)) with true by lia. cbn [andb negb].
    rewrite addr_type_eq by exact Hb. cbn [bind].
    pose proof (rows_le_size b) as H3. rewrite rows_of_len. pose proof (zlen_nonneg (rows_of b)) as H4.
    replace (0 <=? zlen (rows_of b)) with true by lia. cbn [andb].
    destruct (Z.leb_spec (zlen (rows_of b)) u32_max) as [Hn|Hn]; cbn [negb bind].
    2:{ split; [intros; lia|auto]. }
    change (bt_values (fb_fres b)) with (rows_of b).
    rewrite rows_bytes_eq. cbn [bind]. fold (fde_enc e b).
    match goal with |- context[emit_fdes e ?s t] => set (st' := s) end.
    specialize (IH st'). cbv zeta in IH.
    assert (Hz : zlen (es_fres st') = zlen (es_fres st) + fde_fre_size b)
      by (unfold st'; cbn [es_fres]; rewrite zlen_app, fde_enc_zlen by exact Hb; reflexivity).
    rewrite Hz in IH.
    assert (Hres : EmitState (es_table st' ++ table_enc e (zlen (es_fres st) + fde_fre_size b) t)
                             (es_fres st' ++ rows_enc e t) (es_count st' + row_count t) =
                   EmitState (es_table st ++ table_enc e (zlen (es_fres st)) (b :: t))
                             (es_fres st ++ rows_enc e (b :: t)) (es_count st + row_count (b :: t))).
    { unfold st', table_enc, rows_enc, row_count. cbn [es_table es_fres es_count raws map concat sumz fold_right].
      rewrite <- !app_assoc. f_equal. unfold sumz. lia. }
    rewrite Hres in IH. destruct IH as [IH1 IH2]. split; intros H.
    + apply IH1. lia.
    + apply IH2. lia.
Qed.

(** ** [build] *)

(** The header written for [s]. *)
Definition built_header (s : sfb) : header :=
  {| h_preamble := Preamble MAGIC VERSION_V2 (so_flags (sb_options s));
     h_abi_arch := so_abi (sb_options s);
     h_fixed_fp_offset := opt_or_zero (so_fixed_fp (sb_options s));
     h_fixed_ra_offset := opt_or_zero (so_fixed_ra (sb_options s));
     h_auxhdr_len := 0;
     h_num_fdes := zlen (fdes_of s);
     h_num_fres := row_count (fdes_of s);
     h_fre_len := fre_size s;
     h_fdeoff := 0;
     h_freoff := 20 * zlen (fdes_of s) |}.

(** The section written for [s]. *)
Definition image (e : endian) (s : sfb) : bytes :=
  header_bytes e (built_header s) ++ table_enc e 0 (fdes_of s) ++ rows_enc e (fdes_of s).

Lemma wf_fdes s : sfb_wf s -> Forall fdb_wf (fdes_of s).
Proof. intros [_ _ _ W]. eapply Forall_impl; [|exact W]. intros b [H _]. exact H. Qed.

Lemma build_emit md e s : sfb_wf s -> has_overlap md (fdes_of s) = @Ok emit_error bool false ->
  (~ too_large s -> build md e s = Ok (image e s)) /\
  (too_large s -> build md e s = Err SectionTooLarge).
Proof.
  intros W Hov. unfold build. change (bt_values (sb_fdes s)) with (fdes_of s). rewrite Hov. cbn [bind].
  pose proof (wf_fdes s W) as WF.
  destruct (emit_fdes_spec e (fdes_of s) WF (EmitState [] [] 0)) as [H1 H2].
  cbn [es_table es_fres es_count app] in H1, H2. change (zlen (@nil byte)) with 0 in *.
  rewrite Z.add_0_l in H1, H2. fold (fre_size s) in H1, H2. rewrite Z.add_0_l in H1, H2.
  assert (Hlen : zlen (sb_fdes s) = zlen (fdes_of s)) by (unfold fdes_of; rewrite zlen_map; reflexivity).
  pose proof (row_count_le (fdes_of s)) as Hrc. fold (fre_size s) in Hrc.
  pose proof (zlen_nonneg (fdes_of s)) as Hn.
  assert (Hfin : forall st, st = EmitState (table_enc e 0 (fdes_of s)) (rows_enc e (fdes_of s)) (row_count (fdes_of s)) ->
    let r := (if negb (fits_u32 (es_count st)) then Err SectionTooLarge
      else if negb (fits_u32 (zlen (sb_fdes s))) then Err SectionTooLarge
      else if negb (fits_u32 (zlen (es_fres st))) then Err SectionTooLarge
      else if negb (fits_u32 (zlen (es_table st))) then Err SectionTooLarge
      else Ok (header_bytes e {| h_preamble := Preamble MAGIC VERSION_V2 (so_flags (sb_options s));
                  h_abi_arch := so_abi (sb_options s);
                  h_fixed_fp_offset := opt_or_zero (so_fixed_fp (sb_options s));
                  h_fixed_ra_offset := opt_or_zero (so_fixed_ra (sb_options s));
                  h_auxhdr_len := 0;
                  h_num_fdes := zlen (sb_fdes s);
                  h_num_fres := es_count st;
                  h_fre_len := zlen (es_fres st);
                  h_fdeoff := 0;
                  h_freoff := zlen (es_table st) |} ++ es_table st ++ es_fres st)) in
    (~ too_large s -> r = Ok (image e s)) /\ (too_large s -> r = Err SectionTooLarge)).
  { intros st ->. cbv zeta. cbn [es_table es_fres es_count].
    rewrite Hlen, table_enc_zlen, rows_enc_zlen by exact WF. fold (fre_size s).
    unfold too_large, fits_u32.
    replace (0 <=? row_count (fdes_of s)) with true by lia. replace (0 <=? zlen (fdes_of s)) with true by lia.
    replace (0 <=? fre_size s) with true by lia. replace (0 <=? 20 * zlen (fdes_of s)) with true by lia.
    cbn [andb].
    destruct (Z.leb_spec (row_count (fdes_of s)) u32_max); cbn [negb]; [|split; [lia|reflexivity]].
    destruct (Z.leb_spec (zlen (fdes_of s)) u32_max); cbn [negb]; [|split; [lia|reflexivity]].
    destruct (Z.leb_spec (fre_size s) u32_max); cbn [negb]; [|split; [lia|reflexivity]].
    destruct (Z.leb_spec (20 * zlen (fdes_of s)) u32_max); cbn [negb]; [|split; [lia|reflexivity]].
    split; [reflexivity|lia]. }
  destruct (Z.le_gt_cases (fre_size s) u32_max) as [Hle|Hgt].
  - rewrite (H1 Hle). cbn [bind]. apply (Hfin _ eq_refl).
  - destruct (H2 ltac:(lia)) as [-> | ->]; cbn [bind].
    + apply (Hfin _ eq_refl).
    + split; [unfold too_large; lia|reflexivity].
Qed.

(** Everything [build] can do, for builders in the invariant. *)
Lemma build_cases md e s : sfb_wf s ->
  (build md e s = Panic /\ overflow_checks md = true /\ wide_gap (fdes_of s)) \/
  (build md e s = Err OverlappingFdes /\ overlapping s) \/
  (~ overlapping s /\ (overflow_checks md = true -> ~ wide_gap (fdes_of s)) /\
   ((too_large s /\ build md e s = Err SectionTooLarge) \/
    (~ too_large s /\ build md e s = Ok (image e s)))).
Proof.
  intros W. pose proof (has_overlap_cases (E := emit_error) md (fdes_of s) (wf_starts s W)) as H.
  rewrite (overlapping_pairs s W).
  destruct (@has_overlap emit_error md (fdes_of s)) as [[|]|er|] eqn:E.
  - right. left. split; [|exact H]. unfold build. change (bt_values (sb_fdes s)) with (fdes_of s). rewrite E. reflexivity.
  - right. right. destruct H as [H1 H2]. split; [exact H1|]. split; [exact H2|].
    destruct (build_emit md e s W E) as [B1 B2]. unfold too_large in *.
    destruct (Z.le_gt_cases (fre_size s) u32_max), (Z.le_gt_cases (20 * zlen (fdes_of s)) u32_max);
      [right|left..]; (split; [lia|]); [apply B1|apply B2..]; lia.
  - contradiction.
  - left. split; [|exact H]. unfold build. change (bt_values (sb_fdes s)) with (fdes_of s). rewrite E. reflexivity.
Qed.

(** ** C32-C34 over call histories *)

(** C32 *)
Theorem overlap_exact md e s : sfb_reach md s ->
  (overflow_checks md = false \/ ~ wide_gap (fdes_of s)) ->
  (build md e s = Err OverlappingFdes <-> overlapping s).
Proof.
  intros H Hg. apply sfb_reach_wf in H.
  destruct (build_cases md e s H) as [(B & Hoc & Hw)|[(B & Ho)|(Ho & _ & [[_ B]|[_ B]])]]; rewrite B.
  - destruct Hg as [Hg|Hg]; [congruence|contradiction].
  - split; auto.
  - split; [discriminate|contradiction].
  - split; [discriminate|contradiction].
Qed.

Theorem overlap_sound md e s : sfb_reach md s ->
  (build md e s = Err OverlappingFdes -> overlapping s) /\
  (overlapping s -> build md e s = Err OverlappingFdes \/
     (build md e s = Panic /\ overflow_checks md = true /\ wide_gap (fdes_of s))).
Proof.
  intros H. apply sfb_reach_wf in H.
  destruct (build_cases md e s H) as [(B & Hoc & Hw)|[(B & Ho)|(Ho & _ & [[_ B]|[_ B]])]]; rewrite B.
  - split; [discriminate|auto].
  - split; auto.
  - split; [discriminate|contradiction].
  - split; [discriminate|contradiction].
Qed.

Theorem shared_address_reported md e s a b x : sfb_reach md s ->
  (overflow_checks md = false \/ ~ wide_gap (fdes_of s)) ->
  In a (fdes_of s) -> In b (fdes_of s) -> a <> b ->
  in_range (fb_start a) (fb_size a) x -> in_range (fb_start b) (fb_size b) x ->
  build md e s = Err OverlappingFdes.
Proof.
  intros H Hg Ha Hb Hne Ra Rb. apply (overlap_exact md e s H Hg).
  apply (shared_overlapping s a b x); try assumption.
  intros Hs. apply Hne. apply sfb_reach_wf in H.
  assert (G1 : bt_get (fb_start a) (sb_fdes s) = Some a) by (apply (wf_get s); auto).
  assert (G2 : bt_get (fb_start a) (sb_fdes s) = Some b) by (apply (wf_get s); auto).
  congruence.
Qed.

(** C33 *)
Theorem build_panics_only md e s : sfb_reach md s -> build md e s = Panic ->
  overflow_checks md = true /\ wide_gap (fdes_of s).
Proof.
  intros H Hp. apply sfb_reach_wf in H.
  destruct (build_cases md e s H) as [(B & Hoc & Hw)|[(B & Ho)|(Ho & _ & [[_ B]|[_ B]])]]; try congruence. auto.
Qed.

Theorem build_no_panic_nonneg md e s : sfb_reach md s ->
  (forall b, In b (fdes_of s) -> 0 <= fb_start b) -> build md e s <> Panic.
Proof.
  intros H Hp E. destruct (build_panics_only md e s H E) as [_ (a & b & Hn & Hw)].
  apply sfb_reach_wf in H. destruct (wf_starts s H) as [_ HF]. rewrite Forall_forall in HF.
  apply neighbours_in in Hn. destruct Hn as [Ha Hb]. pose proof (Hp a Ha). destruct (HF b Hb) as [B _].
  unfold in_i32, i32_max in *. lia.
Qed.

(** In checked builds a wide gap always panics unless an overlap comes first. *)
Theorem build_wide_gap_panics md e s : sfb_reach md s -> overflow_checks md = true ->
  ~ overlapping s -> wide_gap (fdes_of s) -> build md e s = Panic.
Proof.
  intros H Hoc Ho Hw. apply sfb_reach_wf in H.
  destruct (build_cases md e s H) as [(B & _)|[(B & Ho')|(_ & Hn & _)]]; [exact B|contradiction|].
  destruct (Hn Hoc Hw).
Qed.

(** C34 *)
Theorem too_large_exact md e s : sfb_reach md s -> ~ overlapping s ->
  (overflow_checks md = false \/ ~ wide_gap (fdes_of s)) ->
  (build md e s = Err SectionTooLarge <-> too_large s) /\
  (~ too_large s -> exists bs, build md e s = Ok bs).
Proof.
  intros H Ho Hg. apply sfb_reach_wf in H.
  destruct (build_cases md e s H) as [(B & Hoc & Hw)|[(B & Ho')|(_ & _ & [[T B]|[T B]])]]; rewrite B.
  - destruct Hg as [Hg|Hg]; [congruence|contradiction].
  - contradiction.
  - split; [split; auto|contradiction].
  - split; [split; [discriminate|contradiction]|]. intros _. eauto.
Qed.
