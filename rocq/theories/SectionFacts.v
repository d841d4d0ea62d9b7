(** Whole-section facts: building again (C61), byte order (C62), equal sections
    (C63), sizes (C64). *)
From Verif Require Export EmitWitness SectionSpec.

(** ** Building again *)

(** What reading and adding makes of a row, and of a function. *)
Definition again_row (o : sframe_options) (r : row) : row :=
  {| r_start := r_start r;
     r_offsets := match r_offsets r with
                  | None => None
                  | Some x =>
                      let w := wrap (offset_width r) in
                      Some match so_fixed_ra o, ro_ra x, ro_fp x with
                           | None, None, Some fp => {| ro_cfa := w (ro_cfa x); ro_ra := Some (w fp); ro_fp := None |}
                           | _, ra, fp => {| ro_cfa := w (ro_cfa x); ro_ra := option_map w ra; ro_fp := option_map w fp |}
                           end
                  end;
     r_mangled := r_mangled r; r_base := r_base r |}.

Lemma again_values o r : stored_values (again_row o r) = map (wrap (offset_width r)) (stored_values r).
Proof.
  unfold stored_values, again_row. cbn [r_offsets]. destruct (r_offsets r) as [[c ra fp]|]; [|reflexivity].
  cbn [ro_cfa ro_ra ro_fp]. destruct (so_fixed_ra o), ra, fp; reflexivity.
Qed.

Lemma wrap_small w v : w = 1 \/ w = 2 \/ w = 4 -> storable w v -> wrap w v = v.
Proof. intros Hw. apply (proj2 (wrap_id w v Hw)). Qed.


Lemma wrap_storable w v : w = 1 \/ w = 2 \/ w = 4 -> storable w (wrap w v).
Proof. intros Hw. unfold storable, wrap. apply as_s_range. lia. Qed.

Definition values_width (l : list Z) : Z :=
  match dominant l with
  | None => 1
  | Some m => if storableb 1 m then 1 else if storableb 2 m then 2 else 4
  end.

Lemma storableb_spec w v : storableb w v = true <-> storable w v.
Proof. unfold storableb, storable. rewrite andb_true_iff, Z.leb_le, Z.ltb_lt. reflexivity. Qed.

Lemma values_width_cases l : values_width l = 1 \/ values_width l = 2 \/ values_width l = 4.
Proof. unfold values_width. destruct (dominant l) as [m|]; auto. destruct (storableb 1 m), (storableb 2 m); auto. Qed.

Lemma map_wrap_id w l : w = 1 \/ w = 2 \/ w = 4 -> Forall (storable w) l -> map (wrap w) l = l.
Proof.
  intros Hw H. induction H as [|v t Hv Ht IH]; [reflexivity|]. cbn [map]. rewrite IH, wrap_small; auto.
Qed.

Lemma Forall_storable_dec w l : {Forall (storable w) l} + {exists v, In v l /\ ~ storable w v}.
Proof.
  induction l as [|v t [IH|IH]].
  - left. constructor.
  - destruct (storableb w v) eqn:E.
    + left. constructor; [apply storableb_spec, E|exact IH].
    + right. exists v. split; [left; reflexivity|]. intros H. apply storableb_spec in H. congruence.
  - right. destruct IH as (x & Hin & Hx). exists x. split; [right; exact Hin|exact Hx].
Qed.

Lemma values_width_wrap l : Forall in_i32 l -> values_width (map (wrap (values_width l)) l) = values_width l.
Proof.
  intros HF. pose proof (values_width_cases l) as Hc.
  destruct (Forall_storable_dec (values_width l) l) as [Ha|(v & Hin & Hv)];
    [rewrite map_wrap_id by assumption; reflexivity|].
  remember (values_width l) as w eqn:Ew. destruct Hc as [->|[->| ->]].
  - unfold values_width. pose proof (dominant_max (map (wrap 1) l)) as Hd.
    destruct (dominant (map (wrap 1) l)) as [m|]; [|reflexivity]. destruct Hd as [Hm _].
    apply in_map_iff in Hm. destruct Hm as (x & <- & _).
    replace (storableb 1 (wrap 1 x)) with true; [reflexivity|].
    symmetry. apply storableb_spec, wrap_storable. auto.
  - unfold values_width in *. pose proof (dominant_max l) as Hd. destruct (dominant l) as [m|]; [|discriminate].
    destruct Hd as [Hm Hmax]. destruct (storableb 1 m) eqn:E1; [discriminate|].
    destruct (storableb 2 m) eqn:E2; [|discriminate]. apply storableb_spec in E2.
    specialize (Hmax v Hin). assert (m = -32768) as -> by (unfold storable in *; cbn in *; lia).
    pose proof (dominant_max (map (wrap 2) l)) as Hd'.
    assert (Hm' : In (-32768) (map (wrap 2) l)).
    { apply in_map_iff. exists (-32768). split; [reflexivity|exact Hm]. }
    destruct (dominant (map (wrap 2) l)) as [m'|]; [|rewrite Hd' in Hm'; destruct Hm'].
    destruct Hd' as [Hin' Hmax']. specialize (Hmax' _ Hm').
    apply in_map_iff in Hin'. destruct Hin' as (x & <- & _).
    destruct (storableb 1 (wrap 2 x)) eqn:E1'.
    + apply storableb_spec in E1'. unfold storable in E1'. cbn in E1', Hmax'. lia.
    + replace (storableb 2 (wrap 2 x)) with true; [reflexivity|].
      symmetry. apply storableb_spec, wrap_storable. auto.
  - exfalso. apply Hv. rewrite Forall_forall in HF. specialize (HF v Hin).
    unfold in_i32, i32_min, i32_max, storable in *. cbn. lia.
Qed.

Lemma again_width o r : row_typed r -> offset_width (again_row o r) = offset_width r.
Proof.
  intros Ht. unfold offset_width at 1. rewrite again_values. apply (values_width_wrap (stored_values r)), stored_typed, Ht.
Qed.

Lemma addr_bytes_inj a b : addr_bytes a = addr_bytes b -> a = b.
Proof. destruct a, b; cbn; congruence. Qed.

Lemma again_type o r : row_typed r -> row_offset_type (again_row o r) = row_offset_type r.
Proof.
  intros Ht. apply addr_bytes_inj, Nat2Z.inj. rewrite <- !offset_width_type. apply again_width, Ht.
Qed.

Lemma as_s_same w z : 0 < w -> as_s w z mod 2 ^ w = z mod 2 ^ w.
Proof.
  intros Hw. unfold as_s. assert (0 < 2 ^ w) by (apply Z.pow_pos_nonneg; lia).
  destruct (z mod 2 ^ w <? 2 ^ (w - 1)); [apply Z.mod_mod; lia|].
  rewrite <- (Z.mod_add _ 1) by lia. rewrite Z.mul_1_l, Z.sub_add. apply Z.mod_mod. lia.
Qed.

Lemma enc_wrap e n v : (0 < n)%nat -> enc e n (wrap (Z.of_nat n) v) = enc e n v.
Proof.
  intros Hn. apply (dec_inj e); [rewrite !enc_length; reflexivity|]. rewrite !dec_enc. unfold wrap.
  replace (256 ^ Z.of_nat n) with (2 ^ (8 * Z.of_nat n)).
  - apply as_s_same. lia.
  - rewrite (Z.pow_mul_r 2 8) by lia. reflexivity.
Qed.

Lemma again_enc e aw o r : row_typed r -> row_enc e aw (again_row o r) = row_enc e aw r.
Proof.
  intros Ht. unfold row_enc, info_byte. rewrite again_type, again_values by exact Ht.
  cbn [again_row r_start r_mangled r_base]. unfold zlen. rewrite map_length. do 3 f_equal.
  rewrite map_map. apply map_ext. intros v. rewrite offset_width_type. apply enc_wrap.
  destruct (row_offset_type r); cbn; lia.
Qed.

Definition again_fdb (o : sframe_options) (b : fdb) : fdb :=
  fdb_set_fres (map (fun kr => (fst kr, again_row o (snd kr))) (fb_fres b)) b.
Definition again_sfb (s : sfb) : sfb :=
  {| sb_options := sb_options s;
     sb_fdes := map (fun kb => (fst kb, again_fdb (sb_options s) (snd kb))) (sb_fdes s) |}.

Lemma again_rows o b : rows_of (again_fdb o b) = map (again_row o) (rows_of b).
Proof. unfold rows_of, again_fdb. cbn [fb_fres fdb_set_fres]. rewrite !map_map. reflexivity. Qed.
Lemma again_fdes s : fdes_of (again_sfb s) = map (again_fdb (sb_options s)) (fdes_of s).
Proof. unfold fdes_of, again_sfb. cbn [sb_fdes]. rewrite !map_map. reflexivity. Qed.

Lemma bt_last_map {A B} (f : A -> B) (m : btree A) :
  bt_last (map (fun kr => (fst kr, f (snd kr))) m) = option_map (fun kr => (fst kr, f (snd kr))) (bt_last m).
Proof.
  induction m as [|kr t IH]; [reflexivity|]. destruct t; [reflexivity|]. cbn [map bt_last] in *. exact IH.
Qed.

Lemma again_max o b : max_offset (again_fdb o b) = max_offset b.
Proof.
  unfold max_offset, again_fdb. cbn [fb_fres fdb_set_fres]. rewrite bt_last_map.
  destruct (bt_last (fb_fres b)) as [[k r]|]; reflexivity.
Qed.

Lemma again_emit e o st b : fdb_wf b -> emit_fde e st (again_fdb o b) = emit_fde e st b.
Proof.
  intros W. unfold emit_fde. rewrite again_max. unfold fde_raw.
  assert (Hl : zlen (fb_fres (again_fdb o b)) = zlen (fb_fres b)).
  { unfold again_fdb, zlen. cbn [fb_fres fdb_set_fres]. rewrite map_length. reflexivity. }
  rewrite !Hl. unfold bt_values. change (map snd (fb_fres ?x)) with (rows_of x).
  destruct (negb (fits_u32 (zlen (es_fres st)))); [reflexivity|].
  destruct (@addr_type emit_error (max_offset b)) as [ty| |]; cbn [bind]; [|reflexivity|reflexivity].
  destruct (negb (fits_u32 (zlen (fb_fres b)))); [reflexivity|].
  rewrite !rows_bytes_eq. cbn [bind]. rewrite again_rows, map_map.
  assert (Hm : map (fun x => row_enc e (addr_bytes ty) (again_row o x)) (rows_of b) =
               map (row_enc e (addr_bytes ty)) (rows_of b)).
  { apply map_ext_in. intros r Hr. apply again_enc. destruct W. rewrite Forall_forall in *. apply bw_rows, Hr. }
  rewrite Hm. reflexivity.
Qed.

Lemma again_overlap {E} md o l : @has_overlap E md (map (again_fdb o) l) = has_overlap md l.
Proof.
  induction l as [|a [|b t] IH]; [reflexivity|reflexivity|].
  change (map (again_fdb o) (a :: b :: t)) with (again_fdb o a :: map (again_fdb o) (b :: t)).
  change (has_overlap md (a :: b :: t)) with
    (if debug_asserts md && negb (fb_start a <=? fb_start b) then Panic
     else let* d := @sub_i32 E md (fb_start b) (fb_start a) in
          if as_u 32 d <? fb_size a then Ok true else has_overlap md (b :: t)).
  rewrite <- IH. reflexivity.
Qed.

Lemma again_build md e s : sfb_wf s -> build md e (again_sfb s) = build md e s.
Proof.
  intros W. unfold build, bt_values. change (map snd (sb_fdes ?x)) with (fdes_of x).
  rewrite again_fdes, again_overlap. change (sb_options (again_sfb s)) with (sb_options s).
  replace (zlen (sb_fdes (again_sfb s))) with (zlen (sb_fdes s))
    by (unfold zlen, again_sfb; cbn [sb_fdes]; rewrite map_length; reflexivity).
  assert (He : forall l st, Forall fdb_wf l -> emit_fdes e st (map (again_fdb (sb_options s)) l) = emit_fdes e st l).
  { induction l as [|b t IH]; intros st HF; [reflexivity|]. inversion HF as [|? ? Hb Ht]. cbn [map emit_fdes].
    rewrite again_emit by exact Hb. destruct (emit_fde e st b) as [st'| |]; cbn [bind]; [|reflexivity|reflexivity].
    apply IH, Ht. }
  rewrite He by (apply wf_fdes, W). reflexivity.
Qed.

(** ** What a reader makes of a built section *)

Lemma options_read_built e s : sfb_wf s -> options_read (built_sf e s) = sb_options s.
Proof.
  intros W. unfold options_read. destruct (built_fixed e s W) as [-> ->]. destruct W as [[F A P R] _ _ _].
  unfold abi, flags, built_sf. cbn [sf_abi_arch sf_preamble pre_flags].
  destruct (sb_options s) as [fl ab fp ra]; cbn [so_flags so_abi so_fixed_fp so_fixed_ra] in *.
  unfold options_fixed_ra, options_fixed_fp, options_abi, options_frame_pointer.
  cbn [so_flags so_abi so_fixed_fp so_fixed_ra options_new].
  assert (Hz : forall v, fixed_wf v -> non_zero v = v).
  { intros [z|]; [|reflexivity]. cbn. intros [_ Hz]. destruct (Z.eqb_spec z 0); congruence. }
  rewrite !Hz by assumption. destruct F as [->| ->]; reflexivity.
Qed.

Lemma written_fields fr r : view_fre fr = written r ->
  fre_start_address_offset fr = r_start r /\ fre_cfa_base_reg_id fr = r_base r /\
  fre_mangled_ra_p fr = r_mangled r /\ fre_offsets fr = map (wrap (offset_width r)) (stored_values r).
Proof.
  unfold view_fre, written. intros H.
  assert (H1 := f_equal sr_start H). assert (H2 := f_equal sr_base_is_sp H).
  assert (H3 := f_equal sr_mangled H). assert (H4 := f_equal sr_offsets H).
  cbn in H1, H2, H3, H4. repeat split; auto. destruct (fre_cfa_base_reg_id fr), (r_base r); congruence.
Qed.

Lemma kept_read sf o r fr : fixed_ra_offset sf = so_fixed_ra o -> fixed_fp_offset sf = so_fixed_fp o ->
  normal o r -> made_invalid r -> view_fre fr = written r ->
  kept_row o (row_read sf fr) = again_row o r /\
  (forall x, r_offsets (row_read sf fr) = Some x ->
     agrees (so_fixed_ra o) (ro_ra x) /\ agrees (so_fixed_fp o) (ro_fp x)) /\
  r_start (row_read sf fr) = r_start r.
Proof.
  intros Hra Hfp Hn Hi Hv. destruct (written_fields _ _ Hv) as (Es & Eb & Em & Eo).
  unfold row_read, fre_cfa_offset, fre_ra_offset, fre_fp_offset. rewrite Hra, Hfp, Es, Eb, Em, Eo.
  unfold normal, made_invalid in *. destruct r as [st [[c ra fp]|] mg bs]; cbn [r_start r_offsets r_mangled r_base] in *.
  - destruct (Hn _ eq_refl) as [Nr Nf]. cbn [ro_ra ro_fp] in Nr, Nf.
    unfold stored_values. cbn [r_offsets ro_cfa ro_ra ro_fp].
    remember (wrap (offset_width _)) as w eqn:Ew.
    destruct (so_fixed_ra o) as [fr0|] eqn:Er, (so_fixed_fp o) as [ff|] eqn:Ef.
    all: try (rewrite (Nr ltac:(discriminate)) in * ); try (rewrite (Nf ltac:(discriminate)) in * ).
    all: try destruct ra as [ra|]; try destruct fp as [fp|].
    all: cbn [map app nth_error ok_or res row_new row_mangled_ra_p r_start r_offsets r_mangled r_base].
    all: unfold kept_row, again_row; cbn [r_start r_offsets r_mangled r_base ro_cfa ro_ra ro_fp]; rewrite ?Er, ?Ef, <- ?Ew;
      cbn [drop_fixed option_map].
    all: split; [reflexivity|split; [|reflexivity]].
    all: intros x [= <-]; cbn [ro_ra ro_fp]; unfold agrees; split; congruence.
  - rewrite (Hi eq_refl). cbn. split; [reflexivity|split; [discriminate|reflexivity]].
Qed.

Lemma insert_last {V} (pre : btree V) k v : sorted (pre ++ [(k, v)]) -> bt_insert k v pre = pre ++ [(k, v)].
Proof.
  induction pre as [|[k1 v1] pre IH]; intros Hs; cbn [app bt_insert]; [reflexivity|].
  assert (k1 < k).
  { unfold sorted, bt_keys in Hs. cbn [app map fst] in Hs. apply StronglySorted_inv in Hs. destruct Hs as [_ HF].
    rewrite Forall_forall in HF. apply HF. rewrite map_app. apply in_or_app. right. left. reflexivity. }
  replace (k <? k1) with false by (symmetry; apply Z.ltb_ge; lia).
  replace (k =? k1) with false by (symmetry; apply Z.eqb_neq; lia).
  f_equal. apply IH. unfold sorted, bt_keys in *. cbn [app map] in Hs. apply StronglySorted_inv in Hs. apply Hs.
Qed.

Lemma sorted_app_l {V} (a b : btree V) : sorted (a ++ b) -> sorted a.
Proof.
  unfold sorted, bt_keys. induction a as [|x a IH]; cbn [app map]; intros H; [constructor|].
  apply StronglySorted_inv in H. destruct H as [H HF]. constructor; [apply IH, H|].
  rewrite map_app in HF. apply Forall_app in HF. apply HF.
Qed.

Lemma add_rows_sorted o l : forall b, fb_options b = o -> fb_rep_size b = None -> keyed (fb_fres b) ->
  sorted (fb_fres b ++ map (fun r => (r_start r, kept_row o r)) l) ->
  Forall (fun r => r_start r < 0x10000000 /\ r_start r < fb_size b /\
            forall x, r_offsets r = Some x -> agrees (so_fixed_ra o) (ro_ra x) /\ agrees (so_fixed_fp o) (ro_fp x)) l ->
  add_rows b l = Ok (fdb_set_fres (fb_fres b ++ map (fun r => (r_start r, kept_row o r)) l) b).
Proof.
  induction l as [|r t IH]; intros b Ho Hr Hk Hs HF; cbn [add_rows map].
  - rewrite app_nil_r. destruct b; reflexivity.
  - inversion HF as [|? ? (H1 & H2 & H3) Ht]; subst.
    cbn [map] in Hs. change (?a ++ ?x :: ?t) with (a ++ [x] ++ t) in Hs. rewrite app_assoc in Hs.
    assert (Hrow : fdb_row b r = Ok (fdb_set_fres (fb_fres b ++ [(r_start r, kept_row (fb_options b) r)]) b)).
    { apply fdb_row_ok; [apply (sorted_app_l _ _ (sorted_app_l _ _ Hs))|exact Hk|]. split.
      - apply conditions_unfold. split; [exact H1|]. split; [congruence|]. split; [exact H2|].
        split; [intros x Hx; apply (H3 x Hx)|]. split; [intros x Hx; apply (H3 x Hx)|].
        intros r' Hin. unfold rows_of in Hin. apply in_map_iff in Hin. destruct Hin as ([k' x'] & <- & Hin).
        cbn [snd]. rewrite <- (Hk _ _ Hin). apply sorted_app_l in Hs.
        unfold sorted, bt_keys in Hs. rewrite map_app in Hs.
        assert (HS : forall A (a : list A) R y x, StronglySorted R (a ++ [y]) -> In x a -> R x y).
        { clear. intros A a R y x. induction a as [|z a IH]; cbn [app]; intros H []; apply StronglySorted_inv in H; destruct H as [H HF].
          - subst. rewrite Forall_forall in HF. apply HF, in_or_app. right. left. reflexivity.
          - apply IH; assumption. }
        assert (Hlt : k' < r_start r).
        { apply (HS _ _ _ _ k' Hs). apply in_map_iff. exists (k', x'). auto. }
        lia.
      - rewrite insert_last; [reflexivity|]. apply (sorted_app_l _ _ Hs). }
    rewrite Hrow. cbn [bind]. rewrite IH; cbn [fb_options fb_rep_size fb_fres fb_size fdb_set_fres].
    + rewrite <- app_assoc. reflexivity.
    + reflexivity.
    + exact Hr.
    + intros k x Hin. apply in_app_or in Hin. destruct Hin as [Hin|[[= <- <-]|[]]]; [apply Hk, Hin|reflexivity].
    + exact Hs.
    + exact Ht.
Qed.

Lemma good_rows_inl l : good_rows (map inl l) = Some l.
Proof. induction l as [|x t IH]; cbn [map good_rows]; [reflexivity|]. rewrite IH. reflexivity. Qed.

Lemma nth_in_wf s i b : sfb_wf s -> nth_error (fdes_of s) i = Some b ->
  fdb_wf b /\ fb_options b = sb_options s /\ In b (fdes_of s).
Proof. intros W H. destruct (in_fdes_wf s i b W H). split; [assumption|]. split; [assumption|]. apply (nth_error_In _ _ H). Qed.

Lemma keyed_map m : keyed m -> map (fun r => (r_start r, r)) (map snd m) = m.
Proof.
  induction m as [|[k r] t IH]; intros Hk; [reflexivity|]. cbn [map snd].
  rewrite IH by (intros k' r' Hin; apply Hk; right; exact Hin).
  rewrite <- (Hk k r ltac:(left; reflexivity)). reflexivity.
Qed.

Lemma fdb_read_built md e s i b : wf_mode md -> sfb_wf s -> ~ too_large s -> nth_error (fdes_of s) i = Some b ->
  rows_inside b -> (forall r, In r (rows_of b) -> made_invalid r) ->
  fdb_read md e (built_sf e s) (built_entry e s i b) = Some (again_fdb (sb_options s) b).
Proof.
  intros Hmd W Hsz Hnth Hin Hinv. destruct (nth_in_wf s i b W Hnth) as (Wb & Ho & Hb).
  destruct (proj1 (built_rows md e s i b Hmd W Hsz Hnth) Hin) as (good & Hg & Hf).
  unfold fdb_read. rewrite Hg. cbn [res]. rewrite good_rows_inl, options_read_built by exact W.
  destruct (built_same e s i b) as (E1 & E2 & E3 & E4 & E5 & _). rewrite E1, E2, E3, E4, E5.
  destruct (built_fixed e s W) as [Hra Hfp].
  assert (Hall : Forall2 (fun r fr => kept_row (sb_options s) (row_read (built_sf e s) fr) = again_row (sb_options s) r /\
     (forall x, r_offsets (row_read (built_sf e s) fr) = Some x ->
       agrees (so_fixed_ra (sb_options s)) (ro_ra x) /\ agrees (so_fixed_fp (sb_options s)) (ro_fp x)) /\
     r_start (row_read (built_sf e s) fr) = r_start r) (rows_of b) good).
  { destruct Wb as [_ _ _ _ _ _ HR]. rewrite Ho in HR. clear - Hf HR Hinv Hra Hfp.
    induction Hf as [|r fr l l' Hv _ IH]; [constructor|]. pose proof (Forall_inv HR) as Hr. pose proof (Forall_inv_tail HR) as Ht. constructor.
    - apply kept_read; auto; [apply Hr|apply Hinv; left; reflexivity].
    - apply IH; [intros z Hz; apply Hinv; right; exact Hz|exact Ht]. }
  set (sf := built_sf e s) in *. set (o := sb_options s) in *.
  assert (Hmap : map (fun r => (r_start r, kept_row o r)) (map (row_read sf) good) =
                 map (fun kr => (fst kr, again_row o (snd kr))) (fb_fres b)).
  { rewrite <- (keyed_map (fb_fres b)) by apply Wb. change (map snd (fb_fres b)) with (rows_of b).
    rewrite !map_map. cbn [fst snd]. clear - Hall. induction Hall as [|r fr l l' (H1 & _ & H2) _ IH]; [reflexivity|].
    cbn [map]. rewrite H1, H2, IH. reflexivity. }
  assert (HF : Forall (fun r => r_start r < 0x10000000 /\ r_start r < fb_size b /\
     forall x, r_offsets r = Some x -> agrees (so_fixed_ra o) (ro_ra x) /\ agrees (so_fixed_fp o) (ro_fp x))
     (map (row_read sf) good)).
  { destruct Wb as [_ _ _ _ _ _ HR]. unfold rows_inside in Hin. clear - Hall HR Hin.
    induction Hall as [|r fr l l' (_ & H1 & H2) _ IH]; cbn [map]; [constructor|].
    inversion HR as [|? ? [_ Hs _] Ht]. inversion Hin as [|? ? Hi1 Hi2]. constructor; [|apply IH; assumption].
    rewrite H2. split; [exact Hs|]. split; [exact Hi1|exact H1]. }
  set (b0 := fdb_set_pauth (fb_pauth b) (fdb_new o (fb_start b) (fb_size b))).
  rewrite (add_rows_sorted o _ b0); cycle 1.
  - reflexivity.
  - reflexivity.
  - intros ? ? [].
  - cbn [b0 fb_fres fdb_set_pauth fdb_new app]. rewrite Hmap. unfold sorted, bt_keys. rewrite map_map. cbn [fst]. apply Wb.
  - exact HF.
  - unfold pub_type. cbn [b0 fb_fres fdb_set_pauth fdb_new app]. rewrite Hmap.
    unfold again_fdb, b0, fdb_set_fres, fdb_pcmask, fdb_set_pauth, fdb_new. cbn.
    rewrite Ho. destruct (fb_rep_size b); reflexivity.
Qed.

Lemma fdes_read_built md e sf o : forall l ens s', sb_options s' = o ->
  Forall2 (fun b en => fdb_read md e sf en = Some (again_fdb o b) /\ fb_options b = o) (map snd l) ens ->
  fkeyed l -> sorted (sb_fdes s' ++ map (fun kb => (fst kb, again_fdb o (snd kb))) l) ->
  fdes_read md e sf ens s' = Some {| sb_options := o; sb_fdes := sb_fdes s' ++ map (fun kb => (fst kb, again_fdb o (snd kb))) l |}.
Proof.
  induction l as [|[k b] t IH]; intros ens s' Ho HF Hk Hs.
  - inversion HF. cbn [map fdes_read]. rewrite app_nil_r, <- Ho. destruct s'; reflexivity.
  - cbn [map snd] in HF. inversion HF as [|? en ? ens' [Hr Hb] Ht]; subst. cbn [fdes_read]. rewrite Hr.
    unfold sfb_fde. cbn [again_fdb fdb_set_fres fb_options fb_start].
    replace (options_eqb (sb_options s') (fb_options b)) with true by (symmetry; apply options_eqb_spec; congruence).
    rewrite <- (Hk k b ltac:(left; reflexivity)).
    cbn [map fst snd] in Hs. change (?a ++ ?x :: ?t) with (a ++ [x] ++ t) in Hs. rewrite app_assoc in Hs.
    rewrite insert_last by apply (sorted_app_l _ _ Hs).
    rewrite IH; cbn [sb_options sb_fdes]; [rewrite <- app_assoc; reflexivity|reflexivity|exact Ht| |exact Hs].
    intros k' b' Hin. apply Hk. right. exact Hin.
Qed.

Lemma section_read_built md e s : wf_mode md -> sfb_wf s -> ~ too_large s ->
  Forall rows_inside (fdes_of s) -> (forall b r, In b (fdes_of s) -> In r (rows_of b) -> made_invalid r) ->
  section_read md e (built_sf e s) = Some (again_sfb s).
Proof.
  intros Hmd W Hsz Hin Hinv. unfold section_read. rewrite options_read_built by exact W.
  rewrite (fdes_read_built md e (built_sf e s) (sb_options s) (sb_fdes s)); cbn [sfb_new sb_options sb_fdes app].
  - reflexivity.
  - reflexivity.
  - change (map snd (sb_fdes s)) with (fdes_of s). destruct (built_entries e s W Hsz) as [Hl Hn].
    apply Forall2_nth; [exact Hl|]. intros i b Hi. exists (built_entry e s i b). split; [apply Hn, Hi|].
    destruct (nth_in_wf s i b W Hi) as (_ & Ho & Hb). split; [|exact Ho].
    apply fdb_read_built; auto; [rewrite Forall_forall in Hin; apply Hin, Hb|]. intros r Hr. apply (Hinv b r Hb Hr).
  - apply W.
  - unfold sorted, bt_keys. rewrite map_map. cbn [fst]. apply W.
Qed.

Theorem section_rebuilt md md' e s bs : sfb_reach md s -> build md e s = Ok bs ->
  wf_mode md' -> rust_slice md' bs -> Forall rows_inside (fdes_of s) ->
  (forall b r, In b (fdes_of s) -> In r (rows_of b) -> made_invalid r) ->
  exists sf s', load md' e bs = Ok sf /\ section_read md' e sf = Some s' /\
    build md e s' = Ok bs.
Proof.
  intros Hr Hb Hmd Hsl Hin Hinv. pose proof (sfb_reach_wf _ _ Hr) as W.
  destruct (build_cases md e s W) as [(E & _)|[(E & _)|(_ & _ & [[_ E]|[Hsz E]])]]; rewrite E in Hb; try discriminate.
  assert (Hbs : bs = image e s) by congruence. subst bs. exists (built_sf e s), (again_sfb s).
  split; [apply image_loads; assumption|]. split; [apply section_read_built; assumption|].
  rewrite again_build by exact W. exact E.
Qed.

(** ** Byte order *)

Lemma build_class md e e' s : sfb_wf s ->
  match build md e s with
  | Ok bs => exists bs', build md e' s = Ok bs' /\ zlen bs' = zlen bs
  | Err er => build md e' s = Err er
  | Panic => build md e' s = Panic
  end.
Proof.
  intros W. destruct (@has_overlap emit_error md (fdes_of s)) as [[|]|er|] eqn:Eo.
  - unfold build, bt_values. change (map snd (sb_fdes s)) with (fdes_of s). rewrite Eo. reflexivity.
  - destruct (build_emit md e s W Eo) as [H1 H2]. destruct (build_emit md e' s W Eo) as [H1' H2'].
    assert (Hd : too_large s \/ ~ too_large s) by (unfold too_large; lia). destruct Hd as [Hd|Hd].
    + rewrite H2, H2' by exact Hd. reflexivity.
    + rewrite H1, H1' by exact Hd. exists (image e' s). split; [reflexivity|]. rewrite !image_zlen by exact W. reflexivity.
  - unfold build, bt_values. change (map snd (sb_fdes s)) with (fdes_of s). rewrite Eo. reflexivity.
  - unfold build, bt_values. change (map snd (sb_fdes s)) with (fdes_of s). rewrite Eo. reflexivity.
Qed.

Lemma observed_ext sf sf' fr fr' : fixed_ra_offset sf = fixed_ra_offset sf' -> fixed_fp_offset sf = fixed_fp_offset sf' ->
  view_fre fr = view_fre fr' -> observed sf fr = observed sf' fr'.
Proof.
  intros Hr Hf Hv. unfold observed, fre_cfa_offset, fre_ra_offset, fre_fp_offset. rewrite Hr, Hf.
  assert (H2 := f_equal sr_base_is_sp Hv). assert (H3 := f_equal sr_mangled Hv). assert (H4 := f_equal sr_offsets Hv).
  cbn in H2, H3, H4. rewrite H3, H4.
  replace (fre_cfa_base_reg_id fr) with (fre_cfa_base_reg_id fr'); [reflexivity|].
  destruct (fre_cfa_base_reg_id fr), (fre_cfa_base_reg_id fr'); congruence.
Qed.

Lemma built_order md e e' s : wf_mode md -> sfb_wf s -> ~ too_large s ->
  same_shown md e e' (built_sf e s) (built_sf e' s).
Proof.
  intros Hmd W Hsz. unfold same_shown.
  destruct (built_fixed e s W) as [Hr Hf]. destruct (built_fixed e' s W) as [Hr' Hf'].
  repeat (split; [reflexivity|]).
  destruct (built_entries e s W Hsz) as [HL HN]. destruct (built_entries e' s W Hsz) as [HL' HN'].
  apply Forall2_nth; [congruence|]. intros i en Hi.
  destruct (nth_error (fdes_of s) i) as [b|] eqn:Eb.
  2:{ apply nth_error_None in Eb. rewrite <- HL in Eb. apply nth_error_None in Eb. congruence. }
  exists (built_entry e' s i b). split; [apply HN', Eb|]. rewrite (HN i b Eb) in Hi.
  assert (en = built_entry e s i b) as -> by congruence. split; [reflexivity|].
  destruct (built_rows md e s i b Hmd W Hsz Eb) as [H1 H2].
  destruct (built_rows md e' s i b Hmd W Hsz Eb) as [H1' H2'].
  destruct (rows_inside_dec b) as [Hin|Hex].
  - left. destruct (H1 Hin) as (g & Hg & HF). destruct (H1' Hin) as (g' & Hg' & HF').
    exists (map (fun fr => (view_fre fr, observed (built_sf e s) fr)) g). split; [exists g; auto|].
    exists g'. split; [exact Hg'|]. clear - HF HF' Hr Hr' Hf Hf'. revert g g' HF HF'.
    induction (rows_of b) as [|r l IH]; intros g g' HF HF'; inversion HF as [|? fr ? t Hv Ht]; inversion HF' as [|? fr' ? t' Hv' Ht']; subst; [reflexivity|].
    cbn [map]. f_equal; [|apply IH; assumption].
    f_equal; [congruence|]. apply observed_ext; congruence.
  - right. assert (Hn : ~ rows_inside b).
    { intros Hin. unfold rows_inside in Hin. apply Exists_exists in Hex. destruct Hex as (r & Hrin & Hle).
      rewrite Forall_forall in Hin. specialize (Hin r Hrin). lia. }
    split; [apply H2, Hn|apply H2', Hn].
Qed.

Theorem byte_order md md' e e' s : sfb_reach md s -> wf_mode md' ->
  (forall er, build md e s = Err er <-> build md e' s = Err er) /\
  (build md e s = Panic <-> build md e' s = Panic) /\
  (forall bs, build md e s = Ok bs -> rust_slice md' bs ->
     exists bs' sf sf', build md e' s = Ok bs' /\ zlen bs' = zlen bs /\
       load md' e bs = Ok sf /\ load md' e' bs' = Ok sf' /\ same_shown md' e e' sf sf').
Proof.
  intros Hr Hmd. pose proof (sfb_reach_wf _ _ Hr) as W.
  pose proof (build_class md e e' s W) as H. pose proof (build_class md e' e s W) as H'.
  split; [|split].
  - intros er. split; intros E; [rewrite E in H; exact H|rewrite E in H'; exact H'].
  - split; intros E; [rewrite E in H; exact H|rewrite E in H'; exact H'].
  - intros bs E Hsl.
    destruct (build_cases md e s W) as [(C & _)|[(C & _)|(_ & _ & [[_ C]|[Hsz C]])]]; rewrite C in E; try discriminate.
    assert (Hbs : bs = image e s) by congruence. subst bs. rewrite C in H. destruct H as (bs' & Eb & HL).
    destruct (build_cases md e' s W) as [(C' & _)|[(C' & _)|(_ & _ & [[_ C']|[_ C']])]]; rewrite C' in Eb; try discriminate.
    assert (Hbs : bs' = image e' s) by congruence. subst bs'.
    exists (image e' s), (built_sf e s), (built_sf e' s). split; [exact C'|]. split; [exact HL|].
    split; [apply image_loads; assumption|]. split; [apply image_loads; try assumption|apply built_order; assumption].
    unfold rust_slice in *. rewrite HL. exact Hsl.
Qed.

(** ** Equal sections *)

Lemma fixed_inj a b : fixed_wf a -> fixed_wf b -> opt_or_zero a = opt_or_zero b -> a = b.
Proof. intros Ha Hb H. rewrite <- (fixed_back a Ha), <- (fixed_back b Hb), H. reflexivity. Qed.

Lemma app_inj_len {A} (a b c d : list A) : length a = length c -> a ++ b = c ++ d -> a = c /\ b = d.
Proof.
  revert c. induction a as [|x a IH]; intros [|y c] HL H; cbn in HL; try discriminate; [auto|].
  cbn in H. inversion H; subst. destruct (IH c ltac:(lia) H2) as [-> ->]. auto.
Qed.

Lemma concat_inj_len (n : nat) (a b : list bytes) r r' : length a = length b ->
  Forall (fun c => length c = n) a -> Forall (fun c => length c = n) b ->
  concat a ++ r = concat b ++ r' -> a = b /\ r = r'.
Proof.
  revert b. induction a as [|x a IH]; intros [|y b] HL Ha Hb H; cbn in HL; try discriminate; [auto|].
  cbn [concat] in H. rewrite <- !app_assoc in H. inversion Ha as [|? ? Hx Ha']. inversion Hb as [|? ? Hy Hb'].
  assert (Hxy : length x = length y) by congruence.
  destruct (app_inj_len _ _ _ _ Hxy H) as [-> H']. destruct (IH b ltac:(lia) Ha' Hb' H') as [-> ->]. auto.
Qed.

Lemma spec_row_det e aw bs r r' rest rest' :
  spec_row_at e aw bs r rest -> spec_row_at e aw bs r' rest' -> r = r' /\ rest = rest'.
Proof.
  intros (st & inf & ow & ch & E & L & S & B & M & Wd & F & N & _ & O)
         (st' & inf' & ow' & ch' & E' & L' & S' & B' & M' & Wd' & F' & N' & _ & O').
  rewrite E in E'. unfold zlen in *.
  assert (Hst : length st = length st') by lia.
  destruct (app_inj_len _ _ _ _ Hst E') as [-> E2]. cbn [app] in E2. inversion E2 as [[Ei E3]]. subst inf'.
  assert (ow' = ow) by congruence. subst ow'.
  destruct (concat_inj_len (Z.to_nat ow) ch ch' rest rest') as [-> ->]; [lia| | |exact E3|].
  - eapply Forall_impl; [|exact F]. cbn. intros c Hc. lia.
  - eapply Forall_impl; [|exact F']. cbn. intros c Hc. lia.
  - split; [|reflexivity]. destruct r, r'; cbn in *. congruence.
Qed.

Lemma spec_rows_det e aw l : forall l' bs rest rest', length l = length l' ->
  spec_rows_at e aw bs l rest -> spec_rows_at e aw bs l' rest' -> l = l' /\ rest = rest'.
Proof.
  induction l as [|r t IH]; intros [|r' t'] bs rest rest' HL H H'; cbn in HL; try discriminate.
  - cbn in *. split; congruence.
  - destruct H as (mid & H1 & H2), H' as (mid' & H1' & H2').
    destruct (spec_row_det _ _ _ _ _ _ _ H1 H1') as [-> ->].
    destruct (IH t' _ _ _ ltac:(lia) H2 H2') as [-> ->]. auto.
Qed.

Lemma fde_info_inj b b' : fde_info_byte b = fde_info_byte b' ->
  fb_pauth b = fb_pauth b' /\ (fb_rep_size b = None <-> fb_rep_size b' = None) /\ start_size b = start_size b'.
Proof.
  unfold fde_info_byte, fdb_fdetype. destruct (fb_pauth b), (fb_pauth b'), (fb_rep_size b), (fb_rep_size b'), (start_size b), (start_size b');
    cbn; intros H; try (exfalso; revert H; vm_compute; discriminate); repeat split; congruence.
Qed.

Lemma image_inj e s s' : sfb_wf s -> sfb_wf s' -> ~ too_large s -> ~ too_large s' ->
  image e s = image e s' -> sb_options s = sb_options s' /\ Forall2 same_content (fdes_of s) (fdes_of s').
Proof.
  intros W W' Hsz Hsz' H.
  assert (HL : built_sf e s = built_sf e s').
  { assert (Hs : rust_slice rel64 (image e s)).
    { unfold rust_slice. rewrite image_zlen by exact W. unfold too_large, fre_size in *.
      change (usize_bits rel64) with 64. unfold u32_max in *. lia. }
    pose proof (image_loads rel64 e s wf_rel64 W Hsz Hs) as H1. rewrite H in H1, Hs.
    pose proof (image_loads rel64 e s' wf_rel64 W' Hsz' Hs) as H2. congruence. }
  assert (Ho : sb_options s = sb_options s').
  { assert (H1 := f_equal flags HL). assert (H2 := f_equal abi HL).
    assert (H3 := f_equal sf_fixed_fp HL). assert (H4 := f_equal sf_fixed_ra HL). unfold flags, abi in *. cbn in H1, H2, H3, H4.
    destruct W as [[_ _ P R] _ _ _], W' as [[_ _ P' R'] _ _ _].
    apply (fixed_inj _ _ P P') in H3. apply (fixed_inj _ _ R R') in H4.
    destruct (sb_options s), (sb_options s'); cbn in *. congruence. }
  split; [exact Ho|].
  assert (HF : raws 0 (fdes_of s) = raws 0 (fdes_of s')) by (assert (H1 := f_equal sf_fdes HL); cbn in H1; congruence).
  assert (HR : rows_enc e (fdes_of s) = rows_enc e (fdes_of s')) by apply (f_equal sf_fres HL).
  assert (Hlen : length (fdes_of s') = length (fdes_of s)) by (rewrite <- (raws_length 0 (fdes_of s)), HF; symmetry; apply raws_length).
  apply Forall2_nth; [exact Hlen|]. intros i b Hi.
  destruct (nth_error (fdes_of s') i) as [b'|] eqn:Hi'.
  2:{ apply nth_error_None in Hi'. rewrite Hlen in Hi'. apply nth_error_None in Hi'. congruence. }
  exists b'. split; [reflexivity|].
  pose proof (raws_nth _ 0 i b Hi) as H1. pose proof (raws_nth _ 0 i b' Hi') as H2. rewrite HF, H2 in H1.
  apply some_inj in H1. destruct (nth_in_wf s i b W Hi) as (Wb & _ & _). destruct (nth_in_wf s' i b' W' Hi') as (Wb' & _ & _).
  assert (E1 := f_equal f2_start_address H1). assert (E2 := f_equal f2_size H1). assert (E3 := f_equal f2_start_fre_off H1).
  assert (E4 := f_equal f2_num_fres H1). assert (E5 := f_equal f2_info H1). assert (E6 := f_equal f2_rep_size H1).
  rewrite !fde_raw_info in E5. cbn [fde_raw f2_start_address f2_size f2_start_fre_off f2_num_fres f2_rep_size] in E1, E2, E3, E4, E6.
  destruct (fde_info_inj _ _ E5) as (P1 & P2 & P3). rewrite !rows_of_len in E4.
  unfold same_content. split; [congruence|]. split; [congruence|]. split; [congruence|]. split.
  - destruct (fb_rep_size b), (fb_rep_size b'); try congruence; exfalso.
    + assert (@Some Z z = None) by (apply P2; reflexivity). discriminate.
    + assert (@Some Z z = None) by (apply P2; reflexivity). discriminate.
  - pose proof (rows_enc_spec e _ _ (rows_enc e (skipn (S i) (fdes_of s))) (starts_fit b Wb)) as S1.
    pose proof (rows_enc_spec e _ _ (rows_enc e (skipn (S i) (fdes_of s'))) (starts_fit b' Wb')) as S2.
    fold (fde_enc e b) in S1. fold (fde_enc e b') in S2.
    rewrite <- (rows_enc_skip e _ i b (wf_fdes s W) Hi) in S1.
    rewrite <- (rows_enc_skip e _ i b' (wf_fdes s' W') Hi') in S2.
    rewrite <- HR in S2. replace (rows_off (fdes_of s') i) with (rows_off (fdes_of s) i) in S2 by lia.
    rewrite P3 in S2. 
    apply (spec_rows_det _ _ _ _ _ _ _) with (2 := S1) (3 := S2). rewrite !map_length. unfold zlen in E4. lia.
Qed.

(** The converse: the same contents give the same bytes. *)

Lemma written_enc e aw r r' : row_typed r -> row_typed r' -> written r = written r' -> row_enc e aw r = row_enc e aw r'.
Proof.
  intros T T' H. assert (H1 := f_equal sr_start H). assert (H2 := f_equal sr_base_is_sp H).
  assert (H3 := f_equal sr_mangled H). assert (H4 := f_equal sr_offsets H). cbn in H1, H2, H3, H4.
  assert (Hw : offset_width r = offset_width r').
  { pose proof (values_width_wrap (stored_values r) (stored_typed r T)) as V.
    pose proof (values_width_wrap (stored_values r') (stored_typed r' T')) as V'.
    change (values_width (stored_values r)) with (offset_width r) in V.
    change (values_width (stored_values r')) with (offset_width r') in V'. congruence. }
  assert (Ht : row_offset_type r = row_offset_type r').
  { apply addr_bytes_inj, Nat2Z.inj. rewrite <- !offset_width_type. exact Hw. }
  assert (Hc : zlen (stored_values r) = zlen (stored_values r')).
  { assert (HL := f_equal (@length Z) H4). rewrite !map_length in HL. unfold zlen. congruence. }
  assert (Hb : r_base r = r_base r') by (destruct (r_base r), (r_base r'); congruence).
  unfold row_enc, info_byte. rewrite H1, H3, Hb, Hc, Ht. do 3 f_equal.
  assert (HE : forall x, map (enc e (addr_bytes (row_offset_type x))) (stored_values x) =
     map (enc e (addr_bytes (row_offset_type x))) (map (wrap (offset_width x)) (stored_values x))).
  { intros x. rewrite map_map. apply map_ext. intros v. rewrite offset_width_type. symmetry. apply enc_wrap.
    destruct (row_offset_type x); cbn; lia. }
  rewrite (HE r'), <- H4, <- Ht, <- HE. reflexivity.
Qed.

Lemma written_start r r' : written r = written r' -> r_start r = r_start r'.
Proof. intros H. apply (f_equal sr_start H). Qed.

Lemma map_written_starts l l' : map written l = map written l' -> map r_start l = map r_start l'.
Proof.
  revert l'. induction l as [|r t IH]; intros [|r' t'] H; try discriminate; [reflexivity|]. cbn [map] in *.
  rewrite (IH t') by congruence. f_equal. apply written_start. congruence.
Qed.

Lemma map_written_enc e aw l l' : Forall row_typed l -> Forall row_typed l' -> map written l = map written l' ->
  map (row_enc e aw) l = map (row_enc e aw) l'.
Proof.
  intros H. revert l'. induction H as [|r t Hr _ IH]; intros [|r' t'] H' HE; try discriminate; [reflexivity|].
  cbn [map] in *. inversion H' as [|? ? Hr' Ht']. rewrite (IH t' Ht') by congruence. f_equal.
  apply written_enc; [exact Hr|exact Hr'|congruence].
Qed.

Lemma wf_typed b : fdb_wf b -> Forall row_typed (rows_of b).
Proof. intros W. eapply Forall_impl; [|apply W]. intros r [H _ _]. exact H. Qed.

Lemma content_max b b' : fdb_wf b -> fdb_wf b' -> same_content b b' -> max_offset b = max_offset b'.
Proof.
  intros W W' (_ & _ & _ & _ & H). rewrite <- !max_offset_max by assumption.
  rewrite (map_written_starts _ _ H). reflexivity.
Qed.

Lemma content_raw b b' ty off : zlen (fb_fres b) = zlen (fb_fres b') -> same_content b b' ->
  fde_raw b ty off = fde_raw b' ty off.
Proof.
  intros HL (H1 & H2 & H3 & H4 & _). unfold fde_raw, fdb_fdetype. rewrite H1, H2, H3, H4, HL. reflexivity.
Qed.

Lemma content_len b b' : same_content b b' -> zlen (fb_fres b) = zlen (fb_fres b').
Proof.
  intros (_ & _ & _ & _ & H). rewrite !rows_of_len. assert (HL := f_equal (@length spec_row) H).
  rewrite !map_length in HL. unfold zlen. congruence.
Qed.

Lemma content_emit e st b b' : fdb_wf b -> fdb_wf b' -> same_content b b' -> emit_fde e st b = emit_fde e st b'.
Proof.
  intros W W' C. unfold emit_fde. rewrite (content_max b b' W W' C), (content_len b b' C).
  destruct (negb (fits_u32 (zlen (es_fres st)))); [reflexivity|].
  destruct (@addr_type emit_error (max_offset b')) as [ty| |]; cbn [bind]; [|reflexivity|reflexivity].
  rewrite (content_raw b b' ty _ (content_len b b' C) C). unfold bt_values. change (map snd (fb_fres ?x)) with (rows_of x).
  rewrite !rows_bytes_eq. rewrite (map_written_enc e (addr_bytes ty) (rows_of b) (rows_of b')); [reflexivity| | |apply C].
  - apply wf_typed, W.
  - apply wf_typed, W'.
Qed.

Lemma content_emits e l l' : Forall fdb_wf l -> Forall fdb_wf l' -> Forall2 same_content l l' ->
  forall st, emit_fdes e st l = emit_fdes e st l'.
Proof.
  intros W W' H. induction H as [|b b' t t' Hb _ IH]; intros st; [reflexivity|]. cbn [emit_fdes].
  inversion W as [|? ? Wb Wt]. inversion W' as [|? ? Wb' Wt'].
  rewrite (content_emit e st b b' Wb Wb' Hb). destruct (emit_fde e st b') as [st'| |]; cbn [bind]; [|reflexivity|reflexivity].
  apply IH; assumption.
Qed.

Lemma content_overlap {E} md l l' : Forall2 same_content l l' -> @has_overlap E md l = has_overlap md l'.
Proof.
  intros H. induction H as [|a a' t t' Ha Ht IH]; [reflexivity|]. destruct Ht as [|b b' u u' Hb Hu]; [reflexivity|].
  change (has_overlap md (a :: b :: u)) with
    (if debug_asserts md && negb (fb_start a <=? fb_start b) then Panic
     else let* d := @sub_i32 E md (fb_start b) (fb_start a) in
          if as_u 32 d <? fb_size a then Ok true else has_overlap md (b :: u)).
  change (has_overlap md (a' :: b' :: u')) with
    (if debug_asserts md && negb (fb_start a' <=? fb_start b') then Panic
     else let* d := @sub_i32 E md (fb_start b') (fb_start a') in
          if as_u 32 d <? fb_size a' then Ok true else has_overlap md (b' :: u')).
  rewrite IH. destruct Ha as (-> & -> & _), Hb as (-> & _). reflexivity.
Qed.

Lemma content_build md e s s' : sfb_wf s -> sfb_wf s' -> sb_options s = sb_options s' ->
  Forall2 same_content (fdes_of s) (fdes_of s') -> build md e s = build md e s'.
Proof.
  intros W W' Ho H. unfold build, bt_values. change (map snd (sb_fdes ?x)) with (fdes_of x).
  rewrite (content_overlap md _ _ H), Ho.
  replace (zlen (sb_fdes s)) with (zlen (sb_fdes s')).
  2:{ assert (HL : length (fdes_of s) = length (fdes_of s')) by (clear - H; induction H; cbn; congruence).
      unfold fdes_of in HL. rewrite !map_length in HL. unfold zlen. congruence. }
  destruct (has_overlap md (fdes_of s')) as [[|]| |]; cbn [bind]; try reflexivity.
  rewrite (content_emits e _ _ (wf_fdes s W) (wf_fdes s' W') H). reflexivity.
Qed.

Lemma built_image md e s bs : sfb_wf s -> build md e s = Ok bs -> ~ too_large s /\ bs = image e s.
Proof.
  intros W E.
  destruct (build_cases md e s W) as [(C & _)|[(C & _)|(_ & _ & [[_ C]|[Hsz C]])]]; rewrite C in E; try discriminate.
  split; [exact Hsz|]. congruence.
Qed.

Theorem same_bytes md md' e s s' bs bs' : sfb_reach md s -> sfb_reach md' s' ->
  build md e s = Ok bs -> build md' e s' = Ok bs' ->
  (bs = bs' <-> sb_options s = sb_options s' /\ Forall2 same_content (fdes_of s) (fdes_of s')).
Proof.
  intros Hr Hr' B B'. pose proof (sfb_reach_wf _ _ Hr) as W. pose proof (sfb_reach_wf _ _ Hr') as W'.
  destruct (built_image _ _ _ _ W B) as [Hsz ->]. destruct (built_image _ _ _ _ W' B') as [Hsz' ->]. split.
  - apply image_inj; assumption.
  - intros [Ho HF]. rewrite (content_build md e s s' W W' Ho HF) in B.
    destruct (built_image _ _ _ _ W' B) as [_ E]. exact E.
Qed.

(** Without tied and ambiguous rows nothing is lost at all. *)

Lemma written_inj o r r' : row_typed r -> row_typed r' -> normal o r -> normal o r' ->
  ~ tied r -> ~ tied r' -> ~ ambiguous o r -> ~ ambiguous o r' -> written r = written r' -> r = r'.
Proof.
  intros T T' N N' Ti Ti' A A' H. assert (H1 := f_equal sr_start H). assert (H2 := f_equal sr_base_is_sp H).
  assert (H3 := f_equal sr_mangled H). assert (H4 := f_equal sr_offsets H). cbn in H1, H2, H3, H4.
  apply (proj2 (width_untied r T)) in Ti. apply (proj2 (width_untied r' T')) in Ti'.
  rewrite (map_wrap_id _ _ (offset_width_cases r) Ti), (map_wrap_id _ _ (offset_width_cases r') Ti') in H4.
  assert (Hb : r_base r = r_base r') by (destruct (r_base r), (r_base r'); congruence).
  destruct r as [st off mg bs], r' as [st' off' mg' bs']; cbn in H1, H3, Hb. subst st' mg' bs'. f_equal.
  unfold normal, ambiguous, stored_values in *. cbn [r_offsets] in *.
  destruct off as [[c ra fp]|], off' as [[c' ra' fp']|]; cbn [ro_cfa ro_ra ro_fp] in *; try discriminate; [|reflexivity].
  destruct (N _ eq_refl) as [Nr Nf]. destruct (N' _ eq_refl) as [Nr' Nf']. cbn [ro_ra ro_fp] in *.
  destruct (so_fixed_ra o) as [f|].
  - rewrite (Nr ltac:(discriminate)) in *. rewrite (Nr' ltac:(discriminate)) in *. cbn [app] in H4.
    destruct fp, fp'; congruence.
  - destruct ra as [ra|], fp as [fp|], ra' as [ra'|], fp' as [fp'|]; cbn [app] in H4; try congruence.
    all: exfalso; first [apply A; split; [reflexivity|]; eexists; split; [reflexivity|]; cbn; split; [reflexivity|discriminate]
                        |apply A'; split; [reflexivity|]; eexists; split; [reflexivity|]; cbn; split; [reflexivity|discriminate]].
Qed.

Lemma content_eq o b b' : fdb_wf b -> fdb_wf b' -> fb_options b = o -> fb_options b' = o ->
  (forall r, In r (rows_of b) -> ~ tied r /\ ~ ambiguous o r) -> (forall r, In r (rows_of b') -> ~ tied r /\ ~ ambiguous o r) ->
  same_content b b' -> b = b'.
Proof.
  intros W W' Ho Ho' G G' (H1 & H2 & H3 & H4 & H5).
  assert (HR : rows_of b = rows_of b').
  { destruct W as [_ _ _ _ _ _ HW], W' as [_ _ _ _ _ _ HW']. rewrite Ho in HW. rewrite Ho' in HW'.
    clear - G G' H5 HW HW'. revert G' HW' H5. generalize (rows_of b') as l'. revert G HW. generalize (rows_of b) as l.
    induction l as [|r t IH]; intros G HW [|r' t'] G' HW' H5; try discriminate; [reflexivity|].
    cbn [map] in H5. pose proof (Forall_inv HW) as [T _ N]. pose proof (Forall_inv HW') as [T' _ N'].
    destruct (G r ltac:(left; reflexivity)). destruct (G' r' ltac:(left; reflexivity)). f_equal.
    - apply (written_inj o); auto. congruence.
    - apply IH; [intros x Hx; apply G; right; exact Hx|apply (Forall_inv_tail HW)|intros x Hx; apply G'; right; exact Hx
                |apply (Forall_inv_tail HW')|congruence]. }
  assert (HK : fb_fres b = fb_fres b').
  { rewrite <- (keyed_map (fb_fres b)) by apply W. rewrite <- (keyed_map (fb_fres b')) by apply W'.
    fold (rows_of b). fold (rows_of b'). rewrite HR. reflexivity. }
  destruct b, b'; cbn in *. congruence.
Qed.

Theorem same_bytes_same_builder md md' e s s' bs : sfb_reach md s -> sfb_reach md' s' ->
  (forall b r, In b (fdes_of s) -> In r (rows_of b) -> ~ tied r /\ ~ ambiguous (sb_options s) r) ->
  (forall b r, In b (fdes_of s') -> In r (rows_of b) -> ~ tied r /\ ~ ambiguous (sb_options s') r) ->
  build md e s = Ok bs -> build md' e s' = Ok bs -> s = s'.
Proof.
  intros Hr Hr' G G' B B'. destruct (proj1 (same_bytes md md' e s s' bs bs Hr Hr' B B') eq_refl) as [Ho HF].
  pose proof (sfb_reach_wf _ _ Hr) as W. pose proof (sfb_reach_wf _ _ Hr') as W'.
  assert (HE : fdes_of s = fdes_of s').
  { destruct W as [_ _ _ HW], W' as [_ _ _ HW']. rewrite <- Ho in HW', G'. clear - G G' HF HW HW'.
    revert G G' HW HW'. induction HF as [|b b' t t' Hb _ IH]; intros G G' HW HW'; [reflexivity|].
    destruct (Forall_inv HW) as [Wb Ob]. destruct (Forall_inv HW') as [Wb' Ob']. f_equal.
    - apply (content_eq (sb_options s)); auto; [intros r; apply (G b); left; reflexivity|intros r; apply (G' b'); left; reflexivity].
    - apply IH; [intros x r Hx; apply (G x r); right; exact Hx|intros x r Hx; apply (G' x r); right; exact Hx
                |apply (Forall_inv_tail HW)|apply (Forall_inv_tail HW')]. }
  assert (HK : forall m, fkeyed m -> map (fun b => (fb_start b, b)) (map snd m) = m).
  { clear. induction m as [|[k b] t IH]; intros Hk; [reflexivity|]. cbn [map snd].
    rewrite IH by (intros k' b' Hin; apply Hk; right; exact Hin). rewrite <- (Hk k b ltac:(left; reflexivity)). reflexivity. }
  assert (HB : sb_fdes s = sb_fdes s').
  { rewrite <- (HK (sb_fdes s)) by apply W. rewrite <- (HK (sb_fdes s')) by apply W'.
    fold (fdes_of s). fold (fdes_of s'). rewrite HE. reflexivity. }
  destruct s, s'; cbn in *. congruence.
Qed.

(** The byte order can be told from the bytes. *)
Theorem orders_differ md md' s s' bs : sfb_reach md s -> sfb_reach md' s' ->
  build md LE s = Ok bs -> build md' BE s' <> Ok bs.
Proof.
  intros Hr Hr' B B'. pose proof (sfb_reach_wf _ _ Hr) as W. pose proof (sfb_reach_wf _ _ Hr') as W'.
  destruct (built_image _ _ _ _ W B) as [_ E]. destruct (built_image _ _ _ _ W' B') as [_ E'].
  rewrite E in E'. assert (H := f_equal (firstn 2) E'). discriminate H.
Qed.
