(** Built sections in the hands of an unwinder that follows the specification, and
    sections of other producers in the hands of this library. *)
From Verif Require ConvProps CfiTotal.
From Verif Require Export LocalFacts ReadWitness TripWitness StdSpec.

(** ** Rows are determined by their bytes *)

Lemma app_len_inj {A} (a b x y : list A) : length a = length b -> a ++ x = b ++ y -> a = b /\ x = y.
Proof.
  revert b. induction a as [|h t IH]; intros [|h' t'] L H; cbn in L; try lia; [auto|].
  cbn in H. injection H as -> H. destruct (IH t' ltac:(lia) H) as [-> ->]. auto.
Qed.

Lemma chunks_fun (ow : Z) : forall (c c' : list bytes) x x', Forall (fun c => zlen c = ow) c -> Forall (fun c => zlen c = ow) c' ->
  zlen c = zlen c' -> concat c ++ x = concat c' ++ x' -> c = c' /\ x = x'.
Proof.
  induction c as [|h t IH]; intros [|h' t'] x x' H H' L E; unfold zlen in L; cbn in L; try lia; [auto|].
  cbn [concat] in E. rewrite <- !app_assoc in E. inversion H; subst. inversion H'; subst.
  apply app_len_inj in E; [|unfold zlen in *; lia]. destruct E as [-> E].
  destruct (IH t' x x' ltac:(assumption) ltac:(assumption) ltac:(unfold zlen; lia) E) as [-> ->]. auto.
Qed.

Lemma row_at_fun e aw bs r r' rest rest' : spec_row_at e aw bs r rest -> spec_row_at e aw bs r' rest' -> r = r' /\ rest = rest'.
Proof.
  intros (st & i & ow & ch & E & L & H1 & H2 & H3 & W & F & N & _ & O) (st' & i' & ow' & ch' & E' & L' & H1' & H2' & H3' & W' & F' & N' & _ & O').
  rewrite E in E'. apply app_len_inj in E'; [|unfold zlen in *; lia]. destruct E' as [<- E']. cbn [app] in E'. injection E' as <- E'.
  rewrite W in W'. injection W' as <-. apply (chunks_fun ow) in E'; [|assumption|assumption|congruence]. destruct E' as [<- <-].
  split; [|reflexivity]. destruct r as [a1 a2 a3 a4], r' as [b1 b2 b3 b4]. cbn [sr_start sr_base_is_sp sr_mangled sr_offsets] in *. congruence.
Qed.

Lemma rows_at_fun e aw : forall l l' bs rest rest', spec_rows_at e aw bs l rest -> spec_rows_at e aw bs l' rest' ->
  length l = length l' -> l = l' /\ rest = rest'.
Proof.
  induction l as [|r t IH]; intros [|r' t'] bs rest rest' H H' L; cbn in L; try lia; cbn [spec_rows_at] in H, H'.
  - subst. auto.
  - destruct H as (m & H1 & H2), H' as (m' & H1' & H2'). destruct (row_at_fun _ _ _ _ _ _ _ H1 H1') as [<- <-].
    destruct (IH t' m rest rest' H2 H2' ltac:(lia)) as [<- <-]. auto.
Qed.

Lemma rows_at_more e aw l : forall bs rest x, spec_rows_at e aw bs l rest -> spec_rows_at e aw (bs ++ x) l (rest ++ x).
Proof.
  induction l as [|r t IH]; intros bs rest x H; cbn [spec_rows_at] in *; [congruence|].
  destruct H as (m & (st & i & ow & ch & E & H1) & H2). exists (m ++ x). split; [|apply IH, H2].
  exists st, i, ow, ch. split; [rewrite E, <- !app_assoc; reflexivity|exact H1].
Qed.

Lemma std_rows_fun e bs d l l' : std_rows e bs d l -> std_rows e bs d l' -> l = l'.
Proof.
  intros (aw & rest & W & N & H) (aw' & rest' & W' & N' & H'). rewrite W in W'. injection W' as <-.
  apply (rows_at_fun e aw l l' _ _ _ H H'). unfold zlen in *. lia.
Qed.

(** ** What a row says *)

Lemma observed_std md e bs sf fr : wf_mode md -> rust_slice md bs -> load md e bs = Ok sf ->
  observed sf fr = std_unwind bs (view_fre fr).
Proof.
  intros Hm Hs HL. destruct (load_accessors md e bs sf Hm Hs HL) as (_ & _ & _ & P & R & _).
  unfold observed, std_unwind. rewrite cfa_offset_spec, ra_offset_spec, fp_offset_spec, P, R.
  f_equal.
  - cbn. destruct (fre_cfa_base_reg_id fr); reflexivity.
  - destruct (sr_offsets (view_fre fr)); reflexivity.
  - destruct (nonzero (spec_fixed_ra bs)); [reflexivity|]. destruct (sr_offsets (view_fre fr)) as [|? [|? ?]]; reflexivity.
  - destruct (nonzero (spec_fixed_fp bs)); [reflexivity|].
    destruct (nonzero (spec_fixed_ra bs)), (sr_offsets (view_fre fr)) as [|? [|? [|? ?]]]; reflexivity.
Qed.

Lemma nonzero_fixed v : fixed_wf v -> nonzero (opt_or_zero v) = v.
Proof. exact (fixed_back v). Qed.

Lemma std_meaning bs o r : nonzero (spec_fixed_ra bs) = so_fixed_ra o -> nonzero (spec_fixed_fp bs) = so_fixed_fp o ->
  normal o r -> (std_unwind bs (written r) = intended o r <-> untruncated r /\ ~ ambiguous o r).
Proof.
  intros Hra Hfp Hn. pose proof (offset_width_cases r) as Hw. unfold std_unwind, intended. rewrite Hra, Hfp.
  unfold written, untruncated, ambiguous. cbn [sr_offsets sr_base_is_sp sr_mangled].
  replace (if match r_base r with Sp => true | Fp => false end then Sp else Fp) with (r_base r) by (destruct (r_base r); reflexivity).
  set (w := offset_width r) in *. unfold stored_values.
  destruct (r_offsets r) as [[c ra fp]|] eqn:Eo.
  - destruct (Hn _ Eo) as [Nr Nf]. cbn [ro_ra ro_fp] in Nr, Nf. cbn [option_map ro_cfa ro_ra ro_fp].
    assert (WI := wrap_id w). clear Eo Hn Hra Hfp. clearbody w.
    destruct (so_fixed_ra o) as [fr0|]; [assert (ra = None) by (apply Nr; discriminate); subst ra|destruct ra as [ra|]];
    (destruct (so_fixed_fp o) as [ff0|]; [assert (fp = None) by (apply Nf; discriminate); subst fp|destruct fp as [fp|]]);
    cbn [app map nth_error or_fixed];
    (split; [intros E|intros [HF HA]]).
    all: try discriminate.
    all: try (injection E; clear E; intros; split;
       [ repeat (apply Forall_cons; [apply (WI _ Hw); assumption|]); apply Forall_nil
       | intros [E1 (x & E2 & E3 & E4)]; try discriminate E1; injection E2 as <-; cbn in E3, E4; congruence ]).
    all: repeat match goal with H : Forall _ (_ :: _) |- _ => apply Forall_cons_iff in H; destruct H end;
       repeat match goal with H : storable _ _, WI : _, Hw : _ = 1 \/ _ |- _ => apply (proj2 (WI _ Hw)) in H; rewrite ?H end;
       try reflexivity.
    all: exfalso; apply HA; split; [reflexivity|]; eexists; split; [reflexivity|]; cbn; split; congruence.
  - cbn [app map option_map nth_error or_fixed].
    destruct (so_fixed_ra o), (so_fixed_fp o);
    (split; [intros _; split; [constructor|intros (_ & x & Ex & _); discriminate]|reflexivity]).
Qed.

(** ** Built sections *)

Lemma info_bits b : let i := info_of b in
  (ordinary_function b -> width_of (bits 0 4 i) = Some (start_width (rows_of b)) /\ bits 4 1 i = 0 /\ bits 5 1 i = 0) /\
  (fb_rep_size b <> None -> width_of (bits 0 4 i) = None) /\
  (fb_rep_size b = None -> fb_pauth b = KeyB -> bits 4 1 i = 1).
Proof.
  unfold ordinary_function, info_of, start_width. set (m := fold_right _ _ _).
  destruct (m <=? 127); [|destruct (m <=? 32767)]; destruct (fb_pauth b), (fb_rep_size b) as [rep|];
    (split; [intros [? ?]; try discriminate; repeat split; reflexivity|]; split; [intros H; try contradiction; reflexivity|intros ? ?; try discriminate; reflexivity]).
Qed.

Section Built.
  Context (md : mode) (e : endian) (s : sfb) (bs : bytes).
  Context (HR : sfb_reach md s) (HB : build md e s = Ok bs).

  Lemma built_layout : good_magic e bs /\ spec_version bs = 2 /\ layout_fits e bs.
  Proof.
    destruct (trip_header md e s bs HR HB) as (L & M & V & _ & _ & _ & _ & _ & A & N & _ & F & O & P).
    split; [exact M|]. split; [exact V|]. unfold layout_fits, spec_base, spec_entry_size, spec_header_size.
    rewrite A, N, F, O, P, V, L. change (2 =? 1) with false. cbv iota.
    destruct (built md e s bs HR HB) as (W & _). pose proof (zlen_nonneg (fdes_of s)).
    pose proof (sumz_nonneg (fdes_of s)). fold (fre_size s) in *. lia.
  Qed.

  Lemma built_std_rows i b : nth_error (fdes_of s) i = Some b -> ordinary_function b ->
    std_rows e bs (spec_entry e bs (Z.of_nat i)) (map written (rows_of b)).
  Proof.
    intros Hi Ho. destruct (trip_table md e s bs i b HR HB Hi) as (D & _ & H). rewrite D.
    destruct (info_bits b) as [I _]. destruct (I Ho) as (W & _).
    exists (start_width (rows_of b)), ([] ++ skipn (Z.to_nat (fde_fre_size b)) (skipn (Z.to_nat (rows_off (fdes_of s) i)) (spec_fre_bytes e bs))).
    split; [exact W|]. split; [unfold descriptor; cbn [sd_num_fres]; apply zlen_map|].
    unfold spec_rows_of, descriptor. cbn [sd_fre_off]. set (o := rows_off _ i) in *.
    apply (rows_at_more _ _ _ _ _ (skipn (Z.to_nat (fde_fre_size b)) (skipn (Z.to_nat o) (spec_fre_bytes e bs)))) in H.
    unfold slice in H. rewrite firstn_skipn in H. exact H.
  Qed.

  Lemma only_one a b b' : In b (fdes_of s) -> In b' (fdes_of s) -> in_range (fb_start b) (fb_size b) a ->
    in_range (fb_start b') (fb_size b') a -> b = b'.
  Proof.
    intros H H' R R'. destruct (built md e s bs HR HB) as (W & _ & _ & Ho).
    assert (E : fb_start b = fb_start b').
    { destruct (Z.eq_dec (fb_start b) (fb_start b')) as [E|N]; [exact E|]. exfalso. apply Ho. unfold in_range in *.
      destruct (Z.lt_ge_cases (fb_start b) (fb_start b')); [exists b, b'|exists b', b]; unfold in_range; repeat split; auto; lia. }
    apply (f_equal Some) in E. apply some_inj. clear R R' Ho HB.
    apply In_nth_error in H. apply In_nth_error in H'. destruct H as [i H], H' as [j H'].
    assert (ND : NoDup (map fb_start (fdes_of s))) by (apply CfiTotal.lt_sorted_nodup, ConvProps.sorted_fdes, W).
    rewrite NoDup_nth_error in ND. assert (X : i = j).
    { apply ND; [rewrite map_length; apply nth_error_Some; congruence|]. rewrite !nth_error_map, H, H'. exact E. }
    congruence.
  Qed.

  Lemma fixed_read : nonzero (spec_fixed_ra bs) = so_fixed_ra (sb_options s) /\ nonzero (spec_fixed_fp bs) = so_fixed_fp (sb_options s).
  Proof.
    destruct (trip_header md e s bs HR HB) as (_ & _ & _ & _ & _ & _ & P & R & _). rewrite P, R.
    destruct (built md e s bs HR HB) as ([[_ _ Q T] _ _ _] & _). split; apply fixed_back; assumption.
  Qed.

  (** Inside a function. *)
  Theorem built_std a k u b : In b (fdes_of s) -> in_range (fb_start b) (fb_size b) a ->
    (std_says e bs a k u <->
     ordinary_function b /\ k = KeyA /\
     exists r, in_effect (rows_of b) (offset_in b a) r /\ u = std_unwind bs (written r)).
  Proof.
    intros Hb Ha. destruct built_layout as (M & V & L).
    assert (NF : spec_num_fdes e bs = zlen (fdes_of s)) by apply (trip_header md e s bs HR HB).
    split.
    - intros (_ & _ & _ & i & rows & x & r & Hi & Hr & HS & Hx & He & Hk & Hu).
      assert (Hn : exists b', nth_error (fdes_of s) (Z.to_nat i) = Some b').
      { destruct (nth_error (fdes_of s) (Z.to_nat i)) eqn:E; [eauto|]. apply nth_error_None in E. unfold zlen in NF. lia. }
      destruct Hn as [b' Hn]. destruct (trip_table md e s bs _ b' HR HB Hn) as (D & _). rewrite Z2Nat.id in D by lia.
      assert (b' = b).
      { rewrite D in Hr. symmetry. apply (only_one a); auto. apply nth_error_In in Hn. exact Hn. }
      subst b'. destruct (info_bits b) as (I1 & I2 & I3).
      assert (O : ordinary_function b).
      { destruct HS as (aw & rest & W & _). rewrite D in W, Hx. unfold std_fre_type, descriptor in W. cbn [sd_info] in W.
        destruct (fb_rep_size b) eqn:ER; [rewrite I2 in W by discriminate; discriminate|]. split; [exact ER|].
        destruct (fb_pauth b) eqn:EP; [reflexivity|]. exfalso. unfold std_offset, std_repeats, descriptor in Hx. cbn [sd_info sd_rep] in Hx.
        rewrite I3, ER in Hx by auto. discriminate. }
      split; [exact O|]. pose proof (built_std_rows _ b Hn O) as HS'. rewrite Z2Nat.id in HS' by lia.
      rewrite (std_rows_fun _ _ _ _ _ HS HS') in He. clear HS HS'.
      destruct (I1 O) as (_ & B4 & B5). rewrite D in Hx, Hk. unfold std_offset, std_repeats, std_key, descriptor in Hx, Hk. cbn [sd_info sd_start] in Hx, Hk.
      rewrite B4 in Hx. rewrite B5 in Hk. cbn in Hx, Hk. injection Hx as <-. split; [auto|].
      destruct He as (H1 & H2 & H3). apply in_map_iff in H1. destruct H1 as (r0 & <- & H1). exists r0. split; [|auto].
      unfold in_effect, offset_in. destruct O as [-> _]. cbn [written sr_start] in *. split; [exact H1|]. split; [exact H2|].
      intros r' Hr'. apply (H3 (written r')). apply in_map, Hr'.
    - intros (O & -> & r & (H1 & H2 & H3) & ->). split; [exact M|]. split; [exact V|]. split; [exact L|].
      apply In_nth_error in Hb. destruct Hb as [i Hi]. destruct (trip_table md e s bs i b HR HB Hi) as (D & _).
      assert (i < length (fdes_of s))%nat by (apply nth_error_Some; congruence).
      exists (Z.of_nat i), (map written (rows_of b)), (a - fb_start b), (written r).
      split; [rewrite NF; unfold zlen; lia|]. split; [rewrite D; exact Ha|]. split; [apply built_std_rows; assumption|].
      destruct (info_bits b) as (I1 & _). destruct (I1 O) as (_ & B4 & B5). rewrite D.
      unfold std_offset, std_repeats, std_key, descriptor. cbn [sd_info sd_start]. rewrite B4, B5. cbn [Z.eqb Pos.eqb].
      split; [reflexivity|]. unfold offset_in in H2, H3. destruct O as [O _]. rewrite O in H2, H3. split; [|split; reflexivity].
      split; [apply in_map, H1|]. split; [exact H2|]. intros r' Hr'. apply in_map_iff in Hr'. destruct Hr' as (r0 & <- & Hr'). apply H3, Hr'.
  Qed.

  Theorem built_std_outside a k u : (forall b, In b (fdes_of s) -> ~ in_range (fb_start b) (fb_size b) a) -> ~ std_says e bs a k u.
  Proof.
    intros H (_ & _ & _ & i & rows & x & r & Hi & Hr & _).
    assert (NF : spec_num_fdes e bs = zlen (fdes_of s)) by apply (trip_header md e s bs HR HB).
    destruct (nth_error (fdes_of s) (Z.to_nat i)) as [b|] eqn:E; [|apply nth_error_None in E; unfold zlen in NF; lia].
    destruct (trip_table md e s bs _ b HR HB E) as (D & _). rewrite Z2Nat.id in D by lia. rewrite D in Hr.
    apply (H b); [apply nth_error_In in E; exact E|exact Hr].
  Qed.

  Lemma std_row_meaning b r : In b (fdes_of s) -> In r (rows_of b) ->
    (std_unwind bs (written r) = intended (sb_options s) r <-> ~ tied r /\ ~ ambiguous (sb_options s) r).
  Proof.
    intros Hb Hr. destruct fixed_read as [F1 F2]. destruct (built md e s bs HR HB) as (W & _).
    apply In_nth_error in Hb. destruct Hb as [i Hi]. destruct (in_fdes_wf s i b W Hi) as [Wb Ob].
    pose proof (bw_rows _ Wb) as Wr. rewrite Forall_forall in Wr. destruct (Wr r Hr) as [Ht _ Hn]. rewrite Ob in Hn.
    rewrite <- (width_untied r Ht). apply std_meaning; assumption.
  Qed.

  (** Everything: ordinary functions whose rows are neither tied nor ambiguous. *)
  Theorem built_std_all : (forall b, In b (fdes_of s) -> ordinary_function b) ->
    (forall b r, In b (fdes_of s) -> In r (rows_of b) -> ~ tied r /\ ~ ambiguous (sb_options s) r) ->
    forall a k u, std_says e bs a k u <-> asked_with_key s a k u.
  Proof.
    intros HO HT a k u. split.
    - intros H. assert (X : exists b, In b (fdes_of s) /\ in_range (fb_start b) (fb_size b) a).
      { pose proof H as H0. destruct H0 as (_ & _ & _ & i & rows & x & r & Hi & Hr & _).
        assert (NF : spec_num_fdes e bs = zlen (fdes_of s)) by apply (trip_header md e s bs HR HB).
        destruct (nth_error (fdes_of s) (Z.to_nat i)) as [b|] eqn:E; [|apply nth_error_None in E; unfold zlen in NF; lia].
        destruct (trip_table md e s bs _ b HR HB E) as (D & _). rewrite Z2Nat.id in D by lia. rewrite D in Hr.
        exists b. split; [apply nth_error_In in E; exact E|exact Hr]. }
      destruct X as (b & Hb & Ha). apply (built_std a k u b Hb Ha) in H. destruct H as (O & -> & r & He & ->).
      exists b, r. split; [exact Hb|]. split; [exact Ha|]. split; [exact He|]. split; [apply O|].
      symmetry. apply (std_row_meaning b r Hb); [apply He|]. apply (HT b r Hb), He.
    - intros (b & r & Hb & Ha & He & <- & <-). apply (built_std a _ _ b Hb Ha). split; [apply HO, Hb|]. split; [apply HO, Hb|].
      exists r. split; [exact He|]. symmetry. apply (std_row_meaning b r Hb); [apply He|]. apply (HT b r Hb), He.
  Qed.
End Built.

(** ** Sections of other producers *)

Lemma plain_bits d : plain_info d -> fre_type_num (sd_info d) = std_fre_type d /\ bits 3 1 (sd_info d) = 0 /\
  bits 4 1 (sd_info d) = 0 /\ bits 5 1 (sd_info d) = 0.
Proof.
  unfold plain_info, fre_type_num, std_fre_type, bits. set (i := sd_info d). clearbody i.
  change (2 ^ 0) with 1. change (2 ^ 3) with 8. change (2 ^ 4) with 16. change (2 ^ 5) with 32. change (2 ^ 1) with 2.
  intros H. repeat split; lia.
Qed.

Section Other.
  Context (md : mode) (e : endian) (bs : bytes) (sf : sframe).
  Context (Hmd : wf_mode md) (Hlen : rust_slice md bs) (Hl : load md e bs = Ok sf) (Hv : spec_version bs = 2).

  Lemma entry_at en : In en (all_fdes sf) -> exists i, 0 <= i < spec_num_fdes e bs /\ fde_ok (en_fde en) /\
    view_fde (en_fde en) = spec_entry e bs i /\ en_fres en = spec_rows_of e bs (spec_entry e bs i).
  Proof.
    intros H. destruct (all_fdes_spec md e bs sf Hmd Hlen Hl) as [N S]. apply In_nth_error in H. destruct H as [i H].
    destruct (S i en H) as (A & B & C). exists (Z.of_nat i). split; [|auto].
    assert (i < length (all_fdes sf))%nat by (apply nth_error_Some; congruence). unfold zlen in N. lia.
  Qed.
  Lemma entry_of_index i : 0 <= i < spec_num_fdes e bs -> exists en, In en (all_fdes sf) /\ fde_ok (en_fde en) /\
    view_fde (en_fde en) = spec_entry e bs i /\ en_fres en = spec_rows_of e bs (spec_entry e bs i).
  Proof.
    intros H. destruct (all_fdes_spec md e bs sf Hmd Hlen Hl) as [N S].
    destruct (nth_error (all_fdes sf) (Z.to_nat i)) as [en|] eqn:E; [|apply nth_error_None in E; unfold zlen in N; lia].
    exists en. split; [apply nth_error_In in E; exact E|]. specialize (S _ _ E). rewrite Z2Nat.id in S by lia. exact S.
  Qed.

  (** The rows of a descriptor whose info byte is plain. *)
  Lemma plain_rows en i : fde_ok (en_fde en) -> view_fde (en_fde en) = spec_entry e bs i ->
    en_fres en = spec_rows_of e bs (spec_entry e bs i) -> plain_info (spec_entry e bs i) ->
    (forall good, good <> [] -> all_fres md e en = Ok (map inl good) -> std_rows e bs (spec_entry e bs i) (map view_fre good)) /\
    (forall rows, std_rows e bs (spec_entry e bs i) rows -> Forall (fun r => sr_start r < sd_size (spec_entry e bs i)) rows ->
       exists good, all_fres md e en = Ok (map inl good) /\ map view_fre good = rows) /\
    (forall rows, std_rows e bs (spec_entry e bs i) rows -> Exists (fun r => sd_size (spec_entry e bs i) <= sr_start r) rows ->
       all_fres md e en = Panic).
  Proof.
    intros Hok Hview Hrows Hp. set (d := spec_entry e bs i) in *. destruct (plain_bits d Hp) as (T & _).
    assert (EI : fde_info (en_fde en) = sd_info d) by (rewrite <- Hview; reflexivity).
    assert (EN : fde_num_fres (en_fde en) = sd_num_fres d) by (rewrite <- Hview; reflexivity).
    assert (ES : fde_size (en_fde en) = sd_size d) by (rewrite <- Hview; reflexivity).
    assert (HN : 0 <= sd_num_fres d) by (rewrite <- EN; apply Hok).
    assert (X : forall rows, std_rows e bs d rows -> exists aw rest, width_of (fre_type_num (fde_info (en_fde en))) = Some aw /\
      spec_rows_at e aw (en_fres en) rows rest /\ fde_num_fres (en_fde en) = 0 + zlen rows /\
      (length rows < fri_fuel (fres en))%nat).
    { intros rows (aw & rest & W & N & H). exists aw, rest. rewrite EI, T, EN, Hrows. split; [exact W|]. split; [exact H|]. split; [lia|].
      apply rows_count in H; [|unfold width_of in W; destruct (_ =? 0); [|destruct (_ =? 1); [|destruct (_ =? 2); [|discriminate]]]; injection W; lia].
      unfold fri_fuel, fres. cbn [ri_fres]. rewrite Hrows. lia. }
    split; [|split].
    - intros good Hg H. unfold all_fres in H. apply fri_collect_shape in H; [|exact Hmd|exact Hok].
      destruct H as (good' & bad & aw & rest & E & _ & _ & W & R & _ & _ & _ & C).
      assert (EB : good = good' /\ bad = []).
      { clear -E. revert good' E. induction good as [|g t IH]; intros [|g' t'] E; cbn in E; try discriminate.
        - destruct bad; [auto|discriminate].
        - destruct bad; discriminate.
        - injection E as <- E. destruct (IH t' E) as [-> ->]. auto. }
      destruct EB as [<- ->]. cbn [fres ri_fde ri_fres ri_index] in *. exists aw, rest. rewrite EI, T in W. split; [apply W, Hg|].
      rewrite zlen_map, C by (try reflexivity; rewrite EN; lia). split; [rewrite EN; lia|]. rewrite <- Hrows. exact R.
    - intros rows HS HI. destruct (X rows HS) as (aw & rest & W & R & N & F).
      destruct (collect_rows md e (en_fde en) aw Hmd Hok W rows (en_fres en) rest _ 0 R N F) as [C _].
      apply C. rewrite ES. exact HI.
    - intros rows HS HI. destruct (X rows HS) as (aw & rest & W & R & N & F).
      destruct (collect_rows md e (en_fde en) aw Hmd Hok W rows (en_fres en) rest _ 0 R N F) as [_ C].
      apply C. rewrite ES. exact HI.
  Qed.

  Theorem lib_std a k u :
    (forall i, 0 <= i < spec_num_fdes e bs -> in_range (sd_start (spec_entry e bs i)) (sd_size (spec_entry e bs i)) a ->
       plain_info (spec_entry e bs i) /\ rows_end_inside e bs (spec_entry e bs i)) ->
    (lib_says md e sf a k u <-> std_says e bs a k u).
  Proof.
    intros HP. assert (HA : good_magic e bs /\ good_version bs /\ layout_fits e bs).
    { apply (load_ok_iff md e bs Hmd Hlen). eauto. }
    assert (AC : forall en i, view_fde (en_fde en) = spec_entry e bs i -> fde_ok (en_fde en) -> plain_info (spec_entry e bs i) ->
      en_start_address en = sd_start (spec_entry e bs i) /\ en_size en = sd_size (spec_entry e bs i) /\
      lib_offset en a = std_offset (spec_entry e bs i) a /\ en_pauth_key en = std_key (spec_entry e bs i)).
    { intros en i Hview Hok Hp. assert (Hu : 0 <= sd_info (spec_entry e bs i) < 256) by (rewrite <- Hview; apply Hok).
      destruct (accessors_right e bs i en Hu Hview) as (A1 & A2 & A3 & A4 & A5). destruct (plain_bits _ Hp) as (_ & B3 & B4 & B5).
      split; [exact A1|]. split; [exact A2|]. unfold lib_offset, std_offset, std_repeats, std_key.
      rewrite A3, A4, A1, B3, B4, B5. split; reflexivity. }
    split.
    - intros (en & good & x & fr & Hi & Hr & HF & Hx & Hin & Hle & Hmax & Hk & Hu).
      destruct (entry_at en Hi) as (i & Hn & Hok & Hview & Hrows).
      assert (Hr' : in_range (sd_start (spec_entry e bs i)) (sd_size (spec_entry e bs i)) a) by (rewrite <- Hview; exact Hr).
      destruct (HP i Hn Hr') as [Hp _]. destruct (AC en i Hview Hok Hp) as (_ & _ & A3 & A4).
      destruct (plain_rows en i Hok Hview Hrows Hp) as (P1 & _).
      split; [apply HA|]. split; [exact Hv|]. split; [apply HA|].
      exists i, (map view_fre good), x, (view_fre fr). split; [exact Hn|]. split; [exact Hr'|].
      split; [apply P1; [intros ->; destruct Hin|exact HF]|]. split; [congruence|]. split; [|split; [congruence|]].
      + split; [apply in_map, Hin|]. split; [exact Hle|]. intros r' H'. apply in_map_iff in H'. destruct H' as (fr' & <- & H'). apply Hmax, H'.
      + rewrite <- Hu. symmetry. apply (observed_std md e bs sf fr Hmd Hlen Hl).
    - intros (_ & _ & _ & i & rows & x & r & Hn & Hr & HS & Hx & (He1 & He2 & He3) & Hk & Hu).
      destruct (HP i Hn Hr) as [Hp HI]. destruct (entry_of_index i Hn) as (en & Hi & Hok & Hview & Hrows).
      destruct (AC en i Hview Hok Hp) as (A1 & A2 & A3 & A4). destruct (plain_rows en i Hok Hview Hrows Hp) as (_ & P2 & _).
      destruct (P2 rows HS (HI rows HS)) as (good & HF & <-). apply in_map_iff in He1. destruct He1 as (fr & <- & Hin).
      exists en, good, x, fr. split; [exact Hi|]. split; [rewrite A1, A2; exact Hr|]. split; [exact HF|]. split; [congruence|].
      split; [exact Hin|]. split; [exact He2|]. split; [intros fr' H'; apply (He3 (view_fre fr')), in_map, H'|].
      split; [congruence|]. rewrite <- Hu. apply (observed_std md e bs sf fr Hmd Hlen Hl).
  Qed.
End Other.
