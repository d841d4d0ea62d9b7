(** Facts about [SFrame::load] (C01-C05) and the FDE iterator (C07). *)
From Verif Require Export RawFacts Read Spec ReadSpec.

(** ** The specification's integers are the model's *)

Lemma dec_le_app a b : dec_le (a ++ b) = dec_le a + 256 ^ zlen a * dec_le b.
Proof.
  induction a as [|x t IH]; cbn [dec_le app].
  - change (256 ^ zlen (@nil byte)) with 1. lia.
  - rewrite IH, zlen_cons, Z.pow_add_r by (pose proof (zlen_nonneg t); lia). lia.
Qed.

Lemma fold_be_dec l acc :
  fold_left (fun acc b => 256 * acc + bZ b) l acc = 256 ^ zlen l * acc + dec_le (rev l).
Proof.
  revert acc. induction l as [|x t IH]; intros acc; cbn [fold_left rev].
  - change (256 ^ zlen (@nil byte)) with 1. cbn. lia.
  - rewrite IH, dec_le_app, zlen_cons, Z.pow_add_r by (pose proof (zlen_nonneg t); lia).
    replace (zlen (rev t)) with (zlen t) by (unfold zlen; rewrite rev_length; reflexivity).
    cbn [dec_le]. lia.
Qed.

Lemma uint_dec e l : uint e l = dec e l.
Proof.
  destruct e; cbn [uint dec].
  - induction l as [|x t IH]; cbn [fold_right dec_le]; [reflexivity|]. rewrite IH. reflexivity.
  - rewrite fold_be_dec. lia.
Qed.

Lemma sint_dec e l : l <> [] -> sint e l = as_s (8 * zlen l) (dec e l).
Proof.
  intros Hl. unfold sint, as_s. cbv zeta. rewrite uint_dec.
  pose proof (dec_bound e l) as HB. fold (zlen l) in HB.
  assert (HL : 0 < zlen l) by (destruct l; [congruence|rewrite zlen_cons; pose proof (zlen_nonneg l); lia]).
  assert (HP : 2 ^ (8 * zlen l) = 256 ^ zlen l)
    by (rewrite Z.pow_mul_r by lia; reflexivity).
  assert (HH : 2 ^ (8 * zlen l) = 2 * 2 ^ (8 * zlen l - 1))
    by (rewrite <- Z.pow_succ_r by lia; f_equal; lia).
  rewrite (Z.mod_small (dec e l)) by lia. rewrite HP in *.
  destruct (Z.ltb_spec (2 * dec e l) (256 ^ zlen l)),
           (Z.ltb_spec (dec e l) (2 ^ (8 * zlen l - 1))); lia.
Qed.

Lemma slice_sub_bytes off n bs : slice off n bs = sub_bytes (Z.to_nat off) (Z.to_nat n) bs.
Proof. reflexivity. Qed.

Lemma u_at_rd e off n bs : u_at e off n bs = rd_u e (Z.to_nat off) (Z.to_nat n) bs.
Proof. unfold u_at. rewrite uint_dec. reflexivity. Qed.

Lemma s_at_rd e off n bs :
  0 <= off -> 0 < n -> off + n <= zlen bs ->
  s_at e off n bs = rd_s e (Z.to_nat off) (Z.to_nat n) bs.
Proof.
  intros H0 Hn H. unfold s_at, rd_s, rd_u. rewrite <- slice_sub_bytes.
  assert (HL : length (slice off n bs) = Z.to_nat n).
  { rewrite slice_sub_bytes. apply sub_bytes_length. unfold zlen in H. lia. }
  rewrite sint_dec.
  - unfold zlen. rewrite HL. reflexivity.
  - intros Hc. rewrite Hc in HL. cbn in HL. lia.
Qed.

Lemma rd_u_byte e off bs : (off < length bs)%nat -> rd_u e off 1 bs = rd_u LE off 1 bs.
Proof.
  intros H. unfold rd_u.
  pose proof (sub_bytes_length off 1 bs ltac:(lia)) as HL.
  destruct (sub_bytes off 1 bs) as [|b [|c t]]; try discriminate HL.
  rewrite !dec_single. reflexivity.
Qed.
Lemma rd_s_byte e off bs : (off < length bs)%nat -> rd_s e off 1 bs = rd_s LE off 1 bs.
Proof. intros H. unfold rd_s. rewrite rd_u_byte by exact H. reflexivity. Qed.

Lemma rd_u_sub e off n pos size bs :
  (off + n <= size)%nat ->
  rd_u e off n (sub_bytes pos size bs) = rd_u e (pos + off) n bs.
Proof.
  intros H. unfold rd_u, sub_bytes. f_equal.
  rewrite skipn_firstn_comm, firstn_firstn, skipn_skipn.
  f_equal. lia.
Qed.
Lemma rd_s_sub e off n pos size bs :
  (off + n <= size)%nat ->
  rd_s e off n (sub_bytes pos size bs) = rd_s e (pos + off) n bs.
Proof. intros H. unfold rd_s. rewrite rd_u_sub by exact H. reflexivity. Qed.

Lemma rd_u_skipn e off n k bs : rd_u e off n (skipn k bs) = rd_u e (k + off) n bs.
Proof. unfold rd_u, sub_bytes. rewrite skipn_skipn. reflexivity. Qed.

Lemma rd_u4 e off bs : 0 <= rd_u e off 4 bs <= u32_max.
Proof. pose proof (rd_u_bound e off 4 bs) as H. change (256 ^ Z.of_nat 4) with 4294967296 in H.
  unfold u32_max. lia. Qed.
Lemma rd_u1 e off bs : 0 <= rd_u e off 1 bs < 256.
Proof. apply (rd_u_bound e off 1 bs). Qed.

(** ** [load], guard by guard *)

Lemma ok_or_ok {E A} (o : option A) (er : E) a : ok_or o er = Ok a <-> o = Some a.
Proof. destruct o; cbn; split; congruence. Qed.

Lemma get_to_some n bs r : get_to n bs = Some r <-> n <= zlen bs /\ r = firstn (Z.to_nat n) bs.
Proof.
  unfold get_to. destruct (Z.leb_spec n (zlen bs)) as [H|H]; split.
  - intros [= <-]. auto.
  - intros [_ ->]. reflexivity.
  - discriminate.
  - intros [Hc _]. lia.
Qed.
Lemma get_from_some n bs r : get_from n bs = Some r <-> n <= zlen bs /\ r = skipn (Z.to_nat n) bs.
Proof.
  unfold get_from. destruct (Z.leb_spec n (zlen bs)) as [H|H]; split.
  - intros [= <-]. auto.
  - intros [_ ->]. reflexivity.
  - discriminate.
  - intros [Hc _]. lia.
Qed.

(** The section contents the model must produce for [bs]. *)
Definition loaded (e : endian) (bs : bytes) : sframe :=
  let base := (HEADER_SIZE + Z.to_nat (rd_u e 7 1 bs))%nat in
  let tbl := skipn (base + Z.to_nat (rd_u e 20 4 bs)) bs in
  let n := Z.to_nat (rd_u e 8 4 bs) in
  {| sf_preamble := Preamble (rd_u e 0 2 bs) (rd_u e 2 1 bs) (rd_u e 3 1 bs);
     sf_abi_arch := rd_u e 4 1 bs;
     sf_fixed_fp := rd_s e 5 1 bs;
     sf_fixed_ra := rd_s e 6 1 bs;
     sf_num_fdes := rd_u e 8 4 bs;
     sf_num_fres := rd_u e 12 4 bs;
     sf_aux := sub_bytes HEADER_SIZE (Z.to_nat (rd_u e 7 1 bs)) bs;
     sf_fdes := if rd_u e 2 1 bs =? 1
                then ListV1 (decode_entries FDE1_SIZE (fde1_decode e) n tbl)
                else ListV2 (decode_entries FDE2_SIZE (fde2_decode e) n tbl);
     sf_fres := sub_bytes (base + Z.to_nat (rd_u e 24 4 bs)) (Z.to_nat (rd_u e 16 4 bs)) bs |}.

(** What [load] does, in terms of field values. *)
Definition fits (e : endian) (bs : bytes) : Prop :=
  let base := 28 + rd_u e 7 1 bs in
  28 <= zlen bs /\ base <= zlen bs /\
  base + rd_u e 20 4 bs + rd_u e 8 4 bs * (if rd_u e 2 1 bs =? 1 then 17 else 20) <= zlen bs /\
  base + rd_u e 24 4 bs + rd_u e 16 4 bs <= zlen bs.

Inductive load_result (md : mode) (e : endian) (bs : bytes) : outcome read_error sframe -> Prop :=
| LrShort : zlen bs < 4 -> load_result md e bs (Err UnexpectedEof)
| LrMagic : 4 <= zlen bs -> rd_u e 0 2 bs <> MAGIC -> load_result md e bs (Err IncorrectEndian)
| LrVersion : 4 <= zlen bs -> rd_u e 0 2 bs = MAGIC ->
    rd_u e 2 1 bs <> 1 -> rd_u e 2 1 bs <> 2 ->
    load_result md e bs (Err (UnsupportedVersion (rd_u e 2 1 bs)))
| LrNoFit : 4 <= zlen bs -> rd_u e 0 2 bs = MAGIC ->
    (rd_u e 2 1 bs = 1 \/ rd_u e 2 1 bs = 2) -> ~ fits e bs ->
    ~ (28 <= zlen bs /\ 28 + rd_u e 7 1 bs <= zlen bs /\
       28 + rd_u e 7 1 bs + rd_u e 20 4 bs
         + rd_u e 8 4 bs * (if rd_u e 2 1 bs =? 1 then 17 else 20) <= zlen bs /\
       usize_bits md = 32 /\ overflow_checks md = true /\
       2 ^ 32 <= rd_u e 24 4 bs + rd_u e 16 4 bs) ->
    load_result md e bs (Err UnexpectedEof)
| LrPanic : 4 <= zlen bs -> rd_u e 0 2 bs = MAGIC ->
    (rd_u e 2 1 bs = 1 \/ rd_u e 2 1 bs = 2) ->
    28 <= zlen bs -> 28 + rd_u e 7 1 bs <= zlen bs ->
    28 + rd_u e 7 1 bs + rd_u e 20 4 bs
      + rd_u e 8 4 bs * (if rd_u e 2 1 bs =? 1 then 17 else 20) <= zlen bs ->
    usize_bits md = 32 -> overflow_checks md = true ->
    2 ^ 32 <= rd_u e 24 4 bs + rd_u e 16 4 bs ->
    load_result md e bs Panic
| LrOk : 4 <= zlen bs -> rd_u e 0 2 bs = MAGIC ->
    (rd_u e 2 1 bs = 1 \/ rd_u e 2 1 bs = 2) -> fits e bs ->
    load_result md e bs (Ok (loaded e bs)).

Lemma load_spec md e bs :
  wf_mode md -> rust_slice md bs -> load_result md e bs (load md e bs).
Proof.
  intros Hmd Hlen. unfold load, preamble_from_prefix.
  assert (Hbits : 2 ^ 31 <= 2 ^ (usize_bits md - 1) /\
                  2 ^ usize_bits md = 2 * 2 ^ (usize_bits md - 1)).
  { destruct Hmd as [->| ->]; split; vm_compute; congruence. }
  unfold rust_slice in Hlen. destruct Hbits as [Hb31 Hb2].
  destruct (Nat.ltb_spec (length bs) PREAMBLE_SIZE) as [H4|H4].
  { cbn. apply LrShort. unfold zlen, PREAMBLE_SIZE in *. lia. }
  assert (H4' : 4 <= zlen bs) by (unfold zlen, PREAMBLE_SIZE in *; lia).
  cbn [ok_or bind pre_magic pre_version].
  destruct (Z.eqb_spec (rd_u e 0 2 bs) MAGIC) as [HM|HM]; cbn [negb];
    [|apply LrMagic; assumption].
  destruct ((rd_u e 2 1 bs =? VERSION_V1) || (rd_u e 2 1 bs =? VERSION_V2)) eqn:HV; cbn [negb].
  2:{ apply orb_false_iff in HV. unfold VERSION_V1, VERSION_V2 in HV.
      apply LrVersion; try assumption; lia. }
  assert (HV' : rd_u e 2 1 bs = 1 \/ rd_u e 2 1 bs = 2)
    by (unfold VERSION_V1, VERSION_V2 in HV; lia).
  unfold header_from_prefix.
  destruct (Nat.ltb_spec (length bs) HEADER_SIZE) as [H28|H28].
  { cbn. apply LrNoFit; try assumption. { unfold fits, zlen, HEADER_SIZE in *. lia. } unfold zlen, HEADER_SIZE in *. lia. }
  assert (H28' : 28 <= zlen bs) by (unfold zlen, HEADER_SIZE in *; lia).
  cbn [ok_or bind h_auxhdr_len h_fdeoff h_num_fdes h_freoff h_fre_len h_preamble h_abi_arch
       h_fixed_fp_offset h_fixed_ra_offset h_num_fres].
  pose proof (rd_u1 e 7 bs) as Haux.
  pose proof (rd_u4 e 8 bs) as Hnf.
  pose proof (rd_u4 e 20 bs) as Hfo.
  pose proof (rd_u4 e 24 bs) as Hro.
  pose proof (rd_u4 e 16 bs) as Hrl.
  unfold u32_max in *.
  assert (Hsk : zlen (skipn HEADER_SIZE bs) = zlen bs - 28)
    by (unfold zlen, HEADER_SIZE in *; rewrite skipn_length; lia).
  unfold get_to at 1. rewrite Hsk.
  destruct (Z.leb_spec (rd_u e 7 1 bs) (zlen bs - 28)) as [Ha|Ha].
  2:{ cbn. apply LrNoFit; try assumption. { unfold fits. lia. } lia. }
  cbn [ok_or bind].
  rewrite firstn_length, skipn_length, skipn_skipn.
  replace (Nat.min (Z.to_nat (rd_u e 7 1 bs)) (length bs - HEADER_SIZE))
    with (Z.to_nat (rd_u e 7 1 bs)) by (unfold zlen, HEADER_SIZE in *; lia).
  set (base := (HEADER_SIZE + Z.to_nat (rd_u e 7 1 bs))%nat).
  assert (Hbase : Z.of_nat base = 28 + rd_u e 7 1 bs) by (unfold base, HEADER_SIZE; lia).
  assert (Hsk2 : zlen (skipn base bs) = zlen bs - Z.of_nat base)
    by (unfold zlen in *; rewrite skipn_length; lia).
  unfold get_from. rewrite Hsk2.
  destruct (Z.leb_spec (rd_u e 20 4 bs) (zlen bs - Z.of_nat base)) as [Hf|Hf].
  2:{ cbn. apply LrNoFit; try assumption. { unfold fits. destruct (rd_u e 2 1 bs =? 1); lia. }
      destruct (rd_u e 2 1 bs =? 1); lia. }
  cbn [ok_or bind]. rewrite skipn_skipn.
  set (tbl := skipn (base + Z.to_nat (rd_u e 20 4 bs)) bs).
  assert (Htbl : zlen tbl = zlen bs - Z.of_nat base - rd_u e 20 4 bs)
    by (unfold tbl, zlen in *; rewrite skipn_length; lia).
  set (fo := rd_u e 20 4 bs) in *. set (nf := rd_u e 8 4 bs) in *.
  (* the tail of the function, once the table is known *)
  assert (Htail : forall fl,
    fl = sf_fdes (loaded e bs) ->
    28 + rd_u e 7 1 bs + fo + nf * (if rd_u e 2 1 bs =? 1 then 17 else 20) <= zlen bs ->
    load_result md e bs
      (let* fre_end := add_usize md (rd_u e 24 4 bs) (rd_u e 16 4 bs) in
       let* fres := ok_or (get_range (rd_u e 24 4 bs) fre_end (skipn base bs)) UnexpectedEof in
       Ok {| sf_preamble := Preamble (rd_u e 0 2 bs) (rd_u e 2 1 bs) (rd_u e 3 1 bs);
             sf_abi_arch := rd_u e 4 1 bs; sf_fixed_fp := rd_s e 5 1 bs;
             sf_fixed_ra := rd_s e 6 1 bs; sf_num_fdes := nf;
             sf_num_fres := rd_u e 12 4 bs;
             sf_aux := firstn (Z.to_nat (rd_u e 7 1 bs)) (skipn HEADER_SIZE bs);
             sf_fdes := fl; sf_fres := fres |})).
  { intros fl Hfl Hfit. unfold add_usize.
    destruct (Z.ltb_spec (rd_u e 24 4 bs + rd_u e 16 4 bs) (2 ^ usize_bits md)) as [Hov|Hov].
    - cbn [bind]. unfold get_range.
      destruct (Z.leb_spec (rd_u e 24 4 bs) (rd_u e 24 4 bs + rd_u e 16 4 bs)) as [_|Hc]; [|lia].
      cbn [andb]. rewrite Hsk2.
      destruct (Z.leb_spec (rd_u e 24 4 bs + rd_u e 16 4 bs) (zlen bs - Z.of_nat base)) as [Hr|Hr].
      + cbn [ok_or bind].
        match goal with |- load_result _ _ _ (Ok ?s) => assert (s = loaded e bs) as -> end.
        { unfold loaded. fold base. rewrite Hfl. unfold loaded, sf_fdes.
          f_equal. unfold sub_bytes. rewrite skipn_skipn. f_equal. lia. }
        apply LrOk; try assumption. unfold fits. fold fo nf. lia.
      + cbn. apply LrNoFit; try assumption; [unfold fits; lia|].
        intros (_ & _ & _ & H32 & _ & Hc). rewrite H32 in Hov. lia.
    - destruct Hmd as [H32|H64].
      + rewrite H32 in *. destruct (overflow_checks md) eqn:Hoc.
        * cbn. apply LrPanic; try assumption. lia.
        * cbn [bind]. unfold get_range.
          assert (Hw : as_u 32 (rd_u e 24 4 bs + rd_u e 16 4 bs) < rd_u e 24 4 bs).
          { unfold as_u. lia. }
          destruct (Z.leb_spec (rd_u e 24 4 bs) (as_u 32 (rd_u e 24 4 bs + rd_u e 16 4 bs))) as [Hc|_]; [lia|].
          cbn. apply LrNoFit; try assumption; [unfold fits; lia|]. intros (_ & _ & _ & _ & Hc & _). congruence.
      + rewrite H64 in Hov. lia. }
  unfold slice_from_prefix, VERSION_V1, VERSION_V2 in *.
  destruct (Z.eqb_spec (rd_u e 2 1 bs) 1) as [H1|H1].
  - change (Z.of_nat FDE1_SIZE) with 17.
    destruct (Z.leb_spec (2 ^ usize_bits md) (17 * nf)) as [Ho|Ho].
    { cbn. apply LrNoFit; try assumption. all: unfold fits; fold fo nf; rewrite H1; change (1 =? 1) with true; cbv iota zeta; lia. }
    rewrite Htbl.
    destruct (Z.ltb_spec (zlen bs - Z.of_nat base - fo) (17 * nf)) as [Hs|Hs].
    { cbn. apply LrNoFit; try assumption. all: unfold fits; fold fo nf; rewrite H1; change (1 =? 1) with true; cbv iota zeta; lia. }
    cbn [ok_or bind fst]. apply Htail; [|lia].
    unfold loaded, sf_fdes. rewrite H1. cbn [Z.eqb Pos.eqb]. reflexivity.
  - destruct (Z.eqb_spec (rd_u e 2 1 bs) 2) as [H2|H2]; [|lia].
    change (Z.of_nat FDE2_SIZE) with 20.
    destruct (Z.leb_spec (2 ^ usize_bits md) (20 * nf)) as [Ho|Ho].
    { cbn. apply LrNoFit; try assumption. all: unfold fits; fold fo nf; rewrite H2; change (2 =? 1) with false; cbv iota zeta; lia. }
    rewrite Htbl.
    destruct (Z.ltb_spec (zlen bs - Z.of_nat base - fo) (20 * nf)) as [Hs|Hs].
    { cbn. apply LrNoFit; try assumption. all: unfold fits; fold fo nf; rewrite H2; change (2 =? 1) with false; cbv iota zeta; lia. }
    cbn [ok_or bind fst]. apply Htail; [|lia].
    unfold loaded, sf_fdes. rewrite H2. cbn [Z.eqb Pos.eqb]. reflexivity.
Qed.

(** ** The specification's view of the fields *)

Lemma spec_fields e bs : 4 <= zlen bs ->
  u_at e 0 2 bs = rd_u e 0 2 bs /\ spec_version bs = rd_u e 2 1 bs /\
  spec_flags bs = rd_u e 3 1 bs.
Proof.
  intros H. unfold spec_version, spec_flags. rewrite !u_at_rd.
  unfold zlen in H. rewrite (rd_u_byte e 2), (rd_u_byte e 3) by lia. auto.
Qed.

Lemma spec_fields2 e bs : 28 <= zlen bs ->
  spec_abi bs = rd_u e 4 1 bs /\ spec_fixed_fp bs = rd_s e 5 1 bs /\
  spec_fixed_ra bs = rd_s e 6 1 bs /\ spec_aux_len bs = rd_u e 7 1 bs /\
  spec_num_fdes e bs = rd_u e 8 4 bs /\ spec_num_fres e bs = rd_u e 12 4 bs /\
  spec_fre_len e bs = rd_u e 16 4 bs /\ spec_fdeoff e bs = rd_u e 20 4 bs /\
  spec_freoff e bs = rd_u e 24 4 bs.
Proof.
  intros H. unfold spec_abi, spec_fixed_fp, spec_fixed_ra, spec_aux_len, spec_num_fdes,
    spec_num_fres, spec_fre_len, spec_fdeoff, spec_freoff.
  rewrite !u_at_rd, !s_at_rd by lia. unfold zlen in H.
  rewrite (rd_u_byte e 4), (rd_u_byte e 7), (rd_s_byte e 5), (rd_s_byte e 6) by lia.
  repeat split; reflexivity.
Qed.

Lemma layout_fits_fits e bs : layout_fits e bs <-> fits e bs.
Proof.
  unfold layout_fits, fits. cbv zeta. unfold spec_base, spec_entry_size, spec_header_size.
  destruct (Z.le_gt_cases 28 (zlen bs)) as [H|H]; [|lia].
  destruct (spec_fields e bs ltac:(lia)) as (_ & -> & _).
  destruct (spec_fields2 e bs H) as (_ & _ & _ & -> & -> & _ & -> & -> & ->).
  tauto.
Qed.

Lemma good_version_rd e bs : 4 <= zlen bs ->
  (good_version bs <-> rd_u e 2 1 bs = 1 \/ rd_u e 2 1 bs = 2).
Proof.
  intros H. unfold good_version. destruct (spec_fields e bs H) as (_ & -> & _). tauto.
Qed.

Lemma good_magic_rd e bs : good_magic e bs <-> rd_u e 0 2 bs = MAGIC.
Proof. unfold good_magic. rewrite u_at_rd. reflexivity. Qed.

(** ** C01 *)

Lemma load_no_panic md e bs :
  wf_mode md -> rust_slice md bs ->
  (usize_bits md = 64 \/ overflow_checks md = false) ->
  load md e bs <> Panic.
Proof.
  intros Hmd Hlen Hs Hp. pose proof (load_spec md e bs Hmd Hlen) as HR.
  rewrite Hp in HR. inversion HR as [ | | | | ? ? ? ? ? ? H32 Hoc ? | ].
  destruct Hs as [Hs|Hs]; congruence.
Qed.

Lemma load_panic_iff md e bs :
  wf_mode md -> rust_slice md bs ->
  (load md e bs = Panic <->
   usize_bits md = 32 /\ overflow_checks md = true /\
   good_magic e bs /\ good_version bs /\
   spec_header_size <= zlen bs /\ spec_base bs <= zlen bs /\
   spec_base bs + spec_fdeoff e bs + spec_num_fdes e bs * spec_entry_size bs <= zlen bs /\
   2 ^ 32 <= spec_freoff e bs + spec_fre_len e bs).
Proof.
  intros Hmd Hlen. pose proof (load_spec md e bs Hmd Hlen) as HR. split.
  - intros Hp. rewrite Hp in HR.
    inversion HR as [ | | | | H4 HM HV H28 Ha Hf H32 Hoc Hov | ].
    destruct (spec_fields e bs ltac:(lia)) as (_ & HV' & _).
    destruct (spec_fields2 e bs H28) as (_ & _ & _ & E1 & E2 & _ & E3 & E4 & E5).
    rewrite good_magic_rd, (good_version_rd e) by exact H4.
    unfold spec_base, spec_header_size, spec_entry_size.
    rewrite HV', E1, E2, E3, E4, E5. repeat split; assumption.
  - intros (H32 & Hoc & HM & HV & H28 & Ha & Hf & Hov).
    unfold spec_base, spec_header_size, spec_entry_size in *.
    destruct (spec_fields e bs ltac:(lia)) as (_ & HV' & _).
    destruct (spec_fields2 e bs H28) as (_ & _ & _ & E1 & E2 & _ & E3 & E4 & E5).
    assert (H4 : 4 <= zlen bs) by lia.
    rewrite good_magic_rd in HM. rewrite (good_version_rd e) in HV by exact H4.
    rewrite HV', E1, E2, ?E3, ?E4, ?E5 in *.
    unfold rust_slice in Hlen. rewrite H32 in Hlen. change (2 ^ (32 - 1)) with 2147483648 in Hlen.
    inversion HR as [A|A1 A2|A1 A2 A3 A4|A1 A2 A3 A4 A5| |A1 A2 A3 A4]; try lia; try tauto.
    exfalso. unfold fits in A4. cbv zeta in A4. pose proof (rd_u1 e 7 bs). lia.
Qed.

(** ** C02 *)

Lemma load_ok_iff md e bs :
  wf_mode md -> rust_slice md bs ->
  ((exists sf, load md e bs = Ok sf) <->
   good_magic e bs /\ good_version bs /\ layout_fits e bs).
Proof.
  intros Hmd Hlen. pose proof (load_spec md e bs Hmd Hlen) as HR.
  rewrite good_magic_rd, layout_fits_fits. split.
  - intros (sf & Hsf). rewrite Hsf in HR. inversion HR as [| | | | |H4 HM HV HF].
    rewrite (good_version_rd e) by exact H4. auto.
  - intros (HM & HV & HF).
    assert (H28 : 28 <= zlen bs) by apply HF.
    rewrite (good_version_rd e) in HV by lia.
    assert (HB := HF). unfold fits in HB. cbv zeta in HB.
    inversion HR as [A|A1 A2|A1 A2 A3 A4|A1 A2 A3 A4 A0|A1 A2 A3 A4 A5 A6 A7 A8 A9|]; try lia; try tauto.
    + exfalso. unfold rust_slice in Hlen. rewrite A7 in Hlen. change (2 ^ (32 - 1)) with 2147483648 in Hlen.
      pose proof (rd_u1 e 7 bs). lia.
    + eauto.
Qed.

Lemma load_errors md e bs er :
  wf_mode md -> rust_slice md bs ->
  load md e bs = Err er ->
  match er with
  | IncorrectEndian => 4 <= zlen bs /\ ~ good_magic e bs
  | UnsupportedVersion v =>
      4 <= zlen bs /\ good_magic e bs /\ v = spec_version bs /\ ~ good_version bs
  | UnexpectedEof =>
      zlen bs < 4 \/ (4 <= zlen bs /\ good_magic e bs /\ good_version bs /\ ~ layout_fits e bs)
  | _ => False
  end.
Proof.
  intros Hmd Hlen He. pose proof (load_spec md e bs Hmd Hlen) as HR. rewrite He in HR.
  inversion HR as [A|A1 A2|A1 A2 A3 A4|A1 A2 A3 A4 A5| |]; subst.
  - left; assumption.
  - rewrite good_magic_rd. auto.
  - rewrite good_magic_rd, (good_version_rd e) by exact A1.
    destruct (spec_fields e bs A1) as (_ & HV & _). rewrite HV. tauto.
  - right. rewrite good_magic_rd, (good_version_rd e), layout_fits_fits by exact A1. auto.
Qed.

Lemma load_ok md e bs sf :
  wf_mode md -> rust_slice md bs -> load md e bs = Ok sf ->
  sf = loaded e bs /\ 28 <= zlen bs /\ rd_u e 0 2 bs = MAGIC /\
  (rd_u e 2 1 bs = 1 \/ rd_u e 2 1 bs = 2) /\ fits e bs.
Proof.
  intros Hmd Hlen H. pose proof (load_spec md e bs Hmd Hlen) as HR. rewrite H in HR.
  inversion HR as [| | | | |H4 HM HV HF]. repeat split; try assumption; apply HF.
Qed.

(** ** C03 *)

Lemma load_accessors md e bs sf :
  wf_mode md -> rust_slice md bs -> load md e bs = Ok sf ->
  version sf = spec_version bs /\ flags sf = spec_flags bs /\ abi sf = spec_abi bs /\
  fixed_fp_offset sf = nonzero (spec_fixed_fp bs) /\
  fixed_ra_offset sf = nonzero (spec_fixed_ra bs) /\
  num_fdes sf = spec_num_fdes e bs /\ num_fres sf = spec_num_fres e bs /\
  raw_aux sf = spec_aux bs /\ sf_fres sf = spec_fre_bytes e bs.
Proof.
  intros Hmd Hlen H. apply load_ok in H; try assumption.
  destruct H as (-> & H28 & HM & HV & HF).
  destruct (spec_fields e bs ltac:(lia)) as (_ & E1 & E2).
  destruct (spec_fields2 e bs H28) as (E3 & E4 & E5 & E6 & E7 & E8 & E9 & E10 & E11).
  unfold fixed_fp_offset, fixed_ra_offset, nonzero, spec_aux, spec_fre_bytes, spec_base.
  rewrite E1, E2, E3, E4, E5, E6, E7, E8, E9, E11.
  repeat split; try reflexivity.
  cbn [loaded sf_fres]. rewrite slice_sub_bytes. f_equal.
  unfold spec_header_size, HEADER_SIZE. pose proof (rd_u1 e 7 bs). pose proof (rd_u4 e 24 bs). lia.
Qed.

(** ** C04 *)

Lemma load_wrong_endian md e bs sf :
  wf_mode md -> rust_slice md bs -> load md e bs = Ok sf ->
  load md (swap e) bs = Err IncorrectEndian.
Proof.
  intros Hmd Hlen H. apply load_ok in H; try assumption.
  destruct H as (_ & H28 & HM & _ & _).
  unfold load, preamble_from_prefix.
  destruct (Nat.ltb_spec (length bs) PREAMBLE_SIZE) as [Hc|_]; [unfold zlen, PREAMBLE_SIZE in *; lia|].
  cbn [ok_or bind pre_magic].
  assert (HN : rd_u (swap e) 0 2 bs <> MAGIC).
  { revert HM. unfold rd_u, sub_bytes. cbn [skipn].
    destruct bs as [|a [|b t]]; [unfold zlen in H28; cbn [length] in H28; lia|unfold zlen in H28; cbn [length] in H28; lia|].
    cbn [firstn]. pose proof (bZ_range a). pose proof (bZ_range b).
    destruct e; cbn [swap dec rev app dec_le]; unfold MAGIC; lia. }
  destruct (Z.eqb_spec (rd_u (swap e) 0 2 bs) MAGIC) as [Hc|_]; [contradiction|]. reflexivity.
Qed.

(** ** C05 *)

Lemma load_suffix md e bs x sf :
  wf_mode md -> rust_slice md (bs ++ x) -> load md e bs = Ok sf ->
  load md e (bs ++ x) = Ok sf.
Proof.
  intros Hmd Hlen H.
  assert (Hlen1 : rust_slice md bs)
    by (unfold rust_slice in *; rewrite zlen_app in Hlen; pose proof (zlen_nonneg x); lia).
  apply load_ok in H; try assumption. destruct H as (-> & H28 & HM & HV & HF).
  assert (HL : (28 <= length bs)%nat) by (unfold zlen in H28; lia).
  assert (E1 : forall off n, (off + n <= 28)%nat -> rd_u e off n (bs ++ x) = rd_u e off n bs)
    by (intros; apply rd_u_app; lia).
  assert (E2 : forall off n, (off + n <= 28)%nat -> rd_s e off n (bs ++ x) = rd_s e off n bs)
    by (intros; apply rd_s_app; lia).
  assert (HF' : fits e (bs ++ x)).
  { unfold fits in *. cbv zeta in *. rewrite !E1 by lia. rewrite zlen_app.
    pose proof (zlen_nonneg x). lia. }
  destruct (proj2 (load_ok_iff md e (bs ++ x) Hmd Hlen)) as (sf' & Hsf').
  { rewrite good_magic_rd, layout_fits_fits.
    rewrite (good_version_rd e) by (rewrite zlen_app; pose proof (zlen_nonneg x); lia).
    rewrite !E1 by lia. auto. }
  rewrite Hsf'. f_equal. apply load_ok in Hsf'; try assumption. destruct Hsf' as (-> & _).
  unfold loaded. rewrite !E1, !E2 by lia.
  unfold fits in HF. cbv zeta in HF.
  pose proof (rd_u1 e 7 bs) as B1. pose proof (rd_u4 e 20 bs) as B2. pose proof (rd_u4 e 24 bs) as B3.
  pose proof (rd_u4 e 8 bs) as B4. pose proof (rd_u4 e 16 bs) as B5.
  assert (Htl : forall k, (k <= length bs)%nat -> skipn k (bs ++ x) = skipn k bs ++ x).
  { intros k Hk. rewrite skipn_app. replace (k - length bs)%nat with 0%nat by lia. reflexivity. }
  assert (Hbase : (HEADER_SIZE + Z.to_nat (rd_u e 7 1 bs) + Z.to_nat (rd_u e 20 4 bs) <= length bs)%nat).
  { unfold HEADER_SIZE, zlen in *. destruct (rd_u e 2 1 bs =? 1); lia. }
  f_equal.
  - apply sub_bytes_app. unfold HEADER_SIZE, zlen in *. lia.
  - rewrite Htl by exact Hbase.
    destruct (Z.eqb_spec (rd_u e 2 1 bs) 1) as [H1|H1]; f_equal; apply decode_entries_app;
      rewrite skipn_length; unfold FDE1_SIZE, FDE2_SIZE, HEADER_SIZE, zlen in *; lia.
  - apply sub_bytes_app. unfold HEADER_SIZE, zlen in *. lia.
Qed.

(** ** C07 *)

Lemma loaded_fdes_length md e bs sf :
  wf_mode md -> rust_slice md bs -> load md e bs = Ok sf ->
  zlen (it_fdes (fdes sf)) = spec_num_fdes e bs.
Proof.
  intros Hmd Hlen H. apply load_ok in H; try assumption. destruct H as (-> & H28 & HM & HV & HF).
  destruct (spec_fields2 e bs H28) as (_ & _ & _ & _ & E7 & _). rewrite E7.
  unfold fdes, loaded. cbn [sf_fdes it_fdes]. pose proof (rd_u4 e 8 bs).
  destruct (rd_u e 2 1 bs =? 1); unfold zlen; rewrite map_length, decode_entries_length; lia.
Qed.

Lemma loaded_fdes_nth md e bs sf i :
  wf_mode md -> rust_slice md bs -> load md e bs = Ok sf ->
  0 <= i < spec_num_fdes e bs ->
  exists f, nth_error (it_fdes (fdes sf)) (Z.to_nat i) = Some f /\ view_fde f = spec_entry e bs i.
Proof.
  intros Hmd Hlen H Hi. apply load_ok in H; try assumption. destruct H as (-> & H28 & HM & HV & HF).
  destruct (spec_fields e bs ltac:(lia)) as (_ & E1 & _).
  destruct (spec_fields2 e bs H28) as (_ & _ & _ & E6 & E7 & _ & _ & E10 & _).
  rewrite E7 in Hi.
  unfold fits in HF. cbv zeta in HF.
  pose proof (rd_u1 e 7 bs) as B1. pose proof (rd_u4 e 20 bs) as B2. pose proof (rd_u4 e 8 bs) as B4.
  unfold fdes, loaded. cbn [sf_fdes it_fdes].
  unfold spec_entry, spec_entry_pos, spec_base, spec_entry_size, spec_header_size.
  rewrite E1, E6, E10.
  destruct (Z.eqb_spec (rd_u e 2 1 bs) 1) as [H1|H1]; cbn [it_fdes];
    rewrite nth_error_map, decode_entries_nth by lia; cbn [option_map];
    eexists; (split; [reflexivity|]);
    unfold view_fde, fde1_decode, fde2_decode;
    cbn [fde_start_address fde_size fde_start_fre_off fde_num_fres fde_info fde_rep_size
         f1_start_address f1_size f1_start_fre_off f1_num_fres f1_info
         f2_start_address f2_size f2_start_fre_off f2_num_fres f2_info f2_rep_size];
    rewrite !rd_u_sub, !rd_s_sub by (unfold FDE1_SIZE, FDE2_SIZE; lia).
  - rewrite s_at_rd by lia. rewrite !u_at_rd.
    rewrite !rd_u_skipn. unfold rd_s. rewrite !rd_u_skipn.
    unfold FDE1_SIZE, HEADER_SIZE. repeat f_equal; lia.
  - rewrite s_at_rd by lia. rewrite !u_at_rd.
    rewrite !rd_u_skipn. unfold rd_s. rewrite !rd_u_skipn.
    unfold FDE2_SIZE, HEADER_SIZE. repeat f_equal; lia.
Qed.

(** The entries of [l] at positions [lo..hi). *)
Definition window {A} (l : list A) (w : Z * Z) : list A :=
  firstn (Z.to_nat (snd w - fst w)) (skipn (Z.to_nat (fst w)) l).

Definition win_ok {A} (l : list A) (w : Z * Z) : Prop := 0 <= fst w <= snd w /\ snd w <= zlen l.

Lemma window_length {A} (l : list A) w : win_ok l w -> zlen (window l w) = snd w - fst w.
Proof.
  unfold win_ok, window, zlen. intros H. rewrite firstn_length, skipn_length. lia.
Qed.

Lemma skipn_cons_nth {A} (l : list A) n x t :
  skipn n l = x :: t -> nth_error l n = Some x /\ t = skipn (S n) l.
Proof.
  revert l. induction n as [|n IH]; intros l H.
  - cbn in H. subst l. split; reflexivity.
  - destruct l as [|y l]; [discriminate|]. cbn in H. apply IH in H. exact H.
Qed.

Lemma nth_error_skipn {A} (l : list A) n x :
  nth_error l n = Some x -> skipn n l = x :: skipn (S n) l.
Proof.
  revert l. induction n as [|n IH]; intros l H; destruct l as [|y l]; cbn in *; try discriminate.
  - congruence.
  - apply IH. exact H.
Qed.

Lemma firstn_cons_S {A} (x : A) l n : (0 < n)%nat -> firstn n (x :: l) = x :: firstn (n - 1) l.
Proof. destruct n; [lia|]. intros _. cbn. rewrite Nat.sub_0_r. reflexivity. Qed.

Lemma nth_error_in_range {A} (l : list A) z : 0 <= z < zlen l -> exists x, nth_error l (Z.to_nat z) = Some x.
Proof.
  intros H. destruct (nth_error l (Z.to_nat z)) as [x|] eqn:E; [eauto|].
  apply nth_error_None in E. unfold zlen in H. lia.
Qed.

(** [skipn] of a window. *)
Lemma window_skipn {A} (l : list A) w n :
  win_ok l w -> Z.of_nat n <= snd w - fst w ->
  skipn n (window l w) = window l (fst w + Z.of_nat n, snd w).
Proof.
  unfold win_ok, window. cbn [fst snd]. intros H Hn.
  rewrite skipn_firstn_comm, skipn_skipn. f_equal; [lia|]. f_equal. lia.
Qed.

Lemma window_cons {A} (l : list A) lo hi :
  win_ok l (lo, hi) -> lo < hi ->
  exists x, nth_error l (Z.to_nat lo) = Some x /\ window l (lo, hi) = x :: window l (lo + 1, hi).
Proof.
  intros HW Hlt. unfold win_ok in HW. cbn [fst snd] in HW.
  destruct (nth_error_in_range l lo) as (x & Hx); [lia|].
  exists x. split; [exact Hx|]. unfold window. cbn [fst snd].
  rewrite (nth_error_skipn _ _ _ Hx). rewrite firstn_cons_S by lia. do 2 f_equal; [lia|].
  f_equal. lia.
Qed.

Lemma window_snoc {A} (l : list A) lo hi :
  win_ok l (lo, hi) -> lo < hi ->
  exists x, nth_error l (Z.to_nat (hi - 1)) = Some x /\ window l (lo, hi) = window l (lo, hi - 1) ++ [x].
Proof.
  intros HW Hlt. unfold win_ok in HW. cbn [fst snd] in HW.
  destruct (nth_error_in_range l (hi - 1)) as (x & Hx); [lia|].
  exists x. split; [exact Hx|]. unfold window. cbn [fst snd].
  replace (Z.to_nat (hi - lo)) with (Z.to_nat (hi - 1 - lo) + 1)%nat by lia.
  rewrite <- (firstn_skipn (Z.to_nat (hi - 1 - lo)) (firstn (Z.to_nat (hi - 1 - lo) + 1) (skipn (Z.to_nat lo) l))).
  rewrite firstn_firstn, skipn_firstn_comm, skipn_skipn. f_equal.
  - f_equal. lia.
  - replace (Z.to_nat lo + Z.to_nat (hi - 1 - lo))%nat with (Z.to_nat (hi - 1)) by lia.
    rewrite (nth_error_skipn _ _ _ Hx).
    replace (Z.to_nat (hi - 1 - lo) + 1 - Z.to_nat (hi - 1 - lo))%nat with 1%nat by lia. reflexivity.
Qed.

Lemma window_empty {A} (l : list A) lo hi : hi <= lo -> window l (lo, hi) = [].
Proof. intros H. unfold window. cbn [fst snd]. replace (Z.to_nat (hi - lo)) with 0%nat by lia. reflexivity. Qed.

(** The descriptor delivered for index [i]. *)
Definition at_index (l : list fde) (o : option entry) (i : option Z) : Prop :=
  match o, i with
  | None, None => True
  | Some en, Some i => 0 <= i < zlen l /\ nth_error l (Z.to_nat i) = Some (en_fde en)
  | _, _ => False
  end.

Lemma fdi_step_window l fr w op :
  win_ok l w ->
  at_index l (fst (fdi_step (FdeIter (window l w) fr) op)) (fst (window_step w op)) /\
  win_ok l (snd (window_step w op)) /\
  snd (fdi_step (FdeIter (window l w) fr) op) = FdeIter (window l (snd (window_step w op))) fr.
Proof.
  intros HW. destruct w as [lo hi]. assert (HW' := HW). unfold win_ok in HW'. cbn [fst snd] in HW'.
  destruct op as [| |n]; cbn [fdi_step window_step].
  - destruct (Z.ltb_spec lo hi) as [Hlt|Hge]; unfold fdi_next; cbn [it_fdes it_fres].
    + destruct (window_cons l lo hi HW Hlt) as (x & Hx & ->). cbn [fst snd at_index en_fde].
      repeat split; cbn; try assumption; try lia.
    + rewrite window_empty by lia. cbn. repeat split; cbn; try lia. rewrite window_empty by lia. reflexivity.
  - destruct (Z.ltb_spec lo hi) as [Hlt|Hge]; unfold fdi_next_back; cbn [it_fdes it_fres].
    + destruct (window_snoc l lo hi HW Hlt) as (x & Hx & ->). rewrite rev_app_distr. cbn [rev app fst snd at_index en_fde].
      rewrite rev_involutive. repeat split; cbn; try assumption; try lia.
    + rewrite window_empty by lia. cbn. repeat split; cbn; try lia. rewrite window_empty by lia. reflexivity.
  - unfold fdi_nth; cbn [it_fdes it_fres].
    destruct (Z.ltb_spec (lo + Z.of_nat n) hi) as [Hlt|Hge].
    + rewrite window_skipn by (cbn; try assumption; lia). cbn [fst snd].
      destruct (window_cons l (lo + Z.of_nat n) hi) as (x & Hx & ->); [unfold win_ok; cbn; lia|lia|].
      cbn [fst snd at_index en_fde]. repeat split; cbn; try assumption; try lia.
    + rewrite skipn_all2.
      2:{ pose proof (window_length l (lo, hi) HW) as HL. unfold zlen in HL. cbn in HL. lia. }
      cbn [fst snd at_index]. repeat split; cbn; try lia. rewrite window_empty by lia. reflexivity.
Qed.

Lemma fdi_run_window l fr ops : forall w,
  win_ok l w ->
  Forall2 (at_index l) (fst (fdi_run (FdeIter (window l w) fr) ops)) (fst (window_run w ops)) /\
  win_ok l (snd (window_run w ops)) /\
  snd (fdi_run (FdeIter (window l w) fr) ops) = FdeIter (window l (snd (window_run w ops))) fr.
Proof.
  induction ops as [|op t IH]; intros w HW; cbn [fdi_run window_run].
  - repeat split; cbn; try constructor; apply HW.
  - destruct (fdi_step_window l fr w op HW) as (H1 & H2 & H3).
    destruct (fdi_step (FdeIter (window l w) fr) op) as [o it'].
    destruct (window_step w op) as [i w']. cbn [fst snd] in *. subst it'.
    destruct (IH w' H2) as (H4 & H5 & H6).
    destruct (fdi_run (FdeIter (window l w') fr) t) as [os it''].
    destruct (window_run w' t) as [is w'']. cbn [fst snd] in *.
    repeat split; try assumption; try apply H5. constructor; assumption.
Qed.

Lemma iterator_spec md e bs sf ops :
  wf_mode md -> rust_slice md bs -> load md e bs = Ok sf ->
  let run := fdi_run (fdes sf) ops in
  let spec := window_run (0, spec_num_fdes e bs) ops in
  map (option_map (fun en => view_fde (en_fde en))) (fst run)
    = map (option_map (spec_entry e bs)) (fst spec) /\
  fdi_size_hint (snd run) = (snd (snd spec) - fst (snd spec), Some (snd (snd spec) - fst (snd spec))).
Proof.
  intros Hmd Hlen H. cbv zeta.
  pose proof (loaded_fdes_length md e bs sf Hmd Hlen H) as HN.
  assert (HW : win_ok (it_fdes (fdes sf)) (0, spec_num_fdes e bs)).
  { unfold win_ok. cbn [fst snd]. rewrite <- HN. pose proof (zlen_nonneg (it_fdes (fdes sf))). lia. }
  assert (HE : fdes sf = FdeIter (window (it_fdes (fdes sf)) (0, spec_num_fdes e bs)) (it_fres (fdes sf))).
  { assert (HW0 : window (it_fdes (fdes sf)) (0, spec_num_fdes e bs) = it_fdes (fdes sf)).
    { unfold window. cbn [fst snd]. change (Z.to_nat 0) with 0%nat. cbn [skipn].
      apply firstn_all2. unfold zlen in HN. lia. }
    rewrite HW0. destruct (fdes sf). reflexivity. }
  rewrite HE.
  destruct (fdi_run_window (it_fdes (fdes sf)) (it_fres (fdes sf)) ops _ HW) as (H1 & H2 & H3).
  split.
  - clear H2 H3. induction H1 as [|o i os is Hoi _ IH]; cbn [map]; [reflexivity|]. f_equal; [|exact IH].
    destruct o as [en|], i as [i|]; cbn [at_index option_map] in *; try contradiction; [|reflexivity].
    destruct Hoi as [Hi Hn]. rewrite HN in Hi.
    destruct (loaded_fdes_nth md e bs sf i Hmd Hlen H Hi) as (f & Hf & Hv). congruence.
  - rewrite H3. unfold fdi_size_hint. cbn [it_fdes]. rewrite window_length by exact H2. reflexivity.
Qed.
