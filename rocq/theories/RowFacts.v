(** Facts about decoding rows and the row iterator (C09-C13, C21, C22). *)
From Verif Require Export LoadFacts.

(** ** Ranges of decoded descriptors *)

Lemma rd_s4 e off bs : in_i32 (rd_s e off 4 bs).
Proof. unfold rd_s, in_i32, i32_min, i32_max. pose proof (as_s_range 32 (rd_u e off 4 bs)).
  change (8 * Z.of_nat 4) with 32. change (2 ^ (32 - 1)) with 2147483648 in *. lia. Qed.

Lemma fde1_decode_ok e bs : fde_ok (FdeV1 (fde1_decode e bs)).
Proof.
  unfold fde_ok, fde1_decode; cbn. unfold in_u32, in_u8.
  repeat split; try apply rd_s4; try apply rd_u4; apply rd_u1.
Qed.
Lemma fde2_decode_ok e bs : fde_ok (FdeV2 (fde2_decode e bs)).
Proof.
  unfold fde_ok, fde2_decode; cbn. unfold in_u32, in_u8.
  repeat split; try apply rd_s4; try apply rd_u4; apply rd_u1.
Qed.

Lemma decode_entries_forall {A} size (d : bytes -> A) (P : A -> Prop) n bs :
  (forall b, P (d b)) -> Forall P (decode_entries size d n bs).
Proof. intros H. revert bs. induction n as [|n IH]; intros bs; cbn; constructor; auto. Qed.

Lemma loaded_fdes_ok md e bs sf :
  wf_mode md -> rust_slice md bs -> load md e bs = Ok sf ->
  Forall fde_ok (it_fdes (fdes sf)).
Proof.
  intros Hmd Hlen H. apply load_ok in H; try assumption. destruct H as (-> & _).
  unfold fdes, loaded. cbn [sf_fdes it_fdes].
  destruct (rd_u e 2 1 bs =? 1); apply Forall_map;
    apply decode_entries_forall; intros b; [apply fde1_decode_ok|apply fde2_decode_ok].
Qed.

(** ** Chunks *)

Lemma decode_entries_map {A} size (d : bytes -> A) n bs :
  decode_entries size d n bs = map d (decode_entries size (fun b => b) n bs).
Proof. revert bs. induction n as [|n IH]; intros bs; cbn; [reflexivity|]. rewrite IH. reflexivity. Qed.

Lemma chunks_concat size n bs :
  (n * size <= length bs)%nat ->
  bs = concat (decode_entries size (fun b => b) n bs) ++ skipn (n * size) bs.
Proof.
  revert bs. induction n as [|n IH]; intros bs H; cbn [decode_entries concat]; [reflexivity|].
  cbn in H. rewrite <- app_assoc.
  replace (S n * size)%nat with (size + n * size)%nat by lia. rewrite <- skipn_skipn.
  rewrite <- IH by (rewrite skipn_length; lia). symmetry. apply firstn_skipn.
Qed.

Lemma chunks_length size n bs :
  (n * size <= length bs)%nat ->
  Forall (fun c => length c = size) (decode_entries size (fun b => b) n bs).
Proof.
  revert bs. induction n as [|n IH]; intros bs H; cbn [decode_entries]; constructor; cbn in H.
  - rewrite firstn_length. lia.
  - apply IH. rewrite skipn_length. lia.
Qed.

Lemma chunks_of_concat size cs rest :
  Forall (fun c : bytes => length c = size) cs ->
  decode_entries size (fun b => b) (length cs) (concat cs ++ rest) = cs.
Proof.
  intros H. rewrite <- (map_id cs) at 2.
  apply (decode_entries_concat size (fun b => b) (fun b : bytes => b)).
  eapply Forall_impl; [|exact H]. auto.
Qed.

Lemma concat_length_const {A} size (cs : list (list A)) :
  Forall (fun c => length c = size) cs -> length (concat cs) = (length cs * size)%nat.
Proof.
  induction 1 as [|c t Hc _ IH]; cbn [concat length]; [reflexivity|].
  rewrite app_length, IH, Hc. lia.
Qed.

Lemma rd_s_sint e n c : (0 < n)%nat -> length c = n -> rd_s e 0 n c = sint e c.
Proof.
  intros Hn HL. rewrite sint_dec by (destruct c; cbn in HL; [lia|congruence]).
  unfold rd_s, rd_u, sub_bytes. cbn [skipn]. rewrite firstn_all2 by lia.
  unfold zlen. rewrite HL. reflexivity.
Qed.

Lemma map_rd_s_sint e n cs :
  (0 < n)%nat -> Forall (fun c => length c = n) cs -> map (fun b => rd_s e 0 n b) cs = map (sint e) cs.
Proof. intros Hn H. induction H as [|c t Hc _ IH]; cbn; [reflexivity|]. rewrite IH, rd_s_sint by assumption. reflexivity. Qed.

Lemma firstn_pad3 l : (length l <= 3)%nat -> firstn (length l) (pad3 l) = l.
Proof. destruct l as [|a [|b [|c [|d t]]]]; cbn; intros H; try reflexivity. lia. Qed.

(** ** The row decoder *)

Lemma fretype_num i : in_u8 i -> fre_type_u8 (fretype i) = fre_type_num i.
Proof.
  intros H. rewrite fretype_arith by exact H. unfold fre_type_num, bits.
  change (2 ^ 0) with 1. change (2 ^ 3) with 8. rewrite Z.div_1_r. reflexivity.
Qed.

Lemma offset_size_num i : in_u8 i -> fre_offset_u8 (offset_size i) = bits 5 2 i.
Proof. intros H. rewrite offset_size_arith by exact H. reflexivity. Qed.
Lemma offset_count_num i : in_u8 i -> offset_count i = bits 1 4 i.
Proof. intros H. rewrite offset_count_arith by exact H. reflexivity. Qed.
Lemma base_num i : in_u8 i -> base_reg_u8 (cfa_base_reg_id i) = bits 0 1 i.
Proof.
  intros H. rewrite cfa_base_reg_id_arith by exact H. unfold bits.
  change (2 ^ 0) with 1. rewrite Z.div_1_r. reflexivity.
Qed.
Lemma mangled_num i : in_u8 i -> mangled_ra_p i = (bits 7 1 i =? 1).
Proof.
  intros H. rewrite mangled_ra_p_arith by exact H. unfold bits, in_u8 in *.
  change (2 ^ 7) with 128. change (2 ^ 1) with 2. lia.
Qed.

Lemma width_of_fretype t aw : width_of (fre_type_u8 t) = Some aw <->
  (t = Addr1 /\ aw = 1) \/ (t = Addr2 /\ aw = 2) \/ (t = Addr4 /\ aw = 4).
Proof. destruct t; cbn; split; intros H; try discriminate; try (injection H as <-; auto);
  destruct H as [[? ?]|[[? ?]|[? ?]]]; subst; try discriminate; reflexivity. Qed.

Lemma width_of_offset o ow : width_of (fre_offset_u8 o) = Some ow <->
  (o = Off1B /\ ow = 1) \/ (o = Off2B /\ ow = 2) \/ (o = Off4B /\ ow = 4).
Proof. destruct o; cbn; split; intros H; try discriminate; try (injection H as <-; auto);
  destruct H as [[? ?]|[[? ?]|[? ?]]]; subst; try discriminate; reflexivity. Qed.

(** The row read from [bs] with widths [aw] and [ow]. *)
Definition fre_of (e : endian) (f : fde) (aw ow : nat) (bs : bytes) : fre :=
  let info := rd_u e aw 1 bs in
  {| fr_fde := f; fr_start := rd_u e 0 aw bs; fr_info := info;
     fr_offsets := pad3 (decode_entries ow (fun b => rd_s e 0 ow b) (Z.to_nat (offset_count info))
                           (skipn (aw + 1) bs)) |}.

(** Complete case table for [FrameRowEntry::load]. *)
Lemma fre_load_table md e f bs :
  wf_mode md -> fde_ok f ->
  match width_of (fre_type_num (fde_info f)) with
  | None => fre_load md e f bs = Err (UnsupportedFreType (fretype (fde_info f)))
  | Some aw =>
      if zlen bs <? aw + 1 then fre_load md e f bs = Err UnexpectedEof
      else
        let info := rd_u e (Z.to_nat aw) 1 bs in
        let count := bits 1 4 info in
        if 3 <? count then fre_load md e f bs = Err (InvalidFreOffsetCount count)
        else
          match width_of (bits 5 2 info) with
          | None => fre_load md e f bs = Err (UnsupportedFreOffset OffReserved3)
          | Some ow =>
              if zlen bs <? aw + 1 + count * ow then fre_load md e f bs = Err UnexpectedEof
              else if rd_u e 0 (Z.to_nat aw) bs <? fde_size f
              then fre_load md e f bs =
                     Ok (fre_of e f (Z.to_nat aw) (Z.to_nat ow) bs,
                         skipn (Z.to_nat (aw + 1 + count * ow)) bs)
              else fre_load md e f bs = Panic
          end
  end.
Proof.
  intros Hmd (_ & _ & _ & _ & Hi).
  rewrite <- (fretype_num _ Hi). unfold fre_load.
  destruct (width_of (fre_type_u8 (fretype (fde_info f)))) as [aw|] eqn:Haw.
  2:{ destruct (fretype (fde_info f)); cbn in Haw; try discriminate; reflexivity. }
  apply width_of_fretype in Haw.
  assert (HH : match fretype (fde_info f) with
    | Addr1 => fre_header e 1 bs
    | Addr2 => fre_header e 2 bs
    | Addr4 => fre_header e 4 bs
    | ty => Err (UnsupportedFreType ty)
    end = fre_header e (Z.to_nat aw) bs)
    by (destruct Haw as [[-> ->]|[[-> ->]|[-> ->]]]; reflexivity).
  rewrite HH. clear HH.
  assert (Haw' : aw = 1 \/ aw = 2 \/ aw = 4) by tauto. clear Haw.
  unfold fre_header.
  destruct (Z.ltb_spec (zlen bs) (aw + 1)) as [Hs|Hs].
  { destruct (Nat.ltb_spec (length bs) (Z.to_nat aw + 1)) as [_|Hc]; [reflexivity|unfold zlen in *; lia]. }
  destruct (Nat.ltb_spec (length bs) (Z.to_nat aw + 1)) as [Hc|_]; [unfold zlen in *; lia|].
  cbn [bind]. cbv zeta. set (info := rd_u e (Z.to_nat aw) 1 bs).
  assert (Hinfo : in_u8 info) by apply rd_u1.
  rewrite <- (offset_count_num info Hinfo).
  assert (Hc0 : 0 <= offset_count info) by (rewrite offset_count_arith by exact Hinfo; lia).
  destruct (Z.ltb_spec 3 (offset_count info)) as [Hc3|Hc3].
  { replace ((0 <=? offset_count info) && (offset_count info <=? 3)) with false by lia. reflexivity. }
  replace ((0 <=? offset_count info) && (offset_count info <=? 3)) with true by lia. cbn [negb].
  rewrite <- (offset_size_num info Hinfo).
  destruct (width_of (fre_offset_u8 (offset_size info))) as [ow|] eqn:How.
  2:{ destruct (offset_size info); cbn in How; try discriminate; reflexivity. }
  apply width_of_offset in How.
  assert (HH : match offset_size info with
      | Off1B => fre_read_offsets md e 1 (offset_count info) (skipn (Z.to_nat aw + 1) bs)
      | Off2B => fre_read_offsets md e 2 (offset_count info) (skipn (Z.to_nat aw + 1) bs)
      | Off4B => fre_read_offsets md e 4 (offset_count info) (skipn (Z.to_nat aw + 1) bs)
      | ty => Err (UnsupportedFreOffset ty)
      end = fre_read_offsets md e (Z.to_nat ow) (offset_count info) (skipn (Z.to_nat aw + 1) bs))
    by (destruct How as [[-> ->]|[[-> ->]|[-> ->]]]; reflexivity).
  rewrite HH. clear HH.
  assert (How' : ow = 1 \/ ow = 2 \/ ow = 4) by tauto. clear How.
  unfold fre_read_offsets, slice_from_prefix.
  assert (Hbits : 12 < 2 ^ usize_bits md) by (destruct Hmd as [-> | ->]; reflexivity).
  replace (Z.of_nat (Z.to_nat ow)) with ow by lia.
  destruct (Z.leb_spec (2 ^ usize_bits md) (ow * offset_count info)) as [Hc|_].
  { exfalso. destruct How' as [->|[->| ->]]; lia. }
  assert (Hsk : zlen (skipn (Z.to_nat aw + 1) bs) = zlen bs - aw - 1)
    by (unfold zlen in *; rewrite skipn_length; lia).
  rewrite Hsk. rewrite (Z.mul_comm (offset_count info) ow).
  destruct (Z.ltb_spec (zlen bs) (aw + 1 + ow * offset_count info)) as [Hl|Hl].
  { replace (zlen bs - aw - 1 <? ow * offset_count info) with true by lia. reflexivity. }
  replace (zlen bs - aw - 1 <? ow * offset_count info) with false by lia.
  cbn [ok_or bind fst snd].
  destruct (rd_u e 0 (Z.to_nat aw) bs <? fde_size f); [|reflexivity].
  unfold fre_of. fold info. rewrite skipn_skipn. do 3 f_equal.
  assert (0 <= ow * offset_count info) by (destruct How' as [->|[->| ->]]; lia). lia.
Qed.

Lemma base_is_sp_num i : in_u8 i ->
  match cfa_base_reg_id i with Sp => true | Fp => false end = (bits 0 1 i =? 1).
Proof. intros H. rewrite <- base_num by exact H. destruct (cfa_base_reg_id i); reflexivity. Qed.

Lemma width_cases t w : width_of t = Some w -> w = 1 \/ w = 2 \/ w = 4.
Proof.
  unfold width_of. destruct (t =? 0); [intros [= <-]; auto|].
  destruct (t =? 1); [intros [= <-]; auto|]. destruct (t =? 2); [intros [= <-]; auto|discriminate].
Qed.

(** Splitting a byte string at a row boundary. *)
Lemma rd_u_single e n start b rest :
  length start = n -> rd_u e n 1 (start ++ b :: rest) = bZ b.
Proof.
  intros <-. unfold rd_u, sub_bytes. rewrite skipn_app_exact by reflexivity. cbn [firstn].
  apply dec_single.
Qed.

Lemma fre_of_view e f aw ow bs :
  let info := rd_u e (Z.to_nat aw) 1 bs in
  (aw = 1 \/ aw = 2 \/ aw = 4) -> (ow = 1 \/ ow = 2 \/ ow = 4) ->
  width_of (bits 5 2 info) = Some ow -> bits 1 4 info <= 3 ->
  aw + 1 + bits 1 4 info * ow <= zlen bs ->
  spec_row_at e aw bs (view_fre (fre_of e f (Z.to_nat aw) (Z.to_nat ow) bs))
    (skipn (Z.to_nat (aw + 1 + bits 1 4 info * ow)) bs).
Proof.
  intros info Haw How Hw Hc Hl.
  assert (Hinfo : in_u8 info) by apply rd_u1.
  assert (Hc0 : 0 <= bits 1 4 info) by (unfold bits; lia).
  assert (Hco : 0 <= bits 1 4 info * ow) by (destruct How as [->|[->| ->]]; lia).
  set (a := Z.to_nat aw) in *. set (o := Z.to_nat ow).
  assert (Hbyte : exists b rest, skipn a bs = b :: rest /\ info = bZ b).
  { destruct (skipn a bs) as [|b rest] eqn:E.
    - apply (f_equal (@length byte)) in E. rewrite skipn_length in E. cbn in E. unfold zlen in *. lia.
    - exists b, rest. split; [reflexivity|]. unfold info, rd_u, sub_bytes. rewrite E. cbn [firstn].
      apply dec_single. }
  destruct Hbyte as (b & tl & Hb & Hib).
  assert (Htl : tl = skipn (a + 1) bs) by (rewrite <- skipn_skipn, Hb; reflexivity).
  set (c := Z.to_nat (bits 1 4 info)).
  assert (Hlen : (c * o <= length tl)%nat).
  { rewrite Htl, skipn_length. unfold zlen in Hl. unfold c, o.
    destruct How as [->|[->| ->]]; lia. }
  exists (firstn a bs), b, ow, (decode_entries o (fun b => b) c tl).
  rewrite <- Hib. unfold view_fre, fre_of. fold a o info.
  cbn [sr_start sr_base_is_sp sr_mangled sr_offsets].
  unfold fre_start_address_offset, fre_cfa_base_reg_id, fre_mangled_ra_p.
  cbn [fr_start fr_info fr_offsets].
  repeat apply conj.
  - replace (Z.to_nat (aw + 1 + bits 1 4 info * ow)) with ((a + 1) + c * o)%nat
      by (unfold a, c, o; destruct How as [->|[->| ->]]; lia).
    rewrite <- skipn_skipn, <- Htl. rewrite <- (chunks_concat o c tl Hlen).
    cbn [app]. rewrite <- Hb. symmetry. apply firstn_skipn.
  - unfold zlen. rewrite firstn_length. unfold zlen in Hl. unfold a. lia.
  - unfold rd_u, sub_bytes. cbn [skipn]. rewrite uint_dec. reflexivity.
  - apply base_is_sp_num, Hinfo.
  - apply mangled_num, Hinfo.
  - exact Hw.
  - eapply Forall_impl; [|apply chunks_length, Hlen]. cbv beta. intros x Hx. unfold zlen. rewrite Hx. unfold o. lia.
  - unfold zlen. rewrite decode_entries_length. unfold c. lia.
  - unfold zlen. rewrite decode_entries_length. unfold c. lia.
  - unfold fre_offsets. cbn [fr_info fr_offsets]. rewrite (offset_count_num info Hinfo). fold c.
    rewrite <- Htl. rewrite (decode_entries_map o (fun b0 => rd_s e 0 o b0)).
    rewrite map_rd_s_sint by (try apply chunks_length, Hlen; unfold o; lia).
    set (l := map (sint e) (decode_entries o (fun b0 => b0) c tl)).
    assert (HL : length l = c) by (unfold l; rewrite map_length, decode_entries_length; reflexivity).
    change (zlen (pad3 l)) with 3. replace (bits 1 4 info <=? 3) with true by lia.
    rewrite <- HL. apply firstn_pad3. rewrite HL. unfold c. lia.
Qed.

(** The format determines the row and what follows it. *)
Lemma spec_row_facts e aw bs r rest :
  (aw = 1 \/ aw = 2 \/ aw = 4) -> spec_row_at e aw bs r rest ->
  let info := rd_u e (Z.to_nat aw) 1 bs in
  exists ow, width_of (bits 5 2 info) = Some ow /\ bits 1 4 info <= 3 /\
    aw + 1 + bits 1 4 info * ow <= zlen bs /\
    rest = skipn (Z.to_nat (aw + 1 + bits 1 4 info * ow)) bs /\
    sr_start r = rd_u e 0 (Z.to_nat aw) bs.
Proof.
  intros Haw (start & b & ow & chunks & Hbs & Hst & Hs & Hb & Hm & Hw & Hch & Hn & Hn3 & Ho) info.
  assert (Hlen : length start = Z.to_nat aw) by (unfold zlen in Hst; lia).
  assert (Hinfo : info = bZ b).
  { unfold info. rewrite Hbs. cbn [app]. apply rd_u_single. exact Hlen. }
  exists ow. rewrite Hinfo.
  assert (Hch' : Forall (fun c : bytes => length c = Z.to_nat ow) chunks).
  { eapply Forall_impl; [|exact Hch]. cbv beta. unfold zlen. intros x Hx. lia. }
  pose proof (concat_length_const _ _ Hch') as HCL.
  pose proof (width_cases _ _ Hw) as How.
  assert (Hcl : zlen (concat chunks) = bits 1 4 (bZ b) * ow).
  { unfold zlen in *. rewrite <- Hn, HCL, Nat2Z.inj_mul, Z2Nat.id by lia. reflexivity. }
  assert (Hco : 0 <= bits 1 4 (bZ b) * ow) by (rewrite <- Hcl; apply zlen_nonneg).
  repeat apply conj; try assumption; try (rewrite <- Hn; exact Hn3).
  all: try (rewrite Hbs, !zlen_app, Hst, Hcl; unfold zlen; cbn [length]; lia).
  all: try (rewrite Hbs; rewrite !app_assoc; symmetry; apply skipn_app_exact;
            rewrite !app_length; cbn [length]; unfold zlen in *; lia).
  all: rewrite Hs, Hbs, uint_dec; unfold rd_u, sub_bytes; cbn [skipn];
       rewrite firstn_app_exact by exact Hlen; reflexivity.
Qed.

Lemma spec_row_fun e aw bs r1 r2 rest1 rest2 :
  (aw = 1 \/ aw = 2 \/ aw = 4) ->
  spec_row_at e aw bs r1 rest1 -> spec_row_at e aw bs r2 rest2 -> r1 = r2 /\ rest1 = rest2.
Proof.
  intros Haw H1 H2.
  destruct (spec_row_facts e aw bs r1 rest1 Haw H1) as (ow & W1 & _ & _ & R1 & S1).
  destruct (spec_row_facts e aw bs r2 rest2 Haw H2) as (ow' & W2 & _ & _ & R2 & S2).
  assert (ow' = ow) by congruence. subst ow'.
  split; [|congruence].
  destruct H1 as (s1 & b1 & o1 & c1 & HB1 & L1 & T1 & B1 & M1 & O1 & F1 & N1 & K1 & Q1).
  destruct H2 as (s2 & b2 & o2 & c2 & HB2 & L2 & T2 & B2 & M2 & O2 & F2 & N2 & K2 & Q2).
  assert (HE : s1 ++ [b1] ++ concat c1 ++ rest1 = s2 ++ [b2] ++ concat c2 ++ rest2) by congruence.
  assert (Hs : s1 = s2).
  { assert (length s1 = length s2) by (unfold zlen in *; lia).
    rewrite <- (firstn_app_exact s1 ([b1] ++ concat c1 ++ rest1) (length s1)) by reflexivity.
    rewrite HE. apply firstn_app_exact. lia. }
  subst s2. apply app_inv_head in HE. injection HE as Hb HE. subst b2.
  assert (o1 = o2) by congruence. subst o2.
  assert (Hc : c1 = c2).
  { assert (P1 : Forall (fun c : bytes => length c = Z.to_nat o1) c1)
      by (eapply Forall_impl; [|exact F1]; cbv beta; unfold zlen; intros x Hx; lia).
    assert (P2 : Forall (fun c : bytes => length c = Z.to_nat o1) c2)
      by (eapply Forall_impl; [|exact F2]; cbv beta; unfold zlen; intros x Hx; lia).
    rewrite <- (chunks_of_concat (Z.to_nat o1) c1 rest1 P1).
    rewrite <- (chunks_of_concat (Z.to_nat o1) c2 rest2 P2).
    rewrite HE. f_equal. unfold zlen in *. lia. }
  subst c2. destruct r1, r2; cbn in *. congruence.
Qed.

(** ** C13 *)

Lemma row_decode_sound md e f bs fr rest :
  wf_mode md -> fde_ok f -> fre_load md e f bs = Ok (fr, rest) ->
  exists aw, width_of (fre_type_num (fde_info f)) = Some aw /\
    spec_row_at e aw bs (view_fre fr) rest /\
    fre_start_address_offset fr < fde_size f /\ fr_fde fr = f.
Proof.
  intros Hmd Hf H. pose proof (fre_load_table md e f bs Hmd Hf) as HT.
  destruct (width_of (fre_type_num (fde_info f))) as [aw|] eqn:Haw; [|congruence].
  exists aw. split; [reflexivity|].
  destruct (Z.ltb_spec (zlen bs) (aw + 1)) as [Hs|Hs]; [congruence|].
  cbv zeta in HT. set (info := rd_u e (Z.to_nat aw) 1 bs) in *.
  destruct (Z.ltb_spec 3 (bits 1 4 info)) as [Hc|Hc]; [congruence|].
  destruct (width_of (bits 5 2 info)) as [ow|] eqn:How; [|congruence].
  destruct (Z.ltb_spec (zlen bs) (aw + 1 + bits 1 4 info * ow)) as [Hl|Hl]; [congruence|].
  destruct (Z.ltb_spec (rd_u e 0 (Z.to_nat aw) bs) (fde_size f)) as [Hz|Hz]; [|congruence].
  rewrite HT in H. injection H as <- <-. repeat split; try assumption; try exact Hz.
  apply fre_of_view; try assumption; eapply width_cases; eassumption.
Qed.

Lemma row_decode_complete md e f bs aw r rest :
  wf_mode md -> fde_ok f -> width_of (fre_type_num (fde_info f)) = Some aw ->
  spec_row_at e aw bs r rest ->
  (sr_start r < fde_size f ->
     exists fr, fre_load md e f bs = Ok (fr, rest) /\ view_fre fr = r /\ fr_fde fr = f) /\
  (fde_size f <= sr_start r -> fre_load md e f bs = Panic).
Proof.
  intros Hmd Hf Haw H. pose proof (fre_load_table md e f bs Hmd Hf) as HT. rewrite Haw in HT.
  pose proof (width_cases _ _ Haw) as Haw'.
  destruct (spec_row_facts e aw bs r rest Haw' H) as (ow & How & Hc & Hl & Hr & Hst).
  cbv zeta in HT. set (info := rd_u e (Z.to_nat aw) 1 bs) in *.
  pose proof (width_cases _ _ How) as How'.
  assert (Hc0 : 0 <= bits 1 4 info) by (unfold bits; lia).
  assert (Hco : 0 <= bits 1 4 info * ow) by (destruct How' as [->|[->| ->]]; lia).
  replace (zlen bs <? aw + 1) with false in HT by lia.
  replace (3 <? bits 1 4 info) with false in HT by lia. rewrite How in HT.
  replace (zlen bs <? aw + 1 + bits 1 4 info * ow) with false in HT by lia.
  rewrite <- Hst in HT. split; intros Hz.
  - replace (sr_start r <? fde_size f) with true in HT by lia.
    rewrite HT. eexists. rewrite <- Hr. repeat split.
    assert (HV := fre_of_view e f aw ow bs Haw' How' How Hc Hl). fold info in HV.
    destruct (spec_row_fun e aw bs _ _ _ _ Haw' H HV) as [<- _]. reflexivity.
  - replace (sr_start r <? fde_size f) with false in HT by lia. exact HT.
Qed.

Lemma row_decode_errors md e f bs :
  wf_mode md -> fde_ok f ->
  match width_of (fre_type_num (fde_info f)) with
  | None =>
      fre_load md e f bs = Err (UnsupportedFreType (fretype (fde_info f))) /\
      fre_type_u8 (fretype (fde_info f)) = fre_type_num (fde_info f)
  | Some aw =>
      (zlen bs < aw + 1 -> fre_load md e f bs = Err UnexpectedEof) /\
      (aw + 1 <= zlen bs ->
       let info := u_at e aw 1 bs in
       (3 < bits 1 4 info -> fre_load md e f bs = Err (InvalidFreOffsetCount (bits 1 4 info))) /\
       (bits 1 4 info <= 3 ->
        match width_of (bits 5 2 info) with
        | None => fre_load md e f bs = Err (UnsupportedFreOffset OffReserved3)
        | Some ow =>
            zlen bs < aw + 1 + bits 1 4 info * ow -> fre_load md e f bs = Err UnexpectedEof
        end))
  end.
Proof.
  intros Hmd Hf. pose proof (fre_load_table md e f bs Hmd Hf) as HT.
  destruct (width_of (fre_type_num (fde_info f))) as [aw|] eqn:Haw.
  2:{ split; [exact HT|]. apply fretype_num. apply Hf. }
  split.
  - intros Hs. replace (zlen bs <? aw + 1) with true in HT by lia. exact HT.
  - intros Hs. replace (zlen bs <? aw + 1) with false in HT by lia. cbv zeta in *.
    rewrite u_at_rd. set (info := rd_u e (Z.to_nat aw) 1 bs) in *.
    change (rd_u e (Z.to_nat aw) (Z.to_nat 1) bs) with info. split.
    + intros Hc. replace (3 <? bits 1 4 info) with true in HT by lia. exact HT.
    + intros Hc. replace (3 <? bits 1 4 info) with false in HT by lia.
      destruct (width_of (bits 5 2 info)) as [ow|]; [|exact HT].
      intros Hl. replace (zlen bs <? aw + 1 + bits 1 4 info * ow) with true in HT by lia. exact HT.
Qed.

(** ** The row iterator *)

Lemma fre_load_consumes md e f bs fr rest :
  wf_mode md -> fde_ok f -> fre_load md e f bs = Ok (fr, rest) -> zlen rest + 2 <= zlen bs.
Proof.
  intros Hmd Hf H. pose proof (fre_load_table md e f bs Hmd Hf) as HT.
  destruct (width_of (fre_type_num (fde_info f))) as [aw|] eqn:Haw; [|congruence].
  pose proof (width_cases _ _ Haw) as Haw'.
  destruct (Z.ltb_spec (zlen bs) (aw + 1)) as [Hs|Hs]; [congruence|].
  cbv zeta in HT. set (info := rd_u e (Z.to_nat aw) 1 bs) in *.
  assert (Hc0 : 0 <= bits 1 4 info) by (unfold bits; lia).
  destruct (Z.ltb_spec 3 (bits 1 4 info)) as [Hc|Hc]; [congruence|].
  destruct (width_of (bits 5 2 info)) as [ow|] eqn:How; [|congruence].
  assert (Hco : 0 <= bits 1 4 info * ow) by (destruct (width_cases _ _ How) as [->|[->| ->]]; lia).
  destruct (Z.ltb_spec (zlen bs) (aw + 1 + bits 1 4 info * ow)) as [Hl|Hl]; [congruence|].
  destruct (Z.ltb_spec (rd_u e 0 (Z.to_nat aw) bs) (fde_size f)) as [Hz|Hz]; [|congruence].
  rewrite HT in H. injection H as _ <-. unfold zlen in *. rewrite skipn_length. lia.
Qed.

Lemma fri_calls_done n md e it :
  fde_num_fres (ri_fde it) <= ri_index it ->
  fri_calls n md e it = Ok (repeat None n, it).
Proof.
  intros H. induction n as [|n IH]; cbn [fri_calls repeat]; [reflexivity|].
  unfold fri_next. replace (fde_num_fres (ri_fde it) <=? ri_index it) with true by lia.
  cbn [bind fst snd]. rewrite IH. reflexivity.
Qed.

Definition is_err (x : fre_item) : bool := match x with inl _ => false | inr _ => true end.

Lemma fri_calls_shape md e n : forall it os it',
  in_u32 (fde_num_fres (ri_fde it)) -> 0 <= ri_index it <= fde_num_fres (ri_fde it) ->
  fri_calls n md e it = Ok (os, it') ->
  exists good bad k,
    os = map (fun fr => Some (inl fr)) good ++ map (fun er => Some (inr er)) bad ++ repeat None k /\
    (length bad <= 1)%nat /\
    zlen good + zlen bad <= fde_num_fres (ri_fde it) - ri_index it.
Proof.
  induction n as [|n IH]; intros it os it' Hu Hi H.
  - cbn in H. injection H as <- <-. exists [], [], 0%nat. cbn. unfold zlen; cbn. repeat split; lia.
  - destruct (Z.leb_spec (fde_num_fres (ri_fde it)) (ri_index it)) as [Hd|Hd].
    { rewrite fri_calls_done in H by exact Hd. injection H as <- <-.
      exists [], [], (S n). cbn. unfold zlen; cbn. repeat split; lia. }
    cbn [fri_calls] in H. unfold fri_next in H at 1.
    replace (fde_num_fres (ri_fde it) <=? ri_index it) with false in H by lia.
    destruct (fre_load md e (ri_fde it) (ri_fres it)) as [[fr rest]|er|] eqn:HL; cbn [bind fst snd] in H.
    + bind_inv H. destruct x as [os' it'']. cbn [fst snd] in H. injection H as <- <-.
      apply IH in Hx; cbn [ri_fde ri_index] in *; [|exact Hu|lia].
      destruct Hx as (good & bad & k & -> & Hb & Hn).
      exists (fr :: good), bad, k. rewrite zlen_cons. cbn [map app]. repeat split; try assumption. lia.
    + rewrite fri_calls_done in H by (cbn; apply Hu). cbn [bind fst snd] in H. injection H as <- <-.
      exists [], [er], n. unfold zlen; cbn. repeat split; lia.
    + discriminate.
Qed.

(** All items and enough fuel. *)
Lemma fri_collect_fuel md e : forall fuel it,
  wf_mode md -> fde_ok (ri_fde it) -> (length (ri_fres it) + 2 <= fuel)%nat ->
  fri_collect fuel md e it <> Err OutOfFuel.
Proof.
  intros fuel it Hmd Hf. revert it Hf. induction fuel as [|k IH]; intros it Hf Hfu; [lia|].
  cbn [fri_collect]. unfold fri_next.
  destruct (Z.leb_spec (fde_num_fres (ri_fde it)) (ri_index it)) as [Hd|Hd]; [discriminate|].
  destruct (fre_load md e (ri_fde it) (ri_fres it)) as [[fr rest]|er|] eqn:HL; [| |discriminate].
  - pose proof (fre_load_consumes _ _ _ _ _ _ Hmd Hf HL) as HC.
    match goal with |- match ?x with _ => _ end <> _ => assert (Hn : x <> Err OutOfFuel) end.
    { apply IH; cbn; [exact Hf|]. unfold zlen in HC. lia. }
    destruct (fri_collect k md e _) as [l|[]|]; congruence.
  - destruct k as [|k]; [lia|]. cbn [fri_collect]. unfold fri_next. cbn [ri_fde ri_index].
    destruct Hf as (_ & _ & _ & [_ Hn] & _).
    replace (fde_num_fres (ri_fde it) <=? u32_max) with true by lia. discriminate.
Qed.

(** The items of an iteration: consecutive decoded rows, then at most one error. *)
Lemma fri_collect_shape md e : forall fuel it l,
  wf_mode md -> fde_ok (ri_fde it) -> fri_collect fuel md e it = Ok l ->
  exists good bad aw rest,
    l = map inl good ++ map inr bad /\ (length bad <= 1)%nat /\
    Forall (fun fr => fr_fde fr = ri_fde it /\ fre_start_address_offset fr < fde_size (ri_fde it)) good /\
    (good <> [] -> width_of (fre_type_num (fde_info (ri_fde it))) = Some aw) /\
    spec_rows_at e aw (ri_fres it) (map view_fre good) rest /\
    2 * zlen good + zlen rest <= zlen (ri_fres it) /\
    (ri_index it <= fde_num_fres (ri_fde it) -> zlen l <= fde_num_fres (ri_fde it) - ri_index it) /\
    (fde_num_fres (ri_fde it) <= ri_index it -> l = []) /\
    (bad = [] -> ri_index it <= fde_num_fres (ri_fde it) ->
       zlen good = fde_num_fres (ri_fde it) - ri_index it).
Proof.
  intros fuel it l Hmd Hf. revert it l Hf. induction fuel as [|k IH]; intros it l Hf H; [discriminate|].
  cbn [fri_collect] in H. unfold fri_next in H.
  destruct (Z.leb_spec (fde_num_fres (ri_fde it)) (ri_index it)) as [Hd|Hd].
  { injection H as <-. exists [], [], 0, (ri_fres it). cbn [map app]. repeat split; cbn; try lia; auto; try congruence.
    all: unfold zlen; cbn; lia. }
  destruct (fre_load md e (ri_fde it) (ri_fres it)) as [[fr rest]|er|] eqn:HL; [| |discriminate].
  - destruct (fri_collect k md e {| ri_fde := ri_fde it; ri_fres := rest; ri_index := ri_index it + 1 |})
      as [l'|er|] eqn:HC; try discriminate. injection H as <-.
    apply IH in HC; [|exact Hf]. cbn [ri_fde ri_fres ri_index] in HC.
    destruct HC as (good & bad & aw' & rest' & -> & Hb & HF & Haw & HR & Hlen & Hnum & _ & Hex).
    pose proof (fre_load_consumes _ _ _ _ _ _ Hmd Hf HL) as Hcons.
    destruct (row_decode_sound _ _ _ _ _ _ Hmd Hf HL) as (aw & Haw0 & Hrow & Hst & Hfd).
    exists (fr :: good), bad, aw, rest'. cbn [map app].
    repeat split; try assumption.
    + constructor; [split; assumption|exact HF].
    + intros _. exact Haw0.
    + cbn [spec_rows_at]. exists rest. split; [exact Hrow|].
      destruct good as [|g gs]; [exact HR|]. assert (aw' = aw) by (specialize (Haw ltac:(discriminate)); congruence).
      subst aw'. exact HR.
    + rewrite zlen_cons. lia.
    + rewrite zlen_cons. intros _. lia.
    + intros Hc. lia.
    + intros Hbn Hle. rewrite zlen_cons. specialize (Hex Hbn). lia.
  - destruct (fri_collect k md e {| ri_fde := ri_fde it; ri_fres := ri_fres it; ri_index := u32_max |})
      as [l'|er'|] eqn:HC; try discriminate. injection H as <-.
    assert (l' = []) as ->.
    { destruct k as [|k]; [discriminate|]. cbn [fri_collect] in HC. unfold fri_next in HC. cbn [ri_fde ri_index] in HC.
      destruct Hf as (_ & _ & _ & [_ Hn] & _).
      replace (fde_num_fres (ri_fde it) <=? u32_max) with true in HC by lia. congruence. }
    exists [], [er], 0, (ri_fres it). cbn [map app].
    repeat split; cbn; try lia; auto; try congruence; unfold zlen; cbn; lia.
Qed.

(** Decoding starts where the rows are. *)
Lemma all_fres_fuel md e en :
  wf_mode md -> fde_ok (en_fde en) -> all_fres md e en <> Err OutOfFuel.
Proof.
  intros Hmd Hf. unfold all_fres. apply fri_collect_fuel; try assumption.
  unfold fri_fuel, fres. cbn. lia.
Qed.

Lemma fri_size_hint_sound md e it l lo hi :
  wf_mode md -> fde_ok (ri_fde it) -> 0 <= ri_index it ->
  fri_collect (fri_fuel it) md e it = Ok l ->
  fri_size_hint it = (lo, hi) ->
  lo <= zlen l /\ match hi with Some h => zlen l <= h | None => True end.
Proof.
  intros Hmd Hf Hi H Hs.
  pose proof (fri_collect_shape md e _ it l Hmd Hf H) as (good & bad & aw & rest & _ & _ & _ & _ & _ & _ & Hn & Hz & _).
  unfold fri_size_hint in Hs.
  destruct (Z.leb_spec (fde_num_fres (ri_fde it)) (ri_index it)) as [Hd|Hd].
  - injection Hs as <- <-. rewrite Hz by exact Hd. unfold zlen; cbn. lia.
  - injection Hs as <- <-. split; [|apply Hn; lia].
    assert (1 <= zlen l); [|lia].
    unfold fri_fuel in H. cbn [fri_collect] in H. unfold fri_next in H at 1.
    replace (fde_num_fres (ri_fde it) <=? ri_index it) with false in H by lia.
    destruct (fre_load md e (ri_fde it) (ri_fres it)) as [[fr rest0]|er|]; [| |discriminate];
      (match type of H with match ?x with _ => _ end = _ => destruct x end; try discriminate;
       injection H as <-; rewrite zlen_cons; pose proof (zlen_nonneg a); lia).
Qed.

(** C12: when exactly a call of [next] panics. *)
Lemma fri_next_panic_iff md e it :
  wf_mode md -> fde_ok (ri_fde it) ->
  (fri_next md e it = Panic <->
   ri_index it < fde_num_fres (ri_fde it) /\
   exists aw r rest, width_of (fre_type_num (fde_info (ri_fde it))) = Some aw /\
     spec_row_at e aw (ri_fres it) r rest /\ fde_size (ri_fde it) <= sr_start r).
Proof.
  intros Hmd Hf. unfold fri_next.
  destruct (Z.leb_spec (fde_num_fres (ri_fde it)) (ri_index it)) as [Hd|Hd].
  { split; [discriminate|]. intros [Hc _]. lia. }
  split.
  - intros H. split; [exact Hd|].
    assert (HP : fre_load md e (ri_fde it) (ri_fres it) = Panic)
      by (destruct (fre_load md e (ri_fde it) (ri_fres it)) as [[? ?]| |]; congruence).
    pose proof (fre_load_table md e _ (ri_fres it) Hmd Hf) as HT. rewrite HP in HT.
    destruct (width_of (fre_type_num (fde_info (ri_fde it)))) as [aw|] eqn:Haw; [|congruence].
    set (bs := ri_fres it) in *.
    destruct (Z.ltb_spec (zlen bs) (aw + 1)) as [Hs|Hs]; [congruence|].
    cbv zeta in HT. set (info := rd_u e (Z.to_nat aw) 1 bs) in *.
    destruct (Z.ltb_spec 3 (bits 1 4 info)) as [Hc|Hc]; [congruence|].
    destruct (width_of (bits 5 2 info)) as [ow|] eqn:How; [|congruence].
    destruct (Z.ltb_spec (zlen bs) (aw + 1 + bits 1 4 info * ow)) as [Hl|Hl]; [congruence|].
    destruct (Z.ltb_spec (rd_u e 0 (Z.to_nat aw) bs) (fde_size (ri_fde it))) as [Hz|Hz]; [congruence|].
    exists aw, (view_fre (fre_of e (ri_fde it) (Z.to_nat aw) (Z.to_nat ow) bs)),
      (skipn (Z.to_nat (aw + 1 + bits 1 4 info * ow)) bs).
    repeat split.
    + apply fre_of_view; try assumption; eapply width_cases; eassumption.
    + exact Hz.
  - intros [_ (aw & r & rest & Haw & Hr & Hz)].
    rewrite (proj2 (row_decode_complete md e _ _ aw r rest Hmd Hf Haw Hr) Hz). reflexivity.
Qed.

(** ** C21, C22 *)

Lemma cfa_offset_spec fr :
  fre_cfa_offset fr = match sr_offsets (view_fre fr) with c :: _ => Ok c | [] => Err MissingFreOffset end.
Proof. unfold fre_cfa_offset. cbn. destruct (fre_offsets fr); reflexivity. Qed.

Lemma ra_offset_spec fr sf :
  fre_ra_offset fr sf =
  match fixed_ra_offset sf with
  | Some o => Ok o
  | None => match sr_offsets (view_fre fr) with _ :: r :: _ => Ok r | _ => Err MissingFreOffset end
  end.
Proof.
  unfold fre_ra_offset. cbn. destruct (fixed_ra_offset sf); [reflexivity|].
  destruct (fre_offsets fr) as [|a [|b t]]; reflexivity.
Qed.

Lemma fp_offset_spec fr sf :
  fre_fp_offset fr sf =
  match fixed_fp_offset sf with
  | Some o => Ok o
  | None =>
      match fixed_ra_offset sf, sr_offsets (view_fre fr) with
      | Some _, _ :: f :: _ => Ok f
      | None, _ :: _ :: f :: _ => Ok f
      | _, _ => Err MissingFreOffset
      end
  end.
Proof.
  unfold fre_fp_offset. cbn. destruct (fixed_fp_offset sf); [reflexivity|].
  destruct (fixed_ra_offset sf); destruct (fre_offsets fr) as [|a [|b [|c t]]]; reflexivity.
Qed.

Lemma start_address_spec {E} md fr :
  let exact := fde_start_address (fr_fde fr) + fre_start_address_offset fr in
  (in_i32 exact -> @fre_start_address E md fr = Ok exact) /\
  (~ in_i32 exact ->
     (debug_asserts md = true -> @fre_start_address E md fr = Panic) /\
     (debug_asserts md = false ->
        exists w, @fre_start_address E md fr = Ok w /\ in_i32 w /\ (w - exact) mod 2 ^ 32 = 0)).
Proof.
  cbv zeta. unfold fre_start_address, fre_start_address_offset.
  set (x := fde_start_address (fr_fde fr) + fr_start fr). split.
  - intros H. pose proof H as H'. apply in_i32b_spec in H'. rewrite H'.
    destruct (debug_asserts md); [reflexivity|]. rewrite as_s_32_id by exact H. reflexivity.
  - intros H. split; intros ->.
    + destruct (in_i32b x) eqn:E1; [apply in_i32b_spec in E1; contradiction|reflexivity].
    + exists (as_s 32 x). split; [reflexivity|]. split.
      * pose proof (as_s_range 32 x ltac:(lia)). change (2 ^ (32 - 1)) with 2147483648 in *.
        unfold in_i32, i32_min, i32_max. lia.
      * unfold as_s. cbv zeta. change (2 ^ (32 - 1)) with 2147483648. change (2 ^ 32) with 4294967296.
        destruct (Z.ltb_spec (x mod 4294967296) 2147483648); lia.
Qed.

(** The accessors on a row read from bytes. *)
Lemma decoded_offsets md e f bs aw r rest fr rest' sf :
  wf_mode md -> fde_ok f -> width_of (fre_type_num (fde_info f)) = Some aw ->
  spec_row_at e aw bs r rest -> fre_load md e f bs = Ok (fr, rest') ->
  fre_cfa_offset fr = stored r 0 /\
  fre_ra_offset fr sf = match fixed_ra_offset sf with Some o => Ok o | None => stored r 1 end /\
  fre_fp_offset fr sf =
    match fixed_fp_offset sf, fixed_ra_offset sf with
    | Some o, _ => Ok o
    | None, Some _ => stored r 1
    | None, None => stored r 2
    end.
Proof.
  intros Hm Hf Hw Hr HL. destruct (row_decode_complete md e f bs aw r rest Hm Hf Hw Hr) as [H1 H2].
  assert (HV : view_fre fr = r).
  { destruct (Z.lt_ge_cases (sr_start r) (fde_size f)) as [C|C].
    - destruct (H1 C) as (fr' & HL' & HV & _). congruence.
    - specialize (H2 C). congruence. }
  rewrite cfa_offset_spec, ra_offset_spec, fp_offset_spec, HV. unfold stored.
  destruct (sr_offsets r) as [|c [|d [|g l]]]; cbn [nth_error]; destruct (fixed_fp_offset sf), (fixed_ra_offset sf); auto.
Qed.
