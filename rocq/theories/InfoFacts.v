(** Independence of the info byte fields (C23-C25). *)
From Verif Require Export RawFacts Spec ReadSpec.

Lemma fre_type_u8_range t : 0 <= fre_type_u8 t < 8. Proof. destruct t; cbn; lia. Qed.
Lemma fde_type_u8_range t : 0 <= fde_type_u8 t < 2. Proof. destruct t; cbn; lia. Qed.
Lemma pauth_u8_range t : 0 <= pauth_u8 t < 2. Proof. destruct t; cbn; lia. Qed.
Lemma base_reg_u8_range t : 0 <= base_reg_u8 t < 2. Proof. destruct t; cbn; lia. Qed.
Lemma fre_offset_u8_range t : 0 <= fre_offset_u8 t < 4. Proof. destruct t; cbn; lia. Qed.

Ltac fde_eq Hi Hj :=
  unfold fde_fields; f_equal; [f_equal; [f_equal|]|];
  [ apply fre_type_u8_inj; rewrite (fretype_arith _ Hj), ?(fretype_arith _ Hi)
  | apply fde_type_u8_inj; rewrite (fdetype_arith _ Hj), ?(fdetype_arith _ Hi)
  | apply pauth_u8_inj; rewrite (pauth_key_arith _ Hj), ?(pauth_key_arith _ Hi)
  | ]; unfold in_u8 in *; lia.

Lemma set_fretype_fields t i : in_u8 i ->
  in_u8 (set_fretype t i) /\
  fde_fields (set_fretype t i) = (t, fdetype i, pauth_key i, i / 32).
Proof.
  intros Hi. rewrite (set_fretype_arith t i Hi). pose proof (fre_type_u8_range t) as Ht.
  assert (Hj : in_u8 (i / 8 * 8 + fre_type_u8 t)) by (unfold in_u8 in *; lia).
  split; [exact Hj|]. fde_eq Hi Hj.
Qed.
Lemma set_fdetype_fields t i : in_u8 i ->
  in_u8 (set_fdetype t i) /\
  fde_fields (set_fdetype t i) = (fretype i, t, pauth_key i, i / 32).
Proof.
  intros Hi. rewrite (set_fdetype_arith t i Hi). pose proof (fde_type_u8_range t) as Ht.
  assert (Hj : in_u8 (i / 16 * 16 + fde_type_u8 t * 8 + i mod 8)) by (unfold in_u8 in *; lia).
  split; [exact Hj|]. fde_eq Hi Hj.
Qed.
Lemma set_pauth_key_fields t i : in_u8 i ->
  in_u8 (set_pauth_key t i) /\
  fde_fields (set_pauth_key t i) = (fretype i, fdetype i, t, i / 32).
Proof.
  intros Hi. rewrite (set_pauth_key_arith t i Hi). pose proof (pauth_u8_range t) as Ht.
  assert (Hj : in_u8 (i / 32 * 32 + pauth_u8 t * 16 + i mod 16)) by (unfold in_u8 in *; lia).
  split; [exact Hj|]. fde_eq Hi Hj.
Qed.

Ltac fre_eq Hi Hj :=
  unfold fre_fields; f_equal; [f_equal; [f_equal|]|];
  [ apply base_reg_u8_inj; rewrite (cfa_base_reg_id_arith _ Hj), ?(cfa_base_reg_id_arith _ Hi)
  | rewrite (offset_count_arith _ Hj), ?(offset_count_arith _ Hi)
  | apply fre_offset_u8_inj; rewrite (offset_size_arith _ Hj), ?(offset_size_arith _ Hi)
  | rewrite (mangled_ra_p_arith _ Hj), ?(mangled_ra_p_arith _ Hi) ]; unfold in_u8 in *; try lia.

Lemma set_base_fields t i : in_u8 i ->
  in_u8 (set_cfa_base_reg_id t i) /\
  fre_fields (set_cfa_base_reg_id t i) = (t, offset_count i, offset_size i, mangled_ra_p i).
Proof.
  intros Hi. rewrite (set_cfa_base_reg_id_arith t i Hi). pose proof (base_reg_u8_range t) as Ht.
  assert (Hj : in_u8 (i / 2 * 2 + base_reg_u8 t)) by (unfold in_u8 in *; lia).
  split; [exact Hj|]. fre_eq Hi Hj.
Qed.
Lemma set_offset_size_fields t i : in_u8 i ->
  in_u8 (set_offset_size t i) /\
  fre_fields (set_offset_size t i) = (cfa_base_reg_id i, offset_count i, t, mangled_ra_p i).
Proof.
  intros Hi. rewrite (set_offset_size_arith t i Hi). pose proof (fre_offset_u8_range t) as Ht.
  assert (Hj : in_u8 (i / 128 * 128 + fre_offset_u8 t * 32 + i mod 32)) by (unfold in_u8 in *; lia).
  split; [exact Hj|]. fre_eq Hi Hj.
Qed.
Lemma set_mangled_fields v i : in_u8 i ->
  in_u8 (set_mangled_ra_p v i) /\
  fre_fields (set_mangled_ra_p v i) = (cfa_base_reg_id i, offset_count i, offset_size i, v).
Proof.
  intros Hi. rewrite (set_mangled_ra_p_arith v i Hi).
  assert (Hj : in_u8 ((if v then 128 else 0) + i mod 128)) by (unfold in_u8 in *; destruct v; lia).
  split; [exact Hj|]. destruct v; fre_eq Hi Hj.
Qed.
Lemma set_offset_count_fields {E} c i : in_u8 i -> in_u8 c ->
  (15 < c /\ @set_offset_count E c i = Panic) \/
  (c <= 15 /\ exists j, @set_offset_count E c i = Ok j /\ in_u8 j /\
     fre_fields j = (cfa_base_reg_id i, c, offset_size i, mangled_ra_p i)).
Proof.
  intros Hi Hc. destruct (Z.le_gt_cases c 15) as [Hle|Hgt].
  - right. split; [exact Hle|]. rewrite set_offset_count_arith by (try exact Hi; unfold in_u8 in Hc; lia).
    eexists. split; [reflexivity|].
    assert (Hj : in_u8 (i / 32 * 32 + c * 2 + i mod 2)) by (unfold in_u8 in *; lia).
    split; [exact Hj|]. fre_eq Hi Hj.
  - left. split; [exact Hgt|]. unfold set_offset_count. replace (c <=? 15) with false by lia. reflexivity.
Qed.

(** C25 *)
Lemma fre_layout i : in_u8 i ->
  base_reg_u8 (cfa_base_reg_id i) = bits 0 1 i /\ offset_count i = bits 1 4 i /\
  fre_offset_u8 (offset_size i) = bits 5 2 i /\ mangled_ra_p i = (bits 7 1 i =? 1).
Proof.
  intros Hi. rewrite cfa_base_reg_id_arith, offset_count_arith, offset_size_arith, mangled_ra_p_arith by exact Hi.
  unfold bits. change (2 ^ 0) with 1. rewrite Z.div_1_r. repeat split.
  unfold in_u8 in Hi. change (2 ^ 7) with 128. change (2 ^ 1) with 2. lia.
Qed.
Lemma fde_layout_actual i : in_u8 i ->
  fre_type_u8 (fretype i) = bits 0 3 i /\ fde_type_u8 (fdetype i) = bits 3 1 i /\
  pauth_u8 (pauth_key i) = bits 4 1 i.
Proof.
  intros Hi. rewrite fretype_arith, fdetype_arith, pauth_key_arith by exact Hi.
  unfold bits. change (2 ^ 0) with 1. rewrite Z.div_1_r. repeat split.
Qed.
(** On which bytes the code and the format agree, field by field. *)
Lemma fde_layout_agree i : in_u8 i ->
  (fre_type_u8 (fretype i) = bits 0 4 i <-> bits 3 1 i = 0) /\
  (fde_type_u8 (fdetype i) = bits 4 1 i <-> bits 3 1 i = bits 4 1 i) /\
  (pauth_u8 (pauth_key i) = bits 5 1 i <-> bits 4 1 i = bits 5 1 i).
Proof.
  intros Hi. destruct (fde_layout_actual i Hi) as (-> & -> & ->). repeat split; auto;
    unfold bits, in_u8 in *; change (2 ^ 0) with 1; change (2 ^ 3) with 8; change (2 ^ 4) with 16; change (2 ^ 1) with 2 in *; lia.
Qed.
