(** Facts about outcomes, machine integers and byte strings. *)
From Verif Require Export Base.
From Coq Require Export ZifyBool ZifyNat ZifyN Sorted Permutation.
Ltac Zify.zify_post_hook ::= Z.div_mod_to_equations.

Arguments Z.mul : simpl never.
Arguments Z.add : simpl never.
Arguments Z.sub : simpl never.
Arguments Z.pow : simpl never.
Arguments Z.div : simpl never.
Arguments Z.modulo : simpl never.
Arguments Z.of_nat : simpl never.
Arguments Z.to_nat : simpl never.
Arguments Z.leb : simpl never.
Arguments Z.ltb : simpl never.
Arguments Z.eqb : simpl never.

(** ** Outcomes *)

Lemma bind_ok {E A B} (o : outcome E A) (k : A -> outcome E B) b :
  bind o k = Ok b -> exists a, o = Ok a /\ k a = Ok b.
Proof. destruct o; cbn; intros H; try discriminate; eauto. Qed.

Lemma bind_err {E A B} (o : outcome E A) (k : A -> outcome E B) er :
  bind o k = Err er -> o = Err er \/ exists a, o = Ok a /\ k a = Err er.
Proof. destruct o; cbn; intros H; try discriminate; eauto. left; congruence. Qed.

Lemma bind_panic {E A B} (o : outcome E A) (k : A -> outcome E B) :
  bind o k = Panic -> o = Panic \/ exists a, o = Ok a /\ k a = Panic.
Proof. destruct o; cbn; intros H; try discriminate; eauto. Qed.

Lemma lift_ok {E A} (o : outcome never A) (a : A) : @lift E A o = Ok a <-> o = Ok a.
Proof. destruct o as [x|[]|]; cbn; split; congruence. Qed.

Lemma lift_panic {E A} (o : outcome never A) : @lift E A o = Panic <-> o = Panic.
Proof. destruct o as [x|[]|]; cbn; split; congruence. Qed.

(** Split a [bind] hypothesis that ends in [Ok]. *)
Ltac bind_inv H :=
  let x := fresh "x" in let Hx := fresh "Hx" in
  apply bind_ok in H; destruct H as (x & Hx & H).

(** ** Integers *)

Lemma as_s_range w z : 0 < w -> - 2 ^ (w - 1) <= as_s w z < 2 ^ (w - 1).
Proof.
  intros Hw. unfold as_s.
  assert (H2 : 2 ^ w = 2 * 2 ^ (w - 1)).
  { rewrite <- (Z.pow_succ_r 2 (w - 1)) by lia. f_equal; lia. }
  assert (Hp : 0 < 2 ^ (w - 1)) by (apply Z.pow_pos_nonneg; lia).
  pose proof (Z.mod_pos_bound z (2 ^ w) ltac:(lia)) as Hm.
  cbv zeta. destruct (Z.ltb_spec (z mod 2 ^ w) (2 ^ (w - 1))); lia.
Qed.

Lemma as_s_id w z : 0 < w -> - 2 ^ (w - 1) <= z < 2 ^ (w - 1) -> as_s w z = z.
Proof.
  intros Hw Hz. unfold as_s.
  assert (H2 : 2 ^ w = 2 * 2 ^ (w - 1)).
  { rewrite <- (Z.pow_succ_r 2 (w - 1)) by lia. f_equal; lia. }
  cbv zeta. destruct (Z.leb_spec 0 z).
  - rewrite (Z.mod_small z) by lia. destruct (Z.ltb_spec z (2 ^ (w - 1))); lia.
  - replace (z mod 2 ^ w) with (z + 2 ^ w).
    + destruct (Z.ltb_spec (z + 2 ^ w) (2 ^ (w - 1))); lia.
    + apply (Z.mod_unique z (2 ^ w) (-1)); [left|]; lia.
Qed.

Lemma as_s_mod w z : 0 < w -> as_s w (z mod 2 ^ w) = as_s w z.
Proof.
  intros Hw. unfold as_s. rewrite Z.mod_mod; [reflexivity|].
  pose proof (Z.pow_pos_nonneg 2 w). lia.
Qed.

Lemma as_u_id w z : 0 <= z < 2 ^ w -> as_u w z = z.
Proof. intros H. unfold as_u. apply Z.mod_small. exact H. Qed.

Lemma as_u_range w z : 0 <= w -> 0 <= as_u w z < 2 ^ w.
Proof. intros H. unfold as_u. apply Z.mod_pos_bound. apply Z.pow_pos_nonneg; lia. Qed.

Lemma as_s_32_id z : in_i32 z -> as_s 32 z = z.
Proof. unfold in_i32, i32_min, i32_max. intros H. apply as_s_id; lia. Qed.

Lemma as_u_32_id z : in_u32 z -> as_u 32 z = z.
Proof. unfold in_u32, u32_max. intros H. apply as_u_id. lia. Qed.

Lemma in_i32b_spec z : in_i32b z = true <-> in_i32 z.
Proof. unfold in_i32b, in_i32. lia. Qed.

(** The [u32] value of an [i32] difference is the exact non-negative
    difference, whether or not it wrapped. *)
Lemma as_u_as_s_32 d : 0 <= d < 2 ^ 32 -> as_u 32 (as_s 32 d) = d.
Proof.
  intros H. unfold as_u, as_s. cbv zeta.
  rewrite (Z.mod_small d) by lia.
  change (2 ^ (32 - 1)) with 2147483648. change (2 ^ 32) with 4294967296 in *.
  destruct (Z.ltb_spec d 2147483648).
  - apply Z.mod_small. lia.
  - symmetry. apply (Z.mod_unique _ _ (-1)); [left|]; lia.
Qed.

(** ** Bytes *)

Lemma bZ_range b : 0 <= bZ b < 256.
Proof. unfold bZ. pose proof (Byte.to_N_bounded b). lia. Qed.

Lemma bZ_Zb z : bZ (Zb z) = z mod 256.
Proof.
  unfold bZ, Zb.
  pose proof (Z.mod_pos_bound z 256 ltac:(lia)) as Hm.
  destruct (Byte.of_N (Z.to_N (z mod 256))) eqn:E.
  - apply Byte.to_of_N in E. rewrite E. lia.
  - apply Byte.of_N_None_iff in E. lia.
Qed.

Lemma Zb_bZ b : Zb (bZ b) = b.
Proof.
  unfold Zb. rewrite Z.mod_small by apply bZ_range.
  unfold bZ. rewrite N2Z.id, Byte.of_to_N. reflexivity.
Qed.

Lemma zlen_nonneg {A} (l : list A) : 0 <= zlen l.
Proof. unfold zlen. lia. Qed.
Lemma zlen_app {A} (a b : list A) : zlen (a ++ b) = zlen a + zlen b.
Proof. unfold zlen. rewrite app_length. lia. Qed.
Lemma zlen_cons {A} (x : A) l : zlen (x :: l) = zlen l + 1.
Proof. unfold zlen. cbn [length]. lia. Qed.
Lemma zlen_nil {A} : zlen (@nil A) = 0.
Proof. reflexivity. Qed.
Lemma zlen_map {A B} (f : A -> B) l : zlen (map f l) = zlen l.
Proof. unfold zlen. rewrite map_length. reflexivity. Qed.

Lemma enc_le_length n z : length (enc_le n z) = n.
Proof. revert z. induction n as [|n IH]; intros z; cbn; [reflexivity|]. rewrite IH. reflexivity. Qed.

Lemma enc_length e n z : length (enc e n z) = n.
Proof. destruct e; cbn; rewrite ?rev_length, enc_le_length; reflexivity. Qed.

Lemma dec_le_bound bs : 0 <= dec_le bs < 256 ^ Z.of_nat (length bs).
Proof.
  induction bs as [|b t IH]; cbn [dec_le length].
  - change (256 ^ Z.of_nat 0) with 1. lia.
  - rewrite Nat2Z.inj_succ, Z.pow_succ_r by lia. pose proof (bZ_range b). lia.
Qed.

Lemma dec_bound e bs : 0 <= dec e bs < 256 ^ Z.of_nat (length bs).
Proof.
  destruct e; cbn [dec]; [apply dec_le_bound|].
  rewrite <- (rev_length bs). apply dec_le_bound.
Qed.

Lemma dec_enc_le n z : dec_le (enc_le n z) = z mod 256 ^ Z.of_nat n.
Proof.
  revert z. induction n as [|n IH]; intros z; cbn [enc_le dec_le].
  - change (256 ^ Z.of_nat 0) with 1. rewrite Z.mod_1_r. reflexivity.
  - rewrite IH, bZ_Zb, Nat2Z.inj_succ, Z.pow_succ_r by lia.
    rewrite Z.rem_mul_r; [lia|lia|]. apply Z.pow_pos_nonneg; lia.
Qed.

Lemma dec_enc e n z : dec e (enc e n z) = z mod 256 ^ Z.of_nat n.
Proof. destruct e; cbn [dec enc]; rewrite ?rev_involutive; apply dec_enc_le. Qed.

Lemma enc_dec_le bs : enc_le (length bs) (dec_le bs) = bs.
Proof.
  induction bs as [|b t IH]; cbn [length enc_le dec_le]; [reflexivity|].
  pose proof (bZ_range b) as Hb.
  assert (H1 : Zb (bZ b + 256 * dec_le t) = b).
  { rewrite <- (Zb_bZ b) at 2. unfold Zb.
    replace ((bZ b + 256 * dec_le t) mod 256) with (bZ b mod 256); [reflexivity|].
    rewrite (Z.mul_comm 256), Z.mod_add by lia. reflexivity. }
  rewrite H1. f_equal.
  replace ((bZ b + 256 * dec_le t) / 256) with (dec_le t) by lia. exact IH.
Qed.

Lemma enc_dec e bs : enc e (length bs) (dec e bs) = bs.
Proof.
  destruct e; cbn [enc dec]; [apply enc_dec_le|].
  rewrite <- (rev_length bs), enc_dec_le, rev_involutive. reflexivity.
Qed.

Lemma dec_inj e a b : length a = length b -> dec e a = dec e b -> a = b.
Proof. intros HL HD. rewrite <- (enc_dec e a), <- (enc_dec e b), HL, HD. reflexivity. Qed.

Lemma dec_single e b : dec e [b] = bZ b.
Proof. destruct e; cbn; lia. Qed.

Lemma enc_single e z : enc e 1 z = [Zb z].
Proof. destruct e; reflexivity. Qed.

(** Signed decoding of an encoded value. *)
Lemma dec_enc_signed e n z :
  (0 < n)%nat ->
  - 2 ^ (8 * Z.of_nat n - 1) <= z < 2 ^ (8 * Z.of_nat n - 1) ->
  as_s (8 * Z.of_nat n) (dec e (enc e n z)) = z.
Proof.
  intros Hn Hz. rewrite dec_enc.
  replace (256 ^ Z.of_nat n) with (2 ^ (8 * Z.of_nat n)).
  - rewrite as_s_mod by lia. apply as_s_id; lia.
  - change 256 with (2 ^ 8). rewrite <- Z.pow_mul_r by lia. reflexivity.
Qed.

Lemma dec_enc_signed_mod e n z :
  as_s (8 * Z.of_nat n) (dec e (enc e n z)) = as_s (8 * Z.of_nat n) z.
Proof.
  rewrite dec_enc.
  replace (256 ^ Z.of_nat n) with (2 ^ (8 * Z.of_nat n)).
  - unfold as_s. rewrite Z.mod_mod; [reflexivity|]. apply Z.pow_nonzero; lia.
  - change 256 with (2 ^ 8). rewrite <- Z.pow_mul_r by lia. reflexivity.
Qed.

Lemma dec_enc_unsigned e n z :
  0 <= z < 256 ^ Z.of_nat n -> dec e (enc e n z) = z.
Proof. intros Hz. rewrite dec_enc. apply Z.mod_small. exact Hz. Qed.

(** ** Sublists *)

Lemma firstn_app_exact {A} (a b : list A) n : length a = n -> firstn n (a ++ b) = a.
Proof.
  intros <-. rewrite firstn_app, Nat.sub_diag, firstn_all. cbn. apply app_nil_r.
Qed.

Lemma skipn_app_exact {A} (a b : list A) n : length a = n -> skipn n (a ++ b) = b.
Proof. intros <-. rewrite skipn_app, Nat.sub_diag, skipn_all. reflexivity. Qed.

Lemma skipn_skipn {A} (l : list A) i j : skipn i (skipn j l) = skipn (j + i) l.
Proof.
  revert l i. induction j as [|j IH]; intros l i; cbn [skipn plus]; [reflexivity|].
  destruct l as [|x l]; [apply skipn_nil|]. apply IH.
Qed.

Lemma firstn_skipn_app {A} (l x : list A) i n :
  (i + n <= length l)%nat -> firstn n (skipn i (l ++ x)) = firstn n (skipn i l).
Proof.
  intros H. rewrite skipn_app.
  replace (i - length l)%nat with 0%nat by lia. cbn [skipn].
  rewrite firstn_app. rewrite skipn_length.
  replace (n - (length l - i))%nat with 0%nat by lia. cbn. apply app_nil_r.
Qed.

Lemma sub_bytes_length off n bs : (off + n <= length bs)%nat -> length (sub_bytes off n bs) = n.
Proof. intros H. unfold sub_bytes. rewrite firstn_length, skipn_length. lia. Qed.

Lemma sub_bytes_app off n a b :
  (off + n <= length a)%nat -> sub_bytes off n (a ++ b) = sub_bytes off n a.
Proof. apply firstn_skipn_app. Qed.

Lemma rd_u_bound e off n bs :
  0 <= rd_u e off n bs < 256 ^ Z.of_nat n.
Proof.
  unfold rd_u. pose proof (dec_bound e (sub_bytes off n bs)) as H.
  split; [lia|].
  eapply Z.lt_le_trans; [apply H|]. apply Z.pow_le_mono_r; [lia|].
  unfold sub_bytes. rewrite firstn_length. lia.
Qed.

Lemma rd_u_app e off n a b :
  (off + n <= length a)%nat -> rd_u e off n (a ++ b) = rd_u e off n a.
Proof. intros H. unfold rd_u. rewrite sub_bytes_app by exact H. reflexivity. Qed.

Lemma rd_s_app e off n a b :
  (off + n <= length a)%nat -> rd_s e off n (a ++ b) = rd_s e off n a.
Proof. intros H. unfold rd_s. rewrite rd_u_app by exact H. reflexivity. Qed.
