(** Facts about info bytes and packed structures. *)
From Verif Require Export BaseFacts Raw.

(** ** Sweeps over a byte *)

Definition all_bytes : list Z := map Z.of_nat (seq 0 256).

Lemma all_bytes_in i : in_u8 i -> In i all_bytes.
Proof.
  unfold in_u8, all_bytes. intros H. apply in_map_iff.
  exists (Z.to_nat i). split; [lia|]. apply in_seq. lia.
Qed.

Lemma byte_sweep (p : Z -> bool) :
  forallb p all_bytes = true -> forall i, in_u8 i -> p i = true.
Proof. intros H i Hi. rewrite forallb_forall in H. apply H, all_bytes_in, Hi. Qed.

(** ** Decidable equality of the enumerations *)

Lemma fre_type_u8_inj a b : fre_type_u8 a = fre_type_u8 b -> a = b.
Proof. destruct a, b; cbn; congruence. Qed.
Lemma fde_type_u8_inj a b : fde_type_u8 a = fde_type_u8 b -> a = b.
Proof. destruct a, b; cbn; congruence. Qed.
Lemma pauth_u8_inj a b : pauth_u8 a = pauth_u8 b -> a = b.
Proof. destruct a, b; cbn; congruence. Qed.
Lemma fre_offset_u8_inj a b : fre_offset_u8 a = fre_offset_u8 b -> a = b.
Proof. destruct a, b; cbn; congruence. Qed.
Lemma base_reg_u8_inj a b : base_reg_u8 a = base_reg_u8 b -> a = b.
Proof. destruct a, b; cbn; congruence. Qed.

(** ** Getters as arithmetic *)

Ltac sweep_eq p Hi :=
  let H := fresh in
  assert (H : forallb p all_bytes = true) by (vm_compute; reflexivity);
  apply (byte_sweep _ H) in Hi; clear H; cbv beta in Hi.

Lemma fretype_arith i : in_u8 i -> fre_type_u8 (fretype i) = i mod 8.
Proof.
  intros Hi. sweep_eq (fun i => fre_type_u8 (fretype i) =? i mod 8) Hi.
  apply Z.eqb_eq. exact Hi.
Qed.
Lemma fdetype_arith i : in_u8 i -> fde_type_u8 (fdetype i) = (i / 8) mod 2.
Proof.
  intros Hi. sweep_eq (fun i => fde_type_u8 (fdetype i) =? (i / 8) mod 2) Hi.
  apply Z.eqb_eq. exact Hi.
Qed.
Lemma pauth_key_arith i : in_u8 i -> pauth_u8 (pauth_key i) = (i / 16) mod 2.
Proof.
  intros Hi. sweep_eq (fun i => pauth_u8 (pauth_key i) =? (i / 16) mod 2) Hi.
  apply Z.eqb_eq. exact Hi.
Qed.
Lemma cfa_base_reg_id_arith i : in_u8 i -> base_reg_u8 (cfa_base_reg_id i) = i mod 2.
Proof.
  intros Hi. sweep_eq (fun i => base_reg_u8 (cfa_base_reg_id i) =? i mod 2) Hi.
  apply Z.eqb_eq. exact Hi.
Qed.
Lemma offset_count_arith i : in_u8 i -> offset_count i = (i / 2) mod 16.
Proof.
  intros Hi. sweep_eq (fun i => offset_count i =? (i / 2) mod 16) Hi.
  apply Z.eqb_eq. exact Hi.
Qed.
Lemma offset_size_arith i : in_u8 i -> fre_offset_u8 (offset_size i) = (i / 32) mod 4.
Proof.
  intros Hi. sweep_eq (fun i => fre_offset_u8 (offset_size i) =? (i / 32) mod 4) Hi.
  apply Z.eqb_eq. exact Hi.
Qed.
Lemma mangled_ra_p_arith i : in_u8 i -> mangled_ra_p i = (i / 128 =? 1).
Proof.
  intros Hi. sweep_eq (fun i => Bool.eqb (mangled_ra_p i) (i / 128 =? 1)) Hi.
  apply Bool.eqb_prop. exact Hi.
Qed.

(** ** The unreachable arms *)

Definition is_some {A} (o : option A) : bool := match o with Some _ => true | None => false end.
Lemma is_some_spec {A} (o : option A) : is_some o = true -> o <> None.
Proof. destruct o; cbn; congruence. Qed.

Lemma fde_info_total i : in_u8 i ->
  fretype_opt i <> None /\ fdetype_opt i <> None /\ pauth_key_opt i <> None.
Proof.
  intros Hi.
  sweep_eq (fun i => is_some (fretype_opt i) && is_some (fdetype_opt i) && is_some (pauth_key_opt i)) Hi.
  apply andb_prop in Hi as [Hi H3]. apply andb_prop in Hi as [H1 H2].
  repeat split; apply is_some_spec; assumption.
Qed.
Lemma fre_info_total i : in_u8 i ->
  cfa_base_reg_id_opt i <> None /\ offset_size_opt i <> None.
Proof.
  intros Hi.
  sweep_eq (fun i => is_some (cfa_base_reg_id_opt i) && is_some (offset_size_opt i)) Hi.
  apply andb_prop in Hi as [H1 H2]. split; apply is_some_spec; assumption.
Qed.

(** ** Setters, arithmetically *)

Lemma set_fretype_arith t i : in_u8 i -> set_fretype t i = i / 8 * 8 + fre_type_u8 t.
Proof.
  intros Hi.
  sweep_eq (fun i => forallb (fun t => set_fretype t i =? i / 8 * 8 + fre_type_u8 t)
    [Addr1; Addr2; Addr4; FtReserved3; FtReserved4; FtReserved5; FtReserved6; FtReserved7]) Hi.
  rewrite forallb_forall in Hi. apply Z.eqb_eq, Hi. destruct t; cbn; tauto.
Qed.
Lemma set_fdetype_arith t i : in_u8 i ->
  set_fdetype t i = i / 16 * 16 + fde_type_u8 t * 8 + i mod 8.
Proof.
  intros Hi.
  sweep_eq (fun i => forallb (fun t => set_fdetype t i =? i / 16 * 16 + fde_type_u8 t * 8 + i mod 8)
    [PcInc; PcMask]) Hi.
  rewrite forallb_forall in Hi. apply Z.eqb_eq, Hi. destruct t; cbn; tauto.
Qed.
Lemma set_pauth_key_arith k i : in_u8 i ->
  set_pauth_key k i = i / 32 * 32 + pauth_u8 k * 16 + i mod 16.
Proof.
  intros Hi.
  sweep_eq (fun i => forallb (fun t => set_pauth_key t i =? i / 32 * 32 + pauth_u8 t * 16 + i mod 16)
    [KeyA; KeyB]) Hi.
  rewrite forallb_forall in Hi. apply Z.eqb_eq, Hi. destruct k; cbn; tauto.
Qed.
Lemma set_cfa_base_reg_id_arith b i : in_u8 i ->
  set_cfa_base_reg_id b i = i / 2 * 2 + base_reg_u8 b.
Proof.
  intros Hi.
  sweep_eq (fun i => forallb (fun t => set_cfa_base_reg_id t i =? i / 2 * 2 + base_reg_u8 t) [Fp; Sp]) Hi.
  rewrite forallb_forall in Hi. apply Z.eqb_eq, Hi. destruct b; cbn; tauto.
Qed.
Lemma set_offset_size_arith o i : in_u8 i ->
  set_offset_size o i = i / 128 * 128 + fre_offset_u8 o * 32 + i mod 32.
Proof.
  intros Hi.
  sweep_eq (fun i => forallb (fun t => set_offset_size t i =? i / 128 * 128 + fre_offset_u8 t * 32 + i mod 32)
    [Off1B; Off2B; Off4B; OffReserved3]) Hi.
  rewrite forallb_forall in Hi. apply Z.eqb_eq, Hi. destruct o; cbn; tauto.
Qed.
Lemma set_mangled_ra_p_arith v i : in_u8 i ->
  set_mangled_ra_p v i = (if v then 128 else 0) + i mod 128.
Proof.
  intros Hi.
  sweep_eq (fun i => forallb (fun v : bool => set_mangled_ra_p v i =? (if v then 128 else 0) + i mod 128)
    [true; false]) Hi.
  rewrite forallb_forall in Hi. apply Z.eqb_eq, Hi. destruct v; cbn; tauto.
Qed.
Lemma set_offset_count_arith {E} c i : in_u8 i -> 0 <= c <= 15 ->
  @set_offset_count E c i = Ok (i / 32 * 32 + c * 2 + i mod 2).
Proof.
  intros Hi Hc. unfold set_offset_count.
  destruct (Z.leb_spec c 15); [|lia]. f_equal.
  sweep_eq (fun i => forallb (fun c =>
      Z.lor (Z.land i 0xE1) (Z.land (Z.shiftl c 1) 0x1E) =? i / 32 * 32 + c * 2 + i mod 2)
    (map Z.of_nat (seq 0 16))) Hi.
  rewrite forallb_forall in Hi. apply Z.eqb_eq, Hi.
  apply in_map_iff. exists (Z.to_nat c). split; [lia|]. apply in_seq. lia.
Qed.

(** ** Field access in concatenations *)

Lemma rd_u_enc_skip e off n k z b :
  (k <= off)%nat -> rd_u e off n (enc e k z ++ b) = rd_u e (off - k) n b.
Proof.
  intros H. unfold rd_u, sub_bytes. do 2 f_equal.
  rewrite skipn_app, enc_length.
  rewrite (skipn_all2 (enc e k z)) by (rewrite enc_length; lia). reflexivity.
Qed.

Lemma rd_u_enc_here e n z b : rd_u e 0 n (enc e n z ++ b) = z mod 256 ^ Z.of_nat n.
Proof.
  unfold rd_u, sub_bytes. cbn [skipn]. rewrite firstn_app_exact by apply enc_length.
  apply dec_enc.
Qed.

Lemma rd_s_enc_here e n z b :
  as_s (8 * Z.of_nat n) (rd_u e 0 n (enc e n z ++ b)) = as_s (8 * Z.of_nat n) z.
Proof.
  unfold rd_u, sub_bytes. cbn [skipn]. rewrite firstn_app_exact by apply enc_length.
  apply dec_enc_signed_mod.
Qed.

Ltac field :=
  repeat rewrite rd_u_enc_skip by (cbn; lia); cbn [Nat.sub];
  first [rewrite rd_s_enc_here | rewrite rd_u_enc_here].

(** ** Headers *)

Definition header_ok (h : header) : Prop :=
  0 <= pre_magic (h_preamble h) < 2 ^ 16 /\
  in_u8 (pre_version (h_preamble h)) /\ in_u8 (pre_flags (h_preamble h)) /\
  in_u8 (h_abi_arch h) /\ in_i8 (h_fixed_fp_offset h) /\ in_i8 (h_fixed_ra_offset h) /\
  in_u8 (h_auxhdr_len h) /\ in_u32 (h_num_fdes h) /\ in_u32 (h_num_fres h) /\
  in_u32 (h_fre_len h) /\ in_u32 (h_fdeoff h) /\ in_u32 (h_freoff h).

Lemma header_bytes_length e h : length (header_bytes e h) = HEADER_SIZE.
Proof. unfold header_bytes. rewrite !app_length, !enc_length. reflexivity. Qed.

Ltac small_mod := rewrite Z.mod_small; [reflexivity|];
  unfold in_u8, in_u32, u32_max in *; cbn in *; lia.
Ltac small_s := rewrite as_s_id; [reflexivity|cbn; lia|unfold in_i8, in_i32, i32_min, i32_max in *; cbn in *; lia].

Lemma header_decode e h rest :
  header_ok h -> header_from_prefix e (header_bytes e h ++ rest) = Some h.
Proof.
  intros (H1 & H2 & H3 & H4 & H5 & H6 & H7 & H8 & H9 & H10 & H11 & H12).
  unfold header_from_prefix.
  destruct (Nat.ltb_spec (length (header_bytes e h ++ rest)) HEADER_SIZE) as [Hlt|_].
  { rewrite app_length, header_bytes_length in Hlt. lia. }
  f_equal. destruct h as [[m v fl] abi fp ra aux nfd nfr fl' fo fro]; cbn in *.
  unfold header_bytes, rd_s; cbn [h_preamble pre_magic pre_version pre_flags h_abi_arch
    h_fixed_fp_offset h_fixed_ra_offset h_auxhdr_len h_num_fdes h_num_fres h_fre_len h_fdeoff h_freoff].
  rewrite <- !app_assoc.
  f_equal; [f_equal|..]; field; first [small_mod | small_s].
Qed.

(** ** Descriptors *)

Definition fde2_ok (f : raw_fde2) : Prop :=
  in_i32 (f2_start_address f) /\ in_u32 (f2_size f) /\ in_u32 (f2_start_fre_off f) /\
  in_u32 (f2_num_fres f) /\ in_u8 (f2_info f) /\ in_u8 (f2_rep_size f) /\
  0 <= f2_padding f < 2 ^ 16.

Lemma fde2_bytes_length e f : length (fde2_bytes e f) = FDE2_SIZE.
Proof. unfold fde2_bytes. rewrite !app_length, !enc_length. reflexivity. Qed.

Lemma fde2_decode_bytes e f : fde2_ok f -> fde2_decode e (fde2_bytes e f) = f.
Proof.
  intros (H1 & H2 & H3 & H4 & H5 & H6 & H7).
  destruct f as [st sz off n info rep pad]; cbn in *.
  unfold fde2_decode, fde2_bytes, rd_s; cbn [f2_start_address f2_size f2_start_fre_off f2_num_fres
    f2_info f2_rep_size f2_padding].
  rewrite <- (app_nil_r (enc e 2 pad)).
  f_equal; field; first [small_mod | small_s].
Qed.

(** ** Entry tables *)

Lemma decode_entries_length {A} size (d : bytes -> A) n bs :
  length (decode_entries size d n bs) = n.
Proof. revert bs. induction n as [|n IH]; intros bs; cbn; [reflexivity|]. rewrite IH; reflexivity. Qed.

Lemma decode_entries_nth {A} size (d : bytes -> A) n bs i :
  (i < n)%nat ->
  nth_error (decode_entries size d n bs) i = Some (d (sub_bytes (i * size) size bs)).
Proof.
  revert bs i. induction n as [|n IH]; intros bs i Hi; [lia|].
  destruct i as [|i]; cbn [decode_entries nth_error].
  - reflexivity.
  - rewrite IH by lia. do 2 f_equal. unfold sub_bytes.
    rewrite skipn_skipn. f_equal. 
Qed.

Lemma decode_entries_app {A} size (d : bytes -> A) n bs x :
  (n * size <= length bs)%nat ->
  decode_entries size d n (bs ++ x) = decode_entries size d n bs.
Proof.
  revert bs. induction n as [|n IH]; intros bs H; [reflexivity|].
  cbn [decode_entries]. cbn in H. f_equal.
  - f_equal. rewrite firstn_app. replace (size - length bs)%nat with 0%nat by lia.
    cbn. apply app_nil_r.
  - rewrite skipn_app. replace (size - length bs)%nat with 0%nat by lia. cbn [skipn].
    apply IH. rewrite skipn_length. lia.
Qed.

Lemma decode_entries_concat {A} size (d : bytes -> A) (enc1 : A -> bytes) l rest :
  Forall (fun a => length (enc1 a) = size /\ d (enc1 a) = a) l ->
  decode_entries size d (length l) (concat (map enc1 l) ++ rest) = l.
Proof.
  induction 1 as [|a t [HL HD] _ IH]; [reflexivity|].
  cbn [length decode_entries map concat]. rewrite <- app_assoc.
  rewrite firstn_app_exact by exact HL. rewrite skipn_app_exact by exact HL.
  rewrite HD, IH. reflexivity.
Qed.
